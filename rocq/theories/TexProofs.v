(** Proofs about the texture manager. *)
From Coq Require Import Ascii SpecFloat DecimalString.
From Verif Require Import Py UpmModel KitModel TexModel TexSpec.
Local Open Scope Z_scope.

Lemma fl_eqb_ok a b : fl_eqb a b = true <-> a = b.
Proof.
  destruct a, b; cbn; split; intros E; try discriminate; try reflexivity;
    try (apply Bool.eqb_prop in E; subst; reflexivity); try (injection E as ->; apply Bool.eqb_reflx).
  - apply andb_prop in E as [E E3]. apply andb_prop in E as [E1 E2].
    apply Bool.eqb_prop in E1. apply Pos.eqb_eq in E2. apply Z.eqb_eq in E3. subst. reflexivity.
  - injection E as -> -> ->. rewrite Bool.eqb_reflx, Pos.eqb_refl, Z.eqb_refl. reflexivity.
Qed.
Lemma comp_eqb_ok a b : comp_eqb a b = true <-> a = b.
Proof.
  destruct a, b; cbn; split; intros E; try discriminate.
  - apply Z.eqb_eq in E. congruence.
  - injection E as ->. apply Z.eqb_refl.
  - apply fl_eqb_ok in E. congruence.
  - injection E as ->. apply fl_eqb_ok. reflexivity.
Qed.
Lemma tname_eqb_ok a b : tname_eqb a b = true <-> a = b.
Proof.
  destruct a, b; cbn; split; intros E; try discriminate.
  - apply String.eqb_eq in E. congruence.
  - injection E as ->. apply String.eqb_refl.
  - apply andb_prop in E as [E E3]. apply andb_prop in E as [E1 E2]. rewrite comp_eqb_ok in E1, E2, E3. congruence.
  - injection E as -> -> ->. rewrite !(proj2 (comp_eqb_ok _ _) eq_refl). reflexivity.
Qed.
Lemma tname_refl a : tname_eqb a a = true.
Proof. apply tname_eqb_ok. reflexivity. Qed.
Lemma tname_neq a b : a <> b -> tname_eqb a b = false.
Proof. intros N. destruct (tname_eqb a b) eqn:E; [|reflexivity]. apply tname_eqb_ok in E. contradiction. Qed.

(** ** Dictionaries that number a list *)
Definition idx (n : nat) (start : nat) : list Z := map Z.of_nat (seq start n).
Definition backs (names : list tname) (start : nat) : list (tname * Z) := combine names (idx (List.length names) start).
Definition slots (ts : list tex) (start : nat) : list (Z * tex) := combine (idx (List.length ts) start) ts.

Lemma dset_absent {K V} (eqb : K -> K -> bool) (d : list (K * V)) k v :
  (forall k' v', In (k', v') d -> eqb k' k = false) -> dset eqb d k v = d ++ [(k, v)].
Proof.
  induction d as [|[k' v'] d IH]; intros A; [reflexivity|]. cbn [dset app].
  rewrite (A k' v' (or_introl eq_refl)), IH; [reflexivity|]. intros k2 v2 H2. apply (A k2 v2). right. exact H2.
Qed.
Lemma backs_snoc names n : forall s, backs (names ++ [n]) s = backs names s ++ [(n, Z.of_nat (s + List.length names))].
Proof.
  induction names as [|a l IH]; intros s; [cbn; rewrite Nat.add_0_r; reflexivity|].
  unfold backs, idx in *. cbn [app List.length seq map combine]. rewrite (IH (S s)). cbn [app]. do 4 f_equal. lia.
Qed.
Lemma slots_snoc ts t : forall s, slots (ts ++ [t]) s = slots ts s ++ [(Z.of_nat (s + List.length ts), t)].
Proof.
  induction ts as [|a l IH]; intros s; [cbn; rewrite Nat.add_0_r; reflexivity|].
  unfold slots, idx in *. cbn [app List.length seq map combine]. rewrite (IH (S s)). cbn [app]. do 4 f_equal. lia.
Qed.
Lemma slots_length ts s : List.length (slots ts s) = List.length ts.
Proof. unfold slots, idx. rewrite combine_length, map_length, seq_length. lia. Qed.
Lemma slots_keys ts : forall s k t, In (k, t) (slots ts s) -> Z.of_nat s <= k < Z.of_nat (s + List.length ts).
Proof.
  induction ts as [|a l IH]; intros s k t; cbn; [intros []|].
  intros [E|E]; [injection E as <- <-; lia|]. apply (IH (S s)) in E. lia.
Qed.
Lemma backs_in names : forall s n k, In (n, k) (backs names s) -> In n names.
Proof.
  induction names as [|a l IH]; intros s n k; cbn; [intros []|].
  intros [E|E]; [left; congruence|right; apply (IH (S s) n k); exact E].
Qed.
Lemma backs_get names n : forall s, dget tname_eqb (backs names s) n =
  match find (fun i => match nth_error names i with Some x => tname_eqb x n | None => false end) (seq 0 (List.length names)) with
  | Some i => Some (Z.of_nat (s + i)) | None => None end.
Proof.
  induction names as [|a l IH]; intros s; [reflexivity|].
  unfold backs, idx in *. cbn [List.length seq map combine dget find nth_error].
  destruct (tname_eqb a n); [rewrite Nat.add_0_r; reflexivity|].
  rewrite (IH (S s)). rewrite <- seq_shift.
  generalize (seq 0 (List.length l)) as q. induction q as [|i q IQ]; [reflexivity|].
  cbn [find map nth_error]. destruct (match nth_error l i with Some x => tname_eqb x n | None => false end); [|exact IQ].
  f_equal. lia.
Qed.
Lemma backs_some names n k s : dget tname_eqb (backs names s) n = Some k ->
  exists i, k = Z.of_nat (s + i) /\ nth_error names i = Some n.
Proof.
  rewrite backs_get. destruct (find _ _) as [i|] eqn:F; [|discriminate]. intros E. injection E as <-.
  exists i. split; [reflexivity|]. apply find_some in F as [_ F].
  destruct (nth_error names i) as [x|]; [|discriminate]. apply tname_eqb_ok in F. congruence.
Qed.
Lemma backs_none names n s : dget tname_eqb (backs names s) n = None -> ~ In n names.
Proof.
  rewrite backs_get. destruct (find _ _) as [i|] eqn:F; [discriminate|]. intros _ Hn.
  apply In_nth_error in Hn as [i Hi].
  assert (i < List.length names)%nat as L by (apply nth_error_Some; congruence).
  assert (In i (seq 0 (List.length names))) as Hq by (apply in_seq; lia).
  apply (find_none _ _ F) in Hq. cbn beta in Hq. rewrite Hi, tname_refl in Hq. discriminate.
Qed.
Lemma backs_hit names n s : In n names -> exists k, dget tname_eqb (backs names s) n = Some k.
Proof. intros Hn. destruct (dget tname_eqb (backs names s) n) as [k|] eqn:E; [eauto|]. apply backs_none in E. contradiction. Qed.

Lemma F2_length {A B} (R : A -> B -> Prop) l l' : Forall2 R l l' -> List.length l = List.length l'.
Proof. intros F. induction F; cbn; congruence. Qed.

(** ** The invariant *)
Definition inv (known : list (tname * tex)) (names : list tname) (m : texman) : Prop :=
  NoDup names /\ tm_backref m = backs names 0 /\
  (exists ts, tm_atlas m = slots ts 0 /\ Forall2 (fun n t => texture_of known n = Some t) names ts) /\
  (forall s, dget tname_eqb (tm_texref m) (Named s) = dget tname_eqb known (Named s)).

Lemma dget_dset_named d n t s : n <> Named s -> dget tname_eqb (dset tname_eqb d n t) (Named s) = dget tname_eqb d (Named s) :> option tex.
Proof.
  intros N. induction d as [|[k v] d IH]; cbn [dset dget]; [rewrite (tname_neq _ _ N); reflexivity|].
  destruct (tname_eqb k n) eqn:E; cbn [dget].
  - apply tname_eqb_ok in E. subst k. rewrite (tname_neq _ _ N). reflexivity.
  - destruct (tname_eqb k (Named s)); [reflexivity|exact IH].
Qed.

Lemma insert_inv known names m n t : inv known names m -> ~ In n names -> texture_of known n = Some t ->
  inv known (names ++ [n]) (insert m n t) /\ lookup (insert m n t) n = Ok (Z.of_nat (List.length names)).
Proof.
  intros (ND & EB & (ts & EA & F2) & ER) Hn Ht. pose proof (F2_length _ _ _ F2) as L.
  assert (tm_backref (insert m n t) = backs (names ++ [n]) 0) as EB'.
  { unfold insert. cbn [tm_backref]. rewrite EA, EB, slots_length, <- L, dset_absent, backs_snoc; [reflexivity|].
    intros k' v' Hin. apply tname_neq. intros ->. apply Hn, (backs_in _ _ _ _ Hin). }
  split.
  - split.
    { clear -ND Hn. induction names as [|a l IH]; [constructor; [intros []|constructor]|].
      inversion_clear ND as [|? ? Ha Hl]. cbn. constructor.
      - rewrite in_app_iff. intros [H|[H|[]]]; [contradiction|]. apply Hn. left. congruence.
      - apply IH; [exact Hl|]. intros H. apply Hn. right. exact H. }
    split; [exact EB'|]. split; [|exact ER]. exists (ts ++ [t]). split.
    + unfold insert. cbn [tm_atlas]. rewrite EA, slots_length, dset_absent, slots_snoc; [reflexivity|].
      intros k' v' Hin. apply slots_keys in Hin. apply Z.eqb_neq. lia.
    + apply Forall2_app; [exact F2|]. constructor; [exact Ht|constructor].
  - unfold lookup. rewrite EB'. destruct (backs_hit (names ++ [n]) n 0) as [k Ek]; [apply in_elt|]. rewrite Ek.
    apply backs_some in Ek as (i & -> & Hi). cbn [Nat.add].
    destruct (lt_dec i (List.length names)) as [Li|Li].
    + rewrite nth_error_app1 in Hi by exact Li. apply nth_error_In in Hi. contradiction.
    + rewrite nth_error_app2 in Hi by lia. destruct (i - List.length names)%nat as [|j] eqn:Ei; [|destruct j; discriminate].
      replace i with (List.length names) by lia. reflexivity.
Qed.

Lemma ask_inv known names m q : inv known names m ->
  if servable known q then
    if existsb (tname_eqb (req_name q)) names then
      exists i, ask m q = (m, Ok (Z.of_nat i)) /\ nth_error names i = Some (req_name q)
    else inv known (names ++ [req_name q]) (fst (ask m q)) /\ snd (ask m q) = Ok (Z.of_nat (List.length names))
  else ask m q = (m, Err KeyError) \/ In (req_name q) names.
Proof.
  intros V. pose proof V as (ND & EB & (ts & EA & F2) & ER).
  assert (dget tname_eqb (tm_backref m) (req_name q) = dget tname_eqb (backs names 0) (req_name q)) as EG by (rewrite EB; reflexivity).
  destruct (existsb (tname_eqb (req_name q)) names) eqn:EX.
  - apply existsb_exists in EX as (x & Hx & Ex). apply tname_eqb_ok in Ex. subst x.
    destruct (backs_hit names (req_name q) 0 Hx) as [k Ek]. rewrite Ek in EG.
    destruct (backs_some _ _ _ _ Ek) as (i & -> & Hi).
    destruct (servable known q); [|right; exact Hx]. exists i. split; [|exact Hi].
    destruct q; cbn [ask req_name] in *; unfold get, get_colour, dmem, lookup; rewrite EG; reflexivity.
  - assert (~ In (req_name q) names) as Hn.
    { intros Hn. enough (existsb (tname_eqb (req_name q)) names = true) by congruence.
      apply existsb_exists. exists (req_name q). split; [exact Hn|apply tname_refl]. }
    assert (dget tname_eqb (backs names 0) (req_name q) = None) as EN.
    { destruct (dget tname_eqb (backs names 0) (req_name q)) as [k|] eqn:E; [|reflexivity].
      apply backs_some in E as (i & _ & Hi). apply nth_error_In in Hi. contradiction. }
    rewrite EN in EG. destruct q as [s|r g b]; cbn [ask req_name servable] in *.
    + unfold get, dmem. rewrite EG, ER. destruct (dget tname_eqb known (Named s)) as [t|] eqn:ET.
      * destruct (insert_inv known names m (Named s) t V Hn ET) as [A B]. cbn [fst snd]. split; [exact A|exact B].
      * left. reflexivity.
    + unfold get_colour, dmem. rewrite EG.
      set (m1 := TM (tm_atlas m) (tm_backref m) _).
      assert (inv known names m1) as V1.
      { split; [exact ND|]. split; [exact EB|]. split; [exists ts; split; assumption|].
        intros s. unfold m1. cbn [tm_texref]. rewrite dget_dset_named by discriminate. apply ER. }
      destruct (insert_inv known names m1 (Coloured r g b) _ V1 Hn eq_refl) as [A B]. cbn [fst snd]. split; [exact A|exact B].
Qed.

(** Names in order of first use, extended by one. *)
Lemma firsts_snoc n : forall l seen, firsts seen (l ++ [n]) =
  firsts seen l ++ if existsb (tname_eqb n) (seen ++ firsts seen l) then [] else [n].
Proof.
  induction l as [|a l IH]; intros seen; cbn [app firsts].
  - rewrite app_nil_r. destruct (existsb (tname_eqb n) seen); reflexivity.
  - destruct (existsb (tname_eqb a) seen) eqn:Ea; [apply IH|]. cbn [app]. rewrite IH. cbn [app]. do 2 f_equal.
    cbn [existsb]. rewrite !existsb_app. cbn [existsb]. destruct (tname_eqb n a), (existsb (tname_eqb n) seen); reflexivity.
Qed.
Lemma existsb_in n l : existsb (tname_eqb n) l = true <-> In n l.
Proof.
  split.
  - intros E. apply existsb_exists in E as (x & Hx & E). apply tname_eqb_ok in E. congruence.
  - intros Hn. apply existsb_exists. exists n. split; [exact Hn|apply tname_refl].
Qed.
Lemma in_order_snoc known l q : in_order known (l ++ [q]) =
  in_order known l ++ if servable known q && negb (existsb (tname_eqb (req_name q)) (in_order known l)) then [req_name q] else [].
Proof.
  unfold in_order, used. rewrite filter_app, map_app. cbn [filter]. destruct (servable known q) eqn:S; cbn [map andb].
  - change (firsts [] ((Named "sky"%string :: Named "default"%string :: map req_name (filter (servable known) l)) ++ [req_name q]) =
      firsts [] (Named "sky"%string :: Named "default"%string :: map req_name (filter (servable known) l)) ++
      (if negb (existsb (tname_eqb (req_name q)) (firsts [] (Named "sky"%string :: Named "default"%string :: map req_name (filter (servable known) l)))) then [req_name q] else [])).
    rewrite firsts_snoc. cbn [app]. destruct (existsb _ _); reflexivity.
  - rewrite !app_nil_r. reflexivity.
Qed.

Lemma init_inv known : has_base known -> inv known (in_order known []) (tm_init known).
Proof.
  intros [Hs Hd].
  assert (inv known [] (TM [] [] known)) as V0.
  { split; [constructor|]. split; [reflexivity|]. split; [exists []; split; [reflexivity|constructor]|reflexivity]. }
  pose proof (ask_inv known [] _ (RGet "sky"%string) V0) as A. cbn [servable] in A. unfold dmem in A. rewrite Hs in A.
  cbn [existsb req_name app] in A. destruct A as [A _].
  pose proof (ask_inv known _ _ (RGet "default"%string) A) as B. cbn [servable] in B. unfold dmem in B. rewrite Hd in B.
  change (existsb (tname_eqb (req_name (RGet "default"%string))) [Named "sky"%string]) with false in B. destruct B as [B _].
  exact B.
Qed.
Lemma run_inv known : has_base known -> forall l, inv known (in_order known l) (asked (tm_init known) l).
Proof.
  intros HB l. induction l as [|q l IH] using rev_ind; [exact (init_inv known HB)|].
  unfold asked. rewrite fold_left_app. cbn [fold_left]. fold (asked (tm_init known) l).
  pose proof (ask_inv known _ _ q IH) as A. rewrite in_order_snoc.
  destruct (servable known q) eqn:S; cbn [andb].
  - destruct (existsb (tname_eqb (req_name q)) (in_order known l)); cbn [negb].
    + destruct A as (i & E & _). rewrite E, app_nil_r. exact IH.
    + exact (proj1 A).
  - rewrite app_nil_r. destruct A as [E|Hn]; [rewrite E; exact IH|].
    (* a name in use that cannot be served does not exist *)
    exfalso. destruct IH as (_ & _ & (ts & _ & F2) & _). destruct q as [s|r g b]; [|discriminate].
    cbn in S. unfold dmem in S. cbn [req_name] in Hn.
    clear -S Hn F2. induction F2 as [|n t ns ts Ht _ IH]; [destruct Hn|]. destruct Hn as [->|Hn]; [|exact (IH Hn)].
    cbn in Ht. rewrite Ht in S. discriminate.
Qed.

(** ** The properties *)
Lemma answer_place known l q : has_base known -> servable known q = true ->
  exists k, snd (ask (asked (tm_init known) l) q) = Ok (Z.of_nat k) /\
            nth_error (in_order known (l ++ [q])) k = Some (req_name q).
Proof.
  intros HB S. pose proof (ask_inv known _ _ q (run_inv known HB l)) as A. rewrite S in A.
  rewrite in_order_snoc, S. cbn [andb]. destruct (existsb (tname_eqb (req_name q)) (in_order known l)); cbn [negb].
  - destruct A as (i & E & Hi). exists i. rewrite E, app_nil_r. split; [reflexivity|exact Hi].
  - destruct A as [_ E]. exists (List.length (in_order known l)). split; [exact E|].
    rewrite nth_error_app2 by lia. rewrite Nat.sub_diag. reflexivity.
Qed.
Lemma in_order_nodup known l : has_base known -> NoDup (in_order known l).
Proof. intros HB. exact (proj1 (run_inv known HB l)). Qed.
Lemma in_order_prefix known l l' : exists r, in_order known (l ++ l') = in_order known l ++ r.
Proof.
  induction l' as [|q l' IH] using rev_ind; [exists []; rewrite !app_nil_r; reflexivity|].
  destruct IH as [r IH]. rewrite app_assoc, in_order_snoc, IH. rewrite <- app_assoc. eauto.
Qed.
Lemma unserved known l q : has_base known -> servable known q = false ->
  ask (asked (tm_init known) l) q = (asked (tm_init known) l, Err KeyError).
Proof.
  intros HB S. pose proof (ask_inv known _ _ q (run_inv known HB l)) as A. rewrite S in A. destruct A as [A|Hn]; [exact A|].
  exfalso. destruct (run_inv known HB l) as (_ & _ & (ts & _ & F2) & _). destruct q as [s|r g b]; [|discriminate].
  cbn in S. unfold dmem in S. cbn [req_name] in Hn.
  clear -S Hn F2. induction F2 as [|n t ns ts Ht _ IH]; [destruct Hn|]. destruct Hn as [->|Hn]; [|exact (IH Hn)].
  cbn in Ht. rewrite Ht in S. discriminate.
Qed.
Lemma answer_ok known l q k : has_base known -> snd (ask (asked (tm_init known) l) q) = Ok k -> servable known q = true.
Proof.
  intros HB E. destruct (servable known q) eqn:S; [reflexivity|]. rewrite (unserved known l q HB S) in E. discriminate.
Qed.
Lemma stable known l l' q k : has_base known ->
  snd (ask (asked (tm_init known) l) q) = Ok k -> snd (ask (asked (tm_init known) (l ++ q :: l')) q) = Ok k.
Proof.
  intros HB E. pose proof (answer_ok _ _ _ _ HB E) as S.
  destruct (answer_place known l q HB S) as (i & Ei & Hi). rewrite Ei in E. injection E as <-.
  destruct (answer_place known (l ++ q :: l') q HB S) as (j & Ej & Hj). rewrite Ej. do 2 f_equal.
  destruct (in_order_prefix known (l ++ [q]) (l' ++ [q])) as [r Er].
  replace ((l ++ [q]) ++ l' ++ [q]) with ((l ++ q :: l') ++ [q]) in Er by (rewrite <- !app_assoc; reflexivity).
  pose proof (in_order_nodup known ((l ++ q :: l') ++ [q]) HB) as ND.
  assert (nth_error (in_order known ((l ++ q :: l') ++ [q])) i = Some (req_name q)) as Hi'.
  { rewrite Er, nth_error_app1; [exact Hi|]. apply nth_error_Some. congruence. }
  rewrite NoDup_nth_error in ND. apply ND; [apply nth_error_Some; congruence|congruence].
Qed.
Lemma distinct known l q q' k : has_base known ->
  snd (ask (asked (tm_init known) l) q) = Ok k -> snd (ask (asked (tm_init known) (l ++ [q])) q') = Ok k -> req_name q = req_name q'.
Proof.
  intros HB E E'. pose proof (answer_ok _ _ _ _ HB E) as S. pose proof (answer_ok _ _ _ _ HB E') as S'.
  destruct (answer_place known l q HB S) as (i & Ei & Hi). rewrite Ei in E. injection E as <-.
  destruct (answer_place known (l ++ [q]) q' HB S') as (j & Ej & Hj). rewrite Ej in E'. injection E' as E'.
  apply Nat2Z.inj in E'. subst j. destruct (in_order_prefix known (l ++ [q]) [q']) as [r Er].
  rewrite Er, nth_error_app1 in Hj by (apply nth_error_Some; congruence). congruence.
Qed.
Lemma atlas_in_order known l : has_base known ->
  exists ts, Forall2 (fun n t => texture_of known n = Some t) (in_order known l) ts /\
    tm_atlas (asked (tm_init known) l) = combine (map Z.of_nat (seq 0 (List.length ts))) ts.
Proof. intros HB. destruct (run_inv known HB l) as (_ & _ & (ts & EA & F2) & _). exists ts. split; [exact F2|exact EA]. Qed.
Lemma confs_numbered show : forall ts s, confs show (Z.of_nat s) (slots ts s) =
  fold_right append ""%string (map (fun kt => conf show (fst kt) (snd kt)) (combine (map Z.of_nat (seq s (List.length ts))) ts)).
Proof.
  induction ts as [|t ts IH]; intros s; [reflexivity|].
  unfold slots, idx in *. cbn [List.length seq map combine confs fold_right fst snd]. f_equal. rewrite <- IH. f_equal. lia.
Qed.
Lemma config_exact known l show author name : has_base known ->
  exists ts, Forall2 (fun n t => texture_of known n = Some t) (in_order known l) ts /\
    emit_conf show author name (asked (tm_init known) l) = append (header author name)
      (fold_right append ""%string (map (fun kt => conf show (fst kt) (snd kt)) (combine (map Z.of_nat (seq 0 (List.length ts))) ts))).
Proof.
  intros HB. destruct (atlas_in_order known l HB) as (ts & F2 & EA). exists ts. split; [exact F2|].
  unfold emit_conf. rewrite EA. change 0 with (Z.of_nat 0). rewrite <- confs_numbered. reflexivity.
Qed.

Lemma auto_is_ask m c : auto_get_c m c = ask m (category_request c).
Proof. unfold auto_get_c, category_request. repeat destruct (String.eqb _ _); reflexivity. Qed.
Lemma category_fixed known l : has_base known -> forall c, exists k,
  snd (auto_get_c (asked (tm_init known) l) c) = Ok k /\
  fst (auto_get_c (asked (tm_init known) l) c) = asked (tm_init known) (l ++ [category_request c]) /\
  forall l', snd (auto_get_c (asked (tm_init known) (l ++ category_request c :: l')) c) = Ok k.
Proof.
  intros HB c. rewrite auto_is_ask.
  assert (servable known (category_request c) = true) as S
    by (unfold category_request; repeat destruct (String.eqb _ _); reflexivity).
  destruct (answer_place known l _ HB S) as (k & E & _). exists (Z.of_nat k). split; [exact E|]. split.
  - unfold asked. rewrite fold_left_app. reflexivity.
  - intros l'. rewrite auto_is_ask. apply stable; assumption.
Qed.

(** ** Themes *)
Lemma pick_ok known l names g : has_base known -> names <> [] ->
  (forall s, In s names -> dmem tname_eqb known (Named s) = true) ->
  exists k m' g', pick (asked (tm_init known) l) names g = (m', Ok (Number k), g').
Proof.
  intros HB NE A. unfold pick, choice. destruct names as [|a r]; [contradiction|].
  destruct (draw g) as [d g1]. set (s := nth _ _ _).
  assert (In s (a :: r)) as Hs by (apply nth_In; pose proof (Z.mod_pos_bound d (Z.of_nat (List.length (a :: r)))); cbn [List.length] in *; lia).
  destruct (answer_place known l (RGet s) HB (A s Hs)) as (k & E & _). cbn [ask] in E.
  destruct (get (asked (tm_init known) l) (Named s)) as [m' r'] eqn:EG. cbn [snd] in E. subst r'. cbn [bind]. eauto.
Qed.

Definition complete (known : list (tname * tex)) (l : list string) : bool :=
  negb (Nat.eqb (List.length l) 0) && forallb (fun s => dmem tname_eqb known (Named s)) l.
Lemma complete_pick known l names g : has_base known -> complete known names = true ->
  exists k m' g', pick (asked (tm_init known) l) names g = (m', Ok (Number k), g').
Proof.
  intros HB C. apply andb_prop in C as [C1 C2]. apply pick_ok; [exact HB| |].
  - intros ->. discriminate.
  - intros s Hs. rewrite forallb_forall in C2. apply C2, Hs.
Qed.
Definition theme_complete (known : list (tname * tex)) (th : theme) : bool :=
  complete known (th_generic th) && complete known (th_column th) && complete known (th_floor th) &&
  complete known (th_wall th) && complete known (th_accent th).
Lemma theme_ok known th l c g : has_base known -> theme_complete known th = true -> In c categories ->
  exists k m' g', themed_get_c th (asked (tm_init known) l) c g = (m', Ok (Number k), g').
Proof.
  intros HB C Hc. unfold theme_complete in C. rewrite !Bool.andb_true_iff in C. destruct C as ((((? & ?) & ?) & ?) & ?).
  cbn in Hc. destruct Hc as [<-|[<-|[<-|[<-|[<-|[]]]]]]; unfold themed_get_c; simpl String.eqb; cbv iota; apply complete_pick; assumption.
Qed.
Lemma base_ok classes : dget tname_eqb (discovered classes) (Named "sky"%string) = Some Sky ->
  dget tname_eqb (discovered classes) (Named "default"%string) = Some Default -> has_base (discovered classes).
Proof. intros A B. split; assumption. Qed.
Lemma minecraft_base : has_base (discovered minecraft).
Proof. split; vm_compute; reflexivity. Qed.
Lemma paper_base : has_base (discovered paper).
Proof. split; vm_compute; reflexivity. Qed.
Lemma primary_base : has_base (discovered primary).
Proof. split; vm_compute; reflexivity. Qed.
Lemma dull_base : has_base (discovered dull).
Proof. split; vm_compute; reflexivity. Qed.
Lemma minecraft_ok l c g : In c categories -> exists k m' g',
  themed_get_c minecraft_theme (asked (tm_init (discovered minecraft)) l) c g = (m', Ok (Number k), g').
Proof. apply theme_ok; [exact minecraft_base|vm_compute; reflexivity]. Qed.
Lemma paper_ok l c g : In c categories -> exists k m' g',
  themed_get_c paper_theme (asked (tm_init (discovered paper)) l) c g = (m', Ok (Number k), g').
Proof. apply theme_ok; [exact paper_base|vm_compute; reflexivity]. Qed.
Lemma primary_ok l c g : In c categories -> exists k m' g',
  themed_get_c primary_theme (asked (tm_init (discovered primary)) l) c g = (m', Ok (Number k), g').
Proof. apply theme_ok; [exact primary_base|vm_compute; reflexivity]. Qed.
Lemma dull_partial l c g : In c ["column"; "wall"; "accent"]%string -> exists k m' g',
  themed_get_c dull_theme (asked (tm_init (discovered dull)) l) c g = (m', Ok (Number k), g').
Proof.
  intros Hc. cbn in Hc. destruct Hc as [<-|[<-|[<-|[]]]]; unfold themed_get_c; simpl String.eqb; cbv iota;
    apply complete_pick; (exact dull_base || (vm_compute; reflexivity)).
Qed.
Lemma dull_refuted : exists l g, 
  snd (fst (themed_get_c dull_theme (asked (tm_init (discovered dull)) l) "generic" g)) = Err KeyError /\
  exists g', snd (fst (themed_get_c dull_theme (asked (tm_init (discovered dull)) l) "floor" g')) = Err KeyError.
Proof. exists [], (fun _ => 4). split; [vm_compute; reflexivity|]. exists (fun _ => 28). vm_compute. reflexivity. Qed.
Lemma unknown_category th m c g : ~ In c categories -> th_generic th <> [] ->
  exists s g', In s (th_generic th) /\ themed_get_c th m c g = (m, Ok (Text s), g').
Proof.
  intros Hc NE. cbn in Hc. unfold themed_get_c.
  destruct (String.eqb_spec c "generic"); [subst; tauto|]. destruct (String.eqb_spec c "column"); [subst; tauto|].
  destruct (String.eqb_spec c "floor"); [subst; tauto|]. destruct (String.eqb_spec c "wall"); [subst; tauto|].
  destruct (String.eqb_spec c "accent"); [subst; tauto|].
  unfold choice. destruct (th_generic th) as [|a r]; [contradiction|]. destruct (draw g) as [d g1].
  eexists; eexists. split; [|reflexivity]. apply nth_In.
  pose proof (Z.mod_pos_bound d (Z.of_nat (List.length (a :: r)))). cbn [List.length] in *. lia.
Qed.

(** ** Lines *)
Local Open Scope string_scope.
Lemma sapp_assoc a b c : ((a ++ b) ++ c = a ++ (b ++ c))%string.
Proof. induction a as [|x a IH]; cbn; [reflexivity|]. f_equal. exact IH. Qed.
Lemma sapp_nil a : (a ++ "" = a)%string.
Proof. induction a as [|x a IH]; cbn; [reflexivity|]. f_equal. exact IH. Qed.
Lemma lines_split : forall a cur b, lines_from cur (a ++ nl ++ b) = (lines_from cur a ++ lines_from "" b)%list.
Proof.
  induction a as [|x a IH]; intros cur b; [reflexivity|]. change (String x a ++ nl ++ b) with (String x (a ++ nl ++ b)).
  cbn [lines_from]. destruct (Ascii.eqb x newline); [cbn [app]; f_equal; apply IH|apply IH].
Qed.
Lemma st_split a b : statements (a ++ nl ++ b) = (statements a ++ statements b)%list.
Proof. unfold statements. rewrite lines_split, filter_app. reflexivity. Qed.
Definition ends (s : string) : Prop := exists b, s = b ++ nl.
Lemma st_ends a b : ends a -> statements (a ++ b) = (statements a ++ statements b)%list.
Proof.
  intros [c ->]. rewrite sapp_assoc, st_split. f_equal. replace (c ++ nl) with (c ++ nl ++ "") by reflexivity.
  rewrite st_split. change (statements "") with (@nil string). rewrite app_nil_r. reflexivity.
Qed.
Lemma ends_app a b : ends b -> ends (a ++ b).
Proof. intros [c ->]. exists (a ++ c). rewrite sapp_assoc. reflexivity. Qed.
Lemma ends_nl : ends nl.
Proof. exists "". reflexivity. Qed.
Lemma ends_optional a b o after : ends b -> ends after -> ends (b ++ optional a o after).
Proof.
  intros E E2. destruct o as [s|]; cbn [optional]; [apply ends_app, ends_app, ends_app; exact E2|].
  rewrite sapp_nil. exact E.
Qed.
Ltac ends_tac := repeat first [exact ends_nl | apply ends_app].
Lemma ends_line slot base file rest : ends (texture_line slot base file rest).
Proof. unfold texture_line. ends_tac. Qed.
Ltac ends_tac2 := repeat first [exact ends_nl | apply ends_line | apply ends_optional; [apply ends_line|apply ends_app, ends_nl] | apply ends_app].
Lemma conf_ends show k t : untinted t -> ends (conf show k t).
Proof.
  intros U. destruct t; unfold conf.
  - ends_tac2.
  - ends_tac2.
  - ends_tac2.
  - ends_tac2.
  - destruct texcolor; [destruct U|]. cbn [optional]. rewrite sapp_nil. ends_tac2.
  - ends_tac2.
  - ends_tac2.
Qed.
Lemma one_lines : forall s cur, one_line s -> lines_from cur s = [cur ++ s].
Proof.
  induction s as [|c s IH]; intros cur O; [cbn [lines_from]; rewrite sapp_nil; reflexivity|]. destruct O as [N O].
  cbn [lines_from]. destruct (Ascii.eqb_spec c newline) as [E|_]; [contradiction|]. rewrite IH by exact O.
  rewrite sapp_assoc. reflexivity.
Qed.
Lemma st_one s : one_line s -> statements s = if String.eqb s "" then [] else [s].
Proof. intros O. unfold statements. rewrite one_lines by exact O. cbn [append filter]. destruct (String.eqb s ""); reflexivity. Qed.
Lemma one_app a b : one_line (a ++ b) <-> one_line a /\ one_line b.
Proof. induction a as [|c a IH]; cbn [append one_line]; [tauto|]. rewrite IH. tauto. Qed.
Lemma one_uint d : one_line (NilZero.string_of_uint d).
Proof.
  assert (forall d, one_line (NilEmpty.string_of_uint d)) as A.
  { induction d0; cbn [NilEmpty.string_of_uint one_line]; (exact Logic.I || (split; [discriminate|assumption])). }
  destruct d; [cbn; split; [discriminate|exact Logic.I]|apply A..].
Qed.
Lemma one_decimal z : one_line (decimal z).
Proof.
  unfold decimal. destruct (Z.to_int z) as [d|d]; cbn [NilZero.string_of_int]; [apply one_uint|].
  cbn [one_line]. split; [discriminate|apply one_uint].
Qed.

(** The statements that open a slot. *)
Definition opening (s : string) : list string := filter opens_slot (statements s).
Lemma op_split s rest : one_line s -> opening (s ++ nl ++ rest) = ((if opens_slot s then [s] else []) ++ opening rest)%list.
Proof.
  intros O. unfold opening. rewrite st_split, filter_app, st_one by exact O. f_equal.
  destruct (String.eqb_spec s "") as [->|N]; [reflexivity|]. cbn [filter]. destruct (opens_slot s); reflexivity.
Qed.
Lemma op_ends a b : ends a -> opening (a ++ b) = (opening a ++ opening b)%list.
Proof. intros E. unfold opening. rewrite st_ends, filter_app by exact E. reflexivity. Qed.
Lemma line_shape slot base file rest : texture_line slot base file rest =
  ("texture " ++ slot ++ " " ++ quote ++ base ++ "/" ++ file ++ quote ++ rest) ++ nl ++ "".
Proof. unfold texture_line. rewrite !sapp_assoc. reflexivity. Qed.
Lemma line_one slot base file rest : one_line slot -> one_line base -> one_line file -> one_line rest ->
  one_line ("texture " ++ slot ++ " " ++ quote ++ base ++ "/" ++ file ++ quote ++ rest).
Proof. intros A B C D. rewrite !one_app. cbn. repeat split; try assumption; try discriminate. Qed.
Lemma op_line_c base file rest : one_line base -> one_line file -> one_line rest ->
  opening (texture_line "c" base file rest) = ["texture c " ++ quote ++ base ++ "/" ++ file ++ quote ++ rest].
Proof.
  intros B C D. rewrite line_shape, op_split by (apply line_one; try assumption; cbn; split; [discriminate|exact Logic.I]).
  reflexivity.
Qed.
Lemma op_line_o slot base file rest : In slot ["n"; "s"; "z"; "g"] -> one_line base -> one_line file -> one_line rest ->
  opening (texture_line slot base file rest) = [].
Proof.
  intros A B C D. rewrite line_shape, op_split.
  - cbn in A. destruct A as [<-|[<-|[<-|[<-|[]]]]]; reflexivity.
  - apply line_one; try assumption. cbn in A. destruct A as [<-|[<-|[<-|[<-|[]]]]]; (split; [discriminate|exact Logic.I]).
Qed.
(** The comment at the end of a diffuse line. *)
Lemma one_tail mid idx cls : one_line mid -> one_line cls -> one_line (mid ++ decimal idx ++ " " ++ cls).
Proof. intros A B. rewrite !one_app. pose proof (one_decimal idx). cbn. repeat split; try assumption. discriminate. Qed.

Ltac lit := cbn; repeat split; (discriminate || exact Logic.I || assumption).
(** Every texture opens exactly one slot. *)
Lemma conf_opens show k t : (forall c, one_line (show c)) -> tidy t -> untinted t ->
  exists l, opening (conf show k t) = [l].
Proof.
  intros SH T U.
  assert (forall s rest, one_line s -> opens_slot s = false -> opening (s ++ nl ++ rest) = opening rest) as P
    by (intros s rest O N; rewrite op_split by exact O; rewrite N; reflexivity).
  assert (forall rest, opening (nl ++ rest) = opening rest) as P0 by (intros rest; exact (P "" rest Logic.I eq_refl)).
  assert (forall before o rest, one_line before -> (forall s, opens_slot (before ++ s) = false) -> opt_line o ->
            opening (optional before o nl ++ rest) = opening rest) as PO.
  { intros before o rest B N O. destruct o as [s|]; [|reflexivity]. cbn [optional opt_line] in *.
    rewrite !sapp_assoc. replace (before ++ s ++ nl ++ rest) with ((before ++ s) ++ nl ++ rest) by apply sapp_assoc.
    apply P; [apply one_app; split; assumption|apply N]. }
  assert (forall before o, one_line before -> (forall s, opens_slot (before ++ s) = false) -> opt_line o ->
            opening (optional before o (nl ++ nl)) = []) as PE.
  { intros before o B N O. destruct o as [s|]; [|reflexivity]. cbn [optional opt_line] in *.
    replace (before ++ s ++ nl ++ nl) with ((before ++ s) ++ nl ++ nl) by apply sapp_assoc.
    rewrite P; [reflexivity|apply one_app; split; assumption|apply N]. }
  destruct t; cbn [tidy untinted] in T, U; unfold conf; rewrite ?P0; rewrite P by lit || reflexivity.
  - eexists. apply op_line_c; lit.
  - eexists. apply op_line_c; lit.
  - rewrite op_ends by apply ends_line. rewrite op_line_c; [|lit|lit|apply one_tail; [lit|exact T]].
    replace ("texcolor " ++ show r ++ " " ++ show g ++ " " ++ show b ++ nl)
      with (("texcolor " ++ show r ++ " " ++ show g ++ " " ++ show b) ++ nl ++ "") by (rewrite !sapp_assoc; reflexivity).
    rewrite P; [eexists; reflexivity| |reflexivity]. rewrite !one_app. pose proof (SH r). pose proof (SH g). pose proof (SH b). lit.
  - destruct T as (Tc & Ta & Tb & Td). eexists. apply op_line_c; [assumption..|].
    rewrite !one_app. pose proof (one_decimal k). lit.
  - destruct T as (Tc & Ta & Tb & Td & Te & Tf & _). destruct texcolor; [destruct U|]. cbn [optional]. rewrite sapp_nil.
    rewrite <- (sapp_assoc "setshaderparam specscale 0.500000 0.500000 0.500000 " scale).
    rewrite P; [|rewrite one_app; lit|reflexivity].
    rewrite !op_ends by apply ends_line.
    rewrite op_line_c; [|assumption|assumption|apply one_tail; [lit|assumption]].
    rewrite !op_line_o; try assumption; try (cbn; tauto). eexists. reflexivity.
  - destruct T as (Tc & Ta & Tb & Td & Te & Tf & To & Tp & Tq).
    rewrite PO; [|lit|reflexivity|assumption]. rewrite PO; [|lit|reflexivity|assumption].
    rewrite !op_ends by apply ends_line.
    rewrite op_line_c; [|assumption|assumption|apply one_tail; [lit|assumption]].
    rewrite !op_line_o; try assumption; try (cbn; tauto). rewrite PE; [|lit|reflexivity|assumption]. eexists. reflexivity.
  - destruct T as (Tc & Ta & Tb & Td & Te & Tf & Tg & To & Tp & Tq & Tr).
    rewrite PO; [|lit|reflexivity|assumption]. rewrite PO; [|lit|reflexivity|assumption]. rewrite PO; [|lit|reflexivity|assumption].
    rewrite !op_ends by apply ends_line.
    rewrite op_line_c; [|assumption|assumption|apply one_tail; [lit|assumption]].
    rewrite !op_line_o; try assumption; try (cbn; tauto). rewrite PE; [|lit|reflexivity|assumption]. eexists. reflexivity.
Qed.

(** The file. *)
Lemma header_ends author name : ends (header author name).
Proof. unfold header. ends_tac. Qed.
Lemma header_opens author name : one_line author -> one_line name -> opening (header author name) = [].
Proof.
  intros A B. unfold header.
  replace (nl ++ "// " ++ name ++ " by " ++ author ++ " (maps/base)" ++ nl ++ "// Config generated by Red Eclipse Map Generator" ++ nl ++ nl ++
  "// Variables stored in map file, may be uncommented here, or changed from editmode." ++ nl)
  with ("" ++ nl ++ ("// " ++ name ++ " by " ++ author ++ " (maps/base)") ++ nl ++ "// Config generated by Red Eclipse Map Generator" ++ nl ++ nl ++
  "// Variables stored in map file, may be uncommented here, or changed from editmode." ++ nl)
    by (rewrite !sapp_assoc; reflexivity).
  rewrite op_split by exact Logic.I. rewrite op_split by (rewrite !one_app; lit). reflexivity.
Qed.
Lemma confs_ends show : forall l k, Forall (fun kt : Z * tex => untinted (snd kt)) l ->
  statements (confs show k l) = List.concat (map (fun kt => statements (conf show (fst kt) (snd kt)))
     (combine (map (fun i => k + Z.of_nat i)%Z (seq 0 (List.length l))) (map snd l))).
Proof.
  induction l as [|[j t] l IH]; intros k F; [reflexivity|]. inversion_clear F as [|? ? U F'].
  cbn [confs List.length seq map combine snd List.concat fst]. rewrite st_ends by (apply conf_ends; exact U).
  rewrite IH by exact F'. rewrite <- seq_shift, map_map. f_equal; [do 2 f_equal; lia|].
  do 2 f_equal. f_equal. apply map_ext. intros i. lia.
Qed.
Lemma dget_in {V} (d : list (tname * V)) n v : dget tname_eqb d n = Some v -> exists n', In (n', v) d.
Proof.
  induction d as [|[a b] d IH]; [discriminate|]. cbn [dget]. destruct (tname_eqb a n).
  - intros E. injection E as <-. exists a. left. reflexivity.
  - intros E. destruct (IH E) as [n' H]. exists n'. right. exact H.
Qed.
Lemma texture_of_in known n t : texture_of known n = Some t ->
  (exists r g b, t = Colour SIMPLE_COLOUR r g b) \/ exists n', In (n', t) known.
Proof.
  destruct n as [s|r g b]; cbn [texture_of].
  - intros E. right. exact (dget_in _ _ _ E).
  - intros E. injection E as <-. left. eauto.
Qed.
Lemma all_textures known (P : tex -> Prop) names ts : (forall r g b, P (Colour SIMPLE_COLOUR r g b)) ->
  Forall (fun nt : tname * tex => P (snd nt)) known -> Forall2 (fun n t => texture_of known n = Some t) names ts -> Forall P ts.
Proof.
  intros PC PK F2. induction F2 as [|n t names ts E _ IH]; constructor; [|exact IH].
  apply texture_of_in in E as [(r & g & b & ->)|[n' Hn]]; [apply PC|]. rewrite Forall_forall in PK. exact (PK _ Hn).
Qed.
Lemma config_statements known l show author name : has_base known -> safe_table known ->
  exists ts, Forall2 (fun n t => texture_of known n = Some t) (in_order known l) ts /\
    statements (emit_conf show author name (asked (tm_init known) l)) = (statements (header author name) ++
      List.concat (map (fun kt => statements (conf show (fst kt) (snd kt))) (combine (map Z.of_nat (seq 0 (List.length ts))) ts)))%list.
Proof.
  intros HB SK. destruct (atlas_in_order known l HB) as (ts & F2 & EA). exists ts. split; [exact F2|].
  unfold emit_conf. rewrite st_ends by apply header_ends. f_equal. rewrite confs_ends.
  - rewrite EA. rewrite combine_length, map_length, seq_length, Nat.min_id.
    replace (map snd (combine (map Z.of_nat (seq 0 (List.length ts))) ts)) with ts; [reflexivity|].
    generalize 0%nat as s. clear. induction ts as [|t ts IH]; intros s; [reflexivity|]. cbn. f_equal. apply IH.
  - pose proof (all_textures known untinted _ ts (fun _ _ _ => Logic.I) SK F2) as U. rewrite EA.
    rewrite Forall_forall in *. intros [k t] Hin. apply in_combine_r in Hin. exact (U _ Hin).
Qed.
Lemma config_slots known l show author name : has_base known -> safe_table known -> tidy_table known ->
  (forall c, one_line (show c)) -> one_line author -> one_line name ->
  List.length (filter opens_slot (statements (emit_conf show author name (asked (tm_init known) l)))) =
  List.length (in_order known l).
Proof.
  intros HB SK TK SH A N. destruct (config_statements known l show author name HB SK) as (ts & F2 & E). rewrite E.
  rewrite filter_app. pose proof (header_opens author name A N) as HO. unfold opening in HO. rewrite HO. cbn [app].
  rewrite (F2_length _ _ _ F2).
  assert (Forall tidy ts) as T by (apply (all_textures known tidy _ ts) with (3 := F2); [intros; lit|exact TK]).
  assert (Forall untinted ts) as U by (apply (all_textures known untinted _ ts) with (3 := F2); [intros; lit|exact SK]).
  clear -T U SH. generalize 0%nat as s. induction ts as [|t ts IH]; intros s; [reflexivity|].
  inversion_clear T as [|? ? T1 T2]. inversion_clear U as [|? ? U1 U2].
  cbn [List.length seq map combine List.concat fst snd]. rewrite filter_app, app_length, (IH T2 U2).
  destruct (conf_opens show (Z.of_nat s) t SH T1 U1) as [x Ex]. unfold opening in Ex. rewrite Ex. reflexivity.
Qed.

(** ** The name of the configuration file *)
Definition mpz_at (s : string) : bool :=
  match s with String "." (String "m" (String "p" (String "z" _))) => true | _ => false end.
Lemma mpz_at_shape s : mpz_at s = true -> exists r, s = ".mpz" ++ r.
Proof.
  intros M. destruct s as [|a [|b [|c [|d r]]]]; try discriminate M;
    try (destruct a as [[] [] [] [] [] [] [] []]; discriminate M).
  - destruct a as [[] [] [] [] [] [] [] []]; try discriminate M; destruct b as [[] [] [] [] [] [] [] []]; discriminate M.
  - destruct a as [[] [] [] [] [] [] [] []]; try discriminate M; destruct b as [[] [] [] [] [] [] [] []]; try discriminate M;
      destruct c as [[] [] [] [] [] [] [] []]; discriminate M.
  - destruct a as [[] [] [] [] [] [] [] []]; try discriminate M; destruct b as [[] [] [] [] [] [] [] []]; try discriminate M;
      destruct c as [[] [] [] [] [] [] [] []]; try discriminate M; destruct d as [[] [] [] [] [] [] [] []]; try discriminate M.
    exists r. reflexivity.
Qed.
Lemma cfg_step a r : mpz_at (String a r) = false -> cfg_name (String a r) = String a (cfg_name r).
Proof.
  intros M. destruct a as [[] [] [] [] [] [] [] []]; try reflexivity.
  destruct r as [|b r]; [reflexivity|]. destruct b as [[] [] [] [] [] [] [] []]; try reflexivity.
  destruct r as [|c r]; [reflexivity|]. destruct c as [[] [] [] [] [] [] [] []]; try reflexivity.
  destruct r as [|d r]; [reflexivity|]. destruct d as [[] [] [] [] [] [] [] []]; try reflexivity. discriminate M.
Qed.
Lemma cfg_same s : cfg_name s = s <-> ~ occurs ".mpz" s.
Proof.
  induction s as [|a s IH].
  - split; [|reflexivity]. intros _ (x & y & E). destruct x; discriminate.
  - destruct (mpz_at (String a s)) eqn:M.
    + apply mpz_at_shape in M as [r Er]. rewrite Er. split; [discriminate|]. intros N. exfalso. apply N. exists "", r. reflexivity.
    + rewrite (cfg_step a s M). split.
      * intros E. injection E as E. apply IH in E. intros (x & y & X). destruct x as [|b x].
        -- cbn [append] in X. rewrite X in M. discriminate.
        -- cbn [append] in X. injection X as -> X. apply E. exists x, y. exact X.
      * intros N. f_equal. apply IH. intros (x & y & X). apply N. exists (String a x), y. cbn [append]. f_equal. exact X.
Qed.
Lemma separate_files name : cfg_name name <> name <-> occurs ".mpz" name.
Proof.
  split.
  - induction name as [|a s IH]; [intros N; exfalso; apply N; reflexivity|]. destruct (mpz_at (String a s)) eqn:M.
    + apply mpz_at_shape in M as [r ->]. intros _. exists "", r. reflexivity.
    + rewrite (cfg_step a s M). intros N. destruct IH as (x & y & ->); [congruence|]. exists (String a x), y. reflexivity.
  - intros O E. apply cfg_same in E. contradiction.
Qed.
Lemma same_file : exists name, cfg_name name = name.
Proof. exists "castle". reflexivity. Qed.
Lemma config_full known l show author name : has_base known ->
  exists ts, Forall2 (fun n t => texture_of known n = Some t) (in_order known l) ts /\
    tm_atlas (asked (tm_init known) l) = combine (map Z.of_nat (seq 0 (List.length ts))) ts /\
    emit_conf show author name (asked (tm_init known) l) = header author name ++
      fold_right append "" (map (fun kt => conf show (fst kt) (snd kt)) (combine (map Z.of_nat (seq 0 (List.length ts))) ts)).
Proof.
  intros HB. destruct (atlas_in_order known l HB) as (ts & F2 & EA). exists ts. split; [exact F2|]. split; [exact EA|].
  unfold emit_conf. rewrite EA. change 0%Z with (Z.of_nat 0). rewrite <- confs_numbered. reflexivity.
Qed.
Lemma equal_colours_refuted : exists known r g b r' g' b', has_base known /\
  r = CInt 1 /\ g = CInt 0 /\ b = CInt 0 /\ r' = CFl (int_div 255 255) /\ g' = CFl (int_div 0 255) /\ b' = CFl (int_div 0 255) /\
  snd (ask (tm_init known) (RColour r g b)) = Ok 2%Z /\
  snd (ask (asked (tm_init known) [RColour r g b]) (RColour r' g' b')) = Ok 3%Z.
Proof. do 7 eexists. split; [exact paper_base|]. do 6 (split; [reflexivity|]). split; vm_compute; reflexivity. Qed.
Lemma themes_partial : forall c, In c categories -> forall l g,
  (exists k m' g', themed_get_c minecraft_theme (asked (tm_init (discovered minecraft)) l) c g = (m', Ok (Number k), g')) /\
  (exists k m' g', themed_get_c paper_theme (asked (tm_init (discovered paper)) l) c g = (m', Ok (Number k), g')) /\
  (exists k m' g', themed_get_c primary_theme (asked (tm_init (discovered primary)) l) c g = (m', Ok (Number k), g')).
Proof.
  intros c Hc l g. split; [exact (minecraft_ok l c g Hc)|]. split; [exact (paper_ok l c g Hc)|exact (primary_ok l c g Hc)].
Qed.
Lemma lines_refuted : exists l show,
  let text := emit_conf show "Python" "test" (asked (tm_init (discovered dull)) l) in
  in_order (discovered dull) l = [Named "sky"; Named "default"; Named "tex4"; Named "tex92"] /\
  (exists t, texture_of (discovered dull) (Named "tex92") = Some t /\
             In "setshader bumpspecmapparallaxworld" (statements (conf show 3 t))) /\
  ~ In "setshader bumpspecmapparallaxworld" (statements text) /\
  In "texcolor 0.25 0.75 0.125setshader bumpspecmapparallaxworld" (statements text).
Proof.
  exists [RGet "tex4"; RGet "tex92"], (fun _ => "1"). cbn zeta. split; [vm_compute; reflexivity|]. split; [|split].
  - eexists. split; [vm_compute; reflexivity|]. vm_compute. tauto.
  - intros H. enough (existsb (String.eqb "setshader bumpspecmapparallaxworld")
      (statements (emit_conf (fun _ => "1") "Python" "test" (asked (tm_init (discovered dull)) [RGet "tex4"; RGet "tex92"]))) = true) as X
      by (vm_compute in X; discriminate).
    apply existsb_exists. eexists. split; [exact H|apply String.eqb_refl].
  - assert (existsb (String.eqb "texcolor 0.25 0.75 0.125setshader bumpspecmapparallaxworld")
      (statements (emit_conf (fun _ => "1") "Python" "test" (asked (tm_init (discovered dull)) [RGet "tex4"; RGet "tex92"]))) = true) as X
      by (vm_compute; reflexivity).
    apply existsb_exists in X as (x & Hx & E). apply String.eqb_eq in E. subst x. exact Hx.
Qed.
