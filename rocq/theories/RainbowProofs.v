(** Proofs about the rainbow texture manager. *)
From Coq Require Import SpecFloat.
From Verif Require Import Py UpmModel KitModel TexModel TexSpec TexProofs CodecModel VoxFileModel RainbowModel RainbowSpec.
Local Open Scope Z_scope.

Lemma zrange_in a b k : In k (zrange a b) <-> a <= k < b.
Proof.
  unfold zrange. rewrite in_map_iff. split.
  - intros (x & <- & Hx). apply in_seq in Hx. lia.
  - intros Hk. exists (Z.to_nat (k - a)). split; [lia|]. apply in_seq. lia.
Qed.

Definition colour3_eqb (a b : comp * comp * comp) : bool :=
  let '(r, g, bl) := a in let '(r', g', b') := b in comp_eqb r r' && comp_eqb g g' && comp_eqb bl b'.
Lemma colour3_ok a b : colour3_eqb a b = true -> a = b.
Proof.
  destruct a as [[r g] bl], b as [[r' g'] b']. unfold colour3_eqb. rewrite !andb_true_iff, !comp_eqb_ok.
  intros ((-> & ->) & ->). reflexivity.
Qed.

Definition colour_of (k : Z) : res (comp * comp * comp) :=
  let! c := hsv_to_rgb (int_div (k * 4) 256) 1 255 in
  let '(red, grn, blu) := c in Ok (by255 red, by255 grn, by255 blu).

Lemma colours_found : forallb (fun k => match colour_of k with Ok c => colour3_eqb c (paint (circle (3 * (k mod 64)))) | Err _ => false end)
  (zrange 0 65) = true.
Proof. vm_compute. reflexivity. Qed.

Lemma colour_of_is k : 0 <= k <= 64 -> colour_of k = Ok (paint (circle (3 * (k mod 64)))).
Proof.
  intros Hk. pose proof colours_found as A. rewrite forallb_forall in A.
  specialize (A k (proj2 (zrange_in 0 65 k) ltac:(lia))).
  destruct (colour_of k) as [c|]; [|discriminate]. apply colour3_ok in A. congruence.
Qed.

Lemma random_colour_is s : random_colour s = (Ok (paint (circle (3 * ((s O mod 65) mod 64)))), fun i => s (S i)).
Proof.
  unfold random_colour, randint, draw. rewrite Z.add_0_l.
  change (64 - 0 + 1) with 65. pose proof (Z.mod_pos_bound (s O) 65 ltac:(lia)) as B.
  pose proof (colour_of_is (s O mod 65) ltac:(lia)) as E. unfold colour_of in E. cbv zeta. rewrite E. reflexivity.
Qed.

Lemma hue_in k : In (paint (circle (3 * (k mod 64)))) hues.
Proof.
  unfold hues. apply in_map_iff. exists (k mod 64). split; [reflexivity|]. apply zrange_in.
  apply Z.mod_pos_bound. lia.
Qed.

(** ** Calls as requests *)
Definition hue_request (q : request) : Prop :=
  match q with RGet _ => True | RColour r g b => In (r, g, b) hues end.
Definition named_request (c : call) (q : request) : Prop :=
  match c, q with CallGet n, RGet n' => n = n' | CallGet _, _ => False | _, RColour r g b => In (r, g, b) hues | _, _ => False end.

Lemma call_is_ask m c s : exists q, named_request c q /\ fst (rainbow_call m c s) = ask m q.
Proof.
  destruct c as [n|r g b|k]; cbn [rainbow_call].
  - exists (RGet n). split; reflexivity.
  - unfold rainbow_get_colour. rewrite random_colour_is.
    destruct (paint _) as [[r' g'] b'] eqn:E. exists (RColour r' g' b'). split; [|reflexivity].
    cbn [named_request]. rewrite <- E. apply hue_in.
  - unfold rainbow_get_c. rewrite random_colour_is. destruct (paint _) as [[r0 g0] b0].
    unfold rainbow_get_colour. rewrite random_colour_is.
    destruct (paint _) as [[r' g'] b'] eqn:E. exists (RColour r' g' b'). split; [|reflexivity].
    cbn [named_request]. rewrite <- E. apply hue_in.
Qed.

Lemma run_is_asked l : forall m s, exists qs, Forall2 named_request l qs /\ fst (fst (rainbow_run m l s)) = asked m qs.
Proof.
  induction l as [|c l IH]; intros m s; cbn [rainbow_run].
  - exists []. split; [constructor|reflexivity].
  - destruct (call_is_ask m c s) as (q & Q1 & Q2). destruct (rainbow_call m c s) as [[m1 a] s1]. cbn [fst] in Q2.
    destruct (IH m1 s1) as (qs & A & B). destruct (rainbow_run m1 l s1) as [[m2 x] s2]. cbn [fst] in B |- *.
    exists (q :: qs). split; [constructor; assumption|]. unfold asked. cbn [fold_left]. rewrite <- Q2. cbn [fst]. exact B.
Qed.

(** Which names are in use. *)
Lemma firsts_in n : forall l seen, In n (firsts seen l) -> In n l.
Proof.
  induction l as [|a l IH]; intros seen; cbn [firsts]; [auto|].
  destruct (existsb _ _); cbn [In]; [right; eauto|]. intros [E | Hn]; eauto.
Qed.
Definition hue_names : list tname := map (fun c => let '(r, g, b) := c in Coloured r g b) hues.
Lemma dmem_in (d : list (tname * tex)) n : dmem tname_eqb d n = true -> In n (map fst d).
Proof.
  unfold dmem. destruct (dget tname_eqb d n) as [t|] eqn:E; [|discriminate]. intros _. revert E.
  induction d as [|[k v] d IH]; cbn [dget map fst]; [discriminate|].
  destruct (tname_eqb k n) eqn:Ek; [apply tname_eqb_ok in Ek; left; exact Ek|]. right. auto.
Qed.
Lemma names_used known l : has_base known -> forall qs, Forall2 named_request l qs ->
  forall n, In n (in_order known qs) -> (exists s, n = Named s /\ In n (map fst known)) \/ In n hue_names.
Proof.
  intros [Hs Hd] qs Q n Hn. unfold in_order in Hn. apply firsts_in in Hn. unfold used in Hn.
  cbn [In] in Hn. destruct Hn as [<- | [<- | Hn]].
  - left. eexists. split; [reflexivity|]. apply dmem_in. unfold dmem. rewrite Hs. reflexivity.
  - left. eexists. split; [reflexivity|]. apply dmem_in. unfold dmem. rewrite Hd. reflexivity.
  - apply in_map_iff in Hn. destruct Hn as (q & <- & Hq). apply filter_In in Hq. destruct Hq as [Hq Sq].
    assert (exists c, named_request c q) as (c & Hc).
    { clear -Q Hq. induction Q as [|c q' l qs Hc _ IH]; [contradiction|]. destruct Hq as [-> | Hq]; eauto. }
    destruct q as [s|r g b]; cbn [req_name servable] in *.
    + left. eexists. split; [reflexivity|]. apply dmem_in. exact Sq.
    + right. unfold hue_names. apply in_map_iff. exists (r, g, b). split; [reflexivity|].
      destruct c; cbn [named_request] in Hc; [contradiction|exact Hc..].
Qed.

Lemma rainbow_atlas known l s : has_base known ->
  let m := fst (fst (rainbow_run (tm_init known) l s)) in
  (List.length (tm_atlas m) <= List.length known + 64)%nat /\
  forall k t, In (k, t) (tm_atlas m) -> rainbow_tex t \/ exists n, dget tname_eqb known n = Some t.
Proof.
  intros HB m. unfold m. destruct (run_is_asked l (tm_init known) s) as (qs & Q & ->).
  pose proof (run_inv known HB qs) as (ND & _ & (ts & EA & F2) & _).
  pose proof (names_used known l HB qs Q) as I. split.
  - rewrite EA, slots_length, <- (F2_length _ _ _ F2).
    assert (I2 : incl (in_order known qs) (map fst known ++ hue_names)).
    { intros n Hn. apply in_or_app. destruct (I n Hn) as [(s' & _ & Hs) | Hh]; auto. }
    pose proof (NoDup_incl_length ND I2) as L. rewrite app_length, map_length in L.
    unfold hue_names in L. rewrite map_length in L. change (List.length hues) with 64%nat in L. lia.
  - intros k t Hin. rewrite EA in Hin.
    assert (Ht : In t ts).
    { clear -Hin. revert Hin. generalize 0%nat. induction ts as [|a ts IH]; intros n Hin; cbn [slots] in Hin; [contradiction|].
      destruct Hin as [E | Hin]; [left; congruence|right; eauto]. }
    assert (exists n, In n (in_order known qs) /\ texture_of known n = Some t) as (n & Hn & En).
    { clear -F2 Ht. induction F2 as [|n t' ns ts E _ IH]; [contradiction|].
      destruct Ht as [<- | Ht]; [exists n; split; [left; reflexivity|exact E]|].
      destruct (IH Ht) as (n' & A & B). exists n'. split; [right; exact A|exact B]. }
    destruct n as [s'|r g b]; cbn [texture_of] in En; [right; eauto|]. left. injection En as <-.
    exists r, g, b. split; [|reflexivity]. destruct (I _ Hn) as [(s' & E & _) | Hh]; [discriminate|].
    unfold hue_names in Hh. apply in_map_iff in Hh. destruct Hh as ([[r' g'] b'] & E & Hh). congruence.
Qed.

(** Answers. *)
Lemma nth_slots ts t : forall i n, nth_error ts i = Some t -> In (Z.of_nat (n + i), t) (slots ts n).
Proof.
  induction ts as [|a ts IH]; intros [|i] n E; cbn [nth_error] in E; try discriminate; cbn [slots].
  - left. injection E as ->. rewrite Nat.add_0_r. reflexivity.
  - right. replace (n + S i)%nat with (S n + i)%nat by lia. apply IH. exact E.
Qed.
Lemma rainbow_answer known l s c s' : has_base known -> (forall n, c <> CallGet n) ->
  let m := fst (fst (rainbow_run (tm_init known) l s)) in
  exists k t, snd (fst (rainbow_call m c s')) = Ok k /\ In (k, t) (tm_atlas (fst (fst (rainbow_call m c s')))) /\ rainbow_tex t.
Proof.
  intros HB Hc m. unfold m. destruct (run_is_asked l (tm_init known) s) as (qs & Q & ->).
  destruct (call_is_ask (asked (tm_init known) qs) c s') as (q & Q1 & Q2).
  assert (exists r g b, q = RColour r g b /\ In (r, g, b) hues) as (r & g & b & -> & Hh).
  { destruct c as [n|? ? ?|?], q as [n'|? ? ?]; cbn [named_request] in Q1; try contradiction; try (exfalso; eapply Hc; reflexivity); eauto 6. }
  rewrite Q2. destruct (answer_place known qs (RColour r g b) HB eq_refl) as (k & K1 & K2).
  assert (EA : fst (ask (asked (tm_init known) qs) (RColour r g b)) = asked (tm_init known) (qs ++ [RColour r g b]))
    by (unfold asked; rewrite fold_left_app; reflexivity).
  rewrite EA. pose proof (run_inv known HB (qs ++ [RColour r g b])) as (_ & _ & (ts & E1 & F2) & _).
  rewrite E1. exists (Z.of_nat k), (Colour SIMPLE_COLOUR r g b). split; [exact K1|]. split.
  - apply (nth_slots _ _ k 0). clear -F2 K2. revert k K2. induction F2 as [|n t ns ts Ht _ IH]; intros [|k] K2; cbn [nth_error] in K2 |- *; try discriminate.
    + injection K2 as ->. cbn [req_name texture_of] in Ht. symmetry. exact Ht.
    + apply IH. exact K2.
  - exists r, g, b. split; [exact Hh|reflexivity].
Qed.

(** What is asked for does not matter. *)
Lemma rainbow_blind m s l l' : Forall2 alike l l' -> rainbow_run m l s = rainbow_run m l' s.
Proof.
  intros F. revert m s. induction F as [|a b l l' Ha _ IH]; intros m s; [reflexivity|]. cbn [rainbow_run].
  assert (E : rainbow_call m a s = rainbow_call m b s).
  { destruct a, b; cbn [alike] in Ha; try contradiction; [subst; reflexivity|reflexivity|reflexivity]. }
  rewrite E. destruct (rainbow_call m b s) as [[m1 x] s1]. rewrite IH. reflexivity.
Qed.
(** A category takes two values of the stream, of which the first is not used. *)
Lemma category_skips m c r g b s : rainbow_call m (CallCategory c) s = rainbow_call m (CallColour r g b) (fun i => s (S i)).
Proof.
  cbn [rainbow_call]. unfold rainbow_get_c. rewrite random_colour_is. destruct (paint _) as [[r0 g0] b0]. reflexivity.
Qed.

(** Which values of the stream give the same colour. *)
Lemma hues_distinct : forallb (fun k => forallb (fun j => Bool.eqb (colour3_eqb (paint (circle (3 * k))) (paint (circle (3 * j)))) (k =? j)) (zrange 0 64)) (zrange 0 64) = true.
Proof. vm_compute. reflexivity. Qed.
Lemma colour3_refl a : colour3_eqb a a = true.
Proof. destruct a as [[r g] b]. unfold colour3_eqb. rewrite !(proj2 (comp_eqb_ok _ _) eq_refl). reflexivity. Qed.
Lemma same_colour s s' :
  fst (random_colour s) = fst (random_colour s') <-> (s O mod 65) mod 64 = (s' O mod 65) mod 64.
Proof.
  rewrite !random_colour_is. cbn [fst]. split; [|intros ->; reflexivity]. intros E0.
  assert (E : paint (circle (3 * ((s O mod 65) mod 64))) = paint (circle (3 * ((s' O mod 65) mod 64)))) by congruence. clear E0.
  pose proof hues_distinct as A. rewrite forallb_forall in A.
  set (k := (s O mod 65) mod 64) in *. set (j := (s' O mod 65) mod 64) in *.
  assert (Hk : 0 <= k < 64) by (apply Z.mod_pos_bound; lia). assert (Hj : 0 <= j < 64) by (apply Z.mod_pos_bound; lia).
  specialize (A k (proj2 (zrange_in 0 64 k) Hk)). rewrite forallb_forall in A.
  specialize (A j (proj2 (zrange_in 0 64 j) Hj)). rewrite E, colour3_refl in A.
  apply Bool.eqb_prop in A. symmetry in A. apply Z.eqb_eq in A. exact A.
Qed.

(** The palette. *)
Lemma hue_bytes : forallb (fun c => let '(r, g, b) := c in
  match w_colour (Colour SIMPLE_COLOUR r g b) with Ok _ => true | Err _ => false end) hues = true.
Proof. vm_compute. reflexivity. Qed.
Lemma plain_base : has_base plain_known.
Proof. split; reflexivity. Qed.
Lemma rainbow_palette l s :
  let atlas := tm_atlas (fst (fst (rainbow_run (tm_init plain_known) l s))) in
  (List.length atlas <= 66)%nat /\ exists bs, wcat w_colour (map snd atlas) = Ok bs.
Proof.
  intros atlas. unfold atlas. destruct (rainbow_atlas plain_known l s plain_base) as [A B]. split; [exact A|].
  set (at_ := tm_atlas _) in *. clearbody at_. clear A.
  enough (G : Forall (fun t => exists b, w_colour t = Ok b) (map snd at_)).
  { revert G. generalize (map snd at_). intros ts G. induction G as [|t ts (b & Eb) _ (bs & Ebs)]; [exists []; reflexivity|].
    exists (b ++ bs). unfold wcat in *. cbn [mapM]. rewrite Eb. cbn [bind].
    destruct (mapM w_colour ts) as [x|]; [|discriminate]. cbn [bind] in *. injection Ebs as <-. reflexivity. }
  apply Forall_forall. intros t Ht. apply in_map_iff in Ht. destruct Ht as ([k t'] & E & Hin). cbn [snd] in E. subst t'.
  destruct (B k t Hin) as [(r & g & b & Hh & ->) | (n & En)].
  - pose proof hue_bytes as P. rewrite forallb_forall in P. specialize (P _ Hh). cbn beta iota in P.
    destruct (w_colour (Colour SIMPLE_COLOUR r g b)) as [x|]; [eauto|discriminate].
  - unfold plain_known, discovered in En. cbn [fold_left dget] in En.
    destruct (tname_eqb _ n); [injection En as <-; eexists; reflexivity|].
    destruct (tname_eqb _ n); [injection En as <-; eexists; reflexivity|discriminate].
Qed.

(** ** random *)
Lemma choice_five s : exists n, In n five /\ choice five s = (Ok n, fun i => s (S i)).
Proof.
  unfold choice, five, draw. eexists. split; [|reflexivity]. apply nth_In. cbn [List.length].
  pose proof (Z.mod_pos_bound (s O) (Z.of_nat 5) ltac:(lia)). lia.
Qed.
Lemma random_fails known l s : has_base known -> (forall n, In n five -> dmem tname_eqb known (Named n) = false) ->
  tm_random (asked (tm_init known) l) s = (asked (tm_init known) l, Err KeyError, fun i => s (S i)).
Proof.
  intros HB Hn. unfold tm_random. destruct (choice_five s) as (n & N1 & N2). unfold five in N2. rewrite N2.
  pose proof (unserved known l (RGet n) HB (Hn n N1)) as E. cbn [ask] in E. rewrite E. reflexivity.
Qed.
Lemma random_serves known l s : has_base known -> (forall n, In n five -> dmem tname_eqb known (Named n) = true) ->
  exists n k, In n five /\ snd (fst (tm_random (asked (tm_init known) l) s)) = Ok (Z.of_nat k) /\
    fst (fst (tm_random (asked (tm_init known) l) s)) = asked (tm_init known) (l ++ [RGet n]) /\
    nth_error (in_order known (l ++ [RGet n])) k = Some (Named n).
Proof.
  intros HB Hn. unfold tm_random. destruct (choice_five s) as (n & N1 & N2). unfold five in N2. rewrite N2. cbn [fst snd].
  destruct (answer_place known l (RGet n) HB (Hn n N1)) as (k & K1 & K2). cbn [ask req_name] in K1, K2.
  exists n, k. split; [exact N1|]. split; [exact K1|]. split; [|exact K2].
  unfold asked. rewrite fold_left_app. reflexivity.
Qed.
Lemma without_five (known : list (tname * tex)) : forallb (fun n => negb (dmem tname_eqb known (Named n))) five = true ->
  forall n, In n five -> dmem tname_eqb known (Named n) = false.
Proof. intros A n Hn. rewrite forallb_forall in A. apply negb_true_iff, A, Hn. Qed.
Lemma random_others l s known :
  In known [discovered []; discovered dull; discovered paper; discovered primary] ->
  tm_random (asked (tm_init known) l) s = (asked (tm_init known) l, Err KeyError, fun i => s (S i)).
Proof.
  intros Hk. apply random_fails.
  - repeat (destruct Hk as [<- | Hk]; [first [exact plain_base|exact dull_base|exact paper_base|exact primary_base]|]). contradiction.
  - apply without_five. repeat (destruct Hk as [<- | Hk]; [vm_compute; reflexivity|]). contradiction.
Qed.
Lemma random_minecraft l s :
  exists n k, In n five /\ snd (fst (tm_random (asked (tm_init (discovered minecraft)) l) s)) = Ok (Z.of_nat k) /\
    fst (fst (tm_random (asked (tm_init (discovered minecraft)) l) s)) = asked (tm_init (discovered minecraft)) (l ++ [RGet n]) /\
    nth_error (in_order (discovered minecraft) (l ++ [RGet n])) k = Some (Named n).
Proof.
  apply random_serves; [exact minecraft_base|]. intros n Hn.
  assert (A : forallb (fun n => dmem tname_eqb (discovered minecraft) (Named n)) five = true) by (vm_compute; reflexivity).
  rewrite forallb_forall in A. apply A, Hn.
Qed.
