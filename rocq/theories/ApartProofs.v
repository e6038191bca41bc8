(** Proofs of the property C105. *)
From Verif Require Import Py VecModel VecSpec VecProofs VoxelModel VoxelSpec CodecModel CodecSpec OutModel OutSpec UpmModel UpmSpec KitModel KitSpec
  RoomModel MagicaModel MagicaProofs RoomSpec TexModel TexSpec LightModel LightSpec VoxFileModel ShippedModel ShippedSpec ShippedProofs ShippedDraw DistModel DistSpec
  GenModel GenSpec GenLayout GenDraw GenProofs StandProofs StandGen BaseGen PassProofs ApartSpec.
Local Open Scope Z_scope.

(** ** The check *)
Definition used : list shipped := [station_flagroom; station_tubeX] ++ possible_rooms ++ possible_endcaps.
Definition lightb (x : extra) : bool := match x with XLight _ _ => true | _ => false end.
Definition strayb (s : shipped) : bool := (rc_id (s_class s) =? 102) || (rc_id (s_class s) =? 109).
Definition sixteenth (q : Z * Z * Z) : option cell :=
  let '(x, y, z) := q in
  if (x mod 16 =? 0) && (y mod 16 =? 0) && (z mod 16 =? 0) then Some (x / 16, y / 16, z / 16) else None.
Definition t3sub (a b : Z * Z * Z) : Z * Z * Z := let '(x, y, z) := a in let '(u, v, w) := b in (x - u, y - v, z - w).
(** If the points of the two rooms coincide, they share a cell. *)
Definition meet (cells cells' : list cell) (q q' : Z * Z * Z) : bool :=
  match sixteenth (t3sub q q') with
  | None => true
  | Some d =>
      let shared c := existsb (cell_eqb (cadd d c)) cells in
      let '(x, y, z) := q' in let c := (x / 16, y / 16, z / 16) in
      if shared c then if existsb (cell_eqb c) cells' then true else existsb shared cells' else existsb shared cells'
  end.
Definition turned (s : shipped) (t : turn) : list cell := map (crot t) (rc_cells (s_class s) []).
Definition exempt (s : shipped) (x : extra) (s' : shipped) (x' : extra) : bool :=
  if lightb x then if lightb x' then strayb s || strayb s' else false else false.
Definition pair_fine (s : shipped) (t : turn) (x : extra) (s' : shipped) (t' : turn) (x' : extra) : bool :=
  if exempt s x s' x' then true
  else forallb (fun q => forallb (meet (turned s t) (turned s' t') q) (extra_points t' x')) (extra_points t x).
Definition over (f : shipped -> turn -> extra -> bool) : bool := forallb (fun s => forallb (fun t => forallb (f s t) (s_extra s)) CARD) used.
Definition all_fine : bool := over (fun s t x => over (pair_fine s t x)).
Lemma all_fine_ok : all_fine = true.
Proof. vm_compute. reflexivity. Qed.
Definition t3eqb (a b : Z * Z * Z) : bool := let '(x, y, z) := a in let '(u, v, w) := b in (x =? u) && (y =? v) && (z =? w).
Fixpoint own_fine (t : turn) (l : list extra) : bool :=
  match l with
  | [] => true
  | x :: r => forallb (fun x' => forallb (fun q => forallb (fun q' => negb (t3eqb q q')) (extra_points t x')) (extra_points t x)) r && own_fine t r
  end.
Lemma own_fine_ok : forallb (fun s => forallb (fun t => own_fine t (s_extra s)) CARD) shipped_rooms = true.
Proof. vm_compute. reflexivity. Qed.
Lemma sun_fine_ok : over (fun s t x => forallb (fun q => match sixteenth q with None => true | _ => false end) (extra_points t x)) = true.
Proof. vm_compute. reflexivity. Qed.
Lemma over_ok f : over f = true -> forall s t x, In s used -> In x (s_extra s) -> f s t x = true.
Proof.
  unfold over. intros F s t x Hs Hx. rewrite forallb_forall in F. specialize (F s Hs). rewrite forallb_forall in F.
  assert (In t CARD) as Ht by (destruct t; cbn; tauto). specialize (F t Ht). rewrite forallb_forall in F. exact (F x Hx).
Qed.

(** ** Points *)
Lemma sixteenth_of a b c : sixteenth (16 * a, 16 * b, 16 * c) = Some (a, b, c).
Proof.
  unfold sixteenth. assert (forall n, 16 * n mod 16 = 0) as M by (intros n; rewrite Z.mul_comm; apply Z.mod_mul; lia). rewrite !M. cbn [Z.eqb andb].
  assert (forall n, 16 * n / 16 = n) as D by (intros n; rewrite Z.mul_comm; apply Z.div_mul; lia). rewrite !D. reflexivity.
Qed.
Lemma meet_ok cells cells' q q' p p' : meet cells cells' q q' = true -> t3add (corner p) q = t3add (corner p') q' ->
  exists c c', In c cells /\ In c' cells' /\ cadd p c = cadd p' c'.
Proof.
  intros F E. destruct p as [[a b] h], p' as [[a' b'] h']. unfold meet in F.
  assert (t3sub q q' = (16 * (a' - a), 16 * (b' - b), 16 * (h' - h))) as D.
  { destruct q as [[x y] z], q' as [[x' y'] z']. cbn [corner t3add] in E. apply t3_inv in E as (? & ? & ?). cbn [t3sub]. apply t3_eq; lia. }
  rewrite D, sixteenth_of in F. cbv zeta in F. set (d := (a' - a, b' - b, h' - h)) in *.
  assert (exists c', In c' cells' /\ In (cadd d c') cells) as (c' & H1 & H2).
  { destruct q' as [[x y] z]. set (c0 := (x / 16, y / 16, z / 16)) in *.
    assert (existsb (fun c => existsb (cell_eqb (cadd d c)) cells) cells' = true -> exists c', In c' cells' /\ In (cadd d c') cells) as X.
    { intros H. apply existsb_exists in H as (c' & H1 & H2). exists c'. split; [exact H1|apply existsb_cell; exact H2]. }
    destruct (existsb (cell_eqb (cadd d c0)) cells) eqn:E1; [|exact (X F)]. destruct (existsb (cell_eqb c0) cells') eqn:E2; [|exact (X F)].
    exists c0. split; apply existsb_cell; assumption. }
  exists (cadd d c'), c'. split; [exact H2|]. split; [exact H1|]. subst d. destruct c' as [[x y] z]. cbn [cadd]. apply t3_eq; lia.
Qed.
Lemma one_place_point e e' p p' : one_place e e' -> stands e p 2 -> stands e' p' 2 -> p = p'.
Proof.
  intros (X & Y & Z0) St St'. apply (stands_inj e' _ _ 2); [|exact St']. destruct p as [[x y] z], St as (A & B & C).
  split; [|split]; unfold coord_is in *; eapply feq_join; eassumption.
Qed.
Lemma point_one_place e e' p : stands e p 2 -> stands e' p 2 -> one_place e e'.
Proof.
  destruct p as [[x y] z]. intros (A & B & C) (A' & B' & C'). unfold coord_is in *.
  split; [|split]; eapply feq_join; apply CodecFloat.feq_sym; eassumption || (apply CodecFloat.feq_sym; eassumption).
Qed.

(** ** Two rooms *)
Lemma used_in ctf s : In s (in_use ctf) -> In s used.
Proof.
  unfold in_use, used. intros [<-|H]; [destruct ctf; [left|right; left]; reflexivity|]. apply in_or_app. right. exact H.
Qed.
Lemma stray_stray s r : In s used -> r_cls r = s_class s -> strayb s = true -> stray r.
Proof.
  intros Hs Ec B. unfold used, possible_rooms, possible_endcaps in Hs. cbn [app] in Hs. unfold stray. rewrite Ec.
  repeat (destruct Hs as [<-|Hs]; [first [left; reflexivity | right; reflexivity | vm_compute in B; discriminate B]|]). destruct Hs.
Qed.
Lemma light_type hue t x e : lightb x = true -> asked_for hue t x e -> e_type e = 1.
Proof. destruct x; try discriminate. intros _ (_ & _ & Ty & _). exact Ty. Qed.
Lemma rooms_apart hue a b s s' x x' e e' : In s used -> In s' used -> In s shipped_rooms -> In s' shipped_rooms ->
  r_cls a = s_class s -> r_cls b = s_class s' -> In x (s_extra s) -> In x' (s_extra s') ->
  asked_for hue (r_turn a) x e -> asked_for hue (r_turn b) x' e' -> stands_off (r_pos a) (r_turn a) x e -> stands_off (r_pos b) (r_turn b) x' e' ->
  (forall c, In c (positions a) -> ~ In c (positions b)) -> one_place e e' ->
  e_type e = 1 /\ e_type e' = 1 /\ (stray a \/ stray b).
Proof.
  intros Hs Hs' Hi Hi' Ec Ec' Hx Hx' A A' (q & Hq & Sq) (q' & Hq' & Sq') D OP.
  pose proof (over_ok _ (over_ok _ all_fine_ok s (r_turn a) x Hs Hx) s' (r_turn b) x' Hs' Hx') as F. unfold pair_fine in F.
  destruct (exempt s x s' x') eqn:EX.
  - unfold exempt in EX. destruct (lightb x) eqn:L; [|discriminate]. destruct (lightb x') eqn:L'; [|discriminate].
    split; [exact (light_type _ _ _ _ L A)|]. split; [exact (light_type _ _ _ _ L' A')|].
    apply Bool.orb_true_iff in EX as [B|B]; [left; exact (stray_stray s a Hs Ec B)|right; exact (stray_stray s' b Hs' Ec' B)].
  - exfalso. rewrite forallb_forall in F. specialize (F q Hq). rewrite forallb_forall in F. specialize (F q' Hq').
    destruct (meet_ok _ _ _ _ (r_pos a) (r_pos b) F (one_place_point _ _ _ _ OP Sq Sq')) as (c & c' & H1 & H2 & E).
    apply (D (cadd (r_pos a) c)).
    + rewrite (same_positions s a Hi Ec), (room_of_eq s _ _ Hi). unfold positions. cbn [r_cls r_pos r_turn r_flags]. unfold turned in H1.
      apply in_map_iff in H1 as (c0 & <- & H1). apply in_map_iff. exists c0. split; [reflexivity|exact H1].
    + rewrite E, (same_positions s' b Hi' Ec'), (room_of_eq s' _ _ Hi'). unfold positions. cbn [r_cls r_pos r_turn r_flags]. unfold turned in H2.
      apply in_map_iff in H2 as (c0 & <- & H2). apply in_map_iff. exists c0. split; [reflexivity|exact H2].
Qed.
(** ** One room *)
Lemma t3eqb_refl q : t3eqb q q = true.
Proof. destruct q as [[x y] z]. cbn. rewrite !Z.eqb_refl. reflexivity. Qed.
Lemma t3add_inj p q q' : t3add p q = t3add p q' -> q = q'.
Proof. destruct p as [[a b] h], q as [[x y] z], q' as [[x' y'] z']. cbn [t3add]. intros E. apply t3_inv in E as (? & ? & ?). apply t3_eq; lia. Qed.
Lemma own_apart p t l : own_fine t l = true -> forall es, Forall2 (stands_off p t) l es ->
  forall i j e e', nth_error es i = Some e -> nth_error es j = Some e' -> one_place e e' -> i = j.
Proof.
  induction l as [|x l IH]; intros F es St; inversion St as [|? e0 ? es' Sx St']; subst; intros i j e e' Hi Hj OP; [destruct i; discriminate|].
  cbn [own_fine] in F. apply Bool.andb_true_iff in F as [F1 F2].
  assert (forall k y, nth_error es' k = Some y -> ~ one_place e0 y) as N.
  { intros k y Hy OP'. apply nth_error_In in Hy. destruct (Forall2_in_r _ _ _ St' y Hy) as (x' & Hx' & q' & Hq' & Sq'). destruct Sx as (q & Hq & Sq).
    rewrite forallb_forall in F1. specialize (F1 x' Hx'). rewrite forallb_forall in F1. specialize (F1 q Hq). rewrite forallb_forall in F1. specialize (F1 q' Hq').
    pose proof (t3add_inj _ _ _ (one_place_point _ _ _ _ OP' Sq Sq')) as E. subst q'. rewrite t3eqb_refl in F1. discriminate. }
  destruct i as [|i], j as [|j]; cbn [nth_error] in Hi, Hj.
  - reflexivity.
  - exfalso. assert (e = e0) as -> by congruence. exact (N j e' Hj OP).
  - exfalso. assert (e' = e0) as -> by congruence. apply (N i e Hi). destruct OP as (X & Y & Z0). split; [|split]; apply CodecFloat.feq_sym; assumption.
  - f_equal. exact (IH F2 es' St' i j e e' Hi Hj OP).
Qed.
Lemma class_apart s hue p t pos orient m g : In s shipped_rooms -> room_vectors (room_of s p t) pos orient ->
  exists es m' g', run_extras (LIGHTMAN hue) pos orient (s_extra s) m g = (Ok m', g') /\ more_ents m es m' /\
    forall i j e e', nth_error es i = Some e -> nth_error es j = Some e' -> one_place e e' -> i = j.
Proof.
  intros Hi [HP HO]. rewrite (room_of_eq s p t Hi) in HP, HO. cbn [r_pos r_turn] in HP, HO.
  destruct (class_extras s p t pos orient hue m g Hi HP HO) as (es & m' & g' & E & M & _ & St). exists es, m', g'. split; [exact E|]. split; [exact M|].
  pose proof own_fine_ok as F. rewrite forallb_forall in F. specialize (F s Hi). rewrite forallb_forall in F.
  assert (In t CARD) as Ht by (destruct t; cbn; tauto). exact (own_apart p t _ (F t Ht) es St).
Qed.
(** ** A map *)
Lemma sun_alone s x p t sun e : In s used -> In x (s_extra s) -> stands_off p t x e -> is_sun sun -> ~ one_place sun e.
Proof.
  intros Hs Hx (q & Hq & Sq) (_ & _ & S0 & _) OP. pose proof (over_ok _ sun_fine_ok s t x Hs Hx) as F. cbv beta in F. rewrite forallb_forall in F. specialize (F q Hq).
  pose proof (one_place_point _ _ _ _ OP S0 Sq) as E. destruct p as [[a b] h], q as [[x0 y0] z0]. cbn [corner t3add] in E. apply t3_inv in E as (? & ? & ?).
  replace (x0, y0, z0) with (16 * - a, 16 * - b, 16 * - h) in F by (apply t3_eq; lia). rewrite sixteenth_of in F. discriminate.
Qed.
Lemma Forall2_nth {A B} (R : A -> B -> Prop) l l' i a b : Forall2 R l l' -> nth_error l i = Some a -> nth_error l' i = Some b -> R a b.
Proof.
  intros F. revert i. induction F as [|x y l l' Rxy F IH]; intros [|i] H1 H2; cbn [nth_error] in *; try discriminate; [congruence|exact (IH i H1 H2)].
Qed.
Lemma furnished_stands hue n ctf st ob es : laid_out n ctf st -> In ob (u_rooms st) -> furnished_at hue ob es ->
  exists s, In s used /\ In s shipped_rooms /\ r_cls (snd ob) = s_class s /\ Forall2 (asked_for hue (r_turn (snd ob))) (s_extra s) es /\
    Forall2 (stands_off (r_pos (snd ob)) (r_turn (snd ob))) (s_extra s) es.
Proof.
  intros L Hob (s & Es & A & St). destruct (room_bounds n ctf st ob L Hob) as (s' & Hs & Ec & _). pose proof (in_use_shipped ctf s' Hs) as Hi.
  rewrite Ec, (shipped_of_self _ Hi) in Es. assert (s = s') as -> by congruence. exists s'. split; [exact (used_in ctf s' Hs)|]. auto.
Qed.
Lemma map_apart hue n ctf st sun ess : laid_out n ctf st -> disjoint_rooms (u_rooms st) -> is_sun sun -> Forall2 (furnished_at hue) (u_rooms st) ess ->
  mostly_apart (u_rooms st) sun ess.
Proof.
  intros L D IS F. split; [|split].
  - intros e He. apply in_concat in He as (es & Hes & He). destruct (Forall2_in_r _ _ _ F es Hes) as (ob & Hob & FA).
    destruct (furnished_stands hue n ctf st ob es L Hob FA) as (s & Hs & _ & _ & A & St). destruct (Forall2_in_r _ _ _ St e He) as (x & Hx & Sx).
    exact (sun_alone s x _ _ sun e Hs Hx Sx IS).
  - intros es i j e e' Hes. destruct (Forall2_in_r _ _ _ F es Hes) as (ob & Hob & FA).
    destruct (furnished_stands hue n ctf st ob es L Hob FA) as (s & _ & Hi & _ & _ & St). pose proof own_fine_ok as O. rewrite forallb_forall in O. specialize (O s Hi).
    rewrite forallb_forall in O. assert (In (r_turn (snd ob)) CARD) as Ht by (destruct (r_turn (snd ob)); cbn; tauto). exact (own_apart _ _ _ (O _ Ht) es St i j e e').
  - intros i j a b es es' e e' Ha Hb Hes Hes' He He' Ne OP.
    destruct (furnished_stands hue n ctf st a es L (nth_error_In _ _ Ha) (Forall2_nth _ _ _ _ _ _ F Ha Hes)) as (s & Hs & Hi & Ec & A & St).
    destruct (furnished_stands hue n ctf st b es' L (nth_error_In _ _ Hb) (Forall2_nth _ _ _ _ _ _ F Hb Hes')) as (s' & Hs' & Hi' & Ec' & A' & St').
    destruct (both_in hue _ _ _ es A St e He) as (x & Hx & Ax & Sx). destruct (both_in hue _ _ _ es' A' St' e' He') as (x' & Hx' & Ax' & Sx').
    apply (rooms_apart hue (snd a) (snd b) s s' x x' e e'); try assumption. intros c. exact (D i j a b c Ha Hb Ne).
Qed.
Lemma nth_lt {A} (l : list A) i a : nth_error l i = Some a -> (i < List.length l)%nat.
Proof. intros H. apply nth_error_Some. congruence. Qed.
Lemma Forall2_length {A B} (R : A -> B -> Prop) l l' : Forall2 R l l' -> List.length l = List.length l'.
Proof. induction 1; cbn; congruence. Qed.
(** ** In the file *)
Lemma place_same a b a' b' : same_entity a a' -> same_entity b b' -> one_place a' b' -> one_place a b.
Proof.
  intros (X & Y & Z0 & _) (X' & Y' & Z1 & _) (P & Q & R). split; [|split];
    eapply feq_join; [apply CodecFloat.feq_sym; eassumption|eapply feq_join; [apply CodecFloat.feq_sym; eassumption|apply CodecFloat.feq_sym; eassumption]
                     |apply CodecFloat.feq_sym; eassumption|eapply feq_join; [apply CodecFloat.feq_sym; eassumption|apply CodecFloat.feq_sym; eassumption]
                     |apply CodecFloat.feq_sym; eassumption|eapply feq_join; [apply CodecFloat.feq_sym; eassumption|apply CodecFloat.feq_sym; eassumption]].
Qed.
Lemma apart_same rooms sun ess sun' ess' : same_entity sun sun' -> Forall2 (Forall2 same_entity) ess ess' -> mostly_apart rooms sun ess -> mostly_apart rooms sun' ess'.
Proof.
  intros SS F (A & B & C). assert (forall es' i e', In es' ess' -> nth_error es' i = Some e' -> exists es e, In es ess /\ Forall2 same_entity es es' /\ nth_error es i = Some e /\ same_entity e e') as Back.
  { intros es' i e' Hes Hi. destruct (Forall2_in_r _ _ _ F es' Hes) as (es & H1 & H2). exists es.
    assert (exists e, nth_error es i = Some e) as (e & He).
    { destruct (nth_error es i) eqn:X; [eauto|]. apply nth_error_None in X. apply nth_lt in Hi. apply Forall2_length in H2. lia. }
    exists e. split; [exact H1|]. split; [exact H2|]. split; [exact He|]. exact (Forall2_nth _ _ _ _ _ _ H2 He Hi). }
  split; [|split].
  - intros e' He' OP. apply in_concat in He' as (es' & Hes & He'). apply In_nth_error in He' as (i & Hi). destruct (Back es' i e' Hes Hi) as (es & e & H1 & H2 & H3 & H4).
    apply (A e); [apply in_concat; exists es; split; [exact H1|exact (nth_error_In _ _ H3)]|]. exact (place_same _ _ _ _ SS H4 OP).
  - intros es' i j e e' Hes Hi Hj OP. destruct (Forall2_in_r _ _ _ F es' Hes) as (es & H1 & H2).
    assert (forall k y, nth_error es' k = Some y -> exists x, nth_error es k = Some x /\ same_entity x y) as X.
    { intros k y Hy. destruct (nth_error es k) as [x|] eqn:E; [exists x; split; [reflexivity|exact (Forall2_nth _ _ _ _ _ _ H2 E Hy)]|].
      apply nth_error_None in E. apply nth_lt in Hy. apply Forall2_length in H2. lia. }
    destruct (X i e Hi) as (x & Hx & Sx), (X j e' Hj) as (y & Hy & Sy). exact (B es i j x y H1 Hx Hy (place_same _ _ _ _ Sx Sy OP)).
  - intros i j a b es es' e e' Ha Hb Hi Hj He He' Ne OP.
    assert (forall k l y, nth_error ess' k = Some l -> In y l -> exists l0 x, nth_error ess k = Some l0 /\ In x l0 /\ same_entity x y) as X.
    { intros k l y Hl Hy. destruct (nth_error ess k) as [l0|] eqn:E.
      - pose proof (Forall2_nth _ _ _ _ _ _ F E Hl) as H2. destruct (Forall2_in_r _ _ _ H2 y Hy) as (x & Hx & S). exists l0, x. auto.
      - apply nth_error_None in E. apply nth_lt in Hl. apply Forall2_length in F. lia. }
    destruct (X i es e Hi He) as (l1 & x & E1 & Hx & Sx), (X j es' e' Hj He') as (l2 & y & E2 & Hy & Sy).
    destruct (C i j a b l1 l2 x y Ha Hb E1 E2 Hx Hy Ne (place_same _ _ _ _ Sx Sy OP)) as (T1 & T2 & T3).
    destruct Sx as (_ & _ & _ & -> & _), Sy as (_ & _ & _ & -> & _). auto.
Qed.
Lemma file_apart k fuel fuelo e hue vecs tm n ctf rooms m ws g tm' w m2 st g' bs m' :
  true_vectors vecs -> byte_hues hue -> manager tm -> mirror_factor n -> good_env e ->
  (7 <= k)%nat -> (S k < fuelo)%nat -> wf_map m -> header_size m = Some ws -> 2 ^ Z.of_nat (S k) <= ws <= 8192 ->
  Z.of_nat (List.length (tm_atlas tm)) <= 57000 -> len (m_ents m) <= 2 ^ 30 ->
  generate fuel e hue vecs tm (2 ^ Z.of_nat (S k)) (Some n) false ctf rooms m g = (tm', Ok (w, m2, st), g') ->
  output_map fuelo w m2 = Ok bs -> read_rest bs = Ok (m', []) ->
  exists old sun ess, m_ents m' = old ++ sun :: List.concat ess /\ Forall2 same_entity (m_ents m) old /\
    (exists sun0, is_sun sun0 /\ same_entity sun0 sun) /\ Forall2 (furniture_read hue) (u_rooms st) ess /\ mostly_apart (u_rooms st) sun ess.
Proof.
  intros TV BH M Hn G Hk Hf WM HS Hws HA HE EG EO ER.
  destruct (generate_lays _ _ _ _ _ _ _ _ _ _ _ _ _ _ _ _ _ EG) as (g1 & E).
  destruct (generated k fuel fuelo e hue vecs tm n ctf rooms m ws g st g1 TV BH M Hn G Hk Hf WM HS Hws HA HE E)
    as (tm2 & w2 & m3 & g3 & sun & ess & bs2 & m4 & EG2 & EO2 & ER2 & _ & L & D & _ & EE & IS & FA & FF & SE).
  assert (w2 = w /\ m3 = m2) as (-> & ->) by (split; congruence). assert (bs2 = bs) as -> by congruence. assert (m4 = m') as -> by congruence.
  rewrite EE in SE. apply Forall2_app_inv_l in SE as (old & rest & S1 & S2 & ->). inversion S2 as [|? sun' ? l' SS S3]; subst.
  destruct (concat_inv _ _ _ S3) as (ess' & -> & S4). exists old, sun', ess'. split; [reflexivity|]. split; [exact S1|].
  split; [exists sun; split; [exact IS|exact SS]|]. split.
  - clear - FF S4. revert ess' S4. induction FF as [|ob es obs ess H FF IH]; intros ess' S4; inversion S4; subst; constructor; [|apply IH; assumption].
    exists es. split; assumption.
  - apply (apart_same _ _ _ _ _ SS S4). exact (map_apart hue n ctf st sun ess L D IS FA).
Qed.
(** ** By index *)
Lemma concat_nth {A} (ess : list (list A)) : forall k e, nth_error (List.concat ess) k = Some e ->
  exists i es j, nth_error ess i = Some es /\ nth_error es j = Some e /\ k = (List.length (List.concat (firstn i ess)) + j)%nat.
Proof.
  induction ess as [|es ess IH]; intros k e H; cbn [List.concat] in H; [destruct k; discriminate|].
  destruct (Nat.lt_ge_cases k (List.length es)) as [Lt|Ge].
  - rewrite nth_error_app1 in H by exact Lt. exists 0%nat, es, k. auto.
  - rewrite nth_error_app2 in H by exact Ge. destruct (IH _ _ H) as (i & es' & j & H1 & H2 & H3). exists (S i), es', j.
    split; [exact H1|]. split; [exact H2|]. cbn [firstn List.concat]. rewrite app_length. lia.
Qed.
Lemma apart_index rooms sun ess : mostly_apart rooms sun ess -> List.length rooms = List.length ess -> forall i j e e',
  nth_error (sun :: List.concat ess) i = Some e -> nth_error (sun :: List.concat ess) j = Some e' -> i <> j -> one_place e e' -> e_type e = 1 /\ e_type e' = 1.
Proof.
  intros (A & B & C) EL i j e e' Hi Hj Ne OP. destruct i as [|i], j as [|j]; cbn [nth_error] in Hi, Hj.
  - congruence.
  - exfalso. assert (e = sun) as -> by congruence. exact (A e' (nth_error_In _ _ Hj) OP).
  - exfalso. assert (e' = sun) as -> by congruence. apply (A e (nth_error_In _ _ Hi)). destruct OP as (X & Y & Z0). split; [|split]; apply CodecFloat.feq_sym; assumption.
  - destruct (concat_nth _ _ _ Hi) as (a & es & u & H1 & H2 & H3), (concat_nth _ _ _ Hj) as (b & es' & v & H4 & H5 & H6).
    destruct (Nat.eq_dec a b) as [<-|Nab].
    + assert (es' = es) as -> by congruence. exfalso. apply Ne. rewrite H3, H6, (B es u v e e' (nth_error_In _ _ H1) H2 H5 OP). reflexivity.
    + assert (forall c l, nth_error ess c = Some l -> exists r, nth_error rooms c = Some r) as X.
      { intros c l Hc. destruct (nth_error rooms c) eqn:E; [eauto|]. apply nth_error_None in E. apply nth_lt in Hc. lia. }
      destruct (X a es H1) as (ra & Ra), (X b es' H4) as (rb & Rb).
      destruct (C a b ra rb es es' e e' Ra Rb H1 H4 (nth_error_In _ _ H2) (nth_error_In _ _ H5) Nab OP) as (T1 & T2 & _). auto.
Qed.
Lemma file_index k fuel fuelo e hue vecs tm n ctf rooms m ws g tm' w m2 st g' bs m' :
  true_vectors vecs -> byte_hues hue -> manager tm -> mirror_factor n -> good_env e ->
  (7 <= k)%nat -> (S k < fuelo)%nat -> wf_map m -> header_size m = Some ws -> 2 ^ Z.of_nat (S k) <= ws <= 8192 ->
  Z.of_nat (List.length (tm_atlas tm)) <= 57000 -> len (m_ents m) <= 2 ^ 30 ->
  generate fuel e hue vecs tm (2 ^ Z.of_nat (S k)) (Some n) false ctf rooms m g = (tm', Ok (w, m2, st), g') ->
  output_map fuelo w m2 = Ok bs -> read_rest bs = Ok (m', []) ->
  forall i j a b, (List.length (m_ents m) <= i)%nat -> (List.length (m_ents m) <= j)%nat -> i <> j ->
    nth_error (m_ents m') i = Some a -> nth_error (m_ents m') j = Some b -> one_place a b -> e_type a = 1 /\ e_type b = 1.
Proof.
  intros TV BH M Hn G Hk Hf WM HS Hws HA HE EG EO ER i j a b Li Lj Ne Ha Hb OP.
  destruct (file_apart k fuel fuelo e hue vecs tm n ctf rooms m ws g tm' w m2 st g' bs m' TV BH M Hn G Hk Hf WM HS Hws HA HE EG EO ER) as (old & sun & ess & EE & S1 & _ & F & MA).
  apply Forall2_length in S1. apply Forall2_length in F. rewrite EE in Ha, Hb. rewrite nth_error_app2 in Ha, Hb by lia.
  apply (apart_index _ _ _ MA F (i - List.length old) (j - List.length old) a b Ha Hb); [lia|exact OP].
Qed.

(** ** Runs with lights at one place *)
Definition points_of (ob : obj) : list (Z * Z * Z) :=
  match shipped_of (r_cls (snd ob)) with
  | Some s => map (t3add (corner (r_pos (snd ob)))) (flat_map (extra_points (r_turn (snd ob))) (s_extra s))
  | None => []
  end.
Fixpoint dupb (l : list (Z * Z * Z)) : bool := match l with [] => false | a :: r => if existsb (t3eqb a) r then true else dupb r end.
Lemma dupb_ok l : dupb l = true -> exists i j p, (i < j)%nat /\ nth_error l i = Some p /\ nth_error l j = Some p.
Proof.
  induction l as [|a r IH]; cbn [dupb]; [discriminate|]. destruct (existsb (t3eqb a) r) eqn:E; intros H.
  - apply existsb_exists in E as (b & Hb & E). assert (a = b) as ->.
    { destruct a as [[x y] z], b as [[u v] w]. cbn in E. rewrite !Bool.andb_true_iff, !Z.eqb_eq in E. apply t3_eq; tauto. }
    apply In_nth_error in Hb as (j & Hj). exists 0%nat, (S j), b. split; [lia|]. auto.
  - destruct (IH H) as (i & j & p & L & H1 & H2). exists (S i), (S j), p. split; [lia|]. auto.
Qed.
Lemma single_ok : over (fun s t x => Nat.eqb (List.length (extra_points t x)) 1) = true.
Proof. vm_compute. reflexivity. Qed.
Lemma points_stand p t l : (forall x, In x l -> List.length (extra_points t x) = 1%nat) -> forall es, Forall2 (stands_off p t) l es ->
  Forall2 (fun e q => stands e q 2) es (map (t3add (corner p)) (flat_map (extra_points t) l)).
Proof.
  intros H es F. revert H. induction F as [|x e l es (q & Hq & Sq) F IH]; intros H; [constructor|]. cbn [flat_map]. rewrite map_app.
  specialize (IH (fun y Hy => H y (or_intror Hy))). specialize (H x (or_introl eq_refl)). destruct (extra_points t x) as [|q0 [|? ?]]; try discriminate H.
  destruct Hq as [->|[]]. cbn [map app]. constructor; assumption.
Qed.
Lemma all_stand hue n ctf st obs ess : laid_out n ctf st -> incl obs (u_rooms st) -> Forall2 (furnished_at hue) obs ess ->
  Forall2 (fun e q => stands e q 2) (List.concat ess) (flat_map points_of obs).
Proof.
  intros L IN F. revert IN. induction F as [|ob es obs ess H F IH]; intros IN; [constructor|]. cbn [List.concat flat_map]. apply Forall2_app.
  - destruct (furnished_stands hue n ctf st ob es L (IN ob (or_introl eq_refl)) H) as (s & Hs & Hi & Ec & _ & St). unfold points_of. rewrite Ec, (shipped_of_self _ Hi).
    apply points_stand; [|exact St]. intros x Hx. apply Nat.eqb_eq. exact (over_ok _ single_ok s _ x Hs Hx).
  - apply IH. intros o Ho. apply IN. right. exact Ho.
Qed.
Definition clash_run (r : upm * option exn * rng) : bool := match r with (st, None, _) => dupb (flat_map points_of (u_rooms st)) | _ => false end.
Lemma clash_runs : clash_run (lay_out 100 sample_env (Some 1) false false 6 stream) && clash_run (lay_out 100 sample_env (Some 2) false false 6 stream) &&
  clash_run (lay_out 100 sample_env (Some 4) false false 6 stream) = true.
Proof. vm_compute. reflexivity. Qed.
Lemma clashes n hue vecs tm m size : mirror_factor n -> true_vectors vecs -> manager tm ->
  exists fuel e rooms g tm' w m2 st g' i j a b, good_env e /\ generate fuel e hue vecs tm size (Some n) false false rooms m g = (tm', Ok (w, m2, st), g') /\
    (List.length (m_ents m) <= i < j)%nat /\ nth_error (m_ents m2) i = Some a /\ nth_error (m_ents m2) j = Some b /\ one_place a b.
Proof.
  intros Hn TV M. assert (clash_run (lay_out 100 sample_env (Some n) false false 6 stream) = true) as C.
  { pose proof clash_runs as R. apply Bool.andb_true_iff in R as [R R4]. apply Bool.andb_true_iff in R as [R1 R2]. destruct Hn as [-> | [-> | ->]]; assumption. }
  destruct (lay_out 100 sample_env (Some n) false false 6 stream) as [[st [x|]] g1] eqn:E; [discriminate|]. cbn [clash_run] in C.
  destruct (generate_ok 100 sample_env hue vecs tm size n false 6 m stream st g1 TV M Hn sample_good E)
    as (tm' & w & m2 & g' & sun & ess & EG & L & _ & _ & _ & (ME & _) & FA & _).
  destruct (dupb_ok _ C) as (i & j & p & Lij & Hi & Hj). pose proof (all_stand hue n false st _ ess L (incl_refl _) FA) as St.
  assert (forall k, nth_error (flat_map points_of (u_rooms st)) k = Some p -> exists a, nth_error (m_ents m2) (List.length (m_ents m) + S k) = Some a /\ stands a p 2) as X.
  { intros k Hk. destruct (nth_error (List.concat ess) k) as [a|] eqn:Ea.
    - exists a. split; [|exact (Forall2_nth _ _ _ _ _ _ St Ea Hk)]. rewrite ME, nth_error_app2 by lia. replace (List.length (m_ents m) + S k - List.length (m_ents m))%nat with (S k) by lia. exact Ea.
    - apply nth_error_None in Ea. apply nth_lt in Hk. apply Forall2_length in St. lia. }
  destruct (X i Hi) as (a & Ha & Sa), (X j Hj) as (b & Hb & Sb).
  exists 100%nat, sample_env, 6, stream, tm', w, m2, st, g', (List.length (m_ents m) + S i)%nat, (List.length (m_ents m) + S j)%nat, a, b.
  split; [exact sample_good|]. split; [exact EG|]. split; [lia|]. split; [exact Ha|]. split; [exact Hb|]. exact (point_one_place a b p Sa Sb).
Qed.
