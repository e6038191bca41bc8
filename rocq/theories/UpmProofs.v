(** Lemmas about the position manager: cells, dictionaries, registration. *)
From Coq Require Import QArith Qround Lqa.
From Verif Require Import Py VecProofs VoxelProofs UpmModel UpmSpec.
Local Open Scope Z_scope.

(** ** Cells and turns *)
Lemma cell_eqb_eq a b : cell_eqb a b = true <-> a = b.
Proof.
  destruct a as [[x y] z], b as [[x' y'] z']. unfold cell_eqb.
  rewrite !andb_true_iff, !Z.eqb_eq. split.
  - intros [[-> ->] ->]. reflexivity.
  - intros E. injection E as -> -> ->. auto.
Qed.
Lemma cell_eqb_refl a : cell_eqb a a = true.
Proof. apply cell_eqb_eq. reflexivity. Qed.
Lemma cell_eqb_sym a b : cell_eqb a b = cell_eqb b a.
Proof.
  destruct (cell_eqb a b) eqn:E; symmetry.
  - apply cell_eqb_eq in E. subst. apply cell_eqb_refl.
  - destruct (cell_eqb b a) eqn:E2; [|reflexivity].
    apply cell_eqb_eq in E2. subst. rewrite cell_eqb_refl in E. discriminate.
Qed.
Lemma cell_eqb_trans a b c : cell_eqb a b = true -> cell_eqb b c = cell_eqb a c.
Proof. intros E. apply cell_eqb_eq in E. subst. reflexivity. Qed.
Lemma cell_dec (a b : cell) : {a = b} + {a <> b}.
Proof.
  destruct (cell_eqb a b) eqn:E; [left; apply cell_eqb_eq; exact E|right].
  intros ->. rewrite cell_eqb_refl in E. discriminate.
Qed.

Ltac cells := repeat match goal with c : cell |- _ => destruct c as [[? ?] ?] end.

Lemma crot_add t a b : crot t (cadd a b) = cadd (crot t a) (crot t b).
Proof. cells. destruct t; cbn [crot cadd]; apply t3_eq; lia. Qed.
Lemma crot_sub t a b : crot t (csub a b) = csub (crot t a) (crot t b).
Proof. cells. destruct t; cbn [crot csub]; apply t3_eq; lia. Qed.
Lemma crot_crot s t c : crot t (crot s c) = crot (tadd s t) c.
Proof. cells. destruct s, t; cbn [crot tadd tnext]; apply t3_eq; lia. Qed.
Lemma crot_inj t a b : crot t a = crot t b -> a = b.
Proof. cells. destruct t; cbn [crot]; intros E; apply t3_inv in E; apply t3_eq; lia. Qed.
Lemma crot_T0 c : crot T0 c = c.
Proof. cells. reflexivity. Qed.
Lemma crot_opposite c : crot T2 c = opposite c.
Proof. cells. reflexivity. Qed.
Lemma opposite_opposite c : opposite (opposite c) = c.
Proof. cells. cbn [opposite]. apply t3_eq; lia. Qed.
Lemma mrot_add t a b : mrot t (cadd a b) = cadd (mrot t a) (crot t b).
Proof. cells. destruct t; cbn [mrot crot cadd csub]; apply t3_eq; lia. Qed.
Lemma mrot_mrot s t c : mrot t (mrot s c) = mrot (tadd s t) c.
Proof. cells. destruct s, t; cbn [mrot crot tadd tnext cadd csub]; apply t3_eq; lia. Qed.
Lemma mrot_T0 c : mrot T0 c = c.
Proof. cells. cbn [mrot crot cadd csub]. apply t3_eq; lia. Qed.
Lemma mrot_T1 c : mrot T1 c = quarter_turn c.
Proof. cells. cbn [mrot crot cadd csub quarter_turn]. apply t3_eq; lia. Qed.
Lemma mrot_T2 c : mrot T2 c = half_turn c.
Proof. cells. cbn [mrot crot cadd csub half_turn]. apply t3_eq; lia. Qed.
Lemma mrot_inj t a b : mrot t a = mrot t b -> a = b.
Proof. cells. destruct t; cbn [mrot crot cadd csub]; intros E; apply t3_inv in E; apply t3_eq; lia. Qed.
Lemma tadd_assoc a b c : tadd (tadd a b) c = tadd a (tadd b c).
Proof. destruct a, b, c; reflexivity. Qed.
Lemma tadd_comm a b : tadd a b = tadd b a.
Proof. destruct a, b; reflexivity. Qed.
Lemma tadd_T0 a : tadd T0 a = a.
Proof. destruct a; reflexivity. Qed.
Lemma csub_cadd a b : csub (cadd a b) b = a.
Proof. cells. cbn [csub cadd]. apply t3_eq; lia. Qed.
Lemma cadd_csub a b : cadd (csub a b) b = a.
Proof. cells. cbn [csub cadd]. apply t3_eq; lia. Qed.

Lemma is_legal_iff c : is_legal c = true <-> legal_cell c.
Proof. cells. unfold is_legal, legal_cell. lia. Qed.
Lemma mrot_legal t c : is_legal (mrot t c) = is_legal c.
Proof. cells. destruct t; cbn [mrot crot cadd csub is_legal]; lia. Qed.

(** ** Mirrored rooms *)
Lemma positions_mirror t r : positions (mirror_room t r) = map (mrot t) (positions r).
Proof.
  unfold positions, mirror_room. cbn [r_pos r_turn r_cls r_flags]. rewrite map_map.
  apply map_ext. intros p. rewrite mrot_add, crot_crot. reflexivity.
Qed.
Lemma doorways_mirror t r :
  doorways (mirror_room t r) = map (fun d => (mrot t (fst d), crot t (snd d))) (doorways r).
Proof.
  unfold doorways, mirror_room. cbn [r_pos r_turn r_cls r_flags]. rewrite map_map.
  apply map_ext. intros [p o]. cbn [fst snd]. rewrite mrot_add, !crot_crot. reflexivity.
Qed.
Lemma mirror_mirror s t r : mirror_room t (mirror_room s r) = mirror_room (tadd s t) r.
Proof.
  unfold mirror_room. cbn [r_pos r_turn r_cls r_flags]. rewrite mrot_mrot, tadd_assoc. reflexivity.
Qed.
Lemma mirror_T0 r : mirror_room T0 r = r.
Proof.
  destruct r as [a b c d]. unfold mirror_room. cbn [r_pos r_turn r_cls r_flags]. rewrite mrot_T0. reflexivity.
Qed.

(** ** The occupied dictionary *)
Lemma occ_get_set (d : list (cell * obj)) k v k' :
  dget cell_eqb (dset cell_eqb d k v) k' = if cell_eqb k k' then Some v else dget cell_eqb d k'.
Proof. apply dget_dset; auto using cell_eqb_refl, cell_eqb_sym, cell_eqb_trans. Qed.

Lemma cmem_in c l : cmem c l = true <-> In c l.
Proof.
  unfold cmem. rewrite existsb_exists. split.
  - intros [x [H1 H2]]. apply cell_eqb_eq in H2. subst. exact H1.
  - intros H. exists c. split; [exact H|apply cell_eqb_refl].
Qed.

Lemma occ_get_update used : forall occ o c,
  dget cell_eqb (occ_update occ used o) c = if cmem c used then Some o else dget cell_eqb occ c.
Proof.
  unfold occ_update. induction used as [|p used IH]; intros occ o c; cbn [fold_left].
  - reflexivity.
  - rewrite IH, occ_get_set. unfold cmem. cbn [existsb]. rewrite (cell_eqb_sym c p).
    destruct (existsb (cell_eqb c) used) eqn:E; [rewrite orb_true_r; reflexivity|].
    rewrite orb_false_r. reflexivity.
Qed.

Lemma occupied_update occ used o c :
  occupied (occ_update occ used o) c = cmem c used || occupied occ c.
Proof.
  unfold occupied, dmem. rewrite occ_get_update. destruct (cmem c used); reflexivity.
Qed.
Lemma occupied_get occ c : occupied occ c = true <-> exists o, dget cell_eqb occ c = Some o.
Proof.
  unfold occupied, dmem. destruct (dget cell_eqb occ c) as [o|]; split; intros; try discriminate;
    try (destruct H; discriminate); eauto.
Qed.
Lemma occupied_false occ c : occupied occ c = false <-> dget cell_eqb occ c = None.
Proof.
  unfold occupied, dmem. destruct (dget cell_eqb occ c); split; intros; try discriminate; auto.
Qed.

(** ** Registration of one room *)
Definition clash (occ : list (cell * obj)) (r : room) : bool := existsb (occupied occ) (positions r).

Lemma clash_iff occ r : clash occ r = true <-> exists c, In c (positions r) /\ occupied occ c = true.
Proof. unfold clash. apply existsb_exists. Qed.

Lemma register1_ok st r st' : register1 st r = (st', None) ->
  (u_noclip st = false -> clash (u_occ st) r = false) /\
  u_noclip st' = u_noclip st /\ u_mirror st' = u_mirror st /\
  u_occ st' = occ_update (u_occ st) (positions r) (u_next st, r) /\
  u_open st' = filter (fun e => negb (cmem (fst (fst e)) (positions r))) (u_open st)
     ++ map (fun d => (fst d, (u_next st, r), snd d))
          (filter (fun d => is_legal (fst d) && negb (occupied (u_occ st') (fst d))) (doorways r)) /\
  u_rooms st' = u_rooms st ++ [(u_next st, r)] /\
  u_links st' = u_links st /\ u_next st' = S (u_next st) /\ u_gone st' = u_gone st.
Proof.
  unfold register1, clash. destruct (existsb _ _) eqn:E; destruct (u_noclip st) eqn:N;
    cbn [andb negb]; intros Q; inversion Q; subst; clear Q; cbn -[occ_update positions doorways filter map];
    intuition (try discriminate; try congruence).
Qed.

Lemma register1_err st r st' x : register1 st r = (st', Some x) ->
  x = UserExn /\ u_noclip st = false /\ clash (u_occ st) r = true /\
  st' = U (u_noclip st) (u_mirror st) (u_occ st) (u_open st) (u_rooms st ++ [(u_next st, r)])
          (u_links st) (S (u_next st)) (u_gone st).
Proof.
  unfold register1, clash. destruct (existsb _ _) eqn:E; destruct (u_noclip st) eqn:N;
    cbn [andb negb]; intros Q; inversion Q; subst; clear Q; auto.
Qed.

Lemma register1_total st r : u_noclip st = true \/ clash (u_occ st) r = false ->
  exists st', register1 st r = (st', None).
Proof.
  unfold register1, clash. intros [N | N]; rewrite N; cbn [andb negb]; rewrite ?andb_false_r; eauto.
Qed.

(** ** Registration of a list *)
Lemma register_all_app rs1 : forall st rs2 ,
  register_all st (rs1 ++ rs2) =
  match register_all st rs1 with
  | (st', None) => register_all st' rs2
  | (st', Some x) => (st', Some x)
  end.
Proof.
  induction rs1 as [|r rs1 IH]; intros st rs2; cbn [app register_all]; [reflexivity|].
  destruct (register1 st r) as [st1 [x|]]; [reflexivity|apply IH].
Qed.

(** An invariant of single registrations holds along register_all. *)
Lemma register_all_inv (P : upm -> Prop) :
  (forall st r st' x, P st -> register1 st r = (st', x) -> P st') ->
  forall rs st st' x, P st -> register_all st rs = (st', x) -> P st'.
Proof.
  intros HP. induction rs as [|r rs IH]; intros st st' x H Q; cbn [register_all] in Q.
  - inversion Q; subst. exact H.
  - destruct (register1 st r) as [st1 [y|]] eqn:E.
    + inversion Q; subst. eauto.
    + eapply IH; [|exact Q]. eauto.
Qed.
Lemma register_all_inv_ok (P : upm -> Prop) :
  (forall st r st', P st -> register1 st r = (st', None) -> P st') ->
  forall rs st st', P st -> register_all st rs = (st', None) -> P st'.
Proof.
  intros HP. induction rs as [|r rs IH]; intros st st' H Q; cbn [register_all] in Q.
  - inversion Q; subst. exact H.
  - destruct (register1 st r) as [st1 [y|]] eqn:E; [discriminate|].
    eapply IH; [|exact Q]. eauto.
Qed.

(** What a successful register_all leaves behind. *)
Lemma register_all_ok : forall rs st st', register_all st rs = (st', None) ->
  u_noclip st' = u_noclip st /\ u_mirror st' = u_mirror st /\ u_links st' = u_links st /\
  u_gone st' = u_gone st /\ u_next st' = (List.length rs + u_next st)%nat /\
  u_rooms st' = u_rooms st ++ combine (seq (u_next st) (List.length rs)) rs /\
  (forall c, occupied (u_occ st') c = cmem c (flat_map positions rs) || occupied (u_occ st) c) /\
  (u_noclip st = false ->
     (forall c, cmem c (flat_map positions rs) = true -> occupied (u_occ st) c = false)).
Proof.
  induction rs as [|r rs IH]; intros st st' Q; cbn [register_all] in Q.
  - inversion Q; subst. cbn. rewrite app_nil_r. intuition discriminate.
  - destruct (register1 st r) as [st1 [y|]] eqn:E; [discriminate|].
    apply register1_ok in E as (E0 & E1 & E2 & E3 & E4 & E5 & E6 & E7 & E8).
    apply IH in Q as (Q1 & Q2 & Q3 & Q4 & Q5 & Q6 & Q7 & Q8). clear IH.
    cbn [List.length seq combine flat_map].
    rewrite Q1, Q2, Q3, Q4, Q5, Q6, E1, E2, E5, E6, E7, E8, <- app_assoc. cbn [app].
    do 4 (split; [reflexivity|]). split; [lia|]. split; [reflexivity|]. split.
    + intros c. rewrite Q7, E3, occupied_update. unfold cmem. rewrite existsb_app.
      destruct (existsb (cell_eqb c) (positions r)), (existsb (cell_eqb c) (flat_map positions rs));
        reflexivity.
    + intros N c Hc. apply cmem_in, in_app_or in Hc as [Hc | Hc].
      * destruct (occupied (u_occ st) c) eqn:O; [|reflexivity].
        assert (clash (u_occ st) r = true) by (apply clash_iff; eauto). rewrite E0 in H; auto.
      * rewrite E1 in Q8. specialize (Q8 N c). apply cmem_in in Hc. apply Q8 in Hc.
        rewrite E3, occupied_update in Hc. apply orb_false_elim in Hc. tauto.
Qed.

(** ** Pre-registration *)
Lemma prereg_ok_register : forall rs occ added st,
  prereg occ added rs = true ->
  (forall c, occupied (u_occ st) c = cmem c added || occupied occ c) ->
  exists st', register_all st rs = (st', None).
Proof.
  induction rs as [|r rs IH]; intros occ added st H Hocc; cbn [prereg register_all] in *; [eauto|].
  destruct (existsb _ (positions r)) eqn:E; [discriminate|].
  destruct (forallb (fun d : cell * cell => is_legal (fst d)) (doorways r)) eqn:D; [|discriminate].
  destruct (register1_total st r) as [st1 E1].
  { right. destruct (clash (u_occ st) r) eqn:C; [|reflexivity].
    apply clash_iff in C as [c [C1 C2]]. rewrite Hocc in C2.
    assert (existsb (fun p => occupied occ p || cmem p added) (positions r) = true) as X.
    { apply existsb_exists. exists c. rewrite orb_comm. auto. }
    rewrite X in E. discriminate. }
  rewrite E1. eapply IH; [exact H|].
  intros c. apply register1_ok in E1 as (_ & _ & _ & E3 & _). rewrite E3, occupied_update, Hocc.
  unfold cmem. rewrite existsb_app.
  destruct (existsb (cell_eqb c) (positions r)), (existsb (cell_eqb c) added); reflexivity.
Qed.

Lemma prereg_true_iff : forall rs occ added, prereg occ added rs = true <->
  (forall r c, In r rs -> In c (positions r) -> occupied occ c = false /\ cmem c added = false) /\
  (forall i j a b c, nth_error rs i = Some a -> nth_error rs j = Some b -> (i < j)%nat ->
     In c (positions a) -> ~ In c (positions b)) /\
  (forall r d, In r rs -> In d (doorways r) -> is_legal (fst d) = true).
Proof.
  induction rs as [|r rs IH]; intros occ added; cbn [prereg].
  - split; [|reflexivity]. intros _. split; [intros ? ? []|]. split; [|intros ? ? []].
    intros [|i] j a b c E; discriminate.
  - destruct (existsb _ (positions r)) eqn:E; [split; [discriminate|]|].
    { apply existsb_exists in E as [c [C1 C2]]. intros (A & _). specialize (A r c).
      destruct A as [A1 A2]; cbn; auto. rewrite A1, A2 in C2. discriminate. }
    assert (forall c, In c (positions r) -> occupied occ c = false /\ cmem c added = false) as N.
    { intros c Hc. destruct (occupied occ c) eqn:O, (cmem c added) eqn:M; auto;
        assert (existsb (fun p => occupied occ p || cmem p added) (positions r) = true)
          by (apply existsb_exists; exists c; rewrite O, M; auto); congruence. }
    destruct (forallb (fun d : cell * cell => is_legal (fst d)) (doorways r)) eqn:D.
    2:{ split; [discriminate|]. intros (_ & _ & L). exfalso.
        assert (forallb (fun d : cell * cell => is_legal (fst d)) (doorways r) = true).
        { apply forallb_forall. intros d Hd. apply (L r d); cbn; auto. }
        congruence. }
    rewrite forallb_forall in D. rewrite IH. clear IH E. split.
    + intros (A & B & L). split; [|split].
      * intros r' c [-> | Hr] Hc; [auto|]. specialize (A r' c Hr Hc). destruct A as [A1 A2].
        split; [exact A1|]. destruct (cmem c added) eqn:M; [|reflexivity].
        apply cmem_in in M. assert (cmem c (added ++ positions r) = true)
          by (apply cmem_in, in_or_app; auto). congruence.
      * intros [|i] [|j] a b c E1 E2 Lt; try lia; cbn [nth_error] in *.
        -- injection E1 as <-. intros C1 C2. apply nth_error_In in E2.
           destruct (A b c E2 C2) as [_ A2].
           assert (cmem c (added ++ positions r) = true) by (apply cmem_in, in_or_app; auto). congruence.
        -- apply (B i j a b c); auto; lia.
      * intros r' d [-> | Hr] Hd; [auto|eauto].
    + intros (A & B & L). split; [|split].
      * intros r' c Hr Hc. destruct (A r' c) as [A1 A2]; cbn; auto. split; [exact A1|].
        destruct (cmem c (added ++ positions r)) eqn:M; [|reflexivity].
        apply cmem_in, in_app_or in M as [M | M]; [apply cmem_in in M; congruence|].
        apply In_nth_error in Hr as [j Hj]. exfalso.
        apply (B O (S j) r r' c); auto; lia.
      * intros i j a b c E1 E2 Lt. apply (B (S i) (S j) a b c); auto; lia.
      * intros r' d Hr Hd. apply (L r' d); cbn; auto.
Qed.
