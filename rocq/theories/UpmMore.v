(** Further lemmas about placement and endcaps (C28, C29, C30, C33, C34). *)
From Coq Require Import QArith.
From Verif Require Import Py VecProofs UpmModel UpmSpec UpmProofs UpmRandom UpmTrace UpmInv.
Local Open Scope Z_scope.

(** ** Placement invariants that know the placed class *)
Lemma place_loop_inv_opts (P : upm -> Prop) (opts : list rclass) :
  (forall st d prev o c pos t fl st1 st2, P st -> In (d, prev, o) (u_open st) -> In c opts ->
     attached (mk_room c pos t None) d o ->
     preregister_room st (mk_room c pos t fl) = Ok true ->
     register_room st (mk_room c pos t fl) = (st1, None) ->
     register_link st1 (snd prev) (mk_room c pos t fl) = (st2, None) -> P st2) ->
  (forall st x, P st -> In x (u_open st) -> P (discard st x)) ->
  forall e n fuel st k g st' x g',
    place_loop fuel e st opts n k g = (st', x, g') -> P st -> P st'.
Proof.
  intros Hp Hd e n. induction fuel as [|fuel IH]; intros st k g st' x g' E H.
  - cbn [place_loop] in E. injection E as <- _ _. exact H.
  - apply place_loop_cases in E as [Q | [Q | [Q | [Q | Q]]]].
    + destruct Q as (_ & -> & _). exact H.
    + destruct Q as (_ & _ & -> & _). exact H.
    + destruct Q as (_ & _ & y & _ & [(-> & _) | (? & ? & ? & ? & ? & _ & -> & _)]); exact H.
    + destruct Q as (_ & d & prev & o & g1 & r & g2 & Hin & LO & st1 & st2 & m & R1 & M & R2 & E).
      eapply IH; [exact E|]. apply localize_some in LO as (c & pos & t & fl & -> & L1 & L2 & L3).
      eapply Hp; eauto.
    + destruct Q as (_ & d & prev & o & g1 & g2 & Hin & LO & E).
      eapply IH; [exact E|]. apply Hd; auto.
Qed.

Lemma lift_opts (P : list uop -> upm -> Prop) :
  (forall done op st, P done st -> P (done ++ [op]) st) ->
  (forall done st r st', P (done ++ [ORegister r]) st -> register_room st r = (st', None) ->
     P (done ++ [ORegister r]) st') ->
  (forall done st d prev o c pos t fl st1 st2, P done st -> In (d, prev, o) (u_open st) ->
     offered done c -> attached (mk_room c pos t None) d o ->
     preregister_room st (mk_room c pos t fl) = Ok true ->
     register_room st (mk_room c pos t fl) = (st1, None) ->
     register_link st1 (snd prev) (mk_room c pos t fl) = (st2, None) -> P done st2) ->
  (forall done st x, P done st -> In x (u_open st) -> P done (discard st x)) ->
  (forall done st a b st', P done st -> register_link st a b = (st', None) ->
     P (done ++ [OLink a b]) st') ->
  forall ops done st st', existsb is_endcap ops = false -> P done st ->
    urun ops st = Some st' -> P (done ++ ops) st'.
Proof.
  intros Hw H1 H2 H3 H4. induction ops as [|op ops IH]; intros done st st' NE H E; cbn [urun existsb] in *.
  { injection E as <-. rewrite app_nil_r. exact H. }
  apply orb_false_elim in NE as [NE1 NE2].
  destruct (ustep st op) as [st1 [x|]] eqn:S; [discriminate|].
  replace (done ++ op :: ops) with ((done ++ [op]) ++ ops) by (rewrite <- app_assoc; reflexivity).
  eapply IH; [exact NE2| |exact E]. clear IH E.
  destruct op as [r | a b | fuel e opts n g | debug caps g]; cbn [ustep] in S.
  - eauto.
  - eauto.
  - unfold place_rooms in S. destruct (place_loop fuel e st opts n 0 g) as [[st2 [k|x]] g'] eqn:E; [|discriminate].
    injection S as <-.
    refine (place_loop_inv_opts (P (done ++ [OPlace fuel e opts n g])) opts _ _ _ _ _ _ _ _ _ _ _ E (Hw _ _ _ H)); eauto.
    intros. eapply H2; eauto. exists fuel, e, opts, n, g. split; [|assumption].
    apply in_or_app. right. left. reflexivity.
  - discriminate.
Qed.

(** ** C28 *)
Lemma attached_doors_free c pos t fl d o : doors_flag_free c ->
  attached (mk_room c pos t None) d o -> attached (mk_room c pos t fl) d o.
Proof.
  intros F. unfold attached, doorways. cbn [r_cls r_flags mk_room r_pos r_turn].
  match goal with |- In _ (map _ (rc_doors c ?x)) -> In _ (map _ (rc_doors c ?y)) =>
    rewrite (F x y) end. auto.
Qed.
Lemma door_from_cell r d o : doors_on_cells (r_cls r) -> In (d, o) (doorways r) -> In (csub d o) (positions r).
Proof.
  intros D H. unfold doorways in H. apply in_map_iff in H as ([p q] & E & H).
  cbn [fst snd] in E. injection E as <- <-. apply D in H. cbn [fst snd] in H.
  unfold positions. apply in_map_iff. exists (csub p q). split; [|exact H].
  rewrite crot_sub. destruct (r_pos r) as [[? ?] ?], (crot (r_turn r) p) as [[? ?] ?], (crot (r_turn r) q) as [[? ?] ?].
  cbn [csub cadd]. apply t3_eq; lia.
Qed.
Lemma door_level r d o : doors_level (r_cls r) -> In (d, o) (doorways r) -> horizontal o.
Proof.
  intros D H. unfold doorways in H. apply in_map_iff in H as ([p q] & E & H).
  cbn [fst snd] in E. injection E as _ <-. apply D in H. unfold horizontal in *. cbn [snd] in *.
  destruct q as [[? ?] ?], (r_turn r); exact H.
Qed.
Lemma attached_joined a b d o : doors_on_cells (r_cls a) -> doors_on_cells (r_cls b) -> doors_level (r_cls b) ->
  In (d, o) (doorways b) -> attached a d o -> joined a b.
Proof.
  intros Da Db Lb Hb A. exists d, o. split; [exact Hb|]. split; [apply door_from_cell; assumption|].
  split; [|exact A]. apply door_from_cell in A; [|exact Da].
  apply (door_level _ _ _ Lb) in Hb. unfold horizontal in Hb.
  replace d with (csub (csub d o) (opposite o)); [exact A|].
  destruct d as [[? ?] ?], o as [[? ?] ?]. cbn [snd] in Hb. cbn [csub opposite]. apply t3_eq; lia.
Qed.
Lemma joined_mirror t a b : joined a b -> joined (mirror_room t a) (mirror_room t b).
Proof.
  intros (d & o & H1 & H2 & H3 & H4). exists (mrot t d), (crot t o).
  assert (csub (mrot t d) (crot t o) = mrot t (csub d o)) as E.
  { destruct d as [[? ?] ?], o as [[? ?] ?], t; cbn; apply t3_eq; lia. }
  rewrite E, !doorways_mirror, !positions_mirror.
  split; [|split; [|split]].
  - apply in_map_iff. exists (d, o). auto.
  - apply in_map. exact H2.
  - apply in_map. exact H3.
  - apply in_map_iff. exists (csub d o, opposite o). split; [|exact H4]. cbn [fst snd]. f_equal.
    destruct o as [[? ?] ?], t; reflexivity.
Qed.

Definition good_doors (c : rclass) : Prop := doors_on_cells c /\ doors_level c.

Definition Ijoin (ops : list uop) (st : upm) : Prop :=
  (forall c, offered ops c -> doors_flag_free c /\ good_doors c) ->
  (forall r, started ops r -> good_doors (r_cls r)) ->
  Isym st /\ Iany st /\
  (forall ob, In ob (u_rooms st) -> good_doors (r_cls (snd ob))) /\
  (forall ob, In ob (u_rooms st) ->
     (exists r ts t, rotations st = Some ts /\ In t ts /\ started ops r /\ snd ob = mirror_room t r) \/
     (exists ob', In ob' (u_rooms st) /\ (fst ob' < fst ob)%nat /\ joined (snd ob) (snd ob'))).

Lemma combine_seq_lb {A} (l : list A) s n i x : In (i, x) (combine (seq s n) l) -> (s <= i)%nat.
Proof. intros H. apply in_combine_l in H. apply in_seq in H. lia. Qed.

Lemma join_lemma ops m nc st : existsb is_endcap ops = false ->
  urun ops (upm_init m nc) = Some st ->
  (forall c, offered ops c -> doors_flag_free c /\ doors_on_cells c /\ doors_level c) ->
  (forall r, started ops r -> doors_on_cells (r_cls r) /\ doors_level (r_cls r)) ->
  forall ob, In ob (u_rooms st) ->
    (exists r ts t, rotations st = Some ts /\ In t ts /\ started ops r /\ snd ob = mirror_room t r) \/
    (exists ob', In ob' (u_rooms st) /\ (fst ob' < fst ob)%nat /\ joined (snd ob) (snd ob')).
Proof.
  intros NE E HO HS.
  assert (Ijoin ops st) as K.
  2:{ destruct (K HO HS) as (_ & _ & _ & H). exact H. }
  clear HO HS.
  assert (forall done op, (forall c, offered (done ++ [op]) c -> doors_flag_free c /\ good_doors c) ->
    (forall c, offered done c -> doors_flag_free c /\ good_doors c)) as WO.
  { intros done op H c (f & e & os & n & g & I1 & I2). apply H. exists f, e, os, n, g.
    split; [apply in_or_app; left; exact I1|exact I2]. }
  assert (forall done op, (forall r, started (done ++ [op]) r -> good_doors (r_cls r)) ->
    (forall r, started done r -> good_doors (r_cls r))) as WS.
  { intros done op H r I1. apply H. apply in_or_app. left. exact I1. }
  assert (forall done op s, Ijoin done s -> Ijoin (done ++ [op]) s) as WK.
  { intros done op s H HO HS. destruct (H (WO _ _ HO) (WS _ _ HS)) as (H1 & H2 & H3 & H4).
    do 3 (split; [assumption|]). intros ob Hob. destruct (H4 ob Hob) as [(r & ts & t & Q1 & Q2 & Q3 & Q4) | Q]; [left|right; exact Q].
    exists r, ts, t. do 2 (split; [assumption|]). split; [apply in_or_app; left; exact Q3|exact Q4]. }
  refine (lift_opts Ijoin WK _ _ _ _ ops [] _ st NE _ E).
  - intros done s r s' H R HO HS. destruct (H HO HS) as (H1 & H2 & H3 & H4).
    split; [eapply Isym_register; eauto|]. split; [eapply Iany_register; eauto|].
    unfold register_room in R. destruct (rotations s) as [ts0|] eqn:R0; [|discriminate].
    apply register_all_ok in R as (_ & E2 & E3 & _ & _ & E6 & _).
    assert (rotations s' = Some ts0) as R1 by (unfold rotations in *; rewrite E2; exact R0).
    rewrite E6, R1. split.
    + intros ob Hob. apply in_app_or in Hob as [Hob | Hob]; [auto|].
      destruct ob as [i r']. apply in_combine_r in Hob. apply in_map_iff in Hob as (t & <- & Ht).
      cbn [snd mirror_room r_cls]. apply HS. apply in_or_app. right. left. reflexivity.
    + intros ob Hob. apply in_app_or in Hob as [Hob | Hob].
      * destruct (H4 ob Hob) as [Q | (ob' & Q1 & Q2)]; [left; exact Q|right].
        exists ob'. split; [apply in_or_app; left; exact Q1|exact Q2].
      * left. destruct ob as [i r']. apply in_combine_r in Hob. apply in_map_iff in Hob as (t & <- & Ht).
        exists r, ts0, t. split; [reflexivity|]. split; [exact Ht|]. split; [|reflexivity].
        apply in_or_app. right. left. reflexivity.
  - intros done s d prev o c pos t fl s1 s2 H Hin OC A _ R RL HO HS.
    destruct (H HO HS) as (H1 & H2 & H3 & H4).
    pose proof H2 as (A1 & _ & A3 & _). apply A1 in Hin as (_ & _ & Hprev & Hdoor).
    split; [eapply Isym_link; [|exact RL]; eapply Isym_register; eauto|].
    split; [eapply Iany_link; [|exact RL]; eapply Iany_register; eauto|].
    destruct (HO c OC) as [F G].
    pose proof (H3 prev Hprev) as [P1 P2]. destruct G as [G1 G2].
    assert (joined (mk_room c pos t fl) (snd prev)) as J.
    { eapply attached_joined with (d := d) (o := o); auto. apply attached_doors_free; assumption. }
    unfold register_room in R. destruct (rotations s) as [ts0|] eqn:R0; [|discriminate].
    apply register_all_ok in R as (_ & E2 & E3 & _ & _ & E6 & _).
    assert (rotations s1 = Some ts0) as R1 by (unfold rotations in *; rewrite E2; exact R0).
    unfold register_link in RL. rewrite R1 in RL. injection RL as <-.
    match goal with |- context [rotations (U ?a ?b ?c ?d ?e ?f ?g ?h)] =>
      change (rotations (U a b c d e f g h)) with (rotations s1) end.
    cbn [u_rooms]. rewrite E6, R1. split.
    + intros ob Hob. apply in_app_or in Hob as [Hob | Hob]; [auto|].
      destruct ob as [i r']. apply in_combine_r in Hob. apply in_map_iff in Hob as (s' & <- & Ht).
      split; assumption.
    + intros ob Hob. apply in_app_or in Hob as [Hob | Hob].
      * destruct (H4 ob Hob) as [Q | (ob' & Q1 & Q2)]; [left; exact Q|right].
        exists ob'. split; [apply in_or_app; left; exact Q1|exact Q2].
      * right. destruct ob as [i r']. pose proof (combine_seq_lb _ _ _ _ _ Hob) as LB.
        apply in_combine_r in Hob. apply in_map_iff in Hob as (s' & <- & Ht).
        destruct (H1 ts0 s' R0 Ht) as [_ S2]. destruct (S2 prev Hprev) as (ob' & K1 & K2).
        exists ob'. split; [apply in_or_app; left; exact K1|]. split; [apply A3 in K1; cbn [fst]; lia|].
        cbn [snd]. rewrite K2. apply joined_mirror. exact J.
  - intros done s x H Hx HO HS. destruct (H HO HS) as (H1 & H2 & H3). split; [exact H1|].
    split; [apply Iany_discard, H2|exact H3].
  - intros done s a b s' H RL. apply WK. intros HO HS. destruct (H HO HS) as (H1 & H2 & H3 & H4).
    split; [eapply Isym_link; eauto|]. split; [eapply Iany_link; eauto|].
    unfold register_link in RL. destruct (rotations s) as [ts0|] eqn:R0; [|discriminate]. injection RL as <-.
    cbn [u_rooms]. split; [exact H3|]. intros ob Hob.
    match goal with |- context [rotations (U ?a ?b ?c ?d ?e ?f ?g ?h)] =>
      change (rotations (U a b c d e f g h)) with (rotations s) end. rewrite R0. apply H4. exact Hob.
  - intros _ _. split; [intros ts0 t _ _; split; [reflexivity|intros ob []]|]. split; [apply Iany_init|].
    split; intros ob [].
Qed.
