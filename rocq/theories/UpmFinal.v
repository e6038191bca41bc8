(** Final forms and counterexamples for the position manager properties. *)
From Coq Require Import QArith.
From Verif Require Import Py VecProofs UpmModel UpmSpec UpmProofs UpmRandom UpmTrace UpmInv UpmMore UpmMore2
  RoomClasses UpmSamples.
Local Open Scope Z_scope.

Lemma taken_iff st c : taken st c <-> occupied (u_occ st) c = true.
Proof.
  unfold taken, occupied, dmem. destruct (dget cell_eqb (u_occ st) c); split; congruence.
Qed.

(** C24 *)
Lemma prereg_no_lemma st r m : u_mirror st = Some m -> m = 1 \/ m = 2 \/ m = 4 ->
  exists ts, (m = 1 -> ts = [T0]) /\ (m = 2 -> ts = [T0; T2]) /\ (m = 4 -> ts = [T0; T1; T2; T3]) /\
  (exists b, preregister_room st r = Ok b) /\
  (preregister_room st r = Ok true ->
     exists st', register_room st r = (st', None) /\
       u_rooms st' = u_rooms st ++ combine (seq (u_next st) (List.length ts)) (map (fun t => mirror_room t r) ts)) /\
  (preregister_room st r = Ok false ->
     (exists t c, In t ts /\ In c (positions (mirror_room t r)) /\ taken st c) \/
     (exists i j t t', nth_error ts i = Some t /\ nth_error ts j = Some t' /\ (i < j)%nat /\
        share_cell (positions (mirror_room t r)) (positions (mirror_room t' r))) \/
     (exists t d, In t ts /\ In d (doorways (mirror_room t r)) /\ ~ legal_cell (fst d))).
Proof.
  intros M Hm.
  assert (exists ts, rotations st = Some ts /\ (m = 1 -> ts = [T0]) /\ (m = 2 -> ts = [T0; T2]) /\
    (m = 4 -> ts = [T0; T1; T2; T3])) as (ts & R & H1 & H2 & H3).
  { unfold rotations. rewrite M. destruct Hm as [-> | [-> | ->]]; eexists; (split; [reflexivity|]);
      (repeat split); (reflexivity || discriminate). }
  exists ts. do 3 (split; [assumption|]). destruct (prereg_spec_lemma st r ts R) as [P1 P2].
  split; [unfold preregister_room; rewrite R; eauto|]. split; [exact P1|].
  intros F. destruct (P2 F) as [(t & c & Q1 & Q2 & Q3) | [Q | Q]]; [|right; left; exact Q|right; right; exact Q].
  left. exists t, c. rewrite taken_iff. auto.
Qed.

(** C25 *)
Lemma register_atomic_refuted_lemma :
  exists st r st' x c, register_room st r = (st', Some x) /\ st = upm_init (Some 2) false /\
    List.length (u_rooms st') = 2%nat /\ taken st' c /\ ~ taken st c.
Proof.
  exists (upm_init (Some 2) false), (mk_room TestRoom (16, 16, 5) T0 None),
    (fst (register_room (upm_init (Some 2) false) (mk_room TestRoom (16, 16, 5) T0 None))), UserExn, (16, 16, 5).
  split; [vm_compute; reflexivity|]. split; [reflexivity|]. split; [vm_compute; reflexivity|].
  split; [apply taken_iff; vm_compute; reflexivity|]. rewrite taken_iff. vm_compute. discriminate.
Qed.

(** C27 *)
Lemma symmetry2_lemma ops nc st : existsb is_endcap ops = false ->
  urun ops (upm_init (Some 2) nc) = Some st ->
  (forall c, taken st (half_turn c) <-> taken st c) /\
  (forall ob, In ob (u_rooms st) -> exists ob', In ob' (u_rooms st) /\
     r_cls (snd ob') = r_cls (snd ob) /\ r_flags (snd ob') = r_flags (snd ob) /\
     positions (snd ob') = map half_turn (positions (snd ob)) /\
     doorways (snd ob') = map (fun d => (half_turn (fst d), opposite (snd d))) (doorways (snd ob))).
Proof.
  intros NE E. pose proof (Isym_history _ _ _ _ NE E) as S.
  destruct (noclip_history _ _ _ _ E) as [_ M].
  destruct (S [T0; T2] T2) as [S1 S2]; [unfold rotations; rewrite M; reflexivity|right; left; reflexivity|].
  split.
  - intros c. rewrite !taken_iff, <- mrot_T2, S1. reflexivity.
  - intros ob H. destruct (S2 ob H) as (ob' & H1 & H2). exists ob'. split; [exact H1|]. rewrite H2.
    do 2 (split; [reflexivity|]). rewrite positions_mirror, doorways_mirror. split.
    + apply map_ext. intros c. apply mrot_T2.
    + apply map_ext. intros [c o]. cbn [fst snd]. rewrite mrot_T2, crot_opposite. reflexivity.
Qed.
Lemma symmetry4_lemma ops nc st : existsb is_endcap ops = false ->
  urun ops (upm_init (Some 4) nc) = Some st ->
  (forall c, taken st (quarter_turn c) <-> taken st c) /\
  (forall ob, In ob (u_rooms st) -> exists ob', In ob' (u_rooms st) /\
     r_cls (snd ob') = r_cls (snd ob) /\ r_flags (snd ob') = r_flags (snd ob) /\
     positions (snd ob') = map quarter_turn (positions (snd ob)) /\
     map fst (doorways (snd ob')) = map (fun d => quarter_turn (fst d)) (doorways (snd ob))).
Proof.
  intros NE E. pose proof (Isym_history _ _ _ _ NE E) as S.
  destruct (noclip_history _ _ _ _ E) as [_ M].
  destruct (S [T0; T1; T2; T3] T1) as [S1 S2]; [unfold rotations; rewrite M; reflexivity|right; left; reflexivity|].
  split.
  - intros c. rewrite !taken_iff, <- mrot_T1, S1. reflexivity.
  - intros ob H. destruct (S2 ob H) as (ob' & H1 & H2). exists ob'. split; [exact H1|]. rewrite H2.
    do 2 (split; [reflexivity|]). rewrite positions_mirror, doorways_mirror, map_map. split.
    + apply map_ext. intros c. apply mrot_T1.
    + apply map_ext. intros [c o]. cbn [fst snd]. apply mrot_T1.
Qed.

(** C28 *)
Definition faces_b (a b : room) : bool :=
  existsb (fun d => existsb (fun d' => cell_eqb (fst d') (csub (fst d) (snd d)) && cell_eqb (snd d') (opposite (snd d)))
    (doorways a)) (doorways b).
Lemma faces_b_iff a b : faces_b a b = true <-> faces a b.
Proof.
  unfold faces_b, faces. rewrite existsb_exists. split.
  - intros ([d o] & H1 & H2). apply existsb_exists in H2 as ([d' o'] & H2 & H3). cbn [fst snd] in H3.
    apply andb_prop in H3 as [H3 H4]. apply cell_eqb_eq in H3, H4. subst. eauto.
  - intros (d & o & H1 & H2). exists (d, o). split; [exact H1|]. apply existsb_exists.
    exists (csub d o, opposite o). split; [exact H2|]. cbn [fst snd]. rewrite !cell_eqb_refl. reflexivity.
Qed.
Lemma join_refuted_lemma : exists ops st start placed,
  ops = [ORegister start; OPlace 9 e0 [NLongCorridor] 1 (fun i => Z.of_nat i * 0)] /\
  urun ops (upm_init (Some 1) false) = Some st /\
  u_rooms st = [(0%nat, start); (1%nat, placed)] /\ ~ faces placed start.
Proof.
  exists opsN, stN, startC, (mk_room NLongCorridor (12, 16, 5) T0 (Some [false; false; false; false])).
  split; [reflexivity|]. split; [vm_compute; reflexivity|]. split; [vm_compute; reflexivity|].
  rewrite <- faces_b_iff. vm_compute. discriminate.
Qed.

(** C33 *)
Lemma endcap_ok_lemma caps st g st' x g' : endcap false caps st g = (st', x, g') ->
  x = None /\ u_links st' = u_links st /\
  exists new, u_rooms st' = u_rooms st ++ new /\
    (forall ob, In ob new -> exists d p o c pos t, In (d, p, o) (u_open st) /\ In c caps /\
       snd ob = mk_room c pos t None /\ attached (snd ob) d o) /\
    (forall ob c, In ob new -> In c (positions (snd ob)) -> legal_cell c /\ ~ taken st c) /\
    disjoint_rooms new /\
    (forall c, taken st' c <-> taken st c \/ exists ob, In ob new /\ In c (positions (snd ob))).
Proof.
  intros E. apply endcap_lemma in E as (E0 & _ & E2 & new & N1 & N2 & N3 & N4 & N5).
  split; [exact E0|]. split; [exact E2|]. exists new. do 2 (split; [assumption|]). split; [|split; [exact N4|]].
  - intros ob c H1 H2. destruct (N3 ob c H1 H2) as [K1 K2]. split; [exact K1|]. rewrite taken_iff. congruence.
  - intros c. rewrite !taken_iff. apply N5.
Qed.
Lemma endcap_debug_history ops m nc caps g st' x g' :
  endcap true caps (urun_any ops (upm_init m nc)) g = (st', x, g') ->
  u_noclip (urun_any ops (upm_init m nc)) = false ->
  (x = None <-> NoDup (map (fun e => fst (fst e)) (u_open (urun_any ops (upm_init m nc))))) /\
  (x = None \/ x = Some UserExn).
Proof.
  intros E N. destruct (Iany_history ops m nc) as (A & _).
  apply endcap_debug_lemma in E.
  - destruct E as [E1 E2]. split; [|exact E2]. rewrite E1. rewrite N. intuition discriminate.
  - intros d p o H. apply A in H. tauto.
Qed.
Lemma endcap_debug_refuted_lemma : exists ops st, urun ops (upm_init (Some 1) false) = Some st /\
  snd (fst (endcap true [] st g0)) = Some UserExn.
Proof. exists opsD, stD. split; vm_compute; reflexivity. Qed.

(** C34 *)
Lemma outside_refuted_lemma : exists ops st start placed c,
  ops = [ORegister start; OPlace 9 e0 [AltarRoom] 1 g0] /\
  urun ops (upm_init (Some 1) false) = Some st /\
  u_rooms st = [(0%nat, start); (1%nat, placed)] /\
  (forall d, In d (positions start) -> legal_cell d) /\
  In c (positions placed) /\ ~ legal_cell c.
Proof.
  exists opsA, stA, (mk_room Corridor4way (16, 16, 32) T0 None), (mk_room AltarRoom (16, 18, 32) T3 None), (16, 18, 33).
  split; [reflexivity|]. split; [vm_compute; reflexivity|]. split; [vm_compute; reflexivity|].
  split; [|split].
  - intros d [<- | []]. cbn. lia.
  - apply cmem_in. vm_compute. reflexivity.
  - cbn. lia.
Qed.
Lemma world_refuted_lemma : exists ops st r,
  ops = [ORegister r] /\ urun ops (upm_init (Some 2) false) = Some st /\
  (forall c v, In c (positions r) -> voxel_in_cell v c -> voxel_in_world 256 v) /\
  exists ob, In ob (u_rooms st) /\ r_cls (snd ob) = r_cls r /\ positions (snd ob) <> [] /\
    forall c v, In c (positions (snd ob)) -> legal_cell c /\ (voxel_in_cell v c -> ~ voxel_in_world 256 v).
Proof.
  exists [ORegister (mk_room TestRoom (0, 16, 5) T0 None)],
    (urun_any [ORegister (mk_room TestRoom (0, 16, 5) T0 None)] (upm_init (Some 2) false)),
    (mk_room TestRoom (0, 16, 5) T0 None).
  split; [reflexivity|]. split; [vm_compute; reflexivity|]. split.
  - intros c v [<- | []]. apply cell_world_lemma. cbn. lia.
  - exists (1%nat, mk_room TestRoom (32, 16, 5) T2 None).
    split; [right; left; vm_compute; reflexivity|]. split; [reflexivity|]. split; [discriminate|].
    intros c [[vx vy] vz] [<- | []]. cbn. lia.
Qed.
