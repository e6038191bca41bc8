(** The drawing of every built-in class, checked against its cells. *)
From Coq Require Import QArith.
From Verif Require Import Py VecModel VecSpec VoxelModel VoxelSpec UpmModel UpmSpec RoomClasses KitModel KitSpec RoomModel RoomProofs.
Local Open Scope Z_scope.

Definition inside (c : rclass) (r : renderer) (fl : list bool) : Prop :=
  forall tx g k, In k (fst (r fl tx g)) -> containedb (rc_cells c fl) (k_con k) = true.

Ltac by_flags fl n :=
  lazymatch n with
  | O => idtac
  | S ?m => let b := fresh "b" in let fl' := fresh "fl" in destruct fl as [|b fl']; [|destruct b; by_flags fl' m]
  end.
Ltac check := intros tx g; apply containedb_tex; vm_compute; reflexivity.

Lemma inside_Room fl : inside BaseRoom render_Room fl. Proof. check. Qed.
Lemma inside_TestRoom fl : inside TestRoom render_TestRoom fl. Proof. check. Qed.
Lemma inside_AltarRoom fl : inside AltarRoom render_AltarRoom fl. Proof. check. Qed.
Lemma inside_NLongCorridor fl : inside NLongCorridor render_NLongCorridor fl.
Proof. by_flags fl 2%nat; check. Qed.
Lemma inside_Corridor2way fl : inside Corridor2way render_Corridor2way fl.
Proof. by_flags fl 2%nat; check. Qed.
Lemma inside_JumpCorridor3 fl : inside JumpCorridor3 render_JumpCorridor3 fl. Proof. check. Qed.
Lemma inside_JumpCorridorVertical fl : inside JumpCorridorVertical render_JumpCorridorVertical fl. Proof. check. Qed.
Lemma inside_JumpCorridorVerticalCenter fl : inside JumpCorridorVerticalCenter render_JumpCorridorVerticalCenter fl.
Proof. by_flags fl 1%nat; check. Qed.
Lemma inside_Corridor4way fl : inside Corridor4way render_Corridor4way fl.
Proof. by_flags fl 3%nat; check. Qed.
Lemma inside_SpawnRoom fl : inside SpawnRoom render_SpawnRoom fl.
Proof. by_flags fl 1%nat; check. Qed.
Lemma inside_Stair fl : inside Stair render_Stair fl. Proof. check. Qed.
Lemma inside_CrossingWalkways fl : inside CrossingWalkways render_CrossingWalkways fl.
Proof. by_flags fl 1%nat; check. Qed.
Lemma inside_PlusPlatform fl : inside PlusPlatform render_PlusPlatform fl. Proof. check. Qed.
Lemma inside_MultiPlatform fl : inside MultiPlatform render_MultiPlatform fl.
Proof. by_flags fl 1%nat; check. Qed.
Lemma inside_FlatSpace fl : inside FlatSpace render_FlatSpace fl. Proof. check. Qed.
Lemma inside_DigitalRoom fl : inside DigitalRoom render_DigitalRoom fl.
Proof. by_flags fl 3%nat; check. Qed.
Lemma inside_ImposingRingRoom fl : flag fl 1 = true -> inside ImposingRingRoom render_ImposingRingRoom fl.
Proof. by_flags fl 5%nat; intros T; try (vm_compute in T; discriminate T); check. Qed.

(** Random sizes: a finite list of possibilities. *)
Lemma randint_range a b g : a <= b -> a <= fst (randint a b g) <= b.
Proof.
  intros L. unfold randint. destruct (draw g) as [d g1]. cbn [fst].
  pose proof (Z.mod_pos_bound d (b - a + 1) ltac:(lia)). lia.
Qed.
Definition pole_constr (h i j o : Z) : constr :=
  KPrism (fine i j 0 +v vmul ABOVE_FINE o) (fine 1 1 (8 * h - 2 * o)).
Lemma poles_in h tx l : 1 <= h -> forall g k, In k (fst (poles h tx l g)) ->
  exists i j o, In (i, j) l /\ In o (zrange 1 (4 * h + 1)) /\ k_con k = pole_constr h i j o.
Proof.
  intros Hh. induction l as [|[i j] l IH]; intros g k; cbn [poles]; [intros []|].
  destruct (pole h tx (i, j) g) as [a g1] eqn:E. specialize (IH g1). destruct (poles h tx l g1) as [b g2].
  cbn [fst]. rewrite in_app_iff. intros [Hk|Hk].
  - unfold pole in E. destruct (rand01 g) as [r g3]. destruct (negb (Qle_bool (5 # 100) r)).
    + destruct ((2 <=? i) && (i <=? 4) && ((3 <=? j) && (j <=? 5))); [injection E as <- _; destruct Hk|].
      pose proof (randint_range 1 (4 * h) g3 ltac:(lia)) as RR. destruct (randint 1 (4 * h) g3) as [o g4].
      injection E as <- _. destruct Hk as [<-|[]]. exists i, j, o. split; [left; reflexivity|].
      split; [apply KitProofs.in_zrange; cbn [fst] in RR; lia|reflexivity].
    + injection E as <- _. destruct Hk.
  - destruct (IH k Hk) as (i' & j' & o & A & B). exists i', j', o. split; [right; exact A|exact B].
Qed.
Lemma pole_checked : forallb (fun h => forallb (fun ij => forallb (fun o => containedb (layers h) (pole_constr h (fst ij) (snd ij) o))
  (zrange 1 (4 * h + 1))) pole_grid) [1; 2] = true.
Proof. vm_compute. reflexivity. Qed.
Lemma inside_PoleRoom fl : inside PoleRoom render_PoleRoom fl.
Proof.
  intros tx g k. unfold render_PoleRoom. pose proof (poles_in (tall fl) tx pole_grid) as PI.
  assert (1 <= tall fl) as L by (unfold tall; destruct (flag fl 1); lia). specialize (PI L g).
  destruct (poles (tall fl) tx pole_grid g) as [ps g1]. cbn [fst] in PI |- *.
  change (rc_cells PoleRoom fl) with (layers (tall fl)).
  assert (In (tall fl) [1; 2]) as HT by (unfold tall; destruct (flag fl 1); cbn; auto).
  cbn [In]. rewrite in_app_iff. intros [<-|[Hk|Hk]].
  - clear PI. unfold tall. destruct (flag fl 1); vm_compute; reflexivity.
  - unfold tall. destruct (flag fl 1); [|destruct Hk]. destruct Hk as [<-|[]]. vm_compute. reflexivity.
  - destruct (PI k Hk) as (i & j & o & Hij & Ho & ->).
    pose proof pole_checked as PC. rewrite forallb_forall in PC. specialize (PC _ HT).
    rewrite forallb_forall in PC. specialize (PC _ Hij). rewrite forallb_forall in PC. exact (PC _ Ho).
Qed.

Lemma box_size_range v g : exists a b c, fst (box_size v g) = fine a b c /\
  In a (zrange 4 8) /\ In b (zrange 4 8) /\ In c (zrange 4 8).
Proof.
  unfold box_size. destruct v.
  - pose proof (randint_range 4 7 g ltac:(lia)) as R1. destruct (randint 4 7 g) as [a g1].
    pose proof (randint_range 4 7 g1 ltac:(lia)) as R2. destruct (randint 4 7 g1) as [b g2].
    pose proof (randint_range 4 7 g2 ltac:(lia)) as R3. destruct (randint 4 7 g2) as [c g3].
    cbn [fst] in *. exists a, b, c. split; [reflexivity|]. rewrite !KitProofs.in_zrange. lia.
  - exists 6, 6, 6. split; [reflexivity|]. rewrite !KitProofs.in_zrange. lia.
Qed.
Lemma boxes_checked : forallb (fun h => forallb (fun o => forallb (fun a => forallb (fun b => forallb (fun c =>
  containedb (layers h) (KPrism o (fine a b c))) (zrange 4 8)) (zrange 4 8)) (zrange 4 8))
  [fine 7 7 0; fine (-5) 7 0; fine 7 (-5) 0; fine (-5) (-5) 0]) [1; 2] = true.
Proof. vm_compute. reflexivity. Qed.
Lemma box_checked h o s v g : In h [1; 2] -> In o [fine 7 7 0; fine (-5) 7 0; fine 7 (-5) 0; fine (-5) (-5) 0] ->
  s = fst (box_size v g) -> containedb (layers h) (KPrism o s) = true.
Proof.
  intros Hh Ho ->. destruct (box_size_range v g) as (a & b & c & -> & Ha & Hb & Hc).
  pose proof boxes_checked as PC. rewrite forallb_forall in PC. specialize (PC _ Hh).
  rewrite forallb_forall in PC. specialize (PC _ Ho). rewrite forallb_forall in PC. specialize (PC _ Ha).
  rewrite forallb_forall in PC. specialize (PC _ Hb). rewrite forallb_forall in PC. exact (PC _ Hc).
Qed.
Lemma inside_ImposingBlockRoom fl : inside ImposingBlockRoom render_ImposingBlockRoom fl.
Proof.
  intros tx g k. unfold render_ImposingBlockRoom.
  pose proof (fun h o s => box_checked h o s (flag fl 2) g) as B1. destruct (box_size (flag fl 2) g) as [b1 g1].
  pose proof (fun h o s => box_checked h o s (flag fl 2) g1) as B2. destruct (box_size (flag fl 2) g1) as [b2 g2].
  pose proof (fun h o s => box_checked h o s (flag fl 2) g2) as B3. destruct (box_size (flag fl 2) g2) as [b3 g3].
  pose proof (fun h o s => box_checked h o s (flag fl 2) g3) as B4. destruct (box_size (flag fl 2) g3) as [b4 g4].
  cbn [fst] in *. change (rc_cells ImposingBlockRoom fl) with (layers (tall fl)).
  assert (In (tall fl) [1; 2]) as HT by (unfold tall; destruct (flag fl 1); cbn; auto).
  cbn [In]. rewrite in_app_iff. intros [<-|[Hk|Hk]].
  - unfold tall. destruct (flag fl 1); vm_compute; reflexivity.
  - destruct (flag fl 0); [|destruct Hk]. destruct Hk as [<-|[]].
    unfold tall. destruct (flag fl 1); vm_compute; reflexivity.
  - cbn [In] in Hk. destruct Hk as [<-|[<-|[<-|[<-|[]]]]]; cbn [draw_ k_con];
      [apply B1|apply B2|apply B3|apply B4]; cbn [In]; auto.
Qed.

(** The classes that stay inside their cells whatever their flags. *)
Definition well_drawn : list (rclass * renderer) :=
  filter (fun cr => negb (rc_id (fst cr) =? rc_id TestRoom2) && negb (rc_id (fst cr) =? rc_id ImposingRingRoom)) builtin_renderers.
Lemma well_drawn_inside cr fl : In cr well_drawn -> inside (fst cr) (snd cr) fl.
Proof.
  unfold well_drawn. intros Hi. apply filter_In in Hi as [Hi Hne]. unfold builtin_renderers in Hi. cbn [In] in Hi.
  repeat match type of Hi with _ \/ _ => destruct Hi as [<-|Hi] end; cbn [fst snd];
    try (vm_compute in Hne; discriminate Hne);
    auto using inside_Room, inside_TestRoom, inside_AltarRoom, inside_NLongCorridor, inside_Corridor2way, inside_JumpCorridor3,
      inside_JumpCorridorVertical, inside_JumpCorridorVerticalCenter, inside_Corridor4way, inside_SpawnRoom, inside_PoleRoom,
      inside_ImposingBlockRoom, inside_Stair, inside_CrossingWalkways, inside_PlusPlatform, inside_MultiPlatform,
      inside_FlatSpace, inside_DigitalRoom.
  destruct Hi.
Qed.
