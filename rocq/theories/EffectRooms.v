(** A world in which a voxel room was drawn above the ground has a float height. *)
From Coq Require Import QArith.
From Verif Require Import Py VecModel VecSpec VecProofs VoxelModel VoxelSpec VoxelProofs UpmModel UpmSpec KitModel KitSpec
  KitProofs KitShape KitPaint MagicaModel RoomModel RoomSpec MagicaProofs EffectModel EffectSpec EffectProofs.
Local Open Scope Z_scope.

Lemma zmax_float ops : (forall o, In o ops -> float_z o) -> forall w : world (list Z),
  (w_zmax w = I 0 \/ exists h, w_zmax w = H h) ->
  (w_zmax (wrun ops w) = I 0 \/ exists h, w_zmax (wrun ops w) = H h) /\
  halves (w_zmax w) <= halves (w_zmax (wrun ops w)) /\
  forall o, In o ops -> snd (op_pos o) <= halves (w_zmax (wrun ops w)).
Proof.
  induction ops as [|o ops IH]; intros HF w Hw.
  - split; [exact Hw|]. split; [cbn; lia|intros o []].
  - cbn [wrun fold_left]. fold (wrun ops (wstep w o)).
    destruct (HF o (or_introl eq_refl)) as (l & a & h & -> & Eh).
    assert (w_zmax (wstep w (SetPointV l a)) = if nltb (w_zmax w) (vz l) then vz l else w_zmax w) as EZ by reflexivity.
    destruct (IH (fun o' H' => HF o' (or_intror H')) (wstep w (SetPointV l a))) as (A & B & D).
    { rewrite EZ. destruct (nltb (w_zmax w) (vz l)); [right; eauto|exact Hw]. }
    rewrite EZ in B. unfold nltb in B. split; [exact A|].
    destruct (Z.ltb_spec (halves (w_zmax w)) (halves (vz l))) as [L|L]; (split; [lia|]); intros o' [<-|Ho'];
      try (apply D; exact Ho'); cbn [op_pos snd]; lia.
Qed.
Lemma room_world_rejected j p c q a size g tx f g' s : valid_model (j_model j) -> cell_at (j_pos j) p -> points_to (j_orient j) c ->
  c = CE \/ (j_west j = 0 /\ j_south j = 0) -> voxel_colour (vm_voxels (j_model j)) q = Some a ->
  0 < snd (frame p c (shift q (j_west j) (j_south j) 0)) ->
  exists w, magica_render (j_model j) (j_west j) (j_south j) (j_pos j) (j_orient j) tx (new_world size) g = (Ok w, g) /\
    decay w f g' = (Err TypeError, g') /\ growth w f g' = (Err TypeError, g') /\ grid w s = Err TypeError.
Proof.
  intros VM HP HO U Col Pos.
  destruct (magica_ops (j_model j) (j_west j) (j_south j) (j_pos j) (j_orient j) p c tx HP HO U VM) as (ops & E & A & B).
  exists (wrun ops (new_world size)). split; [apply E|].
  destruct (zmax_float ops) with (w := @new_world (list Z) size) as (Z1 & _ & Z3).
  { intros o Ho. destruct (A o Ho) as (? & ? & ? & _ & _ & _ & _ & X). exact X. }
  { left. reflexivity. }
  destruct (B q a Col) as (o & Ho & Po). specialize (Z3 o Ho). rewrite Po in Z3.
  destruct (frame p c (shift q (j_west j) (j_south j) 0)) as [[x y] z]. cbn [doubled snd] in *.
  destruct Z1 as [Z1|[h Z1]]; [rewrite Z1 in Z3; cbn [halves] in Z3; lia|].
  apply (float_height_raises _ h). exact Z1.
Qed.
