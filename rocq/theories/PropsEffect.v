(** Property theorems about the aftereffects (C42-C45, C54).  Statements only. *)
From Coq Require Import QArith.
From Verif Require Import Py VecModel VecSpec VoxelModel VoxelSpec UpmModel UpmSpec KitModel KitSpec
  MagicaModel RoomModel RoomSpec EffectModel EffectSpec EffectProofs EffectRooms.
Local Open Scope Z_scope.

(** C42: whatever the position function and the random numbers, decay neither adds nor
    changes a block, anywhere. *)
Theorem C42_decay_only_removes : forall size ops f g w' g', let w := wrun ops (new_world size) in
  decay w f g = (Ok w', g') -> only_removes w w'.
Proof. exact decay_only_removes. Qed.
Print Assumptions C42_decay_only_removes.
Theorem C42_growth_only_adds : forall size ops f g w' g', let w := wrun ops (new_world size) in
  growth w f g = (Ok w', g') -> only_adds w w'.
Proof. exact growth_only_adds. Qed.
Print Assumptions C42_growth_only_adds.
(** C42: exactly: the voxel at place k of the sweep is removed if and only if the k-th random
    number exceeds its value of the position function; nothing outside of the sweep changes. *)
Theorem C42_decay_exact : forall size ops f g h, let w := wrun ops (new_world size) in w_zmax w = I h ->
  exists w' g', decay w f g = (Ok w', g') /\
    (forall v, swept (w_size w) h v -> at_voxel w' v =
       if Qle_bool (rnd g (place (w_size w) v)) (at3 f v) then at_voxel w v else None) /\
    same_except (swept (w_size w) h) w w'.
Proof. exact decay_exact. Qed.
Print Assumptions C42_decay_exact.
Theorem C42_growth_exact : forall size ops f g h, let w := wrun ops (new_world size) in w_zmax w = I h ->
  exists w' g', growth w f g = (Ok w', g') /\
    (forall v, swept (w_size w) h v -> at_voxel w' v =
       match at_voxel w v with
       | Some a => Some a
       | None => if Qle_bool (rnd g (place (w_size w) v)) (at3 f v) then None else Some (repeat 2 6)
       end) /\
    same_except (swept (w_size w) h) w w'.
Proof. exact growth_exact. Qed.
Print Assumptions C42_growth_exact.
Definition two_layers : list (wop (list Z)) := [SetPoint (I 0) (I 1) (I 0) [7]; SetPoint (I 1) (I 1) (I 1) [8]].
Example C42_nonvacuous : let w := wrun two_layers (new_world 2) in
  w_zmax w = I 1 /\ swept 2 1 (0, 1, 0) /\ place 2 (0, 1, 0) = 1%nat /\
  exists w' g', decay w (fun _ _ _ => 1 # 2)%Q (fun i => if Nat.eqb i 1 then 2 ^ 53 - 1 else 0) = (Ok w', g') /\
    at_voxel w (0, 1, 0) = Some [7] /\ at_voxel w' (0, 1, 0) = None.
Proof. intros w. split; [reflexivity|]. split; [cbn; lia|]. split; [reflexivity|]. eexists _, _. split; [reflexivity|]. split; reflexivity. Qed.

(** C43: the box without a height sets exactly the six faces of the world cube; the other
    positions, inside and outside, are unchanged.  (With a height h the loop runs over the
    layers below h, so the walls and the floor are drawn.) *)
Theorem C43_box_exact_partial : forall size ops height, let w := wrun ops (new_world size) in
  let h := match height with Some h => if h =? 0 then size else h | None => size end in
  (forall v, swept size h v -> face size v -> at_voxel (box w height) v = Some (repeat 2 6)) /\
  same_except (fun v => swept size h v /\ face size v) w (box w height).
Proof. exact box_exact. Qed.
Print Assumptions C43_box_exact_partial.
(** C43: the outline sets exactly the twelve edges. *)
Theorem C43_outline_exact_partial : forall size ops height, let w := wrun ops (new_world size) in
  let h := match height with Some h => if h =? 0 then size else h | None => size end in
  (forall v, swept size h v -> edge size v -> at_voxel (box_outline w height) v = Some (repeat 2 6)) /\
  same_except (fun v => swept size h v /\ edge size v) w (box_outline w height).
Proof. exact box_outline_exact. Qed.
Print Assumptions C43_outline_exact_partial.
(** C43: the grid fills exactly the empty positions of the sweep with two coordinates on it. *)
Theorem C43_grid_exact : forall size ops s h, let w := wrun ops (new_world size) in w_zmax w = I h -> s <> 0 ->
  exists w', grid w s = Ok w' /\
    (forall v, swept (w_size w) h v -> two_on_grid s v ->
       at_voxel w' v = match at_voxel w v with Some a => Some a | None => Some (repeat 2 6) end) /\
    same_except (fun v => swept (w_size w) h v /\ two_on_grid s v) w w'.
Proof. exact grid_exact. Qed.
Print Assumptions C43_grid_exact.
(** C43: refuted for a requested height below the world size: the box has no top face. *)
Theorem C43_box_with_height_refuted : exists size h x y, 0 < h < size /\ 0 < x < size - 1 /\ 0 < y < size - 1 /\
  at_voxel (box (new_world size) (Some h)) (x, y, h - 1) = None.
Proof. exists 4, 3, 1, 1. repeat split; vm_compute; reflexivity. Qed.
Print Assumptions C43_box_with_height_refuted.
Example C43_nonvacuous : let w := wrun two_layers (new_world 2) in w_zmax w = I 1 /\ swept 2 1 (0, 0, 0) /\ two_on_grid 24 (0, 0, 0) /\
  face 2 (1, 1, 0) /\ edge 2 (1, 1, 0) /\ ~ face 4 (1, 2, 1) /\ ~ edge 4 (0, 2, 1).
Proof.
  intros w. split; [reflexivity|]. split; [cbn; lia|]. split; [left; split; exists 0; reflexivity|]. unfold face, edge, on_x. lia.
Qed.

(** C44: refuted.  The topmost layer of a world is never decayed, not even when every voxel is
    due. *)
Theorem C44_top_layer_refuted : exists size ops h x y, let w := wrun ops (new_world size) in
  w_zmax w = I h /\ 0 <= x < size /\ 0 <= y < size /\ 0 <= h < size /\ at_voxel w (x, y, h) <> None /\
  forall f g w' g', decay w f g = (Ok w', g') -> at_voxel w' (x, y, h) = at_voxel w (x, y, h).
Proof.
  exists 2, two_layers, 1, 1, 1. intros w. split; [reflexivity|]. split; [lia|]. split; [lia|]. split; [lia|].
  split; [vm_compute; discriminate|]. intros f g w' g' E. exact (top_layer_kept 2 two_layers f g 1 w' g' eq_refl E 1 1).
Qed.
Print Assumptions C44_top_layer_refuted.
(** C44: refuted for every world in which one room from a voxel model was drawn above the
    ground: its height is a float, and decay, growth and grid raise TypeError. *)
Theorem C44_room_world_refuted : forall j p c q a size g tx f g' s,
  valid_model (j_model j) -> cell_at (j_pos j) p -> points_to (j_orient j) c ->
  c = CE \/ (j_west j = 0 /\ j_south j = 0) -> voxel_colour (vm_voxels (j_model j)) q = Some a ->
  0 < snd (frame p c (shift q (j_west j) (j_south j) 0)) ->
  exists w, magica_render (j_model j) (j_west j) (j_south j) (j_pos j) (j_orient j) tx (new_world size) g = (Ok w, g) /\
    decay w f g' = (Err TypeError, g') /\ growth w f g' = (Err TypeError, g') /\ grid w s = Err TypeError.
Proof. exact room_world_rejected. Qed.
Print Assumptions C44_room_world_refuted.
(** C44: what holds: with an int height, every layer below the topmost is processed. *)
Theorem C44_lower_layers_partial : forall size ops f g h, let w := wrun ops (new_world size) in w_zmax w = I h ->
  exists w' g', decay w f g = (Ok w', g') /\
    forall v, swept (w_size w) h v -> ~ (rnd g (place (w_size w) v) <= at3 f v)%Q -> at_voxel w' v = None.
Proof. exact lower_layers. Qed.
Print Assumptions C44_lower_layers_partial.
Example C44_nonvacuous : let j := J (VM [(1, 2, 1, 0)] [(255, 0, 0)]) 0 0 SELF EAST (fun _ => 3) in
  valid_model (j_model j) /\ voxel_colour (vm_voxels (j_model j)) (1, 2, 1) = Some 0 /\
  0 < snd (frame (0, 0, 0) CE (shift (1, 2, 1) 0 0 0)).
Proof.
  intros j. split; [|split; [reflexivity|cbn; lia]].
  intros x y z c [E|[]]. injection E as <- <- <- <-. cbn. lia.
Qed.

(** C45: the linear gradient goes from 1 at the bottom to 0 at height [slope], stays in [0,1]
    and never increases with height. *)
Theorem C45_linear_in_unit_interval : forall x y z s, 0 < s -> 0 <= z <= s ->
  exists q, vertical_gradient x y z s = Ok q /\ (0 <= q <= 1)%Q.
Proof. exact vg_range. Qed.
Print Assumptions C45_linear_in_unit_interval.
Theorem C45_linear_ends : forall x y s, 0 < s ->
  exists a b, vertical_gradient x y 0 s = Ok a /\ vertical_gradient x y s s = Ok b /\ (a == 1)%Q /\ (b == 0)%Q.
Proof. exact vg_ends. Qed.
Print Assumptions C45_linear_ends.
Theorem C45_linear_monotone : forall x y z z' x' y' s a b, 0 < s -> z <= z' ->
  vertical_gradient x y z s = Ok a -> vertical_gradient x' y' z' s = Ok b -> (b <= a)%Q.
Proof. exact vg_antitone. Qed.
Print Assumptions C45_linear_monotone.
(** C45: the quadratic gradient is in [0,1] at every height, never increases with height, and
    its inverse complements it to 1. *)
Theorem C45_quadratic_in_unit_interval : forall x y z, (0 <= vertical_gradient2 x y z <= 1)%Q.
Proof. exact vg2_range. Qed.
Print Assumptions C45_quadratic_in_unit_interval.
Theorem C45_quadratic_monotone : forall x y z x' y' z', 0 <= z <= z' ->
  (vertical_gradient2 x' y' z' <= vertical_gradient2 x y z)%Q.
Proof. exact vg2_antitone. Qed.
Print Assumptions C45_quadratic_monotone.
Theorem C45_complementary : forall x y z, (vertical_gradient2 x y z + vertical_gradient2inv x y z == 1)%Q.
Proof. exact vg2inv_complement. Qed.
Print Assumptions C45_complementary.
(** C45: the exponential gradient is in (0,1] on and above the ground and never increases. *)
Theorem C45_exponential_in_unit_interval : forall x y z, 0 <= z -> (0 < gradient3 x y z <= 1)%Q.
Proof. exact gradient3_range. Qed.
Print Assumptions C45_exponential_in_unit_interval.
Theorem C45_exponential_monotone : forall x y z x' y' z', z <= z' -> (gradient3 x' y' z' <= gradient3 x y z)%Q.
Proof. exact gradient3_antitone. Qed.
Print Assumptions C45_exponential_monotone.
Example C45_nonvacuous : vertical_gradient 0 0 64 256 = Ok (1 - inject_Z 64 / inject_Z 256)%Q /\
  (1 - inject_Z 64 / inject_Z 256 == 3 # 4)%Q /\
  (0 < vertical_gradient2 0%Z 0%Z 256%Z < 3 # 100)%Q /\ (vertical_gradient2 0%Z 0%Z 1024%Z == 0)%Q /\ (gradient3 0%Z 0%Z 0%Z == 1)%Q.
Proof. repeat split. Qed.

(** C54: filling the open doorways makes every block of the listed cells solid and changes
    nothing else. *)
Theorem C54_endcap_fills_open_cells : forall opens ds size ops, Forall2 cell_at opens ds -> let w := wrun ops (new_world size) in
  exists w', endcap_fill w opens = Ok w' /\
    (forall d v, In d ds -> voxel_in_cell v d -> at_voxel w' v = Some (repeat 2 6)) /\
    same_except (fun v => exists d, In d ds /\ voxel_in_cell v d) w w'.
Proof. exact endcap_exact. Qed.
Print Assumptions C54_endcap_fills_open_cells.
Example C54_nonvacuous : Forall2 cell_at [V Coarse (H 4) (I 3) (I 0); SELF] [(2, 3, 0); (0, 0, 0)] /\ voxel_in_cell (17, 31, 7) (2, 3, 0).
Proof. split; [repeat constructor|cbn; lia]. Qed.
