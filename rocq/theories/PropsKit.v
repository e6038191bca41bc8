(** Property theorems about the construction kit (C36, C37, C53).  Statements only. *)
From Coq Require Import QArith.
From Verif Require Import Py VecModel VecSpec VecProofs VoxelModel VoxelSpec UpmModel UpmSpec
  KitModel KitSpec KitProofs KitShape KitPaint KitTile.
Local Open Scope Z_scope.

(** C36: for every position, orientation, voxel offset and integer size, in every world, a
    prism draws exactly the image of the box (with [subtract] it removes exactly it; with a
    probability below one each of its voxels ends up set or removed), and nothing else. *)
Theorem C36_prism_exact_box : forall pos orient p c off o xyz s,
  cell_at pos p -> points_to orient c -> voxel_at off o -> size_is xyz s ->
  draws pos orient (KPrism off xyz) (fun v => exists q, in_box o s q /\ v = frame p c q).
Proof. exact prism_draws. Qed.
Print Assumptions C36_prism_exact_box.
(** C36: the generated points are distinct. *)
Theorem C36_prism_each_once : forall pos orient p c off o xyz s,
  cell_at pos p -> points_to orient c -> voxel_at off o -> size_is xyz s ->
  exists pts, points pos orient (KPrism off xyz) = Ok pts /\ once pts /\
    covers pts (fun v => exists q, in_box o s q /\ v = frame p c q).
Proof. intros pos orient p c off o xyz s. exact (x_prism_ok pos orient off xyz p c o s). Qed.
Print Assumptions C36_prism_each_once.
Example C36_nonvacuous :
  cell_at (V Coarse (I 3) (H 8) (I 1)) (3, 4, 1) /\ points_to NORTH CN /\ voxel_at (fine 1 2 0) (1, 2, 0) /\
  size_is (fine 2 1 1) (2, 1, 1) /\
  points (V Coarse (I 3) (H 8) (I 1)) NORTH (KPrism (fine 1 2 0) (fine 2 1 1))
  = Ok [V Fine (H 58) (H 66) (H 16); V Fine (H 58) (H 68) (H 16)] /\
  frame (3, 4, 1) CN (1, 2, 0) = (29, 33, 8) /\ frame (3, 4, 1) CN (2, 2, 0) = (29, 34, 8).
Proof. repeat split; discriminate. Qed.

(** C37: a floor of size n <= 8 at height i of room cell d draws only in that layer of the
    cell as placed in the world; of size 8, exactly the layer. *)
Theorem C37_floor_in_tile : forall pos orient p c off d i n,
  cell_at pos p -> points_to orient c -> in_tile off d i -> 0 <= i < 8 -> 0 <= n <= 8 ->
  exists S, draws pos orient (KFloor off n) S /\ (forall v, S v -> layer (placed p c d) i v) /\
    (n = 8 -> forall v, layer (placed p c d) i v -> S v).
Proof. exact floor_draws. Qed.
Print Assumptions C37_floor_in_tile.
Theorem C37_ceiling_in_tile : forall pos orient p c off d n,
  cell_at pos p -> points_to orient c -> in_tile off d 0 -> 0 <= n <= 8 ->
  exists S, draws pos orient (KCeiling off n) S /\ (forall v, S v -> layer (placed p c d) 7 v) /\
    (n = 8 -> forall v, layer (placed p c d) 7 v -> S v).
Proof. exact ceiling_draws. Qed.
Print Assumptions C37_ceiling_in_tile.
(** C37: a wall of height h <= 8 draws exactly the side of the cell in the turned direction of
    its face; a low wall is three high; a face that is no compass direction draws nothing. *)
Theorem C37_wall_side : forall pos orient p c off f f' d h,
  cell_at pos p -> points_to orient c -> in_tile off d 0 -> points_to f f' -> 0 <= h <= 8 ->
  draws pos orient (KWall off f h) (on_side (turned c f') (placed p c d) h).
Proof. exact wall_draws. Qed.
Print Assumptions C37_wall_side.
Theorem C37_low_wall_side : forall pos orient p c off f f' d,
  cell_at pos p -> points_to orient c -> in_tile off d 0 -> points_to f f' ->
  draws pos orient (KLowWall off f) (on_side (turned c f') (placed p c d) 3).
Proof. exact low_wall_draws. Qed.
Print Assumptions C37_low_wall_side.
Theorem C37_other_face_nothing : forall pos orient p c off f h d i,
  cell_at pos p -> points_to orient c -> in_tile off d i -> (forall f', ~ points_to f f') ->
  draws pos orient (KWall off f h) (fun _ => False).
Proof. exact no_wall_draws. Qed.
Print Assumptions C37_other_face_nothing.
(** C37: a ring stays in its layer of the cell; of size 8 it is exactly the rim. *)
Theorem C37_ring_in_tile : forall pos orient p c off d i n,
  cell_at pos p -> points_to orient c -> in_tile off d i -> 0 <= i < 8 -> 0 <= n <= 8 ->
  exists S, draws pos orient (KRing off n) S /\ (forall v, S v -> layer (placed p c d) i v) /\
    (n = 8 -> forall v, S v <-> layer (placed p c d) i v /\ rim (placed p c d) v).
Proof. exact ring_draws. Qed.
Print Assumptions C37_ring_in_tile.
Example C37_nonvacuous :
  cell_at (V Coarse (I 3) (I 4) (I 1)) (3, 4, 1) /\ points_to SOUTH CS /\ in_tile EAST (1, 0, 0) 0 /\
  points_to EAST CE /\ turned CS CE = CS /\ placed (3, 4, 1) CS (1, 0, 0) = (3, 3, 1) /\
  on_side CS (3, 3, 1) 3 (24, 24, 8) /\ on_side CS (3, 3, 1) 3 (31, 24, 10) /\ ~ on_side CS (3, 3, 1) 3 (31, 25, 10) /\
  layer (3, 3, 1) 7 (24, 26, 15) /\ (forall f', ~ points_to ABOVE f').
Proof.
  repeat match goal with |- _ /\ _ => split end; try (split; [discriminate|reflexivity]); try reflexivity;
    try (intros f' [_ E]; destruct f'; discriminate); unfold on_side, layer, voxel_in_cell; cbn [fst snd]; try lia.
  split; reflexivity.
Qed.

(** C53: every construction with arguments on the voxel grid succeeds at every position in
    every orientation, and draws exactly the rigid image of what it draws in an unturned room
    at the origin. *)
Theorem C53_constructions_rigid : forall pos orient p c k,
  cell_at pos p -> points_to orient c -> grid_args k ->
  draws pos orient k (fun v => exists q, shape k q /\ v = frame p c q).
Proof. intros pos orient p c k HP HO G. exact (draws_intro pos orient p c k _ HP HO G (fun v => iff_refl _)). Qed.
Print Assumptions C53_constructions_rigid.
(** C53: the image is rigid: distances are kept, and so are distinct voxels. *)
Theorem C53_frame_isometry : forall p c q q',
  let '(x, y, z) := frame p c q in let '(x', y', z') := frame p c q' in
  let '(u, v, w) := q in let '(u', v', w') := q' in
  (x - x') ^ 2 + (y - y') ^ 2 + (z - z') ^ 2 = (u - u') ^ 2 + (v - v') ^ 2 + (w - w') ^ 2 /\ z - z' = w - w'.
Proof. exact frame_isometry. Qed.
Print Assumptions C53_frame_isometry.
Example C53_nonvacuous :
  grid_args (KDotted (fine 1 2 0) EAST 7 2 2) /\ shape (KDotted (fine 1 2 0) EAST 7 2 2) (6, 2, 0) /\
  frame (0, 0, 0) CN (6, 2, 0) = (5, 6, 0) /\
  points SELF NORTH (KDotted (fine 1 2 0) EAST 7 2 2)
  = Ok [V Fine (H 10) (H 2) (H 0); V Fine (H 10) (H 4) (H 0); V Fine (H 10) (H 10) (H 0); V Fine (H 10) (H 12) (H 0)].
Proof.
  split; [|split; [|split; reflexivity]].
  - split; [exists (1, 2, 0)|split; [exists (1, 0, 0)|lia]]; (split; [discriminate|reflexivity]).
  - exists (1, 2, 0), (1, 0, 0), 5. repeat split; try discriminate; reflexivity.
Qed.
