(** Property theorems about slanted lines (C94).  Statements only. *)
From Verif Require Import Py VecModel VecSpec VoxelModel VoxelSpec UpmModel UpmSpec
  KitModel KitSpec LineModel LineSpec LineProofs.
Local Open Scope Z_scope.

(** C94 in full, refuted: a line between two points of a room, drawn from one of its voxels,
    is an unbroken line between the two points as they lie in the world.  It may not even reach
    its end. *)
Theorem C94_line_refuted : ~ forall pos orient off start end_ p c o s e,
  cell_at pos p -> points_to orient c -> voxel_at off o -> size_is start s -> size_is end_ e ->
  exists pts l, x_interpolate pos orient off start end_ = Ok pts /\ are_voxels pts l /\
    straight_line (frame p c (plus o s)) (frame p c (plus o e)) l.
Proof.
  intros K. apply end_missed. apply (K _ _ _ _ _ (0, 0, 0) CE (0, 0, 0) (0, 0, 0) (1, 7, 3));
    repeat split; discriminate.
Qed.
Print Assumptions C94_line_refuted.

(** C94, the lines that are drawn well: those that, as they point in the world, gain x and are
    steep in at most one of y and z (or equally steep in both).  They are unbroken, from the one
    point to the other, with the fewest possible points, never more than half a voxel from the
    straight line seen from above and from the side. *)
Theorem C94_line_partial : forall pos orient off start end_ p c o s e,
  cell_at pos p -> points_to orient c -> voxel_at off o -> size_is start s -> size_is end_ e ->
  drawable (ahead c s e) ->
  exists pts l, x_interpolate pos orient off start end_ = Ok pts /\ are_voxels pts l /\
    straight_line (frame p c (plus o s)) (frame p c (plus o e)) l.
Proof. exact interpolate_drawable. Qed.
Print Assumptions C94_line_partial.

(** C94: every line that gains x in the world is drawn without an exception, and all its points
    are that close to the straight line, even where it is broken. *)
Theorem C94_forward_close : forall pos orient off start end_ p c o s e,
  cell_at pos p -> points_to orient c -> voxel_at off o -> size_is start s -> size_is end_ e ->
  0 < px (ahead c s e) ->
  exists pts l, x_interpolate pos orient off start end_ = Ok pts /\ are_voxels pts l /\
    forall q, In q l -> hugs (frame p c (plus o s)) (frame p c (plus o e)) q.
Proof. exact interpolate_forward. Qed.
Print Assumptions C94_forward_close.
(** C94: one that keeps its x in the world, such as a column, is not drawn at all ... *)
Theorem C94_level_nothing : forall pos orient off start end_ p c o s e,
  cell_at pos p -> points_to orient c -> voxel_at off o -> size_is start s -> size_is end_ e ->
  px (ahead c s e) = 0 -> x_interpolate pos orient off start end_ = Ok [].
Proof. exact interpolate_level. Qed.
Print Assumptions C94_level_nothing.
(** ... and one that loses x raises KeyError: so does every line that gains x in the room, once
    the room is turned to the west. *)
Theorem C94_backward_raises : forall pos orient off start end_ p c o s e,
  cell_at pos p -> points_to orient c -> voxel_at off o -> size_is start s -> size_is end_ e ->
  px (ahead c s e) < 0 -> x_interpolate pos orient off start end_ = Err KeyError.
Proof. exact interpolate_backward. Qed.
Print Assumptions C94_backward_raises.

(** The line of the commented-out call in prefabs/__init__.py:842, from two to nine high over
    the length of a tile: drawn in a room facing east, nothing facing north, and an exception
    facing west. *)
Example C94_nonvacuous :
  cell_at (V Coarse (I 3) (I 4) (I 1)) (3, 4, 1) /\ points_to EAST CE /\ points_to NORTH CN /\ points_to WEST CW /\
  voxel_at (fine 0 0 0) (0, 0, 0) /\ size_is (fine 0 0 2) (0, 0, 2) /\ size_is (fine 7 0 9) (7, 0, 9) /\
  ahead CE (0, 0, 2) (7, 0, 9) = (7, 0, 7) /\ drawable (7, 0, 7) /\
  px (ahead CN (0, 0, 2) (7, 0, 9)) = 0 /\ px (ahead CW (0, 0, 2) (7, 0, 9)) = -7 /\
  frame (3, 4, 1) CE (plus (0, 0, 0) (0, 0, 2)) = (24, 32, 10) /\ frame (3, 4, 1) CE (plus (0, 0, 0) (7, 0, 9)) = (31, 32, 17) /\
  drawable (5, 12, -3) /\ ~ drawable (1, 7, 3) /\ hugs (0, 0, 0) (5, 3, 1) (2, 1, 0) /\ ~ hugs (0, 0, 0) (5, 3, 1) (2, 2, 0).
Proof.
  repeat match goal with |- _ /\ _ => split end; try reflexivity; try discriminate; try (split; [discriminate|reflexivity]); try (split; reflexivity).
  all: unfold drawable, hugs, half_off, px, py, pz; cbn [fst snd]; cbv zeta; lia.
Qed.
