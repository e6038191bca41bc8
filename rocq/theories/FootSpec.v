(** Vocabulary for the properties about crossing rooms on foot: standing on a block, and steps from
    one place to stand to the next. *)
From Verif Require Import Py VoxelModel CodecModel UpmModel UpmSpec KitModel KitSpec RoomModel MagicaModel RoomSpec
  VoxFileModel ShippedModel ShippedSpec OutModel OutSpec GenModel GenSpec PassSpec.
Local Open Scope Z_scope.

(** The body of [PassSpec] at [a] is above the voxel [v], without a gap. *)
Definition under (a v : cell) : Prop :=
  let '(x, y, z) := a in let '(i, j, k) := v in x <= i < x + 2 /\ y <= j < y + 2 /\ k = z - 1.
(** The body is in a free place and is on a block. *)
Definition stands (air block : cell -> Prop) (a : cell) : Prop := fits air a /\ exists v, under a v /\ block v.
(** One step: rise by at most [h], move one voxel sideways, fall until there is a block below. *)
Definition hop (air block : cell -> Prop) (h : Z) (a b : cell) : Prop :=
  stands air block b /\
  let '(x, y, z) := a in let '(i, j, k) := b in Z.abs (i - x) + Z.abs (j - y) = 1 /\
  exists top, z <= top <= z + h /\ k <= top /\ (forall u, z <= u <= top -> fits air (x, y, u)) /\ (forall u, k <= u <= top -> fits air (i, j, u)).
(** From [a] to [b] in such steps. *)
Inductive hike (air block : cell -> Prop) (h : Z) : cell -> cell -> Prop :=
| HHere a : stands air block a -> hike air block h a a
| HHop a b c : stands air block a -> hop air block h a b -> hike air block h b c -> hike air block h a c.

(** The body stands in the doorway, [l] voxels above the bottom of the cell and in the middle or one
    voxel to the left or right of it. *)
Definition threshold (d : door) (e l : Z) : cell := cadd (doorstep d e) (0, 0, l - 2).
Definition foothold (r : room) (d : door) (l : Z) (a : cell) : Prop :=
  exists e, In e [0; 1; -1] /\ a = threshold d e l /\ stands (room_air r) (built r) a.
(** A doorway with a whole and level floor at the usual height of one voxel: at all three places of it
    the body fits, and is on blocks only. *)
Definition level_doorway (r : room) (d : door) : Prop :=
  forall e, In e [0; 1; -1] -> fits (room_air r) (threshold d e 1) /\ forall v, under (threshold d e 1) v -> built r v.
(** The body can stand in each doorway of the room, and from each place to stand in a doorway it can
    go on foot, in the room, to each place to stand in any other. *)
Definition on_foot (h : Z) (r : room) : Prop :=
  (forall d, In d (doorways r) -> exists l a, 0 <= l <= 4 /\ foothold r d l a) /\
  forall d d' l l' a a', In d (doorways r) -> In d' (doorways r) -> 0 <= l <= 4 -> 0 <= l' <= 4 -> foothold r d l a -> foothold r d' l' a' ->
    hike (room_air r) (built r) h a a'.

(** The classes with a doorway that is not level. *)
Definition uneven : list shipped := [castle_gate_simple; castle_wall_entry; castle_wall_section_long_damaged; dungeon_stair2; station_stair2; stair; stair_toplatform].
(** How far the body has to rise in one step, for each class where that is not zero. *)
Definition rises : list (shipped * Z) :=
  [(castle_wall_entry, 1); (dungeon_stair2, 1); (station_stair2, 1); (castle_wall_section_long_damaged, 3); (station_ring_vertical, 6);
   (castle_large, 10); (castle_gate, 11); (station_tube_jumpx, 15); (station_tube3layered, 16)].
(** The step the class needs. *)
Definition needs (s : shipped) (k : Z) : Prop := In (s, k) rises \/ k = 0 /\ forall j, ~ In (s, j) rises.

(** The blocks of the rooms of a map, in the generated world and in a file. *)
Definition world_block (w : world (list Z)) (v : cell) : Prop := at_voxel w v <> None.
Definition file_block (k : nat) (m : rmap) (v : cell) : Prop := let '(x, y, z) := v in world_lookup k m x y z <> None.
(** The doorway can be reached from the other one on foot. *)
Definition hikes (air block : cell -> Prop) (h : Z) (d d' : door) : Prop :=
  exists e e' l l', In e [0; 1; -1] /\ In e' [0; 1; -1] /\ 0 <= l <= 4 /\ 0 <= l' <= 4 /\ hike air block h (threshold d e l) (threshold d' e' l').
