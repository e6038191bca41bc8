(** Vocabulary for the properties about moving through the rooms: a body, the free positions of
    that body, and walks made of small steps. *)
From Verif Require Import Py VoxelModel CodecModel UpmModel UpmSpec KitModel KitSpec RoomModel MagicaModel RoomSpec
  VoxFileModel ShippedModel ShippedSpec OutModel OutSpec GenModel GenSpec.
Local Open Scope Z_scope.

(** The body is a box of 2 by 2 by 4 voxels, so 8 by 8 by 16 units of the map; it is at [a] if that
    is its lowest corner. *)
Definition in_body (a v : cell) : Prop :=
  let '(x, y, z) := a in let '(i, j, k) := v in x <= i < x + 2 /\ y <= j < y + 2 /\ z <= k < z + 4.
(** All of the body is in a free place. *)
Definition fits (free : cell -> Prop) (a : cell) : Prop := forall v, in_body a v -> free v.
(** Two positions, one voxel apart in one of the six directions. *)
Definition beside (a b : cell) : Prop :=
  let '(x, y, z) := a in let '(i, j, k) := b in Z.abs (i - x) + Z.abs (j - y) + Z.abs (k - z) = 1.
(** From [a] to [b] in such steps, all positions allowed. *)
Inductive walk (ok : cell -> Prop) : cell -> cell -> Prop :=
| WHere a : ok a -> walk ok a a
| WStep a b c : ok a -> beside a b -> walk ok b c -> walk ok a c.

(** The cell a doorway leaves from, and places of the body in the doorway: in that cell, at the
    side the doorway opens to, two voxels above the floor of the cell, in the middle of the side or
    one voxel to the left or right of it. *)
Definition sill (d : door) : cell := csub (fst d) (snd d).
Definition doorstep (d : door) (e : Z) : cell :=
  let '(x, y, z) := sill d in let '(a, b, _) := snd d in (8 * x + 3 + 3 * a - e * b, 8 * y + 3 + 3 * b + e * a, 8 * z + 2).
Definition doorsteps (d : door) : list cell := map (doorstep d) [0; 1; -1].

(** The voxel is in a cell of the room. *)
Definition in_room (r : room) (v : cell) : Prop := exists c, In c (positions r) /\ voxel_in_cell v c.
(** The room has a block there: a voxel of the file of its class, in its frame. *)
Definition built (r : room) (v : cell) : Prop :=
  exists s f q a, In s shipped_rooms /\ s_class s = r_cls r /\ read_file (s_file s) = Ok f /\
    voxel_colour (vf_voxels f) q = Some a /\ frame (r_pos r) (facing (r_turn r)) q = v.
(** The air of a room; the air of the rooms of a map, in the generated world and in a file. *)
Definition room_air (r : room) (v : cell) : Prop := in_room r v /\ ~ built r v.
Definition world_air (w : world (list Z)) (l : list obj) (v : cell) : Prop :=
  (exists ob, In ob l /\ in_room (snd ob) v) /\ at_voxel w v = None.
Definition file_air (k : nat) (m : rmap) (l : list obj) (v : cell) : Prop :=
  (exists ob, In ob l /\ in_room (snd ob) v) /\ let '(x, y, z) := v in world_lookup k m x y z = None.

(** Every doorway of the room can be reached by the body from every other one without leaving the
    room, from each of the three places to each. *)
Definition connected (r : room) : Prop :=
  forall d d' a a', In d (doorways r) -> In d' (doorways r) -> In a (doorsteps d) -> In a' (doorsteps d') -> walk (fits (room_air r)) a a'.
(** In the air, nothing leads from the cell of one doorway to the cell of the other. *)
Definition cut_off (air : cell -> Prop) (d d' : door) : Prop :=
  forall a a', voxel_in_cell a (sill d) -> voxel_in_cell a' (sill d') -> ~ walk air a a'.
(** The classes with doorways that are cut off from each other. *)
Definition divided : list shipped := [castle_gate_simple; stair; stair_toplatform].
(** The room is one of the castle gates that divide the map. *)
Definition is_gate (r : room) : Prop := r_cls r = s_class castle_gate_simple.
(** The doorway can be reached from the other one through the air. *)
Definition reaches (air : cell -> Prop) (d d' : door) : Prop :=
  exists a a', In a (doorsteps d) /\ In a' (doorsteps d') /\ walk (fits air) a a'.
(** The room is the first room of a map or one of its mirror images. *)
Definition first_of (n : Z) (ctf : bool) (r : room) : Prop := exists t, In t (turns_of n) /\ r = mirror_room t (start_room ctf).
