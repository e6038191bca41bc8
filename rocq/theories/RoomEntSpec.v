(** Vocabulary for the entities of the built-in rooms. *)
From Verif Require Import Py VecModel VecSpec VoxelModel CodecModel OutModel UpmModel UpmSpec RoomClasses KitModel KitSpec RoomModel
  RoomSpec LightModel LightSpec ShippedModel ShippedSpec RoomEntModel.
Local Open Scope Z_scope.

(** What an entity is, without its place. *)
Inductive sort :=
| ColouredLight                          (* with a colour of the manager *)
| WhiteLight
| Push (yaw : Z) (pitch force radius : attr)
| SpawnPoint
| GrenadeBox
| TreeModel (yaw : Z).
Definition of_sort (hue : vec -> Z * Z * Z) (k : sort) (e : entity) : Prop :=
  e_links e = [] /\ e_reserved e = [0; 0; 0] /\
  match k with
  | ColouredLight => e_type e = 1 /\ exists q r g b, hue q = (r, g, b) /\ e_attrs e = [AInt 64; AInt r; AInt g; AInt b; AInt 0; AInt 0]
  | WhiteLight => e_type e = 1 /\ e_attrs e = [AHalf 256; AInt 255; AInt 255; AInt 255; AInt 0; AInt 0]
  | Push yaw pitch force radius => e_type e = 13 /\ e_attrs e = [AInt yaw; pitch; force; radius; AInt 0; AInt 0]
  | SpawnPoint => e_type e = 3 /\ e_attrs e = repeat (AInt 0) 6
  | GrenadeBox => e_type e = 9 /\ e_attrs e = AInt 9 :: repeat (AInt 0) 4
  | TreeModel yaw => e_type e = 2 /\ e_attrs e = AInt 124 :: AInt yaw :: repeat (AInt 0) 11
  end.
Definition is_class (c c' : rclass) : bool := rc_id c =? rc_id c'.
(** What a room of a class has.  The direction of a pusher is counted from north, so that 270 is east:
    the pushers of a jump corridor push towards its two ends. *)
Definition sorts (r : room) : list sort :=
  let c := r_cls r in
  let to (a : Z) := (degrees (r_turn r) + a) mod 360 in
  if is_class c TestRoom then [GrenadeBox]
  else if is_class c TestRoom2 then []
  else if is_class c AltarRoom then [ColouredLight; TreeModel (to 270)]
  else if is_class c JumpCorridor3 then [ColouredLight; ColouredLight; Push (to 270) (AInt 45) (AHalf 175) (AHalf 15); Push (to 90) (AInt 45) (AHalf 175) (AHalf 15)]
  else if is_class c JumpCorridorVertical then [ColouredLight; Push (to 270) (AInt 74) (AHalf 400) (AInt 0); Push (to 90) (AInt 40) (AHalf 200) (AInt 0)]
  else if is_class c JumpCorridorVerticalCenter then [ColouredLight; Push (to 0) (AInt 90) (AHalf (if flag (r_flags r) 0 then 700 else 460)) (AInt 5)]
  else if is_class c SpawnRoom then [SpawnPoint; ColouredLight]
  else if is_class c PoleRoom || is_class c ImposingBlockRoom then [WhiteLight]
  else if is_class c CrossingWalkways then repeat ColouredLight (if flag (r_flags r) 0 then 3 else 2)
  else [ColouredLight].

(** The rooms all of whose entities are inside. *)
Definition well_furnished (r : room) : Prop :=
  let c := r_cls r in
  if is_class c JumpCorridor3 || is_class c JumpCorridorVertical || is_class c JumpCorridorVerticalCenter then r_turn r = T0
  else if is_class c PoleRoom then flag (r_flags r) 1 = true
  else if is_class c CrossingWalkways then let '(x, y, z) := r_pos r in -1 <= x <= 1 /\ -1 <= y <= 1 /\ z = 0
  else if is_class c ImposingRingRoom || is_class c PlusPlatform || is_class c FlatSpace || is_class c DigitalRoom then False
  else True.
(** Where the entities are, in the order of [sorts]: doubled voxel coordinates, 16 to a cell.  Plain
    offsets are from the corner of the cell of the room; those of pushers, the tree and the second
    light of a jump corridor are turned about that corner. *)
Definition spin (t : turn) (x y : Z) : Z * Z :=
  match t with T0 => (x, y) | T1 => (- y, x) | T2 => (- x, - y) | T3 => (y, - x) end.
Definition places (r : room) : list (Z * Z * Z) :=
  let c := r_cls r in let '(i, j, k) := r_pos r in let '(x, y, z) := (16 * i, 16 * j, 16 * k) in
  let turned a b h := let '(u, v) := spin (r_turn r) a b in (x + u, y + v, z + h) in
  let world a b h := let '(u, v) := spin (r_turn r) (x + a) (y + b) in (u + 8, v + 8, z + h) in
  let lamp := (x + 8, y + 8, z + 8) in
  if is_class c TestRoom then [(x + 8, y + 8, z + 2)]
  else if is_class c TestRoom2 then []
  else if is_class c AltarRoom then [lamp; turned 8 8 6]
  else if is_class c JumpCorridor3 then [lamp; (let '(u, v, h) := turned 32 0 0 in (u + 8, v + 8, h + 8)); turned 14 8 2; turned 34 8 2]
  else if is_class c JumpCorridorVertical then [lamp; turned 10 8 2; turned 12 8 34]
  else if is_class c JumpCorridorVerticalCenter then [lamp; turned 8 8 2]
  else if is_class c SpawnRoom then [(x + 8, y + 8, z + 2); lamp]
  else if is_class c PoleRoom then [(x + 6, y + 8, z + 20)]
  else if is_class c ImposingBlockRoom then [(x + 6, y + 8, z + 14)]
  else if is_class c ImposingRingRoom then [(x + 16, y + 32, z + 16)]
  else if is_class c CrossingWalkways then (8, 8, 8) :: (8, 8, 24) :: (if flag (r_flags r) 0 then [(8, 8, 40)] else [])
  else if is_class c MultiPlatform then [(x + 16, y + 16, z + 40)]
  else if is_class c PlusPlatform then [world 8 24 32]
  else if is_class c FlatSpace then [world 8 24 20]
  else if is_class c DigitalRoom then [world 8 24 (if flag (r_flags r) 1 then 32 else 20)]
  else [lamp].
