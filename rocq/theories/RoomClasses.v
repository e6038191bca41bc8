(** Layouts of the built-in room classes of redeclipse/prefabs/__init__.py: cells and
    doorways of the unrotated room, as functions of the random flags.  (What the
    rooms draw is in RoomModel.v.)  The flags of a room always have the length of
    the class attribute; a missing flag is read as false. *)
From Verif Require Import Py UpmModel.

Definition cE : cell := (1, 0, 0).
Definition cN : cell := (0, 1, 0).
Definition cW : cell := (-1, 0, 0).
Definition cS : cell := (0, -1, 0).
Definition cUp (n : Z) : cell := (0, 0, n).
Definition c0 : cell := (0, 0, 0).
Definition cmul (c : cell) (n : Z) : cell := let '(x, y, z) := c in (x * n, y * n, z * n).
Definition flag (fl : list bool) (i : nat) : bool := nth i fl false.

(** Lines 41-87: Room. *)
Definition BaseRoom : rclass := RC 0 "oriented" None true false (fun _ => [c0]) base_doors.
(** Lines 195-209: TestRoom2 (inherits the layout). *)
Definition TestRoom2 : rclass := RC 2 "oriented" None true false (fun _ => [c0]) base_doors.

(** Lines 142-148: four doors two cells from the middle. *)
Definition doors3x3 (fl : list bool) : list door :=
  [(cmul cN 2, cN); (cmul cS 2, cS); (cmul cE 2, cE); (cmul cW 2, cW)].
(** Lines 598-612: h layers of 3x3 cells (also lines 150-172 with h = 2). *)
Definition layer (z : Z) : list cell :=
  [(-1, 1, z); (0, 1, z); (1, 1, z); (-1, 0, z); (0, 0, z); (1, 0, z); (-1, -1, z); (0, -1, z); (1, -1, z)].
Definition layers (h : Z) : list cell := flat_map layer (zrange 0 h).

(** Lines 776-785 with 130-172: AltarRoom; the constructor of _3X3Room drops randflags. *)
Definition AltarRoom : rclass :=
  RC 3 "platform_setpiece" (Some [true; true; true]) false false (fun _ => layers 2) doors3x3.

(** Lines 212-260: NLongCorridor. *)
Definition corridor_length (fl : list bool) : Z :=
  1 + Z.lor (Z.shiftl (if flag fl 0 then 1 else 0) 1) (if flag fl 1 then 1 else 0).
Definition NLongCorridor : rclass :=
  RC 4 "hallway" (Some [true; true; true; true]) true false
    (fun fl => c0 :: map (cmul cE) (zrange 1 (corridor_length fl)))
    (fun fl => [(cW, cW); (cmul cE (corridor_length fl), cE)]).

(** Lines 263-292: Corridor2way. *)
Definition Corridor2way : rclass :=
  RC 5 "hallway" (Some [true; true]) true false (fun _ => [c0]) (fun _ => [(cW, cW); (cE, cE)]).

(** Lines 295-357: JumpCorridor3. *)
Definition JumpCorridor3 : rclass :=
  RC 6 "hallway_jump" None true false (fun _ => map (cmul cE) (zrange 0 3))
    (fun _ => [(cW, cW); (cmul cE 3, cE)]).

(** Lines 360-428: JumpCorridorVertical. *)
Definition JumpCorridorVertical : rclass :=
  RC 7 "vertical" (Some [true]) true false (fun _ => [c0; cUp 1; cUp 2])
    (fun _ => [(cW, cW); (cadd cW (cUp 2), cW)]).

(** Lines 431-497: JumpCorridorVerticalCenter. *)
Definition jv_length (fl : list bool) : Z := if flag fl 0 then 2 else 1.
Definition JumpCorridorVerticalCenter : rclass :=
  RC 8 "vertical" (Some [true]) true false
    (fun fl => map cUp (zrange 0 (jv_length fl + 2)))
    (fun fl => let u := cUp (jv_length fl + 1) in
               [(cN, cN); (cS, cS); (cE, cE); (cW, cW);
                (cadd cN u, cN); (cadd cS u, cS); (cadd cE u, cE); (cadd cW u, cW)]).

(** Lines 500-535: Corridor4way. *)
Definition Corridor4way : rclass :=
  RC 9 "platform" (Some [true; true; true]) true false (fun _ => [c0]) base_doors.

(** Lines 538-581: SpawnRoom. *)
Definition SpawnRoom : rclass :=
  RC 10 "platform_setpiece" (Some [true]) true false (fun _ => [c0])
    (fun fl => (cE, cE) :: (if flag fl 0 then [(cW, cW)] else [])).

(** Lines 584-612: _LargeRoom adds the orientation to the position. *)
Definition large_room (id : Z) (fls : option (list bool)) (height : list bool -> Z)
    (doors : list bool -> list door) : rclass :=
  RC id "platform_setpiece" fls true true (fun fl => layers (height fl)) doors.

(** Lines 622-632. *)
Definition PoleRoom : rclass :=
  large_room 11 (Some [true; true]) (fun fl => if flag fl 1 then 2 else 1) doors3x3.
(** Lines 672-683. *)
Definition ImposingBlockRoom : rclass :=
  large_room 12 (Some [true; true; true]) (fun fl => if flag fl 1 then 2 else 1) doors3x3.
(** Lines 721-733. *)
Definition ImposingRingRoom : rclass :=
  large_room 13 (Some [true; true; true; true; true]) (fun fl => if flag fl 1 then 2 else 1) doors3x3.
(** Lines 820-851: Stair. *)
Definition Stair : rclass :=
  RC 14 "stair" (Some [true]) true false (fun _ => [c0; cUp 1])
    (fun _ => [(cW, cW); (cadd cE (cUp 1), cE)]).
(** Lines 854-897: CrossingWalkways. *)
Definition CrossingWalkways : rclass :=
  large_room 15 (Some [true]) (fun fl => if flag fl 0 then 3 else 2)
    (fun fl => [(cmul cS 2, cS); (cmul cN 2, cN); (cadd (cmul cE 2) (cUp 1), cE);
                (cadd (cmul cW 2) (cUp 1), cW)]
               ++ (if flag fl 0 then [(cadd (cmul cS 2) (cUp 2), cS); (cadd (cmul cN 2) (cUp 2), cN)]
                   else [])).
(** Lines 904-925: PlusPlatform. *)
Definition PlusPlatform : rclass := large_room 16 None (fun _ => 2) doors3x3.
(** Lines 928-971: MultiPlatform. *)
Definition MultiPlatform : rclass :=
  large_room 17 (Some [true]) (fun _ => 3)
    (fun _ => [(cmul cS 2, cS); (cmul cN 2, cN); (cmul cE 2, cE); (cmul cW 2, cW);
               ((-1, 2, 1), cN); ((-2, 1, 1), cW); ((1, -2, 1), cS); ((2, -1, 1), cE);
               ((-2, 0, 2), cW); ((2, 0, 2), cE)]).
(** Lines 978-979: FlatSpace. *)
Definition FlatSpace : rclass := large_room 18 None (fun _ => 1) doors3x3.
(** Lines 987-998: DigitalRoom. *)
Definition DigitalRoom : rclass :=
  large_room 19 (Some [true; true; true]) (fun fl => if flag fl 1 then 2 else 1) doors3x3.

(** All concrete built-in classes. *)
Definition builtin_rooms : list rclass :=
  [BaseRoom; TestRoom; TestRoom2; AltarRoom; NLongCorridor; Corridor2way; JumpCorridor3;
   JumpCorridorVertical; JumpCorridorVerticalCenter; Corridor4way; SpawnRoom; PoleRoom;
   ImposingBlockRoom; ImposingRingRoom; Stair; CrossingWalkways; PlusPlatform; MultiPlatform;
   FlatSpace; DigitalRoom].
