(** The rooms shipped with the program as voxel files: redeclipse/prefabs/castle, dungeon, egypt,
    original and spacestation (each an __init__.py with the classes, and one .vox file per class).

    Simplifications.  As in MagicaModel.v, plus: reading the file never fails for lack of access;
    [boundary_additions] is empty in every one of these classes, so nothing is shifted inside
    the tile.  The cells of a class are listed as computed from its file by [file_cells]
    (ShippedProofs.v proves that this is what the code computes). *)
From Coq Require Import QArith SpecFloat.
From Verif Require Import Py VecModel VoxelModel CodecModel OutModel UpmModel RoomClasses KitModel RoomModel
  MagicaModel TexModel LightModel VoxFileModel ShippedVox.
Local Open Scope Z_scope.

(** ** Files *)
(** The bytes of one number of ShippedVox.v, and of a file. *)
Fixpoint number_bytes (n : nat) (z : Z) (acc : list Z) : list Z :=
  match n with
  | O => acc
  | S n' => if z <=? 1 then acc else number_bytes n' (Z.shiftr z 8) (Z.land z 255 :: acc)
  end.
Definition file_bytes (f : list Z) : list Z := flat_map (fun z => number_bytes 40 z []) f.
(** magica.py:30-31 — Magicavoxel.from_file, with the default number of colours. *)
Definition read_file (f : list Z) : res voxfile := vox_read 256 (file_bytes f).
(** What load_model keeps of it (magica.py:33-39). *)
Definition model_of (v : voxfile) : voxmodel :=
  VM (vf_voxels v) (map (fun q => let '(r, g, b, _) := q in (r, g, b)) (vf_palette v)).
Definition load_file (f : list Z) : res voxmodel := let! v := read_file f in Ok (model_of v).
(** magica.py:50-61 without boundary_additions: the blocks of 8x8x8 voxels in use, each once, in
    the order of the file. *)
Definition block (v : Z * Z * Z * Z) : cell := let '(x, y, z, _) := v in (x / 8, y / 8, z / 8).
Definition blocks (l : list (Z * Z * Z * Z)) : list cell :=
  fold_left (fun acc v => if existsb (cell_eqb (block v)) acc then acc else acc ++ [block v]) l [].
Definition file_cells (f : list Z) : list cell :=
  match read_file f with Ok v => blocks (vf_voxels v) | Err _ => [] end.

(** ** Classes *)
(** Where a class puts a light: [self.pos + a + b ...], or [self.pos + (...).rotate(self.orientation)]. *)
Inductive place := Unturned (steps : list vec) | Turned (off : vec).
(** The calls of render_extra. *)
Inductive extra :=
| XLight (p : place) (size_factor : num)  (* LIGHTMAN.light *)
| XFlag (off : vec)                       (* a TeamFlag whose team depends on the orientation *)
| XSpawn                                  (* the PlayerSpawn of spawn_room *)
| XArms                                   (* the random choice of station_endcap *)
| XPusher (off : vec).                    (* the Pusher of station_tube_jumpx *)
(** How a class turns a colour into a texture: magica.py:80-89; castle/__init__.py:22-40 and
    spacestation/__init__.py:60-78; original/__init__.py:22-32 with 44-53. *)
Inductive painter := Plain | Team | Mapped.
(** A class: its file, layout and drawing. *)
Record shipped := Ship { s_class : rclass; s_file : list Z; s_paint : painter; s_extra : list extra }.
(** [v * (k/2)] for the constants below (always on the half-integer grid). *)
Definition vhalf (v : vec) (k : Z) : vec := match vmulh v k with Ok r => r | Err _ => v end.
Local Notation "a +c b" := (cadd a b) (at level 50, left associativity).
Local Notation cA := (cUp 1).
(** magica.py:5-30 — a room made from a file: no random flags, nothing but the position and the
    orientation kept. *)
Definition magica_class (id : Z) (type : string) (cells : list cell) (doors : list door) : rclass :=
  RC id type None true false (fun _ => cells) (fun _ => doors).
(** magica.py:76-77 — the default render_extra. *)
Definition one_light : list extra := [XLight (Unturned []) (I 1)].

(** castle/__init__.py:10-61. *)
Definition castle_flag_room_cells : list cell := Eval vm_compute in file_cells vox_castle_castle_flag_room.
Definition castle_flag_room : shipped := Ship
  (magica_class 100 "flagroom" castle_flag_room_cells
    [(cW +c cN +c cA, cW);
     (cmul cE 3 +c cN +c cA, cE);
     (cmul cN 3 +c cA +c cE, cN);
     (cS +c cA +c cE, cS)])
  vox_castle_castle_flag_room Team
  [XLight (Turned (EAST +v NORTH +v NORTHWEST +v ABOVE)) (H 3);
   XLight (Turned (EAST +v NORTH +v SOUTHWEST +v ABOVE)) (H 3);
   XLight (Turned (EAST +v NORTH +v NORTHEAST +v ABOVE)) (H 3);
   XLight (Turned (EAST +v NORTH +v SOUTHEAST +v ABOVE)) (H 3);
   XFlag (EAST +v NORTH +v ABOVE +v (vmul ABOVE_FINE 4))].
(** castle/__init__.py:64-78. *)
Definition castle_gate_cells : list cell := Eval vm_compute in file_cells vox_castle_castle_gate.
Definition castle_gate : shipped := Ship
  (magica_class 101 "setpiece_medium" castle_gate_cells
    [(cW +c cN +c cA, cW);
     (cE +c cE +c cE +c cN +c cA, cE);
     (cE +c cN +c cN +c cN, cN);
     (cE +c cS, cS)])
  vox_castle_castle_gate Plain
  [XLight (Turned (EAST +v NORTH)) (I 1);
   XLight (Turned (EAST +v NORTH +v ABOVE)) (I 1)].
(** castle/__init__.py:81-95. *)
Definition castle_gate_simple_cells : list cell := Eval vm_compute in file_cells vox_castle_castle_gate_simple.
Definition castle_gate_simple : shipped := Ship
  (magica_class 102 "setpiece_medium" castle_gate_simple_cells
    [(cW +c cA, cW);
     (cE +c cE +c cE +c cA, cE);
     (cE +c cN, cN);
     (cE +c cS, cS)])
  vox_castle_castle_gate_simple Plain
  [XLight (Turned (EAST +v NORTH)) (I 1);
   XLight (Turned (EAST +v NORTH +v ABOVE)) (I 1)].
(** castle/__init__.py:98-124. *)
Definition castle_large_cells : list cell := Eval vm_compute in file_cells vox_castle_castle_large.
Definition castle_large : shipped := Ship
  (magica_class 103 "setpiece_large" castle_large_cells
    [(cW +c cmul cN 2 +c cA, cW);
     (cmul cE 5 +c cmul cN 2 +c cA, cE);
     (cmul cN 5 +c cA +c cmul cE 2, cN);
     (cS +c cA +c cmul cE 2, cS)])
  vox_castle_castle_large Plain
  [XLight (Turned (EAST +v NORTH +v EAST +v NORTH)) (I 2);
   XLight (Turned (EAST +v NORTH +v EAST +v NORTH +v ABOVE)) (I 2);
   XLight (Turned (EAST +v NORTH +v EAST +v NORTH +v ABOVE +v ABOVE)) (H 3);
   XLight (Turned (EAST +v NORTH +v EAST +v NORTH +v NORTHWEST +v ABOVE +v ABOVE)) (H 3);
   XLight (Turned (EAST +v NORTH +v EAST +v NORTH +v SOUTHWEST +v ABOVE +v ABOVE)) (H 3);
   XLight (Turned (EAST +v NORTH +v EAST +v NORTH +v NORTHEAST +v ABOVE +v ABOVE)) (H 3);
   XLight (Turned (EAST +v NORTH +v EAST +v NORTH +v SOUTHEAST +v ABOVE +v ABOVE)) (H 3);
   XLight (Turned (EAST +v NORTH +v EAST +v NORTH +v NORTH +v NORTH +v ABOVE)) (H 3);
   XLight (Turned (EAST +v NORTH +v EAST +v NORTH +v SOUTH +v SOUTH +v ABOVE)) (H 3);
   XLight (Turned (EAST +v NORTH +v EAST +v NORTH +v EAST +v EAST +v ABOVE)) (H 3);
   XLight (Turned (EAST +v NORTH +v EAST +v NORTH +v WEST +v WEST +v ABOVE)) (H 3)].
(** castle/__init__.py:127-140. *)
Definition castle_small_deis_cells : list cell := Eval vm_compute in file_cells vox_castle_castle_small_deis.
Definition castle_small_deis : shipped := Ship
  (magica_class 104 "setpiece_small" castle_small_deis_cells
    [(cW, cW);
     (cE, cE);
     (cN, cN);
     (cS, cS)])
  vox_castle_castle_small_deis Plain
  [XLight (Unturned []) (I 1)].
(** castle/__init__.py:143-154. *)
Definition castle_wall_corner_cells : list cell := Eval vm_compute in file_cells vox_castle_castle_wall_corner.
Definition castle_wall_corner : shipped := Ship
  (magica_class 105 "hallway" castle_wall_corner_cells
    [(cW, cW);
     (cS, cS)])
  vox_castle_castle_wall_corner Plain
  [XLight (Unturned []) (I 1)].
(** castle/__init__.py:157-167. *)
Definition castle_wall_end_cliff_cells : list cell := Eval vm_compute in file_cells vox_castle_castle_wall_end_cliff.
Definition castle_wall_end_cliff : shipped := Ship
  (magica_class 106 "endcap" castle_wall_end_cliff_cells
    [(cW +c cA, cW)])
  vox_castle_castle_wall_end_cliff Plain
  [XLight (Unturned [ABOVE]) (I 1)].
(** castle/__init__.py:170-181. *)
Definition castle_wall_entry_cells : list cell := Eval vm_compute in file_cells vox_castle_castle_wall_entry.
Definition castle_wall_entry : shipped := Ship
  (magica_class 107 "stair" castle_wall_entry_cells
    [(cW +c cA, cW);
     (cE +c cA +c cA, cE)])
  vox_castle_castle_wall_entry Plain
  [XLight (Unturned [ABOVE; ABOVE]) (I 1)].
(** castle/__init__.py:184-195. *)
Definition castle_wall_section_cells : list cell := Eval vm_compute in file_cells vox_castle_castle_wall_section.
Definition castle_wall_section : shipped := Ship
  (magica_class 108 "hallway" castle_wall_section_cells
    [(cW +c cA, cW);
     (cE +c cA, cE)])
  vox_castle_castle_wall_section Plain
  [XLight (Unturned [ABOVE]) (I 1)].
(** castle/__init__.py:198-209. *)
Definition castle_wall_section_endcap_cells : list cell := Eval vm_compute in file_cells vox_castle_castle_wall_section_endcap.
Definition castle_wall_section_endcap : shipped := Ship
  (magica_class 109 "endcap" castle_wall_section_endcap_cells
    [(cW +c cA, cW)])
  vox_castle_castle_wall_section_endcap Plain
  [XLight (Unturned [ABOVE]) (I 1);
   XLight (Turned (EAST +v EAST +v ABOVE)) (I 1)].
(** castle/__init__.py:212-224. *)
Definition castle_wall_section_long_cells : list cell := Eval vm_compute in file_cells vox_castle_castle_wall_section_long.
Definition castle_wall_section_long : shipped := Ship
  (magica_class 110 "hallway" castle_wall_section_long_cells
    [(cW +c cA, cW);
     (cmul cE 3 +c cA, cE)])
  vox_castle_castle_wall_section_long Plain
  [XLight (Unturned [ABOVE]) (I 1);
   XLight (Turned (EAST +v EAST +v ABOVE)) (I 1)].
(** castle/__init__.py:227-239. *)
Definition castle_wall_section_long_damaged_cells : list cell := Eval vm_compute in file_cells vox_castle_castle_wall_section_long_damaged.
Definition castle_wall_section_long_damaged : shipped := Ship
  (magica_class 111 "hallway_setpiece" castle_wall_section_long_damaged_cells
    [(cW +c cA, cW);
     (cmul cE 3 +c cA, cE)])
  vox_castle_castle_wall_section_long_damaged Plain
  [XLight (Unturned [ABOVE]) (I 1);
   XLight (Turned (EAST +v EAST +v ABOVE)) (I 1)].
(** castle/__init__.py:242-255. *)
Definition castle_wall_section_tjoint_cells : list cell := Eval vm_compute in file_cells vox_castle_castle_wall_section_tjoint.
Definition castle_wall_section_tjoint : shipped := Ship
  (magica_class 112 "hallway" castle_wall_section_tjoint_cells
    [(cW +c cA, cW);
     (cmul cE 3 +c cA, cE);
     (cE +c cN +c cN +c cA, cN)])
  vox_castle_castle_wall_section_tjoint Plain
  [XLight (Unturned [ABOVE]) (I 1);
   XLight (Turned (EAST +v EAST +v ABOVE)) (I 1)].
(** castle/__init__.py:258-272. *)
Definition castle_wall_section_x_cells : list cell := Eval vm_compute in file_cells vox_castle_castle_wall_section_x.
Definition castle_wall_section_x : shipped := Ship
  (magica_class 113 "hallway" castle_wall_section_x_cells
    [(cW +c cN +c cA, cW);
     (cmul cE 3 +c cN +c cA, cE);
     (cE +c cN +c cN +c cN +c cA, cN);
     (cE +c cS +c cA, cS)])
  vox_castle_castle_wall_section_x Plain
  [XLight (Unturned [ABOVE]) (I 1);
   XLight (Turned (EAST +v EAST +v ABOVE)) (I 1)].
(** castle/__init__.py:275-288. *)
Definition castle_wall_tower_cells : list cell := Eval vm_compute in file_cells vox_castle_castle_wall_tower.
Definition castle_wall_tower : shipped := Ship
  (magica_class 114 "hallway_setpiece" castle_wall_tower_cells
    [(cW +c cA, cW);
     (cE +c cA, cE);
     (cN +c cA, cN);
     (cS +c cA, cS)])
  vox_castle_castle_wall_tower Plain
  [XLight (Unturned [ABOVE]) (I 1)].
(** castle/__init__.py:291-303. *)
Definition wooden_bridge_cells : list cell := Eval vm_compute in file_cells vox_castle_wooden_bridge.
Definition wooden_bridge : shipped := Ship
  (magica_class 115 "hallway_setpiece" wooden_bridge_cells
    [(cW +c cA, cW);
     (cmul cE 3 +c cA, cE)])
  vox_castle_wooden_bridge Plain
  [XLight (Unturned [ABOVE]) (I 1);
   XLight (Turned (EAST +v EAST +v ABOVE)) (I 1)].
(** dungeon/__init__.py:7-14. *)
Definition dungeon_2x2_cells : list cell := Eval vm_compute in file_cells vox_dungeon_dungeon_2x2.
Definition dungeon_2x2 : shipped := Ship
  (magica_class 116 "hallway_setpiece" dungeon_2x2_cells
    [(cW +c cN, cW)])
  vox_dungeon_dungeon_2x2 Plain
  one_light.
(** dungeon/__init__.py:17-37. *)
Definition dungeon_junction_cells : list cell := Eval vm_compute in file_cells vox_dungeon_dungeon_junction.
Definition dungeon_junction : shipped := Ship
  (magica_class 117 "hallway_setpiece" dungeon_junction_cells
    [(cW +c cN +c cN, cW);
     (cW, cW);
     (cE +c cE +c cE +c cN +c cN, cE);
     (cE +c cE +c cE, cE);
     (cE +c cN +c cN +c cN, cN);
     (cE +c cS, cS)])
  vox_dungeon_dungeon_junction Plain
  [XLight (Unturned []) (I 1);
   XLight (Turned (EAST +v EAST)) (I 1);
   XLight (Turned (NORTH +v NORTH)) (I 1);
   XLight (Turned (NORTH +v NORTH +v EAST +v EAST)) (I 1)].
(** dungeon/__init__.py:40-48. *)
Definition dungeon_stair2_cells : list cell := Eval vm_compute in file_cells vox_dungeon_dungeon_stair2.
Definition dungeon_stair2 : shipped := Ship
  (magica_class 118 "stair" dungeon_stair2_cells
    [(cW, cW);
     (cE +c cE +c cA, cE)])
  vox_dungeon_dungeon_stair2 Plain
  one_light.
(** dungeon/__init__.py:51-59. *)
Definition dungeon_walkway_cells : list cell := Eval vm_compute in file_cells vox_dungeon_dungeon_walkway.
Definition dungeon_walkway : shipped := Ship
  (magica_class 119 "hallway_setpiece" dungeon_walkway_cells
    [(cW, cW);
     (cE, cE)])
  vox_dungeon_dungeon_walkway Plain
  one_light.
(** dungeon/__init__.py:62-73. *)
Definition dungeon_walkway3_cells : list cell := Eval vm_compute in file_cells vox_dungeon_dungeon_walkway3.
Definition dungeon_walkway3 : shipped := Ship
  (magica_class 120 "hallway_setpiece" dungeon_walkway3_cells
    [(cW, cW);
     (cE +c cE +c cE, cE)])
  vox_dungeon_dungeon_walkway3 Plain
  [XLight (Turned EAST) (I 2)].
(** egypt/__init__.py:17-25. *)
Definition stair_cells : list cell := Eval vm_compute in file_cells vox_egypt_stair.
Definition stair : shipped := Ship
  (magica_class 121 "stair" stair_cells
    [(cW, cW);
     (cE +c cA, cE)])
  vox_egypt_stair Plain
  one_light.
(** egypt/__init__.py:28-38. *)
Definition stair_toplatform_cells : list cell := Eval vm_compute in file_cells vox_egypt_stair_toplatform.
Definition stair_toplatform : shipped := Ship
  (magica_class 122 "stair" stair_toplatform_cells
    [(cW, cW);
     (cE +c cE +c cA, cE);
     (cE +c cN +c cA, cN);
     (cE +c cS +c cA, cS)])
  vox_egypt_stair_toplatform Plain
  one_light.
(** egypt/__init__.py:41-50. *)
Definition statue_cells : list cell := Eval vm_compute in file_cells vox_egypt_statue.
Definition statue : shipped := Ship
  (magica_class 123 "platform_setpiece" statue_cells
    [(cW, cW);
     (cE, cE);
     (cS, cS)])
  vox_egypt_statue Plain
  one_light.
(** egypt/__init__.py:53-76. *)
Definition statue_cat_cells : list cell := Eval vm_compute in file_cells vox_egypt_statue_cat.
Definition statue_cat : shipped := Ship
  (magica_class 124 "platform_setpiece" statue_cat_cells
    [(cW, cW);
     (cW +c cN, cW);
     (cW +c cN +c cN, cW);
     (cS, cS);
     (cS +c cE, cS);
     (cS +c cE +c cE, cS);
     (cS +c cE +c cE +c cE, cS);
     (cN +c cN +c cN, cN);
     (cN +c cN +c cN +c cE, cN);
     (cN +c cN +c cN +c cE +c cE, cN);
     (cN +c cN +c cN +c cE +c cE +c cE, cN);
     (cE +c cE +c cE +c cE, cE);
     (cE +c cE +c cE +c cE +c cN, cE);
     (cE +c cE +c cE +c cE +c cN +c cN, cE)])
  vox_egypt_statue_cat Plain
  one_light.
(** egypt/__init__.py:79-86. *)
Definition house_2x2_cells : list cell := Eval vm_compute in file_cells vox_egypt_house_2x2.
Definition house_2x2 : shipped := Ship
  (magica_class 125 "platform" house_2x2_cells
    [(cE +c cN +c cN, cN)])
  vox_egypt_house_2x2 Plain
  one_light.
(** egypt/__init__.py:89-96. *)
Definition house_2x2x3_cells : list cell := Eval vm_compute in file_cells vox_egypt_house_2x2x3.
Definition house_2x2x3 : shipped := Ship
  (magica_class 126 "platform" house_2x2x3_cells
    [(cE +c cN +c cN, cN)])
  vox_egypt_house_2x2x3 Plain
  one_light.
(** egypt/__init__.py:99-107. *)
Definition gate_cells : list cell := Eval vm_compute in file_cells vox_egypt_gate.
Definition gate : shipped := Ship
  (magica_class 127 "platform" gate_cells
    [(cE +c cN, cN);
     (cE +c cS, cS)])
  vox_egypt_gate Plain
  one_light.
(** original/__init__.py:35-60. *)
Definition spawn_room_cells : list cell := Eval vm_compute in file_cells vox_original_spawn_room.
Definition spawn_room : shipped := Ship
  (magica_class 128 "platform_setpiece" spawn_room_cells
    [(cE, cE)])
  vox_original_spawn_room Mapped
  [XLight (Unturned []) (I 1);
   XSpawn].
(** spacestation/__init__.py:17-45. *)
Definition station_endcap_cells : list cell := Eval vm_compute in file_cells vox_spacestation_station_endcap.
Definition station_endcap : shipped := Ship
  (magica_class 129 "endcap" station_endcap_cells
    [(cW, cW)])
  vox_spacestation_station_endcap Plain
  [XLight (Unturned []) (I 1);
   XArms].
(** spacestation/__init__.py:48-99. *)
Definition station_flagroom_cells : list cell := Eval vm_compute in file_cells vox_spacestation_station_flagroom.
Definition station_flagroom : shipped := Ship
  (magica_class 130 "setpiece_large" station_flagroom_cells
    [(cW +c cN +c cN, cW);
     (cmul cE 5 +c cN +c cN, cE);
     (cmul cE 2 +c cS, cS);
     (cmul cE 2 +c cmul cN 5, cN)])
  vox_spacestation_station_flagroom Team
  [XLight (Turned (EAST +v EAST +v NORTH +v NORTH +v NORTHWEST)) (H 3);
   XLight (Turned (EAST +v EAST +v NORTH +v NORTH +v SOUTHWEST)) (H 3);
   XLight (Turned (EAST +v EAST +v NORTH +v NORTH +v NORTHEAST)) (H 3);
   XLight (Turned (EAST +v EAST +v NORTH +v NORTH +v SOUTHEAST)) (H 3);
   XFlag (EAST +v EAST +v NORTH +v NORTH +v (vmul ABOVE_FINE 4))].
(** spacestation/__init__.py:102-110. *)
Definition station_right_cells : list cell := Eval vm_compute in file_cells vox_spacestation_station_right.
Definition station_right : shipped := Ship
  (magica_class 131 "hallway" station_right_cells
    [(cW, cW);
     (cS, cS)])
  vox_spacestation_station_right Plain
  one_light.
(** spacestation/__init__.py:113-129. *)
Definition station_ring_cells : list cell := Eval vm_compute in file_cells vox_spacestation_station_ring.
Definition station_ring : shipped := Ship
  (magica_class 132 "setpiece_large" station_ring_cells
    [(cW +c cN +c cN, cW);
     (cmul cE 5 +c cN +c cN, cE);
     (cmul cE 2 +c cS, cS);
     (cmul cE 2 +c cmul cN 5, cN)])
  vox_spacestation_station_ring Plain
  [XLight (Turned (vmul EAST 2)) (I 1);
   XLight (Turned (vmul NORTH 2)) (I 1);
   XLight (Turned ((vmul EAST 2) +v (vmul NORTH 4))) (I 1);
   XLight (Turned ((vmul EAST 4) +v (vmul NORTH 2))) (I 1)].
(** spacestation/__init__.py:132-145. *)
Definition station_ring_vertical_cells : list cell := Eval vm_compute in file_cells vox_spacestation_station_ring_vertical.
Definition station_ring_vertical : shipped := Ship
  (magica_class 133 "setpiece_large" station_ring_vertical_cells
    [(cW +c cA +c cA, cW);
     (cmul cE 5 +c cA +c cA, cE)])
  vox_spacestation_station_ring_vertical Plain
  [XLight (Turned ((vhalf EAST 1) +v (vmul ABOVE 3))) (I 1);
   XLight (Turned ((vhalf EAST 7) +v (vmul ABOVE 3))) (I 1);
   XLight (Turned ((vmul EAST 2) +v (vmul ABOVE 4))) (I 1)].
(** spacestation/__init__.py:148-159. *)
Definition station_sbend_cells : list cell := Eval vm_compute in file_cells vox_spacestation_station_sbend.
Definition station_sbend : shipped := Ship
  (magica_class 134 "hallway" station_sbend_cells
    [(cW +c cN, cW);
     (cE +c cE +c cN, cE)])
  vox_spacestation_station_sbend Plain
  [XLight (Turned (vhalf EAST 1)) (I 1)].
(** spacestation/__init__.py:162-175. *)
Definition station_sphere_cells : list cell := Eval vm_compute in file_cells vox_spacestation_station_sphere.
Definition station_sphere : shipped := Ship
  (magica_class 135 "setpiece_medium" station_sphere_cells
    [(cW +c cN +c cA, cW);
     (cmul cE 3 +c cN +c cA, cE);
     (cE +c cN +c cN +c cN +c cA, cN);
     (cE +c cS +c cA, cS)])
  vox_spacestation_station_sphere Plain
  [XLight (Turned (EAST +v NORTH)) (I 3)].
(** spacestation/__init__.py:178-191. *)
Definition station_sphere_slice_cells : list cell := Eval vm_compute in file_cells vox_spacestation_station_sphere_slice.
Definition station_sphere_slice : shipped := Ship
  (magica_class 136 "setpiece_medium" station_sphere_slice_cells
    [(cW +c cN, cW);
     (cmul cE 3 +c cN, cE);
     (cE +c cN +c cN +c cN, cN);
     (cE +c cS, cS)])
  vox_spacestation_station_sphere_slice Plain
  [XLight (Turned (EAST +v NORTH)) (I 2)].
(** spacestation/__init__.py:194-202. *)
Definition station_stair2_cells : list cell := Eval vm_compute in file_cells vox_spacestation_station_stair2.
Definition station_stair2 : shipped := Ship
  (magica_class 137 "stair" station_stair2_cells
    [(cW, cW);
     (cmul cE 2 +c cA, cE)])
  vox_spacestation_station_stair2 Plain
  one_light.
(** spacestation/__init__.py:205-213. *)
Definition station_tube1_cells : list cell := Eval vm_compute in file_cells vox_spacestation_station_tube1.
Definition station_tube1 : shipped := Ship
  (magica_class 138 "hallway_setpiece" station_tube1_cells
    [(cW, cW);
     (cE, cE)])
  vox_spacestation_station_tube1 Plain
  one_light.
(** spacestation/__init__.py:216-227. *)
Definition station_tube3_cells : list cell := Eval vm_compute in file_cells vox_spacestation_station_tube3.
Definition station_tube3 : shipped := Ship
  (magica_class 139 "hallway" station_tube3_cells
    [(cW, cW);
     (cE +c cE +c cE, cE)])
  vox_spacestation_station_tube3 Plain
  [XLight (Turned (ABOVE +v EAST)) (I 2)].
(** spacestation/__init__.py:230-243. *)
Definition station_tube3layered_cells : list cell := Eval vm_compute in file_cells vox_spacestation_station_tube3layered.
Definition station_tube3layered : shipped := Ship
  (magica_class 140 "hallway_setpiece" station_tube3layered_cells
    [(cW, cW);
     (cE +c cE +c cE, cE);
     (cW +c cA +c cA, cW);
     (cE +c cE +c cE +c cA +c cA, cE)])
  vox_spacestation_station_tube3layered Plain
  [XLight (Turned (ABOVE +v EAST)) (I 2)].
(** spacestation/__init__.py:246-273. *)
Definition station_tube_jumpx_cells : list cell := Eval vm_compute in file_cells vox_spacestation_station_tube_jumpx.
Definition station_tube_jumpx : shipped := Ship
  (magica_class 141 "hallway_setpiece" station_tube_jumpx_cells
    [(cW +c cN, cW);
     (cE +c cE +c cE +c cN, cE);
     (cE +c cN +c cN +c cN, cN);
     (cE +c cS, cS);
     (cW +c cA +c cA +c cN, cW);
     (cE +c cE +c cE +c cA +c cA +c cN, cE);
     (cE +c cN +c cN +c cA +c cA +c cN, cN);
     (cE +c cS +c cA +c cA, cS)])
  vox_spacestation_station_tube_jumpx Plain
  [XLight (Turned (EAST +v NORTH +v ABOVE)) (I 2);
   XPusher (EAST +v NORTH +v (fine 4 5 12))].
(** spacestation/__init__.py:276-289. *)
Definition station_tubeX_cells : list cell := Eval vm_compute in file_cells vox_spacestation_station_tubeX.
Definition station_tubeX : shipped := Ship
  (magica_class 142 "hallway_setpiece" station_tubeX_cells
    [(cW +c cN, cW);
     (cE +c cE +c cE +c cN, cE);
     (cE +c cN +c cN +c cN, cN);
     (cE +c cS, cS)])
  vox_spacestation_station_tubeX Plain
  [XLight (Turned (EAST +v NORTH)) (I 1)].
(** spacestation/__init__.py:292-305. *)
Definition station_tubeX_variant_cells : list cell := Eval vm_compute in file_cells vox_spacestation_station_tubeX_variant.
Definition station_tubeX_variant : shipped := Ship
  (magica_class 143 "hallway_setpiece" station_tubeX_variant_cells
    [(cW +c cN, cW);
     (cE +c cE +c cE +c cN, cE);
     (cE +c cN +c cN +c cN, cN);
     (cE +c cS, cS)])
  vox_spacestation_station_tubeX_variant Plain
  [XLight (Turned (EAST +v NORTH)) (I 1)].
(** spacestation/__init__.py:308-316. *)
Definition station_uturn_cells : list cell := Eval vm_compute in file_cells vox_spacestation_station_uturn.
Definition station_uturn : shipped := Ship
  (magica_class 144 "hallway" station_uturn_cells
    [(cW, cW);
     (cW +c cN, cW)])
  vox_spacestation_station_uturn Plain
  one_light.
(** All of them. *)
Definition shipped_rooms : list shipped :=
  [castle_flag_room; castle_gate; castle_gate_simple; castle_large; castle_small_deis; castle_wall_corner;
   castle_wall_end_cliff; castle_wall_entry; castle_wall_section; castle_wall_section_endcap;
   castle_wall_section_long; castle_wall_section_long_damaged; castle_wall_section_tjoint;
   castle_wall_section_x; castle_wall_tower; wooden_bridge; dungeon_2x2; dungeon_junction; dungeon_stair2;
   dungeon_walkway; dungeon_walkway3; stair; stair_toplatform; statue; statue_cat; house_2x2; house_2x2x3;
   gate; spawn_room; station_endcap; station_flagroom; station_right; station_ring; station_ring_vertical;
   station_sbend; station_sphere; station_sphere_slice; station_stair2; station_tube1; station_tube3;
   station_tube3layered; station_tube_jumpx; station_tubeX; station_tubeX_variant; station_uturn].
(** All voxel files under redeclipse/prefabs, with and without a class. *)
Definition shipped_files : list (string * list Z) :=
  [("castle/castle_flag_room.vox", vox_castle_castle_flag_room);
   ("castle/castle_gate.vox", vox_castle_castle_gate);
   ("castle/castle_gate_simple.vox", vox_castle_castle_gate_simple);
   ("castle/castle_large.vox", vox_castle_castle_large);
   ("castle/castle_small_deis.vox", vox_castle_castle_small_deis);
   ("castle/castle_wall_corner.vox", vox_castle_castle_wall_corner);
   ("castle/castle_wall_end_cliff.vox", vox_castle_castle_wall_end_cliff);
   ("castle/castle_wall_end_cliff_oneway.vox", vox_castle_castle_wall_end_cliff_oneway);
   ("castle/castle_wall_entry.vox", vox_castle_castle_wall_entry);
   ("castle/castle_wall_section.vox", vox_castle_castle_wall_section);
   ("castle/castle_wall_section_endcap.vox", vox_castle_castle_wall_section_endcap);
   ("castle/castle_wall_section_long.vox", vox_castle_castle_wall_section_long);
   ("castle/castle_wall_section_long_damaged.vox", vox_castle_castle_wall_section_long_damaged);
   ("castle/castle_wall_section_tjoint.vox", vox_castle_castle_wall_section_tjoint);
   ("castle/castle_wall_section_x.vox", vox_castle_castle_wall_section_x);
   ("castle/castle_wall_tower.vox", vox_castle_castle_wall_tower);
   ("castle/wooden_bridge.vox", vox_castle_wooden_bridge);
   ("dungeon/dungeon_2x2.vox", vox_dungeon_dungeon_2x2);
   ("dungeon/dungeon_junction.vox", vox_dungeon_dungeon_junction);
   ("dungeon/dungeon_stair2.vox", vox_dungeon_dungeon_stair2);
   ("dungeon/dungeon_walkway.vox", vox_dungeon_dungeon_walkway);
   ("dungeon/dungeon_walkway3.vox", vox_dungeon_dungeon_walkway3);
   ("egypt/beach_1side.vox", vox_egypt_beach_1side);
   ("egypt/beach_2sides_a.vox", vox_egypt_beach_2sides_a);
   ("egypt/beach_2sides_b.vox", vox_egypt_beach_2sides_b);
   ("egypt/beach_3sides.vox", vox_egypt_beach_3sides);
   ("egypt/beach_floor.vox", vox_egypt_beach_floor);
   ("egypt/gate.vox", vox_egypt_gate);
   ("egypt/house_2x2.vox", vox_egypt_house_2x2);
   ("egypt/house_2x2x3.vox", vox_egypt_house_2x2x3);
   ("egypt/sand_square.vox", vox_egypt_sand_square);
   ("egypt/sand_square2x.vox", vox_egypt_sand_square2x);
   ("egypt/stair.vox", vox_egypt_stair);
   ("egypt/stair_toplatform.vox", vox_egypt_stair_toplatform);
   ("egypt/statue.vox", vox_egypt_statue);
   ("egypt/statue_cat.vox", vox_egypt_statue_cat);
   ("egypt/water_square.vox", vox_egypt_water_square);
   ("egypt/wide_bridge_segment3.vox", vox_egypt_wide_bridge_segment3);
   ("egypt/wide_bridge_segment3a.vox", vox_egypt_wide_bridge_segment3a);
   ("egypt/wide_bridge_segment3b.vox", vox_egypt_wide_bridge_segment3b);
   ("original/spawn_room.vox", vox_original_spawn_room);
   ("spacestation/station_endcap.vox", vox_spacestation_station_endcap);
   ("spacestation/station_flagroom.vox", vox_spacestation_station_flagroom);
   ("spacestation/station_right.vox", vox_spacestation_station_right);
   ("spacestation/station_ring.vox", vox_spacestation_station_ring);
   ("spacestation/station_ring_vertical.vox", vox_spacestation_station_ring_vertical);
   ("spacestation/station_sbend.vox", vox_spacestation_station_sbend);
   ("spacestation/station_sphere.vox", vox_spacestation_station_sphere);
   ("spacestation/station_sphere_slice.vox", vox_spacestation_station_sphere_slice);
   ("spacestation/station_stair2.vox", vox_spacestation_station_stair2);
   ("spacestation/station_tube1.vox", vox_spacestation_station_tube1);
   ("spacestation/station_tube3.vox", vox_spacestation_station_tube3);
   ("spacestation/station_tube3layered.vox", vox_spacestation_station_tube3layered);
   ("spacestation/station_tubeX.vox", vox_spacestation_station_tubeX);
   ("spacestation/station_tubeX_variant.vox", vox_spacestation_station_tubeX_variant);
   ("spacestation/station_tube_jumpx.vox", vox_spacestation_station_tube_jumpx);
   ("spacestation/station_uturn.vox", vox_spacestation_station_uturn)]%string.

(** ** Drawing *)
(** The texture numbers a spawn_room keeps: wall, accent, floor. *)
Definition own_textures : Type := Z * Z * Z.
(** original/__init__.py:50-53 — initialize_textures (magica.py:91-97 for the others: nothing). *)
Definition init_textures (k : painter) (tm : texman) : texman * res own_textures :=
  match k with
  | Mapped =>
      let '(t1, a) := auto_get_c tm "wall" in
      let '(t2, b) := auto_get_c t1 "accent" in
      let '(t3, c) := auto_get_c t2 "floor" in
      (t3, let! a := a in let! b := b in let! c := c in Ok (a, b, c))
  | _ => (tm, Ok (0, 0, 0))
  end.
(** [x == 1] and [x == 0] on a component. *)
Definition comp_is (c : comp) (z : Z) : bool :=
  match c with
  | CInt n => n =? z
  | CFl f => match f with
             | S754_zero _ => z =? 0
             | S754_finite _ _ _ => fl_eqb f (fl_int z)
             | _ => false
             end
  end.
(** The colour of a flag room's wall for its orientation (castle/__init__.py:23-38). *)
Definition team_colour (orient : vec) (col : comp * comp * comp) : comp * comp * comp :=
  let '(r, g, b) := col in
  if comp_is r 1 && comp_is g 0 && comp_is b 0 then
    if veq orient NORTH then (CInt 0, CInt 0, CInt 1)
    else if veq orient SOUTH then col
    else if veq orient EAST then (CInt 1, CInt 1, CInt 0)
    else if veq orient WEST then (CInt 0, CInt 1, CInt 0)
    else col
  else col.
(** colour_to_texture of the three kinds of class. *)
Definition texture_for (k : painter) (orient : vec) (own : own_textures) (tm : texman) (col : comp * comp * comp)
  : texman * res Z :=
  match k with
  | Plain => let '(r, g, b) := col in get_colour tm r g b
  | Team => let '(r, g, b) := team_colour orient col in get_colour tm r g b
  | Mapped =>
      let '(r, g, b) := col in
      let scaled c := match c with CInt z => Ok (z * 255) | CFl f => fl_trunc (fl_mul f (fl_int 255)) end in
      (tm, let! r1 := scaled r in let! g1 := scaled g in let! b1 := scaled b in
           let '(wall, accent, floor) := own in
           Ok (if (r1 =? 50) && (g1 =? 50) && (b1 =? 50) then wall
               else if (r1 =? 255) && (g1 =? 255) && (b1 =? 0) then accent
               else floor))
  end.
(** magica.py:38-39 — the components of a palette entry. *)
Definition components (c : Z * Z * Z) : comp * comp * comp :=
  let '(r, g, b) := c in (CFl (int_div r 255), CFl (int_div g 255), CFl (int_div b 255)).
(** magica.py:90-98 — render_individual_voxel, then [self.x('cube', ...)]. *)
Definition draw_voxel (k : painter) (m : voxmodel) (pos orient off : vec) (own : own_textures) (tm : texman)
    (w : world (list Z)) (e : key * Z) (g : rng) : texman * res (world (list Z)) * rng :=
  match (if snd e <? 0 then None else nth_error (vm_palette m) (Z.to_nat (snd e))) with
  | None => (tm, Err KeyError, g)
  | Some c =>
      match texture_for k orient own tm (components c) with
      | (tm', Err x) => (tm', Err x, g)
      | (tm', Ok t) =>
          match (let! a := vadd SELF (key_vec (fst e)) in vadd a off) with
          | Err x => (tm', Err x, g)
          | Ok o => let '(r, g') := x_call pos orient (C (KCube o) t false (11 # 10)) w g in (tm', r, g')
          end
      end
  end.
Fixpoint draw_voxels (k : painter) (m : voxmodel) (pos orient off : vec) (own : own_textures) (es : list (key * Z))
    (tm : texman) (w : world (list Z)) (g : rng) : texman * res (world (list Z)) * rng :=
  match es with
  | [] => (tm, Ok w, g)
  | e :: r =>
      match draw_voxel k m pos orient off own tm w e g with
      | (tm', Ok w', g') => draw_voxels k m pos orient off own r tm' w' g'
      | (tm', Err x, g') => (tm', Err x, g')
      end
  end.
(** magica.py:100-113 — render, before render_extra. *)
Definition draw_room (s : shipped) (pos orient : vec) (tm : texman) (w : world (list Z)) (g : rng)
  : texman * res (world (list Z)) * rng :=
  match load_file (s_file s) with
  | Err x => (tm, Err x, g)
  | Ok m =>
      match init_textures (s_paint s) tm with
      | (tm1, Err x) => (tm1, Err x, g)
      | (tm1, Ok own) =>
          match magica_off 0 0 orient with
          | Err x => (tm1, Err x, g)
          | Ok off => draw_voxels (s_paint s) m pos orient off own (w_map (load_world m)) tm1 w g
          end
      end
  end.

(** ** Entities *)
(** The position of a light. *)
Definition place_vec (pos orient : vec) (p : place) : res vec :=
  match p with
  | Unturned steps => foldM vadd steps pos
  | Turned off => let! r := vrotate off (DVec orient) in vadd pos r
  end.
(** The team of a flag: castle/__init__.py:53-60, spacestation/__init__.py:91-98.  With any other
    orientation None is appended. *)
Definition flag_team (orient : vec) : res Z :=
  if veq orient NORTH then Ok 1
  else if veq orient SOUTH then Ok 2
  else if veq orient EAST then Ok 3
  else if veq orient WEST then Ok 4
  else Err OutOfModel.
(** original/__init__.py:58-60 and spacestation/__init__.py:32-35 — the spawn point. *)
Definition spawn_entity (pos : vec) (yaw : Z) : res entity :=
  let! a := vadd pos TILE_CENTER in
  let! p := vadd a (fine 0 0 1) in
  mk_playerspawn p (AInt 0) (AInt yaw) (AInt 0) (AInt 0) (AInt 0) (AInt 0).
(** spacestation/__init__.py:30 — weap_pos. *)
Definition weapon_pos (pos : vec) : res vec := foldM vadd [TILE_CENTER; ABOVE_FINE; ABOVE_FINE; ABOVE_FINE] pos.
Definition add_entity (m : rmap) (e : res entity) : res rmap := let! e := e in Ok (apply_edit m (AddEnt e)).
(** One call of render_extra. *)
Definition run_extra (lm : lightman) (pos orient : vec) (x : extra) (m : rmap) (g : rng) : res rmap * rng :=
  match x with
  | XLight p size => (let! v := place_vec pos orient p in light lm m v None true size, g)
  | XFlag off =>
      (let! a := vadd pos TILE_CENTER in
       let! r := vrotate off (DVec orient) in
       let! p := vadd a r in
       let! team := flag_team orient in
       add_entity m (mk_teamflag p (AInt team) (AInt 0) (AInt 0) (AInt 2) (AInt 0) (AInt 0)), g)
  | XSpawn => (add_entity m (spawn_entity pos 0), g)
  | XArms =>
      let '(d, g') := draw g in
      (let! wp := weapon_pos pos in
       if d mod 3 =? 0 then let! yaw := rotate_yaw 90 orient in add_entity m (spawn_entity pos yaw)
       else add_entity m (mk_weapon wp (AInt (if d mod 3 =? 1 then 3 else 9)) (AInt 0) (AInt 0) (AInt 0) (AInt 0)), g')
  | XPusher off =>
      (let! r := vrotate off (DVec orient) in
       let! p := vadd pos r in
       let! yaw := rotate_yaw 0 orient in
       add_entity m (mk_pusher p (AInt yaw) (AInt 90) (AInt 230) (AInt 1) (AInt 0) (AInt 0)), g)
  end.
Fixpoint run_extras (lm : lightman) (pos orient : vec) (l : list extra) (m : rmap) (g : rng) : res rmap * rng :=
  match l with
  | [] => (Ok m, g)
  | x :: r => match run_extra lm pos orient x m g with
              | (Ok m', g') => run_extras lm pos orient r m' g'
              | (Err e, g') => (Err e, g')
              end
  end.
