(** Properties C59 to C64 of the shipped rooms.  Statements only; proofs are in ShippedProofs.v and
    ShippedDraw.v. *)
From Verif Require Import Py VecModel VecSpec VoxelModel VoxelSpec CodecModel OutModel CodecSamples UpmModel UpmSpec KitModel KitSpec
  RoomModel MagicaModel RoomSpec TexModel TexSpec LightModel LightSpec VoxFileModel ShippedVox ShippedModel ShippedSpec ShippedCheck
  ShippedProofs ShippedDraw.
Local Open Scope Z_scope.

(** C59: every voxel file in the repository can be read, has voxels, and all of them are in the
    declared box and have a colour.  Refuted: one file cannot be read. *)
Theorem C59_files_refuted : exists f, In ("egypt/water_square.vox"%string, f) shipped_files /\ read_file f = Err UserExn.
Proof. exact (ex_intro _ _ (conj water_listed water_unreadable)). Qed.
Print Assumptions C59_files_refuted.
(** It holds for all others; missing: that file. *)
Theorem C59_files_partial : forall name f, In (name, f) shipped_files -> name <> "egypt/water_square.vox"%string -> sound_file f.
Proof. exact files_sound. Qed.
Print Assumptions C59_files_partial.
Example C59_files_example : In ("castle/castle_gate.vox"%string, vox_castle_castle_gate) shipped_files /\ List.length shipped_files = 57%nat.
Proof. split; [apply (nth_error_In shipped_files 1)|]; reflexivity. Qed.
(** The file of every class is sound. *)
Theorem C59_classes : forall s, In s shipped_rooms -> sound_file (s_file s).
Proof. exact class_sound. Qed.
Print Assumptions C59_classes.
Example C59_classes_example : List.length shipped_rooms = 45%nat /\ In station_tubeX shipped_rooms.
Proof. split; [reflexivity|]. apply (nth_error_In shipped_rooms 42). reflexivity. Qed.

(** C60: the cells a room of any class reserves, in any position and orientation, are those in
    which it draws voxels, each reported once. *)
Theorem C60_reserved : forall s p t pos orient, In s shipped_rooms -> room_vectors (room_of s p t) pos orient ->
  exists v ps, read_file (s_file s) = Ok v /\ magica_get_positions (model_of v) 0 0 pos orient = Ok ps /\
    Forall2 cell_at ps (positions (room_of s p t)) /\ NoDup (positions (room_of s p t)) /\
    forall d, In d (positions (room_of s p t)) <-> exists q a, voxel_colour (vf_voxels v) q = Some a /\ voxel_in_cell (frame p (facing t) q) d.
Proof. exact reserved. Qed.
Print Assumptions C60_reserved.
Example C60_reserved_example : room_vectors (room_of station_tubeX (8, 8, 3) T1) (V Coarse (I 8) (I 8) (I 3)) NORTH /\
  positions (room_of station_tubeX (8, 8, 3) T1) = [(8, 9, 3); (7, 9, 3); (7, 8, 3); (7, 10, 3); (6, 9, 3)].
Proof. split; [split; split; reflexivity|vm_compute; reflexivity]. Qed.

(** C61: every doorway of a room opens to a side, leads out of the room and leaves from one of
    its cells.  Refuted: two classes have a doorway that leaves from a cell the room does not have. *)
Theorem C61_doors_refuted : forall s p t, In s bad_doors ->
  In s shipped_rooms /\ exists d, In d (doorways (room_of s p t)) /\ ~ In (csub (fst d) (snd d)) (positions (room_of s p t)).
Proof. exact unusable_doors. Qed.
Print Assumptions C61_doors_refuted.
(** It holds for all other classes. *)
Theorem C61_doors_partial : forall s p t, In s shipped_rooms -> ~ In s bad_doors ->
  forall d, In d (doorways (room_of s p t)) -> usable_door (room_of s p t) d.
Proof. exact good_doors. Qed.
Print Assumptions C61_doors_partial.
Example C61_doors_example : ~ In (rc_id (s_class castle_large)) (map (fun s => rc_id (s_class s)) bad_doors) /\
  doorways (room_of castle_large (10, 10, 3) T2) = [((11, 8, 4), (1, 0, 0)); ((5, 8, 4), (-1, 0, 0)); ((8, 5, 4), (0, -1, 0)); ((8, 11, 4), (0, 1, 0))].
Proof. split; [vm_compute; intuition congruence|vm_compute; reflexivity]. Qed.

(** C62: a room makes one entity for each thing its class asks for, of the right kind, and it
    stands inside the room.  Refuted: five classes put one outside. *)
Theorem C62_entities_refuted : forall s, In s bad_extras -> In s shipped_rooms /\ misplaced s.
Proof. exact misplaced_extras. Qed.
Print Assumptions C62_entities_refuted.
(** It holds for all other classes. *)
Theorem C62_entities_partial : forall s, In s shipped_rooms -> ~ In s bad_extras -> furnished s.
Proof. exact good_extras. Qed.
Print Assumptions C62_entities_partial.
Example C62_entities_example :
  match run_extras (LIGHTMAN white) (V Coarse (I 8) (I 8) (I 3)) WEST (s_extra castle_flag_room) map0 (fun _ => 0) with
  | (Ok m, _) => map (fun e => (e_x e, e_type e)) (skipn (List.length (m_ents map0)) (m_ents m))
  | _ => []
  end = [(PF false 544 (-1), 1); (PF false 544 (-1), 1); (PF false 416 (-1), 1); (PF false 416 (-1), 1); (PF false 480 (-1), 14)].
Proof. vm_compute. reflexivity. Qed.

(** C63: drawing a room draws each voxel of its file, turned and moved, on all six sides with the
    number of the colour its class means for it; colours keep the numbers they had; all other
    points of the world keep their contents. *)
Theorem C63_drawing : forall s p t pos orient tm size ops g, In s shipped_rooms -> room_vectors (room_of s p t) pos orient -> manager tm ->
  let w := wrun ops (new_world size) in
  exists v tm' w', read_file (s_file s) = Ok v /\ draw_room s pos orient tm w g = (tm', Ok w', g) /\ manager tm' /\ keeps_numbers tm tm' /\
    (forall q a, voxel_colour (vf_voxels v) q = Some a ->
       exists r g b al n, nth_error (vf_palette v) (Z.to_nat a) = Some (r, g, b, al) /\ numbered tm' (intended (s_paint s) t (r, g, b)) n /\
         at_voxel w' (frame p (facing t) q) = Some (repeat n 6)) /\
    (forall x y z, (forall q a, voxel_colour (vf_voxels v) q = Some a -> doubled (frame p (facing t) q) <> (halves x, halves y, halves z)) ->
       get_point w' x y z = get_point w x y z).
Proof. exact drawn. Qed.
Print Assumptions C63_drawing.
(** Different colours have different numbers. *)
Theorem C63_distinct : forall tm c c' k, manager tm -> numbered tm c k -> numbered tm c' k -> c = c'.
Proof. exact numbers_distinct. Qed.
Print Assumptions C63_distinct.
Definition base_table : list (tname * tex) := [(Named "sky", Sky); (Named "default", Default)].
Example C63_drawing_example : manager (tm_init base_table) /\
  match draw_room spawn_room (V Coarse (I 1) (I 1) (I 1)) SOUTH (tm_init base_table) (new_world 256) (fun _ => 0) with
  | (tm, Ok w, _) => (List.length (tm_atlas tm), List.length (w_map w), at_voxel w (8, 15, 8))
  | _ => (0%nat, 0%nat, None)
  end = (5%nat, 260%nat, Some (repeat 2 6)).
Proof. split; [exists base_table, []; split; [split|]; reflexivity|vm_compute; reflexivity]. Qed.

(** C64: a room with a flag makes exactly one, inside the room, for the team of its orientation, and
    paints the red voxels of its file in the colour of the same team. *)
Theorem C64_flags : forall s p t pos orient hue m tm size ops g,
  In s shipped_rooms -> has_flag s = true -> room_vectors (room_of s p t) pos orient -> manager tm ->
  let w := wrun ops (new_world size) in
  exists v es m' g1 e tm' w', read_file (s_file s) = Ok v /\
    run_extras (LIGHTMAN hue) pos orient (s_extra s) m g = (Ok m', g1) /\ more_ents m es m' /\
    filter (fun e => e_type e =? 14) es = [e] /\ hd_error (e_attrs e) = Some (AInt (team_of t)) /\ inside_room (room_of s p t) e /\
    draw_room s pos orient tm w g = (tm', Ok w', g) /\
    forall q a al, voxel_colour (vf_voxels v) q = Some a -> nth_error (vf_palette v) (Z.to_nat a) = Some (255, 0, 0, al) ->
      exists n, numbered tm' (team_paint (team_of t)) n /\ at_voxel w' (frame p (facing t) q) = Some (repeat n 6).
Proof. exact flag_and_walls. Qed.
Print Assumptions C64_flags.
(** Rooms that face different directions belong to different teams. *)
Theorem C64_teams : forall t t', team_of t = team_of t' -> t = t'.
Proof. exact team_of_inj. Qed.
Print Assumptions C64_teams.
Definition red_voxels (s : shipped) : nat :=
  match read_file (s_file s) with
  | Ok v => List.length (filter (fun q => match nth_error (vf_palette v) (Z.to_nat (snd q)) with Some (255, 0, 0, _) => true | _ => false end) (vf_voxels v))
  | Err _ => 0
  end.
Example C64_flags_example : map (fun s => (rc_id (s_class s), red_voxels s)) (filter has_flag shipped_rooms) = [(100, 571%nat); (130, 401%nat)].
Proof. vm_compute. reflexivity. Qed.
