(** Vocabulary for the properties of the tool that draws rooms for testing. *)
From Verif Require Import Py VecModel VecSpec VoxelModel VoxelSpec CodecModel CodecSpec OutModel OutSpec UpmModel UpmSpec
  KitModel KitSpec RoomModel MagicaModel RoomSpec TexModel TexSpec LightModel LightSpec VoxFileModel ShippedModel ShippedSpec GenModel GenSpec
  DebugModel DebugSpec ExportSpec RoomTestModel.
Local Open Scope Z_scope.

(** The room once for every direction, each a quarter turn about the middle of the map from the one before. *)
Definition four_rooms (s : shipped) : list room :=
  [room_of s (11, 8, 1) T0; room_of s (24, 11, 1) T1; room_of s (21, 24, 1) T2; room_of s (8, 21, 1) T3].
(** The cells behind their doorways. *)
Definition beyond (s : shipped) : list cell := flat_map (fun r => map fst (doorways r)) (four_rooms s).
(** The blocks that are to be seen: those of the rooms, and red plates in the cells behind the doorways. *)
Definition test_block (tm : texman) (s : shipped) (xyz : Z * Z * Z) (tex : list Z) : Prop :=
  (exists r, In r (four_rooms s) /\ has_block tm r xyz tex) \/
  (exists d k, In d (beyond s) /\ on_plate d xyz /\ numbered tm red k /\ tex = repeat k 6).
(** The same with colours in bytes. *)
Definition test_colour (s : shipped) (xyz rgb : Z * Z * Z) : Prop :=
  (exists r, In r (four_rooms s) /\ coloured_block r xyz rgb) \/
  (exists d, In d (beyond s) /\ on_plate d xyz /\ rgb = (255, 0, 0)).
(** The entities: those of the four rooms, a box of grenades for every doorway. *)
Definition test_entities (hue : vec -> Z * Z * Z) (s : shipped) (es : list entity) : Prop :=
  exists ess boxes, es = List.concat ess ++ boxes /\ Forall2 (fun r l => furniture hue (0%nat, r) l) (four_rooms s) ess /\
    Forall2 (grenade_at hue) (beyond s) boxes.
(** The voxel file shows the test of a class: no place has two voxels, and there is a voxel, coloured by
    the entry of the palette one below its index, exactly where a block of that colour is to be seen. *)
Definition vox_of_test (s : shipped) (bs : list Z) : Prop :=
  exists f, info_read bs = Ok f /\ NoDup (map fst (vf_voxels f)) /\
    forall xyz r g b, (exists c, In (xyz, c) (vf_voxels f) /\ 1 <= c /\ nth_error (vf_palette f) (Z.to_nat (c - 1)) = Some (r, g, b, 255)) <->
      test_colour s xyz (r, g, b).
(** The map shows it: read back, it has the settings of the parsed map, the blocks and the entities of the test, and a sun. *)
Definition map_of_test (hue : vec -> Z * Z * Z) (m : rmap) (s : shipped) (tm : texman) (bs : list Z) : Prop :=
  exists m' es sun ents, read_rest bs = Ok (m', []) /\ same_settings m m' /\
    (forall x y z tex, in_world 256 (x, y, z) -> (world_lookup 8 m' x y z = Some tex <-> test_block tm s (x, y, z) tex)) /\
    ents = m_ents m ++ es ++ [sun] /\ test_entities hue s es /\ is_sun sun /\ Forall2 same_entity ents (m_ents m').
(** What is written for one class. *)
Definition test_output (magica redeclipse : bool) (hue : vec -> Z * Z * Z) (m : rmap) (tm : texman) (s : shipped) (f : option (list Z) * option (list Z)) : Prop :=
  (if magica then exists bs, fst f = Some bs /\ vox_of_test s bs else fst f = None) /\
  (if redeclipse then exists bs, snd f = Some bs /\ map_of_test hue m s tm bs else snd f = None).
