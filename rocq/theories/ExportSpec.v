(** Vocabulary for the voxel file exported from a generated map. *)
From Verif Require Import Py VecModel VoxelModel VoxelSpec UpmModel UpmSpec KitModel KitSpec RoomModel MagicaModel RoomSpec TexModel TexSpec VoxFileModel
  ShippedModel ShippedSpec GenModel GenSpec.
Local Open Scope Z_scope.

(** The colour, in bytes, that a class facing [t] gives to a voxel of colour [rgb]. *)
Definition shown (k : painter) (t : turn) (rgb : Z * Z * Z) : Z * Z * Z :=
  match k with
  | Plain => rgb
  | Team =>
      if pos_eqb rgb (255, 0, 0)
      then match t with T0 => (255, 255, 0) | T1 => (0, 0, 255) | T2 => (0, 255, 0) | T3 => (255, 0, 0) end
      else rgb
  | Mapped => if pos_eqb rgb (50, 50, 50) then (229, 229, 229) else if pos_eqb rgb (255, 255, 0) then (255, 0, 0) else (25, 25, 25)
  end.
(** The room has a block of that colour at [xyz]: a voxel of its file in its frame. *)
Definition coloured_block (r : room) (xyz rgb : Z * Z * Z) : Prop :=
  exists s v q a red green blue alpha, In s shipped_rooms /\ s_class s = r_cls r /\ read_file (s_file s) = Ok v /\
    voxel_colour (vf_voxels v) q = Some a /\ frame (r_pos r) (facing (r_turn r)) q = xyz /\
    nth_error (vf_palette v) (Z.to_nat a) = Some (red, green, blue, alpha) /\ rgb = shown (s_paint s) (r_turn r) (red, green, blue).
(** The file shows the rooms: no place has two voxels, and there is a voxel, coloured by the entry of
    the palette one below its index, exactly where some room has a block of that colour. *)
Definition depicts (f : voxfile) (rooms : list obj) : Prop :=
  NoDup (map fst (vf_voxels f)) /\
  forall xyz r g b, (exists c, In (xyz, c) (vf_voxels f) /\ 1 <= c /\ nth_error (vf_palette f) (Z.to_nat (c - 1)) = Some (r, g, b, 255)) <->
    exists ob, In ob rooms /\ coloured_block (snd ob) xyz (r, g, b).
(** All blocks of the rooms lie at coordinates below 256. *)
Definition all_inside (rooms : list obj) : Prop :=
  forall ob xyz rgb, In ob rooms -> coloured_block (snd ob) xyz rgb -> in_world 256 xyz.
(** The textures in use so far are few, and have colours that are bytes. *)
Definition exportable (tm : texman) : Prop :=
  (List.length (tm_atlas tm) <= 200)%nat /\
  Forall (fun t => match t with
                   | Sky | Default => True
                   | Colour _ r g b => Forall (fun c => exists z, n255 c = Ok z /\ 0 <= z < 256) [r; g; b]
                   | _ => False
                   end) (map snd (tm_atlas tm)).
