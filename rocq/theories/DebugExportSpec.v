(** Vocabulary for the voxel file exported in debug mode. *)
From Verif Require Import Py VoxelModel UpmModel UpmSpec VoxFileModel GenSpec DebugSpec ExportSpec.
Local Open Scope Z_scope.

(** A layout with its open doors marked has a block of that colour: of a room, or of the red plate of a marker. *)
Definition marked_block (st : upm) (xyz rgb : Z * Z * Z) : Prop :=
  (exists ob, In ob (u_rooms st) /\ coloured_block (snd ob) xyz rgb) \/
  (exists d, In d (door_cells st) /\ on_plate d xyz /\ rgb = (255, 0, 0)).
(** The file shows it: no place has two voxels, and there is a voxel, coloured by the entry of the palette one below its
    index, exactly where there is a block of that colour. *)
Definition depicts_marked (f : voxfile) (st : upm) : Prop :=
  NoDup (map fst (vf_voxels f)) /\
  forall xyz r g b, (exists c, In (xyz, c) (vf_voxels f) /\ 1 <= c /\ nth_error (vf_palette f) (Z.to_nat (c - 1)) = Some (r, g, b, 255)) <->
    marked_block st xyz (r, g, b).
