(** Computed facts about the shipped voxel files. *)
From Verif Require Import Py VoxelModel UpmModel VoxFileModel ShippedVox ShippedModel.
Local Open Scope Z_scope.

Definition byte (k : Z) : bool := (0 <=? k) && (k <? 256).
Definition voxel_fits (v : voxfile) (q : Z * Z * Z * Z) : bool :=
  let '(x, y, z, c) := q in let '(a, b, h) := vf_size v in
  (0 <=? x) && (x <? a) && (0 <=? y) && (y <? b) && (0 <=? z) && (z <? h) && (0 <=? c) &&
  match nth_error (vf_palette v) (Z.to_nat c) with Some (r, g, b, _) => byte r && byte g && byte b | None => false end.
Definition file_fits (f : list Z) : bool :=
  match read_file f with
  | Ok v => match vf_voxels v with [] => false | l => forallb (voxel_fits v) l end
  | Err _ => false
  end.
Definition cells_eqb (a b : list cell) : bool := (Nat.eqb (List.length a) (List.length b)) && forallb (fun p => cell_eqb (fst p) (snd p)) (combine a b).
Definition class_fits (s : shipped) : bool :=
  match read_file (s_file s) with
  | Ok v => match vf_voxels v with
            | [] => false
            | l => forallb (voxel_fits v) l && cells_eqb (rc_cells (s_class s) []) (blocks l)
            end
  | Err _ => false
  end.
(** Every file but one is in order. *)
Lemma files_fit : forallb (fun nf => String.eqb (fst nf) "egypt/water_square.vox" || file_fits (snd nf)) shipped_files = true.
Proof. vm_compute. reflexivity. Qed.
(** The file of every class is in order, and the cells listed for the class are those of the file. *)
Lemma classes_fit : forallb (fun s => class_fits s) shipped_rooms = true.
Proof. vm_compute. reflexivity. Qed.
Lemma water_unreadable : read_file vox_egypt_water_square = Err UserExn.
Proof. vm_compute. reflexivity. Qed.
