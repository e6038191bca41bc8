(** Model of redeclipse/cli/magicavoxel_info.py: the text printed for a voxel file.  The reading of the
    file is info_read of VoxFileModel.v; the message logged when it is retried is not modelled. *)
From Verif Require Import Py VecModel VoxelModel TexModel VoxFileModel.
Local Open Scope string_scope.
Local Open Scope Z_scope.

(** magicavoxel_info.py:24-26 — [VoxelWorld()] has the default size, 2**7 (voxel/__init__.py:15). *)
Definition info_world (f : voxfile) : world Z :=
  fold_left (fun w q => let '(x, y, z, c) := q in set_point w (I x) (I y) (I z) c) (vf_voxels f) (new_world 128).
(** The coordinates of a file are ints, and so are the boundaries. *)
Definition int_of (n : num) : Z := match n with I z => z | H h => h / 2 end.
(** magicavoxel_info.py:27. *)
Definition range_text (axis : string) (lo hi : Z) : string := axis ++ " in [" ++ decimal lo ++ ", " ++ decimal hi ++ "]".
Definition boundary_line (xmin xmax ymin ymax zmin zmax : Z) : string :=
  "Model boundaries: " ++ range_text "x" xmin xmax ++ "; " ++ range_text "y" ymin ymax ++ "; " ++ range_text "z" zmin zmax.
(** magicavoxel_info.py:30-32. *)
Definition colour_line (idx r g b : Z) : string :=
  "C[" ++ decimal idx ++ "] = (" ++ decimal r ++ ", " ++ decimal g ++ ", " ++ decimal b ++ ")".
Fixpoint colour_lines (idx : Z) (l : list (Z * Z * Z * Z)) : list string :=
  match l with
  | [] => []
  | (r, g, b, _) :: rest =>
      ((if (r =? 0) && (g =? 0) && (b =? 0) then [] else [colour_line idx r g b]) ++ colour_lines (idx + 1) rest)%list
  end.
(** magicavoxel_info.py:42-49 — the line of one x. *)
Definition row (w : world Z) (x z : Z) (ys : list Z) : string :=
  "y " ++ fold_right (fun y rest => (if get_point w (I x) (I y) (I z) then "#" else " ") ++ rest) "" ys.
(** magicavoxel_info.py:34-50 — the lines of one z. *)
Definition title (z : Z) : string := "==== z = " ++ decimal z ++ " ====".
Definition layer (w : world Z) (xs ys : list Z) (z : Z) : list string :=
  ([title z; "0-xxxxxxxx+"; "-         "] ++ map (fun x => row w x z ys) xs ++ ["+"])%list.
(** magicavoxel_info.py:22-50 — everything printed for a file of that name. *)
Definition info_lines (name : string) (f : voxfile) : list string :=
  let w := info_world f in
  let '(x0, x1, y0, y1) := (int_of (w_xmin w), int_of (w_xmax w), int_of (w_ymin w), int_of (w_ymax w)) in
  let '(z0, z1) := (int_of (w_zmin w), int_of (w_zmax w)) in
  ([("Model: " ++ name)%string; boundary_line x0 x1 y0 y1 z0 z1; "Pallette"] ++ colour_lines 0 (vf_palette f) ++
   List.concat (map (layer w (zrange x0 (x1 + 1)) (zrange y0 (y1 + 1))) (zrange z0 (z1 + 1))))%list.
Definition info_text (name : string) (f : voxfile) : string :=
  fold_right (fun line rest => line ++ nl ++ rest) "" (info_lines name f).
(** magicavoxel_info.py:14-50 — the program, given the bytes of a file of that name (without its extension). *)
Definition info_main (name : string) (bs : list Z) : res string := let! f := info_read bs in Ok (info_text name f).
