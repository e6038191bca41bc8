(** Vocabulary for what the information tool prints. *)
From Coq Require Import Ascii.
From Verif Require Import Py VecModel VoxelModel TexModel TexSpec VoxFileModel.
Local Open Scope string_scope.
Local Open Scope Z_scope.

Definition lines (text : string) : list string := lines_from "" text.
(** The text says that the model lies between those coordinates. *)
Definition says_bounds (text : string) (x0 x1 y0 y1 z0 z1 : Z) : Prop :=
  nth_error (lines text) 1 = Some ("Model boundaries: x in [" ++ decimal x0 ++ ", " ++ decimal x1 ++ "]; y in [" ++ decimal y0 ++ ", " ++ decimal y1 ++
                                   "]; z in [" ++ decimal z0 ++ ", " ++ decimal z1 ++ "]").
(** The text has a mark for the place: in the picture of layer z, in the line for x and the column for
    y, counted from the least coordinates given above. *)
Definition marks (text : string) (x y z : Z) : Prop :=
  exists x0 x1 y0 y1 z0 z1 i line, says_bounds text x0 x1 y0 y1 z0 z1 /\ nth_error (lines text) i = Some ("==== z = " ++ decimal z ++ " ====") /\
    x0 <= x <= x1 /\ y0 <= y <= y1 /\ nth_error (lines text) (i + 3 + Z.to_nat (x - x0)) = Some line /\ String.get (2 + Z.to_nat (y - y0)) line = Some "#"%char.
(** The text gives a colour. *)
Definition lists_colour (text : string) (idx r g b : Z) : Prop :=
  In ("C[" ++ decimal idx ++ "] = (" ++ decimal r ++ ", " ++ decimal g ++ ", " ++ decimal b ++ ")") (lines text).
(** The coordinates on one axis, and being the least or the greatest of some. *)
Definition on_axis (axis : Z * Z * Z -> Z) (f : voxfile) : list Z := map (fun q => axis (fst q)) (vf_voxels f).
Definition ax (p : Z * Z * Z) : Z := let '(x, _, _) := p in x.
Definition ay (p : Z * Z * Z) : Z := let '(_, y, _) := p in y.
Definition az (p : Z * Z * Z) : Z := let '(_, _, z) := p in z.
Definition least (v : Z) (l : list Z) : Prop := In v l /\ forall c, In c l -> v <= c.
Definition greatest (v : Z) (l : list Z) : Prop := In v l /\ forall c, In c l -> c <= v.
(** All numbers of the file are bytes. *)
Definition bytes_file (f : voxfile) : Prop :=
  (forall x y z c, In (x, y, z, c) (vf_voxels f) -> 0 <= x < 256 /\ 0 <= y < 256 /\ 0 <= z < 256 /\ 0 <= c < 256) /\
  forall r g b a, In (r, g, b, a) (vf_palette f) -> 0 <= r < 256 /\ 0 <= g < 256 /\ 0 <= b < 256 /\ 0 <= a < 256.
