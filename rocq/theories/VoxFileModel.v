(** Model of redeclipse/magicavoxel/writer.py and reader.py.

    Simplifications.  A file is the list of its bytes.  What is left in the file when the
    writer raises is not modelled.  kaitaistruct: read_u1/read_u4le raise EOFError when the
    input is too short, ensure_fixed_contents raises Exception when the bytes differ (also at
    the end of the input).  A voxel value is the list of textures of the cube. *)
From Coq Require Import SpecFloat.
From Verif Require Import Py VecModel VoxelModel CodecModel UpmModel KitModel TexModel.
Local Open Scope Z_scope.

(** ** The writer *)
(** [int(x)] of a coordinate. *)
Definition num_int (n : num) : Z := match n with I z => z | H h => Z.quot h 2 end.
(** basetex.py — the attributes r, g, b of a texture object. *)
Definition tex_rgb (t : tex) : res (comp * comp * comp) :=
  match t with
  | Sky => Ok (CInt 0, CInt 0, CInt 0)
  | Default => Ok (tenths 5, tenths 5, tenths 5)
  | Colour _ r g b => Ok (r, g, b)
  | _ => Err AttributeError
  end.
(** writer.py:38-39 — n. *)
Definition n255 (c : comp) : res Z :=
  match c with CInt z => Ok (255 * z) | CFl f => fl_trunc (fl_mul (fl_int 255) f) end.
(** writer.py:28 — outside of the range of a byte. *)
Definition skipped (k : key) : bool :=
  let '(x, y, z) := k in
  (510 <? halves x) || (510 <? halves y) || (510 <? halves z) || (halves x <? 0) || (halves y <? 0) || (halves z <? 0).
(** writer.py:30. *)
Definition w_voxel (e : key * list Z) : res (list Z) :=
  let '(x, y, z) := fst e in
  if skipped (fst e) then Ok []
  else match snd e with
       | [] => Err IndexError
       | t :: _ => let! a := w_u8 (num_int x) in let! b := w_u8 (num_int y) in let! c := w_u8 (num_int z) in
                   let! d := w_u8 (t + 1) in Ok (a ++ b ++ c ++ d)
       end.
(** writer.py:41-42. *)
Definition w_colour (t : tex) : res (list Z) :=
  let! rgb := tex_rgb t in let '(r, g, b) := rgb in
  let! r' := n255 r in let! g' := n255 g in let! b' := n255 b in
  let! a := w_u8 r' in let! b := w_u8 g' in let! c := w_u8 b' in Ok (a ++ b ++ c ++ [255]).

Definition TAG_VOX : list Z := [86; 79; 88; 32].
Definition TAG_MAIN : list Z := [77; 65; 73; 78].
Definition TAG_SIZE : list Z := [83; 73; 90; 69].
Definition TAG_XYZI : list Z := [88; 89; 90; 73].
Definition TAG_RGBA : list Z := [82; 71; 66; 65].

(** writer.py:4-45 — to_magicavoxel. *)
Definition vox_write (w : world (list Z)) (atlas : list (Z * tex)) : res (list Z) :=
  let len := Z.of_nat (List.length (w_map w)) in
  let cs := 4 * (1 + len) in
  let! i1 := w_i32 150 in let! i2 := w_i32 0 in let! i3 := w_i32 (cs + 36 + 1024) in
  let! i4 := w_i32 12 in let! i5 := w_i32 0 in
  let! x := w_i32 (num_int (w_xmax w)) in let! y := w_i32 (num_int (w_ymax w)) in let! z := w_i32 (num_int (w_zmax w)) in
  let! i6 := w_i32 cs in let! i7 := w_i32 0 in let! i8 := w_i32 len in
  let! voxels := wcat w_voxel (w_map w) in
  let! i9 := w_i32 1024 in let! i10 := w_i32 0 in
  let! colours := wcat w_colour (map snd atlas) in
  let filler := List.concat (repeat [0; 0; 0; 255] (255 - List.length atlas)) in
  Ok (TAG_VOX ++ i1 ++ TAG_MAIN ++ i2 ++ i3 ++ TAG_SIZE ++ i4 ++ i5 ++ x ++ y ++ z ++
      TAG_XYZI ++ i6 ++ i7 ++ i8 ++ voxels ++ TAG_RGBA ++ i9 ++ i10 ++ colours ++ filler).

(** ** The reader *)
Definition k_take (n : nat) : P (list Z) := fun b =>
  if Nat.ltb (List.length (firstn n b)) n then Err EOFError else Ok (firstn n b, skipn n b).
Definition k_u1 : P Z := do l <- k_take 1;; pret (unle l).
Definition k_u4 : P Z := do l <- k_take 4;; pret (unle l).
Definition k_fixed (tag : list Z) : P unit := fun b =>
  if bytes_eqb (firstn 4 b) tag then Ok (tt, skipn 4 b) else Err UserExn.
(** reader.py:69-78 and 45-54 — Voxels and Colour: four bytes. *)
Definition k_quad : P (Z * Z * Z * Z) :=
  do a <- k_u1;; do b <- k_u1;; do c <- k_u1;; do d <- k_u1;; pret (a, b, c, d).

Record voxfile := VF { vf_size : Z * Z * Z; vf_voxels : list (Z * Z * Z * Z); vf_palette : list (Z * Z * Z * Z) }.
(** reader.py:14-91 — Magicavoxel.from_file with SIZE colours (default 256). *)
Definition vox_read (size : nat) (b : list Z) : res voxfile :=
  let p : P voxfile :=
    do _ <- k_fixed TAG_VOX;; do _ <- k_u4;; do _ <- k_fixed TAG_MAIN;;
    do chunk <- k_u4;; do _ <- k_u4;; do _ <- p_repeat (Z.to_nat chunk) k_u1;;
    do _ <- k_fixed TAG_SIZE;; do _ <- k_u4;; do _ <- k_u4;;
    do x <- k_u4;; do y <- k_u4;; do z <- k_u4;;
    do _ <- k_fixed TAG_XYZI;; do _ <- k_u4;; do _ <- k_u4;;
    do num <- k_u4;; do voxels <- p_repeat (Z.to_nat num) k_quad;;
    do _ <- k_fixed TAG_RGBA;; do _ <- k_u4;; do _ <- k_u4;;
    do palette <- p_repeat size k_quad;;
    pret (VF (x, y, z) voxels palette) in
  let! r := p b in Ok (fst r).

(** magicavoxel_info.py:15-20 — the import that retries with 255 colours. *)
Definition info_read (b : list Z) : res voxfile :=
  match vox_read 256 b with Ok f => Ok f | Err _ => vox_read 255 b end.

(** magica.py:38-39 and 98 — the colour components of the palette entry with a voxel's index. *)
Definition room_colour (f : voxfile) (c : Z) : res (comp * comp * comp) :=
  match (if c <? 0 then None else nth_error (vf_palette f) (Z.to_nat c)) with
  | Some (r, g, b, _) => Ok (CFl (int_div r 255), CFl (int_div g 255), CFl (int_div b 255))
  | None => Err KeyError
  end.
