(** Vocabulary for the voxel file properties. *)
From Coq Require Import SpecFloat.
From Verif Require Import Py VecModel VoxelModel TexModel VoxFileModel.
Local Open Scope Z_scope.

Definition quad : Type := Z * Z * Z * Z.
(** A position all of whose coordinates lie in 0..255. *)
Definition in_bytes (k : key) : Prop :=
  let '(x, y, z) := k in 0 <= halves x <= 510 /\ 0 <= halves y <= 510 /\ 0 <= halves z <= 510.
(** The coordinate rounded down. *)
Definition whole (n : num) : Z := halves n / 2.
(** The entry of a file for a voxel: its cell and its first texture plus one. *)
Definition voxel_is (e : key * list Z) (q : quad) : Prop :=
  let '(x, y, z) := fst e in exists t r, snd e = t :: r /\ -1 <= t < 255 /\ q = (whole x, whole y, whole z, t + 1).
(** The byte of a colour component: 255 times it.  The components in use are whole numbers,
    bytes divided by 255 and tenths. *)
Definition shade (c : comp) (k : Z) : Prop :=
  0 <= k < 256 /\
  match c with
  | CInt z => k = 255 * z
  | CFl f => (forall j, 0 <= j <= 255 -> f = int_div j 255 -> k = j) /\
             (forall n, 0 <= n <= 10 -> f = int_div n 10 -> k = 255 * n / 10)
  end.
(** The entry of a palette for a texture: black for the sky, grey for the default one, the
    colour itself for a colour. *)
Definition colour_is (t : tex) (q : quad) : Prop :=
  match t with
  | Sky => q = (0, 0, 0, 255)
  | Default => q = (127, 127, 127, 255)
  | Colour _ r g b => exists r' g' b', shade r r' /\ shade g g' /\ shade b b' /\ q = (r', g', b', 255)
  | _ => False
  end.
Definition black : quad := (0, 0, 0, 255).
(** A 4-byte little-endian number. *)
Definition four (a b c d : Z) : Z := a + 256 * b + 65536 * c + 16777216 * d.
(** [n] bytes of a file from place [i]. *)
Definition slice {A} (i n : nat) (l : list A) : list A := firstn n (skipn i l).
