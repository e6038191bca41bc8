(** Model of the face geometry of objects.py (cube.genfaceverts).

    A corner vertex is a triple of coordinates (an ivec3, vector/re.py:62-76).  Reading an
    edge that is not there raises IndexError. *)
From Verif Require Import Py.
Local Open Scope Z_scope.

(** objects.py:13-22 — the axis of a face, its side, and the face on the other side. *)
Definition dimension (orient : Z) : Z := Z.shiftr orient 1.
Definition dimcoord (orient : Z) : Z := Z.land orient 1.
Definition opposite (orient : Z) : Z := Z.lxor orient 1.

(** [edges\[i\] & 0xF] and [edges\[i\] >> 4], as in objects.py:317-451. *)
Definition lo (edges : list Z) (i : nat) : res Z :=
  match nth_error edges i with Some e => Ok (Z.land e 15) | None => Err IndexError end.
Definition hi (edges : list Z) (i : nat) : res Z :=
  match nth_error edges i with Some e => Ok (Z.shiftr e 4) | None => Err IndexError end.
(** One vertex: [ivec3(a, b, c)]. *)
Definition vtx (a b c : res Z) : res (Z * Z * Z) := let! x := a in let! y := b in let! z := c in Ok (x, y, z).
Definition four_vtx (a b c d : res (Z * Z * Z)) : res (option (list (Z * Z * Z))) :=
  let! p := a in let! q := b in let! r := c in let! s := d in Ok (Some [p; q; r; s]).

(** objects.py:314-452 — genfaceverts; any other number falls off the end and gives None. *)
Definition genfaceverts (edges : list Z) (orient : Z) : res (option (list (Z * Z * Z))) :=
  if orient =? 0 then
    four_vtx (vtx (lo edges (0 + 2 + 1)) (hi edges (4 + 0 + 1)) (hi edges (8 + 2 + 0)))
             (vtx (lo edges (0 + 0 + 1)) (hi edges (4 + 0 + 0)) (lo edges (8 + 2 + 0)))
             (vtx (lo edges (0 + 0 + 0)) (lo edges (4 + 0 + 0)) (lo edges (8 + 0 + 0)))
             (vtx (lo edges (0 + 2 + 0)) (lo edges (4 + 0 + 1)) (hi edges (8 + 0 + 0)))
  else if orient =? 1 then
    four_vtx (vtx (hi edges (0 + 2 + 1)) (hi edges (4 + 2 + 1)) (hi edges (8 + 2 + 1)))
             (vtx (hi edges (0 + 2 + 0)) (lo edges (4 + 2 + 1)) (hi edges (8 + 0 + 1)))
             (vtx (hi edges (0 + 0 + 0)) (lo edges (4 + 2 + 0)) (lo edges (8 + 0 + 1)))
             (vtx (hi edges (0 + 0 + 1)) (hi edges (4 + 2 + 0)) (lo edges (8 + 2 + 1)))
  else if orient =? 2 then
    four_vtx (vtx (hi edges (0 + 2 + 0)) (lo edges (4 + 2 + 1)) (hi edges (8 + 0 + 1)))
             (vtx (lo edges (0 + 2 + 0)) (lo edges (4 + 0 + 1)) (hi edges (8 + 0 + 0)))
             (vtx (lo edges (0 + 0 + 0)) (lo edges (4 + 0 + 0)) (lo edges (8 + 0 + 0)))
             (vtx (hi edges (0 + 0 + 0)) (lo edges (4 + 2 + 0)) (lo edges (8 + 0 + 1)))
  else if orient =? 3 then
    four_vtx (vtx (lo edges (0 + 0 + 1)) (hi edges (4 + 0 + 0)) (lo edges (8 + 2 + 0)))
             (vtx (lo edges (0 + 2 + 1)) (hi edges (4 + 0 + 1)) (hi edges (8 + 2 + 0)))
             (vtx (hi edges (0 + 2 + 1)) (hi edges (4 + 2 + 1)) (hi edges (8 + 2 + 1)))
             (vtx (hi edges (0 + 0 + 1)) (hi edges (4 + 2 + 0)) (lo edges (8 + 2 + 1)))
  else if orient =? 4 then
    four_vtx (vtx (lo edges (0 + 0 + 0)) (lo edges (4 + 0 + 0)) (lo edges (8 + 0 + 0)))
             (vtx (lo edges (0 + 0 + 1)) (hi edges (4 + 0 + 0)) (lo edges (8 + 2 + 0)))
             (vtx (hi edges (0 + 0 + 1)) (hi edges (4 + 2 + 0)) (lo edges (8 + 2 + 1)))
             (vtx (hi edges (0 + 0 + 0)) (lo edges (4 + 2 + 0)) (lo edges (8 + 0 + 1)))
  else if orient =? 5 then
    four_vtx (vtx (lo edges (0 + 2 + 0)) (lo edges (4 + 0 + 1)) (hi edges (8 + 0 + 0)))
             (vtx (hi edges (0 + 2 + 0)) (lo edges (4 + 2 + 1)) (hi edges (8 + 0 + 1)))
             (vtx (hi edges (0 + 2 + 1)) (hi edges (4 + 2 + 1)) (hi edges (8 + 2 + 1)))
             (vtx (lo edges (0 + 2 + 1)) (hi edges (4 + 0 + 1)) (hi edges (8 + 2 + 0)))
  else Ok None.

(** objects.py:189 — the edges of a new cube. *)
Definition new_edges : list Z := repeat 128 12.
