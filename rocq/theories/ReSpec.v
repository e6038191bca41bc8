(** Vocabulary for the properties of the vector classes of redeclipse/vector/re.py. *)
From Coq Require Import QArith.
From Verif Require Import Py ReModel.
Local Open Scope Z_scope.

(** The components of a vector are whole numbers. *)
Definition whole (v : triple) : Prop := exists x y z : Z, (t_x v == inject_Z x /\ t_y v == inject_Z y /\ t_z v == inject_Z z)%Q.
(** Component by component. *)
Fixpoint zip (f : Z -> Z -> Z) (l l' : list Z) : list Z :=
  match l, l' with a :: r, b :: r' => f a b :: zip f r r' | _, _ => [] end.
(** Both lie on one line through the origin. *)
Definition collinear (l l' : list Z) : Prop := exists k m, (k <> 0 \/ m <> 0) /\ map (Z.mul k) l = map (Z.mul m) l'.
(** The point is in the cube with this corner and side. *)
Definition in_cube (corner : list Z) (s : Z) (p : Z * Z * Z) : Prop :=
  let '(x, y, z) := p in exists a b c, corner = [a; b; c] /\ a <= x < a + s /\ b <= y < b + s /\ c <= z < c + s.
(** [z] is the rational number [q] without its fraction. *)
Definition cut (q : Q) (z : Z) : Prop :=
  ((0 <= q)%Q -> (inject_Z z <= q)%Q /\ (q < inject_Z (z + 1))%Q) /\ ((q <= 0)%Q -> (q <= inject_Z z)%Q /\ (inject_Z (z - 1) < q)%Q).
