(** Vocabulary for the face properties: a cube has eight corners; each of its twelve edges
    is a byte whose low half says where the edge starts and whose high half where it ends. *)
From Verif Require Import Py.
Local Open Scope Z_scope.

(** A corner: on the high side (true) or the low side of x, y and z. *)
Definition corner : Type := bool * bool * bool.
Definition corners : list corner :=
  [(false, false, false); (true, false, false); (false, true, false); (true, true, false);
   (false, false, true); (true, false, true); (false, true, true); (true, true, true)].
Definition side (axis : nat) (c : corner) : bool :=
  let '(x, y, z) := c in match axis with O => x | S O => y | _ => z end.
Definition b2n (b : bool) : nat := if b then 1%nat else 0%nat.
(** The edge along an axis through a corner; the other two axes follow cyclically. *)
Definition edge_at (axis : nat) (c : corner) : nat :=
  (4 * axis + 2 * b2n (side ((axis + 2) mod 3) c) + b2n (side ((axis + 1) mod 3) c))%nat.
(** Where the edge has the corner. *)
Definition along (edges : list Z) (axis : nat) (c : corner) : Z :=
  if side axis c then nth (edge_at axis c) edges 0 / 16 else nth (edge_at axis c) edges 0 mod 16.
(** The vertex of a corner. *)
Definition vertex (edges : list Z) (c : corner) : Z * Z * Z := (along edges 0 c, along edges 1 c, along edges 2 c).

(** Two corners at the ends of one edge. *)
Definition adjacent (c d : corner) : Prop :=
  exists axis, (axis < 3)%nat /\ side axis c <> side axis d /\ forall a, (a < 3)%nat -> a <> axis -> side a c = side a d.
(** The four corners of a face, in order around it. *)
Definition goes_round (orient : Z) (cs : list corner) : Prop :=
  (forall c, In c cs <-> side (Z.to_nat (orient / 2)) c = (orient mod 2 =? 1)) /\
  exists p q r s, cs = [p; q; r; s] /\ NoDup cs /\ adjacent p q /\ adjacent q r /\ adjacent r s /\ adjacent s p.

Definition minus (a b : Z * Z * Z) : Z * Z * Z :=
  let '(x, y, z) := a in let '(x', y', z') := b in (x - x', y - y', z - z').
Definition cross (a b : Z * Z * Z) : Z * Z * Z :=
  let '(x, y, z) := a in let '(x', y', z') := b in (y * z' - z * y', z * x' - x * z', x * y' - y * x').
(** The direction that points out of the cube at a face. *)
Definition outward (orient : Z) : Z * Z * Z :=
  let d := if orient mod 2 =? 1 then 1 else -1 in
  if orient / 2 =? 0 then (d, 0, 0) else if orient / 2 =? 1 then (0, d, 0) else (0, 0, d).
Definition scale (k : Z) (a : Z * Z * Z) : Z * Z * Z := let '(x, y, z) := a in (k * x, k * y, k * z).
