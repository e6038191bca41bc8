(** Small vocabulary for stating the vector properties, independent of the
    operations in VecModel.v. *)
From Verif Require Import Py VecModel.

(** Twice the stored coordinates (an int 3 and a float 3.0 both give 6). *)
Definition coords2 (v : vec) : Z * Z * Z := (halves (vx v), halves (vy v), halves (vz v)).

(** Twice the position in fine units: a coarse cell is eight fine units wide. *)
Definition fpos2 (v : vec) : Z * Z * Z :=
  let '(x, y, z) := coords2 v in
  match vc v with Coarse => (8 * x, 8 * y, 8 * z) | _ => (x, y, z) end.

(** A vector that has a position (fine or coarse, not a plain BaseVector). *)
Definition positional (v : vec) : Prop := vc v <> Base.

Definition t3add (a b : Z * Z * Z) : Z * Z * Z :=
  let '(x, y, z) := a in let '(x', y', z') := b in (x + x', y + y', z + z').
Definition t3sub (a b : Z * Z * Z) : Z * Z * Z :=
  let '(x, y, z) := a in let '(x', y', z') := b in (x - x', y - y', z - z').

(** Cosine and sine of k quarter turns. *)
Definition cosq (k : Z) : Z :=
  if k mod 4 =? 0 then 1 else if k mod 4 =? 2 then -1 else 0.
Definition sinq (k : Z) : Z :=
  if k mod 4 =? 1 then 1 else if k mod 4 =? 3 then -1 else 0.

(** [r] is [v] turned by k quarter turns counter-clockwise about the z axis. *)
Definition is_turn (k : Z) (v r : vec) : Prop :=
  vc r = vc v /\
  halves (vx r) = cosq k * halves (vx v) - sinq k * halves (vy v) /\
  halves (vy r) = sinq k * halves (vx v) + cosq k * halves (vy v) /\
  halves (vz r) = halves (vz v).

(** Four times the squared distance between two points of the same class. *)
Definition dist2 (a b : vec) : Z :=
  (halves (vx a) - halves (vx b)) ^ 2 + (halves (vy a) - halves (vy b)) ^ 2
  + (halves (vz a) - halves (vz b)) ^ 2.

(** The four compass directions as unit steps (x, y). *)
Inductive compass := CE | CN | CW | CS.
Definition compass_angle (c : compass) : Z :=
  match c with CE => 0 | CN => 90 | CW => 180 | CS => 270 end.
(** [o] is, numerically, the coarse unit vector in direction [c]. *)
Definition points_to (o : vec) (c : compass) : Prop :=
  vc o <> Base /\
  fpos2 o = match c with
            | CE => (16, 0, 0) | CN => (0, 16, 0) | CW => (-16, 0, 0) | CS => (0, -16, 0)
            end.
