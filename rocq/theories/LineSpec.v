(** Vocabulary for the slanted line properties, independent of the line code. *)
From Verif Require Import Py VecModel VecSpec VoxelModel VoxelSpec UpmModel UpmSpec KitModel KitSpec.
Local Open Scope Z_scope.

Definition px (p : cell) : Z := fst (fst p).
Definition py (p : cell) : Z := snd (fst p).
Definition pz (p : cell) : Z := snd p.

(** From [u] to [v] is one step on the way from [s] to [e]: each coordinate stays or moves one
    towards the end, and at least one moves. *)
Definition onward (s e u v : cell) : Prop :=
  let go (f : cell -> Z) := f v = f u \/ f v = f u + Z.sgn (f e - f s) in
  go px /\ go py /\ go pz /\ u <> v.

(** The points lead from [a] to the end [e] by such steps. *)
Inductive leads_on (s e : cell) : cell -> list cell -> Prop :=
| lead_end : leads_on s e e [e]
| lead_step a b l : onward s e a b -> leads_on s e b l -> leads_on s e a (a :: l).

(** The longest of the three extents: an unbroken line has at least that many steps. *)
Definition extent (s e : cell) : Z :=
  Z.max (Z.abs (px e - px s)) (Z.max (Z.abs (py e - py s)) (Z.abs (pz e - pz s))).

(** Seen along the third axis, [p] is at most half a voxel from the straight line from [s] to
    [e], measured along the shorter of the two extents. *)
Definition half_off (a b : cell -> Z) (s e p : cell) : Prop :=
  let A := a e - a s in
  let B := b e - b s in
  2 * Z.abs (A * (b p - b s) - B * (a p - a s)) <= Z.max (Z.abs A) (Z.abs B).
Definition hugs (s e p : cell) : Prop := half_off px py s e p /\ half_off px pz s e p.

(** An unbroken line: from start to end, no longer than needed, close to the straight line. *)
Definition straight_line (s e : cell) (l : list cell) : Prop :=
  leads_on s e s l /\ Z.of_nat (List.length l) = extent s e + 1 /\ forall p, In p l -> hugs s e p.

(** The vectors are, one by one, these voxel positions. *)
Definition are_voxels (pts : list vec) (l : list cell) : Prop :=
  Forall2 (fun v q => vc v = Fine /\ voxel_at v q) pts l.

Definition plus (a b : cell) : cell := (px a + px b, py a + py b, pz a + pz b).
(** What the room calls [d] points this way in the world when the room faces [c]. *)
Definition ahead (c : compass) (s e : cell) : cell := cell_turn c (px e - px s, py e - py s, pz e - pz s).

(** In the direction it points in the world the line gains x, and of its two other extents at
    most one is longer than its x extent, or both are equally long. *)
Definition drawable (d : cell) : Prop :=
  0 < px d /\ (Z.abs (py d) <= px d \/ Z.abs (pz d) <= px d \/ Z.abs (py d) = Z.abs (pz d)).
