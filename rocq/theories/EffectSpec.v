(** Vocabulary for the properties of the aftereffects. *)
From Coq Require Import QArith.
From Verif Require Import Py VecModel VoxelModel VoxelSpec UpmModel UpmSpec KitModel KitSpec EffectModel.
Local Open Scope Z_scope.

(** The i-th number a stream of draws gives to [random.random()]. *)
Definition rnd (g : rng) (i : nat) : Q := Qmake (g i mod 2 ^ 53) (2 ^ 53).
(** The voxel lies in the square 0..n-1 x 0..n-1, below height h. *)
Definition swept (n h : Z) (v : cell) : Prop :=
  let '(x, y, z) := v in 0 <= x < n /\ 0 <= y < n /\ 0 <= z < h.
(** Its place in the sweep: layer by layer, then by x, then by y. *)
Definition place (n : Z) (v : cell) : nat := let '(x, y, z) := v in Z.to_nat ((z * n + x) * n + y).
(** Everything except the voxels of the set holds the same as before. *)
Definition same_except (S : cell -> Prop) (w w' : world (list Z)) : Prop :=
  forall x y z, (forall v, S v -> doubled v <> (halves x, halves y, halves z)) -> get_point w' x y z = get_point w x y z.
(** Nothing is added or changed / nothing is removed or changed. *)
Definition only_removes (w w' : world (list Z)) : Prop :=
  forall x y z, get_point w' x y z = None \/ get_point w' x y z = get_point w x y z.
Definition only_adds (w w' : world (list Z)) : Prop :=
  forall x y z a, get_point w x y z = Some a -> get_point w' x y z = Some a.
(** On a face of the cube of side n; on an edge of it. *)
Definition face (n : Z) (v : cell) : Prop :=
  let '(x, y, z) := v in x = 0 \/ x = n - 1 \/ y = 0 \/ y = n - 1 \/ z = 0 \/ z = n - 1.
Definition on_x (n c : Z) : Prop := c = 0 \/ c = n - 1.
Definition edge (n : Z) (v : cell) : Prop :=
  let '(x, y, z) := v in (on_x n x /\ on_x n y) \/ (on_x n x /\ on_x n z) \/ (on_x n y /\ on_x n z).
(** Two coordinates are multiples of the spacing. *)
Definition two_on_grid (s : Z) (v : cell) : Prop :=
  let '(x, y, z) := v in ((s | x) /\ (s | y)) \/ ((s | y) /\ (s | z)) \/ ((s | x) /\ (s | z)).
