(** Vocabulary for the construction kit properties, independent of the vector code:
    integer boxes, and turning about the middle of a tile. *)
From Coq Require Import QArith.
From Verif Require Import Py VecModel VecSpec VoxelModel VoxelSpec UpmModel UpmSpec KitModel.
Local Open Scope Z_scope.

(** Voxel [q] of the unrotated room, turned about the middle of the room's own tile
    (the tile is the square 0..7 x 0..7 of voxels). *)
Definition tile_turn (c : compass) (q : cell) : cell :=
  let '(x, y, z) := q in
  match c with
  | CE => (x, y, z) | CN => (7 - y, x, z) | CW => (7 - x, 7 - y, z) | CS => (y, 7 - x, z)
  end.
(** World position of voxel [q] of a room at cell [p] facing [c]. *)
Definition frame (p : cell) (c : compass) (q : cell) : cell :=
  let '(a, b, h) := p in let '(x, y, z) := tile_turn c q in (8 * a + x, 8 * b + y, 8 * h + z).
(** A direction, seen in a room facing [c]. *)
Definition turned (c f : compass) : compass :=
  match c, f with
  | CE, d | d, CE => d
  | CN, CN => CW | CN, CW => CS | CN, CS => CE
  | CW, CN => CS | CW, CW => CE | CW, CS => CN
  | CS, CN => CE | CS, CW => CN | CS, CS => CW
  end.
(** A cell, seen in a room facing [c]. *)
Definition cell_turn (c : compass) (d : cell) : cell :=
  let '(x, y, z) := d in
  match c with CE => (x, y, z) | CN => (- y, x, z) | CW => (- x, - y, z) | CS => (y, - x, z) end.

(** The vector is numerically the cell / the voxel position. *)
Definition cell_at (v : vec) (p : cell) : Prop :=
  vc v = Coarse /\ coords2 v = (let '(x, y, z) := p in (2 * x, 2 * y, 2 * z)).
Definition voxel_at (v : vec) (q : cell) : Prop :=
  vc v <> Base /\ fpos2 v = (let '(x, y, z) := q in (2 * x, 2 * y, 2 * z)).
(** The vector's own coordinates are these integers. *)
Definition size_is (v : vec) (s : cell) : Prop :=
  coords2 v = (let '(x, y, z) := s in (2 * x, 2 * y, 2 * z)).

(** The interval from [o] of length |n|, upwards or downwards. *)
Definition within (o n q : Z) : Prop := (0 < n /\ o <= q < o + n) \/ (n <= 0 /\ o + n < q <= o).
(** The box at [o] of size [s]. *)
Definition in_box (o s q : cell) : Prop :=
  let '(a, b, c) := o in let '(l, m, n) := s in let '(x, y, z) := q in
  within a l x /\ within b m y /\ within c n z.

(** Voxel lies on the given side of the cell, at most [h] high. *)
Definition on_side (f : compass) (p : cell) (h : Z) (v : cell) : Prop :=
  voxel_in_cell v p /\
  let '(a, b, c) := p in let '(x, y, z) := v in
  z < 8 * c + h /\
  match f with CE => x = 8 * a + 7 | CW => x = 8 * a | CN => y = 8 * b + 7 | CS => y = 8 * b end.

(** Value stored at an integer position, or anywhere. *)
Definition at_voxel (w : world (list Z)) (v : cell) : option (list Z) :=
  let '(x, y, z) := v in get_point w (I x) (I y) (I z).
(** The list of vectors, as positions (doubled), is exactly the set of voxels. *)
Definition covers (pts : list vec) (S : cell -> Prop) : Prop :=
  (forall v, In v pts -> vc v = Fine /\ exists q, voxel_at v q) /\
  (forall q, (exists v, In v pts /\ voxel_at v q) <-> S q).
(** ... each once. *)
Definition once (pts : list vec) : Prop := NoDup (map fpos2 pts).

Definition shift (b : cell) (x y z : Z) : cell := let '(a, b', c) := b in (a + x, b' + y, c + z).
Definition cmul8 (u : cell) : cell := let '(x, y, z) := u in (8 * x, 8 * y, 8 * z).
(** Position i steps of [u] from [b]. *)
Definition step (b u : cell) (i : Z) : cell :=
  let '(x, y, z) := u in shift b (i * x) (i * y) (i * z).

(** What a construction looks like in an unrotated room at the origin. *)
Definition wall_shape (o f : vec) (h : Z) (q : cell) : Prop :=
  exists b d, voxel_at o b /\ points_to f d /\
    match d with
    | CE => in_box (shift b 7 0 0) (1, 8, h) q
    | CW => in_box b (1, 8, h) q
    | CN => in_box (shift b 0 7 0) (8, 1, h) q
    | CS => in_box b (8, 1, h) q
    end.
Definition shape (k : constr) (q : cell) : Prop :=
  match k with
  | KCube o => voxel_at o q
  | KColumn o d n => exists b u i, voxel_at o b /\ voxel_at d (cmul8 u) /\ 0 <= i < n /\ q = step b u i
  | KDotted o d n on off =>
      exists b u i, voxel_at o b /\ voxel_at d (cmul8 u) /\ 0 <= i < n /\
        i mod (Z.of_nat on + Z.of_nat off) < Z.of_nat on /\ q = step b u i
  | KCeiling o n => exists b, voxel_at o b /\ in_box (shift b 0 0 7) (n, n, 1) q
  | KFloor o n => exists b, voxel_at o b /\ in_box b (n, n, 1) q
  | KLowWall o f => wall_shape o f 3 q
  | KWall o f h => wall_shape o f h q
  | KRing o n =>
      (exists a b c x y, voxel_at o (a, b, c) /\ q = (x, y, c) /\ a <= x < a + n /\ b <= y < b + n /\
        (x = a \/ x = a + n - 1 \/ y = b \/ y = b + n - 1)) \/ (n = 0 /\ voxel_at o q)
  | KPrism o s => exists b l, voxel_at o b /\ size_is s l /\ in_box b l q
  end.
(** Arguments on the voxel grid. *)
Definition grid_args (k : constr) : Prop :=
  match k with
  | KCube o => exists b, voxel_at o b
  | KColumn o d _ => (exists b, voxel_at o b) /\ exists u, voxel_at d (cmul8 u)
  | KDotted o d _ on off => (exists b, voxel_at o b) /\ (exists u, voxel_at d (cmul8 u)) /\ (0 < on + off)%nat
  | KCeiling o _ | KFloor o _ | KLowWall o _ | KWall o _ _ => exists b, voxel_at o b
  | KRing o n => (exists b, voxel_at o b) /\ 0 <= n
  | KPrism o s => (exists b, voxel_at o b) /\ exists l, size_is s l
  end.

(** What a position holds after being drawn with texture [tex], or subtracted, or
    drawn with probability [prob]. *)
Definition drawn (tex : Z) (sub : bool) (prob : Q) (r : option (list Z)) : Prop :=
  if sub then r = None
  else if Qle_bool 1 prob then r = Some (repeat tex 6)
  else r = None \/ r = Some (repeat tex 6).
Definition doubled (q : cell) : Z * Z * Z := let '(x, y, z) := q in (2 * x, 2 * y, 2 * z).
(** The construction at this position and orientation succeeds in every world and draws
    exactly the voxels of [S], leaving every other position alone. *)
Definition draws (pos orient : vec) (k : constr) (S : cell -> Prop) : Prop :=
  forall tex sub prob size ops g,
  let w := wrun ops (new_world size) in
  exists (w' : world (list Z)) (g' : rng), x_call pos orient (C k tex sub prob) w g = (Ok w', g') /\
    (forall q, S q -> drawn tex sub prob (at_voxel w' q)) /\
    (forall x y z, (forall q, S q -> doubled q <> (halves x, halves y, halves z)) ->
       get_point w' x y z = get_point w x y z).
(** The room cell [d], for a room at [p] facing [c]. *)
Definition placed (p : cell) (c : compass) (d : cell) : cell :=
  let '(a, b, h) := p in let '(x, y, z) := cell_turn c d in (a + x, b + y, h + z).
(** Room cell [d] as an offset vector, raised by [i] voxels. *)
Definition in_tile (off : vec) (d : cell) (i : Z) : Prop :=
  let '(x, y, z) := d in voxel_at off (8 * x, 8 * y, 8 * z + i).
(** Horizontal layer [i] of a cell, and its rim. *)
Definition layer (p : cell) (i : Z) (v : cell) : Prop := voxel_in_cell v p /\ snd v = 8 * snd p + i.
Definition rim (p : cell) (v : cell) : Prop := on_side CE p 8 v \/ on_side CW p 8 v \/ on_side CN p 8 v \/ on_side CS p 8 v.
