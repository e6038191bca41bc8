(** Model of redeclipse/voxel/__init__.py. *)
From Verif Require Import Py VecModel.

(** Dictionary keys: tuples (x, y, z) of Python numbers. *)
Definition key : Type := num * num * num.
(** Tuple equality: ints and equal floats are the same key (and hash equally). *)
Definition keqb (a b : key) : bool :=
  let '(x, y, z) := a in let '(x', y', z') := b in
  neqb x x' && neqb y y' && neqb z z'.

Section World.
Context {A : Type}.

(** voxel/__init__.py:13-26 — VoxelWorld.  [size] is an int. *)
Record world := W {
  w_size : Z;
  w_map : list (key * A);
  w_xmax : num; w_xmin : num;
  w_ymax : num; w_ymin : num;
  w_zmax : num; w_zmin : num }.

(** voxel/__init__.py:15-26 — VoxelWorld.__init__. *)
Definition new_world (size : Z) : world :=
  W size [] (I 0) (I size) (I 0) (I size) (I 0) (I size).

(** voxel/__init__.py:28-40 — _update_boundaries. *)
Definition update_boundaries (w : world) (x y z : num) : world :=
  W (w_size w) (w_map w)
    (if nltb (w_xmax w) x then x else w_xmax w) (if nltb x (w_xmin w) then x else w_xmin w)
    (if nltb (w_ymax w) y then y else w_ymax w) (if nltb y (w_ymin w) then y else w_ymin w)
    (if nltb (w_zmax w) z then z else w_zmax w) (if nltb z (w_zmin w) then z else w_zmin w).

Definition with_map (w : world) (m : list (key * A)) : world :=
  W (w_size w) m (w_xmax w) (w_xmin w) (w_ymax w) (w_ymin w) (w_zmax w) (w_zmin w).

(** voxel/__init__.py:42-45 — set_point.  Simplification: the %d formatting of
    the debug line is not modelled. *)
Definition set_point (w : world) (x y z : num) (a : A) : world :=
  let w' := update_boundaries w x y z in with_map w' (dset keqb (w_map w') (x, y, z) a).

(** voxel/__init__.py:47-50 — set_pointv. *)
Definition set_pointv (w : world) (v : vec) (a : A) : world :=
  let w' := update_boundaries w (vx v) (vy v) (vz v) in
  with_map w' (dset keqb (w_map w') (vx v, vy v, vz v) a).

(** voxel/__init__.py:52-55 — del_point. *)
Definition del_point (w : world) (x y z : num) : world :=
  if dmem keqb (w_map w) (x, y, z) then with_map w (ddel keqb (w_map w) (x, y, z)) else w.

(** voxel/__init__.py:57-60 — del_pointv (unpacks the vector). *)
Definition del_pointv (w : world) (v : vec) : world :=
  if dmem keqb (w_map w) (vx v, vy v, vz v)
  then with_map w (ddel keqb (w_map w) (vx v, vy v, vz v)) else w.

(** voxel/__init__.py:62-66 — get_point. *)
Definition get_point (w : world) (x y z : num) : option A := dget keqb (w_map w) (x, y, z).

(** Octree nodes: [TEmpty] is [cube.newcube()], [TVox a] the stored voxel object,
    [TNode l] a new cube with octsav CHILDREN and children l
    (voxel/__init__.py:145-148). *)
Inductive tree := TEmpty | TVox (a : A) | TNode (l : list tree).

(** What a call of to_octree returns: None, a cube, or (for the root) a list. *)
Inductive oval := ONone | OTree (t : tree) | OList (l : list tree).

Definition is_none (o : oval) : bool := match o with ONone => true | _ => false end.

(** voxel/__init__.py:139,146 — [cube.newcube() if x is None else x].  A list as
    a child never occurs (the root test succeeds only at the root) and is not
    modelled. *)
Definition fill (o : oval) : res tree :=
  match o with ONone => Ok TEmpty | OTree t => Ok t | OList _ => Err OutOfModel end.

(** voxel/__init__.py:93-135 — the bounds of the eight recursive calls, in order:
    x varies fastest, then y, then z.  [//] is floor division. *)
Definition split8 (x0 x1 y0 y1 z0 z1 : Z) : list (Z * Z * (Z * Z) * (Z * Z)) :=
  let mx := (x0 + x1) / 2 in let my := (y0 + y1) / 2 in let mz := (z0 + z1) / 2 in
  [ ((x0, mx), (y0, my), (z0, mz)); ((mx, x1), (y0, my), (z0, mz));
    ((x0, mx), (my, y1), (z0, mz)); ((mx, x1), (my, y1), (z0, mz));
    ((x0, mx), (y0, my), (mz, z1)); ((mx, x1), (y0, my), (mz, z1));
    ((x0, mx), (my, y1), (mz, z1)); ((mx, x1), (my, y1), (mz, z1)) ].

(** voxel/__init__.py:86-148 — to_octree on explicit bounds.  [fuel] bounds the
    recursion depth; running out is Python's RecursionError. *)
Fixpoint octree (fuel : nat) (w : world) (x0 x1 y0 y1 z0 z1 : Z) : res oval :=
  match fuel with
  | O => Err RecursionError
  | S f =>
      if x1 - x0 =? 1 then
        match get_point w (I x0) (I y0) (I z0) with
        | None => Ok ONone
        | Some a => Ok (OTree (TVox a))
        end
      else
        let! cs := mapM (fun b => match b with ((a0, a1), (b0, b1), (c0, c1)) =>
                                    octree f w a0 a1 b0 b1 c0 c1 end)
                        (split8 x0 x1 y0 y1 z0 z1) in
        if (x0 =? 0) && (x1 =? w_size w) then
          let! l := mapM fill cs in Ok (OList l)
        else if forallb is_none cs then Ok ONone
        else let! l := mapM fill cs in Ok (OTree (TNode l))
  end.

(** voxel/__init__.py:74-84 — to_octree() with default bounds. *)
Definition to_octree (fuel : nat) (w : world) : res oval :=
  octree fuel w 0 (w_size w) 0 (w_size w) 0 (w_size w).

End World.
Arguments world A : clear implicits.
Arguments tree A : clear implicits.
Arguments oval A : clear implicits.
