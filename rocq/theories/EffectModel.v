(** Model of redeclipse/aftereffects.py.

    Simplifications.  Stored blocks are cubes (always truthy), given by their texture list.
    Gradients are exact rationals (the program computes them in binary floating point);
    [random.random()] is a fraction k/2^53.  Progress bars and log lines are not modelled. *)
From Coq Require Import QArith.
From Verif Require Import Py VecModel VoxelModel UpmModel KitModel.
Local Open Scope Z_scope.

(** A position function, as in lines 10-81. *)
Definition posfun := Z -> Z -> Z -> Q.
(** Lines 10-25 — vertical_gradient; a slope of zero is ZeroDivisionError. *)
Definition vertical_gradient (x y z slope : Z) : res Q :=
  if slope =? 0 then Err ZeroDivisionError else Ok (1 - inject_Z z / inject_Z slope)%Q.
(** Lines 28-42 — gradient3. *)
Definition gradient3 : posfun := fun x y z => (2 - 2 / (1 + Qpower (1001 # 1000) (- z)))%Q.
(** Lines 45-64 — vertical_gradient2. *)
Definition vertical_gradient2 : posfun := fun x y z =>
  let r := ((1004742 # 1000000) - (2448721 # 10000000000) * inject_Z z - (1396083 # 100000000000) * inject_Z z * inject_Z z)%Q in
  let r := if Qle_bool 0 r then r else 0%Q in
  if Qle_bool r 1 then r else 1%Q.
(** Lines 67-81 — vertical_gradient2inv. *)
Definition vertical_gradient2inv : posfun := fun x y z => (1 - vertical_gradient2 x y z)%Q.

(** The order of the loops: z, then x, then y (lines 103-105, 128-130, 153-155, 179-181). *)
Definition sweep (zs : list Z) (n : Z) : list (Z * Z * Z) :=
  flat_map (fun z => flat_map (fun x => map (fun y => (x, y, z)) (zrange 0 n)) (zrange 0 n)) zs.

(** [cube.newtexcube(tex=2)]. *)
Definition tex2 : list Z := repeat 2 6.
Definition put (w : world (list Z)) (x y z : Z) : world (list Z) := set_point w (I x) (I y) (I z) tex2.
Definition put_if_empty (w : world (list Z)) (x y z : Z) : world (list Z) :=
  match get_point w (I x) (I y) (I z) with Some _ => w | None => put w x y z end.

(** Lines 98-101 — pos_func of grid ([and] and [or] short-circuit, but every
    operand is a remainder by the same size). *)
Definition on_grid (size x y z : Z) : bool :=
  ((x mod size =? 0) && (y mod size =? 0)) || ((z mod size =? 0) && (y mod size =? 0))
  || ((z mod size =? 0) && (x mod size =? 0)).
(** Lines 84-111 — grid. *)
Definition grid (w : world (list Z)) (size : Z) : res (world (list Z)) :=
  let! zs := py_range (w_zmax w) in
  let cells := sweep zs (w_size w) in
  if size =? 0 then match cells with [] => Ok w | _ => Err ZeroDivisionError end
  else Ok (fold_left (fun w c => let '(x, y, z) := c in if on_grid size x y z then put_if_empty w x y z else w) cells w).

(** Lines 114-136 — decay. *)
Fixpoint decay_loop (f : posfun) (l : list (Z * Z * Z)) (w : world (list Z)) (g : rng) : world (list Z) * rng :=
  match l with
  | [] => (w, g)
  | (x, y, z) :: l' =>
      let (r, g1) := rand01 g in
      decay_loop f l' (if Qle_bool r (f x y z) then w else del_point w (I x) (I y) (I z)) g1
  end.
Definition decay (w : world (list Z)) (f : posfun) (g : rng) : res (world (list Z)) * rng :=
  match py_range (w_zmax w) with
  | Err e => (Err e, g)
  | Ok zs => let (w', g') := decay_loop f (sweep zs (w_size w)) w g in (Ok w', g')
  end.

(** Lines 139-161 — growth. *)
Fixpoint growth_loop (f : posfun) (l : list (Z * Z * Z)) (w : world (list Z)) (g : rng) : world (list Z) * rng :=
  match l with
  | [] => (w, g)
  | (x, y, z) :: l' =>
      let (r, g1) := rand01 g in
      growth_loop f l' (if Qle_bool r (f x y z) then w else put_if_empty w x y z) g1
  end.
Definition growth (w : world (list Z)) (f : posfun) (g : rng) : res (world (list Z)) * rng :=
  match py_range (w_zmax w) with
  | Err e => (Err e, g)
  | Ok zs => let (w', g') := growth_loop f (sweep zs (w_size w)) w g in (Ok w', g')
  end.

(** Lines 176-178, 201-203 — the height of the box. *)
Definition max_height (w : world (list Z)) (height : option Z) : Z :=
  match height with Some h => if h =? 0 then w_size w else h | None => w_size w end.
(** Lines 164-186 — box. *)
Definition on_box (n x y z : Z) : bool :=
  (x =? 0) || (y =? 0) || (z =? 0) || (x =? n - 1) || (y =? n - 1) || (z =? n - 1).
Definition box (w : world (list Z)) (height : option Z) : world (list Z) :=
  fold_left (fun w' c => let '(x, y, z) := c in if on_box (w_size w) x y z then put w' x y z else w')
    (sweep (zrange 0 (max_height w height)) (w_size w)) w.
(** Lines 189-219 — box_outline. *)
Definition b2z (b : bool) : Z := if b then 1 else 0.
Definition on_outline (n x y z : Z) : bool :=
  1 <? b2z (x =? 0) + b2z (y =? 0) + b2z (z =? 0) + b2z (x =? n - 1) + b2z (y =? n - 1) + b2z (z =? n - 1).
Definition box_outline (w : world (list Z)) (height : option Z) : world (list Z) :=
  fold_left (fun w' c => let '(x, y, z) := c in if on_outline (w_size w) x y z then put w' x y z else w')
    (sweep (zrange 0 (max_height w height)) (w_size w)) w.

(** Lines 222-237 — endcap, on the positions of [upm.unoccupied]. *)
Definition endcap_fill (w : world (list Z)) (open : list vec) : res (world (list Z)) :=
  foldM (fun w pos =>
    foldM (fun w off => let! p := vadd pos off in Ok (set_pointv w p tex2)) (cube_points 8 8 8) w) open w.
