(** Model of the slanted lines of redeclipse/prefabs/construction_kit.py: [line_points] and
    [x_interpolate].

    Simplifications.  As in KitModel, a generator is the list of its points, or the exception it
    raises.  [bresenham] is the generator of the PyPI package of that name (bresenham 0.2.1,
    the import of construction_kit.py:3), modelled from its published source: it is not in
    /repo.  The four [print] calls are left out. *)
From Verif Require Import Py VecModel VoxelModel UpmModel KitModel.
Local Open Scope Z_scope.

(** bresenham 0.2.1, the loop [for x in range(dx + 1)]: [n] rounds are left, [x], [y] and [D]
    are the variables of the loop. *)
Fixpoint bloop (n : nat) (x y D dx dy : Z) : list (Z * Z) :=
  match n with
  | O => []
  | S n' => (x, y) :: (if 0 <=? D then bloop n' (x + 1) (y + 1) (D - 2 * dx + 2 * dy) dx dy
                       else bloop n' (x + 1) y (D + 2 * dy) dx dy)
  end.
(** construction_kit.py:3 — [bresenham(x0, y0, x1, y1)]. *)
Definition bresenham (x0 y0 x1 y1 : Z) : list (Z * Z) :=
  let dx := x1 - x0 in
  let dy := y1 - y0 in
  let xsign := if 0 <? dx then 1 else -1 in
  let ysign := if 0 <? dy then 1 else -1 in
  let dx := Z.abs dx in
  let dy := Z.abs dy in
  let '(dx, dy, xx, xy, yx, yy) :=
    if dy <? dx then (dx, dy, xsign, 0, 0, ysign) else (dy, dx, 0, ysign, xsign, 0) in
  map (fun p => let '(x, y) := p in (x0 + x * xx + y * yx, y0 + x * xy + y * yy))
      (bloop (Z.to_nat (dx + 1)) 0 0 (2 * dy - dx) dx dy).

(** construction_kit.py:33-37 — one entry of [kv]: what was appended under the key [pt]. *)
Definition under (pt : Z) (l : list (Z * Z)) : list Z :=
  map snd (filter (fun p => fst p =? pt) l).

Definition at_index (l : list Z) (i : nat) : res Z :=
  match nth_error l i with Some v => Ok v | None => Err IndexError end.

(** construction_kit.py:40-62 — the body of [for pt in kv.keys()]; [len(ys) % len(zs)] with no
    z raises ZeroDivisionError. *)
Definition resolve (pt : Z) (ys zs : list Z) : res (list vec) :=
  let ly := List.length ys in
  let lz := List.length zs in
  if (ly =? lz)%nat then Ok (map (fun p => V Fine (I pt) (I (fst p)) (I (snd p))) (combine ys zs))
  else if (lz =? 0)%nat then Err ZeroDivisionError
  else if (ly mod lz =? 0)%nat then
    mapM (fun ij => let! y := at_index ys (fst ij + snd ij) in
                    let! z := at_index zs (fst ij) in Ok (V Fine (I pt) (I y) (I z)))
         (list_prod (seq 0 lz) (seq 0 (ly / lz)))
  else if (ly =? 0)%nat then Err ZeroDivisionError
  else if (lz mod ly =? 0)%nat then
    mapM (fun ij => let! y := at_index ys (fst ij) in
                    let! z := at_index zs (fst ij + snd ij) in Ok (V Fine (I pt) (I y) (I z)))
         (list_prod (seq 0 ly) (seq 0 (lz / ly)))
  else Ok (map (fun p => V Fine (I pt) (I (fst p)) (I (snd p))) (list_prod ys zs)).

(** construction_kit.py:11-62 — line_points between two integer points.  [kv] has the keys
    [range(start.x, end.x + 1)]; appending under another key raises KeyError. *)
Definition line_points (start end_ : cell) : res (list vec) :=
  let '(sx, sy, sz) := start in
  let '(ex, ey, ez) := end_ in
  if sx =? ex then Ok []
  else
    let xy := bresenham sx sy ex ey in
    let xz := bresenham sx sz ex ez in
    if forallb (fun p => (sx <=? fst p) && (fst p <? ex + 1)) (xz ++ xy) then
      let! columns := mapM (fun pt => resolve pt (under pt xy) (under pt xz)) (zrange sx (ex + 1)) in
      Ok (List.concat columns)
    else Err KeyError.

(** The integer coordinates of a vector rounded down. *)
Definition vox_cell (v : vec) : cell := (nfloor (vx v), nfloor (vy v), nfloor (vz v)).

(** construction_kit.py:228-234 — x_interpolate. *)
Definition x_interpolate (pos orient offset start end_ : vec) : res (list vec) :=
  let! s := vrotate start (DVec orient) in
  let! e := vrotate end_ (DVec orient) in
  let! local := local_position pos orient offset in
  let! pts := line_points (vox_cell s) (vox_cell e) in
  mapM (fun p => vadd p local) pts.
