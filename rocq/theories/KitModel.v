(** Model of redeclipse/prefabs/construction_kit.py.

    Simplifications.  The generators are evaluated to the list of their points; a
    generator that raises after some points is just an error.  A world maps positions
    to the texture list of the cube stored there ([cube.newtexcube(tex=n)] is
    [repeat n 6]).  [line_points]/[x_interpolate] are in LineModel. *)
From Coq Require Import QArith.
From Verif Require Import Py VecModel VoxelModel UpmModel.
Local Open Scope Z_scope.

(** [random.random()]: k/2^53. *)
Definition rand01 (g : rng) : Q * rng :=
  let (d, g1) := draw g in (Qmake (d mod 2 ^ 53) (2 ^ 53), g1).
(** [random.randint(a, b)] for a <= b. *)
Definition randint (a b : Z) (g : rng) : Z * rng :=
  let (d, g1) := draw g in (a + d mod (b - a + 1), g1).

(** construction_kit.py:65-78 — column_points. *)
Definition column_points (size : Z) (direction : vec) : res (list vec) :=
  let! f := vfine direction in
  let! d := vdiv f 8 in
  Ok (map (fun i => vmul d i) (zrange 0 size)).

(** construction_kit.py:81-127 — wall_points. *)
Definition wall_points (size : Z) (direction : vec) (limit_j limit_i : Z) : list vec :=
  let lo := if 0 <? size then 0 else size in
  let hi := if 0 <? size then size else 0 in
  flat_map (fun i =>
    if limit_i <? i then [] else
    flat_map (fun j =>
      if limit_j <? j then [] else
      if veq direction BELOW then [V Fine (I i) (I j) (I 0)]
      else if veq direction ABOVE then [V Fine (I i) (I j) (I (size - 1))]
      else if veq direction SOUTH then [V Fine (I i) (I 0) (I j)]
      else if veq direction NORTH then [V Fine (I i) (I (size - 1)) (I j)]
      else if veq direction WEST then [V Fine (I 0) (I i) (I j)]
      else if veq direction EAST then [V Fine (I (size - 1)) (I i) (I j)]
      else []) (zrange lo hi)) (zrange lo hi).

(** construction_kit.py:143-162 — the range of one coordinate. *)
Definition span (n : Z) : list Z := if 0 <? n then zrange 0 n else zrange (n + 1) 1.
(** construction_kit.py:130-167 — cube_points. *)
Definition cube_points (x y z : Z) : list vec :=
  flat_map (fun i => flat_map (fun j => map (fun k => V Fine (I i) (I j) (I k)) (span z)) (span y)) (span x).

(** construction_kit.py:170-188 — subtract_or_skip. *)
Definition subtract_or_skip (subtract : bool) (prob : Q) (g : rng) : bool * rng :=
  if subtract then (true, g)
  else if Qle_bool 1 prob then (false, g)
  else let (r, g1) := rand01 g in (negb (Qle_bool r prob), g1).

(** The constructions, by the name after "x_", with their arguments. *)
Inductive constr :=
| KCube (offset : vec)
| KColumn (offset direction : vec) (length : Z)
| KDotted (offset direction : vec) (length : Z) (on off : nat)
| KCeiling (offset : vec) (size : Z)
| KFloor (offset : vec) (size : Z)
| KLowWall (offset face : vec)
| KWall (offset face : vec) (limit_j : Z)
| KRing (offset : vec) (size : Z)
| KPrism (offset xyz : vec).

(** [self.pos + offset.offset_rotate(self.orientation, offset=TILE_VOX_OFF)]. *)
Definition local_position (pos orient offset : vec) : res vec :=
  let! o := voffset_rotate offset (DVec orient) TILE_VOX_OFF in vadd pos o.

(** construction_kit.py:269-274 — x_rectangular_prism. *)
Definition x_prism (pos orient offset xyz : vec) : res (list vec) :=
  let! r := vrotate xyz (DVec orient) in
  let s := vvox r in
  let! local := local_position pos orient offset in
  mapM (fun p => vadd p local) (cube_points (nfloor (vx s)) (nfloor (vy s)) (nfloor (vz s))).

(** construction_kit.py:222-226 — x_column. *)
Definition x_column (pos orient offset direction : vec) (length : Z) : res (list vec) :=
  let! local := local_position pos orient offset in
  let! d := vrotate direction (DVec orient) in
  let! ps := column_points length d in
  mapM (fun p => vadd p local) ps.

(** construction_kit.py:236-241 — x_dotted_column. *)
Definition x_dotted (pos orient offset direction : vec) (length : Z) (on off : nat) : res (list vec) :=
  let! local := local_position pos orient offset in
  let! d := vrotate direction (DVec orient) in
  let! ps := column_points length d in
  let onoff := repeat true on ++ repeat false off in
  match ps, onoff with
  | _ :: _, [] => Err ZeroDivisionError
  | _, _ =>
      mapM (fun ip => vadd (snd ip) local)
        (filter (fun ip => nth (fst ip mod List.length onoff)%nat onoff false)
           (combine (seq 0 (List.length ps)) ps))
  end.

Definition fine (x y z : Z) : vec := V Fine (I x) (I y) (I z).

(** construction_kit.py:252-260 — x_wall; any other face draws nothing. *)
Definition x_wall (pos orient offset face : vec) (limit_j : Z) : res (list vec) :=
  if veq face EAST then let! o := vadd offset (fine 7 0 0) in x_prism pos orient o (fine 1 8 limit_j)
  else if veq face WEST then let! o := vadd offset (fine 0 0 0) in x_prism pos orient o (fine 1 8 limit_j)
  else if veq face NORTH then let! o := vadd offset (fine 0 7 0) in x_prism pos orient o (fine 8 1 limit_j)
  else if veq face SOUTH then let! o := vadd offset (fine 0 0 0) in x_prism pos orient o (fine 8 1 limit_j)
  else Ok [].

(** construction_kit.py:262-267 — x_ring. *)
Definition x_ring (pos orient offset : vec) (size : Z) : res (list vec) :=
  let! a := x_prism pos orient offset (fine 1 (size - 1) 1) in
  let! b := x_prism pos orient offset (fine (size - 1) 1 1) in
  let! oc := vadd offset (fine 0 (size - 1) 0) in
  let! c := x_prism pos orient oc (fine size 1 1) in
  let! od := vadd offset (fine (size - 1) 0 0) in
  let! d := x_prism pos orient od (fine 1 size 1) in
  Ok (a ++ b ++ c ++ d).

(** construction_kit.py:219-274 — the points of a construction for a room at [pos]
    with orientation [orient]. *)
Definition points (pos orient : vec) (k : constr) : res (list vec) :=
  match k with
  | KCube o => let! p := local_position pos orient o in Ok [p]
  | KColumn o d n => x_column pos orient o d n
  | KDotted o d n on off => x_dotted pos orient o d n on off
  | KCeiling o n => let! o' := vadd o (fine 0 0 7) in x_prism pos orient o' (fine n n 1)
  | KFloor o n => x_prism pos orient o (fine n n 1)
  | KLowWall o f => x_wall pos orient o f 3
  | KWall o f j => x_wall pos orient o f j
  | KRing o n => x_ring pos orient o n
  | KPrism o s => x_prism pos orient o s
  end.

(** construction_kit.py:211-216 — the loop of [x]. *)
Fixpoint paint (pts : list vec) (tex : Z) (subtract : bool) (prob : Q) (w : world (list Z)) (g : rng)
  : world (list Z) * rng :=
  match pts with
  | [] => (w, g)
  | p :: l =>
      let (s, g1) := subtract_or_skip subtract prob g in
      paint l tex subtract prob
        (if s then del_pointv w p else set_pointv w p (repeat tex 6)) g1
  end.

(** A call of [x] with its keyword arguments. *)
Record cmd := C { k_con : constr; k_tex : Z; k_sub : bool; k_prob : Q }.
(** construction_kit.py:197-216 — x; the defaults are tex=2, subtract=False, prob=1.1. *)
Definition x_call (pos orient : vec) (c : cmd) (w : world (list Z)) (g : rng)
  : res (world (list Z)) * rng :=
  match points pos orient (k_con c) with
  | Err e => (Err e, g)
  | Ok pts => let (w', g') := paint pts (k_tex c) (k_sub c) (k_prob c) w g in (Ok w', g')
  end.
Fixpoint x_calls (pos orient : vec) (l : list cmd) (w : world (list Z)) (g : rng)
  : res (world (list Z)) * rng :=
  match l with
  | [] => (Ok w, g)
  | c :: l' => match x_call pos orient c w g with
               | (Ok w', g') => x_calls pos orient l' w' g'
               | (Err e, g') => (Err e, g')
               end
  end.
