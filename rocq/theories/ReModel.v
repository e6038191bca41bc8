(** Model of the classes ivec2, vec2, ivec3 and vec3 and of cross in redeclipse/vector/re.py.

    Simplifications: a component is an int or a finite float, as the rational number it is equal to;
    arithmetic is exact (the program rounds results that are no binary64 number). *)
From Coq Require Import QArith.
From Verif Require Import Py.
Local Open Scope Z_scope.

(** Python [int(q)]: the fraction is cut off. *)
Definition trunc (q : Q) : Z := Z.quot (Qnum q) (QDen q).

(** re.py:6-8, 26-28. *)
Record pair := P2 { p_x : Q; p_y : Q }.
(** re.py:10-17 — to_dict of ivec2. *)
Definition ipair (v : pair) : list Z := [trunc (p_x v); trunc (p_y v)].
(** re.py:30-37 — to_dict of vec2. *)
Definition fpair (v : pair) : list Q := [p_x v; p_y v].

(** re.py:48-51 and 74-77 — vec3 and ivec3. *)
Inductive kind := Int | Float.
Record triple := T { t_kind : kind; t_x : Q; t_y : Q; t_z : Q }.
Definition ivec3 (x y z : Q) : triple := T Int x y z.
(** re.py:79-86 — X, Y, Z of ivec3. *)
Definition X (v : triple) : Z := trunc (t_x v).
Definition Y (v : triple) : Z := trunc (t_y v).
Definition Z_ (v : triple) : Z := trunc (t_z v).
(** re.py:145-146. *)
Definition to_dict (v : triple) : list Z := [X v; Y v; Z_ v].
(** re.py:62-63 — to_dict of vec3. *)
Definition to_floats (v : triple) : list Q := [t_x v; t_y v; t_z v].
(** re.py:88-94 — ivec5. *)
Definition ivec5 (i x y z s : Z) : triple :=
  ivec3 (inject_Z (x + Z.shiftr (Z.land i 1) 0 * s)) (inject_Z (y + Z.shiftr (Z.land i 2) 1 * s)) (inject_Z (z + Z.shiftr (Z.land i 4) 2 * s)).
(** re.py:96-101. *)
Definition mask (v : triple) (m : Z) : triple := ivec3 (inject_Z (Z.land (X v) m)) (inject_Z (Z.land (Y v) m)) (inject_Z (Z.land (Z_ v) m)).
(** re.py:103-108 — a negative shift count is a ValueError. *)
Definition shl (v : triple) (k : Z) : res triple :=
  if k <? 0 then Err ValueError
  else Ok (ivec3 (inject_Z (Z.shiftl (X v) k)) (inject_Z (Z.shiftl (Y v) k)) (inject_Z (Z.shiftl (Z_ v) k))).
(** re.py:110-115. *)
Definition sub (a b : triple) : triple := ivec3 (inject_Z (X a - X b)) (inject_Z (Y a - Y b)) (inject_Z (Z_ a - Z_ b)).
(** re.py:117-122. *)
Definition mul (a : triple) (s : Q) : triple := ivec3 (inject_Z (X a) * s) (inject_Z (Y a) * s) (inject_Z (Z_ a) * s).
(** re.py:124-129 — only the components of the first vector are cut. *)
Definition add (a b : triple) : triple := ivec3 (inject_Z (X a) + t_x b) (inject_Z (Y a) + t_y b) (inject_Z (Z_ a) + t_z b).
(** re.py:131-137 — no return value for other indices. *)
Definition gg (v : triple) (idx : Z) : option Z :=
  if idx =? 0 then Some (X v) else if idx =? 1 then Some (Y v) else if idx =? 2 then Some (Z_ v) else None.
(** re.py:139-140. *)
Definition dot (a o : triple) : Q := inject_Z (X a) * t_x o + inject_Z (Y a) * t_y o + inject_Z (Z_ a) * t_z o.
(** re.py:142-143. *)
Definition iszero (v : triple) : bool := (X v =? 0) && (Y v =? 0) && (Z_ v =? 0).
(** re.py:152-168 — cross: the class of the first vector. *)
Definition cross (a b : triple) : triple :=
  T (t_kind a) (t_y a * t_z b - t_z a * t_y b) (t_z a * t_x b - t_x a * t_z b) (t_x a * t_y b - t_y a * t_x b).
