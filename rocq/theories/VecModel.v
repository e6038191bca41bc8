(** Model of redeclipse/vector/__init__.py and redeclipse/vector/orientations.py. *)
From Verif Require Import Py.

(** vector/__init__.py:4,160,221 — the three classes. *)
Inductive vcls := Base | Fine | Coarse.

(** vector/__init__.py:15-18 — BaseVector.__init__. *)
Record vec := V { vc : vcls; vx : num; vy : num; vz : num }.

Definition vcls_eqb (a b : vcls) : bool :=
  match a, b with Base, Base | Fine, Fine | Coarse, Coarse => true | _, _ => false end.

(** Componentwise comparison of the stored coordinates (the three-line
    conjunction at vector/__init__.py:11-13, 171-173, 178-180, 230-232, 238-240). *)
Definition raw_eqb (a b : vec) : bool :=
  neqb (vx a) (vx b) && neqb (vy a) (vy b) && neqb (vz a) (vz b).

(** vector/__init__.py:40-45 — __mul__ by an int; keeps the class. *)
Definition vmul (a : vec) (m : Z) : vec :=
  V (vc a) (nmulz (vx a) m) (nmulz (vy a) m) (nmulz (vz a) m).

(** vector/__init__.py:40-45 — __mul__ by the float k/2 (e.g. [EAST * 0.5]). *)
Definition vmulh (a : vec) (k : Z) : res vec :=
  let! x := nmulh (vx a) k in let! y := nmulh (vy a) k in let! z := nmulh (vz a) k in
  Ok (V (vc a) x y z).

(** vector/__init__.py:47-52 — __truediv__ by an int. *)
Definition vdiv (a : vec) (m : Z) : res vec :=
  let! x := ndiv (vx a) m in let! y := ndiv (vy a) m in let! z := ndiv (vz a) m in
  Ok (V (vc a) x y z).

(** vector/__init__.py:54-59 — __floordiv__ (floor of a true division; the model
    takes the quotient as exact). For a positive int m. *)
Definition vfloordiv (a : vec) (m : Z) : vec :=
  V (vc a) (nfdiv (vx a) m) (nfdiv (vy a) m) (nfdiv (vz a) m).

(** vector/__init__.py:189-190 (FineVector.fine), 248-254 (CoarseVector.fine);
    BaseVector has no [fine], so the call raises AttributeError. *)
Definition vfine (a : vec) : res vec :=
  match vc a with
  | Base => Err AttributeError
  | Fine => Ok a
  | Coarse => let m := vmul a 8 in Ok (V Fine (vx m) (vy m) (vz m))
  end.

(** vector/__init__.py:210-215 — FineVector.coarse; only FineVector has it. *)
Definition vcoarse (a : vec) : res vec :=
  match vc a with
  | Fine => Ok (V Coarse (nfloordiv (vx a) 8) (nfloordiv (vy a) 8) (nfloordiv (vz a) 8))
  | _ => Err AttributeError
  end.

(** vector/__init__.py:217-218, 292-293 — entity. *)
Definition ventity (a : vec) : res vec := let! f := vfine a in Ok (vmul f 4).

(** vector/__init__.py:102-106 — vox. *)
Definition vvox (a : vec) : vec :=
  V (vc a) (I (nfloor (vx a))) (I (nfloor (vy a))) (I (nfloor (vz a))).

(** vector/__init__.py:9-13 — BaseVector.__eq__(self, other). *)
Definition base_eq (a b : vec) : bool := raw_eqb a b.

(** vector/__init__.py:165-183 — FineVector.__eq__(self, other). *)
Definition fine_eq (a b : vec) : bool :=
  match vc b with
  | Coarse => match vfine b with Ok t => raw_eqb a t | Err _ => false end
  | Fine => raw_eqb a b
  | Base => false
  end.

(** vector/__init__.py:226-242 — CoarseVector.__eq__(self, other). *)
Definition coarse_eq (a b : vec) : bool :=
  match vc b with
  | Coarse => raw_eqb a b
  | Fine => match vfine a with Ok t => raw_eqb t b | Err _ => false end
  | Base => false
  end.

(** [a == b].  Python tries the right operand's __eq__ first when its type is a
    proper subclass of the left operand's type (Base on the left, Fine or Coarse
    on the right); none of the methods returns NotImplemented. *)
Definition veq (a b : vec) : bool :=
  match vc a, vc b with
  | Base, Fine => fine_eq b a
  | Base, Coarse => coarse_eq b a
  | Base, Base => base_eq a b
  | Fine, _ => fine_eq a b
  | Coarse, _ => coarse_eq a b
  end.

(** vector/__init__.py:6-7, 162-163, 223-224 — __hash__ (before CPython's
    reduction modulo 2^61-1, which is a function of this value). *)
Definition hash_tag (c : vcls) : Z := match c with Base => 0 | Fine => 1 | Coarse => 2 end.
Definition vhash (a : vec) : Z :=
  Z.shiftl (hash_tag (vc a)) 31 + Z.shiftl (nfloor (vx a)) 20
  + Z.shiftl (nfloor (vy a)) 10 + nfloor (vz a).

(** vector/__init__.py:82-97 — __lt__ (inherited by all classes, compares the raw
    coordinates whatever the classes). *)
Definition vlt (a b : vec) : bool :=
  if nltb (vx a) (vx b) then true
  else if neqb (vx a) (vx b) then
         if nltb (vy a) (vy b) then true
         else if neqb (vy a) (vy b) then
                if nltb (vz a) (vz b) then true else false
              else false
       else false.

(** vector/__init__.py:99-100 — __le__. *)
Definition vle (a b : vec) : bool := veq a b || vlt a b.

Definition raw_add (c : vcls) (a b : vec) : vec :=
  V c (nadd (vx a) (vx b)) (nadd (vy a) (vy b)) (nadd (vz a) (vz b)).
Definition raw_sub (c : vcls) (a b : vec) : vec :=
  V c (nsub (vx a) (vx b)) (nsub (vy a) (vy b)) (nsub (vz a) (vz b)).

(** vector/__init__.py:20-28 (Base), 192-199 (Fine), 256-272 (Coarse) — __add__. *)
Definition vadd (a b : vec) : res vec :=
  match vc a with
  | Base => if vcls_eqb (vc a) (vc b) then Ok (raw_add Base a b) else Err UserExn
  | Fine => let! fa := vfine a in let! fb := vfine b in Ok (raw_add Fine fa fb)
  | Coarse =>
      match vc b with
      | Coarse => Ok (raw_add Coarse a b)
      | Fine => let! fa := vfine a in let! fb := vfine b in Ok (raw_add Fine fa fb)
      | Base => Err UserExn
      end
  end.

(** vector/__init__.py:30-38 (Base), 201-208 (Fine), 274-290 (Coarse) — __sub__. *)
Definition vsub (a b : vec) : res vec :=
  match vc a with
  | Base => if vcls_eqb (vc a) (vc b) then Ok (raw_sub Base a b) else Err UserExn
  | Fine => let! fa := vfine a in let! fb := vfine b in Ok (raw_sub Fine fa fb)
  | Coarse =>
      match vc b with
      | Coarse => Ok (raw_sub Coarse a b)
      | Fine => let! fa := vfine a in let! fb := vfine b in Ok (raw_sub Fine fa fb)
      | Base => Err UserExn
      end
  end.

(** Argument of [rotate]: degrees as an int, or a vector. *)
Inductive degarg := Deg (d : Z) | DVec (v : vec).

(** Number of quarter turns meant by the argument (vector/__init__.py:123-128).
    Simplification: only multiples of 90 degrees and axis-parallel vectors are
    modelled; atan2(0,0) is 0.  Other angles are [None]. *)
Definition quarter (d : degarg) : option Z :=
  match d with
  | Deg d => if d mod 90 =? 0 then Some ((d / 90) mod 4) else None
  | DVec v =>
      let x := halves (vx v) in let y := halves (vy v) in
      if y =? 0 then (if x <? 0 then Some 2 else Some 0)
      else if x =? 0 then (if y <? 0 then Some 3 else Some 1)
      else None
  end.

(** vector/__init__.py:132-136 at theta = k * 90 degrees, on half-units: with
    X = 2x and Y = 2y the code returns round(X cos - Y sin)/2 and
    round(X sin + Y cos)/2, always floats; z is passed through.  That the
    floating point evaluation gives exactly these integers is FloatRot.v. *)
Definition rotq (k : Z) (a : vec) : vec :=
  let X := halves (vx a) in let Y := halves (vy a) in
  match k with
  | 0 => V (vc a) (H X) (H Y) (vz a)
  | 1 => V (vc a) (H (- Y)) (H X) (vz a)
  | 2 => V (vc a) (H (- X)) (H (- Y)) (vz a)
  | _ => V (vc a) (H Y) (H (- X)) (vz a)
  end.

(** vector/__init__.py:108-136 — rotate. *)
Definition vrotate (a : vec) (d : degarg) : res vec :=
  match quarter d with Some k => Ok (rotq k a) | None => Err OutOfModel end.

(** vector/__init__.py:138-157 — offset_rotate.  [offset=None] makes the addition
    raise (None has no [fine]; for a BaseVector the class test fails). *)
Definition voffset_rotate (a : vec) (d : degarg) (offset : vec) : res vec :=
  let! s := vadd a offset in let! r := vrotate s d in vsub r offset.

(** vector/orientations.py:7-17 — the constants, with the value the rotate calls
    compute (checked by [orientation_constants] in VecProofs.v). *)
Definition SELF := V Coarse (I 0) (I 0) (I 0).
Definition NORTH := V Coarse (I 0) (I 1) (I 0).
Definition WEST := rotq 1 NORTH.
Definition SOUTH := rotq 2 NORTH.
Definition EAST := rotq 3 NORTH.
Definition CARDINALS := [EAST; NORTH; WEST; SOUTH].
(** vector/orientations.py:28-39. *)
Definition ABOVE := V Coarse (I 0) (I 0) (I 1).
Definition BELOW := V Coarse (I 0) (I 0) (I (-1)).
Definition TILE_CENTER := V Fine (I 4) (I 4) (I 0).
Definition HALF_HEIGHT := V Fine (I 0) (I 0) (I 4).
Definition VOXEL_OFFSET := V Fine (H 1) (H 1) (H 1).
Definition TILE_VOX_OFF := V Fine (H (-7)) (H (-7)) (H 1).
(** vector/orientations.py:41-46. *)
Definition NORTH_FINE := V Fine (I 0) (I 1) (I 0).
Definition WEST_FINE := rotq 1 NORTH_FINE.
Definition SOUTH_FINE := rotq 2 NORTH_FINE.
Definition EAST_FINE := rotq 3 NORTH_FINE.
Definition ABOVE_FINE := V Fine (I 0) (I 0) (I 1).
Definition BELOW_FINE := V Fine (I 0) (I 0) (I (-1)).

(** vector/orientations.py:49-59 — get_vector_rotation, on axis-parallel vectors:
    int(180 * atan2(y, x) / pi); atan2 gives -90 for south. *)
Definition get_vector_rotation (v : vec) : res Z :=
  match quarter (DVec v) with
  | Some 0 => Ok 0 | Some 1 => Ok 90 | Some 2 => Ok 180 | Some _ => Ok (-90)
  | None => Err OutOfModel
  end.

(** vector/orientations.py:62-71 — rotate_yaw. *)
Definition rotate_yaw (angle : Z) (o : vec) : res Z :=
  if veq o EAST then Ok (angle mod 360)
  else if veq o NORTH then Ok ((angle + 90) mod 360)
  else if veq o WEST then Ok ((angle + 180) mod 360)
  else if veq o SOUTH then Ok ((angle + 270) mod 360)
  else Err UserExn.
