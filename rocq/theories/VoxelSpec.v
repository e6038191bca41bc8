(** Vocabulary for the voxel world properties. *)
From Verif Require Import Py VecModel VoxelModel.

(** Position of a stored entry (doubled coordinates). *)
Definition kpos (k : key) : Z * Z * Z :=
  let '(x, y, z) := k in (halves x, halves y, halves z).

(** Coordinates of a position. *)
Definition p1 (p : Z * Z * Z) := fst (fst p).
Definition p2 (p : Z * Z * Z) := snd (fst p).
Definition p3 (p : Z * Z * Z) := snd p.

(** A pair is the tight bound of a list of numbers and two start values. *)
Definition tight (b : Z * Z) (lo hi : Z) (l : list Z) : Prop :=
  (fst b = lo \/ In (fst b) l) /\ (snd b = hi \/ In (snd b) l) /\
  fst b <= lo /\ hi <= snd b /\ (forall c, In c l -> fst b <= c <= snd b).

Section Spec.
Context {A : Type}.

(** Calls on a voxel world. *)
Inductive wop :=
| SetPoint (x y z : num) (a : A) | SetPointV (v : vec) (a : A)
| DelPoint (x y z : num) | DelPointV (v : vec).

(** Executing a history with the model's methods. *)
Definition wstep (w : world A) (o : wop) : world A :=
  match o with
  | SetPoint x y z a => set_point w x y z a
  | SetPointV v a => set_pointv w v a
  | DelPoint x y z => del_point w x y z
  | DelPointV v => del_pointv w v
  end.
Definition wrun (ops : list wop) (w : world A) : world A := fold_left wstep ops w.

(** Position a call refers to (doubled coordinates, so that 3 and 3.0 agree) and
    what it stores there. *)
Definition op_pos (o : wop) : Z * Z * Z :=
  match o with
  | SetPoint x y z _ | DelPoint x y z => (halves x, halves y, halves z)
  | SetPointV v _ | DelPointV v => (halves (vx v), halves (vy v), halves (vz v))
  end.
Definition op_val (o : wop) : option A :=
  match o with SetPoint _ _ _ a | SetPointV _ a => Some a | _ => None end.

Definition pos_eqb (p q : Z * Z * Z) : bool :=
  let '(x, y, z) := p in let '(x', y', z') := q in (x =? x') && (y =? y') && (z =? z').

(** Value of position [p] after a history given latest call first. *)
Fixpoint latest (rev_ops : list wop) (p : Z * Z * Z) : option A :=
  match rev_ops with
  | [] => None
  | o :: r => if pos_eqb (op_pos o) p then op_val o else latest r p
  end.

(** Positions passed to the set calls of a history. *)
Definition set_positions (ops : list wop) : list (Z * Z * Z) :=
  map op_pos (filter (fun o => match op_val o with Some _ => true | None => false end) ops).

(** Octree lookup: in a node of side 2^(S k) the child number has the k-th bit of
    x, y, z as bits 0, 1, 2; a leaf covers its whole cube. *)
Fixpoint tlookup (k : nat) (t : tree A) (x y z : Z) : option A :=
  match t with
  | TEmpty => None
  | TVox a => Some a
  | TNode l =>
      match k with
      | O => None
      | S k' =>
          let bit c := Z.to_nat ((c / 2 ^ Z.of_nat k') mod 2) in
          match nth_error l (bit x + 2 * bit y + 4 * bit z)%nat with
          | Some t' => tlookup k' t' x y z
          | None => None
          end
      end
  end.

(** A well-shaped octree of depth k: inner nodes have eight children, not all of
    them empty; voxels sit exactly at depth k. *)
Fixpoint shaped (k : nat) (t : tree A) : Prop :=
  match t with
  | TEmpty => True
  | TVox _ => k = O
  | TNode l =>
      match k with
      | O => False
      | S k' => List.length l = 8%nat /\ (exists t', In t' l /\ t' <> TEmpty) /\
                (fix all (l : list (tree A)) : Prop :=
                   match l with [] => True | t' :: l' => shaped k' t' /\ all l' end) l
      end
  end.

(** [within t n u]: [u] sits [n] levels below [t]. *)
Inductive within : tree A -> nat -> tree A -> Prop :=
| within_here t : within t 0 t
| within_below l t n u : In t l -> within t n u -> within (TNode l) (S n) u.

(** [a] is one of the voxels in the tree. *)
Inductive holds : tree A -> A -> Prop :=
| holds_here a : holds (TVox a) a
| holds_below l t a : In t l -> holds t a -> holds (TNode l) a.

End Spec.
Arguments wop A : clear implicits.
