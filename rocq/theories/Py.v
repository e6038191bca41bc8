(** Python values used by the model: exceptions as values, numbers, ordered
    dictionaries, ranges.  Nothing here models a particular line of /repo; it is
    the small part of Python semantics the other files rely on. *)
From Coq Require Export List ZArith Bool Lia String Permutation.
From Coq Require Export ZifyBool ZifyNat.
Export ListNotations.
#[global] Open Scope Z_scope.
#[global] Open Scope list_scope.

(** Exceptions.  [UserExn] is a bare [raise Exception(...)]; [OutOfModel] marks
    inputs the model deliberately does not cover (never a Python outcome);
    [OutOfFuel] is the exhaustion of a fuel argument. *)
Inductive exn :=
| TypeError | ValueError | KeyError | AttributeError | IndexError | StructError
| AssertionError | NotImplementedError | ZeroDivisionError | RecursionError
| OverflowError | UnboundLocalError | EOFError | FileNotFoundError
| SystemExit (code : Z) | UserExn | OutOfModel | OutOfFuel.

(** Result of a Python call: a value or a raised exception. *)
Inductive res (A : Type) := Ok (a : A) | Err (e : exn).
Arguments Ok {A} a.
Arguments Err {A} e.

Definition bind {A B} (x : res A) (f : A -> res B) : res B :=
  match x with Ok a => f a | Err e => Err e end.
Notation "'let!' x ':=' e 'in' k" := (bind e (fun x => k))
  (at level 200, x pattern, right associativity).

(** Numbers: [I z] is the Python int z; [H h] is the Python float of value h/2.
    All coordinates computed by the program lie on the half-integer grid.
    Simplification: float arithmetic on the grid is exact (true in binary64 up to
    2^52). *)
Inductive num := I (z : Z) | H (h : Z).

(** Twice the value. *)
Definition halves (n : num) : Z := match n with I z => 2 * z | H h => h end.

Definition nadd (a b : num) : num :=
  match a, b with I x, I y => I (x + y) | _, _ => H (halves a + halves b) end.
Definition nsub (a b : num) : num :=
  match a, b with I x, I y => I (x - y) | _, _ => H (halves a - halves b) end.
(** [n * m] for a Python int m. *)
Definition nmulz (n : num) (m : Z) : num :=
  match n with I z => I (z * m) | H h => H (h * m) end.
(** [n * (k/2)] for the Python float k/2; outside the grid is not modelled. *)
Definition nmulh (n : num) (k : Z) : res num :=
  if Z.even (halves n * k) then Ok (H (halves n * k / 2)) else Err OutOfModel.
(** [n / m] for a Python int m (true division gives a float); quotients outside
    the grid are not modelled. *)
Definition ndiv (n : num) (m : Z) : res num :=
  if m =? 0 then Err ZeroDivisionError
  else if halves n mod m =? 0 then Ok (H (halves n / m)) else Err OutOfModel.
(** [math.floor(n)]. *)
Definition nfloor (n : num) : Z := match n with I z => z | H h => h / 2 end.
(** [n // m] for a positive Python int m. *)
Definition nfloordiv (n : num) (m : Z) : num :=
  match n with I z => I (z / m) | H h => H (2 * (h / (2 * m))) end.
(** [math.floor(n / m)] for a positive Python int m. *)
Definition nfdiv (n : num) (m : Z) : num := I (halves n / (2 * m)).
(** Python comparisons compare values, not types. *)
Definition neqb (a b : num) : bool := halves a =? halves b.
Definition nltb (a b : num) : bool := halves a <? halves b.
Definition nleb (a b : num) : bool := halves a <=? halves b.
(** [int(n)]: truncation towards zero. *)
Definition ntrunc (n : num) : Z := match n with I z => z | H h => Z.quot h 2 end.
Definition nmax (a b : num) : num := if nltb a b then b else a.

(** [range(a, b)] on ints. *)
Definition zrange (a b : Z) : list Z :=
  map (fun i => a + Z.of_nat i) (seq 0 (Z.to_nat (b - a))).

(** [range(n)] on a Python number: floats are rejected with TypeError. *)
Definition py_range (n : num) : res (list Z) :=
  match n with I z => Ok (zrange 0 z) | H _ => Err TypeError end.

(** Ordered dictionaries: association lists in insertion order. *)
Section Dict.
  Context {K V : Type} (eqb : K -> K -> bool).
  (** [d.get(k)] *)
  Fixpoint dget (d : list (K * V)) (k : K) : option V :=
    match d with
    | [] => None
    | (k', v) :: d' => if eqb k' k then Some v else dget d' k
    end.
  (** [k in d] *)
  Definition dmem (d : list (K * V)) (k : K) : bool :=
    match dget d k with Some _ => true | None => false end.
  (** [d[k] = v]: an existing key keeps its place (and its original key object). *)
  Fixpoint dset (d : list (K * V)) (k : K) (v : V) : list (K * V) :=
    match d with
    | [] => [(k, v)]
    | (k', v') :: d' => if eqb k' k then (k', v) :: d' else (k', v') :: dset d' k v
    end.
  (** [del d[k]] guarded by membership. *)
  Fixpoint ddel (d : list (K * V)) (k : K) : list (K * V) :=
    match d with
    | [] => []
    | (k', v') :: d' => if eqb k' k then d' else (k', v') :: ddel d' k
    end.
End Dict.

(** Left-to-right loop whose body may raise. *)
Fixpoint foldM {A B} (f : B -> A -> res B) (l : list A) (b : B) : res B :=
  match l with
  | [] => Ok b
  | x :: l' => let! b' := f b x in foldM f l' b'
  end.

(** List comprehension whose body may raise. *)
Section MapM.
  Context {A B : Type} (f : A -> res B).
  Fixpoint mapM (l : list A) : res (list B) :=
    match l with
    | [] => Ok []
    | x :: l' => let! y := f x in let! ys := mapM l' in Ok (y :: ys)
    end.
End MapM.

Fixpoint existsb_eq {A} (eqb : A -> A -> bool) (x : A) (l : list A) : bool :=
  match l with [] => false | y :: l' => eqb y x || existsb_eq eqb x l' end.
