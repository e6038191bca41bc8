(** Vocabulary for the terrain programs. *)
From Coq Require Import QArith Qabs.
From Verif Require Import Py VecModel VoxelModel CodecModel OutModel OutSpec.
Local Open Scope Z_scope.

(** The number in [0, 1) of a draw of 53 bits. *)
Definition unit_of (z : Z) : Q := Qmake (z mod 2 ^ 53) (2 ^ 53).
(** Reading order of the cells of a square. *)
Definition earlier (a b : Z * Z) : bool := (fst a <? fst b) || ((fst a =? fst b) && (snd a <? snd b)).
Definition square (n : Z) : list (Z * Z) := list_prod (zrange 0 n) (zrange 0 n).
(** Number of cells that satisfy [p], and of those before [c]. *)
Definition how_many (n : Z) (p : Z * Z -> bool) : nat := List.length (filter p (square n)).
Definition how_many_before (n : Z) (p : Z * Z -> bool) (c : Z * Z) : nat := how_many n (fun b => p b && earlier b c).
(** Values the noise library returns. *)
Definition bounded (noise : Z -> Z -> Q -> Q -> Q) : Prop := forall o b x y, (- (1) <= noise o b x y <= 1)%Q.

(** perlin: a cell of the forest gets a tree if its draw is below a quarter of the density.  Only
    cells of the forest draw, in reading order. *)
Definition forest (noise : Z -> Z -> Q -> Q -> Q) (c : Z * Z) : Q := noise 2 128 (Qmake (snd c) 32) (Qmake (fst c) 32).
Definition dense (w : Q) : bool := if Qlt_le_dec w (Qmake (-1) 10) then true else false.
Definition planted (noise : Z -> Z -> Q -> Q -> Q) (g : nat -> Z) (c : Z * Z) : Prop :=
  (forest noise c < Qmake (-1) 10)%Q /\
  (unit_of (g (how_many_before 128 (fun b => dense (forest noise b)) c)) < Qabs (forest noise c) / inject_Z 4)%Q.
(** Blocks of four by four columns get a building; their draws follow those of the trees. *)
Definition town (noise : Z -> Z -> Q -> Q -> Q) (c : Z * Z) : Q := noise 2 64 (Qmake (snd c) 32) (Qmake (fst c) 32).
Definition built (noise : Z -> Z -> Q -> Q -> Q) (g : nat -> Z) (c : Z * Z) : Prop :=
  let b := (fst c / 4, snd c / 4) in
  (town noise b < Qmake (-1) 10)%Q /\
  (unit_of (g (how_many 128 (fun b => dense (forest noise b)) + how_many_before 32 (fun b => dense (town noise b)) b)%nat) <
   Qabs (town noise b) / inject_Z 3)%Q.
(** Height of the ground. *)
Definition ground (noise : Z -> Z -> Q -> Q -> Q) (i j : Z) : Q := (inject_Z 30 + inject_Z 5 * noise 1%Z 0%Z (Qmake i 32) (Qmake j 32))%Q.

(** What is at height [k] of a column: a tree is a pillar of 50; otherwise ground below the height,
    then four layers of a building if there is one. *)
Definition column (noise : Z -> Z -> Q -> Q -> Q) (g : nat -> Z) (i j k : Z) (t : option (list Z)) : Prop :=
  (50 <= k -> t = None) /\
  (k < 50 ->
    (planted noise g (i, j) -> t = Some [58; 58; 58; 58; 59; 59]) /\
    (~ planted noise g (i, j) ->
      ((inject_Z k < ground noise i j)%Q -> t = Some [23; 23; 23; 23; 22; 61]) /\
      ((ground noise i j <= inject_Z k)%Q -> (inject_Z k < ground noise i j + inject_Z 4)%Q -> built noise g (i, j) -> t = Some [57; 57; 57; 57; 57; 57]) /\
      ((ground noise i j <= inject_Z k)%Q -> (ground noise i j + inject_Z 4 <= inject_Z k)%Q \/ ~ built noise g (i, j) -> t = None))).

(** snow_forest: whether there is a tree, a spawn point or a rock. *)
Definition grove (noise : Z -> Z -> Q -> Q -> Q) (seed : Z) (wide near : Q) (i j : Z) : Prop :=
  (wide <= noise 2%Z seed (Qmake (58 * i) 320) (Qmake (22 * j) 320))%Q /\
  (Qmake 1 5 < noise 2%Z seed (Qmake (538 * i) 320) (Qmake (462 * j) 320) < near)%Q.
Definition has_tree noise i j : Prop := grove noise 0 (Qmake 1 5) (Qmake 215 1000) i j.
Definition has_spawn noise i j : Prop := grove noise 0 (Qmake 1 5) (Qmake 215 1000) (i + 1) (j + 1).
Definition has_rock noise i j : Prop := grove noise 100 (Qmake 275 1000) (Qmake 210 1000) i j.
(** The ground: the greatest whole number not above the height (heights are positive). *)
Definition snow_level (noise : Z -> Z -> Q -> Q -> Q) (i j h : Z) : Prop :=
  let q := (inject_Z 60 + inject_Z 15 * noise 2%Z 0%Z (Qmake (3 * i) 320) (Qmake (7 * j) 320))%Q in
  (inject_Z h <= q < inject_Z (h + 1))%Q.
Definition snowy (noise : Z -> Z -> Q -> Q -> Q) (i j : Z) : Prop := (noise 2%Z 100%Z (Qmake (9 * j) 320) (Qmake (7 * i) 320) < 0)%Q.
Definition on_border (i j : Z) : Prop := i = 0 \/ j = 0 \/ i = 255 \/ j = 255.
(** Ground two blocks thick, on the border a wall up to nine blocks above it. *)
Definition snow_block (i j h z : Z) : Prop := h - 2 <= z < h \/ (on_border i j /\ h - 2 <= z < h + 9).
