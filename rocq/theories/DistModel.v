(** Model of redeclipse/prefabs/distributions.py.

    Simplification.  A probability written as a decimal is that rational number (the program
    holds the nearest binary64 number). *)
From Coq Require Import QArith.
From Verif Require Import Py UpmModel.
Local Open Scope string_scope.

(** Keys: pairs of room types. *)
Definition pair_eqb (a b : string * string) : bool := String.eqb (fst a) (fst b) && String.eqb (snd a) (snd b).
(** distributions.py:1-3 — the two class attributes. *)
Record distman := DM { d_mirror : bool; d_table : list ((string * string) * Q) }.
(** distributions.py:5-12 — tp. *)
Definition tp (d : distman) (a b : string) : res Q :=
  match dget pair_eqb (d_table d) (a, b) with
  | Some p => Ok p
  | None => if d_mirror d
            then match dget pair_eqb (d_table d) (b, a) with Some p => Ok p | None => Err KeyError end
            else Err UserExn
  end.
(** distributions.py:14-20 — for_class of a class with the given room_type. *)
Definition for_class (d : distman) (ty : string) : list (string * Q) :=
  fold_left (fun f kp => if String.eqb (fst (fst kp)) ty then dset String.eqb f (snd (fst kp)) (snd kp) else f) (d_table d) [].
(** prefabs/__init__.py:54-58 with upm.py:254 — what the position manager sees. *)
Definition env_of (d : distman) (round : Q -> Q) : env := E (fun a b => dget String.eqb (for_class d a) b) round.

(** distributions.py:23-81. *)
Definition uniform_dist : distman := DM false
  [(("hallway", "hallway"), (1 # 1)); (("hallway", "hallway_jump"), (1 # 1)); (("hallway", "oriented"), (1 # 1));
   (("hallway", "platform"), (1 # 1)); (("hallway", "platform_setpiece"), (1 # 1)); (("hallway", "stair"), (1 # 1));
   (("hallway", "vertical"), (1 # 1)); (("hallway_jump", "hallway"), (1 # 1)); (("hallway_jump", "hallway_jump"), (1 # 1));
   (("hallway_jump", "oriented"), (1 # 1)); (("hallway_jump", "platform"), (1 # 1)); (("hallway_jump", "platform_setpiece"), (1 # 1));
   (("hallway_jump", "stair"), (1 # 1)); (("hallway_jump", "vertical"), (1 # 1)); (("oriented", "hallway"), (1 # 1));
   (("oriented", "hallway_jump"), (1 # 1)); (("oriented", "oriented"), (1 # 1)); (("oriented", "platform"), (1 # 1));
   (("oriented", "platform_setpiece"), (1 # 1)); (("oriented", "stair"), (1 # 1)); (("oriented", "vertical"), (1 # 1));
   (("platform", "hallway"), (1 # 1)); (("platform", "hallway_jump"), (1 # 1)); (("platform", "oriented"), (1 # 1));
   (("platform", "platform"), (1 # 1)); (("platform", "platform_setpiece"), (1 # 1)); (("platform", "stair"), (1 # 1));
   (("platform", "vertical"), (1 # 1)); (("platform_setpiece", "hallway"), (1 # 1)); (("platform_setpiece", "hallway_jump"), (1 # 1));
   (("platform_setpiece", "oriented"), (1 # 1)); (("platform_setpiece", "platform"), (1 # 1)); (("platform_setpiece", "platform_setpiece"), (1 # 1));
   (("platform_setpiece", "stair"), (1 # 1)); (("platform_setpiece", "vertical"), (1 # 1)); (("stair", "hallway"), (1 # 1));
   (("stair", "hallway_jump"), (1 # 1)); (("stair", "oriented"), (1 # 1)); (("stair", "platform"), (1 # 1));
   (("stair", "platform_setpiece"), (1 # 1)); (("stair", "stair"), (1 # 1)); (("stair", "vertical"), (1 # 1));
   (("vertical", "hallway"), (1 # 1)); (("vertical", "hallway_jump"), (1 # 1)); (("vertical", "oriented"), (1 # 1));
   (("vertical", "platform"), (1 # 1)); (("vertical", "platform_setpiece"), (1 # 1)); (("vertical", "stair"), (1 # 1));
   (("vertical", "vertical"), (1 # 1))]%Q.

(** distributions.py:84-142. *)
Definition tower_dist : distman := DM false
  [(("hallway", "hallway"), (7 # 10)); (("hallway", "hallway_jump"), (1 # 10)); (("hallway", "oriented"), (7 # 10));
   (("hallway", "platform"), (3 # 10)); (("hallway", "platform_setpiece"), (4 # 10)); (("hallway", "stair"), (10 # 10));
   (("hallway", "vertical"), (10 # 10)); (("hallway_jump", "hallway"), (14 # 10)); (("hallway_jump", "hallway_jump"), (1 # 100));
   (("hallway_jump", "oriented"), (8 # 10)); (("hallway_jump", "platform"), (6 # 10)); (("hallway_jump", "platform_setpiece"), (1 # 10));
   (("hallway_jump", "stair"), (1 # 10)); (("hallway_jump", "vertical"), (2 # 10)); (("oriented", "hallway"), (23 # 10));
   (("oriented", "hallway_jump"), (8 # 10)); (("oriented", "oriented"), (8 # 10)); (("oriented", "platform"), (6 # 10));
   (("oriented", "platform_setpiece"), (2 # 10)); (("oriented", "stair"), (8 # 10)); (("oriented", "vertical"), (13 # 10));
   (("platform", "hallway"), (8 # 10)); (("platform", "hallway_jump"), (4 # 10)); (("platform", "oriented"), (6 # 10));
   (("platform", "platform"), (1 # 10)); (("platform", "platform_setpiece"), (5 # 100)); (("platform", "stair"), (3 # 10));
   (("platform", "vertical"), (5 # 10)); (("platform_setpiece", "hallway"), (18 # 10)); (("platform_setpiece", "hallway_jump"), (4 # 10));
   (("platform_setpiece", "oriented"), (8 # 10)); (("platform_setpiece", "platform"), (1 # 10)); (("platform_setpiece", "platform_setpiece"), (1 # 100));
   (("platform_setpiece", "stair"), (2 # 10)); (("platform_setpiece", "vertical"), (3 # 10)); (("stair", "hallway"), (16 # 10));
   (("stair", "hallway_jump"), (2 # 10)); (("stair", "oriented"), (8 # 10)); (("stair", "platform"), (12 # 10));
   (("stair", "platform_setpiece"), (2 # 10)); (("stair", "stair"), (2 # 10)); (("stair", "vertical"), (10 # 10));
   (("vertical", "hallway"), (13 # 10)); (("vertical", "hallway_jump"), (2 # 10)); (("vertical", "oriented"), (8 # 10));
   (("vertical", "platform"), (5 # 10)); (("vertical", "platform_setpiece"), (1 # 10)); (("vertical", "stair"), (1 # 10));
   (("vertical", "vertical"), (1 # 10))]%Q.

(** distributions.py:145-203. *)
Definition platform_dist : distman := DM false
  [(("hallway", "hallway"), (37 # 10)); (("hallway", "hallway_jump"), (11 # 10)); (("hallway", "oriented"), (17 # 10));
   (("hallway", "platform"), (3 # 10)); (("hallway", "platform_setpiece"), (1 # 10)); (("hallway", "stair"), (30 # 10));
   (("hallway", "vertical"), (10 # 10)); (("hallway_jump", "hallway"), (34 # 10)); (("hallway_jump", "hallway_jump"), (1 # 10));
   (("hallway_jump", "oriented"), (8 # 10)); (("hallway_jump", "platform"), (1 # 10)); (("hallway_jump", "platform_setpiece"), (1 # 10));
   (("hallway_jump", "stair"), (30 # 10)); (("hallway_jump", "vertical"), (12 # 10)); (("oriented", "hallway"), (83 # 10));
   (("oriented", "hallway_jump"), (8 # 10)); (("oriented", "oriented"), (8 # 10)); (("oriented", "platform"), (2 # 10));
   (("oriented", "platform_setpiece"), (1 # 10)); (("oriented", "stair"), (18 # 10)); (("oriented", "vertical"), (13 # 10));
   (("platform", "hallway"), (88 # 10)); (("platform", "hallway_jump"), (4 # 10)); (("platform", "oriented"), (16 # 10));
   (("platform", "platform"), (1 # 10)); (("platform", "platform_setpiece"), (2 # 10)); (("platform", "stair"), (13 # 10));
   (("platform", "vertical"), (5 # 10)); (("platform_setpiece", "hallway"), (88 # 10)); (("platform_setpiece", "hallway_jump"), (4 # 10));
   (("platform_setpiece", "oriented"), (8 # 10)); (("platform_setpiece", "platform"), (1 # 10)); (("platform_setpiece", "platform_setpiece"), (1 # 10));
   (("platform_setpiece", "stair"), (2 # 10)); (("platform_setpiece", "vertical"), (3 # 10)); (("stair", "hallway"), (86 # 10));
   (("stair", "hallway_jump"), (12 # 10)); (("stair", "oriented"), (8 # 10)); (("stair", "platform"), (2 # 10));
   (("stair", "platform_setpiece"), (1 # 10)); (("stair", "stair"), (12 # 10)); (("stair", "vertical"), (10 # 10));
   (("vertical", "hallway"), (83 # 10)); (("vertical", "hallway_jump"), (2 # 10)); (("vertical", "oriented"), (8 # 10));
   (("vertical", "platform"), (1 # 10)); (("vertical", "platform_setpiece"), (1 # 10)); (("vertical", "stair"), (10 # 10));
   (("vertical", "vertical"), (1 # 10))]%Q.

(** distributions.py:206-235. *)
Definition castle_dist : distman := DM true
  [(("hallway", "hallway"), (1 # 1)); (("hallway", "hallway_setpiece"), (3 # 10)); (("hallway", "setpiece_small"), (1 # 10));
   (("hallway", "setpiece_medium"), (1 # 10)); (("hallway", "setpiece_large"), (5 # 100)); (("hallway", "stair"), (7 # 10));
   (("hallway_setpiece", "hallway_setpiece"), (1 # 10)); (("hallway_setpiece", "setpiece_large"), (1 # 10)); (("hallway_setpiece", "setpiece_medium"), (1 # 10));
   (("hallway_setpiece", "setpiece_small"), (1 # 10)); (("hallway_setpiece", "stair"), (1 # 1)); (("setpiece_large", "setpiece_large"), (1 # 10));
   (("setpiece_large", "setpiece_medium"), (1 # 10)); (("setpiece_large", "setpiece_small"), (1 # 10)); (("setpiece_large", "stair"), (1 # 10));
   (("setpiece_medium", "setpiece_medium"), (1 # 10)); (("setpiece_medium", "setpiece_small"), (1 # 10)); (("setpiece_medium", "stair"), (1 # 10));
   (("setpiece_small", "setpiece_small"), (1 # 10)); (("setpiece_small", "stair"), (1 # 10)); (("stair", "stair"), (1 # 1))]%Q.
