(** Vocabulary for the distribution properties. *)
From Coq Require Import QArith.
From Verif Require Import Py DistModel.
Local Open Scope string_scope.

(** The managers of the program. *)
Definition managers : list distman := [uniform_dist; tower_dist; platform_dist; castle_dist].
(** No pair is listed in both orders with different probabilities. *)
Definition consistent (d : distman) : Prop :=
  forall a b p q, dget pair_eqb (d_table d) (a, b) = Some p -> dget pair_eqb (d_table d) (b, a) = Some q -> p = q.
Definition general_types : list string :=
  ["hallway"; "hallway_jump"; "oriented"; "platform"; "platform_setpiece"; "stair"; "vertical"].
Definition castle_types : list string :=
  ["hallway"; "hallway_setpiece"; "setpiece_small"; "setpiece_medium"; "setpiece_large"; "stair"].
Definition types_of (d : distman) : list string := if d_mirror d then castle_types else general_types.
