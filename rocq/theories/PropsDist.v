(** Distribution property C48.  Statements only; proofs are in DistProofs.v. *)
From Coq Require Import QArith Permutation.
From Verif Require Import Py UpmModel UpmSpec UpmRandom RoomClasses UpmSamples UpmFinal DistModel DistSpec DistProofs.
Local Open Scope string_scope.

(** A mirrored distribution without contradictions is symmetric, failures included. *)
Theorem C48_symmetric : forall d a b, d_mirror d = true -> consistent d -> tp d a b = tp d b a.
Proof. exact tp_symmetric. Qed.
Print Assumptions C48_symmetric.
(** The distribution of the program that is mirrored is symmetric. *)
Theorem C48_castle_symmetric : forall a b, tp castle_dist a b = tp castle_dist b a.
Proof. exact castle_symmetric. Qed.
Print Assumptions C48_castle_symmetric.
Example C48_symmetric_example : d_mirror castle_dist = true /\ consistent castle_dist /\
  tp castle_dist "hallway" "stair" = Ok (7 # 10)%Q /\ tp castle_dist "stair" "hallway" = Ok (7 # 10)%Q /\
  tp tower_dist "hallway" "platform" = Ok (3 # 10)%Q /\ tp tower_dist "platform" "hallway" = Ok (8 # 10)%Q.
Proof. split; [reflexivity|]. split; [exact castle_consistent|]. repeat split; vm_compute; reflexivity. Qed.

(** In the distributions of the program every probability is positive, and every pair of
    the room types of the distribution has one. *)
Theorem C48_positive : forall d a b p, In d managers -> tp d a b = Ok p -> (0 < p)%Q.
Proof. exact tp_positive. Qed.
Print Assumptions C48_positive.
Theorem C48_total : forall d a b, In d managers -> In a (types_of d) -> In b (types_of d) -> exists p, tp d a b = Ok p.
Proof. exact tp_total. Qed.
Print Assumptions C48_total.
Example C48_total_example : In castle_dist managers /\ In "setpiece_small" (types_of castle_dist) /\
  tp castle_dist "flagroom" "hallway" = Err KeyError.
Proof. split; [cbn; tauto|]. split; [cbn; tauto|reflexivity]. Qed.

(** The per-class table has exactly the entries listed for the class, and agrees with the
    pairwise lookup there; without mirroring they agree everywhere. *)
Theorem C48_class_partial : forall d a b, NoDup (map fst (d_table d)) ->
  (forall p, dget String.eqb (for_class d a) b = Some p -> tp d a b = Ok p) /\
  (d_mirror d = false -> tp d a b = match dget String.eqb (for_class d a) b with Some p => Ok p | None => Err UserExn end).
Proof. exact class_agrees. Qed.
Print Assumptions C48_class_partial.
Example C48_class_example : NoDup (map fst (d_table tower_dist)) /\ d_mirror tower_dist = false /\
  dget String.eqb (for_class tower_dist "hallway") "platform" = Some (3 # 10)%Q.
Proof. split; [apply managers_unique; cbn; tauto|]. split; vm_compute; reflexivity. Qed.
(** Refuted: in the mirrored distribution, which is the one in use, the per-class table of
    the stairs lacks the hallways that the lookup knows. *)
Theorem C48_class_refuted : In castle_dist managers /\ tp castle_dist "stair" "hallway" = Ok (7 # 10)%Q /\
  dget String.eqb (for_class castle_dist "stair") "hallway" = None /\
  for_class castle_dist "stair" = [("stair", (1 # 1)%Q)].
Proof. exact class_refuted. Qed.
Print Assumptions C48_class_refuted.

(** So with every distribution of the program a stream of candidate rooms offers every
    option, each once. *)
Theorem C48_streams_complete : forall d round prev opts g x g', In d managers ->
  (forall q, (1 <= q)%Q -> (1 <= round q)%Q) -> opts <> [] -> NoDup (map rc_id opts) ->
  room_stream (env_of d round) prev opts g = (x, g') -> exists cs, x = Ok cs /\ Permutation cs opts.
Proof. exact managers_stream. Qed.
Print Assumptions C48_streams_complete.
Example C48_streams_example : In castle_dist managers /\ (forall q, (1 <= q)%Q -> (1 <= (fun x => x) q)%Q) /\
  opts0 <> [] /\ NoDup (map rc_id opts0) /\
  match fst (room_stream (env_of castle_dist (fun x => x)) start4 opts0 g0) with Ok cs => List.length cs | Err _ => O end = 3%nat.
Proof.
  split; [cbn; tauto|]. split; [auto|]. split; [discriminate|].
  split; [vm_compute; repeat constructor; cbn; intuition discriminate|vm_compute; reflexivity].
Qed.
