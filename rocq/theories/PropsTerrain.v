(** Properties C73 and C74 of the terrain programs.  Statements only; proofs are in
    TerrainProofs.v. *)
From Coq Require Import QArith.
From Verif Require Import Py VecModel VoxelModel CodecModel CodecSpec OutModel OutSpec TerrainModel TerrainSpec TerrainProofs PropsGen.
Local Open Scope Z_scope.

(** C73: perlin writes a readable map whose columns are exactly those of the noise and the draws, and
    no block floats. *)
Theorem C73_columns : forall fuel noise m ws g, bounded noise -> (8 <= fuel)%nat -> wf_map m -> header_size m = Some ws -> 128 <= ws <= 8192 ->
  exists bs m', perlin fuel noise m g = Ok bs /\ read_rest bs = Ok (m', []) /\ same_rest m m' /\
    forall i j k, 0 <= i < 128 -> 0 <= j < 128 -> 0 <= k < 128 -> column noise g i j k (world_lookup 7 m' i j k).
Proof. exact perlin_lemma. Qed.
Print Assumptions C73_columns.
Theorem C73_no_floating : forall fuel noise m ws g bs m', bounded noise -> (8 <= fuel)%nat -> wf_map m -> header_size m = Some ws -> 128 <= ws <= 8192 ->
  perlin fuel noise m g = Ok bs -> read_rest bs = Ok (m', []) ->
  forall i j k, 0 <= i < 128 -> 0 <= j < 128 -> 0 < k < 128 -> world_lookup 7 m' i j k <> None -> world_lookup 7 m' i j (k - 1) <> None.
Proof. exact perlin_floats. Qed.
Print Assumptions C73_no_floating.
(** A noise with a forest in the whole square; the first draw is small enough for a tree. *)
Example C73_example : let noise := fun _ _ _ _ : Q => (- (1))%Q in
  bounded (fun _ _ x y => noise x y x y) /\ planted (fun _ _ x y => noise x y x y) (fun _ => 5) (0, 0) /\ built (fun _ _ x y => noise x y x y) (fun _ => 5) (127, 3) /\
  ~ planted (fun _ _ x y => noise x y x y) (fun _ => 2 ^ 52) (0, 0) /\
  wf_map map256 /\ header_size map256 = Some 256.
Proof.
  cbv zeta. split; [intros o b x y; split; vm_compute; discriminate|]. split; [split; reflexivity|]. split; [split; reflexivity|].
  split; [intros [_ H]; revert H; unfold unit_of; vm_compute; discriminate|]. split; apply hypotheses_met.
Qed.

(** C74: snow_forest makes a forest.  Refuted: it cannot place a single tree, spawn point or rock;
    the entities have no parameters x, y and z. *)
Theorem C74_features_refuted : forall fuel noise m,
  (exists i j, (0 <= i < 256) /\ (0 <= j < 256) /\ (has_tree noise i j \/ has_spawn noise i j \/ has_rock noise i j)) -> snow_forest fuel noise m = Err TypeError.
Proof. exact snow_fails. Qed.
Print Assumptions C74_features_refuted.
Example C74_refuted_example : bounded (fun _ _ _ _ => Qmake 21 100) /\ has_tree (fun _ _ _ _ => Qmake 21 100) 7 9.
Proof. split; [intros o b x y; split; vm_compute; discriminate|]. split; [vm_compute; discriminate|split; vm_compute; reflexivity]. Qed.
(** Without any of them the ground is written as the noise says. *)
Theorem C74_ground_partial : forall fuel noise m ws, bounded noise -> (9 <= fuel)%nat -> wf_map m -> header_size m = Some ws -> 256 <= ws <= 8192 ->
  (forall i j, 0 <= i < 256 -> 0 <= j < 256 -> ~ has_tree noise i j /\ ~ has_spawn noise i j /\ ~ has_rock noise i j) ->
  exists bs m', snow_forest fuel noise m = Ok bs /\ read_rest bs = Ok (m', []) /\ same_rest m m' /\
    forall i j z h, 0 <= i < 256 -> 0 <= j < 256 -> 0 <= z < 256 -> snow_level noise i j h ->
      (snow_block i j h z -> (snowy noise i j -> world_lookup 8 m' i j z = Some (repeat 13 6)) /\ (~ snowy noise i j -> world_lookup 8 m' i j z = Some (repeat 11 6))) /\
      (~ snow_block i j h z -> world_lookup 8 m' i j z = None).
Proof. exact snow_lemma. Qed.
Print Assumptions C74_ground_partial.
Example C74_example : bounded (fun _ _ _ _ => 0%Q) /\ snow_level (fun _ _ _ _ => 0%Q) 3 4 60 /\
  forall i j, 0 <= i < 256 -> 0 <= j < 256 -> ~ has_tree (fun _ _ _ _ => 0%Q) i j /\ ~ has_spawn (fun _ _ _ _ => 0%Q) i j /\ ~ has_rock (fun _ _ _ _ => 0%Q) i j.
Proof.
  split; [intros o b x y; split; vm_compute; discriminate|]. split; [split; vm_compute; congruence|].
  intros i j _ _. split; [|split]; intros (_ & H & _); revert H; vm_compute; discriminate.
Qed.
