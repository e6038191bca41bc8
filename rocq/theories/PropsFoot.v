(** Properties C91 to C93: crossing the shipped rooms and generated maps on foot.  Statements only;
    proofs are in FootProofs.v, FootRooms.v and FootGen.v. *)
From Verif Require Import Py VecModel VecSpec VoxelModel VoxelSpec CodecModel CodecSpec OutModel OutSpec CodecSamples UpmModel UpmSpec KitModel KitSpec
  RoomModel MagicaModel RoomSpec TexModel TexSpec TexProofs LightModel LightSpec VoxFileModel ShippedModel ShippedSpec DistModel DistSpec GenModel GenSpec GenProofs
  PropsGen PassSpec PassProofs PassGen FootSpec FootRooms FootGen PassCheck.
Local Open Scope Z_scope.

(** C91: every doorway of a shipped room has a whole floor, one voxel above the bottom of its cell, so
    that the floors of two rooms that are joined meet at the same height.  Refuted for seven classes,
    at every position and for every turn. *)
Theorem C91_level_refuted : forall s p t, In s uneven -> In s shipped_rooms /\
  exists d, In d (doorways (room_of s p t)) /\ ~ level_doorway (room_of s p t) d.
Proof. exact uneven_doors. Qed.
Print Assumptions C91_level_refuted.
(** All other classes have level doorways only. *)
Theorem C91_level_partial : forall s p t d, In s shipped_rooms -> ~ In s uneven -> In d (doorways (room_of s p t)) -> level_doorway (room_of s p t) d.
Proof. exact level_doors. Qed.
Print Assumptions C91_level_partial.
(** Through two level doorways that face each other a body passes without rising at all. *)
Theorem C91_passes : forall r r' d o (air block : cell -> Prop), side (d, o) = true -> level_doorway r (d, o) -> level_doorway r' (csub d o, opposite o) ->
  (forall v, room_air r v \/ room_air r' v -> air v) -> (forall v, built r v \/ built r' v -> block v) ->
  forall e, In e [0; 1; -1] -> hike air block 0 (threshold (d, o) e 1) (threshold (csub d o, opposite o) (- e) 1).
Proof. exact level_passes. Qed.
Print Assumptions C91_passes.
Example C91_example : In castle_large shipped_rooms /\ ~ In castle_large uneven /\ List.length (doorways (room_of castle_large (3, -2, 7) T1)) = 4%nat /\
  In (3, 0, 0, (1, 0, 0)) (doorways (room_of station_tube3 (0, 0, 0) T0)) /\ In (csub (3, 0, 0) (1, 0, 0), opposite (1, 0, 0)) (doorways (room_of station_tube3 (3, 0, 0) T0)).
Proof.
  split; [unfold shipped_rooms; repeat (first [left; reflexivity | right])|]. split; [|split; [vm_compute; reflexivity|split; vm_compute; auto]].
  intros H. repeat (destruct H as [H|H]; [apply (f_equal (fun s => rc_id (s_class s))) in H; vm_compute in H; discriminate|]). destruct H.
Qed.

(** C92: in every shipped room a player on foot can go from each doorway to every other one without a
    step higher than one voxel.  Refuted for the divided classes, however high the steps, *)
Theorem C92_divided_refuted : forall s p t h, In s divided -> ~ on_foot h (room_of s p t).
Proof. exact divided_stuck. Qed.
Print Assumptions C92_divided_refuted.
(** and for the classes that need more, see [rises]: what is needed is exact, at every position and
    for every turn. *)
Theorem C92_crossing_partial : forall s p t k h, In s shipped_rooms -> ~ In s divided -> needs s k -> (on_foot h (room_of s p t) <-> k <= h).
Proof. exact crossing. Qed.
Print Assumptions C92_crossing_partial.
Theorem C92_steps_refuted : forall p t, ~ on_foot 9 (room_of castle_large p t).
Proof.
  intros p t F. apply (crossing castle_large p t 10 9) in F; [lia| | |left; unfold rises; cbn [In]; auto 10].
  - unfold shipped_rooms. repeat (first [left; reflexivity | right]).
  - intros K. repeat (destruct K as [K|K]; [apply (f_equal (fun s => rc_id (s_class s))) in K; vm_compute in K; discriminate|]). destruct K.
Qed.
Print Assumptions C92_steps_refuted.
Example C92_example : In statue_cat shipped_rooms /\ ~ In statue_cat divided /\ needs statue_cat 0 /\ needs station_tube3layered 16 /\
  List.length (doorways (room_of statue_cat (1, 2, 3) T3)) = 14%nat.
Proof.
  split; [unfold shipped_rooms; repeat (first [left; reflexivity | right])|]. split; [|split; [|split; [left; unfold rises; cbn [In]; auto 10|vm_compute; reflexivity]]].
  - intros H. repeat (destruct H as [H|H]; [apply (f_equal (fun s => rc_id (s_class s))) in H; vm_compute in H; discriminate|]). destruct H.
  - right. split; [reflexivity|]. intros j H.
    repeat (destruct H as [H|H]; [apply (f_equal (fun s => rc_id (s_class (fst s)))) in H; vm_compute in H; discriminate|]). destruct H.
Qed.

(** C93: in a generated map a player on foot whose steps are at most ten voxels high can reach every
    doorway from the first room or one of its mirror images.  Refuted, even where C80 is not: there is
    a run without a divided gate after which a doorway cannot be reached. *)
Theorem C93_foot_refuted : forall hue vecs tm m, true_vectors vecs -> manager tm ->
  exists fuel e rooms g tm' w m2 st g', good_env e /\ generate fuel e hue vecs tm 256 (Some 1) false false rooms m g = (tm', Ok (w, m2, st), g') /\
    (forall ob, In ob (u_rooms st) -> ~ is_gate (snd ob)) /\
    exists ob d, In ob (u_rooms st) /\ In d (doorways (snd ob)) /\
    forall ob0 d0, In ob0 (u_rooms st) -> first_of 1 false (snd ob0) -> In d0 (doorways (snd ob0)) -> ~ hikes (world_air w (u_rooms st)) (world_block w) 10 d0 d.
Proof. exact high_map. Qed.
Print Assumptions C93_foot_refuted.
(** With steps of eleven voxels every doorway can be reached from one of the first rooms or of the
    divided gates. *)
Theorem C93_foot_partial : forall fuel e hue vecs tm size n ctf rooms m g tm' w m2 st g',
  true_vectors vecs -> manager tm -> mirror_factor n -> good_env e ->
  generate fuel e hue vecs tm size (Some n) false ctf rooms m g = (tm', Ok (w, m2, st), g') ->
  forall ob d, In ob (u_rooms st) -> In d (doorways (snd ob)) ->
  exists ob0 d0, In ob0 (u_rooms st) /\ (first_of n ctf (snd ob0) \/ is_gate (snd ob0)) /\ In d0 (doorways (snd ob0)) /\
    hikes (world_air w (u_rooms st)) (world_block w) 11 d0 d.
Proof. exact world_foot. Qed.
Print Assumptions C93_foot_partial.
(** The same holds in the map file that is written, if all rooms are inside of its world. *)
Theorem C93_file_partial : forall k fuel fuelo e hue vecs tm n ctf rooms m ws g tm' w m2 st g' bs m',
  true_vectors vecs -> byte_hues hue -> manager tm -> mirror_factor n -> good_env e ->
  (7 <= k)%nat -> (S k < fuelo)%nat -> wf_map m -> header_size m = Some ws -> 2 ^ Z.of_nat (S k) <= ws <= 8192 ->
  Z.of_nat (List.length (tm_atlas tm)) <= 57000 -> len (m_ents m) <= 2 ^ 30 ->
  generate fuel e hue vecs tm (2 ^ Z.of_nat (S k)) (Some n) false ctf rooms m g = (tm', Ok (w, m2, st), g') ->
  output_map fuelo w m2 = Ok bs -> read_rest bs = Ok (m', []) ->
  (forall ob c, In ob (u_rooms st) -> In c (positions (snd ob)) -> in_world (2 ^ Z.of_nat (S k) / 8) c) ->
  forall ob d, In ob (u_rooms st) -> In d (doorways (snd ob)) ->
  exists ob0 d0, In ob0 (u_rooms st) /\ (first_of n ctf (snd ob0) \/ is_gate (snd ob0)) /\ In d0 (doorways (snd ob0)) /\
    hikes (file_air (S k) m' (u_rooms st)) (file_block (S k) m') 11 d0 d.
Proof. exact file_foot. Qed.
Print Assumptions C93_file_partial.
(** The hypotheses are those of C65 and C80, see [hypotheses_met] and [C80_example]; here is the run of
    the refutation: the castle gate is among its rooms, the divided one is not. *)
Example C93_example : let '(st, x, _) := lay_out 100 (env_of castle_dist (fun q => q)) (Some 1) false false 1 (fun _ => 1) in
  x = None /\ existsb (fun ob => rc_id (r_cls (snd ob)) =? rc_id (s_class castle_gate)) (u_rooms st) = true /\ List.length (u_rooms st) = 8%nat.
Proof. vm_compute. repeat split; auto with arith. Qed.
