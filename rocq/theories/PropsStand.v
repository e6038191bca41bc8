(** Properties C81 to C85: the places of entities in shipped rooms and in generated maps.  Statements
    only; proofs are in StandProofs.v and StandGen.v. *)
From Verif Require Import Py VecModel VecSpec VoxelModel VoxelSpec CodecModel CodecSpec OutModel OutSpec CodecSamples UpmModel UpmSpec KitModel KitSpec
  RoomModel MagicaModel RoomSpec TexModel TexSpec TexProofs LightModel LightSpec VoxFileModel ShippedModel ShippedSpec ShippedProofs DistModel DistSpec GenModel GenSpec GenProofs
  PropsGen PassSpec StandSpec StandProofs StandGen.
Local Open Scope Z_scope.

(** C81: there is free space at every entity of a shipped room.  Refuted for two classes: at every
    position and for every turn they put a light into the middle of their own blocks. *)
Theorem C81_space_refuted : forall s p t pos orient hue m g, In s dark -> room_vectors (room_of s p t) pos orient -> In s shipped_rooms /\
  exists es m' g' e, run_extras (LIGHTMAN hue) pos orient (s_extra s) m g = (Ok m', g') /\ more_ents m es m' /\ In e es /\ buried (room_of s p t) e.
Proof. exact dark_buried. Qed.
Print Assumptions C81_space_refuted.
(** All other classes leave space at all of their entities. *)
Theorem C81_space_partial : forall s p t pos orient hue m g, In s shipped_rooms -> ~ In s dark -> room_vectors (room_of s p t) pos orient ->
  exists es m' g', run_extras (LIGHTMAN hue) pos orient (s_extra s) m g = (Ok m', g') /\ more_ents m es m' /\ Forall (has_space (room_of s p t)) es.
Proof. exact space_ok. Qed.
Print Assumptions C81_space_partial.
Example C81_example : In station_flagroom shipped_rooms /\ ~ In station_flagroom dark /\ List.length (s_extra station_flagroom) = 5%nat /\ s_extra gate <> [] /\
  exists pos orient, room_vectors (room_of station_flagroom (8, 8, 3) T1) pos orient.
Proof.
  split; [unfold shipped_rooms; repeat (first [left; reflexivity | right])|].
  split; [intros [H|[H|[]]]; apply (f_equal (fun s => rc_id (s_class s))) in H; vm_compute in H; discriminate|].
  split; [reflexivity|]. split; [vm_compute; discriminate|].
  exists (cell_vec (8, 8, 3)), (cell_vec (cdir T1)). split; apply cell_vec_at.
Qed.

(** C82: the spawn points, weapons and flags of a shipped room can be reached by a player from
    every doorway of the room, without leaving the room: from each of the three places of the
    doorway to a place where the body stands at the entity. *)
Theorem C82_ways : forall s p t pos orient hue m g, In s shipped_rooms -> room_vectors (room_of s p t) pos orient ->
  exists es m' g', run_extras (LIGHTMAN hue) pos orient (s_extra s) m g = (Ok m', g') /\ more_ents m es m' /\
    forall e d b, In e es -> of_interest e -> In d (doorways (room_of s p t)) -> In b (doorsteps d) ->
    exists a, meets a e /\ walk (fits (room_air (room_of s p t))) a b.
Proof. exact ways_ok. Qed.
Print Assumptions C82_ways.
(** The classes with such entities, and the numbers of their doorways. *)
Example C82_example : map (fun s => (rc_id (s_class s), List.length (doorways (room_of s (3, -2, 7) T1))))
  (filter (fun s => negb (forallb (fun x => match x with XLight _ _ | XPusher _ => true | _ => false end) (s_extra s))) shipped_rooms) =
  [(100, 4%nat); (128, 1%nat); (129, 1%nat); (130, 4%nat)].
Proof. vm_compute. reflexivity. Qed.

(** C83: a player that starts in the first room of a generated map, or in one of its mirror images,
    can reach every spawn point and every flag of the map.  Refuted: whatever the colours, the
    textures and the map to add to, there is a run with a spawn point nothing leads to from there, and
    so nothing from it. *)
Theorem C83_entities_refuted : forall hue vecs tm m, true_vectors vecs -> manager tm ->
  exists fuel e rooms g tm' w m2 st g' es, good_env e /\ generate fuel e hue vecs tm 256 (Some 1) false false rooms m g = (tm', Ok (w, m2, st), g') /\
    m_ents m2 = m_ents m ++ es /\ exists x, In x es /\ e_type x = 3 /\
    forall ob0 d0, In ob0 (u_rooms st) -> first_of 1 false (snd ob0) -> In d0 (doorways (snd ob0)) -> unreached (world_air w (u_rooms st)) d0 x.
Proof. exact lost_map. Qed.
Print Assumptions C83_entities_refuted.
(** Only the divided castle gate can be the cause: all of them can be reached from a doorway of one of
    the first rooms or of such a gate. *)
Theorem C83_entities_partial : forall fuel e hue vecs tm size n ctf rooms m g tm' w m2 st g' es,
  true_vectors vecs -> manager tm -> mirror_factor n -> good_env e ->
  generate fuel e hue vecs tm size (Some n) false ctf rooms m g = (tm', Ok (w, m2, st), g') -> m_ents m2 = m_ents m ++ es ->
  forall x, In x es -> of_interest x ->
  exists ob0 d0, In ob0 (u_rooms st) /\ (first_of n ctf (snd ob0) \/ is_gate (snd ob0)) /\ In d0 (doorways (snd ob0)) /\
    way_to (world_air w (u_rooms st)) d0 x.
Proof. exact world_entities. Qed.
Print Assumptions C83_entities_partial.
(** The same holds for the entities of the map file that is written, if all rooms are inside of its
    world. *)
Theorem C83_file_partial : forall k fuel fuelo e hue vecs tm n ctf rooms m ws g tm' w m2 st g' bs m',
  true_vectors vecs -> byte_hues hue -> manager tm -> mirror_factor n -> good_env e ->
  (7 <= k)%nat -> (S k < fuelo)%nat -> wf_map m -> header_size m = Some ws -> 2 ^ Z.of_nat (S k) <= ws <= 8192 ->
  Z.of_nat (List.length (tm_atlas tm)) <= 57000 -> len (m_ents m) <= 2 ^ 30 ->
  generate fuel e hue vecs tm (2 ^ Z.of_nat (S k)) (Some n) false ctf rooms m g = (tm', Ok (w, m2, st), g') ->
  output_map fuelo w m2 = Ok bs -> read_rest bs = Ok (m', []) ->
  (forall ob c, In ob (u_rooms st) -> In c (positions (snd ob)) -> in_world (2 ^ Z.of_nat (S k) / 8) c) ->
  forall i x, (List.length (m_ents m) <= i)%nat -> nth_error (m_ents m') i = Some x -> of_interest x ->
  exists ob0 d0, In ob0 (u_rooms st) /\ (first_of n ctf (snd ob0) \/ is_gate (snd ob0)) /\ In d0 (doorways (snd ob0)) /\
    way_to (file_air (S k) m' (u_rooms st)) d0 x.
Proof. exact file_entities. Qed.
Print Assumptions C83_file_partial.
(** The hypotheses are those of C65, see [hypotheses_met]; here is a run with spawn rooms and flags,
    all inside of the world. *)
Example C83_example : let '(st, x, _) := lay_out 200 (env_of castle_dist (fun q => q)) (Some 2) false true 4 (fun _ => 0) in
  x = None /\ filter is_spawn_room (u_rooms st) <> [] /\
  forallb (fun ob => forallb (fun c => let '(a, b, h) := c in (0 <=? a) && (a <? 32) && (0 <=? b) && (b <? 32) && (0 <=? h) && (h <? 32)) (positions (snd ob))) (u_rooms st) = true.
Proof. vm_compute. repeat split; discriminate. Qed.

(** C84: in a generated map for several teams a player can go from flag to flag.  Refuted for two and
    for four teams: whatever the colours, the textures and the map to add to, there is a run after
    which, without leaving the rooms, nothing leads from any flag to any other. *)
Theorem C84_flags_refuted : forall hue vecs tm m n, true_vectors vecs -> manager tm -> n = 2 \/ n = 4 ->
  exists fuel e rooms g tm' w m2 st g' fs, good_env e /\ generate fuel e hue vecs tm 256 (Some n) false true rooms m g = (tm', Ok (w, m2, st), g') /\
    flags_of (m_ents m2) = flags_of (m_ents m) ++ fs /\ Z.of_nat (List.length fs) = n /\
    forall i j f f', nth_error fs i = Some f -> nth_error fs j = Some f' -> i <> j -> apart (world_air w (u_rooms st)) f f'.
Proof. exact apart_map. Qed.
Print Assumptions C84_flags_refuted.
(** In a map without a divided castle gate every doorway of every room can be reached from some
    flag.  Missing: that it can be reached from every flag, which is false. *)
Theorem C84_flags_partial : forall fuel e hue vecs tm size n rooms m g tm' w m2 st g',
  true_vectors vecs -> manager tm -> mirror_factor n -> good_env e ->
  generate fuel e hue vecs tm size (Some n) false true rooms m g = (tm', Ok (w, m2, st), g') ->
  (forall ob, In ob (u_rooms st) -> ~ is_gate (snd ob)) ->
  exists fs, flags_of (m_ents m2) = flags_of (m_ents m) ++ fs /\
    forall ob d, In ob (u_rooms st) -> In d (doorways (snd ob)) -> exists f, In f fs /\ way_to (world_air w (u_rooms st)) d f.
Proof. exact flag_ways. Qed.
Print Assumptions C84_flags_partial.
Example C84_example : let '(st, x, _) := lay_out 200 (env_of castle_dist (fun q => q)) (Some 4) false true 6 (fun _ => 0) in
  x = None /\ (4 < List.length (u_rooms st))%nat /\ forallb (fun ob => negb (rc_id (r_cls (snd ob)) =? rc_id (s_class castle_gate_simple))) (u_rooms st) = true.
Proof. vm_compute. repeat split; auto with arith. Qed.

(** C85: every generated map has a spawn point.  Refuted for two and for four teams: there is a run
    for 40 rooms with more than 100 rooms and no spawn point. *)
Theorem C85_spawn_refuted : forall hue vecs tm m n, true_vectors vecs -> manager tm -> n = 2 \/ n = 4 ->
  exists fuel e g tm' w m2 st g', good_env e /\ generate fuel e hue vecs tm 256 (Some n) false true 40 m g = (tm', Ok (w, m2, st), g') /\
    (100 < List.length (u_rooms st))%nat /\ spawns_of (m_ents m2) = spawns_of (m_ents m).
Proof. exact empty_map. Qed.
Print Assumptions C85_spawn_refuted.
(** There is one for each spawn room, inside of it, and no other. *)
Theorem C85_spawn_partial : forall fuel e hue vecs tm size n ctf rooms m g tm' w m2 st g',
  true_vectors vecs -> manager tm -> mirror_factor n -> good_env e ->
  generate fuel e hue vecs tm size (Some n) false ctf rooms m g = (tm', Ok (w, m2, st), g') ->
  exists ss, spawns_of (m_ents m2) = spawns_of (m_ents m) ++ ss /\
    Forall2 (fun ob x => inside_room (snd ob) x) (filter is_spawn_room (u_rooms st)) ss.
Proof. exact spawn_rooms. Qed.
Print Assumptions C85_spawn_partial.
Example C85_example : let '(st, x, _) := lay_out 200 (env_of castle_dist (fun q => q)) (Some 2) false true 4 (fun _ => 0) in
  x = None /\ List.length (filter is_spawn_room (u_rooms st)) = 4%nat.
Proof. vm_compute. repeat split. Qed.
