(** Properties C77 and C78 of the map generator in debug mode.  Statements only; proofs are in
    DebugProofs.v. *)
From Verif Require Import Py VecModel VecSpec VoxelModel VoxelSpec CodecModel CodecSpec OutModel OutSpec CodecSamples UpmModel UpmSpec KitModel KitSpec
  RoomModel RoomSpec TexModel TexSpec TexProofs LightModel LightSpec ShippedModel ShippedSpec DistModel DistSpec GenModel GenSpec RoomEntModel RoomEntSpec
  DebugModel DebugSpec DebugProofs PropsGen.
Local Open Scope Z_scope.

(** C77: in debug mode the generator ends without an exception.  Refuted: with one stream of random
    numbers it raises, whatever the map, its size, the textures and the colours. *)
Theorem C77_debug_refuted : exists e, good_env e /\ forall hue vecs tm size m,
  exists g', generate_any 400 e hue vecs tm size (Some 2) true false 60 m stream = (tm, Err UserExn, g').
Proof. exact debug_raises. Qed.
Print Assumptions C77_debug_refuted.
(** It ends without an exception exactly when no two open doors of the placed rooms lead to one cell. *)
Theorem C77_debug_partial : forall e hue vecs tm size n ctf rooms m g, true_vectors vecs -> manager tm -> mirror_factor n -> good_env e ->
  exists fuel0, forall fuel, (fuel0 <= fuel)%nat -> exists st1 g1, lay_rooms fuel e (Some n) ctf rooms g = (st1, None, g1) /\
    (NoDup (door_cells st1) -> exists tm' w m2 st g', generate_any fuel e hue vecs tm size (Some n) true ctf rooms m g = (tm', Ok (w, m2, st), g')) /\
    (~ NoDup (door_cells st1) -> exists g', generate_any fuel e hue vecs tm size (Some n) true ctf rooms m g = (tm, Err UserExn, g')).
Proof. exact debug_when. Qed.
Print Assumptions C77_debug_partial.
(** Without debug mode it is the generator of GenModel.v. *)
Theorem C77_plain_partial : forall fuel e hue vecs tm size n ctf rooms m g, true_vectors vecs -> manager tm -> mirror_factor n -> good_env e ->
  generate_any fuel e hue vecs tm size (Some n) false ctf rooms m g = generate fuel e hue vecs tm size (Some n) false ctf rooms m g.
Proof. exact plain_same. Qed.
Print Assumptions C77_plain_partial.
(** Both cases occur: the numbers of different cells and of doors in two layouts. *)
Example C77_both_cases :
  let doors rooms := match lay_rooms 400 (env_of castle_dist (fun q => q)) (Some 2) false rooms stream with
                     | (st, None, _) => (different (door_cells st), List.length (door_cells st)) | _ => (0%nat, 0%nat) end in
  doors 12%Z = (28%nat, 28%nat) /\ doors 60%Z = (67%nat, 68%nat).
Proof. vm_compute. split; reflexivity. Qed.

(** C78: when it ends, every open door has one marker, a plate of sixteen red blocks and a box of
    grenades in the cell the door leads to, which no room occupies; everything else is what the placed
    rooms have. *)
Theorem C78_markers : forall fuel e hue vecs tm size n ctf rooms m g st1 g1 tm' w m2 st g', true_vectors vecs -> manager tm -> mirror_factor n -> good_env e ->
  lay_rooms fuel e (Some n) ctf rooms g = (st1, None, g1) ->
  generate_any fuel e hue vecs tm size (Some n) true ctf rooms m g = (tm', Ok (w, m2, st), g') ->
  exists sun ess es markers, u_rooms st = u_rooms st1 ++ markers /\
    Forall2 (fun ob d => r_cls (snd ob) = TestRoom /\ r_pos (snd ob) = d) markers (door_cells st1) /\
    NoDup (door_cells st1) /\
    (forall d ob, In d (door_cells st1) -> In ob (u_rooms st1) -> ~ In d (positions (snd ob))) /\
    (forall x y z tex, get_point w (I x) (I y) (I z) = Some tex <->
       (exists ob, In ob (u_rooms st1) /\ has_block tm' (snd ob) (x, y, z) tex) \/
       (exists d k, In d (door_cells st1) /\ on_plate d (x, y, z) /\ numbered tm' red k /\ tex = repeat k 6)) /\
    m_ents m2 = m_ents m ++ sun :: List.concat ess ++ es /\ is_sun sun /\ Forall2 (furniture hue) (u_rooms st1) ess /\
    Forall2 (grenade_at hue) (door_cells st1) es.
Proof. exact debug_map. Qed.
Print Assumptions C78_markers.
(** The map can be written and read back, with the same blocks and entities. *)
Theorem C78_file : forall k fuel fuelo e hue vecs tm n ctf rooms m ws g st1 g1 tm' w m2 st g',
  true_vectors vecs -> byte_hues hue -> manager tm -> mirror_factor n -> good_env e ->
  (7 <= k)%nat -> (S k < fuelo)%nat -> wf_map m -> header_size m = Some ws -> 2 ^ Z.of_nat (S k) <= ws <= 8192 ->
  Z.of_nat (List.length (tm_atlas tm)) <= 57000 -> len (m_ents m) <= 2 ^ 30 ->
  lay_rooms fuel e (Some n) ctf rooms g = (st1, None, g1) ->
  generate_any fuel e hue vecs tm (2 ^ Z.of_nat (S k)) (Some n) true ctf rooms m g = (tm', Ok (w, m2, st), g') ->
  exists bs m', output_map fuelo w m2 = Ok bs /\ read_rest bs = Ok (m', []) /\ same_settings m m' /\
    (forall x y z tex, in_world (2 ^ Z.of_nat (S k)) (x, y, z) ->
       (world_lookup (S k) m' x y z = Some tex <->
         (exists ob, In ob (u_rooms st1) /\ has_block tm' (snd ob) (x, y, z) tex) \/
         (exists d k, In d (door_cells st1) /\ on_plate d (x, y, z) /\ numbered tm' red k /\ tex = repeat k 6))) /\
    Forall2 same_entity (m_ents m2) (m_ents m').
Proof. exact debug_written. Qed.
Print Assumptions C78_file.
(** A run that meets the hypotheses of both. *)
Example C78_nonvacuous : exists st1 g1 tm' w m2 st g',
  lay_rooms 400 (env_of castle_dist (fun q => q)) (Some 2) false 12 stream = (st1, None, g1) /\ List.length (door_cells st1) = 28%nat /\
  generate_any 400 (env_of castle_dist (fun q => q)) white vecs0 (tm_init (discovered paper)) 256 (Some 2) true false 12 map256 stream = (tm', Ok (w, m2, st), g').
Proof.
  destruct hypotheses_met as (H1 & _ & H3 & _). destruct (sample_debug white vecs0 _ 256 map256 H1 H3) as (tm' & w & m2 & st & g' & E).
  assert (match lay_rooms 400 (env_of castle_dist (fun q => q)) (Some 2) false 12 stream with (st, None, _) => List.length (door_cells st) | _ => 0%nat end = 28%nat) as X
    by (vm_compute; reflexivity).
  destruct (lay_rooms 400 (env_of castle_dist (fun q => q)) (Some 2) false 12 stream) as [[st1 [x|]] g1]; [discriminate|].
  exists st1, g1, tm', w, m2, st, g'. split; [reflexivity|]. split; [exact X|exact E].
Qed.
