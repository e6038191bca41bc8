(** Properties C52 and C65 to C68 of the map generator.  Statements only; proofs are in
    GenProofs.v. *)
From Verif Require Import Py VecModel VecSpec VoxelModel VoxelSpec CodecModel CodecSpec OutModel OutSpec CodecSamples UpmModel UpmSpec KitModel KitSpec
  RoomModel MagicaModel RoomSpec TexModel TexSpec TexProofs LightModel LightSpec VoxFileModel ShippedModel ShippedSpec DistModel DistSpec GenModel GenSpec GenProofs.
Local Open Scope Z_scope.

(** Values that meet the hypotheses below. *)
Definition vecs0 (ob : obj) : vec * vec :=
  let '(x, y, z) := r_pos (snd ob) in let '(a, b, h) := cdir (r_turn (snd ob)) in (V Coarse (I x) (I y) (I z), V Coarse (I a) (I b) (I h)).
Definition map256 : rmap := Map MAPZ 43 52 (header_meta (Hdr 256 0 0 0 0 226 1 [102; 112; 115]) 0 0) [] [] [] 0 [] (repeat e0 8).
Example hypotheses_met : true_vectors vecs0 /\ byte_hues white /\ manager (tm_init (discovered paper)) /\ good_env (env_of castle_dist (fun q => q)) /\
  wf_map map256 /\ header_size map256 = Some 256 /\ Z.of_nat (List.length (tm_atlas (tm_init (discovered paper)))) <= 57000.
Proof.
  split; [|split; [|split; [|split; [|split; [|split]]]]].
  - intros [i r]. unfold vecs0, room_vectors, cell_at. cbn [fst snd]. destruct (r_pos r) as [[x y] z], (cdir (r_turn r)) as [[a b] h].
    split; split; reflexivity.
  - intros q. cbn. lia.
  - exists (discovered paper), []. split; [exact paper_base|reflexivity].
  - exact sample_good.
  - unfold wf_map, map256. cbn [m_magic m_version m_headersize m_meta m_vars m_texmru m_ents m_vslots m_chg m_world].
    split; [left; reflexivity|]. do 2 (split; [unfold is_i32; lia|]). split.
    { eexists. split; [|split; [reflexivity|]]; [unfold wf_header, is_i32, is_byte; cbn [h_worldsize h_numpvs h_lightmaps h_blendmap h_numvslots h_gamever h_revision h_gameident]; do 7 (split; [lia|]); split; [reflexivity|repeat constructor; lia]|].
      split; [cbn; lia|]. cbn [repeat]. repeat (apply Forall_cons; [apply OutProofs.newcube_wf; cbn; lia|]). apply Forall_nil. }
    do 2 (split; [reflexivity|]). split; [constructor|]. split; [constructor|]. split; [reflexivity|]. split; [constructor|]. split; [constructor|]. split; reflexivity.
  - reflexivity.
  - vm_compute. discriminate.
Qed.

(** C52: the generator runs with its default options.  Refuted: without a mirror option nothing can
    be generated, whatever the other arguments. *)
Theorem C52_defaults_refuted : forall fuel e hue vecs tm size debug ctf rooms m g,
  generate fuel e hue vecs tm size (mirror_option None) debug ctf rooms m g = (tm, Err AttributeError, g).
Proof. reflexivity. Qed.
Print Assumptions C52_defaults_refuted.
(** With one of the three factors, and not in debug mode, it always ends without an exception. *)
Theorem C52_runs_partial : forall e hue vecs tm size n ctf rooms m g, true_vectors vecs -> manager tm -> mirror_factor n -> good_env e ->
  exists fuel0, forall fuel, (fuel0 <= fuel)%nat -> exists tm' w m2 st g',
    generate fuel e hue vecs tm size (mirror_option (Some n)) false ctf rooms m g = (tm', Ok (w, m2, st), g').
Proof. exact generate_total. Qed.
Print Assumptions C52_runs_partial.
Example C52_example : match lay_out 100 (env_of castle_dist (fun q => q)) (mirror_option (Some 4)) false true 12 stream with
  | (st, x, _) => (x, List.length (u_rooms st)) end = (None, 56%nat).
Proof. vm_compute. reflexivity. Qed.

(** C65: the generated map can be written and read back; it has exactly the blocks of its rooms,
    no two of which overlap, and the entities of the input, a sun, and what the rooms ask for;
    nothing else of the input changed. *)
Theorem C65_map_file : forall k fuelo e hue vecs tm n ctf rooms m ws g,
  true_vectors vecs -> byte_hues hue -> manager tm -> mirror_factor n -> good_env e ->
  (7 <= k)%nat -> (S k < fuelo)%nat -> wf_map m -> header_size m = Some ws -> 2 ^ Z.of_nat (S k) <= ws <= 8192 ->
  Z.of_nat (List.length (tm_atlas tm)) <= 57000 -> len (m_ents m) <= 2 ^ 30 ->
  exists fuel0, forall fuel, (fuel0 <= fuel)%nat -> exists tm' w m2 st g' bs m',
    generate fuel e hue vecs tm (2 ^ Z.of_nat (S k)) (Some n) false ctf rooms m g = (tm', Ok (w, m2, st), g') /\
    output_map fuelo w m2 = Ok bs /\ read_rest bs = Ok (m', []) /\ same_settings m m' /\ disjoint_rooms (u_rooms st) /\
    (forall x y z tex, in_world (2 ^ Z.of_nat (S k)) (x, y, z) ->
       (world_lookup (S k) m' x y z = Some tex <-> exists ob, In ob (u_rooms st) /\ has_block tm' (snd ob) (x, y, z) tex)) /\
    (exists sun ess, m_ents m2 = m_ents m ++ sun :: List.concat ess /\ is_sun sun /\ Forall2 (furniture hue) (u_rooms st) ess) /\
    Forall2 same_entity (m_ents m2) (m_ents m').
Proof. exact map_file. Qed.
Print Assumptions C65_map_file.
Example C65_example : exists fuel tm' w m2 st g' bs,
  generate fuel (env_of castle_dist (fun q => q)) white vecs0 (tm_init (discovered paper)) (2 ^ Z.of_nat 8) (Some 4) false true 12 map256 stream = (tm', Ok (w, m2, st), g') /\
  output_map 9 w m2 = Ok bs.
Proof.
  destruct hypotheses_met as (H1 & H2 & H3 & H4 & H5 & H6 & H7).
  destruct (C65_map_file 7 9 _ white vecs0 _ 4 true 12 map256 256 stream H1 H2 H3 (or_intror (or_intror eq_refl)) H4) as (fuel & F); try assumption; try lia.
  destruct (F fuel (le_n _)) as (tm' & w & m2 & st & g' & bs & m' & E & O & _). exists fuel, tm', w, m2, st, g', bs. split; [exact E|exact O].
Qed.

(** C66: with the flag option exactly the first room and its mirror images have a flag, one each,
    inside of the room, for different teams; without it no flag is added. *)
Theorem C66_flags : forall fuel e hue vecs tm size n (ctf : bool) rooms m g tm' w m2 st g',
  true_vectors vecs -> manager tm -> mirror_factor n -> good_env e ->
  generate fuel e hue vecs tm size (Some n) false ctf rooms m g = (tm', Ok (w, m2, st), g') ->
  exists bases fs, (forall r, In r bases -> exists i, In (i, r) (u_rooms st)) /\
    bases = (if ctf then map (fun t => mirror_room t (start_room true)) (turns_of n) else []) /\
    flags_of (m_ents m2) = flags_of (m_ents m) ++ fs /\ Forall2 flag_in bases fs /\ NoDup (map (fun r => team_of (r_turn r)) bases).
Proof. exact ctf_flags. Qed.
Print Assumptions C66_flags.
Example C66_example : map (fun t => r_pos (mirror_room t (start_room true))) (turns_of 4) = [(8, 8, 3); (24, 8, 3); (24, 24, 3); (8, 24, 3)].
Proof. vm_compute. reflexivity. Qed.

(** C67: the exported graph joins the rooms that were linked.  Refuted: the ends are looked up by
    position, but not every room occupies its own position; some ends are no room, some another
    room. *)
Theorem C67_graph_refuted : exists fuel e rooms g st g', good_env e /\ lay_out fuel e (Some 2) false false rooms g = (st, None, g') /\ ~ true_links st /\
  (exists i eb, nth_error (graph_links st) i = Some (None, eb)) /\
  (exists i a b k eb, nth_error (u_links st) i = Some (a, b) /\ nth_error (graph_links st) i = Some (Some k, eb) /\
     forall ob, In ob (u_rooms st) -> fst ob = k -> r_pos (snd ob) <> a).
Proof. exact graph_false. Qed.
Print Assumptions C67_graph_refuted.
(** The nodes are the rooms, there is one link for each that was recorded, and each end is right if
    the room occupies its position.  Missing: the other rooms. *)
Theorem C67_graph_partial : forall fuel e n ctf rooms g st g', mirror_factor n -> good_env e ->
  lay_out fuel e (Some n) false ctf rooms g = (st, None, g') ->
  true_nodes st /\ List.length (graph_links st) = List.length (u_links st) /\
  forall i a b, nth_error (u_links st) i = Some (a, b) -> exists oa ob ea eb, nth_error (graph_links st) i = Some (ea, eb) /\
    In oa (u_rooms st) /\ In ob (u_rooms st) /\ r_pos (snd oa) = a /\ r_pos (snd ob) = b /\
    (In a (positions (snd oa)) -> ea = Some (fst oa)) /\ (In b (positions (snd ob)) -> eb = Some (fst ob)).
Proof. exact graph_lemma. Qed.
Print Assumptions C67_graph_partial.
Example C67_example : map (fun s => existsb (cell_eqb (0, 0, 0)) (rc_cells (s_class s) [])) (first_room true :: possible_rooms) = [true; true; false; true; false].
Proof. vm_compute. reflexivity. Qed.

(** C68: no room is outside of the map.  Refuted: with the default size some blocks are at
    coordinates the map does not have, so they are lost. *)
Theorem C68_inside_refuted : forall hue vecs tm m, true_vectors vecs -> manager tm ->
  exists fuel e rooms g tm' w m2 st g', good_env e /\ generate fuel e hue vecs tm 256 (Some 2) false false rooms m g = (tm', Ok (w, m2, st), g') /\
    exists ob p tex, In ob (u_rooms st) /\ has_block tm' (snd ob) p tex /\ ~ in_world 256 p.
Proof. exact lost_blocks. Qed.
Print Assumptions C68_inside_refuted.
(** All blocks of a room whose cells are inside are in the file. *)
Theorem C68_kept_partial : forall k fuel fuelo e hue vecs tm n ctf rooms m ws g tm' w m2 st g' bs m',
  true_vectors vecs -> byte_hues hue -> manager tm -> mirror_factor n -> good_env e ->
  (7 <= k)%nat -> (S k < fuelo)%nat -> wf_map m -> header_size m = Some ws -> 2 ^ Z.of_nat (S k) <= ws <= 8192 ->
  Z.of_nat (List.length (tm_atlas tm)) <= 57000 -> len (m_ents m) <= 2 ^ 30 ->
  generate fuel e hue vecs tm (2 ^ Z.of_nat (S k)) (Some n) false ctf rooms m g = (tm', Ok (w, m2, st), g') ->
  output_map fuelo w m2 = Ok bs -> read_rest bs = Ok (m', []) ->
  forall ob, In ob (u_rooms st) -> (forall c, In c (positions (snd ob)) -> in_world (2 ^ Z.of_nat (S k) / 8) c) ->
  forall x y z tex, has_block tm' (snd ob) (x, y, z) tex -> world_lookup (S k) m' x y z = Some tex.
Proof. exact kept_blocks. Qed.
Print Assumptions C68_kept_partial.
Example C68_example : forall c, In c (positions (start_room false)) -> in_world (2 ^ 8 / 8) c.
Proof. intros c H. vm_compute in H. repeat (destruct H as [<-|H]; [cbn; lia|]). destruct H. Qed.
