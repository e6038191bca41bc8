(** Properties C95 to C97, of the map file that a generated map is based on.  Statements only;
    proofs are in BaseProofs.v and BaseGen.v. *)
From Coq Require Import String.
From Verif Require Import Py VecModel VecSpec VoxelModel VoxelSpec CodecModel CodecSpec OutModel OutSpec UpmModel UpmSpec KitModel KitSpec
  RoomModel MagicaModel RoomSpec TexModel TexSpec LightModel LightSpec VoxFileModel ShippedModel ShippedSpec DistModel DistSpec GenModel GenSpec
  ShippedMaps BaseSpec BaseProofs BaseGen PropsGen.
Local Open Scope Z_scope.

(** C95: whatever file a generated map is based on, if it can be read and written, has the numbers
    of variables and entities it says, and has room for the world, then generating works and its
    result is as in C65. *)
Theorem C95_base_file : forall k fuelo e hue vecs tm n ctf rooms b m rest ws g,
  true_vectors vecs -> byte_hues hue -> manager tm -> mirror_factor n -> good_env e ->
  (7 <= k)%nat -> (S k < fuelo)%nat -> Forall is_byte b -> read_rest b = Ok (m, rest) -> writable_map m -> counted m ->
  header_size m = Some ws -> 2 ^ Z.of_nat (S k) <= ws <= 8192 ->
  Z.of_nat (List.length (tm_atlas tm)) <= 57000 -> len (m_ents m) <= 2 ^ 30 ->
  exists fuel0, forall fuel, (fuel0 <= fuel)%nat -> exists tm' w m2 st g' bs m',
    generate fuel e hue vecs tm (2 ^ Z.of_nat (S k)) (Some n) false ctf rooms m g = (tm', Ok (w, m2, st), g') /\
    output_map fuelo w m2 = Ok bs /\ read_rest bs = Ok (m', []) /\ same_settings m m' /\ disjoint_rooms (u_rooms st) /\
    (forall x y z tex, in_world (2 ^ Z.of_nat (S k)) (x, y, z) ->
       (world_lookup (S k) m' x y z = Some tex <-> exists ob, In ob (u_rooms st) /\ has_block tm' (snd ob) (x, y, z) tex)) /\
    (exists sun ess, m_ents m2 = m_ents m ++ sun :: List.concat ess /\ is_sun sun /\ Forall2 (furniture hue) (u_rooms st) ess) /\
    Forall2 same_entity (m_ents m2) (m_ents m').
Proof. exact base_file. Qed.
Print Assumptions C95_base_file.

(** C95: so it works on each of the empty maps of the repository, up to a size of 1024. *)
Theorem C95_empty_maps : forall k fuelo e hue vecs tm n ctf rooms f rest g, run_hyps k fuelo e hue vecs tm n -> (k <= 9)%nat -> In f empty_maps ->
  exists m, read_rest (file_bytes f ++ rest)%list = Ok (m, rest) /\ header_size m = Some 1024 /\
  exists fuel0, forall fuel, (fuel0 <= fuel)%nat -> exists tm' w m2 st g' bs m',
    generate fuel e hue vecs tm (2 ^ Z.of_nat (S k)) (Some n) false ctf rooms m g = (tm', Ok (w, m2, st), g') /\
    output_map fuelo w m2 = Ok bs /\ read_rest bs = Ok (m', []) /\ same_settings m m' /\ disjoint_rooms (u_rooms st) /\
    (forall x y z tex, in_world (2 ^ Z.of_nat (S k)) (x, y, z) ->
       (world_lookup (S k) m' x y z = Some tex <-> exists ob, In ob (u_rooms st) /\ has_block tm' (snd ob) (x, y, z) tex)) /\
    (exists sun ess, m_ents m2 = m_ents m ++ sun :: List.concat ess /\ is_sun sun /\ Forall2 (furniture hue) (u_rooms st) ess) /\
    Forall2 same_entity (m_ents m2) (m_ents m').
Proof. exact empty_run. Qed.
Print Assumptions C95_empty_maps.

Example C95_example : run_hyps 7 9 (env_of castle_dist (fun q => q)) white vecs0 (tm_init (discovered paper)) 4 /\
  In map_empty_day empty_maps /\ List.length (file_bytes map_empty_day) = 3843%nat.
Proof.
  destruct hypotheses_met as (H1 & H2 & H3 & H4 & _ & _ & H7). split; [|split; [left; reflexivity|vm_compute; reflexivity]].
  do 3 (split; [assumption|]). split; [right; right; reflexivity|]. split; [exact H4|]. split; [lia|]. split; [lia|exact H7].
Qed.

(** C96 in full, refuted: a written map has something after its octree if its header announces a
    section there.  The reader keeps the announcements but not the sections. *)
Theorem C96_sections_refuted : ~ forall m bs m' rest k, wf_map m -> write_map m = Ok bs -> read_rest bs = Ok (m', rest) ->
  In k sections -> announces m' k -> rest <> [].
Proof. exact announced_missing. Qed.
Print Assumptions C96_sections_refuted.
(** C96: nothing is ever written after the octree, and exactly what the map announces is announced;
    so it holds just for maps that announce nothing. *)
Theorem C96_sections_partial : forall m, wf_map m -> exists bs m', write_map m = Ok bs /\ read_rest bs = Ok (m', []) /\
  forall k, In k sections -> announces m' k <-> announces m k.
Proof. exact announced_kept. Qed.
Print Assumptions C96_sections_partial.
(** C96: the same of every map the generator writes, and of the maps that it is based on only one
    announces nothing. *)
Theorem C96_runs : forall k fuel fuelo e hue vecs tm n ctf rooms m ws g tm' w m2 st g' bs,
  run_hyps k fuelo e hue vecs tm n -> wf_map m -> header_size m = Some ws -> 2 ^ Z.of_nat (S k) <= ws <= 8192 -> len (m_ents m) <= 2 ^ 30 ->
  generate fuel e hue vecs tm (2 ^ Z.of_nat (S k)) (Some n) false ctf rooms m g = (tm', Ok (w, m2, st), g') ->
  output_map fuelo w m2 = Ok bs -> exists m', read_rest bs = Ok (m', []) /\ forall s, In s sections -> (announces m' s <-> announces m s).
Proof. exact run_sections. Qed.
Print Assumptions C96_runs.
Theorem C96_empty_maps :
  (exists m, (forall rest, read_rest (file_bytes map_empty_day ++ rest)%list = Ok (m, rest)) /\ announces m "blendmap") /\
  (exists m, (forall rest, read_rest (file_bytes map_empty2 ++ rest)%list = Ok (m, rest)) /\ announces m "blendmap") /\
  (exists m, (forall rest, read_rest (file_bytes map_empty_night ++ rest)%list = Ok (m, rest)) /\ forall s, In s sections -> ~ announces m s).
Proof. exact empty_sections. Qed.
Print Assumptions C96_empty_maps.
(** A map that announces nothing. *)
Example C96_example : wf_map map256 /\ map (field map256) sections = [Some 0; Some 0; Some 0].
Proof. split; [apply hypotheses_met|reflexivity]. Qed.

(** C97 in full, refuted: the entities of a room are in the room as it is drawn, in a file that says
    how wide the world is.  With a world of side 512 and the empty map, a flag is elsewhere. *)
Theorem C97_scale_refuted : ~ forall k fuel fuelo e hue vecs tm n ctf rooms m ws g tm' w m2 st g' bs m',
  run_hyps k fuelo e hue vecs tm n -> wf_map m -> header_size m = Some ws -> 2 ^ Z.of_nat (S k) <= ws <= 8192 -> len (m_ents m) <= 2 ^ 30 ->
  generate fuel e hue vecs tm (2 ^ Z.of_nat (S k)) (Some n) false ctf rooms m g = (tm', Ok (w, m2, st), g') ->
  output_map fuelo w m2 = Ok bs -> read_rest bs = Ok (m', []) ->
  one_scale (2 ^ Z.of_nat (S k)) ws hue (List.length (m_ents m)) (u_rooms st) (m_ents m').
Proof.
  intros K. destruct hypotheses_met as (H1 & H2 & H3 & H4 & _ & _ & H7).
  assert (run_hyps 8 10 (env_of castle_dist (fun q => q)) white vecs0 (tm_init (discovered paper)) 4) as RH.
  { do 3 (split; [assumption|]). split; [right; right; reflexivity|]. split; [exact H4|]. split; [lia|]. split; [lia|exact H7]. }
  exact (scale_one _ _ _ _ _ _ RH (fun fuel rooms m => K 8%nat fuel 10%nat _ _ _ _ 4 true rooms m)).
Qed.
Print Assumptions C97_scale_refuted.
(** C97: it holds when there are four map units to a voxel, as with the default size and the empty
    maps ... *)
Theorem C97_scale_partial : forall k fuel fuelo e hue vecs tm n ctf rooms m ws g tm' w m2 st g' bs m',
  run_hyps k fuelo e hue vecs tm n -> wf_map m -> header_size m = Some ws -> ws <= 8192 -> len (m_ents m) <= 2 ^ 30 ->
  generate fuel e hue vecs tm (2 ^ Z.of_nat (S k)) (Some n) false ctf rooms m g = (tm', Ok (w, m2, st), g') ->
  output_map fuelo w m2 = Ok bs -> read_rest bs = Ok (m', []) -> ws = 4 * 2 ^ Z.of_nat (S k) ->
  one_scale (2 ^ Z.of_nat (S k)) ws hue (List.length (m_ents m)) (u_rooms st) (m_ents m').
Proof. exact scale_kept. Qed.
Print Assumptions C97_scale_partial.
(** ... and only then, of the sizes a world can have: else the first flag is outside its room. *)
Theorem C97_flag_iff : forall k j fuel fuelo e hue vecs tm n rooms m g tm' w m2 st g' bs m',
  run_hyps k fuelo e hue vecs tm n -> wf_map m -> header_size m = Some (2 ^ Z.of_nat j) -> 2 ^ Z.of_nat (S k) <= 2 ^ Z.of_nat j <= 8192 -> len (m_ents m) <= 2 ^ 30 ->
  generate fuel e hue vecs tm (2 ^ Z.of_nat (S k)) (Some n) false true rooms m g = (tm', Ok (w, m2, st), g') ->
  output_map fuelo w m2 = Ok bs -> read_rest bs = Ok (m', []) ->
  exists old f fs, flags_of (m_ents m') = old ++ f :: fs /\ List.length old = List.length (flags_of (m_ents m)) /\
    (exists i, In (i, start_room true) (u_rooms st)) /\
    (drawn_in_room (2 ^ Z.of_nat (S k)) (2 ^ Z.of_nat j) (start_room true) f <-> 2 ^ Z.of_nat j = 4 * 2 ^ Z.of_nat (S k)).
Proof. exact scale_flag. Qed.
Print Assumptions C97_flag_iff.
(** The default size and the empty maps. *)
Example C97_example : 1024 = 4 * 2 ^ Z.of_nat 8 /\ (exists m, (forall rest, read_rest (file_bytes map_empty_day ++ rest)%list = Ok (m, rest)) /\ wf_map m /\ header_size m = Some 1024).
Proof.
  split; [reflexivity|]. destruct (empty_map_ok map_empty_day (or_introl eq_refl)) as (m & R & W & S & _). exists m. auto.
Qed.
