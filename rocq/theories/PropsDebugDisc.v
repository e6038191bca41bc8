(** Property C115 of the files that a run of the map generator in debug mode leaves behind.  Statements only; proofs are
    in DebugDiscProofs.v. *)
From Verif Require Import Py VecModel VecSpec VoxelModel CodecModel CodecSpec CodecSamples OutModel OutSpec UpmModel UpmSpec KitModel RoomModel MagicaModel RoomSpec
  TexModel TexSpec TexProofs LightModel ShippedModel ShippedSpec DistModel GenModel GenSpec GenProofs PropsGen DebugModel DebugSpec DebugProofs PropsDebug ConfModel ConfSpec
  CopyModel CopySpec CopyProofs DiscModel DiscSpec DebugDiscProofs.
Local Open Scope Z_scope.

(** C115: a run in debug mode leaves a map in the output file.  Refuted: when two open doors lead to one cell it leaves an
    empty file, whatever was there, and touches no other file ... *)
Theorem C115_clash_refuted : forall show tree decl fuelo fuel e hue vecs known l size n ctf rooms fl extra g d i o m st1 g1, true_vectors vecs -> has_base known -> mirror_factor n -> good_env e ->
  i <> o -> parse d i = Ok m -> update [] fl = Ok extra -> lay_rooms fuel e (Some n) ctf rooms g = (st1, None, g1) -> ~ NoDup (door_cells st1) ->
  exists d', magica_rooms show tree decl fuelo fuel e hue vecs (asked (tm_init known) l) size (Some n) true ctf rooms fl g d i o = (d', Some UserExn) /\
    d' o = Some (Txt "") /\ same_but [o] d d'.
Proof. exact debug_clash. Qed.
Print Assumptions C115_clash_refuted.
(** ... and in all other cases, with the texture files of the repository, a configuration and no map. *)
Theorem C115_missing_refuted : forall show fuelo fuel e hue vecs known l size n ctf rooms fl extra g d i o m st1 g1, true_vectors vecs -> has_base known -> mirror_factor n -> good_env e ->
  i <> o -> parse d i = Ok m -> update [] fl = Ok extra -> lay_rooms fuel e (Some n) ctf rooms g = (st1, None, g1) -> NoDup (door_cells st1) ->
  exists d' x tm' w m2 st g', magica_rooms show texture_data colour_files fuelo fuel e hue vecs (asked (tm_init known) l) size (Some n) true ctf rooms fl g d i o = (d', Some FileNotFoundError) /\
    generate_any fuel e hue vecs (asked (tm_init known) l) size (Some n) true ctf rooms m g = (tm', Ok (w, m2, st), g') /\
    parse d' o = Err x /\ same_but [o; cfg_name o] d d' /\ d' (cfg_name o) = Some (Txt (emit_conf show "Python" "test" tm')).
Proof. exact debug_missing. Qed.
Print Assumptions C115_missing_refuted.
(** With the missing texture file in place it leaves a map with the rooms and one marker for each open door, and the
    configuration, and touches no other file. *)
Theorem C115_written_partial : forall show tree k fuelo fuel e hue vecs l fl n ctf rooms g d i o m ws st1 g1, In "data/hxr/empty.png"%string tree -> (forall c, one_line (show c)) -> incl fl choices ->
  true_vectors vecs -> byte_hues hue -> mirror_factor n -> good_env e ->
  (7 <= k)%nat -> (S k < fuelo)%nat -> wf_map m -> header_size m = Some ws -> 2 ^ Z.of_nat (S k) <= ws <= 8192 ->
  Z.of_nat (List.length (tm_atlas (asked (tm_init only_colours) l))) <= 57000 -> len (m_ents m) <= 2 ^ 30 ->
  i <> o -> parse d i = Ok m -> lay_rooms fuel e (Some n) ctf rooms g = (st1, None, g1) -> NoDup (door_cells st1) ->
  exists d' tm' w m2 st g' m',
    magica_rooms show tree colour_files fuelo fuel e hue vecs (asked (tm_init only_colours) l) (2 ^ Z.of_nat (S k)) (Some n) true ctf rooms (Some fl) g d i o = (d', None) /\
    generate_any fuel e hue vecs (asked (tm_init only_colours) l) (2 ^ Z.of_nat (S k)) (Some n) true ctf rooms m g = (tm', Ok (w, m2, st), g') /\
    parse d' o = Ok m' /\ same_but [o; cfg_name o] d d' /\
    (cfg_name o <> o -> exists extra, update [] (Some fl) = Ok extra /\ d' (cfg_name o) = Some (Txt (config_text show tm' extra))) /\
    Forall2 same_entity (m_ents m2) (m_ents m') /\
    forall x y z tex, in_world (2 ^ Z.of_nat (S k)) (x, y, z) ->
      (world_lookup (S k) m' x y z = Some tex <->
        (exists ob, In ob (u_rooms st1) /\ has_block tm' (snd ob) (x, y, z) tex) \/
        (exists d k, In d (door_cells st1) /\ on_plate d (x, y, z) /\ numbered tm' red k /\ tex = repeat k 6)).
Proof. exact debug_good. Qed.
Print Assumptions C115_written_partial.
(** Both kinds of layouts occur, with 12 and with 60 rooms of one stream. *)
Example C115_hypotheses : (exists st g, lay_rooms 400 (env_of castle_dist (fun q => q)) (Some 2) false 12 stream = (st, None, g) /\ NoDup (door_cells st) /\ door_cells st <> []) /\
  (exists st g, lay_rooms 400 (env_of castle_dist (fun q => q)) (Some 2) false 60 stream = (st, None, g) /\ ~ NoDup (door_cells st)) /\
  true_vectors vecs0 /\ has_base only_colours /\ good_env (env_of castle_dist (fun q => q)) /\
  parse (store (fun _ => None) "maps/in.mpz" (Gz (CodecSamples.written map256))) "maps/in.mpz" = Ok map256.
Proof.
  destruct C77_both_cases as [A B]. split; [|split].
  - destruct (lay_rooms 400 (env_of castle_dist (fun q => q)) (Some 2) false 12 stream) as [[st [x|]] g]; [discriminate A|].
    exists st, g. split; [reflexivity|]. split; [apply different_nodup; congruence|]. intros E. rewrite E in A. discriminate A.
  - destruct (lay_rooms 400 (env_of castle_dist (fun q => q)) (Some 2) false 60 stream) as [[st [x|]] g]; [discriminate B|].
    exists st, g. split; [reflexivity|]. intros ND. apply nodup_different in ND. rewrite ND in B. assert (67 = 68)%nat by congruence. discriminate.
  - destruct hypotheses_met as (H1 & _ & _ & H4 & _). split; [exact H1|]. split; [exact only_base|]. split; [exact H4|]. vm_compute. reflexivity.
Qed.
