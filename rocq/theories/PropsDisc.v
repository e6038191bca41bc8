(** Properties C110 to C112 of the files that the programs leave behind.  Statements only; proofs are in
    DiscWriter.v, DiscLoss.v and DiscProofs.v. *)
From Verif Require Import Py VecModel VoxelModel CodecModel CodecSpec CodecParse CodecMap CodecSamples OutModel OutSpec UpmModel UpmSpec KitModel RoomModel MagicaModel RoomSpec
  TexModel TexSpec TexProofs LightModel ShippedModel ShippedSpec DistModel GenModel GenSpec GenProofs PropsGen DebugModel ConfModel ConfSpec CopyModel CopySpec CopyProofs
  DiscModel DiscSpec DiscWriter DiscLoss DiscProofs.
Local Open Scope Z_scope.

(** C110: a map that the comparison tool cannot rewrite is left alone.  Refuted: for every map that is read but not
    written, the output is a file that cannot be read, also when it is the input itself. *)
Theorem C110_left_alone_refuted : forall d i o b m, d i = Some (Gz b) -> Forall is_byte b -> read_map b = Ok m -> counted m -> Forall known_kinds (m_world m) ->
  ~ writable_map m -> exists d' x e, iso d i o = (d', Some x) /\ same_but [o] d d' /\ parse d' o = Err e.
Proof. exact iso_lost. Qed.
Print Assumptions C110_left_alone_refuted.
(** A file that is not a map is left alone, and so is everything else. *)
Theorem C110_unreadable_partial : forall d i o,
  (d i = None -> iso d i o = (d, Some FileNotFoundError)) /\
  (forall b x, d i = Some (Gz b) -> read_map b = Err x -> iso d i o = (d, Some x)) /\
  (forall t, d i = Some (Txt t) -> exists x, iso d i o = (d, Some x)).
Proof. exact iso_not_a_map. Qed.
Print Assumptions C110_unreadable_partial.
(** A map that can be written is written, no other file is touched, and a second run reproduces the file. *)
Theorem C110_rewritten_partial : forall d i o b m, d i = Some (Gz b) -> Forall is_byte b -> read_map b = Ok m -> counted m -> writable_map m ->
  exists d' m', iso d i o = (d', None) /\ same_but [o] d d' /\ parse d' o = Ok m' /\ same_map (set_numents m) m' /\
    forall o2, exists d2, iso d' o o2 = (d2, None) /\ d2 o2 = d' o.
Proof. exact iso_written. Qed.
Print Assumptions C110_rewritten_partial.
(** What is written by both models of the writer is the same. *)
Theorem C110_writers_agree : forall m, match write_map m with Ok b => write_out m = (b, None) | Err x => snd (write_out m) = Some x end.
Proof. exact tracks_map. Qed.
Print Assumptions C110_writers_agree.
(** The hypotheses are met by files with a merged cube, a large reserved byte and a changed slot. *)
Example C110_hypotheses : Forall (fun b => Forall is_byte b /\ read_map b = Ok (get_map b) /\ counted (get_map b) /\ Forall known_kinds (m_world (get_map b)) /\
  ~ writable_map (get_map b)) [file_merged; file_reserved; file_slot].
Proof.
  assert (W : forall b, Forall is_byte b -> read_map b = Ok (get_map b) -> (forall bs, write_map (get_map b) <> Ok bs) -> ~ writable_map (get_map b)).
  { intros b Hb Hr Hn Hw. apply (writable_lemma b _ Hb Hr) in Hw. destruct Hw as (bs & E). exact (Hn bs E). }
  assert (B1 : Forall is_byte file_merged) by (repeat constructor; unfold is_byte; lia).
  assert (B2 : Forall is_byte file_reserved) by (repeat constructor; unfold is_byte; lia).
  assert (B3 : Forall is_byte file_slot) by (repeat constructor; unfold is_byte; lia).
  apply Forall_cons; [|apply Forall_cons; [|apply Forall_cons; [|apply Forall_nil]]].
  all: split; [assumption|]; split; [vm_compute; reflexivity|].
  all: split; [intros n E; vm_compute in E; assert (n = 0) by congruence; subst; vm_compute; reflexivity|].
  all: split; [|apply W; [assumption|vm_compute; reflexivity|intros bs; vm_compute; discriminate]].
  all: match goal with |- Forall _ ?w => let v := eval vm_compute in w in change w with v end; repeat (apply Forall_cons; [apply known_leaf; vm_compute; split; discriminate|]); apply Forall_nil.
Qed.
(** An unknown kind in the last cube: the tool ends with exit code 42, but the file is complete. *)
Example C110_unknown_kind : exists b, let d := store (fun _ => None) "a.mpz" (Gz b) in
  snd (iso d "a.mpz" "a.mpz") = Some (SystemExit 42) /\ fst (iso d "a.mpz" "a.mpz") "a.mpz"%string = Some (Gz b) /\ exists m, read_map b = Ok m.
Proof.
  exists (hbytes 0 0 0 ++ le 2 0 ++ List.concat (repeat (leafbytes 1) 7) ++ [7]). cbv zeta.
  split; [vm_compute; reflexivity|]. split; [vm_compute; reflexivity|]. eexists. vm_compute. reflexivity.
Qed.

(** C111: a run of the map generator that does not succeed keeps the map that was there.  Refuted: with the same file
    as input and output, every run whatever its arguments empties that file and fails ... *)
Theorem C111_in_place_refuted : forall show tree decl fuelo fuel e hue vecs tm size mirror debug ctf rooms fl g d f c, d f = Some c ->
  exists d' x, magica_rooms show tree decl fuelo fuel e hue vecs tm size mirror debug ctf rooms fl g d f f = (d', Some x) /\ d' f = Some (Txt "") /\ same_but [f] d d'.
Proof. exact in_place_lost. Qed.
Print Assumptions C111_in_place_refuted.
(** ... and with the texture files of the repository every run fails and leaves no map in the output file. *)
Theorem C111_failed_run_refuted : forall show fuelo e hue vecs known l size n ctf rooms fl extra g d i o m, true_vectors vecs -> has_base known -> mirror_factor n -> good_env e ->
  i <> o -> parse d i = Ok m -> update [] fl = Ok extra ->
  exists fuel0, forall fuel, (fuel0 <= fuel)%nat -> exists d' x,
    magica_rooms show texture_data colour_files fuelo fuel e hue vecs (asked (tm_init known) l) size (Some n) false ctf rooms fl g d i o = (d', Some FileNotFoundError) /\
    parse d' o = Err x /\ same_but [o; cfg_name o] d d'.
Proof. exact failed_run. Qed.
Print Assumptions C111_failed_run_refuted.
(** With the missing texture file in place, a run with different files writes the map and the configuration, and
    touches no other file; in particular the input stays. *)
Theorem C111_good_run_partial : forall show tree k fuelo e hue vecs l fl n ctf rooms g d i o m ws, In "data/hxr/empty.png"%string tree -> (forall c, one_line (show c)) -> incl fl choices ->
  true_vectors vecs -> byte_hues hue -> mirror_factor n -> good_env e ->
  (7 <= k)%nat -> (S k < fuelo)%nat -> wf_map m -> header_size m = Some ws -> 2 ^ Z.of_nat (S k) <= ws <= 8192 ->
  Z.of_nat (List.length (tm_atlas (asked (tm_init only_colours) l))) <= 57000 -> len (m_ents m) <= 2 ^ 30 ->
  i <> o -> parse d i = Ok m ->
  exists fuel0, forall fuel, (fuel0 <= fuel)%nat -> exists d' tm' w m2 st g' m',
    magica_rooms show tree colour_files fuelo fuel e hue vecs (asked (tm_init only_colours) l) (2 ^ Z.of_nat (S k)) (Some n) false ctf rooms (Some fl) g d i o = (d', None) /\
    generate fuel e hue vecs (asked (tm_init only_colours) l) (2 ^ Z.of_nat (S k)) (Some n) false ctf rooms m g = (tm', Ok (w, m2, st), g') /\
    parse d' o = Ok m' /\ same_but [o; cfg_name o] d d' /\
    (cfg_name o <> o -> exists extra, update [] (Some fl) = Ok extra /\ d' (cfg_name o) = Some (Txt (config_text show tm' extra))) /\
    forall x y z tex, in_world (2 ^ Z.of_nat (S k)) (x, y, z) ->
      (world_lookup (S k) m' x y z = Some tex <-> exists ob, In ob (u_rooms st) /\ has_block tm' (snd ob) (x, y, z) tex).
Proof. exact good_run. Qed.
Print Assumptions C111_good_run_partial.
Example C111_hypotheses : true_vectors vecs0 /\ has_base only_colours /\ good_env (env_of castle_dist (fun q => q)) /\ wf_map map256 /\ header_size map256 = Some 256 /\
  parse (store (fun _ => None) "maps/in.mpz" (Gz (written map256))) "maps/in.mpz" = Ok map256 /\ update [] (Some ["space_station"%string]) = Ok space_station /\
  cfg_name "maps/out.mpz" = "maps/out.cfg"%string.
Proof.
  destruct hypotheses_met as (A & _ & _ & B & C & D & _). split; [exact A|]. split; [exact only_base|]. split; [exact B|]. split; [exact C|]. split; [exact D|].
  split; [vm_compute; reflexivity|]. split; reflexivity.
Qed.

(** C112: the programs rooms and vector_test write a map.  Refuted: no run does; each empties the output file. *)
Theorem C112_rooms_refuted : forall d i o c, d i = Some c -> exists d' x, rooms_py d i o = (d', Some x) /\ d' o = Some (Txt "") /\ same_but [o] d d' /\
  ((exists m, parse d i = Ok m) -> i <> o -> x = TypeError).
Proof. exact rooms_never. Qed.
Print Assumptions C112_rooms_refuted.
Theorem C112_vector_test_refuted : forall d i o c, d i = Some c -> exists d', vector_test_py d i o = (d', Some AttributeError) /\ d' o = Some (Txt "") /\ same_but [o] d d'.
Proof. exact vector_test_never. Qed.
Print Assumptions C112_vector_test_refuted.
Example C112_example : let d := store (store (fun _ => None) "in.mpz" (Gz (written map256))) "out.mpz" (Gz (written map256)) in
  parse d "in.mpz" = Ok map256 /\ parse d "out.mpz" = Ok map256 /\ snd (rooms_py d "in.mpz" "out.mpz") = Some TypeError /\
  fst (rooms_py d "in.mpz" "out.mpz") "out.mpz"%string = Some (Txt "") /\ exists x, parse (fst (rooms_py d "in.mpz" "out.mpz")) "out.mpz" = Err x.
Proof.
  cbv zeta. split; [vm_compute; reflexivity|]. split; [vm_compute; reflexivity|]. split; [vm_compute; reflexivity|]. split; [vm_compute; reflexivity|].
  eexists. vm_compute. reflexivity.
Qed.
