(** Properties C111 (all failing runs) and C121 (all maps that can be read) of the map generator.  Statements only; proofs are in
    BaseRunProofs.v. *)
From Coq Require Import QArith.
From Verif Require Import Py VecModel VoxelModel CodecModel CodecSpec CodecSamples OutModel OutSpec UpmModel UpmSpec KitModel RoomModel MagicaModel RoomSpec
  TexModel TexSpec TexProofs LightModel LightSpec ShippedModel ShippedSpec DistModel DistSpec GenModel GenSpec PropsGen DebugModel ConfModel ConfSpec CopyModel CopySpec CopyProofs
  DiscModel DiscSpec DiscProofs PropsTerrainDisc BaseRunProofs.
Local Open Scope Z_scope.

(** C111, whatever the arguments, the texture files and the input: a run that fails after the command line never keeps what was in
    the output file.  There is then no map at all, or what the writer had written when it raised. *)
Theorem C111_never_kept_refuted : forall show tree decl fuelo fuel e hue vecs tm size mirror debug ctf rooms fl g d i o d' x,
  magica_rooms show tree decl fuelo fuel e hue vecs tm size mirror debug ctf rooms fl g d i o = (d', Some x) -> d i <> None ->
  same_but [o; cfg_name o] d d' /\
  ((exists y, parse d' o = Err y) \/ exists m q, write_out m = (q, Some x) /\ d' o = Some (Gz q)).
Proof. exact never_kept. Qed.
Print Assumptions C111_never_kept_refuted.
(** Runs that fail exist for all arguments: C111_in_place_refuted.  Here one of them. *)
Example C111_never_kept_example : exists d' x, magica_rooms (fun _ => ""%string) [] colour_files 9 9 (env_of castle_dist (fun q => q)) (fun _ => (0, 0, 0)) vecs0 (tm_init only_colours)
  256 (Some 4) true false 3 None (fun _ => 0) (store (fun _ => None) "a.mpz" (Gz (written map256))) "a.mpz" "a.mpz" = (d', Some x).
Proof. destruct (in_place_lost (fun _ => ""%string) [] colour_files 9 9 (env_of castle_dist (fun q => q)) (fun _ => (0, 0, 0)) vecs0 (tm_init only_colours)
  256 (Some 4) true false 3 None (fun _ => 0) (store (fun _ => None) "a.mpz" (Gz (written map256))) "a.mpz" _ (store_same _ _ _)) as (d1 & x & E & _). exists d1, x. exact E. Qed.

(** C121: a map can be generated from every map that can be read.

    Refuted: with a reserved byte from 128 on or a changed texture slot in the input, every run fails, and the output file is
    replaced by one that cannot be read. *)
Theorem C121_base_refuted : forall show tree k fuelo e hue vecs l fl n ctf rooms g d i o b m ws, In "data/hxr/empty.png"%string tree -> (forall c, one_line (show c)) -> incl fl choices ->
  true_vectors vecs -> byte_hues hue -> mirror_factor n -> good_env e ->
  (7 <= k)%nat -> (S k < fuelo)%nat -> d i = Some (Gz b) -> Forall is_byte b -> read_map b = Ok m -> counted m -> header_size m = Some ws -> 2 ^ Z.of_nat (S k) <= ws <= 8192 ->
  Z.of_nat (List.length (tm_atlas (asked (tm_init only_colours) l))) <= 57000 -> len (m_ents m) <= 2 ^ 30 -> i <> o -> ~ plain_rest m ->
  exists fuel0, forall fuel, (fuel0 <= fuel)%nat -> exists d' x y,
    magica_rooms show tree colour_files fuelo fuel e hue vecs (asked (tm_init only_colours) l) (2 ^ Z.of_nat (S k)) (Some n) false ctf rooms (Some fl) g d i o = (d', Some x) /\
    same_but [o; cfg_name o] d d' /\ parse d' o = Err y.
Proof. exact base_lost. Qed.
Print Assumptions C121_base_refuted.
(** For all other readable maps, whatever their octree, the file has the blocks of the rooms and nothing of the old octree, the
    old entities followed by the sun and those of the rooms, and the old settings. *)
Theorem C121_base_partial : forall show tree k fuelo e hue vecs l fl n ctf rooms g d i o b m ws, In "data/hxr/empty.png"%string tree -> (forall c, one_line (show c)) -> incl fl choices ->
  true_vectors vecs -> byte_hues hue -> mirror_factor n -> good_env e ->
  (7 <= k)%nat -> (S k < fuelo)%nat -> d i = Some (Gz b) -> Forall is_byte b -> read_map b = Ok m -> counted m -> header_size m = Some ws -> 2 ^ Z.of_nat (S k) <= ws <= 8192 ->
  Z.of_nat (List.length (tm_atlas (asked (tm_init only_colours) l))) <= 57000 -> len (m_ents m) <= 2 ^ 30 -> i <> o -> plain_rest m ->
  exists fuel0, forall fuel, (fuel0 <= fuel)%nat -> exists d' tm' w m2 st g' sun ess m',
    magica_rooms show tree colour_files fuelo fuel e hue vecs (asked (tm_init only_colours) l) (2 ^ Z.of_nat (S k)) (Some n) false ctf rooms (Some fl) g d i o = (d', None) /\
    generate fuel e hue vecs (asked (tm_init only_colours) l) (2 ^ Z.of_nat (S k)) (Some n) false ctf rooms m g = (tm', Ok (w, m2, st), g') /\
    same_but [o; cfg_name o] d d' /\ parse d' o = Ok m' /\ same_settings m m' /\
    Forall2 same_entity (m_ents m ++ sun :: List.concat ess) (m_ents m') /\ is_sun sun /\ Forall2 (furniture hue) (u_rooms st) ess /\
    forall x y z tex, in_world (2 ^ Z.of_nat (S k)) (x, y, z) ->
      (world_lookup (S k) m' x y z = Some tex <-> exists ob, In ob (u_rooms st) /\ has_block tm' (snd ob) (x, y, z) tex).
Proof. exact base_written. Qed.
Print Assumptions C121_base_partial.
(** Both kinds of input exist; the other hypotheses are met as for C111. *)
Example C121_hypotheses : (Forall is_byte file_large /\ read_map file_large = Ok (get_map file_large) /\ counted (get_map file_large) /\
    header_size (get_map file_large) = Some 256 /\ ~ plain_rest (get_map file_large)) /\
  (Forall is_byte (written map256) /\ read_map (written map256) = Ok map256 /\ counted map256 /\ header_size map256 = Some 256 /\ plain_rest map256).
Proof. split; [exact C113_refuted_hypotheses|]. exact (proj2 C113_hypotheses). Qed.
