(** Properties C87 and C88 of the texture files of a map.  Statements only; proofs are in
    CopyProofs.v. *)
From Coq Require Import Ascii.
From Verif Require Import Py VecModel VoxelModel CodecModel CodecSpec OutModel OutSpec UpmModel UpmSpec KitModel RoomModel MagicaModel RoomSpec TexModel TexSpec TexProofs
  LightModel ShippedModel ShippedSpec DistModel GenModel GenSpec GenProofs PropsGen ConfModel ConfSpec CopyModel CopySpec CopyProofs.
Local Open Scope Z_scope.

(** C87: every texture file that the configuration names is installed.  Refuted for colours: there
    is no file textures/data/hxr/empty.png, so that nothing is copied once a colour is in use ... *)
Theorem C87_install_refuted : forall known l r g b, has_base known -> In (RColour r g b) l ->
  copy_data texture_data colour_files (asked (tm_init known) l) = ([], Some FileNotFoundError).
Proof. exact colours_absent. Qed.
Print Assumptions C87_install_refuted.
Example C87_refuted_example : has_base only_colours /\ In (RColour (CInt 1) (CInt 0) (CInt 0)) [RGet "sky"; RColour (CInt 1) (CInt 0) (CInt 0)].
Proof. split; [exact only_base|right; left; reflexivity]. Qed.
(** ... for any material of the primary theme, and for two materials of the paper theme. *)
Theorem C87_primary_refuted : forall l s, names_among (materials primary_theme) l -> In (RGet s) l ->
  copy_data texture_data colour_files (asked (tm_init (discovered primary)) l) = ([], Some FileNotFoundError).
Proof. exact primary_absent. Qed.
Print Assumptions C87_primary_refuted.
Theorem C87_paper_refuted : forall l s, names_among (materials paper_theme) l -> In (RGet s) l -> s = "paper3"%string \/ s = "paper4"%string ->
  exists c, copy_data texture_data paper_files (asked (tm_init (discovered paper)) l) = (c, Some FileNotFoundError).
Proof. exact paper_absent. Qed.
Print Assumptions C87_paper_refuted.
Example C87_theme_example : names_among (materials primary_theme) [RGet "red"; RGet "gray"] /\
  names_among (materials paper_theme) [RGet "paper1"; RGet "paper4"] /\
  fst (copy_data texture_data paper_files (asked (tm_init (discovered paper)) [RGet "paper1"; RGet "paper4"])) = ["paper1_s.png"%string].
Proof.
  split; [|split]; [| |vm_compute; reflexivity]; repeat (constructor; [eexists; split; [reflexivity|cbn; tauto]|]); constructor.
Qed.
(** Proved for the minecraft theme: whatever materials are used, all files are copied. *)
Theorem C87_minecraft_partial : forall l show, (forall c, one_line (show c)) -> names_among (materials minecraft_theme) l ->
  exists c, copy_data texture_data minecraft_files (asked (tm_init (discovered minecraft)) l) = (c, None) /\
    all_installed (emit_conf show "Python" "test" (asked (tm_init (discovered minecraft)) l)) c.
Proof. exact minecraft_installed. Qed.
Print Assumptions C87_minecraft_partial.
(** With the missing file in place, also for colours. *)
Theorem C87_colours_partial : forall tree l show, (forall c, one_line (show c)) -> In "data/hxr/empty.png"%string tree ->
  exists c, copy_data tree colour_files (asked (tm_init only_colours) l) = (c, None) /\
    all_installed (emit_conf show "Python" "test" (asked (tm_init only_colours) l)) c.
Proof. exact colours_installed. Qed.
Print Assumptions C87_colours_partial.
(** The default theme uses files of the game: none is copied. *)
Theorem C87_default_partial : forall tree tm, copy_data tree dull_files tm = ([], None).
Proof. exact dull_none. Qed.
Print Assumptions C87_default_partial.
Example C87_example :
  copy_data texture_data minecraft_files (asked (tm_init (discovered minecraft)) [RGet "gold"]) =
    (["gold.png"; "gold_n.png"; "gold_s.png"; "gold_z.png"]%string, None) /\
  names_file "texture n ""hxr/textures/gold_n.png""" "gold_n.png" /\
  In "texture n ""hxr/textures/gold_n.png"""%string (statements (emit_conf (fun _ => "1"%string) "Python" "test" (asked (tm_init (discovered minecraft)) [RGet "gold"]))).
Proof.
  split; [vm_compute; reflexivity|]. split.
  - exists "n"%char, ""%string. split; [reflexivity|]. cbn. repeat split; discriminate.
  - vm_compute. tauto.
Qed.

(** C88: the map generator writes a map.  Refuted: with the texture files of the repository no run
    writes one, whatever the arguments; it ends with FileNotFoundError after the first part of the
    configuration. *)
Theorem C88_map_written_refuted : forall e hue vecs known l size n ctf rooms m g, true_vectors vecs -> has_base known -> mirror_factor n -> good_env e ->
  exists fuel0, forall fuel, (fuel0 <= fuel)%nat -> exists tm' w m2 st g',
    generate fuel e hue vecs (asked (tm_init known) l) size (Some n) false ctf rooms m g = (tm', Ok (w, m2, st), g') /\
    forall show fuelo extra, output_mpz show texture_data colour_files fuelo w m2 tm' extra = (emit_conf show "Python" "test" tm', [], Err FileNotFoundError).
Proof. exact generator_fails. Qed.
Print Assumptions C88_map_written_refuted.
(** With that file in place every run writes a map with the blocks of its rooms, a configuration,
    and all texture files it names. *)
Theorem C88_map_written_partial : forall tree k fuelo e hue vecs l show fl n ctf rooms m ws g, In "data/hxr/empty.png"%string tree -> (forall c, one_line (show c)) -> incl fl choices ->
  true_vectors vecs -> byte_hues hue -> mirror_factor n -> good_env e ->
  (7 <= k)%nat -> (S k < fuelo)%nat -> wf_map m -> header_size m = Some ws -> 2 ^ Z.of_nat (S k) <= ws <= 8192 ->
  Z.of_nat (List.length (tm_atlas (asked (tm_init only_colours) l))) <= 57000 -> len (m_ents m) <= 2 ^ 30 ->
  exists fuel0, forall fuel, (fuel0 <= fuel)%nat -> exists tm' w m2 st g' extra copied bs m',
    generate fuel e hue vecs (asked (tm_init only_colours) l) (2 ^ Z.of_nat (S k)) (Some n) false ctf rooms m g = (tm', Ok (w, m2, st), g') /\
    update [] (Some fl) = Ok extra /\
    output_mpz show tree colour_files fuelo w m2 tm' extra = (config_text show tm' extra, copied, Ok bs) /\
    all_installed (config_text show tm' extra) copied /\ read_rest bs = Ok (m', []) /\
    forall x y z tex, in_world (2 ^ Z.of_nat (S k)) (x, y, z) ->
      (world_lookup (S k) m' x y z = Some tex <-> exists ob, In ob (u_rooms st) /\ has_block tm' (snd ob) (x, y, z) tex).
Proof. exact generator_writes. Qed.
Print Assumptions C88_map_written_partial.
Example C88_hypotheses : true_vectors vecs0 /\ has_base only_colours /\ good_env (env_of castle_dist (fun q => q)) /\ wf_map map256 /\ header_size map256 = Some 256 /\
  Z.of_nat (List.length (tm_atlas (asked (tm_init only_colours) [RColour (CInt 1) (CInt 0) (CInt 0)]))) = 3 /\ ~ In "data/hxr/empty.png"%string texture_data.
Proof.
  destruct hypotheses_met as (A & _ & _ & B & C & D & _). split; [exact A|]. split; [exact only_base|]. split; [exact B|]. split; [exact C|]. split; [exact D|].
  split; [vm_compute; reflexivity|]. intros H.
  assert (existsb (String.eqb "data/hxr/empty.png") texture_data = true) as X by (apply existsb_exists; eexists; split; [exact H|reflexivity]). vm_compute in X. discriminate.
Qed.
