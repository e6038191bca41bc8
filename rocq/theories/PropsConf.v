(** Properties C71 and C72 of the configuration file of a map.  Statements only; proofs are in
    ConfProofs.v. *)
From Verif Require Import Py VecModel VecSpec VoxelModel VoxelSpec CodecModel CodecSpec OutModel OutSpec CodecSamples UpmModel UpmSpec KitModel KitSpec
  RoomModel MagicaModel RoomSpec TexModel TexSpec TexProofs LightModel LightSpec VoxFileModel ShippedModel ShippedSpec DistModel GenModel GenSpec GenProofs PropsGen
  ConfModel ConfSpec ConfProofs.
Local Open Scope Z_scope.

(** C71: the two files of a generated map agree: each block of the map file has on all sides the
    texture slot that the configuration file gives the colour the room means. *)
Theorem C71_map_and_config : forall k fuelo e hue vecs known l show fl n ctf rooms m ws g,
  true_vectors vecs -> byte_hues hue -> has_base known -> safe_table known -> tidy_table known -> (forall c, one_line (show c)) -> incl fl choices ->
  mirror_factor n -> good_env e ->
  (7 <= k)%nat -> (S k < fuelo)%nat -> wf_map m -> header_size m = Some ws -> 2 ^ Z.of_nat (S k) <= ws <= 8192 ->
  Z.of_nat (List.length (tm_atlas (asked (tm_init known) l))) <= 57000 -> len (m_ents m) <= 2 ^ 30 ->
  exists fuel0, forall fuel, (fuel0 <= fuel)%nat -> exists tm' w m2 st g' bs m' extra,
    generate fuel e hue vecs (asked (tm_init known) l) (2 ^ Z.of_nat (S k)) (Some n) false ctf rooms m g = (tm', Ok (w, m2, st), g') /\
    output_map fuelo w m2 = Ok bs /\ read_rest bs = Ok (m', []) /\ update [] (Some fl) = Ok extra /\
    forall x y z tex, in_world (2 ^ Z.of_nat (S k)) (x, y, z) -> world_lookup (S k) m' x y z = Some tex ->
      exists ob c i, In ob (u_rooms st) /\ means_colour (snd ob) (x, y, z) c /\ tex = repeat i 6 /\
        slot_has_colour show (config_text show tm' extra) i c.
Proof. exact map_config. Qed.
Print Assumptions C71_map_and_config.
Example C71_hypotheses : has_base (discovered paper) /\ safe_table (discovered paper) /\ tidy_table (discovered paper) /\ (forall c : comp, one_line ((fun _ => "1.0"%string) c)) /\
  incl ["maliwan"; "maliwan"; "space_station"]%string choices.
Proof.
  split; [exact paper_base|]. split; [unfold safe_table; repeat constructor|]. split; [unfold tidy_table; repeat (constructor; [lit|]); constructor|]. split; [intros; lit|].
  intros f [<-|[<-|[<-|[]]]]; vm_compute; auto.
Qed.

(** C72: the options given for the flavour of the world set exactly their variables, in the order
    they are given, after the textures, and change nothing before. *)
Theorem C72_flavours : forall known l show fl, has_base known -> safe_table known -> incl fl choices ->
  let added := List.concat (map setting_lines fl) in
  update [] (Some fl) = Ok added /\ Forall sets_variable added /\
  statements (config_text show (asked (tm_init known) l) added) = (statements (emit_conf show "Python" "test" (asked (tm_init known) l)) ++ added)%list.
Proof. exact flavours_text. Qed.
Print Assumptions C72_flavours.
Theorem C72_no_flavours : update [] None = Ok [] /\ forall show tm, config_text show tm [] = emit_conf show "Python" "test" tm.
Proof. exact no_flavours. Qed.
Print Assumptions C72_no_flavours.
Example C72_example : update [] (Some ["crushed_blacks"; "maliwan"; "crushed_blacks"])%string =
  Ok ["ambient 0"; "shotgunrays1 40"; "shotgunspread1 25"; "shotgunammoadd 8"; "shotgunammosub1 4"; "shotguncolor 16711680"; "shotgunexplcol1 16724787"; "shotgunexplode1 500"; "ambient 0"]%string.
Proof. vm_compute. reflexivity. Qed.
