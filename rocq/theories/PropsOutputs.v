(** Property C122 of runs of the map generator that are asked for several outputs.  Statements only; proofs are in OutputsProofs.v. *)
From Coq Require Import QArith.
From Verif Require Import Py VecModel VoxelModel CodecModel CodecSpec CodecSamples OutModel OutSpec UpmModel UpmSpec KitModel RoomModel MagicaModel RoomSpec
  TexModel TexSpec TexProofs LightModel LightSpec VoxFileModel ShippedModel ShippedSpec DistModel DistSpec GenModel GenSpec PropsGen DebugModel ConfModel ConfSpec CopyModel CopySpec CopyProofs
  DiscModel DiscSpec DiscProofs ExportSpec ExportProofs OutputsModel OutputsProofs.
Local Open Scope Z_scope.

(** C122: each output that is asked for (map, voxel file, graph) is written, whatever else is asked for.

    Refuted for every run with the texture files of the repository: the graph is written if no map is asked for; with the map
    asked for the same run fails, there is no map, and the graph file is left empty.  The voxel file is complete in both cases. *)
Theorem C122_outputs_refuted : forall show fuelo e hue vecs known l size n ctf rooms fl extra g d i m, true_vectors vecs -> has_base known -> exportable (asked (tm_init known) l) ->
  mirror_factor n -> good_env e -> 0 <= size -> parse d i = Ok m -> update [] fl = Ok extra ->
  exists fuel0, forall fuel, (fuel0 <= fuel)%nat -> exists tm' w m2 st g' bs,
    generate fuel e hue vecs (asked (tm_init known) l) size (Some n) false ctf rooms m g = (tm', Ok (w, m2, st), g') /\ vox_write w (tm_atlas tm') = Ok bs /\
    (forall vox gr, magica_all show texture_data colour_files fuelo fuel e hue vecs (asked (tm_init known) l) size (Some n) false ctf rooms fl g d i vox gr None =
       (Outs d (if vox then Some (Some bs) else None) (if gr then Some (Some (graph_nodes st, graph_links st)) else None), None)) /\
    (forall vox gr f, i <> f -> exists d' x, magica_all show texture_data colour_files fuelo fuel e hue vecs (asked (tm_init known) l) size (Some n) false ctf rooms fl g d i vox gr (Some f) =
       (Outs d' (if vox then Some (Some bs) else None) (if gr then Some None else None), Some FileNotFoundError) /\ parse d' f = Err x /\ same_but [f; cfg_name f] d d').
Proof. exact graph_lost. Qed.
Print Assumptions C122_outputs_refuted.
(** With the missing texture image in place, all that is asked for is written, for every readable map without large reserved
    bytes and changed texture slots; the graph and the voxel file are those of the rooms in the map. *)
Theorem C122_outputs_partial : forall show tree k fuelo e hue vecs l fl n ctf rooms g d i o b m ws vox gr, In "data/hxr/empty.png"%string tree -> (forall c, one_line (show c)) -> incl fl choices ->
  true_vectors vecs -> byte_hues hue -> mirror_factor n -> good_env e ->
  (7 <= k)%nat -> (S k < fuelo)%nat -> d i = Some (Gz b) -> Forall is_byte b -> read_map b = Ok m -> counted m -> header_size m = Some ws -> 2 ^ Z.of_nat (S k) <= ws <= 8192 ->
  exportable (asked (tm_init only_colours) l) -> len (m_ents m) <= 2 ^ 30 -> i <> o -> plain_rest m ->
  exists fuel0, forall fuel, (fuel0 <= fuel)%nat -> exists d' tm' w m2 st g' m' bs,
    magica_all show tree colour_files fuelo fuel e hue vecs (asked (tm_init only_colours) l) (2 ^ Z.of_nat (S k)) (Some n) false ctf rooms (Some fl) g d i vox gr (Some o) =
      (Outs d' (if vox then Some (Some bs) else None) (if gr then Some (Some (graph_nodes st, graph_links st)) else None), None) /\
    generate fuel e hue vecs (asked (tm_init only_colours) l) (2 ^ Z.of_nat (S k)) (Some n) false ctf rooms m g = (tm', Ok (w, m2, st), g') /\
    vox_write w (tm_atlas tm') = Ok bs /\ same_but [o; cfg_name o] d d' /\ parse d' o = Ok m' /\
    forall x y z tex, in_world (2 ^ Z.of_nat (S k)) (x, y, z) ->
      (world_lookup (S k) m' x y z = Some tex <-> exists ob, In ob (u_rooms st) /\ has_block tm' (snd ob) (x, y, z) tex).
Proof. exact all_written. Qed.
Print Assumptions C122_outputs_partial.
(** The hypotheses that are new here; the others are met as for C111 and C121. *)
Example C122_hypotheses : has_base only_colours /\ exportable (asked (tm_init only_colours) []) /\ parse (store (fun _ => None) "maps/in.mpz" (Gz (written map256))) "maps/in.mpz" = Ok map256 /\
  update [] None = Ok [].
Proof. split; [exact only_base|]. split; [apply fresh_exportable; split; vm_compute; reflexivity|]. split; [vm_compute; reflexivity|reflexivity]. Qed.
