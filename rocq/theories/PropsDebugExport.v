(** Property C116, the voxel file exported from a map generated in debug mode.  Statements only; proofs are in
    DebugExportProofs.v. *)
From Verif Require Import Py VecModel VecSpec VoxelModel VoxelSpec CodecModel CodecSpec CodecSamples OutModel OutSpec UpmModel UpmSpec KitModel TexModel TexSpec
  LightModel VoxFileModel VoxFileSpec ShippedModel ShippedSpec DistModel GenModel GenSpec GenProofs PropsGen DebugModel DebugSpec DebugProofs ExportSpec ExportProofs DebugExportSpec DebugExportProofs.
Local Open Scope Z_scope.

(** C116: the voxel file exported beside a map generated in debug mode shows the rooms and a red plate for each open door.

    The file is always written, and, if all blocks and plates are at coordinates below 256, it shows exactly them.
    Missing: see the refutations, and C77 for the runs that raise. *)
Theorem C116_export_partial : forall fuel e hue vecs tm size n ctf rooms m g st1 g1 tm' w m2 st g', true_vectors vecs -> manager tm -> exportable tm -> mirror_factor n -> good_env e ->
  0 <= size -> lay_rooms fuel e (Some n) ctf rooms g = (st1, None, g1) ->
  generate_any fuel e hue vecs tm size (Some n) true ctf rooms m g = (tm', Ok (w, m2, st), g') ->
  exists bs, vox_write w (tm_atlas tm') = Ok bs /\
    ((forall xyz rgb, marked_block st1 xyz rgb -> in_world 256 xyz) -> exists f, info_read bs = Ok f /\ depicts_marked f st1).
Proof. exact marked_export. Qed.
Print Assumptions C116_export_partial.
(** Refuted: a marker beyond makes the file unreadable, whatever number of colours is asked for, even when all rooms lie
    within. *)
Theorem C116_unreadable_refuted : forall hue vecs tm m, true_vectors vecs -> manager tm -> exportable tm ->
  exists fuel e rooms g st1 g1 tm' w m2 st g' bs, good_env e /\ lay_rooms fuel e (Some 2) false rooms g = (st1, None, g1) /\ all_inside (u_rooms st1) /\
    generate_any fuel e hue vecs tm 256 (Some 2) true false rooms m g = (tm', Ok (w, m2, st), g') /\
    vox_write w (tm_atlas tm') = Ok bs /\ forall c, exists x, vox_read c bs = Err x.
Proof. exact marker_beyond. Qed.
Print Assumptions C116_unreadable_refuted.
(** That is so for every map with a block or a plate beyond. *)
Theorem C116_beyond : forall fuel e hue vecs tm size n ctf rooms m g st1 g1 tm' w m2 st g' bs xyz rgb, true_vectors vecs -> manager tm -> exportable tm -> mirror_factor n -> good_env e ->
  0 <= size -> lay_rooms fuel e (Some n) ctf rooms g = (st1, None, g1) ->
  generate_any fuel e hue vecs tm size (Some n) true ctf rooms m g = (tm', Ok (w, m2, st), g') ->
  vox_write w (tm_atlas tm') = Ok bs -> marked_block st1 xyz rgb -> ~ in_world 256 xyz -> forall c, exists x, vox_read c bs = Err x.
Proof. exact marked_lost. Qed.
Print Assumptions C116_beyond.
(** Refuted for every map: the loader of the rooms rejects the file. *)
Theorem C116_loader_refuted : forall fuel e hue vecs tm size n ctf rooms m g st1 g1 tm' w m2 st g' bs, true_vectors vecs -> manager tm -> exportable tm -> mirror_factor n -> good_env e ->
  0 <= size -> lay_rooms fuel e (Some n) ctf rooms g = (st1, None, g1) ->
  generate_any fuel e hue vecs tm size (Some n) true ctf rooms m g = (tm', Ok (w, m2, st), g') ->
  vox_write w (tm_atlas tm') = Ok bs -> exists x, vox_read 256 bs = Err x.
Proof. exact marked_rejected. Qed.
Print Assumptions C116_loader_refuted.
(** The hypotheses are met: a layout with 28 open doors, all of it below 256. *)
Example C116_hypotheses : true_vectors vecs0 /\ manager (tm_init (discovered paper)) /\ exportable (tm_init (discovered paper)) /\ good_env (env_of castle_dist (fun q => q)) /\
  exists st1 g1 tm' w m2 st g', lay_rooms 400 (env_of castle_dist (fun q => q)) (Some 2) false 12 stream = (st1, None, g1) /\ List.length (door_cells st1) = 28%nat /\
    generate_any 400 (env_of castle_dist (fun q => q)) white vecs0 (tm_init (discovered paper)) 256 (Some 2) true false 12 map256 stream = (tm', Ok (w, m2, st), g') /\
    forall xyz rgb, marked_block st1 xyz rgb -> in_world 256 xyz.
Proof.
  destruct hypotheses_met as (H1 & _ & H3 & H4 & _). split; [exact H1|]. split; [exact H3|].
  split; [apply fresh_exportable; split; vm_compute; reflexivity|]. split; [exact H4|].
  destruct (sample_debug white vecs0 _ 256 map256 H1 H3) as (tm' & w & m2 & st & g' & EG).
  assert (match lay_rooms 400 (env_of castle_dist (fun q => q)) (Some 2) false 12 stream with
          | (st, None, _) => Nat.eqb (List.length (door_cells st)) 28 && forallb (fun ob => forallb low (positions (snd ob))) (u_rooms st) && forallb low (door_cells st)
          | _ => false end = true) as Q by (vm_compute; reflexivity).
  destruct (lay_rooms 400 (env_of castle_dist (fun q => q)) (Some 2) false 12 stream) as [[st1 [x|]] g1] eqn:E; [discriminate|].
  rewrite !Bool.andb_true_iff in Q. destruct Q as [[Q1 Q2] Q3]. apply Nat.eqb_eq in Q1.
  exists st1, g1, tm', w, m2, st, g'. split; [reflexivity|]. split; [exact Q1|]. split; [exact EG|exact (low_marked vecs0 st1 H1 Q2 Q3)].
Qed.
