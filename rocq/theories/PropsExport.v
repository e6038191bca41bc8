(** Property C89, the voxel file exported from a generated map.  Statements only; proofs are in ExportProofs.v. *)
From Verif Require Import Py VecModel VecSpec VoxelModel VoxelSpec CodecModel CodecSpec OutModel OutSpec CodecSamples UpmModel UpmSpec KitModel KitSpec
  RoomModel MagicaModel RoomSpec TexModel TexSpec LightModel LightSpec VoxFileModel VoxFileSpec ShippedModel ShippedSpec DistModel DistSpec GenModel GenSpec GenProofs PropsGen
  ExportSpec ExportProofs.
Local Open Scope Z_scope.

(** C89: the voxel file exported beside a generated map shows the map.

    The file is always written, and, if all blocks are at coordinates below 256, it shows exactly the
    blocks of the rooms, in the colours of their files as the class of the room repaints them.
    [exportable]: the textures in use at the start, if any, are at most 200, and colours.  Missing: see
    the refutations. *)
Theorem C89_export_partial : forall fuel e hue vecs tm size n ctf rooms m g tm' w m2 st g', true_vectors vecs -> manager tm -> exportable tm -> mirror_factor n -> good_env e ->
  0 <= size -> generate fuel e hue vecs tm size (Some n) false ctf rooms m g = (tm', Ok (w, m2, st), g') ->
  exists bs, vox_write w (tm_atlas tm') = Ok bs /\ (all_inside (u_rooms st) -> exists f, info_read bs = Ok f /\ depicts f (u_rooms st)).
Proof. exact export_lemma. Qed.
Print Assumptions C89_export_partial.
(** Refuted: a map has blocks beyond, and its file cannot be read, whatever number of colours is asked for. *)
Theorem C89_unreadable_refuted : forall hue vecs tm m, true_vectors vecs -> manager tm -> exportable tm ->
  exists fuel e rooms g tm' w m2 st g' bs, good_env e /\ generate fuel e hue vecs tm 256 (Some 2) false false rooms m g = (tm', Ok (w, m2, st), g') /\
    vox_write w (tm_atlas tm') = Ok bs /\ forall c, exists x, vox_read c bs = Err x.
Proof. exact export_unreadable. Qed.
Print Assumptions C89_unreadable_refuted.
(** That is so for every map with a block beyond. *)
Theorem C89_beyond : forall fuel e hue vecs tm size n ctf rooms m g tm' w m2 st g' bs, true_vectors vecs -> manager tm -> exportable tm -> mirror_factor n -> good_env e ->
  0 <= size -> generate fuel e hue vecs tm size (Some n) false ctf rooms m g = (tm', Ok (w, m2, st), g') ->
  vox_write w (tm_atlas tm') = Ok bs -> (exists ob xyz rgb, In ob (u_rooms st) /\ coloured_block (snd ob) xyz rgb /\ ~ in_world 256 xyz) ->
  forall c, exists x, vox_read c bs = Err x.
Proof. exact export_lost. Qed.
Print Assumptions C89_beyond.
(** Refuted for every map: the loader of the rooms, which asks for 256 colours, rejects the file. *)
Theorem C89_loader_refuted : forall fuel e hue vecs tm size n ctf rooms m g tm' w m2 st g' bs, true_vectors vecs -> manager tm -> exportable tm -> mirror_factor n -> good_env e ->
  0 <= size -> generate fuel e hue vecs tm size (Some n) false ctf rooms m g = (tm', Ok (w, m2, st), g') ->
  vox_write w (tm_atlas tm') = Ok bs -> exists x, vox_read 256 bs = Err x.
Proof. exact export_rejected. Qed.
Print Assumptions C89_loader_refuted.
(** The hypotheses are met: a map for two teams, of 42 rooms, all of it below 256. *)
Example C89_hypotheses : true_vectors vecs0 /\ manager (tm_init (discovered paper)) /\ exportable (tm_init (discovered paper)) /\ good_env (env_of castle_dist (fun q => q)) /\
  exists tm' w m2 st g', generate 400 (env_of castle_dist (fun q => q)) white vecs0 (tm_init (discovered paper)) 256 (Some 2) false true 12 map256 stream = (tm', Ok (w, m2, st), g') /\
    List.length (u_rooms st) = 42%nat /\ all_inside (u_rooms st).
Proof.
  destruct hypotheses_met as (H1 & _ & H3 & H4 & _). split; [exact H1|]. split; [exact H3|].
  split; [apply fresh_exportable; split; vm_compute; reflexivity|]. split; [exact H4|].
  set (ok := fun r : upm * option exn * rng => match r with
    | (st, None, _) => Nat.eqb (List.length (u_rooms st)) 42 &&
        forallb (fun ob => forallb (fun d : cell => let '(a, b, c) := d in (0 <=? a) && (a <? 32) && (0 <=? b) && (b <? 32) && (0 <=? c) && (c <? 32)) (positions (snd ob))) (u_rooms st)
    | _ => false end).
  assert (ok (lay_out 400 (env_of castle_dist (fun q => q)) (Some 2) false true 12 stream) = true) as X by (vm_compute; reflexivity).
  destruct (lay_out 400 (env_of castle_dist (fun q => q)) (Some 2) false true 12 stream) as [[st [x|]] g1] eqn:E; [discriminate|].
  unfold ok in X. apply Bool.andb_true_iff in X as [X1 X2]. apply Nat.eqb_eq in X1.
  destruct (generate_ok 400 (env_of castle_dist (fun q => q)) white vecs0 _ 256 2 true 12 map256 stream st g1 H1 H3 (or_intror (or_introl eq_refl)) H4 E) as (tm' & w & m2 & g' & sun & ess & EG & _).
  exists tm', w, m2, st, g'. split; [exact EG|]. split; [exact X1|]. exact (inside_cells vecs0 _ H1 X2).
Qed.
(** Some colours: the red of a team room as each team has it, and a plain class. *)
Example C89_shown : map (fun t => shown Team t (255, 0, 0)) [T0; T1; T2; T3] = [(255, 255, 0); (0, 0, 255); (0, 255, 0); (255, 0, 0)] /\
  shown Plain T1 (12, 200, 7) = (12, 200, 7) /\ shown Mapped T0 (50, 50, 50) = (229, 229, 229).
Proof. repeat split. Qed.
