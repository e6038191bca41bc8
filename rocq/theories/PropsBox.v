(** Property C68, continued: which blocks of a generated map can be outside of it.  Statements
    only; proofs are in GenBox.v. *)
From Verif Require Import Py VecModel VecSpec VoxelModel VoxelSpec CodecModel CodecSpec OutModel OutSpec UpmModel UpmSpec KitModel KitSpec
  RoomModel MagicaModel RoomSpec TexModel TexSpec LightModel LightSpec VoxFileModel ShippedModel ShippedSpec DistModel DistSpec GenModel GenSpec
  GenBox PropsGen.
Local Open Scope Z_scope.

(** C68: no size of the map is large enough: there is a run with blocks below the ground. *)
Theorem C68_any_size_refuted : forall hue vecs tm m size, true_vectors vecs -> manager tm ->
  exists fuel e rooms g tm' w m2 st g', good_env e /\ generate fuel e hue vecs tm size (Some 1) false false rooms m g = (tm', Ok (w, m2, st), g') /\
    exists ob p tex, In ob (u_rooms st) /\ has_block tm' (snd ob) p tex /\ snd p < 0.
Proof. exact sunk_blocks. Qed.
Print Assumptions C68_any_size_refuted.
(** C68: but no block is further out than one cell below the ground, one beyond the sides of the
    default map or two above its top. *)
Theorem C68_bounds_partial : forall n ctf fuel e hue vecs tm size rooms m g tm' w m2 st g', true_vectors vecs -> mirror_factor n -> good_env e ->
  generate fuel e hue vecs tm size (Some n) false ctf rooms m g = (tm', Ok (w, m2, st), g') ->
  forall ob x y z tex, In ob (u_rooms st) -> has_block tm' (snd ob) (x, y, z) tex -> 0 <= x < 264 /\ 0 <= y < 264 /\ -8 <= z < 272.
Proof. exact blocks_near. Qed.
Print Assumptions C68_bounds_partial.
(** C68: so from size 512 on, every block that is not below the ground is in the file. *)
Theorem C68_large_partial : forall k fuel fuelo e hue vecs tm n ctf rooms m ws g tm' w m2 st g' bs m',
  true_vectors vecs -> byte_hues hue -> manager tm -> mirror_factor n -> good_env e ->
  (8 <= k)%nat -> (S k < fuelo)%nat -> wf_map m -> header_size m = Some ws -> 2 ^ Z.of_nat (S k) <= ws <= 8192 ->
  Z.of_nat (List.length (tm_atlas tm)) <= 57000 -> len (m_ents m) <= 2 ^ 30 ->
  generate fuel e hue vecs tm (2 ^ Z.of_nat (S k)) (Some n) false ctf rooms m g = (tm', Ok (w, m2, st), g') ->
  output_map fuelo w m2 = Ok bs -> read_rest bs = Ok (m', []) ->
  forall ob x y z tex, In ob (u_rooms st) -> has_block tm' (snd ob) (x, y, z) tex -> 0 <= z -> world_lookup (S k) m' x y z = Some tex.
Proof. exact large_kept. Qed.
Print Assumptions C68_large_partial.
(** The hypotheses are those of C65, see [hypotheses_met]; here are the lowest and the highest cells
    of two runs. *)
Example C68_runs : map (fun r : upm * option exn * rng => match r with
  | (st, None, _) => let zs := flat_map (fun ob : obj => map (fun c : cell => snd c) (positions (snd ob))) (u_rooms st) in
      Some (List.length (u_rooms st), fold_right Z.min 99 zs, fold_right Z.max 0 zs)
  | _ => None end) [lay_out 50 (env_of castle_dist (fun q => q)) (Some 1) false false 12 diving; lay_out 50 (env_of castle_dist (fun q => q)) (Some 1) false false 12 stream] =
  [Some (13%nat, -1, 3); Some (31%nat, 1, 5)].
Proof. vm_compute. reflexivity. Qed.
