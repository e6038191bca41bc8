(** Properties C79 and C80: moving through the shipped rooms and through generated maps.  Statements
    only; proofs are in PassProofs.v and PassGen.v. *)
From Verif Require Import Py VecModel VecSpec VoxelModel VoxelSpec CodecModel CodecSpec OutModel OutSpec CodecSamples UpmModel UpmSpec KitModel KitSpec
  RoomModel MagicaModel RoomSpec TexModel TexSpec TexProofs LightModel LightSpec VoxFileModel ShippedModel ShippedSpec DistModel DistSpec GenModel GenSpec GenProofs
  PropsGen PassSpec PassProofs PassGen.
Local Open Scope Z_scope.

(** C79: in every shipped room a player can go from each doorway to every other one without leaving
    the room.  Refuted for three classes: in each of them, at every position and for every turn, two
    doorways are cut off from each other even for something of the size of one voxel. *)
Theorem C79_connected_refuted : forall s p t, In s divided -> In s shipped_rooms /\
  exists d d', In d (doorways (room_of s p t)) /\ In d' (doorways (room_of s p t)) /\ d <> d' /\ cut_off (room_air (room_of s p t)) d d'.
Proof. exact divided_cut. Qed.
Print Assumptions C79_connected_refuted.
(** All other classes are connected for the body of a player. *)
Theorem C79_connected_partial : forall s p t, In s shipped_rooms -> ~ In s divided -> connected (room_of s p t).
Proof. exact class_connected. Qed.
Print Assumptions C79_connected_partial.
(** In the divided castle gate this is so for doorways of the same height. *)
Theorem C79_gate_partial : forall p t d d', let r := room_of castle_gate_simple p t in
  In d (doorways r) -> In d' (doorways r) -> snd (fst d) = snd (fst d') -> reaches (room_air r) d d'.
Proof.
  intros p t d d' r Hd Hd' Hz. exists (doorstep d 1), (doorstep d' 1).
  split; [right; left; reflexivity|]. split; [right; left; reflexivity|]. exact (gate_reaches p t d d' Hd Hd' Hz).
Qed.
Print Assumptions C79_gate_partial.
(** The large castle room has four doorways, so twelve ways between two of them. *)
Example C79_example : In castle_large shipped_rooms /\ ~ In castle_large divided /\ List.length (doorways (room_of castle_large (3, -2, 7) T1)) = 4%nat /\
  doorways (room_of castle_gate_simple (0, 0, 0) T0) <> [].
Proof.
  split; [unfold shipped_rooms; repeat (first [left; reflexivity | right])|]. split; [|split; [vm_compute; reflexivity|vm_compute; discriminate]].
  intros [H|[H|[H|[]]]]; apply (f_equal (fun s => rc_id (s_class s))) in H; vm_compute in H; discriminate.
Qed.

(** C80: in a generated map a player that starts in the first room, or in one of its mirror images,
    can reach every doorway of every room.  Refuted: whatever the colours, the textures and the map to
    add to, there is a run after which a doorway is cut off from all doorways of the first room. *)
Theorem C80_reach_refuted : forall hue vecs tm m, true_vectors vecs -> manager tm ->
  exists fuel e rooms g tm' w m2 st g', good_env e /\ generate fuel e hue vecs tm 256 (Some 1) false false rooms m g = (tm', Ok (w, m2, st), g') /\
    exists ob d, In ob (u_rooms st) /\ In d (doorways (snd ob)) /\
    forall ob0 d0, In ob0 (u_rooms st) -> first_of 1 false (snd ob0) -> In d0 (doorways (snd ob0)) -> cut_off (world_air w (u_rooms st)) d0 d.
Proof. exact parted_map. Qed.
Print Assumptions C80_reach_refuted.
(** Only the divided castle gate can be the cause: every doorway can be reached from a doorway of
    one of the first rooms or of such a gate. *)
Theorem C80_reach_partial : forall fuel e hue vecs tm size n ctf rooms m g tm' w m2 st g',
  true_vectors vecs -> manager tm -> mirror_factor n -> good_env e ->
  generate fuel e hue vecs tm size (Some n) false ctf rooms m g = (tm', Ok (w, m2, st), g') ->
  forall ob d, In ob (u_rooms st) -> In d (doorways (snd ob)) ->
  exists ob0 d0, In ob0 (u_rooms st) /\ (first_of n ctf (snd ob0) \/ is_gate (snd ob0)) /\ In d0 (doorways (snd ob0)) /\
    reaches (world_air w (u_rooms st)) d0 d.
Proof. exact world_reach. Qed.
Print Assumptions C80_reach_partial.
(** So in a map without such a gate all of them can be reached from the first rooms. *)
Theorem C80_no_gate_partial : forall fuel e hue vecs tm size n ctf rooms m g tm' w m2 st g',
  true_vectors vecs -> manager tm -> mirror_factor n -> good_env e ->
  generate fuel e hue vecs tm size (Some n) false ctf rooms m g = (tm', Ok (w, m2, st), g') ->
  (forall ob, In ob (u_rooms st) -> ~ is_gate (snd ob)) ->
  forall ob d, In ob (u_rooms st) -> In d (doorways (snd ob)) ->
  exists ob0 d0, In ob0 (u_rooms st) /\ first_of n ctf (snd ob0) /\ In d0 (doorways (snd ob0)) /\ reaches (world_air w (u_rooms st)) d0 d.
Proof.
  intros fuel e hue vecs tm size n ctf rooms m g tm' w m2 st g' H1 H2 H3 H4 E N ob d Hob Hd.
  destruct (world_reach _ _ _ _ _ _ _ _ _ _ _ _ _ _ _ _ H1 H2 H3 H4 E ob d Hob Hd) as (ob0 & d0 & A & [B|B] & C); [eauto 6|].
  destruct (N ob0 A B).
Qed.
Print Assumptions C80_no_gate_partial.
(** The same holds in the map file that is written, if all rooms are inside of its world. *)
Theorem C80_file_partial : forall k fuel fuelo e hue vecs tm n ctf rooms m ws g tm' w m2 st g' bs m',
  true_vectors vecs -> byte_hues hue -> manager tm -> mirror_factor n -> good_env e ->
  (7 <= k)%nat -> (S k < fuelo)%nat -> wf_map m -> header_size m = Some ws -> 2 ^ Z.of_nat (S k) <= ws <= 8192 ->
  Z.of_nat (List.length (tm_atlas tm)) <= 57000 -> len (m_ents m) <= 2 ^ 30 ->
  generate fuel e hue vecs tm (2 ^ Z.of_nat (S k)) (Some n) false ctf rooms m g = (tm', Ok (w, m2, st), g') ->
  output_map fuelo w m2 = Ok bs -> read_rest bs = Ok (m', []) ->
  (forall ob c, In ob (u_rooms st) -> In c (positions (snd ob)) -> in_world (2 ^ Z.of_nat (S k) / 8) c) ->
  forall ob d, In ob (u_rooms st) -> In d (doorways (snd ob)) ->
  exists ob0 d0, In ob0 (u_rooms st) /\ (first_of n ctf (snd ob0) \/ is_gate (snd ob0)) /\ In d0 (doorways (snd ob0)) /\
    reaches (file_air (S k) m' (u_rooms st)) d0 d.
Proof. exact file_reach. Qed.
Print Assumptions C80_file_partial.
(** The hypotheses are those of C65, see [hypotheses_met]; here is a run with rooms besides the
    first, none of them a gate and all of them inside of the world. *)
Example C80_example : let '(st, x, _) := lay_out 200 (env_of castle_dist (fun q => q)) (Some 1) false false 3 (fun _ => 0) in
  x = None /\ (1 < List.length (u_rooms st))%nat /\ forallb (fun ob => negb (rc_id (r_cls (snd ob)) =? rc_id (s_class castle_gate_simple))) (u_rooms st) = true /\
  forallb (fun ob => forallb (fun c => let '(a, b, h) := c in (0 <=? a) && (a <? 32) && (0 <=? b) && (b <? 32) && (0 <=? h) && (h <? 32)) (positions (snd ob))) (u_rooms st) = true.
Proof. vm_compute. repeat split; auto with arith. Qed.
