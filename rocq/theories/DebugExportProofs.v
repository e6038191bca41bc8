(** Proofs about the voxel file exported in debug mode. *)
From Verif Require Import Py VecModel VecSpec VoxelModel VoxelSpec CodecModel CodecSpec CodecProofs OutModel OutSpec UpmModel UpmSpec UpmProofs UpmBridge UpmTrace UpmFinal
  KitModel KitSpec RoomModel MagicaModel RoomSpec TexModel TexSpec TexProofs LightModel LightSpec VoxFileModel VoxFileSpec ShippedModel ShippedSpec ShippedProofs ShippedDraw
  DistModel GenModel GenSpec GenLayout GenDraw GenProofs DebugModel DebugSpec DebugProofs ExportSpec ExportProofs DebugExportSpec RoomTestProofs.
Local Open Scope Z_scope.

Definition blocks_of (tm : texman) (obs : list obj) (ds : list cell) (xyz : Z * Z * Z) (tex : list Z) : Prop :=
  (exists ob, In ob obs /\ has_block tm (snd ob) xyz tex) \/ (exists d k, In d ds /\ on_plate d xyz /\ numbered tm red k /\ tex = repeat k 6).
Definition colours_of (obs : list obj) (ds : list cell) (xyz rgb : Z * Z * Z) : Prop :=
  (exists ob, In ob obs /\ coloured_block (snd ob) xyz rgb) \/ (exists d, In d ds /\ on_plate d xyz /\ rgb = (255, 0, 0)).
Lemma marked_painted (obs : list obj) ds tm' :
  (forall ob s v q a rgb, In ob obs -> In s shipped_rooms -> s_class s = r_cls (snd ob) -> read_file (s_file s) = Ok v ->
     voxel_colour (vf_voxels v) q = Some a -> nth_error (vm_palette (model_of v)) (Z.to_nat a) = Some rgb ->
     exists n, numbered tm' (intended (s_paint s) (r_turn (snd ob)) rgb) n) ->
  (ds <> [] -> exists k, numbered tm' red k) -> painted tm' (blocks_of tm' obs ds) (colours_of obs ds).
Proof.
  intros RN RD. destruct (rooms_painted obs tm' RN) as [PA PB]. split.
  - intros xyz tex [HB|(d & k & Hd & Hp & N & ->)].
    + destruct (PA xyz tex HB) as (c & n & N & E & (rgb & HC) & SH). exists c, n. split; [exact N|]. split; [exact E|].
      split; [exists rgb; left; exact HC|]. intros rgb' Hs. left. exact (SH rgb' Hs).
    + exists red, k. split; [exact N|]. split; [reflexivity|]. split; [exists (255, 0, 0); right; eauto|].
      intros rgb Hs. apply red_shades in Hs. right. eauto.
  - intros xyz rgb [HC|(d & Hd & Hp & ->)].
    + destruct (PB xyz rgb HC) as (c & n & N & HB & SH). exists c, n. split; [exact N|]. split; [left; exact HB|exact SH].
    + destruct RD as (k & N); [intros Q; rewrite Q in Hd; destruct Hd|]. exists red, k. split; [exact N|]. split; [right; exists d, k; auto|].
      intros rgb Hs. apply red_shades. exact Hs.
Qed.
Lemma plate_near d v : legal_cell d -> on_plate d v -> near v.
Proof. destruct d as [[a b] h], v as [[x y] z]. cbn [legal_cell on_plate near]. lia. Qed.
Lemma red_fits : fits (red :: all_colours).
Proof.
  refine (fits_incl _ _ (files_fit (station_flagroom :: in_use false) _) _).
  - intros s [<-|Hs]; [exact (first_shipped true)|exact (in_use_shipped false s Hs)].
  - apply incl_refl.
Qed.

Lemma marked_good fuel e hue vecs tm size n ctf rooms m g st1 g1 tm' w m2 st g' : true_vectors vecs -> manager tm -> exportable tm -> mirror_factor n -> good_env e ->
  0 <= size -> lay_rooms fuel e (Some n) ctf rooms g = (st1, None, g1) ->
  generate_any fuel e hue vecs tm size (Some n) true ctf rooms m g = (tm', Ok (w, m2, st), g') ->
  good_world tm' w size (blocks_of tm' (u_rooms st1) (door_cells st1)) /\
  painted tm' (blocks_of tm' (u_rooms st1) (door_cells st1)) (colours_of (u_rooms st1) (door_cells st1)).
Proof.
  intros TV M X Hn G Hs E EG. destruct (lay_rooms_run n ctf fuel e rooms g st1 g1 Hn G E) as (U & NC & L).
  destruct (debug_ok fuel e hue vecs tm size n ctf rooms m g st1 g1 TV M Hn G E) as (_ & D & DC & _).
  pose proof (lay_out_split fuel e (Some n) true ctf rooms g) as LS. rewrite E in LS.
  destruct (endcap true (map s_class possible_endcaps) st1 g1) as [[st' x] g2] eqn:EE.
  unfold generate_any in EG. rewrite LS in EG. destruct x as [x|]; [congruence|].
  destruct (add_entity m sunlight) as [m1|x]; [|congruence].
  destruct (endcap_markers _ _ _ _ _ _ EE) as (markers & ER & EM).
  assert (map snd markers = map marker (door_cells st1)) as EM' by (rewrite EM; unfold door_cells; rewrite map_map; reflexivity). clear EM.
  assert (Forall (of_use ctf) (u_rooms st1)) as F.
  { rewrite Forall_forall. intros ob Hob. destruct (room_bounds n ctf st1 ob L Hob) as (s & Hs' & Ec & _). exists s. auto. }
  destruct (rooms_and_markers (in_use ctf) (in_use_shipped ctf) hue vecs (u_rooms st1) (door_cells st1) markers tm size m1 g2 TV F D M EM' (fun d ob Hd Hob => proj2 (DC d Hd) ob Hob))
    as (tm2 & w2 & m3 & g3 & ess & es & R & _ & _ & _ & _ & _ & _ & ST & _ & (ops & Ew & NE) & RN & RD & _ & B).
  rewrite ER, R in EG. assert (tm2 = tm') as -> by congruence. assert (w2 = w) as -> by congruence.
  split; [|exact (marked_painted _ _ _ RN RD)].
  apply (drawn_good tm tm' w size ops (red :: all_colours) _ M X (stems_incl _ _ _ _ ST (incl_both red _ _ (all_in ctf))) red_fits Ew); [|exact Hs|exact B|].
  - intros o Ho. destruct (NE o Ho) as (v & P & [(ob & d & Hob & Hd & Hv)|(d & Hd & Hv)]); exists v; (split; [|exact P]).
    + destruct (room_cells n ctf st1 ob L Hob) as [_ W]. exact (near_cell v d Hv (W d Hd)).
    + exact (plate_near d v (proj1 (DC d Hd)) Hv).
  - intros xyz tex [(ob & Hob & s & vf & q & a & r0 & g0 & b0 & al & nn & _ & _ & _ & _ & _ & _ & NU & Et)|(d & k & _ & _ & NU & Et)]; eauto.
Qed.

Lemma marked_export fuel e hue vecs tm size n ctf rooms m g st1 g1 tm' w m2 st g' : true_vectors vecs -> manager tm -> exportable tm -> mirror_factor n -> good_env e ->
  0 <= size -> lay_rooms fuel e (Some n) ctf rooms g = (st1, None, g1) ->
  generate_any fuel e hue vecs tm size (Some n) true ctf rooms m g = (tm', Ok (w, m2, st), g') ->
  exists bs, vox_write w (tm_atlas tm') = Ok bs /\
    ((forall xyz rgb, marked_block st1 xyz rgb -> in_world 256 xyz) -> exists f, info_read bs = Ok f /\ depicts_marked f st1).
Proof.
  intros TV M X Hn G Hs E EG. destruct (marked_good fuel e hue vecs tm size n ctf rooms m g st1 g1 tm' w m2 st g' TV M X Hn G Hs E EG) as [GW PT].
  pose proof GW as (ops & known & names & ts & bs & _ & _ & _ & _ & _ & WR & _). exists bs. split; [exact WR|]. intros AI.
  exact (world_shows _ _ _ _ _ _ GW PT WR AI).
Qed.
Lemma marked_rejected fuel e hue vecs tm size n ctf rooms m g st1 g1 tm' w m2 st g' bs : true_vectors vecs -> manager tm -> exportable tm -> mirror_factor n -> good_env e ->
  0 <= size -> lay_rooms fuel e (Some n) ctf rooms g = (st1, None, g1) ->
  generate_any fuel e hue vecs tm size (Some n) true ctf rooms m g = (tm', Ok (w, m2, st), g') ->
  vox_write w (tm_atlas tm') = Ok bs -> exists x, vox_read 256 bs = Err x.
Proof.
  intros TV M X Hn G Hs E EG. destruct (marked_good fuel e hue vecs tm size n ctf rooms m g st1 g1 tm' w m2 st g' TV M X Hn G Hs E EG) as [GW _].
  exact (world_rejected _ _ _ _ _ GW).
Qed.
Lemma marked_lost fuel e hue vecs tm size n ctf rooms m g st1 g1 tm' w m2 st g' bs xyz rgb : true_vectors vecs -> manager tm -> exportable tm -> mirror_factor n -> good_env e ->
  0 <= size -> lay_rooms fuel e (Some n) ctf rooms g = (st1, None, g1) ->
  generate_any fuel e hue vecs tm size (Some n) true ctf rooms m g = (tm', Ok (w, m2, st), g') ->
  vox_write w (tm_atlas tm') = Ok bs -> marked_block st1 xyz rgb -> ~ in_world 256 xyz -> forall c, exists x, vox_read c bs = Err x.
Proof.
  intros TV M X Hn G Hs E EG WR HC NI. destruct (marked_good fuel e hue vecs tm size n ctf rooms m g st1 g1 tm' w m2 st g' TV M X Hn G Hs E EG) as [GW [_ PB]].
  destruct (PB xyz rgb HC) as (c & k & _ & HB & _). exact (world_lost _ _ _ _ _ _ _ GW WR HB NI).
Qed.

(** A layout of which only the markers reach beyond. *)
Definition stream2 : rng := fun i => (5 * Z.of_nat i * Z.of_nat i + 8 * Z.of_nat i) mod 1009.
Definition low (d : cell) : bool := let '(a, b, c) := d in (0 <=? a) && (a <? 32) && (0 <=? b) && (b <? 32) && (0 <=? c) && (c <? 32).
Lemma marker_beyond hue vecs tm m : true_vectors vecs -> manager tm -> exportable tm ->
  exists fuel e rooms g st1 g1 tm' w m2 st g' bs, good_env e /\ lay_rooms fuel e (Some 2) false rooms g = (st1, None, g1) /\ all_inside (u_rooms st1) /\
    generate_any fuel e hue vecs tm 256 (Some 2) true false rooms m g = (tm', Ok (w, m2, st), g') /\
    vox_write w (tm_atlas tm') = Ok bs /\ forall c, exists x, vox_read c bs = Err x.
Proof.
  intros TV M X.
  assert (match lay_rooms 400 sample_env (Some 2) false 20 stream2 with
          | (st, None, _) => Nat.eqb (different (door_cells st)) (List.length (door_cells st)) && forallb (fun ob => forallb low (positions (snd ob))) (u_rooms st) &&
                             existsb far (door_cells st)
          | _ => false end = true) as Q by (vm_compute; reflexivity).
  destruct (lay_rooms 400 sample_env (Some 2) false 20 stream2) as [[st1 [x|]] g1] eqn:E; [discriminate|].
  rewrite !Bool.andb_true_iff in Q. destruct Q as [[Q1 Q2] Q3]. apply Nat.eqb_eq in Q1.
  assert (mirror_factor 2) as H2 by (right; left; reflexivity).
  destruct (debug_ok 400 sample_env hue vecs tm 256 2 false 20 m stream2 st1 g1 TV M H2 sample_good E) as (_ & _ & _ & _ & OK).
  destruct (OK (different_nodup _ Q1)) as (tm' & w & m2 & st & g' & _ & _ & _ & _ & EG & _).
  destruct (marked_export 400 sample_env hue vecs tm 256 2 false 20 m stream2 st1 g1 tm' w m2 st g' TV M X H2 sample_good ltac:(lia) E EG) as (bs & WR & _).
  exists 400%nat, sample_env, 20, stream2, st1, g1, tm', w, m2, st, g', bs. split; [exact sample_good|]. split; [exact E|].
  split; [exact (inside_cells vecs _ TV Q2)|]. split; [exact EG|]. split; [exact WR|].
  apply existsb_exists in Q3 as ([[a b] h] & Hd & FD). cbn [far] in FD. rewrite !Bool.orb_true_iff, !Z.leb_le in FD.
  apply (marked_lost 400 sample_env hue vecs tm 256 2 false 20 m stream2 st1 g1 tm' w m2 st g' bs (8 * a + 2, 8 * b + 2, 8 * h) (255, 0, 0) TV M X H2 sample_good ltac:(lia) E EG WR).
  - right. exists (a, b, h). split; [exact Hd|]. split; [cbn [on_plate]; lia|reflexivity].
  - cbn [in_world]. lia.
Qed.
(** A layout of which nothing reaches beyond. *)
Lemma low_marked vecs st : true_vectors vecs -> forallb (fun ob => forallb low (positions (snd ob))) (u_rooms st) = true -> forallb low (door_cells st) = true ->
  forall xyz rgb, marked_block st xyz rgb -> in_world 256 xyz.
Proof.
  intros TV Q1 Q2 xyz rgb [(ob & Hob & HC)|(d & Hd & Hp & _)]; [exact (inside_cells vecs _ TV Q1 ob xyz rgb Hob HC)|].
  rewrite forallb_forall in Q2. specialize (Q2 d Hd). destruct d as [[a b] h], xyz as [[x y] z]. cbn [low on_plate in_world] in *.
  rewrite !Bool.andb_true_iff, !Z.leb_le, !Z.ltb_lt in Q2. lia.
Qed.
