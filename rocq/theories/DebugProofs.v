(** Proofs about the map generator in debug mode. *)
From Coq Require Import QArith.
From Verif Require Import Py VecModel VecSpec VecProofs VoxelModel VoxelSpec VoxelProofs CodecModel CodecSpec CodecProofs CodecMap OutModel OutSpec OutProofs
  UpmModel UpmSpec UpmProofs UpmInv UpmBridge UpmTrace UpmMore UpmMore2 UpmFinal RoomClasses KitModel KitSpec KitProofs KitShape KitPaint KitTile EffectProofs RoomModel MagicaModel RoomSpec
  RoomProofs MagicaProofs TexModel TexSpec TexProofs
  LightModel LightSpec LightProofs VoxFileModel ShippedModel ShippedSpec ShippedProofs ShippedDraw DistModel DistSpec DistProofs GenModel GenSpec GenLayout GenDraw GenProofs
  RoomEntModel RoomEntSpec RoomEntProofs DebugModel DebugSpec.
Local Open Scope Z_scope.

(** ** The layout *)
Lemma lay_out_split fuel e mirror debug ctf rooms g : lay_out fuel e mirror debug ctf rooms g =
  match lay_rooms fuel e mirror ctf rooms g with
  | (st1, Some x, g1) => (st1, Some x, g1)
  | (st1, None, g1) => endcap debug (map s_class possible_endcaps) st1 g1
  end.
Proof.
  unfold lay_out, lay_rooms. destruct (register_room _ _) as [st [x|]]; [reflexivity|].
  destruct (place_rooms _ _ _ _ _ _) as [[st1 [k|x]] g1]; reflexivity.
Qed.
Lemma lay_rooms_run n ctf fuel e rooms g st g' : mirror_factor n -> good_env e ->
  lay_rooms fuel e (Some n) ctf rooms g = (st, None, g') ->
  urun [ORegister (start_room ctf); OPlace fuel e (map s_class possible_rooms) rooms g] (upm_init (Some n) false) = Some st /\
  u_noclip st = false /\ laid_out n ctf st.
Proof.
  intros Hn G E. unfold lay_rooms in E. rewrite start_is in E.
  destruct (start_registers n ctf Hn) as (st0 & E0 & M0 & _ & _ & R0). rewrite E0 in E.
  destruct (place_rooms fuel e st0 (map s_class possible_rooms) rooms g) as [[st1 [k|x]] g1] eqn:E1; [|discriminate].
  injection E as -> ->. assert (urun [ORegister (start_room ctf); OPlace fuel e (map s_class possible_rooms) rooms g] (upm_init (Some n) false) = Some st) as U
    by (cbn [urun ustep]; rewrite E0, E1; reflexivity).
  split; [exact U|]. split; [exact (proj1 (noclip_history _ _ _ _ U))|].
  unfold place_rooms in E1. destruct (place_loop_trace _ _ _ G opts_coherent _ _ _ _ _ _ _ E1) as (rs & T).
  destruct (trace_new _ _ _ _ T) as (placed & E2 & P).
  exists placed, []. rewrite E2, R0, app_nil_r. split; [reflexivity|]. split; [|intros ob []].
  intros ob Hob. destruct (P ob Hob) as [Hc D]. apply in_map_iff in Hc as (s & Es & Hs). exists s. auto.
Qed.
Lemma lay_rooms_total n ctf e rooms g : mirror_factor n -> good_env e ->
  exists fuel0, forall fuel, (fuel0 <= fuel)%nat -> exists st g', lay_rooms fuel e (Some n) ctf rooms g = (st, None, g').
Proof.
  intros Hn G. destruct (lay_out_total n ctf e rooms g Hn G) as (fuel0 & T). exists fuel0. intros fuel Hf.
  destruct (T fuel Hf) as (st & g' & E). rewrite lay_out_split in E. destruct (lay_rooms _ _ _ _ _ _) as [[st1 [x|]] g1]; [discriminate|]. eauto.
Qed.
Lemma endcap_markers caps : forall todo st g st' g', endcap_loop true caps todo st g = (st', None, g') ->
  exists new, u_rooms st' = u_rooms st ++ new /\ map snd new = map (fun e => mk_room TestRoom (fst (fst e)) T0 None) todo.
Proof.
  induction todo as [|[[d p] o] todo IH]; intros st g st' g' E; cbn [endcap_loop map] in *.
  - injection E as <- <-. exists []. rewrite app_nil_r. split; reflexivity.
  - destruct (register1 st (mk_room TestRoom d T0 None)) as [st1 [x|]] eqn:R; [discriminate|].
    apply register1_ok in R as (_ & _ & _ & _ & _ & R & _). destruct (IH _ _ _ _ E) as (new & E1 & E2).
    exists ((u_next st, mk_room TestRoom d T0 None) :: new). rewrite E1, R, <- app_assoc. split; [reflexivity|].
    cbn [map snd fst]. rewrite E2. reflexivity.
Qed.

(** ** One marker *)
Lemma accent_red tm : auto_get_c tm "accent"%string = (let '(r, g, b) := red in get_colour tm r g b).
Proof. reflexivity. Qed.
Lemma plate_frame d v : (exists q, in_box (2, 2, 0) (4, 4, 1) q /\ v = frame d CE q) <-> on_plate d v.
Proof.
  destruct d as [[a b] h], v as [[x y] z]. cbn [on_plate]. split.
  - intros ([[u w] k] & (H1 & H2 & H3) & E). unfold KitSpec.within in *. cbn [frame tile_turn] in E. apply t3_inv in E. lia.
  - intros H. exists (x - 8 * a, y - 8 * b, z - 8 * h). split; [cbn [in_box]; unfold KitSpec.within; lia|]. cbn [frame tile_turn]. apply t3_eq; lia.
Qed.
Lemma on_plate_dec d v : on_plate d v \/ ~ on_plate d v.
Proof. destruct d as [[a b] h], v as [[x y] z]. cbn [on_plate]. lia. Qed.
Lemma plate_cell d v : on_plate d v -> voxel_in_cell v d.
Proof. destruct d as [[a b] h], v as [[x y] z]. cbn [on_plate voxel_in_cell]. lia. Qed.
Lemma marker_run hue vecs ob d tm size ops m g : true_vectors vecs -> manager tm -> snd ob = mk_room TestRoom d T0 None ->
  exists tm' k ops' m' g' e, render_any hue vecs ob tm (wrun ops (new_world size)) m g = (tm', Ok (wrun (ops ++ ops') (new_world size), m'), g') /\
    manager tm' /\ keeps_numbers tm tm' /\ stems tm tm' [red] /\ numbered tm' red k /\ more_ents m [e] m' /\ grenade_at hue d e /\
    (forall v, on_plate d v -> at_voxel (wrun (ops ++ ops') (new_world size)) v = Some (repeat k 6)) /\
    (forall v, ~ on_plate d v -> at_voxel (wrun (ops ++ ops') (new_world size)) v = at_voxel (wrun ops (new_world size)) v) /\
    (forall o, In o ops' -> exists v, on_plate d v /\ op_pos o = doubled v).
Proof.
  intros TV M Eo. destruct (TV ob) as [HP HO]. rewrite Eo in HP, HO. cbn [mk_room r_pos r_turn] in HP, HO.
  change (rc_shift TestRoom) with false in HP. cbv iota in HP.
  destruct (manager_colour tm red M) as (tm' & k & EC & M' & K & N & S).
  assert (voxel_at (SELF +v fine 2 2 0) (2, 2, 0)) as VA by (split; [discriminate|reflexivity]).
  assert (size_is (fine 4 4 1) (4, 4, 1)) as SI by reflexivity.
  destruct (x_call_ok (fst (vecs ob)) (snd (vecs ob)) d CE (KPrism (SELF +v fine 2 2 0) (fine 4 4 1)) k false (11 # 10) size ops g HP)
    as (ops' & g' & EX & POS & OUT & IN).
  { exact (facing_points _ T0 HO). }
  { cbn [grid_args]; eauto. }
  destruct (fixtures_run hue (fst (vecs ob)) (snd (vecs ob)) d T0 HP HO [FGrenade] eq_refl m) as (es & m' & EF & ME & FS & FP).
  inversion FS as [|? e ? es' HS F']; subst. inversion F'; subst. inversion FP as [|? ? ? ? HE _]; subst.
  assert (forall v, (exists q, shape (KPrism (SELF +v fine 2 2 0) (fine 4 4 1)) q /\ v = frame d CE q) <-> on_plate d v) as SH.
  { intros v. rewrite <- plate_frame. split; intros (q & Hq & ->); exists q; (split; [|reflexivity]).
    - destruct Hq as (b & l & Hb & Hl & Hq). rewrite <- (voxel_at_inj _ _ _ VA Hb) in Hq.
      unfold size_is in *. rewrite SI in Hl. destruct l as [[x' y'] z']. apply t3_inv in Hl.
      replace (4, 4, 1) with (x', y', z') by (apply t3_eq; lia). exact Hq.
    - exists (2, 2, 0), (4, 4, 1). auto. }
  exists tm', k, ops', m', g', e. split.
  { unfold render_any. rewrite Eo. cbn [mk_room r_cls]. change (shipped_of TestRoom) with (@None shipped). rewrite Z.eqb_refl.
    rewrite (surjective_pairing (vecs ob)). unfold render_marker. rewrite accent_red, EC. unfold render, render_TestRoom, fixed. cbn [x_calls].
    unfold draw_. rewrite EX. unfold fixtures_TestRoom. rewrite EF. reflexivity. }
  split; [exact M'|]. split; [exact K|]. split; [exact S|]. split; [exact N|]. split; [exact ME|].
  split.
  { split; [exact HS|]. unfold stands_for in HE. destruct d as [[a b] h]. cbn in HE. cbn [stands]. exact HE. }
  split; [|split].
  - intros v Hv. apply SH in Hv as (q & Hq & ->). exact (IN q Hq).
  - intros [[x y] z] Hv. cbn [at_voxel]. apply OUT. intros q Hq E. apply Hv, SH. exists q. split; [exact Hq|].
    symmetry. apply doubled_inj. exact E.
  - intros o Ho. destruct (POS o Ho) as (q & Hq & P). exists (frame d CE q). split; [apply SH; eauto|exact P].
Qed.
Definition marker (d : cell) : room := mk_room TestRoom d T0 None.
Lemma markers_run hue vecs : true_vectors vecs -> forall ds obs, map snd obs = map marker ds -> forall tm size ops m g, manager tm ->
  exists tm' ops' m' g' es, render_all hue vecs obs tm (wrun ops (new_world size)) m g = (tm', Ok (wrun (ops ++ ops') (new_world size), m'), g') /\
    manager tm' /\ keeps_numbers tm tm' /\ stems tm tm' [red] /\ more_ents m es m' /\ Forall2 (grenade_at hue) ds es /\
    (forall d v, In d ds -> on_plate d v -> exists k, numbered tm' red k /\ at_voxel (wrun (ops ++ ops') (new_world size)) v = Some (repeat k 6)) /\
    (forall v, (forall d, In d ds -> ~ on_plate d v) -> at_voxel (wrun (ops ++ ops') (new_world size)) v = at_voxel (wrun ops (new_world size)) v) /\
    (forall o, In o ops' -> exists d v, In d ds /\ on_plate d v /\ op_pos o = doubled v).
Proof.
  intros TV. induction ds as [|d ds IH]; intros obs E tm size ops m g M; destruct obs as [|ob obs]; try discriminate E.
  - exists tm, [], m, g, []. cbn [render_all]. rewrite app_nil_r. split; [reflexivity|]. split; [exact M|]. split; [apply keeps_refl|].
    split; [apply stems_refl|]. split; [apply more_nil|]. split; [constructor|]. split; [intros d v []|]. split; [reflexivity|intros o []].
  - cbn [map] in E. assert (snd ob = marker d /\ map snd obs = map marker ds) as [E1 E2] by (split; congruence). clear E.
    destruct (marker_run hue vecs ob d tm size ops m g TV M E1) as (tm1 & k & ops1 & m1 & g1 & e & R1 & M1 & K1 & S1 & N1 & ME1 & G1 & IN1 & OUT1 & POS1).
    destruct (IH obs E2 tm1 size (ops ++ ops1) m1 g1 M1) as (tm' & ops2 & m' & g' & es & R2 & M2 & K2 & S2 & ME2 & G2 & IN2 & OUT2 & POS2).
    exists tm', (ops1 ++ ops2), m', g', (e :: es). rewrite app_assoc. cbn [render_all]. rewrite R1. split; [exact R2|]. split; [exact M2|].
    split; [exact (keeps_trans _ _ _ K1 K2)|]. split; [exact (stems_trans _ _ _ _ S1 S2)|]. split; [exact (more_app _ [e] _ _ _ ME1 ME2)|].
    split; [constructor; assumption|]. split; [|split].
    + assert (forall v, on_plate d v -> exists k, numbered tm' red k /\ at_voxel (wrun ((ops ++ ops1) ++ ops2) (new_world size)) v = Some (repeat k 6)) as H1.
      { intros v Hv. assert ((exists d', In d' ds /\ on_plate d' v) \/ forall d', In d' ds -> ~ on_plate d' v) as [(d' & Hd' & Hv')|Hn].
        { clear. induction ds as [|a ds IH]; [right; intros d' []|]. destruct (on_plate_dec a v) as [Ha|Ha]; [left; exists a; split; [left; reflexivity|exact Ha]|].
          destruct IH as [(d' & H1 & H2)|IH]; [left; exists d'; split; [right; exact H1|exact H2]|]. right. intros d' [<-|H]; [exact Ha|exact (IH d' H)]. }
        - exact (IN2 d' v Hd' Hv').
        - exists k. split; [apply K2; exact N1|]. rewrite (OUT2 v Hn). apply IN1, Hv. }
      intros d' v [<-|Hd'] Hv; [exact (H1 v Hv)|exact (IN2 d' v Hd' Hv)].
    + intros v Hn. rewrite OUT2 by (intros d' Hd'; apply Hn; right; exact Hd'). apply OUT1, Hn. left. reflexivity.
    + intros o Ho. apply in_app_or in Ho as [Ho|Ho].
      * destruct (POS1 o Ho) as (v & Hv & P). exists d, v. split; [left; reflexivity|auto].
      * destruct (POS2 o Ho) as (d' & v & Hd & Hv & P). exists d', v. split; [right; exact Hd|auto].
Qed.

(** ** The rooms and the markers *)
Lemma render_all_app_in cs (HL : incl cs shipped_rooms) hue vecs : forall a b, Forall (one_of cs) a -> forall tm w m g tm1 w1 m1 g1,
  render_rooms hue vecs a tm w m g = (tm1, Ok (w1, m1), g1) -> render_all hue vecs (a ++ b) tm w m g = render_all hue vecs b tm1 w1 m1 g1.
Proof.
  induction a as [|ob a IH]; intros b F tm w m g tm1 w1 m1 g1 E; [injection E as -> -> -> ->; reflexivity|].
  inversion F as [|? ? (s & Hs & Ec) F']; subst. cbn [app render_all render_rooms] in *. unfold render_any.
  rewrite Ec at 1. rewrite (shipped_of_self s (HL s Hs)).
  destruct (render_room hue vecs ob tm w m g) as [[tm2 [[w2 m2]|x]] g2]; [|discriminate]. exact (IH b F' _ _ _ _ _ _ _ _ E).
Qed.
Lemma render_all_app ctf hue vecs : forall a b, Forall (of_use ctf) a -> forall tm w m g tm1 w1 m1 g1,
  render_rooms hue vecs a tm w m g = (tm1, Ok (w1, m1), g1) -> render_all hue vecs (a ++ b) tm w m g = render_all hue vecs b tm1 w1 m1 g1.
Proof. exact (render_all_app_in (in_use ctf) (in_use_shipped ctf) hue vecs). Qed.
Lemma rooms_ops_in cs (HL : incl cs shipped_rooms) hue vecs obs tm size m g : true_vectors vecs -> Forall (one_of cs) obs -> manager tm ->
  exists ops tm' m' g', render_rooms hue vecs obs tm (new_world size) m g = (tm', Ok (wrun ops (new_world size), m'), g') /\
    forall o, In o ops -> exists ob d v, In ob obs /\ In d (positions (snd ob)) /\ voxel_in_cell v d /\ op_pos o = doubled v.
Proof.
  intros TV F M. destruct (render_rooms_ok_in cs HL hue vecs TV obs F tm M) as (tm' & M' & K & S & C & R).
  assert (Forall job_ok (map (job_of vecs tm') obs)) as JO
    by (rewrite Forall_forall in *; intros j Hj; apply in_map_iff in Hj as (ob & <- & Hob); apply (job_of_ok_in cs HL); auto).
  destruct (jobs_have_ops _ JO) as (opss & FO).
  destruct (R tm' (keeps_refl tm') (new_world size) _ m g (render_jobs_run _ _ FO _ _)) as (m' & g' & ess & E & _).
  exists (List.concat opss), tm', m', g'. split; [exact E|]. intros o Ho. apply in_concat in Ho as (ops & Hops & Ho).
  destruct (Forall2_in_r _ _ _ FO ops Hops) as (j & Hj & [_ H2]). destruct (H2 o Ho) as (d & v & Hd & Hv & P).
  apply in_map_iff in Hj as (ob & <- & Hob). assert (one_of cs ob) as U by (rewrite Forall_forall in F; auto).
  apply (job_cells_in cs HL vecs tm' ob d TV U) in Hd. exists ob, d, v. auto.
Qed.
Lemma rooms_numbers_in cs (HL : incl cs shipped_rooms) hue vecs obs tm size m g tm' w m' g' : true_vectors vecs -> Forall (one_of cs) obs -> manager tm ->
  render_rooms hue vecs obs tm (new_world size) m g = (tm', Ok (w, m'), g') ->
  forall ob s v q a rgb, In ob obs -> In s shipped_rooms -> s_class s = r_cls (snd ob) -> read_file (s_file s) = Ok v ->
    voxel_colour (vf_voxels v) q = Some a -> nth_error (vm_palette (model_of v)) (Z.to_nat a) = Some rgb ->
    exists n, numbered tm' (intended (s_paint s) (r_turn (snd ob)) rgb) n.
Proof.
  intros TV F M E. destruct (render_rooms_ok_in cs HL hue vecs TV obs F tm M) as (tm2 & _ & _ & _ & C & R).
  assert (Forall job_ok (map (job_of vecs tm2) obs)) as JO
    by (rewrite Forall_forall in *; intros j Hj; apply in_map_iff in Hj as (ob & <- & Hob); apply (job_of_ok_in cs HL); auto).
  destruct (jobs_have_ops _ JO) as (opss & FO).
  destruct (R tm2 (keeps_refl tm2) (new_world size) _ m g (render_jobs_run _ _ FO _ _)) as (m2 & g2 & ess & E2 & _).
  assert (tm2 = tm') as -> by congruence. intros ob s v q a rgb Hob Hi Ec. apply C; [exact Hob|]. rewrite <- Ec. apply shipped_of_self, Hi.
Qed.
Lemma rooms_numbers ctf hue vecs obs tm size m g tm' w m' g' : true_vectors vecs -> Forall (of_use ctf) obs -> manager tm ->
  render_rooms hue vecs obs tm (new_world size) m g = (tm', Ok (w, m'), g') ->
  forall ob s v q a rgb, In ob obs -> In s shipped_rooms -> s_class s = r_cls (snd ob) -> read_file (s_file s) = Ok v ->
    voxel_colour (vf_voxels v) q = Some a -> nth_error (vm_palette (model_of v)) (Z.to_nat a) = Some rgb ->
    exists n, numbered tm' (intended (s_paint s) (r_turn (snd ob)) rgb) n.
Proof. exact (rooms_numbers_in (in_use ctf) (in_use_shipped ctf) hue vecs obs tm size m g tm' w m' g'). Qed.
Lemma vector_of_room r : exists pos orient, cell_at pos (r_pos r) /\ cell_at orient (cdir (r_turn r)).
Proof.
  exists (let '(x, y, z) := r_pos r in V Coarse (I x) (I y) (I z)), (let '(x, y, z) := cdir (r_turn r) in V Coarse (I x) (I y) (I z)).
  destruct (r_pos r) as [[a b] h], (cdir (r_turn r)) as [[a' b'] h']. split; split; reflexivity.
Qed.
Lemma block_cell tm r x y z tex : has_block tm r (x, y, z) tex -> In (x / 8, y / 8, z / 8) (positions r).
Proof.
  intros (s & v & q & a & r0 & g0 & b & al & n & Hi & Ec & Ev & Col & Fq & _).
  rewrite (same_positions s _ Hi (eq_sym Ec)).
  destruct (vector_of_room r) as (pos & orient & HP & HO).
  destruct (reserved s (r_pos r) (r_turn r) pos orient Hi) as (v' & ps & Ev' & _ & _ & _ & RS).
  { rewrite (room_of_eq s _ _ Hi). split; assumption. }
  assert (v' = v) as -> by congruence. apply RS. exists q, a. split; [exact Col|]. rewrite Fq. exact (cell_of (x, y, z)).
Qed.

Lemma incl_head {A} (a : A) l : incl [a] (a :: l).
Proof. intros x [<-|[]]. left. reflexivity. Qed.
Lemma incl_both {A} (a : A) l l' : incl l l' -> incl (a :: l) (a :: l').
Proof. intros H x [<-|Hx]; [left; reflexivity|right; exact (H x Hx)]. Qed.
(** Rooms, then markers in cells that no room occupies. *)
Lemma rooms_and_markers cs (HL : incl cs shipped_rooms) hue vecs obs ds markers tm size m g : true_vectors vecs -> Forall (one_of cs) obs -> disjoint_rooms obs -> manager tm ->
  map snd markers = map marker ds -> (forall d ob, In d ds -> In ob obs -> ~ In d (positions (snd ob))) ->
  exists tm' w m' g' ess es, render_all hue vecs (obs ++ markers) tm (new_world size) m g = (tm', Ok (w, m'), g') /\
    more_ents m (List.concat ess ++ es) m' /\
    Forall2 (furnished_at hue) obs ess /\ Forall2 (furniture hue) obs ess /\ Forall2 (grenade_at hue) ds es /\
    manager tm' /\ keeps_numbers tm tm' /\ stems tm tm' (red :: flat_map file_colours cs) /\ w_size w = size /\
    (exists ops, w = wrun ops (new_world size) /\ forall o, In o ops -> exists v, op_pos o = doubled v /\
       ((exists ob d, In ob obs /\ In d (positions (snd ob)) /\ voxel_in_cell v d) \/ exists d, In d ds /\ on_plate d v)) /\
    (forall ob s v q a rgb, In ob obs -> In s shipped_rooms -> s_class s = r_cls (snd ob) -> read_file (s_file s) = Ok v ->
       voxel_colour (vf_voxels v) q = Some a -> nth_error (vm_palette (model_of v)) (Z.to_nat a) = Some rgb ->
       exists n, numbered tm' (intended (s_paint s) (r_turn (snd ob)) rgb) n) /\
    (ds <> [] -> exists k, numbered tm' red k) /\
    (forall ob d, In ob obs -> In d (positions (snd ob)) -> exists v tex, voxel_in_cell v d /\ has_block tm' (snd ob) v tex) /\
    (forall x y z tex, get_point w (I x) (I y) (I z) = Some tex <->
       (exists ob, In ob obs /\ has_block tm' (snd ob) (x, y, z) tex) \/
       (exists d k, In d ds /\ on_plate d (x, y, z) /\ numbered tm' red k /\ tex = repeat k 6)).
Proof.
  intros TV F D M EM' DC.
  destruct (rooms_blocks_in cs HL hue vecs obs tm size m g TV F D M) as (tm1 & w1 & m2 & g3 & ess & R & M1 & K1 & S1 & ME & FF & SZ & [NE _] & B).
  destruct (rooms_ops_in cs HL hue vecs obs tm size m g TV F M) as (ops & tmx & mx & gx & RX & POS).
  assert (w1 = wrun ops (new_world size)) as -> by congruence. clear RX tmx mx gx.
  destruct (markers_run hue vecs TV ds markers EM' tm1 size ops m2 g3 M1) as (tm' & ops' & m' & g' & es & R2 & M2 & K2 & S2 & ME2 & FG & IN & OUT & POS2).
  assert (forall (ob : obj) v tex, has_block tm1 (snd ob) v tex -> has_block tm' (snd ob) v tex) as HB.
  { intros ob v tex (s & vf & q & a & r0 & g0 & b & al & k & H1 & H2 & H3 & H4 & H5 & H6 & H7 & H8).
    exists s, vf, q, a, r0, g0, b, al, k. do 6 (split; [assumption|]). split; [apply K2; exact H7|exact H8]. }
  exists tm', (wrun (ops ++ ops') (new_world size)), m', g', ess, es. split.
  { rewrite (render_all_app_in cs HL hue vecs _ markers F _ _ _ _ _ _ _ _ R), R2. reflexivity. }
  split; [exact (more_app _ _ _ _ _ ME ME2)|].
  split; [exact FF|]. split.
  { assert (forall ob, In ob obs -> exists s, In s shipped_rooms /\ r_cls (snd ob) = s_class s) as HC.
    { intros ob Hob. rewrite Forall_forall in F. destruct (F ob Hob) as (s & Hs & Ec). exists s. split; [exact (HL s Hs)|exact Ec]. }
    clear - FF HC. induction FF as [|ob es obs ess H FF IH]; constructor.
    - apply furnished_furniture; [exact H|]. apply HC. left. reflexivity.
    - apply IH. intros ob' Ho. apply HC. right. exact Ho. }
  split; [exact FG|]. split; [exact M2|]. split; [exact (keeps_trans _ _ _ K1 K2)|].
  split.
  { exact (stems_trans _ tm1 _ _ (stems_incl _ _ _ _ S1 (incl_tl red (incl_refl (flat_map file_colours cs)))) (stems_incl _ _ _ _ S2 (incl_head red (flat_map file_colours cs)))). }
  split; [apply w_size_run|]. split.
  { exists (ops ++ ops'). split; [reflexivity|]. intros o Ho. apply in_app_or in Ho as [Ho|Ho].
    - destruct (POS o Ho) as (ob & d & v & Hob & Hd & Hv & P). exists v. split; [exact P|]. left. exists ob, d. auto.
    - destruct (POS2 o Ho) as (d & v & Hd & Hv & P). exists v. split; [exact P|]. right. exists d. auto. }
  pose proof (rooms_numbers_in cs HL hue vecs _ _ _ _ _ _ _ _ _ TV F M R) as RN. split.
  { intros ob s v q a rgb Hob H1 H2 H3 H4 H5. destruct (RN ob s v q a rgb Hob H1 H2 H3 H4 H5) as (k & N). exists k. apply K2. exact N. }
  split.
  { destruct ds as [|[[a b] c] ds']; [contradiction|]. intros _. destruct (IN (a, b, c) (8 * a + 2, 8 * b + 2, 8 * c) (or_introl eq_refl)) as (k & N & _).
    - cbn [on_plate]. lia.
    - exists k. exact N. }
  split.
  { intros ob d Hob Hd. destruct (NE ob d Hob Hd) as (v & tex & Hv & Hb). exists v, tex. auto. }
  intros x y z tex.
  assert ((exists d, In d ds /\ on_plate d (x, y, z)) \/ forall d, In d ds -> ~ on_plate d (x, y, z)) as DE.
  { clear. induction ds as [|a ds IH]; [right; intros d' []|].
    destruct (on_plate_dec a (x, y, z)) as [Ha|Ha]; [left; exists a; split; [left; reflexivity|exact Ha]|].
    destruct IH as [(d' & H1 & H2)|IH]; [left; exists d'; split; [right; exact H1|exact H2]|]. right. intros d' [<-|H]; [exact Ha|exact (IH d' H)]. }
  destruct DE as [(d & Hd & Hp)|Hn0].
  - destruct (IN d (x, y, z) Hd Hp) as (k & N & At). cbn [at_voxel] in At. rewrite At. split.
    + intros Et. right. exists d, k. split; [exact Hd|]. split; [exact Hp|]. split; [exact N|congruence].
    + intros [(ob & Hob & Hb)|(d' & k' & _ & _ & N' & ->)].
      * exfalso. apply block_cell in Hb. apply (DC d ob Hd Hob).
        rewrite (cell_of_unique (x, y, z) d (plate_cell _ _ Hp)). exact Hb.
      * rewrite (numbered_fun _ _ _ _ N N'). reflexivity.
  - specialize (OUT (x, y, z) Hn0). cbn [at_voxel] in OUT. rewrite OUT, B. split.
    + intros (ob & Hob & Hb). left. exists ob. auto.
    + intros [(ob & Hob & Hb)|(d' & k' & Hd' & Hp' & _)]; [|exfalso; exact (Hn0 d' Hd' Hp')].
      exists ob. split; [exact Hob|]. destruct Hb as (s & vf & q & a & r0 & g0 & b & al & k & H1 & H2 & H3 & H4 & H5 & H6 & H7 & H8).
      exists s, vf, q, a, r0, g0, b, al, k. do 6 (split; [assumption|]). split; [|exact H8].
      assert (nth_error (vm_palette (model_of vf)) (Z.to_nat a) = Some (r0, g0, b)) as H6' by (cbn [model_of vm_palette]; rewrite nth_error_map, H6; reflexivity).
      destruct (RN ob s vf q a _ Hob H1 H2 H3 H4 H6') as (k' & N').
      rewrite (numbered_fun tm' _ k k' H7 (K2 _ _ N')). exact N'.
Qed.
Lemma debug_ok fuel e hue vecs tm size n ctf rooms m g st1 g1 : true_vectors vecs -> manager tm -> mirror_factor n -> good_env e ->
  lay_rooms fuel e (Some n) ctf rooms g = (st1, None, g1) ->
  laid_out n ctf st1 /\ disjoint_rooms (u_rooms st1) /\
  (forall c, In c (door_cells st1) -> legal_cell c /\ forall ob, In ob (u_rooms st1) -> ~ In c (positions (snd ob))) /\
  (~ NoDup (door_cells st1) -> exists g', generate_any fuel e hue vecs tm size (Some n) true ctf rooms m g = (tm, Err UserExn, g')) /\
  (NoDup (door_cells st1) -> exists tm' w m2 st g' sun ess es markers,
    generate_any fuel e hue vecs tm size (Some n) true ctf rooms m g = (tm', Ok (w, m2, st), g') /\
    u_rooms st = u_rooms st1 ++ markers /\ map snd markers = map marker (door_cells st1) /\
    is_sun sun /\ wf_entity sun /\ more_ents m (sun :: List.concat ess ++ es) m2 /\
    Forall2 (furnished_at hue) (u_rooms st1) ess /\ Forall2 (furniture hue) (u_rooms st1) ess /\ Forall2 (grenade_at hue) (door_cells st1) es /\
    manager tm' /\ keeps_numbers tm tm' /\ stems tm tm' (red :: all_colours) /\ w_size w = size /\
    (forall ob d, In ob (u_rooms st1) -> In d (positions (snd ob)) -> exists v tex, voxel_in_cell v d /\ has_block tm' (snd ob) v tex) /\
    (forall x y z tex, get_point w (I x) (I y) (I z) = Some tex <->
       (exists ob, In ob (u_rooms st1) /\ has_block tm' (snd ob) (x, y, z) tex) \/
       (exists d k, In d (door_cells st1) /\ on_plate d (x, y, z) /\ numbered tm' red k /\ tex = repeat k 6))).
Proof.
  intros TV M Hn G E. destruct (lay_rooms_run n ctf fuel e rooms g st1 g1 Hn G E) as (U & NC & L). destruct (rooms_disjoint_lemma _ _ _ U) as [D OCC].
  assert (forall c, In c (door_cells st1) -> legal_cell c /\ forall ob, In ob (u_rooms st1) -> ~ In c (positions (snd ob))) as DC.
  { intros c Hc. apply in_map_iff in Hc as ([[c' ob'] o] & <- & Hc). cbn [fst]. pose proof (urun_any_agrees _ _ _ U) as UA. rewrite <- UA in Hc.
    apply open_doors_any_lemma in Hc as (H1 & H2 & _). rewrite UA in H2. split; [exact H1|].
    intros ob Hob Hp. rewrite (proj2 (OCC c' ob) (conj Hob Hp)) in H2. discriminate. }
  split; [exact L|]. split; [exact D|]. split; [exact DC|].
  pose proof (lay_out_split fuel e (Some n) true ctf rooms g) as LS. rewrite E in LS.
  destruct (endcap true (map s_class possible_endcaps) st1 g1) as [[st x] g2] eqn:EE.
  pose proof (urun_any_agrees _ _ _ U) as UA. pose proof EE as EH. rewrite <- UA in EH.
  apply endcap_debug_history in EH; [|rewrite UA; exact NC]. rewrite UA in EH. fold (door_cells st1) in EH. destruct EH as [EH1 EH2].
  split.
  { intros ND. destruct EH2 as [->| ->]; [exfalso; apply ND, EH1; reflexivity|]. exists g2. unfold generate_any. rewrite LS. reflexivity. }
  intros ND. apply EH1 in ND as ->. clear EH1 EH2.
  destruct (endcap_markers _ _ _ _ _ _ EE) as (markers & ER & EM).
  assert (map snd markers = map marker (door_cells st1)) as EM' by (rewrite EM; unfold door_cells; rewrite map_map; reflexivity). clear EM.
  assert (Forall (of_use ctf) (u_rooms st1)) as F.
  { rewrite Forall_forall. intros ob Hob. destruct (room_bounds n ctf st1 ob L Hob) as (s & Hs & Ec & _). exists s. auto. }
  destruct sun_made as (sun & ES & IS & WS). set (m1 := apply_edit m (AddEnt sun)).
  destruct (rooms_and_markers (in_use ctf) (in_use_shipped ctf) hue vecs (u_rooms st1) (door_cells st1) markers tm size m1 g2 TV F D M EM' (fun d ob Hd Hob => proj2 (DC d Hd) ob Hob))
    as (tm' & w & m' & g' & ess & es & R & ME & FA & FF & FG & M' & K & S & SZ & _ & _ & _ & NE & B).
  exists tm', w, m', st, g', sun, ess, es, markers. split.
  { unfold generate_any. rewrite LS, ES. cbn [add_entity bind]. fold m1. rewrite ER, R. reflexivity. }
  split; [exact ER|]. split; [exact EM'|]. split; [exact IS|]. split; [exact WS|].
  split; [apply (more_app m [sun] m1 _ m'); [unfold more_ents, m1; cbn; auto 12|exact ME]|].
  split; [exact FA|]. split; [exact FF|]. split; [exact FG|]. split; [exact M'|]. split; [exact K|].
  split; [exact (stems_incl _ _ _ _ S (incl_both red _ _ (all_in ctf)))|]. split; [exact SZ|]. split; [exact NE|exact B].
Qed.

(** Without debug mode nothing is new. *)
Lemma plain_same fuel e hue vecs tm size n ctf rooms m g : true_vectors vecs -> manager tm -> mirror_factor n -> good_env e ->
  generate_any fuel e hue vecs tm size (Some n) false ctf rooms m g = generate fuel e hue vecs tm size (Some n) false ctf rooms m g.
Proof.
  intros TV M Hn G. destruct (lay_out fuel e (Some n) false ctf rooms g) as [[st [x|]] g1] eqn:E; [unfold generate_any, generate; rewrite E; reflexivity|].
  destruct (generate_ok fuel e hue vecs tm size n ctf rooms m g st g1 TV M Hn G E) as (tm' & w & m2 & g' & sun & ess & EG & L & _).
  assert (Forall (of_use ctf) (u_rooms st)) as F.
  { rewrite Forall_forall. intros ob Hob. destruct (room_bounds n ctf st ob L Hob) as (s & Hs & Ec & _). exists s. auto. }
  rewrite EG. unfold generate in EG. unfold generate_any. rewrite E in *. destruct (add_entity m sunlight) as [m1|x]; [|congruence].
  destruct (render_rooms hue vecs (u_rooms st) tm (new_world size) m1 g1) as [[tm2 [[w2 m3]|x]] g2] eqn:R; [|congruence].
  rewrite <- (app_nil_r (u_rooms st)), (render_all_app ctf hue vecs _ [] F _ _ _ _ _ _ _ _ R). cbn [render_all]. exact EG.
Qed.

(** ** The file *)
Lemma grenade_wf hue d e : legal_cell d -> grenade_at hue d e ->
  wf_entity (norm_ent e) /\ map attr_value (e_attrs (norm_ent e)) = map attr_value (e_attrs e).
Proof.
  destruct d as [[a b] h]. intros LC ((Lk & Rs & Ty & At) & St). cbn [legal_cell] in LC.
  assert (norm_ent e = e) as EN. { unfold norm_ent. rewrite At. destruct e; cbn in *; congruence. }
  rewrite EN. split; [|reflexivity]. destruct St as (X & Y & Z0).
  unfold wf_entity. rewrite Lk, Rs, Ty, At.
  split; [eapply (coord_f32 _ _ 2); [lia| |exact X]; lia|]. split; [eapply (coord_f32 _ _ 2); [lia| |exact Y]; lia|].
  split; [eapply (coord_f32 _ _ 2); [lia| |exact Z0]; lia|]. split; [reflexivity|]. split.
  { cbn [repeat]. repeat (constructor; [eexists; split; [left; reflexivity|apply i32_small; lia]|]). constructor. }
  split. { intros _. exists 9, (repeat (AInt 0) 4). split; [left; reflexivity|reflexivity]. }
  split; [constructor|]. split; [reflexivity|]. split; [reflexivity|]. repeat constructor; unfold is_char; lia.
Qed.
Lemma written k fuelo w m m2 es ws : (7 <= k)%nat -> (S k < fuelo)%nat -> wf_map m -> header_size m = Some ws -> 2 ^ Z.of_nat (S k) <= ws <= 8192 ->
  more_ents m es m2 -> len (m_ents m) + len es < 2 ^ 31 ->
  Forall (fun e => wf_entity (norm_ent e) /\ map attr_value (e_attrs (norm_ent e)) = map attr_value (e_attrs e)) es ->
  w_size w = 2 ^ Z.of_nat (S k) ->
  (forall x y z tex, get_point w (I x) (I y) (I z) = Some tex -> List.length tex = 6%nat /\ Forall is_u16 tex) ->
  (exists x y z, (0 <= x < 2 ^ Z.of_nat k /\ 0 <= y < 2 ^ Z.of_nat k /\ 0 <= z < 2 ^ Z.of_nat k) /\ get_point w (I x) (I y) (I z) <> None) ->
  exists bs m', output_map fuelo w m2 = Ok bs /\ read_rest bs = Ok (m', []) /\ same_settings m m' /\
    (forall x y z tex, 0 <= x < 2 ^ Z.of_nat (S k) -> 0 <= y < 2 ^ Z.of_nat (S k) -> 0 <= z < 2 ^ Z.of_nat (S k) ->
       (world_lookup (S k) m' x y z = Some tex <-> get_point w (I x) (I y) (I z) = Some tex)) /\
    Forall2 same_entity (m_ents m2) (m_ents m').
Proof.
  intros Hk Hf WM HS Hws (Ee & E1 & E2 & E3 & E4 & E5 & E6 & E7 & E8 & E9) HE WE SZ TX NE.
  assert (forall e0, In e0 (m_ents m2) -> wf_entity (norm_ent e0) /\ map attr_value (e_attrs (norm_ent e0)) = map attr_value (e_attrs e0)) as WA.
  { intros e0 He. rewrite Ee in He. destruct WM as (_ & _ & _ & _ & _ & _ & _ & _ & _ & _ & WO & _). rewrite Forall_forall in WO, WE.
    apply in_app_or in He as [He|He]; [|auto]. rewrite (norm_wf e0 (WO e0 He)). auto. }
  set (mn := norm_map (set_numents m2)).
  assert (len (m_ents m2) < 2 ^ 31) as LE2.
  { unfold len in *. rewrite Ee, app_length. lia. }
  assert (wf_map mn) as WN.
  { destruct WM as (W1 & W2 & W3 & (h & Hh & Hm & Hsl & Hwd) & L1 & L2 & Nd & Wv & Lt & Wt & WO & Wvs & W8). unfold wf_map, mn, norm_map, set_numents.
    cbn [m_magic m_version m_headersize m_meta m_vars m_texmru m_ents m_vslots m_chg m_world]. rewrite E1, E2, E3, E4, E5, E6, E7, E8, E9.
    do 3 (split; [assumption|]). split; [exists h; rewrite Hm; split; [exact Hh|split; [unfold len; rewrite map_length; reflexivity|auto]]|].
    split; [unfold len in *; rewrite map_length; exact LE2|]. do 5 (split; [assumption|]). split; [|auto].
    rewrite Forall_map, Forall_forall. intros e0 He. apply WA, He. }
  assert (header_size mn = Some ws) as HSn.
  { destruct WM as (_ & _ & _ & (h & _ & Hm & _) & _). unfold header_size, mn, norm_map, set_numents in *. cbn [m_meta]. rewrite E4, Hm in *. exact HS. }
  destruct (output_lemma k fuelo w mn ws) as (bs & m' & EO & ER & SR & WL); try assumption.
  - lia.
  - unfold mn in EO. rewrite output_norm in EO. exists bs, m'. split; [exact EO|]. split; [exact ER|].
    destruct SR as (R1 & R2 & R3 & R4 & R5 & R6 & R7 & R8 & R9). unfold mn, norm_map, set_numents in R1, R2, R3, R4, R5, R6, R7, R8, R9.
    cbn [m_magic m_version m_headersize m_meta m_vars m_texmru m_ents m_vslots m_chg m_world] in R1, R2, R3, R4, R5, R6, R7, R8, R9.
    assert (List.length (m_ents m') = List.length (m_ents m2)) as EL by (rewrite <- (F2_length _ _ _ R7), map_length; reflexivity).
    split.
    { unfold same_settings. rewrite R1, R2, R3, R4, R6, R8, R9, EL, E1, E2, E3, E4, E6, E7, E8. rewrite <- E5.
      do 4 (split; [reflexivity|]). split; [exact R5|]. auto. }
    split.
    { intros x y z tex Hx Hy Hz. rewrite WL by (rewrite SZ; assumption). reflexivity. }
    assert (forall l l', Forall2 same_entity (map norm_ent l) l' -> (forall e0, In e0 l -> map attr_value (e_attrs (norm_ent e0)) = map attr_value (e_attrs e0)) -> Forall2 same_entity l l') as Q.
    { clear. induction l as [|a l IH]; intros l' F H; inversion F as [|? b ? l2 Hab F2]; subst; constructor.
      - destruct Hab as (X & Y & Z0 & T & V & Lk & Rs). unfold same_entity. unfold norm_ent in X, Y, Z0, T, Lk, Rs. cbn [e_x e_y e_z e_type e_links e_reserved] in *.
        rewrite V, (H a (or_introl eq_refl)). auto 12.
      - apply IH; [exact F2|]. intros e0 He. apply H. right. exact He. }
    apply Q; [exact R7|]. intros e0 He. apply WA, He.
Qed.
Lemma cells_few l : NoDup l -> (forall c, In c l -> legal_cell c) -> Z.of_nat (List.length l) <= 614125.
Proof.
  intros ND H. assert (incl l (box 42)) as I. { intros c Hc. apply box_in. apply H in Hc. destruct c as [[x y] z]. unfold legal_cell, within in *. lia. }
  pose proof (NoDup_incl_length ND I) as NL. pose proof (box_length 42 ltac:(lia)) as BL. unfold cell in *. lia.
Qed.
Lemma debug_file k fuel fuelo e hue vecs tm n ctf rooms m ws g st1 g1 :
  true_vectors vecs -> byte_hues hue -> manager tm -> mirror_factor n -> good_env e ->
  (7 <= k)%nat -> (S k < fuelo)%nat -> wf_map m -> header_size m = Some ws -> 2 ^ Z.of_nat (S k) <= ws <= 8192 ->
  Z.of_nat (List.length (tm_atlas tm)) <= 57000 -> len (m_ents m) <= 2 ^ 30 ->
  lay_rooms fuel e (Some n) ctf rooms g = (st1, None, g1) -> NoDup (door_cells st1) ->
  exists tm' w m2 st g' sun ess es markers bs m', generate_any fuel e hue vecs tm (2 ^ Z.of_nat (S k)) (Some n) true ctf rooms m g = (tm', Ok (w, m2, st), g') /\
    u_rooms st = u_rooms st1 ++ markers /\ map snd markers = map marker (door_cells st1) /\
    output_map fuelo w m2 = Ok bs /\ read_rest bs = Ok (m', []) /\ same_settings m m' /\
    (forall x y z tex, 0 <= x < 2 ^ Z.of_nat (S k) -> 0 <= y < 2 ^ Z.of_nat (S k) -> 0 <= z < 2 ^ Z.of_nat (S k) ->
       (world_lookup (S k) m' x y z = Some tex <->
         (exists ob, In ob (u_rooms st1) /\ has_block tm' (snd ob) (x, y, z) tex) \/
         (exists d k, In d (door_cells st1) /\ on_plate d (x, y, z) /\ numbered tm' red k /\ tex = repeat k 6))) /\
    m_ents m2 = m_ents m ++ sun :: List.concat ess ++ es /\ is_sun sun /\ Forall2 (furniture hue) (u_rooms st1) ess /\
    Forall2 (grenade_at hue) (door_cells st1) es /\ Forall2 same_entity (m_ents m2) (m_ents m').
Proof.
  intros TV BH M Hn G Hk Hf WM HS Hws HA HE E ND.
  destruct (debug_ok fuel e hue vecs tm (2 ^ Z.of_nat (S k)) n ctf rooms m g st1 g1 TV M Hn G E) as (L & D & DC & _ & OK).
  destruct (OK ND) as (tm' & w & m2 & st & g' & sun & ess & es & markers & EG & ER & EM & IS & WS & ME & FA & FF & FG & M' & K & S0 & SZ & NE & B).
  assert (Forall (fun ob => of_use ctf ob /\ within 37 (r_pos (snd ob))) (u_rooms st1)) as FU.
  { rewrite Forall_forall. intros ob Hob. destruct (room_bounds n ctf st1 ob L Hob) as (s & Hs & Ec & W). split; [exists s; auto|exact W]. }
  destruct (rooms_wf ctf hue (u_rooms st1) ess BH FU FA) as [WE LE]. pose proof (room_count n ctf st1 L D) as RC.
  pose proof (cells_few (door_cells st1) ND (fun c Hc => proj1 (DC c Hc))) as CF. rewrite (F2_length _ _ _ FG) in CF.
  destruct (written k fuelo w m m2 (sun :: List.concat ess ++ es) ws) as (bs & m' & EO & RR & SS & WL & SE); try assumption.
  - unfold len in *. cbn [List.length]. rewrite app_length. lia.
  - constructor; [rewrite (norm_wf sun WS); auto|]. apply Forall_app. split; [exact WE|]. rewrite Forall_forall. intros e0 He.
    destruct (Forall2_in_r _ _ _ FG e0 He) as (d & Hd & Hg). exact (grenade_wf hue d e0 (proj1 (DC d Hd)) Hg).
  - intros x y z tex Hg.
    assert (exists c num, numbered tm' c num /\ tex = repeat num 6) as (c & num & N & ->).
    { apply B in Hg as [(ob & _ & s & v & q & a & r & g0 & b & al & num & _ & _ & _ & _ & _ & _ & N & ->)|(d & num & _ & _ & N & ->)]; eauto. }
    split; [apply repeat_length|]. pose proof (numbered_small tm tm' _ _ _ M S0 N) as NS. pose proof count_colours as CC.
    cbn [List.length] in NS. rewrite Forall_forall. intros u Hu. apply repeat_spec in Hu. subst u. unfold is_u16. lia.
  - destruct (start_cell n ctf st1 Hn L) as (ob & d & Hob & Hd & Bd). destruct (NE ob d Hob Hd) as ([[x y] z] & tex & Hv & HB).
    exists x, y, z. assert (2 ^ 7 <= 2 ^ Z.of_nat k) as P by (apply Z.pow_le_mono_r; lia). change (2 ^ 7) with 128 in P.
    destruct d as [[a b] h]. cbn [voxel_in_cell] in Hv. split; [lia|]. rewrite (proj2 (B x y z tex)) by eauto. discriminate.
  - exists tm', w, m2, st, g', sun, ess, es, markers, bs, m'. split; [exact EG|]. split; [exact ER|]. split; [exact EM|]. split; [exact EO|]. split; [exact RR|].
    split; [exact SS|]. split; [intros x y z tex Hx Hy Hz; rewrite WL by assumption; apply B|]. destruct ME as [Ee _]. auto 12.
Qed.

(** ** Statements *)
Lemma marker_rooms ds : forall markers : list obj, map snd markers = map marker ds -> Forall2 (fun ob d => r_cls (snd ob) = TestRoom /\ r_pos (snd ob) = d) markers ds.
Proof.
  induction ds as [|d ds IH]; intros [|ob obs] E; try discriminate E; constructor.
  - cbn [map] in E. assert (snd ob = marker d) as -> by congruence. split; reflexivity.
  - apply IH. cbn [map] in E. congruence.
Qed.
Lemma debug_raises : exists e, good_env e /\ forall hue vecs tm size m,
  exists g', generate_any 400 e hue vecs tm size (Some 2) true false 60 m stream = (tm, Err UserExn, g').
Proof.
  exists sample_env. split; [exact sample_good|]. intros hue vecs tm size m.
  assert (snd (fst (lay_out 400 sample_env (Some 2) true false 60 stream)) = Some UserExn) as E by (vm_compute; reflexivity).
  unfold generate_any. destruct (lay_out 400 sample_env (Some 2) true false 60 stream) as [[st x] g1]. cbn [fst snd] in E. subst x. exists g1. reflexivity.
Qed.
Lemma debug_when e hue vecs tm size n ctf rooms m g : true_vectors vecs -> manager tm -> mirror_factor n -> good_env e ->
  exists fuel0, forall fuel, (fuel0 <= fuel)%nat -> exists st1 g1, lay_rooms fuel e (Some n) ctf rooms g = (st1, None, g1) /\
    (NoDup (door_cells st1) -> exists tm' w m2 st g', generate_any fuel e hue vecs tm size (Some n) true ctf rooms m g = (tm', Ok (w, m2, st), g')) /\
    (~ NoDup (door_cells st1) -> exists g', generate_any fuel e hue vecs tm size (Some n) true ctf rooms m g = (tm, Err UserExn, g')).
Proof.
  intros TV M Hn G. destruct (lay_rooms_total n ctf e rooms g Hn G) as (fuel0 & T). exists fuel0. intros fuel Hf.
  destruct (T fuel Hf) as (st1 & g1 & E). exists st1, g1. split; [exact E|].
  destruct (debug_ok fuel e hue vecs tm size n ctf rooms m g st1 g1 TV M Hn G E) as (_ & _ & _ & R & OK). split; [|exact R].
  intros ND. destruct (OK ND) as (tm' & w & m2 & st & g' & _ & _ & _ & _ & EG & _). exists tm', w, m2, st, g'. exact EG.
Qed.
Lemma cells_nodup (l : list cell) : NoDup l \/ ~ NoDup l.
Proof.
  induction l as [|a l IH]; [left; constructor|]. destruct (existsb (cell_eqb a) l) eqn:E.
  - right. intros H. inversion H. apply existsb_cell in E. contradiction.
  - destruct IH as [H|H]; [left; constructor; [|exact H]|right; intros Q; inversion Q; contradiction].
    intros Q. apply existsb_cell in Q. congruence.
Qed.
Lemma debug_map fuel e hue vecs tm size n ctf rooms m g st1 g1 tm' w m2 st g' : true_vectors vecs -> manager tm -> mirror_factor n -> good_env e ->
  lay_rooms fuel e (Some n) ctf rooms g = (st1, None, g1) ->
  generate_any fuel e hue vecs tm size (Some n) true ctf rooms m g = (tm', Ok (w, m2, st), g') ->
  exists sun ess es markers, u_rooms st = u_rooms st1 ++ markers /\
    Forall2 (fun ob d => r_cls (snd ob) = TestRoom /\ r_pos (snd ob) = d) markers (door_cells st1) /\
    NoDup (door_cells st1) /\
    (forall d ob, In d (door_cells st1) -> In ob (u_rooms st1) -> ~ In d (positions (snd ob))) /\
    (forall x y z tex, get_point w (I x) (I y) (I z) = Some tex <->
       (exists ob, In ob (u_rooms st1) /\ has_block tm' (snd ob) (x, y, z) tex) \/
       (exists d k, In d (door_cells st1) /\ on_plate d (x, y, z) /\ numbered tm' red k /\ tex = repeat k 6)) /\
    m_ents m2 = m_ents m ++ sun :: List.concat ess ++ es /\ is_sun sun /\ Forall2 (furniture hue) (u_rooms st1) ess /\
    Forall2 (grenade_at hue) (door_cells st1) es.
Proof.
  intros TV M Hn G E EG. destruct (debug_ok fuel e hue vecs tm size n ctf rooms m g st1 g1 TV M Hn G E) as (_ & _ & DC & R & OK).
  assert (NoDup (door_cells st1)) as ND.
  { destruct (cells_nodup (door_cells st1)) as [H|H]; [exact H|].
    destruct (R H) as (g2 & X). congruence. }
  destruct (OK ND) as (tm2 & w2 & m3 & st2 & g2 & sun & ess & es & markers & EG2 & ER & EM & IS & _ & ME & _ & FF & FG & _ & _ & _ & _ & _ & B).
  rewrite EG in EG2. assert (tm2 = tm' /\ w2 = w /\ m3 = m2 /\ st2 = st) as (-> & -> & -> & ->) by (repeat split; congruence).
  exists sun, ess, es, markers. split; [exact ER|]. split; [exact (marker_rooms _ _ EM)|]. split; [exact ND|].
  split; [intros d ob Hd Hob; exact (proj2 (DC d Hd) ob Hob)|]. split; [exact B|]. destruct ME as [Ee _]. auto.
Qed.
Lemma debug_written k fuel fuelo e hue vecs tm n ctf rooms m ws g st1 g1 tm' w m2 st g' :
  true_vectors vecs -> byte_hues hue -> manager tm -> mirror_factor n -> good_env e ->
  (7 <= k)%nat -> (S k < fuelo)%nat -> wf_map m -> header_size m = Some ws -> 2 ^ Z.of_nat (S k) <= ws <= 8192 ->
  Z.of_nat (List.length (tm_atlas tm)) <= 57000 -> len (m_ents m) <= 2 ^ 30 ->
  lay_rooms fuel e (Some n) ctf rooms g = (st1, None, g1) ->
  generate_any fuel e hue vecs tm (2 ^ Z.of_nat (S k)) (Some n) true ctf rooms m g = (tm', Ok (w, m2, st), g') ->
  exists bs m', output_map fuelo w m2 = Ok bs /\ read_rest bs = Ok (m', []) /\ same_settings m m' /\
    (forall x y z tex, in_world (2 ^ Z.of_nat (S k)) (x, y, z) ->
       (world_lookup (S k) m' x y z = Some tex <->
         (exists ob, In ob (u_rooms st1) /\ has_block tm' (snd ob) (x, y, z) tex) \/
         (exists d k, In d (door_cells st1) /\ on_plate d (x, y, z) /\ numbered tm' red k /\ tex = repeat k 6))) /\
    Forall2 same_entity (m_ents m2) (m_ents m').
Proof.
  intros TV BH M Hn G Hk Hf WM HS Hws HA HE E EG.
  destruct (debug_map fuel e hue vecs tm _ n ctf rooms m g st1 g1 tm' w m2 st g' TV M Hn G E EG) as (_ & _ & _ & _ & _ & _ & ND & _).
  destruct (debug_file k fuel fuelo e hue vecs tm n ctf rooms m ws g st1 g1 TV BH M Hn G Hk Hf WM HS Hws HA HE E ND)
    as (tm2 & w2 & m3 & st2 & g2 & sun & ess & es & markers & bs & m' & EG2 & _ & _ & EO & RR & SS & WL & _ & _ & _ & _ & SE).
  rewrite EG in EG2. assert (tm2 = tm' /\ w2 = w /\ m3 = m2) as (-> & -> & ->) by (repeat split; congruence).
  exists bs, m'. split; [exact EO|]. split; [exact RR|]. split; [exact SS|]. split; [|exact SE].
  intros x y z tex (Hx & Hy & Hz). exact (WL x y z tex Hx Hy Hz).
Qed.
(** A run. *)
Fixpoint different (l : list cell) : nat :=
  match l with [] => 0%nat | a :: r => if existsb (cell_eqb a) r then different r else S (different r) end.
Lemma different_le l : (different l <= List.length l)%nat.
Proof. induction l as [|a l IH]; [apply le_n|]. cbn [different List.length]. destruct (existsb (cell_eqb a) l); lia. Qed.
Lemma different_nodup l : different l = List.length l -> NoDup l.
Proof.
  induction l as [|a l IH]; intros H; [constructor|]. cbn [different List.length] in H. pose proof (different_le l).
  destruct (existsb (cell_eqb a) l) eqn:E; [lia|]. constructor; [|apply IH; lia]. intros Q. apply existsb_cell in Q. congruence.
Qed.
Lemma sample_debug hue vecs tm size m : true_vectors vecs -> manager tm ->
  exists tm' w m2 st g', generate_any 400 sample_env hue vecs tm size (Some 2) true false 12 m stream = (tm', Ok (w, m2, st), g').
Proof.
  intros TV M.
  assert (match lay_rooms 400 sample_env (Some 2) false 12 stream with (st, None, _) => Nat.eqb (different (door_cells st)) (List.length (door_cells st)) | _ => false end = true) as X
    by (vm_compute; reflexivity).
  destruct (lay_rooms 400 sample_env (Some 2) false 12 stream) as [[st1 [x|]] g1] eqn:E; [discriminate|]. apply Nat.eqb_eq in X.
  destruct (debug_ok 400 sample_env hue vecs tm size 2 false 12 m stream st1 g1 TV M (or_intror (or_introl eq_refl)) sample_good E) as (_ & _ & _ & _ & OK).
  destruct (OK (different_nodup _ X)) as (tm' & w & m2 & st & g' & _ & _ & _ & _ & EG & _). exists tm', w, m2, st, g'. exact EG.
Qed.
