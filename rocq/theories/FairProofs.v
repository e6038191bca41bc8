(** Proofs about the fairness of generated maps. *)
From Coq Require Import QArith.
From Verif Require Import Py VecModel VecSpec VecProofs VoxelModel VoxelSpec VoxelProofs CodecModel CodecSpec OutModel OutSpec
  UpmModel UpmSpec UpmProofs UpmInv UpmBridge UpmTrace UpmFinal KitModel KitSpec KitProofs KitPaint KitTile EffectProofs RoomModel MagicaModel RoomSpec MagicaProofs TexModel TexSpec TexProofs
  LightModel LightSpec LightProofs VoxFileModel ShippedModel ShippedSpec ShippedProofs ShippedDraw DistModel DistSpec DistProofs GenModel GenSpec GenLayout GenDraw GenProofs FairSpec.
Local Open Scope Z_scope.

(** ** Turning *)
Lemma frame_mirror t u p q : frame (mrot t p) (facing (tadd u t)) q = turn_voxel t (frame p (facing u) q).
Proof.
  destruct p as [[a b] h], q as [[x y] z], t, u; unfold mrot, frame; cbn [tadd tnext facing crot cadd csub tile_turn turn_voxel]; apply t3_eq; lia.
Qed.
Lemma point_mirror t u p f c : t3add (corner (mrot t p)) (t3add (8, 8, c) (turn3 (tadd u t) f)) =
  turn_point t (t3add (corner p) (t3add (8, 8, c) (turn3 u f))).
Proof.
  destruct p as [[a b] h], f as [[x y] z], t, u; unfold mrot, turn3, t3add; cbn [tadd tnext corner crot cadd csub turn_point]; apply t3_eq; lia.
Qed.
Lemma turn_voxel_inj t p p' : turn_voxel t p = turn_voxel t p' -> p = p'.
Proof.
  intros E. assert (forall q, turn_voxel (match t with T1 => T3 | T3 => T1 | u => u end) (turn_voxel t q) = q) as R
    by (intros [[x y] z]; destruct t; cbn [turn_voxel]; apply t3_eq; lia).
  rewrite <- (R p), E. apply R.
Qed.
Lemma turn_cell t p d : voxel_in_cell p d -> voxel_in_cell (turn_voxel t p) (mrot t d).
Proof. destruct p as [[x y] z], d as [[a b] h], t; unfold mrot; cbn [turn_voxel voxel_in_cell crot cadd csub]; lia. Qed.

(** ** Colours *)
Lemma plain_paint k t u rgb : k <> Team -> intended k t rgb = intended k u rgb.
Proof. destruct k; [reflexivity|congruence|]. destruct rgb as [[r g] b]. reflexivity. Qed.
Lemma generate_numbered n fuel e hue vecs tm size ctf rooms m g tm' w m2 st g' : true_vectors vecs -> manager tm -> mirror_factor n -> good_env e ->
  generate fuel e hue vecs tm size (Some n) false ctf rooms m g = (tm', Ok (w, m2, st), g') ->
  forall ob s v q a rgb, In ob (u_rooms st) -> shipped_of (r_cls (snd ob)) = Some s -> read_file (s_file s) = Ok v ->
    voxel_colour (vf_voxels v) q = Some a -> nth_error (vm_palette (model_of v)) (Z.to_nat a) = Some rgb ->
    exists k, numbered tm' (intended (s_paint s) (r_turn (snd ob)) rgb) k.
Proof.
  intros TV M Hn G EG. destruct (generate_lays _ _ _ _ _ _ _ _ _ _ _ _ _ _ _ _ _ EG) as (g1 & E).
  destruct (lay_out_run n ctf fuel e rooms g st g1 Hn G E) as (g2 & U & L). destruct (rooms_disjoint_lemma _ _ _ U) as [D _].
  assert (Forall (of_use ctf) (u_rooms st)) as F.
  { rewrite Forall_forall. intros ob Hob. destruct (room_bounds n ctf st ob L Hob) as (s & Hs & Ec & _). exists s. auto. }
  destruct (render_rooms_ok ctf hue vecs TV (u_rooms st) F tm M) as (tm1 & M' & K & S & C & R).
  assert (Forall job_ok (map (job_of vecs tm1) (u_rooms st))) as JO
    by (rewrite Forall_forall in *; intros j Hj; apply in_map_iff in Hj as (ob & <- & Hob); apply (job_of_ok ctf); auto).
  destruct (jobs_region_world (map (job_of vecs tm1) (u_rooms st)) size [] g1 JO (jobs_disjoint ctf vecs tm1 (u_rooms st) TV F D)) as (w1 & RW & _).
  cbn [wrun fold_left] in RW. unfold generate in EG. rewrite E in EG. destruct (add_entity m sunlight) as [m1|]; [|discriminate].
  destruct (R tm1 (keeps_refl tm1) (new_world size) w1 m1 g1 RW) as (m3 & g3 & ess & ER & _). rewrite ER in EG.
  assert (tm1 = tm') as <- by congruence. exact C.
Qed.

(** ** Rooms and their images *)
Lemma lay_out_sym n ctf fuel e rooms g st g' : mirror_factor n -> good_env e -> lay_out fuel e (Some n) false ctf rooms g = (st, None, g') ->
  exists old caps, u_rooms st = old ++ caps /\ (forall ob, In ob caps -> closes_door (snd ob)) /\
    (forall ob, In ob old -> ~ closes_door (snd ob)) /\
    forall ob t, In ob old -> In t (turns_of n) -> exists ob', In ob' old /\ snd ob' = mirror_room t (snd ob).
Proof.
  intros Hn G E. unfold lay_out in E. rewrite start_is in E.
  destruct (start_registers n ctf Hn) as (st0 & E0 & M0 & _ & _ & R0). rewrite E0 in E.
  destruct (place_rooms fuel e st0 (map s_class possible_rooms) rooms g) as [[st1 [k|x]] g1] eqn:E1; [|discriminate].
  assert (urun [ORegister (start_room ctf); OPlace fuel e (map s_class possible_rooms) rooms g] (upm_init (Some n) false) = Some st1) as U1
    by (cbn [urun ustep]; rewrite E0, E1; reflexivity).
  pose proof (Isym_history [ORegister (start_room ctf); OPlace fuel e (map s_class possible_rooms) rooms g] _ _ _ eq_refl U1) as S.
  destruct (noclip_history _ _ _ _ U1) as [_ MF]. assert (rotations st1 = Some (turns_of n)) as ET by (apply rotations_of; [exact Hn|exact MF]).
  unfold place_rooms in E1. destruct (place_loop_trace _ _ _ G opts_coherent _ _ _ _ _ _ _ E1) as (rs & T).
  destruct (trace_new _ _ _ _ T) as (placed & E2 & P).
  destruct (endcap_ok_lemma _ _ _ _ _ _ E) as (_ & _ & caps & E3 & C1 & C2 & _).
  exists (u_rooms st1), caps. split; [exact E3|]. split; [|split].
  - intros ob Hob. destruct (C1 ob Hob) as (d & p & o & c & pos & t & _ & Hc & Eo & _). apply in_map_iff in Hc as (s & Es & Hs). exists s.
    split; [exact Hs|]. rewrite Eo. cbn [mk_room r_cls]. congruence.
  - assert (forall s c, In s possible_endcaps -> rc_id c = rc_id (s_class s) -> rc_id c = 106 \/ rc_id c = 109) as ID.
    { intros s c Hs Ei. unfold possible_endcaps in Hs. destruct Hs as [<-|[<-|[]]]; rewrite Ei; [left|right]; reflexivity. }
    assert (forall ob, In ob (u_rooms st1) -> exists s, In s (first_room ctf :: possible_rooms) /\ r_cls (snd ob) = s_class s) as CL.
    { intros ob Hob. rewrite E2 in Hob. apply in_app_or in Hob as [Hob|Hob].
      - rewrite R0 in Hob. destruct ob as [i r]. apply in_combine_r in Hob. apply in_map_iff in Hob as (t & <- & _). exists (first_room ctf).
        split; [left; reflexivity|]. unfold start_room. rewrite (room_of_eq _ _ _ (first_shipped ctf)). reflexivity.
      - destruct (P ob Hob) as [Hc _]. apply in_map_iff in Hc as (s & Es & Hs). exists s. split; [right; exact Hs|]. congruence. }
    intros ob Hob (s & Hs & Ec). destruct (CL ob Hob) as (s' & Hs' & Ec').
    assert (rc_id (s_class s') = rc_id (s_class s)) as Ei by congruence. destruct (ID s (s_class s') Hs Ei) as [X|X]; clear - Hs' X;
      (destruct Hs' as [<-|Hs']; [destruct ctf; vm_compute in X; discriminate|]);
      unfold possible_rooms in Hs'; repeat (destruct Hs' as [<-|Hs']; [vm_compute in X; discriminate|]); destruct Hs'.
  - intros ob t Hob Ht. destruct (S (turns_of n) t ET Ht) as [_ S2]. exact (S2 ob Hob).
Qed.
Lemma image_counterpart n fuel e hue vecs tm size ctf rooms m g tm' w m2 st g' : true_vectors vecs -> manager tm -> mirror_factor n -> good_env e ->
  generate fuel e hue vecs tm size (Some n) false ctf rooms m g = (tm', Ok (w, m2, st), g') ->
  forall t ob ob', In ob (u_rooms st) -> In ob' (u_rooms st) -> snd ob' = mirror_room t (snd ob) -> counterpart t tm' (snd ob) (snd ob').
Proof.
  intros TV M Hn G EG t ob ob' Hob Hob' E. pose proof (generate_numbered n _ _ _ _ _ _ _ _ _ _ _ _ _ _ _ TV M Hn G EG) as NU.
  destruct (generate_lays _ _ _ _ _ _ _ _ _ _ _ _ _ _ _ _ _ EG) as (g1 & EL).
  assert (r_cls (snd ob') = r_cls (snd ob)) as EC by (rewrite E; reflexivity). split; [exact EC|]. split.
  - intros p tex (s & v & q & a & r & g0 & b & al & k & Hi & Ec & Ev & Col & Fq & Hp & N & ->).
    assert (shipped_of (r_cls (snd ob')) = Some s) as ES by (rewrite EC, <- Ec; apply shipped_of_self; exact Hi).
    assert (nth_error (vm_palette (model_of v)) (Z.to_nat a) = Some (r, g0, b)) as Hp' by (cbn [model_of vm_palette]; rewrite nth_error_map, Hp; reflexivity).
    destruct (NU ob' s v q a (r, g0, b) Hob' ES Ev Col Hp') as (k' & N').
    exists (repeat k' 6). split.
    + exists s, v, q, a, r, g0, b, al, k'. split; [exact Hi|]. split; [congruence|]. split; [exact Ev|]. split; [exact Col|].
      split; [|split; [exact Hp|split; [exact N'|reflexivity]]]. rewrite E. cbn [mirror_room r_pos r_turn]. rewrite frame_mirror, Fq. reflexivity.
    + destruct (s_paint s) eqn:EP; [right|left; exists s; auto|right];
        (rewrite (plain_paint _ _ (r_turn (snd ob)) _) in N' by discriminate; cbn [numbered] in N, N';
         match type of N with context [intended ?k ?t ?c] => destruct (intended k t c) as [[c1 c2] c3] end; unfold numbered in N, N'; f_equal; congruence).
  - intros p tex' (s & v & q & a & r & g0 & b & al & k & Hi & Ec & Ev & Col & Fq & Hp & N & ->).
    assert (shipped_of (r_cls (snd ob)) = Some s) as ES by (rewrite <- EC, <- Ec; apply shipped_of_self; exact Hi).
    assert (nth_error (vm_palette (model_of v)) (Z.to_nat a) = Some (r, g0, b)) as Hp' by (cbn [model_of vm_palette]; rewrite nth_error_map, Hp; reflexivity).
    destruct (NU ob s v q a (r, g0, b) Hob ES Ev Col Hp') as (k' & N').
    exists (repeat k' 6), s, v, q, a, r, g0, b, al, k'. split; [exact Hi|]. split; [congruence|]. split; [exact Ev|]. split; [exact Col|].
    split; [|split; [exact Hp|split; [exact N'|reflexivity]]]. rewrite E in Fq. cbn [mirror_room r_pos r_turn] in Fq. rewrite frame_mirror in Fq.
    exact (turn_voxel_inj t _ _ Fq).
Qed.

(** ** Entities *)
(** The entity is placed about the middle of the room's own cell, turned with the room. *)
Definition turnable (x : extra) : bool :=
  match x with XLight (Turned _) _ | XLight (Unturned []) _ | XFlag _ | XSpawn => true | _ => false end.
Lemma used_turnable ctf : Forall (fun s => forallb turnable (s_extra s) = true) (first_room ctf :: possible_rooms).
Proof. unfold possible_rooms. destruct ctf; repeat (apply Forall_cons; [reflexivity|]); apply Forall_nil. Qed.
Lemma turnable_points x : turnable x = true -> exists f c, forall u, extra_points u x = [t3add (8, 8, c) (turn3 u f)].
Proof.
  destruct x as [[steps|off] sf|off| | |off]; cbn [turnable extra_points]; try discriminate.
  - destruct steps; [|discriminate]. intros _. exists (0, 0, 0), 8. intros u. cbn [place_point map fold_left middle]. destruct u; reflexivity.
  - intros _. exists (fpos2 off), 8. intros u. cbn [place_point]. destruct (turn3 u (fpos2 off)) as [[x y] z]. cbn [middle t3add]. f_equal. apply t3_eq; lia.
  - intros _. exists (fpos2 off), 0. intros u. reflexivity.
  - intros _. exists (0, 0, 2), 0. intros u. destruct u; reflexivity.
Qed.
Lemma turnable_kind x hue t t' e e' : turnable x = true -> asked_for hue t x e -> asked_for hue t' x e' -> e_type e' = e_type e.
Proof. destruct x; cbn [turnable asked_for]; try discriminate; intros _ (_ & _ & A & _) (_ & _ & B & _); congruence. Qed.
Lemma extras_counterpart hue t p u l es es' : forallb turnable l = true ->
  Forall2 (asked_for hue u) l es -> Forall2 (stands_off p u) l es ->
  Forall2 (asked_for hue (tadd u t)) l es' -> Forall2 (stands_off (mrot t p) (tadd u t)) l es' ->
  Forall2 (entity_counterpart t) es es'.
Proof.
  intros TU A. revert es'. induction A as [|x e l es A1 A IH]; intros es' S A' S'; inversion A' as [|? e' ? es2 A1' A2']; subst; [constructor|].
  inversion S; inversion S'; subst. cbn [forallb] in TU. apply Bool.andb_true_iff in TU as [T1 T2]. constructor; [|apply IH; assumption].
  split; [exact (turnable_kind x hue _ _ e e' T1 A1 A1')|].
  destruct (turnable_points x T1) as (f & c & EP).
  match goal with H : stands_off p u x e |- _ => destruct H as (q & Hq & Sq) end.
  match goal with H : stands_off _ _ x e' |- _ => destruct H as (q' & Hq' & Sq') end.
  rewrite EP in Hq, Hq'. destruct Hq as [<-|[]], Hq' as [<-|[]]. eexists. split; [exact Sq|]. rewrite <- point_mirror. exact Sq'.
Qed.
Lemma in_combine_pair {A B} (R : A -> B -> Prop) l l' a : Forall2 R l l' -> In a l -> exists b, In (a, b) (combine l l') /\ R a b.
Proof.
  induction 1 as [|x y l l' H F IH]; intros Hi; [destruct Hi|]. destruct Hi as [->|Hi]; [exists y; split; [left; reflexivity|exact H]|].
  destruct (IH Hi) as (b & Hb & Rb). exists b. split; [right; exact Hb|exact Rb].
Qed.
Lemma in_combine_rel {A B} (R : A -> B -> Prop) l l' a b : Forall2 R l l' -> In (a, b) (combine l l') -> R a b.
Proof.
  induction 1 as [|x y l l' H F IH]; intros Hi; [destruct Hi|]. destruct Hi as [E|Hi]; [congruence|exact (IH Hi)].
Qed.
Lemma fair_lemma fuel e hue vecs tm size n ctf rooms m g tm' w m2 st g' : true_vectors vecs -> manager tm -> mirror_factor n -> good_env e ->
  generate fuel e hue vecs tm size (Some n) false ctf rooms m g = (tm', Ok (w, m2, st), g') ->
  (forall x y z tex, get_point w (I x) (I y) (I z) = Some tex <-> exists ob, In ob (u_rooms st) /\ has_block tm' (snd ob) (x, y, z) tex) /\
  exists sun ess, m_ents m2 = m_ents m ++ sun :: List.concat ess /\ is_sun sun /\ Forall2 (furniture hue) (u_rooms st) ess /\
  forall ob es t, In (ob, es) (combine (u_rooms st) ess) -> ~ closes_door (snd ob) -> In t (turns_of n) ->
    exists ob' es', In (ob', es') (combine (u_rooms st) ess) /\ counterpart t tm' (snd ob) (snd ob') /\ Forall2 (entity_counterpart t) es es'.
Proof.
  intros TV M Hn G EG. destruct (generate_lays _ _ _ _ _ _ _ _ _ _ _ _ _ _ _ _ _ EG) as (g1 & E).
  destruct (generate_ok fuel e hue vecs tm size n ctf rooms m g st g1 TV M Hn G E)
    as (tm2 & w2 & m3 & g3 & sun & ess & EG2 & L & _ & IS & _ & ME & FA & FF & _ & _ & _ & _ & _ & B).
  assert (tm2 = tm' /\ w2 = w /\ m3 = m2) as (-> & -> & ->) by (split; [|split]; congruence).
  split; [exact B|]. destruct ME as (EE & _). exists sun, ess. split; [exact EE|]. split; [exact IS|]. split; [exact FF|].
  intros ob es t Hob NC Ht. pose proof (in_combine_l _ _ _ _ Hob) as Ho.
  destruct (lay_out_sym n ctf fuel e rooms g st g1 Hn G E) as (old & caps & ER & C & O & S).
  rewrite ER in Ho. apply in_app_or in Ho as [Ho|Ho]; [|exfalso; exact (NC (C ob Ho))].
  destruct (S ob t Ho Ht) as (ob' & Ho' & EM). assert (In ob' (u_rooms st)) as Hi' by (rewrite ER; apply in_or_app; left; exact Ho').
  assert (In ob (u_rooms st)) as Hi by (rewrite ER; apply in_or_app; left; exact Ho).
  destruct (in_combine_pair _ _ _ ob' FA Hi') as (es' & Hes' & (s' & ES' & A' & S')).
  pose proof (in_combine_rel _ _ _ _ _ FA Hob) as (s & ES & A & St).
  exists ob', es'. split; [exact Hes'|]. split; [exact (image_counterpart n _ _ _ _ _ _ _ _ _ _ _ _ _ _ _ TV M Hn G EG t ob ob' Hi Hi' EM)|].
  rewrite EM in ES', A', S'. cbn [mirror_room r_cls r_pos r_turn] in ES', A', S'. assert (s' = s) as -> by congruence.
  assert (In s (first_room ctf :: possible_rooms)) as Hs.
  { destruct (room_bounds n ctf st ob L Hi) as (s1 & Hs1 & Ec & _). rewrite Ec, (shipped_of_self s1 (in_use_shipped ctf s1 Hs1)) in ES.
    assert (s1 = s) as -> by congruence. destruct Hs1 as [Hs1|Hs1]; [left; exact Hs1|]. apply in_app_or in Hs1 as [Hs1|Hs1]; [right; exact Hs1|].
    exfalso. apply NC. exists s. auto. }
  pose proof (used_turnable ctf) as TU. rewrite Forall_forall in TU.
  exact (extras_counterpart hue t _ _ _ _ _ (TU s Hs) A St A' S').
Qed.

(** ** The endcaps are not mirrored *)
Definition lone (st : upm) : bool :=
  existsb (fun ob : obj => existsb (fun d => negb (existsb (fun ob' : obj => existsb (cell_eqb (mrot T2 d)) (positions (snd ob'))) (u_rooms st))) (positions (snd ob))) (u_rooms st).
Definition run_lone (r : upm * option exn * rng) : bool := match r with (st, None, _) => lone st | _ => false end.
Lemma run_lone_inv r : run_lone r = true -> exists st g', r = (st, None, g') /\ lone st = true.
Proof. destruct r as [[st [x|]] g']; cbn [run_lone]; [discriminate|eauto]. Qed.
Lemma sample_lone : run_lone (lay_out 400 sample_env (Some 2) false true 60 stream) = true.
Proof. vm_compute. reflexivity. Qed.
Lemma unfair_lemma hue vecs tm m : true_vectors vecs -> manager tm ->
  exists fuel e rooms g tm' w m2 st g', good_env e /\ generate fuel e hue vecs tm 256 (Some 2) false true rooms m g = (tm', Ok (w, m2, st), g') /\
    ~ fair_shape 2 w.
Proof.
  intros TV M. destruct (run_lone_inv _ sample_lone) as (st & g1 & E & F).
  destruct (generate_ok 400 sample_env hue vecs tm 256 2 true 60 m stream st g1 TV M) as (tm' & w & m2 & g' & sun & ess & EG & L & _ & _ & _ & _ & _ & _ & _ & _ & _ & _ & [NE _] & B);
    [right; left; reflexivity|exact sample_good|exact E|].
  exists 400%nat, sample_env, 60, stream, tm', w, m2, st, g'. split; [exact sample_good|]. split; [exact EG|].
  apply existsb_exists in F as (ob & Hob & F). apply existsb_exists in F as (d & Hd & FD). apply Bool.negb_true_iff in FD.
  destruct (NE ob d Hob Hd) as (p & tex & Hp & HB). intros FS.
  assert (solid w p) as SP by (destruct p as [[x y] z]; cbn [solid]; rewrite (proj2 (B x y z tex)); [discriminate|eauto]).
  specialize (FS T2 p (or_intror (or_introl eq_refl)) SP). pose proof (turn_cell T2 p d Hp) as TC.
  destruct (turn_voxel T2 p) as [[x y] z]. cbn [solid] in FS. destruct (get_point w (I x) (I y) (I z)) as [tex'|] eqn:EP; [|congruence].
  apply B in EP as (ob' & Hob' & HB'). destruct (block_cell vecs tm' (snd ob') (x, y, z) tex' TV HB') as (d' & Hd' & Hv').
  apply cell_of_unique in Hv', TC. assert (d' = mrot T2 d) as Ed by congruence. rewrite Ed in Hd'.
  assert (existsb (fun ob' : obj => existsb (cell_eqb (mrot T2 d)) (positions (snd ob'))) (u_rooms st) = true); [|congruence].
  apply existsb_exists. exists ob'. split; [exact Hob'|]. apply existsb_cell. exact Hd'.
Qed.

(** ** Teams *)
Lemma teams_lemma n fuel e hue vecs tm size rooms m g tm' w m2 st g' : true_vectors vecs -> manager tm -> mirror_factor n -> good_env e ->
  generate fuel e hue vecs tm size (Some n) false true rooms m g = (tm', Ok (w, m2, st), g') ->
  exists fs, flags_of (m_ents m2) = flags_of (m_ents m) ++ fs /\
    map (fun f => hd_error (e_attrs f)) fs = map (fun k => Some (AInt k)) (map (fun t => team_of t) (turns_of n)).
Proof.
  intros TV M Hn G EG. destruct (ctf_flags _ _ _ _ _ _ _ _ _ _ _ _ _ _ _ _ TV M Hn G EG) as (bases & fs & _ & EB & EF & FF & _).
  exists fs. split; [exact EF|]. clear - FF EB Hn.
  assert (map (fun r => Some (AInt (team_of (r_turn r)))) bases = map (fun k => Some (AInt k)) (map (fun t => team_of t) (turns_of n))) as <-.
  { rewrite EB, !map_map. apply map_ext. intros t. unfold start_room. rewrite (room_of_eq _ _ _ (first_shipped true)). cbn [mirror_room r_turn]. destruct t; reflexivity. }
  clear EB. induction FF as [|r f bases fs [H _] FF IH]; [reflexivity|]. cbn [map]. rewrite H, IH. reflexivity.
Qed.
