(** Proofs about the tool that draws rooms for testing. *)
From Coq Require Import QArith.
From Verif Require Import Py VecModel VecSpec VecProofs VoxelModel VoxelSpec VoxelProofs CodecModel CodecSpec CodecProofs OutModel OutSpec
  UpmModel UpmSpec UpmProofs UpmBridge UpmTrace UpmFinal KitModel KitSpec KitProofs RoomModel MagicaModel RoomSpec MagicaProofs TexModel TexSpec TexProofs
  LightModel LightSpec VoxFileModel VoxFileSpec VoxFileProofs ShippedModel ShippedSpec ShippedProofs ShippedDraw GenModel GenSpec GenLayout GenDraw GenProofs
  DebugModel DebugSpec DebugProofs ExportSpec ExportProofs RoomTestModel RoomTestSpec.
Local Open Scope Z_scope.

(** ** The layout *)
(** A manager that allows clashes never complains. *)
Lemma clashes_allowed st r : u_noclip st = true -> exists st', register1 st r = (st', None).
Proof. intros E. unfold register1. rewrite E, Bool.andb_false_r. eexists. reflexivity. Qed.
Lemma all_registered rs : forall st, u_noclip st = true ->
  exists st', register_all st rs = (st', None) /\ u_noclip st' = true /\ map snd (u_rooms st') = map snd (u_rooms st) ++ rs.
Proof.
  induction rs as [|r rs IH]; intros st N; cbn [register_all].
  - exists st. rewrite app_nil_r. auto.
  - destruct (clashes_allowed st r N) as (st1 & E). rewrite E. apply register1_ok in E as (_ & E1 & _ & _ & _ & E2 & _).
    destruct (IH st1) as (st' & E3 & E4 & E5); [congruence|]. exists st'. split; [exact E3|]. split; [exact E4|].
    rewrite E5, E2, map_app, <- app_assoc. reflexivity.
Qed.
Lemma all_marked caps todo : forall st g, u_noclip st = true -> exists st', endcap_loop true caps todo st g = (st', None, g).
Proof.
  induction todo as [|[[d p] o] todo IH]; intros st g N; cbn [endcap_loop]; [eauto|].
  destruct (clashes_allowed st (mk_room TestRoom d T0 None) N) as (st1 & E). rewrite E. apply register1_ok in E as (_ & E1 & _). apply IH. congruence.
Qed.

(** ** What the four rooms take up *)
Definition images (c : rclass) : list room := [R c (11, 8, 1) T0 []; R c (24, 11, 1) T1 []; R c (21, 24, 1) T2 []; R c (8, 21, 1) T3 []].
Definition cells_eqb (l l' : list cell) : bool := Nat.eqb (List.length l) (List.length l') && forallb (fun p => cell_eqb (fst p) (snd p)) (combine l l').
Definition inside (n : Z) (c : cell) : bool := let '(x, y, z) := c in (0 <=? x) && (x <? n) && (0 <=? y) && (y <? n) && (0 <=? z) && (z <? n).
Definition spread (c : rclass) : bool :=
  let rs := images c in let ps := flat_map positions rs in let ds := flat_map (fun r => map fst (doorways r)) rs in
  cells_eqb (door_cells (fst (register_room (upm_init (Some 4) true) (R c (11, 8, 1) T0 [])))) ds &&
  Nat.eqb (different ps) (List.length ps) && Nat.eqb (different ds) (List.length ds) &&
  forallb (fun d => negb (existsb (cell_eqb d) ps)) ds && forallb (inside 32) (ps ++ ds) && existsb (inside 16) (positions (R c (11, 8, 1) T0 [])).
Lemma all_spread : forallb (fun s => spread (s_class s)) shipped_rooms = true.
Proof. vm_compute. reflexivity. Qed.
Lemma cells_eqb_eq l : forall l', cells_eqb l l' = true -> l = l'.
Proof.
  unfold cells_eqb. induction l as [|a l IH]; intros [|b l'] E; cbn in E; try discriminate; [reflexivity|].
  rewrite !Bool.andb_true_iff in E. destruct E as (E1 & E2 & E3). apply cell_eqb_eq in E2. subst b. f_equal. apply IH. rewrite E1, E3. reflexivity.
Qed.
Lemma inside_ok n x y z : inside n (x, y, z) = true -> 0 <= x < n /\ 0 <= y < n /\ 0 <= z < n.
Proof. unfold inside. rewrite !Bool.andb_true_iff, !Z.leb_le, !Z.ltb_lt. lia. Qed.
Lemma apart {A B} (f : A -> list B) l : NoDup (flat_map f l) -> forall i j a b c, nth_error l i = Some a -> nth_error l j = Some b -> i <> j -> In c (f a) -> ~ In c (f b).
Proof.
  induction l as [|x l IH]; intros ND i j a b c Ha Hb Hij Hc Hd; [destruct i; discriminate|]. cbn [flat_map] in ND. 
  assert (forall y, In y (f x) -> ~ In y (flat_map f l)) as D.
  { clear - ND. induction (f x) as [|y m IHm]; intros z Hz; [destruct Hz|]. cbn [app] in ND. inversion ND as [|? ? N1 N2]; subst. destruct Hz as [<-|Hz]; [|exact (IHm N2 z Hz)].
    intros Q. apply N1. apply in_or_app. right. exact Q. }
  assert (NoDup (flat_map f l)) as ND' by (clear - ND; induction (f x) as [|y m IHm]; [exact ND|]; inversion ND; auto).
  destruct i as [|i], j as [|j]; cbn [nth_error] in *; [congruence| | |].
  - injection Ha as ->. apply (D c Hc). apply in_flat_map. exists b. split; [exact (nth_error_In _ _ Hb)|exact Hd].
  - injection Hb as ->. apply (D c Hd). apply in_flat_map. exists a. split; [exact (nth_error_In _ _ Ha)|exact Hc].
  - exact (IH ND' i j a b c Ha Hb ltac:(congruence) Hc Hd).
Qed.
Lemma four_images s : In s shipped_rooms -> four_rooms s = images (s_class s).
Proof. intros Hs. unfold four_rooms, images. rewrite !(room_of_eq s _ _ Hs). reflexivity. Qed.
Lemma four_spread s : In s shipped_rooms ->
  door_cells (fst (register_room (upm_init (Some 4) true) (R (s_class s) (11, 8, 1) T0 []))) = beyond s /\
  NoDup (flat_map positions (four_rooms s)) /\ NoDup (beyond s) /\ (forall d, In d (beyond s) -> ~ In d (flat_map positions (four_rooms s))) /\
  (forall x y z, In (x, y, z) (flat_map positions (four_rooms s) ++ beyond s) -> 0 <= x < 32 /\ 0 <= y < 32 /\ 0 <= z < 32) /\
  exists x y z, In (x, y, z) (positions (room_of s (11, 8, 1) T0)) /\ 0 <= x < 16 /\ 0 <= y < 16 /\ 0 <= z < 16.
Proof.
  intros Hs. pose proof (proj1 (forallb_forall _ _) all_spread s Hs) as F. cbn beta in F. unfold beyond. rewrite (four_images s Hs), (room_of_eq s _ _ Hs).
  generalize dependent (s_class s). intros c F. unfold spread in F. cbv zeta in F. rewrite !Bool.andb_true_iff in F. destruct F as (((((F1 & F2) & F3) & F4) & F5) & F6).
  apply cells_eqb_eq in F1. apply Nat.eqb_eq in F2, F3. split; [exact F1|]. split; [exact (different_nodup _ F2)|]. split; [exact (different_nodup _ F3)|].
  rewrite forallb_forall in F4, F5. split; [|split].
  - intros d Hd Hp. specialize (F4 d Hd). apply existsb_cell in Hp. rewrite Hp in F4. discriminate.
  - intros x y z Hi. exact (inside_ok 32 x y z (F5 _ Hi)).
  - apply existsb_exists in F6 as ([[x y] z] & Hi & E). exists x, y, z. split; [exact Hi|exact (inside_ok 16 x y z E)].
Qed.
Lemma test_laid s g : In s shipped_rooms -> exists st obs markers, test_layout s g = (st, None, g) /\ u_rooms st = obs ++ markers /\
  map snd obs = four_rooms s /\ map snd markers = map marker (beyond s).
Proof.
  intros Hs. unfold test_layout, first_opts. pose proof (proj1 (forallb_forall _ _) classes_plain s Hs) as F. cbn beta in F. unfold plain_class in F.
  destruct (rc_flags (s_class s)) as [fl|] eqn:Ef; [discriminate|]. clear F. change (8 + 3, 8, 1) with (11, 8, 1) in *. unfold TEST_POSITION. change (8 + 3) with 11.
  change (mk_room (s_class s) (11, 8, 1) T0 None) with (room_of s (11, 8, 1) T0). rewrite (room_of_eq s _ _ Hs).
  destruct (four_spread s Hs) as (D & _). unfold register_room in *. cbn [rotations upm_init u_mirror] in *.
  destruct (all_registered (map (fun t => mirror_room t (R (s_class s) (11, 8, 1) T0 [])) [T0; T1; T2; T3]) (upm_init (Some 4) true) eq_refl) as (st1 & E & N & ER).
  unfold upm_init in *. rewrite E in *. cbn [fst] in D. destruct (all_marked [] (u_open st1) st1 g N) as (st & EE). unfold endcap. rewrite EE.
  destruct (endcap_markers _ _ _ _ _ _ EE) as (markers & EM & ES). exists st, (u_rooms st1), markers. split; [reflexivity|]. split; [exact EM|]. split.
  - rewrite ER, (four_images s Hs). reflexivity.
  - rewrite ES, <- D. unfold door_cells. rewrite map_map. reflexivity.
Qed.

(** ** The drawing *)
Lemma rooms_in (P : room -> Prop) (obs : list obj) rs : map snd obs = rs -> ((exists ob, In ob obs /\ P (snd ob)) <-> exists r, In r rs /\ P r).
Proof.
  intros <-. split.
  - intros (ob & Hob & Hp). exists (snd ob). split; [apply in_map; exact Hob|exact Hp].
  - intros (r & Hr & Hp). apply in_map_iff in Hr as (ob & <- & Hob). eauto.
Qed.
Lemma furniture_room hue obs : forall ess, Forall2 (furniture hue) obs ess -> Forall2 (fun r l => furniture hue (0%nat, r) l) (map snd obs) ess.
Proof. induction obs as [|ob obs IH]; intros ess F; inversion F; subst; cbn [map]; constructor; auto. Qed.
Lemma test_drawn cs (HL : incl cs shipped_rooms) s hue vecs tm m g : In s cs -> true_vectors vecs -> manager tm ->
  exists tm' w m' st g' ess boxes ops obs, room_test hue vecs s tm m g = (tm', Ok (w, m', st), g') /\
    manager tm' /\ keeps_numbers tm tm' /\ stems tm tm' (red :: flat_map file_colours cs) /\
    more_ents m (List.concat ess ++ boxes) m' /\ Forall2 (furnished_at hue) obs ess /\ map snd obs = four_rooms s /\
    Forall2 (fun r l => furniture hue (0%nat, r) l) (four_rooms s) ess /\ Forall2 (grenade_at hue) (beyond s) boxes /\
    map snd (u_rooms st) = four_rooms s ++ map marker (beyond s) /\ w_size w = 256 /\
    w = wrun ops (new_world 256) /\ (forall o, In o ops -> exists v, near v /\ op_pos o = doubled v) /\
    (forall ob s v q a rgb, In ob obs -> In s shipped_rooms -> s_class s = r_cls (snd ob) -> read_file (s_file s) = Ok v ->
       voxel_colour (vf_voxels v) q = Some a -> nth_error (vm_palette (model_of v)) (Z.to_nat a) = Some rgb ->
       exists n, numbered tm' (intended (s_paint s) (r_turn (snd ob)) rgb) n) /\
    (beyond s <> [] -> exists k, numbered tm' red k) /\
    (exists x y z tex, (0 <= x < 128 /\ 0 <= y < 128 /\ 0 <= z < 128) /\ test_block tm' s (x, y, z) tex) /\
    forall x y z tex, get_point w (I x) (I y) (I z) = Some tex <-> test_block tm' s (x, y, z) tex.
Proof.
  intros Hs TV M. pose proof (HL s Hs) as Hi. destruct (four_spread s Hi) as (_ & ND & NB & DB & IN & (cx & cy & cz & Hc & Bc)).
  destruct (test_laid s g Hi) as (st & obs & markers & E & ER & EO & EM).
  assert (Forall (one_of cs) obs) as F.
  { rewrite Forall_forall. intros ob Hob. exists s. split; [exact Hs|]. apply (in_map snd) in Hob. rewrite EO, (four_images s Hi) in Hob.
    cbn [images In] in Hob. destruct Hob as [<-|[<-|[<-|[<-|[]]]]]; reflexivity. }
  assert (disjoint_rooms obs) as D.
  { intros i j a b c Ha Hb Hij Hca Hcb. apply (map_nth_error snd) in Ha, Hb. rewrite EO in Ha, Hb. exact (apart positions (four_rooms s) ND i j _ _ c Ha Hb Hij Hca Hcb). }
  assert (forall ob d, In ob obs -> In d (positions (snd ob)) -> In d (flat_map positions (four_rooms s))) as PO.
  { intros ob d Hob Hd. apply in_flat_map. exists (snd ob). split; [rewrite <- EO; apply in_map; exact Hob|exact Hd]. }
  destruct (rooms_and_markers cs HL hue vecs obs (beyond s) markers tm 256 m g TV F D M EM) as
    (tm' & w & m' & g' & ess & boxes & R & ME & FA & FF & FG & M' & K & ST & SZ & (ops & Ew & OPS) & RN & RD & NE & B).
  { intros d ob Hd Hob Hp. exact (DB d Hd (PO ob d Hob Hp)). }
  assert (forall x y z tex, get_point w (I x) (I y) (I z) = Some tex <-> test_block tm' s (x, y, z) tex) as B'.
  { intros x y z tex. rewrite B. unfold test_block. rewrite (rooms_in (fun r => has_block tm' r (x, y, z) tex) obs _ EO). reflexivity. }
  exists tm', w, m', st, g', ess, boxes, ops, obs. split.
  { unfold room_test. rewrite E, ER. change (2 ^ 8) with 256. rewrite R. reflexivity. }
  split; [exact M'|]. split; [exact K|]. split; [exact ST|]. split; [exact ME|]. split; [exact FA|]. split; [exact EO|].
  split; [rewrite <- EO; exact (furniture_room hue obs ess FF)|]. split; [exact FG|]. split; [rewrite ER, map_app; exact (f_equal2 (@app room) EO EM)|].
  split; [exact SZ|]. split; [exact Ew|]. split.
  { intros o Ho. destruct (OPS o Ho) as (v & P & [(ob & d & Hob & Hd & Hv)|(d & Hd & Hv)]); exists v; (split; [|exact P]).
    - apply (near_cell v d Hv). destruct d as [[a b] c]. destruct (IN a b c) as (H1 & H2 & H3); [apply in_or_app; left; exact (PO ob _ Hob Hd)|]. unfold GenLayout.within. lia.
    - apply (near_cell v d (plate_cell d v Hv)). destruct d as [[a b] c]. destruct (IN a b c) as (H1 & H2 & H3); [apply in_or_app; right; exact Hd|]. unfold GenLayout.within. lia. }
  split; [exact RN|]. split; [exact RD|]. split; [|exact B'].
  assert (exists ob, In ob obs /\ snd ob = room_of s (11, 8, 1) T0) as (ob & Hob & Er).
  { assert (In (room_of s (11, 8, 1) T0) (map snd obs)) as Q by (rewrite EO; left; reflexivity). apply in_map_iff in Q as (ob & E1 & E2). eauto. }
  destruct (NE ob (cx, cy, cz) Hob) as ([[x y] z] & tex & Hv & HB); [rewrite Er; exact Hc|]. exists x, y, z, tex. cbn [voxel_in_cell] in Hv. split; [lia|].
  left. exists (snd ob). split; [rewrite <- EO; apply in_map; exact Hob|exact HB].
Qed.

(** ** The files *)
Lemma red_shades rgb : shades red rgb <-> rgb = (255, 0, 0).
Proof.
  destruct rgb as [[x y] z]. unfold shades, red, shade. split; [intros (H1 & H2 & H3); apply t3_eq; lia|].
  intros E. apply t3_inv in E as (-> & -> & ->). lia.
Qed.
Lemma test_painted s (obs : list obj) tm' : map snd obs = four_rooms s ->
  (forall ob s v q a rgb, In ob obs -> In s shipped_rooms -> s_class s = r_cls (snd ob) -> read_file (s_file s) = Ok v ->
     voxel_colour (vf_voxels v) q = Some a -> nth_error (vm_palette (model_of v)) (Z.to_nat a) = Some rgb ->
     exists n, numbered tm' (intended (s_paint s) (r_turn (snd ob)) rgb) n) ->
  (beyond s <> [] -> exists k, numbered tm' red k) -> painted tm' (test_block tm' s) (test_colour s).
Proof.
  intros EO RN RD. destruct (rooms_painted obs tm' RN) as [PA PB]. split.
  - intros xyz tex [HB|(d & k & Hd & Hp & N & ->)].
    + apply (rooms_in (fun r => has_block tm' r xyz tex) obs _ EO) in HB. destruct (PA xyz tex HB) as (c & n & N & E & (rgb & HC) & SH).
      exists c, n. split; [exact N|]. split; [exact E|].
      assert (forall rgb, (exists ob, In ob obs /\ coloured_block (snd ob) xyz rgb) -> test_colour s xyz rgb) as Q
        by (intros rgb' Hc; left; apply (rooms_in (fun r => coloured_block r xyz rgb') obs _ EO); exact Hc).
      split; [exists rgb; exact (Q rgb HC)|]. intros rgb' Hs. exact (Q rgb' (SH rgb' Hs)).
    + exists red, k. split; [exact N|]. split; [reflexivity|]. split; [exists (255, 0, 0); right; eauto|].
      intros rgb Hs. apply red_shades in Hs. right. eauto.
  - intros xyz rgb [HC|(d & Hd & Hp & ->)].
    + apply (rooms_in (fun r => coloured_block r xyz rgb) obs _ EO) in HC. destruct (PB xyz rgb HC) as (c & n & N & HB & SH). exists c, n.
      split; [exact N|]. split; [left; apply (rooms_in (fun r => has_block tm' r xyz (repeat n 6)) obs _ EO); exact HB|exact SH].
    + destruct RD as (k & N); [intros Q; rewrite Q in Hd; destruct Hd|]. exists red, k. split; [exact N|]. split; [right; exists d, k; auto|].
      intros rgb Hs. apply red_shades. exact Hs.
Qed.
Lemma test_inside tm' s xyz tex : In s shipped_rooms -> test_block tm' s xyz tex -> in_world 256 xyz.
Proof.
  intros Hi HB. destruct (four_spread s Hi) as (_ & _ & _ & _ & IN & _). destruct xyz as [[x y] z]. unfold in_world. destruct HB as [(r & Hr & HB)|(d & k & Hd & Hp & _)].
  - apply DebugProofs.block_cell in HB. destruct (IN (x / 8) (y / 8) (z / 8)) as (H1 & H2 & H3); [apply in_or_app; left; apply in_flat_map; eauto|].
    pose proof (Z.mul_div_le x 8 ltac:(lia)). pose proof (Z.mul_succ_div_gt x 8 ltac:(lia)). pose proof (Z.mul_div_le y 8 ltac:(lia)).
    pose proof (Z.mul_succ_div_gt y 8 ltac:(lia)). pose proof (Z.mul_div_le z 8 ltac:(lia)). pose proof (Z.mul_succ_div_gt z 8 ltac:(lia)). lia.
  - destruct d as [[a b] h]. cbn [on_plate] in Hp. destruct (IN a b h) as (H1 & H2 & H3); [apply in_or_app; right; exact Hd|]. lia.
Qed.
Lemma test_numbered tm' s xyz tex : test_block tm' s xyz tex -> exists c n, numbered tm' c n /\ tex = repeat n 6.
Proof. intros [(r & _ & s' & v & q & a & r0 & g0 & b & al & num & _ & _ & _ & _ & _ & _ & N & ->)|(d & k & _ & _ & N & ->)]; eauto. Qed.
Lemma tested_count cs : (List.length cs <= 45)%nat -> Z.of_nat (List.length (red :: flat_map file_colours cs)) <= 46621.
Proof. intros H. pose proof (count_in cs) as C. cbn [List.length]. lia. Qed.
Lemma one_test cs (HL : incl cs shipped_rooms) fuel (magica redeclipse : bool) hue vecs tm0 m ws : (List.length cs <= 45)%nat -> true_vectors vecs -> byte_hues hue -> manager tm0 ->
  (magica = true -> exportable tm0) ->
  (redeclipse = true -> (8 < fuel)%nat /\ wf_map m /\ header_size m = Some ws /\ 256 <= ws <= 8192 /\ Z.of_nat (List.length (tm_atlas tm0)) <= 18000 /\ len (m_ents m) <= 2 ^ 30) ->
  forall s tm g, In s cs -> manager tm -> stems tm0 tm (red :: flat_map file_colours cs) ->
  exists tm' w m' st g' f, room_test hue vecs s tm m g = (tm', Ok (w, m', st), g') /\ manager tm' /\ keeps_numbers tm tm' /\ stems tm0 tm' (red :: flat_map file_colours cs) /\
    test_files fuel magica redeclipse tm' w m' = Ok f /\ test_output magica redeclipse hue m tm' s f.
Proof.
  intros LC TV BH M0 X W s tm g Hs M ST0. pose proof (HL s Hs) as Hi.
  destruct (test_drawn cs HL s hue vecs tm m g Hs TV M) as
    (tm' & w & m' & st & g' & ess & boxes & ops & obs & R & M' & K & ST1 & ME & FA & EO & FF & FG & _ & SZ & Ew & NR & RN & RD & NE & B).
  pose proof (stems_trans _ _ _ _ ST0 ST1) as ST.
  assert (exists a, (if magica then let! b := vox_write w (tm_atlas tm') in Ok (Some b) else Ok None) = Ok a /\
    (if magica then exists bs, a = Some bs /\ vox_of_test s bs else a = None)) as (a & EA & PA).
  { destruct magica; [|exists None; auto]. pose proof (test_painted s obs tm' EO RN RD) as PT.
    assert (good_world tm' w 256 (test_block tm' s)) as GW
      by (apply (drawn_good tm0 tm' w 256 ops (red :: flat_map file_colours cs) _ M0 (X eq_refl) ST (files_fit cs HL) Ew NR ltac:(lia) B); intros xyz tex; apply test_numbered).
    assert (exists bs, vox_write w (tm_atlas tm') = Ok bs) as (bs & EB) by (destruct GW as (? & ? & ? & ? & bs & _ & _ & _ & _ & _ & WR & _); eauto).
    exists (Some bs). rewrite EB. split; [reflexivity|]. exists bs. split; [reflexivity|]. apply (world_shows _ _ _ _ _ _ GW PT EB).
    intros xyz rgb HC. destruct (proj2 PT xyz rgb HC) as (c & n & _ & HB & _). exact (test_inside tm' s xyz _ Hi HB). }
  assert (exists b, (if redeclipse then let! m1 := add_entity m' sunlight in let! bs := output_map fuel w m1 in Ok (Some bs) else Ok None) = Ok b /\
    (if redeclipse then exists bs, b = Some bs /\ map_of_test hue m s tm' bs else b = None)) as (b & EB & PB).
  { destruct redeclipse; [|exists None; auto]. destruct (W eq_refl) as (Hf & WM & HS & Hws & HA & HE). destruct sun_made as (sun & ES & IS & WS). 
    set (m1 := apply_edit m' (AddEnt sun)). assert (more_ents m ((List.concat ess ++ boxes) ++ [sun]) m1) as ME1.
    { apply (more_app m _ m' [sun] m1 ME). unfold more_ents, m1. cbn. auto 12. }
    destruct (four_spread s Hi) as (_ & _ & NB & _ & IN & _).
    assert (forall d, In d (beyond s) -> legal_cell d) as LB by (intros [[x y] z] Hd; destruct (IN x y z); [apply in_or_app; right; exact Hd|]; unfold legal_cell; lia).
    destruct (rooms_wf_any hue obs ess BH) as [WE LE]; [|exact FA|].
    { rewrite Forall_forall. intros ob Hob. apply (in_map snd) in Hob. rewrite EO, (four_images s Hi) in Hob. destruct Hob as [<-|[<-|[<-|[<-|[]]]]]; cbn [r_pos]; unfold within; lia. }
    pose proof (f_equal (@List.length room) EO) as LO. rewrite map_length in LO. cbn [four_rooms List.length] in LO.
    pose proof (cells_few (beyond s) NB LB) as CF. rewrite (F2_length _ _ _ FG) in CF.
    destruct (written 7 fuel w m m1 ((List.concat ess ++ boxes) ++ [sun]) ws) as (bs & m2 & EOut & RR & SS & WL & SE); try assumption; try lia.
    - unfold len, obj in *. rewrite !app_length. cbn [List.length]. lia.
    - apply Forall_app. split; [apply Forall_app; split; [exact WE|]|constructor; [rewrite (norm_wf sun WS); auto|constructor]].
      rewrite Forall_forall. intros e0 He. destruct (Forall2_in_r _ _ _ FG e0 He) as (d & Hd & Hg). exact (grenade_wf hue d e0 (LB d Hd) Hg).
    - intros x y z tex Hg. apply B, test_numbered in Hg as (c & n & N & ->). split; [apply repeat_length|].
      pose proof (numbered_small tm0 tm' _ _ _ M0 ST N) as NS. pose proof (tested_count cs LC) as TC.
      rewrite Forall_forall. intros u Hu. apply repeat_spec in Hu. subst u. unfold is_u16. lia.
    - destruct NE as (x & y & z & tex & Hb & HB). exists x, y, z. split; [exact Hb|]. rewrite (proj2 (B x y z tex) HB). discriminate.
    - exists (Some bs). rewrite ES. cbn [add_entity bind]. fold m1. rewrite EOut. split; [reflexivity|]. exists bs. split; [reflexivity|].
      exists m2, (List.concat ess ++ boxes), sun, (m_ents m1). split; [exact RR|]. split; [exact SS|]. split.
      { intros x y z tex Hw. unfold in_world in Hw. rewrite WL by (change (2 ^ Z.of_nat 8) with 256; lia). apply B. }
      split; [rewrite (proj1 ME1), <- app_assoc; reflexivity|]. split; [exists ess, boxes; auto|]. split; [exact IS|exact SE]. }
  exists tm', w, m', st, g', (a, b). split; [exact R|]. split; [exact M'|]. split; [exact K|]. split; [exact ST|]. split.
  { unfold test_files. rewrite EA. cbn [bind]. rewrite EB. reflexivity. }
  split; [exact PA|exact PB].
Qed.

(** ** Statements *)
Lemma test_shown : forall s hue vecs tm m g, In s shipped_rooms -> true_vectors vecs -> manager tm ->
  exists tm' w m' st g' es, room_test hue vecs s tm m g = (tm', Ok (w, m', st), g') /\ manager tm' /\ keeps_numbers tm tm' /\
    (forall x y z tex, get_point w (I x) (I y) (I z) = Some tex <-> test_block tm' s (x, y, z) tex) /\
    m_ents m' = m_ents m ++ es /\ test_entities hue s es /\
    map (fun ob => (r_cls (snd ob), r_pos (snd ob))) (u_rooms st) = map (fun r => (s_class s, r_pos r)) (four_rooms s) ++ map (fun d => (TestRoom, d)) (beyond s).
Proof.
  intros s hue vecs tm m g Hi TV M.
  destruct (test_drawn [s] (fun x (H : In x [s]) => match H with or_introl e => eq_ind s (fun y => In y shipped_rooms) Hi x e | or_intror f => match f with end end) s hue vecs tm m g (or_introl eq_refl) TV M) as
    (tm' & w & m' & st & g' & ess & boxes & ops & obs & R & M' & K & _ & ME & _ & _ & FF & FG & ER & _ & _ & _ & _ & _ & _ & B).
  exists tm', w, m', st, g', (List.concat ess ++ boxes). split; [exact R|]. split; [exact M'|]. split; [exact K|]. split; [exact B|].
  split; [exact (proj1 ME)|]. split; [exists ess, boxes; auto|].
  assert (forall (l : list obj), map (fun ob => (r_cls (snd ob), r_pos (snd ob))) l = map (fun r => (r_cls r, r_pos r)) (map snd l)) as Q
    by (intros l; rewrite map_map; reflexivity).
  rewrite Q, ER, map_app, map_map. reflexivity.
Qed.
Lemma test_apart : forall s, In s shipped_rooms ->
  (forall i j a b c, nth_error (four_rooms s) i = Some a -> nth_error (four_rooms s) j = Some b -> i <> j -> In c (positions a) -> ~ In c (positions b)) /\
  NoDup (beyond s) /\ (forall d r, In d (beyond s) -> In r (four_rooms s) -> ~ In d (positions r)) /\
  forall tm xyz tex, test_block tm s xyz tex -> in_world 256 xyz.
Proof.
  intros s Hi. destruct (four_spread s Hi) as (_ & ND & NB & DB & _). split; [exact (apart positions _ ND)|]. split; [exact NB|]. split.
  - intros d r Hd Hr Hp. apply (DB d Hd). apply in_flat_map. eauto.
  - intros tm xyz tex. exact (test_inside tm s xyz tex Hi).
Qed.
Lemma tests_written : forall fuel magica redeclipse hue vecs m ws l tm g, incl l shipped_rooms -> true_vectors vecs -> byte_hues hue -> manager tm ->
  (magica = true -> exportable tm) ->
  (redeclipse = true -> (8 < fuel)%nat /\ wf_map m /\ header_size m = Some ws /\ 256 <= ws <= 8192 /\ Z.of_nat (List.length (tm_atlas tm)) <= 18000 /\ len (m_ents m) <= 2 ^ 30) ->
  exists tm' fs g', room_tests fuel magica redeclipse hue vecs m l tm g = (tm', Ok fs, g') /\ manager tm' /\
    Forall2 (fun s f => exists tm1, manager tm1 /\ keeps_numbers tm1 tm' /\ test_output magica redeclipse hue m tm1 s f) l fs.
Proof.
  intros fuel magica redeclipse hue vecs m ws l tm0 g L TV BH M0 X W.
  assert (exists cs, incl cs shipped_rooms /\ (List.length cs <= 45)%nat /\ incl l cs) as (cs & HL & LC & IL) by (exists shipped_rooms; split; [apply incl_refl|]; split; [apply Nat.leb_le; reflexivity|exact L]).
  clear L.
  assert (forall l tm g, incl l cs -> manager tm -> stems tm0 tm (red :: flat_map file_colours cs) ->
    exists tm' fs g', room_tests fuel magica redeclipse hue vecs m l tm g = (tm', Ok fs, g') /\ manager tm' /\ keeps_numbers tm tm' /\
      Forall2 (fun s f => exists tm1, manager tm1 /\ keeps_numbers tm1 tm' /\ test_output magica redeclipse hue m tm1 s f) l fs) as G.
  { clear l g IL. induction l as [|s l IH]; intros tm g IL M ST.
    - exists tm, [], g. split; [reflexivity|]. split; [exact M|]. split; [apply keeps_refl|constructor].
    - destruct (one_test cs HL fuel magica redeclipse hue vecs tm0 m ws LC TV BH M0 X W s tm g (IL s (or_introl eq_refl)) M ST)
        as (tm1 & w & m1 & st & g1 & f & R & M1 & K1 & ST1 & EF & OF).
      destruct (IH tm1 g1 (fun x Hx => IL x (or_intror Hx)) M1 ST1) as (tm' & fs & g' & RS & M' & K' & FS).
      exists tm', (f :: fs), g'. split; [cbn [room_tests]; rewrite R, EF, RS; reflexivity|]. split; [exact M'|]. split; [exact (keeps_trans _ _ _ K1 K')|].
      constructor; [|exact FS]. exists tm1. auto. }
  destruct (G l tm0 g IL M0 (stems_refl _ _)) as (tm' & fs & g' & RS & M' & _ & FS). exists tm', fs, g'. auto.
Qed.
