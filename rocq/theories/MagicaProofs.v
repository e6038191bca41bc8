(** Rooms: rigid motion of cells and doors; rooms made from voxel files. *)
From Coq Require Import QArith Permutation.
From Verif Require Import Py VecModel VecSpec VecProofs VoxelModel VoxelSpec VoxelProofs UpmModel UpmSpec UpmProofs
  UpmBridge KitModel KitSpec KitProofs KitShape KitPaint KitTile RoomProofs MagicaModel RoomSpec.
Local Open Scope Z_scope.

Lemma Forall2_in_l {A B} (R : A -> B -> Prop) l l' : Forall2 R l l' -> forall a, In a l -> exists b, In b l' /\ R a b.
Proof.
  induction 1 as [|x y l l' Hxy F IH]; intros a Ha; [destruct Ha|].
  destruct Ha as [<-|Ha]; [exists y; split; [left; reflexivity|exact Hxy]|].
  destruct (IH a Ha) as (b & Hb & Hr). exists b. split; [right; exact Hb|exact Hr].
Qed.
Lemma Forall2_in_r {A B} (R : A -> B -> Prop) l l' : Forall2 R l l' -> forall b, In b l' -> exists a, In a l /\ R a b.
Proof.
  induction 1 as [|x y l l' Hxy F IH]; intros a Ha; [destruct Ha|].
  destruct Ha as [<-|Ha]; [exists x; split; [left; reflexivity|exact Hxy]|].
  destruct (IH a Ha) as (b & Hb & Hr). exists b. split; [right; exact Hb|exact Hr].
Qed.

(** ** Rigid motion *)
Lemma rotate_cell v orient c d : points_to orient c -> cell_at v d ->
  exists u, vrotate v (DVec orient) = Ok u /\ cell_at u (cell_turn c d).
Proof.
  intros HO [K E]. rewrite (vrotate_dir v orient c HO). eexists. split; [reflexivity|].
  destruct v as [k x y z], d as [[a b] h]. cbn [vc] in K. subst k. unfold coords2 in E. cbn [vx vy vz] in E.
  apply t3_inv in E as (E1 & E2 & E3).
  destruct c; split; try reflexivity; unfold coords2; cbn [rotq cell_turn vx vy vz]; rewrite ?halves_H; apply t3_eq; cbn [halves]; lia.
Qed.
Lemma add_cell v w a b : cell_at v a -> cell_at w b -> exists u, vadd v w = Ok u /\ cell_at u (cadd a b).
Proof. apply bridge_add. Qed.
Lemma placed_cadd p c d : placed p c d = cadd p (cell_turn c d).
Proof. destruct p as [[a b] h], d as [[x y] z]. destruct c; reflexivity. Qed.

Lemma positions_placed pos orient p c cells ds : cell_at pos p -> points_to orient c -> Forall2 cell_at cells ds ->
  exists ps, get_positions_v pos orient cells = Ok ps /\ Forall2 cell_at ps (map (placed p c) ds).
Proof.
  intros HP HO F. unfold get_positions_v. induction F as [|v d l l' Hv F IH]; cbn [mapM map]; [eauto|].
  destruct (rotate_cell v orient c d HO Hv) as (u & -> & Hu). cbn [bind].
  destruct (add_cell _ _ _ _ HP Hu) as (x & -> & Hx). cbn [bind].
  destruct IH as (ps & -> & IH). cbn [bind]. eexists. split; [reflexivity|].
  constructor; [rewrite placed_cadd; exact Hx|exact IH].
Qed.
Lemma doorways_placed pos orient p c doors ds : cell_at pos p -> points_to orient c -> Forall2 door_at doors ds ->
  exists qs, get_doorways_v pos orient doors = Ok qs /\
    Forall2 door_at qs (map (fun d => (placed p c (fst d), cell_turn c (snd d))) ds).
Proof.
  intros HP HO F. unfold get_doorways_v. induction F as [|[v1 v2] [d1 d2] l l' [H1 H2] F IH]; cbn [mapM map fst snd] in *; [eauto|].
  destruct (rotate_cell v2 orient c d2 HO H2) as (u2 & -> & Hu2). cbn [bind].
  destruct (rotate_cell v1 orient c d1 HO H1) as (u1 & -> & Hu1). cbn [bind].
  destruct (add_cell _ _ _ _ HP Hu1) as (x & -> & Hx). cbn [bind].
  destruct IH as (ps & -> & IH). cbn [bind]. eexists. split; [reflexivity|].
  constructor; [|exact IH]. split; cbn [fst snd]; [rewrite placed_cadd; exact Hx|exact Hu2].
Qed.
Lemma placed_inj p c d d' : placed p c d = placed p c d' -> d = d'.
Proof.
  destruct p as [[a b] h], d as [[x y] z], d' as [[x' y'] z'].
  destruct c; cbn [placed cell_turn]; intros E; apply t3_inv in E as (E1 & E2 & E3); apply t3_eq; lia.
Qed.
Lemma placed_NoDup p c ds : NoDup ds -> NoDup (map (placed p c) ds).
Proof. apply FinFun.Injective_map_NoDup. intros a b. apply placed_inj. Qed.
Lemma placed_dist p c a b : dist2 (placed p c a) (placed p c b) = dist2 a b.
Proof.
  destruct p as [[x y] z], a as [[a1 a2] a3], b as [[b1 b2] b3]. destruct c; cbn [placed cell_turn dist2]; ring.
Qed.
Lemma placed_next p c a o : placed p c (next_to a o) = next_to (placed p c a) (cell_turn c o).
Proof.
  destruct p as [[x y] z], a as [[a1 a2] a3], o as [[b1 b2] b3].
  destruct c; cbn [placed cell_turn next_to cadd]; unfold next_to; cbn [cadd cell_turn]; apply t3_eq; lia.
Qed.

(** ** The voxels of a model *)
Definition vop (v : Z * Z * Z * Z) : wop Z := let '(x, y, z, c) := v in SetPoint (I x) (I y) (I z) c.
Lemma load_world_run m : load_world m = wrun (map vop (vm_voxels m)) (new_world (2 ^ 7)).
Proof.
  unfold load_world, wrun. generalize (@new_world Z (2 ^ 7)). induction (vm_voxels m) as [|[[[x y] z] c] l IH]; intros w; [reflexivity|].
  cbn [map fold_left vop]. apply IH.
Qed.
Lemma latest_vops_snoc l a p : latest (map vop l ++ [vop a]) p =
  match latest (map vop l) p with Some c => Some c | None => latest [vop a] p end.
Proof.
  induction l as [|[[[x y] z] c] l IH]; [reflexivity|]. cbn [map app]. cbn [latest].
  destruct (pos_eqb (op_pos (vop (x, y, z, c))) p); [reflexivity|exact IH].
Qed.
Lemma latest_colour l q : latest (rev (map vop l)) (doubled q) = voxel_colour l q.
Proof.
  rewrite <- map_rev. induction l as [|[[[x y] z] c] l IH]; [reflexivity|]. cbn [rev voxel_colour].
  rewrite map_app. cbn [map]. rewrite latest_vops_snoc, IH. destruct (voxel_colour l q); [reflexivity|].
  destruct q as [[a b] h]. cbn [vop latest op_pos doubled cell_eqb op_val halves pos_eqb].
  replace (2 * x =? 2 * a) with (x =? a) by lia. replace (2 * y =? 2 * b) with (y =? b) by lia.
  replace (2 * z =? 2 * h) with (z =? h) by lia. reflexivity.
Qed.
Lemma voxel_colour_in l q c : voxel_colour l q = Some c -> let '(x, y, z) := q in In (x, y, z, c) l.
Proof.
  induction l as [|[[[x y] z] c'] l IH]; [discriminate|]. cbn [voxel_colour].
  destruct (voxel_colour l q) as [c1|].
  - intros E. injection E as ->. specialize (IH eq_refl). destruct q as [[a b] h]. right. exact IH.
  - destruct (cell_eqb (x, y, z) q) eqn:E; [|discriminate]. apply cell_eqb_eq in E. subst q.
    intros E. injection E as ->. left. reflexivity.
Qed.
Lemma entry_voxel m k a : In (k, a) (w_map (load_world m)) ->
  exists q, kpos k = doubled q /\ voxel_colour (vm_voxels m) q = Some a.
Proof.
  rewrite load_world_run. intros Hi.
  destruct (world_entries_lemma (2 ^ 7) (map vop (vm_voxels m))) as [_ W].
  assert (latest (rev (map vop (vm_voxels m))) (kpos k) = Some a) as L by (apply W; exists k; auto).
  assert (exists q, kpos k = doubled q) as [q Eq].
  { revert L. rewrite <- map_rev. generalize (rev (vm_voxels m)). induction l as [|[[[x y] z] c] l IH]; [discriminate|].
    cbn [map latest]. destruct (pos_eqb (op_pos (vop (x, y, z, c))) (kpos k)) eqn:E; [|exact IH].
    apply pos_eqb_eq in E. intros _. exists (x, y, z). rewrite <- E. reflexivity. }
  exists q. split; [exact Eq|]. rewrite <- latest_colour, <- Eq. exact L.
Qed.
Lemma voxel_entry m q a : voxel_colour (vm_voxels m) q = Some a ->
  exists k, In (k, a) (w_map (load_world m)) /\ kpos k = doubled q.
Proof.
  rewrite <- latest_colour, load_world_run. intros L.
  apply (world_entries_lemma (2 ^ 7) (map vop (vm_voxels m))). exact L.
Qed.

(** ** The cells of a voxel room *)
Lemma key_voxel k q : kpos k = doubled q -> vc (key_vec k) = Fine /\ voxel_at (key_vec k) q.
Proof.
  destruct k as [[x y] z], q as [[a b] h]. cbn [kpos doubled key_vec]. intros E.
  split; [reflexivity|]. split; [discriminate|exact E].
Qed.
Lemma fine_add v w q x y z : vc w = Fine -> voxel_at v q -> voxel_at w (x, y, z) ->
  exists u, vadd v w = Ok u /\ vc u = Fine /\ voxel_at u (shift q x y z).
Proof.
  intros W [N F] [_ G]. destruct v as [k a b c], w as [k' a' b' c'], q as [[q1 q2] q3]. cbn [vc] in *. subst k'.
  unfold fpos2, coords2 in F, G. cbn [vc vx vy vz] in *. apply t3_inv in G as (G1 & G2 & G3).
  destruct k; [congruence| |]; apply t3_inv in F as (F1 & F2 & F3);
    (eexists; split; [reflexivity|]); (split; [reflexivity|]); (split; [discriminate|]);
    unfold fpos2, coords2; cbn [vc vx vy vz raw_add shift vmul]; rewrite !halves_nadd, ?halves_nmulz; apply t3_eq; lia.
Qed.
Lemma fine_voxel x y z : voxel_at (V Fine (I x) (I y) (I z)) (x, y, z).
Proof. split; [discriminate|reflexivity]. Qed.
Lemma coarse_cell v q : vc v = Fine -> voxel_at v q ->
  exists u d, vcoarse v = Ok u /\ cell_at u d /\ voxel_in_cell q d.
Proof.
  intros F [_ E]. destruct v as [k x y z], q as [[a b] h]. cbn [vc] in F. subst k. unfold fpos2, coords2 in E. cbn [vc vx vy vz] in E.
  apply t3_inv in E as (E1 & E2 & E3). exists (V Coarse (nfloordiv x 8) (nfloordiv y 8) (nfloordiv z 8)), (a / 8, b / 8, h / 8).
  split; [reflexivity|]. split; [split; [reflexivity|]|].
  - unfold coords2. cbn [vx vy vz]. rewrite !halves_nfloordiv, E1, E2, E3. apply t3_eq; Z.div_mod_to_equations; lia.
  - cbn [voxel_in_cell]. Z.div_mod_to_equations; lia.
Qed.
Lemma voxel_cell_unique q d d' : voxel_in_cell q d -> voxel_in_cell q d' -> d = d'.
Proof. destruct q as [[x y] z], d as [[a b] h], d' as [[a' b'] h']. cbn [voxel_in_cell]. intros. apply t3_eq; lia. Qed.

Lemma positions_fold west south (es : list (key * Z)) :
  (forall k a, In (k, a) es -> exists q, kpos k = doubled q) ->
  forall acc ds, Forall2 cell_at acc ds -> NoDup ds ->
  exists ps ds', foldM (fun acc e =>
           let! s := vadd (key_vec (fst e)) (V Fine (I west) (I south) (I 0)) in
           let! t := vcoarse s in
           Ok (if existsb (fun p => veq t p) acc then acc else acc ++ [t])) es acc = Ok ps /\
    Forall2 cell_at ps ds' /\ NoDup ds' /\
    (forall d, In d ds' <-> In d ds \/ exists k a q, In (k, a) es /\ kpos k = doubled q /\ voxel_in_cell (shift q west south 0) d).
Proof.
  induction es as [|[k a] es IH]; intros He acc ds F N; cbn [foldM].
  - exists acc, ds. repeat split; auto. intros [Hd|(k & a & q & [] & _)]. exact Hd.
  - destruct (He k a (or_introl eq_refl)) as [q Eq]. cbn [fst].
    destruct (key_voxel k q Eq) as [Fk Vk].
    destruct (fine_add (key_vec k) (V Fine (I west) (I south) (I 0)) q west south 0 eq_refl Vk (fine_voxel west south 0)) as (s & -> & Fs & Vs). cbn [bind].
    destruct (coarse_cell s _ Fs Vs) as (t & d & -> & Hd & Hin). cbn [bind].
    assert (existsb (fun p => veq t p) acc = true <-> In d ds) as HE.
    { clear -F Hd. induction F as [|v x l l' Hv F IH]; cbn [existsb In]; [intuition discriminate|].
      rewrite orb_true_iff, IH, (bridge_eq t v d x Hd Hv), cell_eqb_eq. intuition auto. }
    specialize (IH (fun k' a' H' => He k' a' (or_intror H'))).
    destruct (existsb (fun p => veq t p) acc) eqn:EX.
    + destruct (IH acc ds F N) as (ps & ds' & E & F' & N' & C). exists ps, ds'.
      split; [exact E|]. split; [exact F'|]. split; [exact N'|]. intros x. rewrite C. split.
      * intros [Hx|(k' & a' & q' & Hi & A)]; [left; exact Hx|right]. exists k', a', q'. split; [right; exact Hi|exact A].
      * intros [Hx|(k' & a' & q' & [Hi|Hi] & A & B)]; [left; exact Hx| |right; exists k', a', q'; auto].
        left. injection Hi as -> ->. assert (q' = q) as -> by (apply doubled_inj; congruence).
        rewrite (voxel_cell_unique _ _ _ B Hin). apply HE. reflexivity.
    + assert (~ In d ds) as Nd by (intros X; apply HE in X; discriminate).
      destruct (IH (acc ++ [t]) (ds ++ [d])) as (ps & ds' & E & F' & N' & C).
      { apply Forall2_app; [exact F|]. constructor; [exact Hd|constructor]. }
      { apply NoDup_app_intro; [exact N|constructor; [intros []|constructor]|]. intros x Hx [<-|[]]. exact (Nd Hx). }
      exists ps, ds'. split; [exact E|]. split; [exact F'|]. split; [exact N'|]. intros x. rewrite C, in_app_iff. split.
      * intros [[Hx|[<-|[]]]|(k' & a' & q' & Hi & A)]; [left; exact Hx| |].
        -- right. exists k, a, q. split; [left; reflexivity|]. auto.
        -- right. exists k', a', q'. split; [right; exact Hi|exact A].
      * intros [Hx|(k' & a' & q' & [Hi|Hi] & A & B)]; [left; left; exact Hx| |right; exists k', a', q'; auto].
        left. right. injection Hi as -> ->. assert (q' = q) as -> by (apply doubled_inj; congruence).
        left. symmetry. exact (voxel_cell_unique _ _ _ B Hin).
Qed.

Lemma magica_cells m west south pos orient p c : cell_at pos p -> points_to orient c ->
  exists ps ds, magica_get_positions m west south pos orient = Ok ps /\ Forall2 cell_at ps ds /\ NoDup ds /\
    forall d, In d ds <-> exists q a, voxel_colour (vm_voxels m) q = Some a /\ voxel_in_cell (frame p c (shift q west south 0)) d.
Proof.
  intros HP HO. unfold magica_get_positions, magica_positions.
  destruct (positions_fold west south (w_map (load_world m))) with (acc := @nil vec) (ds := @nil cell) as (l & ds & -> & F & N & C);
    [|constructor|constructor|].
  { intros k a Hi. destruct (entry_voxel m k a Hi) as (q & E & _). eauto. }
  cbn [bind]. destruct (positions_placed pos orient p c l ds HP HO F) as (ps & -> & F').
  exists ps, (map (placed p c) ds). split; [reflexivity|]. split; [exact F'|]. split; [apply placed_NoDup; exact N|].
  intros d. rewrite in_map_iff. split.
  - intros (d0 & <- & Hd). apply C in Hd as [[]|(k & a & q & Hi & Eq & Hv)].
    destruct (entry_voxel m k a Hi) as (q' & E' & Col). assert (q' = q) as -> by (apply doubled_inj; congruence).
    exists q, a. split; [exact Col|]. apply frame_in_cell. exact Hv.
  - intros (q & a & Col & Hv). destruct (voxel_entry m q a Col) as (k & Hi & Eq).
    destruct (shift q west south 0) as [[x y] z] eqn:ES.
    exists (x / 8, y / 8, z / 8). assert (voxel_in_cell (x, y, z) (x / 8, y / 8, z / 8)) as Hin
      by (cbn [voxel_in_cell]; Z.div_mod_to_equations; lia).
    split; [apply (voxel_cell_unique (frame p c (x, y, z))); [apply frame_in_cell; exact Hin|exact Hv]|].
    apply C. right. exists k, a, q. split; [exact Hi|]. split; [exact Eq|]. rewrite ES. exact Hin.
Qed.

(** ** The drawing of a voxel room *)
Definition unshifted (c : compass) (west south : Z) : Prop := c = CE \/ (west = 0 /\ south = 0).
Lemma off_ok west south orient c : points_to orient c -> unshifted c west south ->
  exists o, magica_off west south orient = Ok o /\ vc o = Fine /\ voxel_at o (west, south, 0).
Proof.
  intros HO U. unfold magica_off. rewrite (vrotate_dir _ orient c HO). eexists. split; [reflexivity|].
  destruct U as [->|[-> ->]]; [split; [reflexivity|split; [discriminate|]]|].
  - unfold fpos2, coords2. cbn [rotq vc vx vy vz]. apply t3_eq; rewrite ?halves_H; cbn [halves]; lia.
  - destruct c; (split; [reflexivity|split; [discriminate|]]); reflexivity.
Qed.
Lemma cube_call pos orient o t w g l : local_position pos orient o = Ok l ->
  x_call pos orient (C (KCube o) t false (11 # 10)) w g = (Ok (wrun [SetPointV l (repeat t 6)] w), g).
Proof. intros E. unfold x_call. cbn [k_con points k_tex k_sub k_prob]. rewrite E. reflexivity. Qed.

(** The call has a float height. *)
Definition float_z (o : wop (list Z)) : Prop := exists l a h, o = SetPointV l a /\ vz l = H h.
Lemma local_position_float pos orient off l : local_position pos orient off = Ok l -> exists h, vz l = H h.
Proof.
  unfold local_position, voffset_rotate, vrotate. destruct (vadd off TILE_VOX_OFF) as [s|] eqn:E1; [|discriminate]. cbn [bind].
  assert (exists h, vz s = H h) as [h Hs].
  { unfold vadd, TILE_VOX_OFF in E1. destruct off as [k x y z]. destruct k; cbn in E1; try discriminate; injection E1 as <-;
      destruct z; cbn; eauto. }
  destruct (quarter (DVec orient)) as [k|]; [|discriminate]. cbn [bind].
  destruct (vsub (rotq k s) TILE_VOX_OFF) as [t|] eqn:E2; [|discriminate]. cbn [bind].
  assert (exists h, vz t = H h) as [h' Ht].
  { assert (vz (rotq k s) = H h) as Hr by (rewrite <- Hs; unfold rotq; repeat match goal with |- context [match ?x with _ => _ end] => destruct x end; reflexivity).
    destruct (rotq k s) as [kr xr yr zr]. cbn [vz] in Hr. subst zr. unfold vsub, TILE_VOX_OFF in E2.
    destruct kr; cbn in E2; try discriminate; injection E2 as <-; cbn; eauto. }
  destruct t as [kt xt yt zt]. cbn [vz] in Ht. subst zt. unfold vadd. destruct pos as [kp x y z].
  destruct kp, kt; cbn; try discriminate; intros E; injection E as <-; destruct z; cbn; eauto.
Qed.
(** What one stored voxel becomes. *)
Definition vox_op (m : voxmodel) (west south : Z) (p : cell) (c : compass) (tx : Z * Z * Z -> Z) (o : wop (list Z)) (e : key * Z) : Prop :=
  exists q rgb, kpos (fst e) = doubled q /\ voxel_colour (vm_voxels m) q = Some (snd e) /\
    nth_error (vm_palette m) (Z.to_nat (snd e)) = Some rgb /\
    op_pos o = doubled (frame p c (shift q west south 0)) /\ op_val o = Some (repeat (tx rgb) 6) /\ float_z o.
Lemma vox_calls m west south pos orient p c off tx : cell_at pos p -> points_to orient c ->
  vc off = Fine -> voxel_at off (west, south, 0) -> valid_model m ->
  forall es : list (key * Z), (forall k a, In (k, a) es -> exists q, kpos k = doubled q /\ voxel_colour (vm_voxels m) q = Some a) ->
  exists cs ops, mapM (voxel_cmd m off tx) es = Ok cs /\
    (forall w g, x_calls pos orient cs w g = (Ok (wrun ops w), g)) /\
    Forall2 (vox_op m west south p c tx) ops es.
Proof.
  intros HP HO FO VO VM es. induction es as [|[k a] es IH]; intros He; cbn [mapM].
  - exists [], []. split; [reflexivity|]. split; [reflexivity|constructor].
  - destruct (He k a (or_introl eq_refl)) as (q & Eq & Col). unfold voxel_cmd at 1. cbn [fst snd].
    assert (0 <= a < Z.of_nat (List.length (vm_palette m))) as R.
    { pose proof (voxel_colour_in _ _ _ Col) as Hi. destruct q as [[x y] z]. exact (VM x y z a Hi). }
    rewrite (proj2 (Z.ltb_ge a 0)) by lia.
    destruct (nth_error (vm_palette m) (Z.to_nat a)) as [rgb|] eqn:EN; [|exfalso; apply nth_error_None in EN; lia].
    destruct (key_voxel k q Eq) as [Fk Vk].
    destruct (fine_add SELF (key_vec k) (0, 0, 0) (fst (fst q)) (snd (fst q)) (snd q) Fk) as (s & -> & Fs & Vs).
    { split; [discriminate|reflexivity]. } { destruct q as [[x y] z]. exact Vk. }
    cbn [bind]. assert (voxel_at s q) as Vs' by (destruct q as [[x y] z]; exact Vs).
    destruct (fine_add s off q west south 0 FO Vs' VO) as (o & -> & Fo & Vo). cbn [bind].
    destruct (IH (fun k' a' H' => He k' a' (or_intror H'))) as (cs & ops & -> & X & F). cbn [bind].
    destruct (local_position_ok pos orient o p c _ HP HO Vo) as (l & EL & FL & VL).
    exists (C (KCube o) (tx rgb) false (11 # 10) :: cs), (SetPointV l (repeat (tx rgb) 6) :: ops).
    split; [reflexivity|]. split.
    + intros w g. cbn [x_calls]. rewrite (cube_call pos orient o _ w g l EL). rewrite X. reflexivity.
    + constructor; [|exact F]. exists q, rgb. cbn [fst snd]. repeat split; auto;
        [|destruct (local_position_float _ _ _ _ EL) as [h Eh]; unfold float_z; eauto].
      destruct VL as [_ VL]. rewrite (fpos2_fine l FL) in VL. cbn [op_pos]. unfold coords2 in VL. rewrite VL.
      destruct (frame p c (shift q west south 0)) as [[x y] z]. reflexivity.
Qed.

Lemma magica_ops m west south pos orient p c tx : cell_at pos p -> points_to orient c -> unshifted c west south -> valid_model m ->
  exists ops, (forall w g, magica_render m west south pos orient tx w g = (Ok (wrun ops w), g)) /\
    (forall o, In o ops -> exists q a rgb, voxel_colour (vm_voxels m) q = Some a /\ nth_error (vm_palette m) (Z.to_nat a) = Some rgb /\
       op_pos o = doubled (frame p c (shift q west south 0)) /\ op_val o = Some (repeat (tx rgb) 6) /\ float_z o) /\
    (forall q a, voxel_colour (vm_voxels m) q = Some a -> exists o, In o ops /\ op_pos o = doubled (frame p c (shift q west south 0))).
Proof.
  intros HP HO U VM. destruct (off_ok west south orient c HO U) as (off & EO & FO & VO).
  destruct (vox_calls m west south pos orient p c off tx HP HO FO VO VM (w_map (load_world m)) (entry_voxel m))
    as (cs & ops & E & X & F).
  exists ops. split; [|split].
  - intros w g. unfold magica_render. rewrite EO. cbn [bind]. rewrite E. apply X.
  - intros o Ho. destruct (Forall2_in_l _ _ _ F o Ho) as ([k a] & _ & q & rgb & E1 & E2 & E3 & E4 & E5). exists q, a, rgb. auto.
  - intros q a Col. destruct (voxel_entry m q a Col) as (k & Hi & Eq).
    destruct (Forall2_in_r _ _ _ F (k, a) Hi) as (o & Ho & q' & rgb & E1 & E2 & E3 & E4 & E5).
    exists o. split; [exact Ho|]. cbn [fst] in E1. assert (q' = q) as <- by (apply doubled_inj; congruence). exact E4.
Qed.

(** Reading back a history. *)
Lemma latest_hit_at {A} (l r : list (wop A)) p o :
  In o l -> op_pos o = p -> exists o', In o' l /\ op_pos o' = p /\ latest (l ++ r) p = op_val o'.
Proof.
  induction l as [|a l IH]; intros Hi Hp; [destruct Hi|]. cbn [app latest].
  destruct (pos_eqb (op_pos a) p) eqn:E.
  - apply pos_eqb_eq in E. exists a. split; [left; reflexivity|]. split; [exact E|reflexivity].
  - destruct Hi as [->|Hi]; [rewrite Hp, pos_eqb_refl in E; discriminate|].
    destruct (IH Hi Hp) as (o' & A1 & A2). exists o'. split; [right; exact A1|exact A2].
Qed.
Lemma frame_inj p c q q' : frame p c q = frame p c q' -> q = q'.
Proof. intros E. rewrite <- (unframe_frame p c q), <- (unframe_frame p c q'), E. reflexivity. Qed.
Lemma shift_inj q q' x y z : shift q x y z = shift q' x y z -> q = q'.
Proof. destruct q as [[a b] h], q' as [[a' b'] h']. cbn [shift]. intros E. apply t3_inv in E as (? & ? & ?). apply t3_eq; lia. Qed.

Lemma magica_exact m west south pos orient p c tx : cell_at pos p -> points_to orient c -> unshifted c west south -> valid_model m ->
  forall size ops g, let w := wrun ops (new_world size) in
  exists w', magica_render m west south pos orient tx w g = (Ok w', g) /\
    (forall q a, voxel_colour (vm_voxels m) q = Some a -> exists rgb, nth_error (vm_palette m) (Z.to_nat a) = Some rgb /\
       at_voxel w' (frame p c (shift q west south 0)) = Some (repeat (tx rgb) 6)) /\
    (forall x y z, (forall q a, voxel_colour (vm_voxels m) q = Some a ->
         doubled (frame p c (shift q west south 0)) <> (halves x, halves y, halves z)) ->
       get_point w' x y z = get_point w x y z).
Proof.
  intros HP HO U VM size ops g w. destruct (magica_ops m west south pos orient p c tx HP HO U VM) as (ops' & E & A & B).
  exists (wrun ops' w). split; [apply E|]. unfold w. rewrite <- wrun_app. split.
  - intros q a Col. destruct (B q a Col) as (o & Ho & Po).
    destruct (latest_hit_at (rev ops') (rev ops) (doubled (frame p c (shift q west south 0))) o) as (o' & Ho' & Po' & L);
      [apply -> in_rev; exact Ho|exact Po|].
    apply in_rev in Ho'. destruct (A o' Ho') as (q' & a' & rgb & Col' & N & P' & V' & _).
    assert (q' = q) as -> by (apply (shift_inj _ _ west south 0), (frame_inj p c), doubled_inj; congruence).
    assert (a' = a) as -> by congruence. exists rgb. split; [exact N|].
    unfold at_voxel. destruct (frame p c (shift q west south 0)) as [[x y] z].
    rewrite world_history_lemma, rev_app_distr. rewrite <- V', <- L. reflexivity.
  - intros x y z Hn. rewrite !world_history_lemma, rev_app_distr. apply latest_app.
    intros o Ho. apply in_rev in Ho. destruct (A o Ho) as (q & a & rgb & Col & _ & -> & _). exact (Hn q a Col).
Qed.

(** ** Several voxel rooms *)
Definition job_ops (j : job) (ops : list (wop (list Z))) : Prop :=
  (forall w g, render_job j w g = (Ok (wrun ops w), g)) /\
  (forall o, In o ops -> exists d v, job_cell j d /\ voxel_in_cell v d /\ op_pos o = doubled v).
Lemma job_has_ops j : job_ok j -> exists ops, job_ops j ops.
Proof.
  intros (VM & (p & HP) & c & HO & U). destruct j as [m ws ss pos orient tx]. cbn [j_model j_west j_south j_pos j_orient] in *.
  destruct (magica_ops m ws ss pos orient p c tx HP HO U VM) as (ops & E & A & _). exists ops. split; [exact E|].
  intros o Ho. destruct (A o Ho) as (q & a & rgb & Col & _ & P & _).
  destruct (magica_cells m ws ss pos orient p c HP HO) as (ps & ds & EP & F & _ & CD).
  destruct (frame p c (shift q ws ss 0)) as [[x y] z] eqn:EF. exists (x / 8, y / 8, z / 8), (x, y, z).
  assert (voxel_in_cell (x, y, z) (x / 8, y / 8, z / 8)) as Hin by (cbn [voxel_in_cell]; Z.div_mod_to_equations; lia).
  split; [|split; [exact Hin|exact P]].
  assert (In (x / 8, y / 8, z / 8) ds) as Hd by (apply CD; exists q, a; rewrite EF; auto).
  destruct (Forall2_in_r _ _ _ F _ Hd) as (v & Hv & Hc). exists ps, v. auto.
Qed.
Lemma jobs_have_ops l : Forall job_ok l -> exists opss, Forall2 job_ops l opss.
Proof.
  induction 1 as [|j l Hj _ (opss & F)]; [exists []; constructor|].
  destruct (job_has_ops j Hj) as (ops & Ho). exists (ops :: opss). constructor; assumption.
Qed.
Lemma render_jobs_run l opss : Forall2 job_ops l opss -> forall w g, render_jobs l w g = (Ok (wrun (List.concat opss) w), g).
Proof.
  induction 1 as [|j ops l opss [Hj _] _ IH]; intros w g; [reflexivity|]. cbn [render_jobs List.concat].
  rewrite Hj, IH, wrun_app. reflexivity.
Qed.

Lemma disjoint_perm l l' : Permutation l l' -> cells_disjoint l -> cells_disjoint l'.
Proof.
  unfold cells_disjoint. induction 1 as [|x l l' P IH|x y l|l l' l'' P1 IH1 P2 IH2]; intros D; auto.
  - inversion D as [|a b FA FO]; subst. constructor; [|auto].
    rewrite Forall_forall in *. intros j Hj. apply FA. apply (Permutation_in _ (Permutation_sym P)). exact Hj.
  - inversion D as [|a b FA FO]; subst. inversion FO as [|a b FB FC]; subst. inversion FA as [|a b Hyx FA']; subst.
    constructor; [constructor; [|exact FB]|constructor; assumption].
    intros d H1 H2. exact (Hyx d H2 H1).
Qed.

(** The blocks in the cells of one room are those it draws when it is the only one. *)
Lemma jobs_region l opss ops0 : Forall2 job_ops l opss -> cells_disjoint l ->
  forall j, In j l -> exists ops, job_ops j ops /\
    forall d v, job_cell j d -> voxel_in_cell v d ->
      latest (rev (ops0 ++ List.concat opss)) (doubled v) = latest (rev (ops0 ++ ops)) (doubled v).
Proof.
  intros F. revert ops0. induction F as [|j ops l opss Hj F IH]; intros ops0 D j' Hj'; [destruct Hj'|].
  inversion D as [|a b FA FO]; subst. rewrite Forall_forall in FA. cbn [List.concat].
  destruct Hj' as [<-|Hj'].
  - exists ops. split; [exact Hj|]. intros d v Hd Hv. rewrite app_assoc, rev_app_distr. apply latest_app.
    intros o Ho E. apply in_rev in Ho. apply in_concat in Ho as (ops2 & Ho2 & Ho).
    destruct (Forall2_in_r _ _ _ F ops2 Ho2) as (j2 & Hj2 & [_ H2]). destruct (H2 o Ho) as (d2 & v2 & Hd2 & Hv2 & P2).
    assert (v2 = v) as -> by (apply doubled_inj; congruence).
    rewrite (voxel_cell_unique _ _ _ Hv2 Hv) in Hd2. exact (FA j2 Hj2 d Hd Hd2).
  - destruct (IH (ops0 ++ ops) FO j' Hj') as (ops' & Ho' & HL). exists ops'. split; [exact Ho'|].
    intros d v Hd Hv. rewrite app_assoc, (HL d v Hd Hv), !rev_app_distr.
    assert (forall o, In o (rev ops) -> op_pos o <> doubled v) as NO.
    { intros o Ho E. apply in_rev in Ho. destruct (proj2 Hj o Ho) as (d2 & v2 & Hd2 & Hv2 & P2).
      assert (v2 = v) as -> by (apply doubled_inj; congruence).
      rewrite (voxel_cell_unique _ _ _ Hv2 Hv) in Hd2. exact (FA j' Hj' d Hd2 Hd). }
    clear - NO. induction (rev ops') as [|o r IHr]; cbn [app latest]; [apply latest_app; exact NO|].
    destruct (pos_eqb (op_pos o) (doubled v)); [reflexivity|exact IHr].
Qed.
Lemma get_point_same {A} (w : world A) x y z x' y' z' : halves x = halves x' -> halves y = halves y' -> halves z = halves z' ->
  forall size ops, w = wrun ops (new_world size) -> get_point w x y z = get_point w x' y' z'.
Proof. intros E1 E2 E3 size ops ->. rewrite !world_history_lemma, E1, E2, E3. reflexivity. Qed.

Lemma jobs_region_world l size ops0 g : Forall job_ok l -> cells_disjoint l ->
  let w := wrun ops0 (new_world size) in
  exists w1, render_jobs l w g = (Ok w1, g) /\
    (forall j, In j l -> exists wj, render_job j w g = (Ok wj, g) /\
       forall d v, job_cell j d -> voxel_in_cell v d -> at_voxel w1 v = at_voxel wj v) /\
    (forall x y z, (forall j d v, In j l -> job_cell j d -> voxel_in_cell v d -> doubled v <> (halves x, halves y, halves z)) ->
       get_point w1 x y z = get_point w x y z).
Proof.
  intros OK D w. destruct (jobs_have_ops l OK) as (opss & F). exists (wrun (List.concat opss) w).
  split; [apply render_jobs_run; exact F|]. unfold w. rewrite <- wrun_app. split.
  - intros j Hj. destruct (jobs_region l opss ops0 F D j Hj) as (ops & [Ho _] & HL).
    exists (wrun ops w). split; [apply Ho|]. intros d v Hd Hv. unfold w. rewrite <- wrun_app.
    destruct v as [[x y] z]. cbn [at_voxel]. rewrite !world_history_lemma. exact (HL d (x, y, z) Hd Hv).
  - intros x y z Hn. rewrite !world_history_lemma, rev_app_distr. apply latest_app.
    intros o Ho E. apply in_rev in Ho. apply in_concat in Ho as (ops2 & Ho2 & Ho).
    destruct (Forall2_in_r _ _ _ F ops2 Ho2) as (j2 & Hj2 & [_ H2]). destruct (H2 o Ho) as (d2 & v2 & Hd2 & Hv2 & P2).
    apply (Hn j2 d2 v2 Hj2 Hd2 Hv2). congruence.
Qed.

Lemma jobs_order l l' size ops0 g : Forall job_ok l -> cells_disjoint l -> Permutation l l' ->
  exists w1 w2, render_jobs l (wrun ops0 (new_world size)) g = (Ok w1, g) /\
    render_jobs l' (wrun ops0 (new_world size)) g = (Ok w2, g) /\ same_blocks w1 w2.
Proof.
  intros OK D P. assert (Forall job_ok l') as OK'.
  { rewrite Forall_forall in *. intros j Hj. apply OK. apply (Permutation_in _ (Permutation_sym P)). exact Hj. }
  pose proof (disjoint_perm l l' P D) as D'.
  destruct (jobs_have_ops l OK) as (opss & F). destruct (jobs_have_ops l' OK') as (opss' & F').
  exists (wrun (List.concat opss) (wrun ops0 (new_world size))), (wrun (List.concat opss') (wrun ops0 (new_world size))).
  split; [apply render_jobs_run; exact F|]. split; [apply render_jobs_run; exact F'|].
  intros x y z. rewrite <- !wrun_app, !world_history_lemma. set (p := (halves x, halves y, halves z)).
  assert (forall lo los, Forall2 job_ops lo los -> (forall o, In o (List.concat los) -> op_pos o <> p) \/
            exists j d v, In j lo /\ job_cell j d /\ voxel_in_cell v d /\ p = doubled v) as DEC.
  { clear. intros lo los F. destruct (existsb (fun o => pos_eqb (op_pos o) p) (List.concat los)) eqn:E.
    - right. apply existsb_exists in E as (o & Ho & E). apply pos_eqb_eq in E.
      apply in_concat in Ho as (ops2 & Ho2 & Ho). destruct (Forall2_in_r _ _ _ F ops2 Ho2) as (j2 & Hj2 & [_ H2]).
      destruct (H2 o Ho) as (d2 & v2 & Hd2 & Hv2 & P2). exists j2, d2, v2. repeat split; auto. congruence.
    - left. intros o Ho E2. assert (existsb (fun o => pos_eqb (op_pos o) p) (List.concat los) = true); [|congruence].
      apply existsb_exists. exists o. split; [exact Ho|]. rewrite E2. apply pos_eqb_refl. }
  assert (forall j d v, In j l -> job_cell j d -> voxel_in_cell v d -> p = doubled v ->
    latest (rev (ops0 ++ List.concat opss)) p = latest (rev (ops0 ++ List.concat opss')) p) as HIT.
  { intros j d v Hj Hd Hv ->.
    destruct (jobs_region l opss ops0 F D j Hj) as (o1 & [R1 _] & L1).
    destruct (jobs_region l' opss' ops0 F' D' j (Permutation_in _ P Hj)) as (o2 & [R2 _] & L2).
    rewrite (L1 d v Hd Hv), (L2 d v Hd Hv).
    assert (wrun o1 (wrun ops0 (new_world size)) = wrun o2 (wrun ops0 (new_world size))) as E
      by (specialize (R1 (wrun ops0 (new_world size)) g); specialize (R2 (wrun ops0 (new_world size)) g); congruence).
    rewrite <- !wrun_app in E. destruct v as [[a b] h].
    change (doubled (a, b, h)) with (halves (I a), halves (I b), halves (I h)).
    rewrite <- (world_history_lemma size), E. apply world_history_lemma. }
  destruct (DEC l opss F) as [N1|(j & d & v & Hj & Hd & Hv & E)]; [|exact (HIT j d v Hj Hd Hv E)].
  destruct (DEC l' opss' F') as [N2|(j & d & v & Hj & Hd & Hv & E)].
  - rewrite !rev_app_distr, !latest_app; [reflexivity| |]; intros o Ho; apply in_rev in Ho; auto.
  - exact (HIT j d v (Permutation_in _ (Permutation_sym P) Hj) Hd Hv E).
Qed.

(** ** The shift inside the tile is turned twice *)
Definition one_voxel : job := J (VM [(3, 7, 0, 0)] [(255, 0, 0)]) 4 0 SELF NORTH (fun _ => 5).
Lemma one_voxel_outside : valid_model (j_model one_voxel) /\ cell_at (j_pos one_voxel) (0, 0, 0) /\ points_to (j_orient one_voxel) CN /\
  exists w' v, render_job one_voxel (new_world 16) (fun _ => 0) = (Ok w', fun _ => 0) /\ at_voxel w' v = Some (repeat 5 6) /\
    forall d, job_cell one_voxel d -> ~ voxel_in_cell v d.
Proof.
  split; [|split; [split; reflexivity|split; [split; [discriminate|reflexivity]|]]].
  - intros x y z c [E|[]]. injection E as <- <- <- <-. cbn. lia.
  - eexists _, (-4, 3, 0). split; [reflexivity|]. split; [reflexivity|].
    intros [[a b] h] (ps & v & E & Hv & _ & Hc). vm_compute in E. injection E as <-.
    destruct Hv as [<-|[]]. apply t3_inv in Hc as (E1 & E2 & E3). cbn [vx vy vz halves] in *. cbn [voxel_in_cell]. lia.
Qed.
