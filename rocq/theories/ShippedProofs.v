(** Proofs about the shipped rooms. *)
From Coq Require Import QArith SpecFloat.
From Verif Require Import Py VecModel VecSpec VecProofs VoxelModel VoxelSpec VoxelProofs CodecModel CodecSpec OutModel OutSpec OutProofs
  UpmModel UpmSpec UpmProofs UpmBridge RoomClasses KitModel KitSpec KitProofs RoomModel MagicaModel RoomSpec MagicaProofs
  TexModel TexSpec TexProofs LightModel LightSpec LightProofs VoxFileModel ShippedVox ShippedModel ShippedSpec ShippedCheck.
Local Open Scope Z_scope.

(** ** Files *)
Lemma file_fits_sound f : file_fits f = true -> sound_file f.
Proof.
  unfold file_fits, sound_file. destruct (read_file f) as [v|]; [|discriminate]. intros E. exists v. split; [reflexivity|].
  assert (vf_voxels v <> [] /\ forallb (voxel_fits v) (vf_voxels v) = true) as [N F]
    by (destruct (vf_voxels v); [discriminate|]; split; [discriminate|exact E]).
  split; [exact N|]. rewrite forallb_forall in F. intros x y z c Hi. specialize (F _ Hi). unfold voxel_fits in F.
  destruct (vf_size v) as [[a b] h]. rewrite !Bool.andb_true_iff in F.
  destruct F as [[[[[[[F1 F2] F3] F4] F5] F6] F7] F8].
  destruct (nth_error (vf_palette v) (Z.to_nat c)) as [[[[r g] b'] al]|]; [|discriminate].
  unfold byte in F8. split; [lia|]. exists r, g, b', al. split; [reflexivity|]. split; [lia|]. repeat constructor; lia.
Qed.
Lemma files_sound name f : In (name, f) shipped_files -> name <> "egypt/water_square.vox"%string -> sound_file f.
Proof.
  intros Hi Hn. pose proof files_fit as F. rewrite forallb_forall in F. specialize (F _ Hi). cbn [fst snd] in F.
  apply Bool.orb_true_iff in F as [F|F]; [apply String.eqb_eq in F; contradiction|apply file_fits_sound; exact F].
Qed.
Lemma water_listed : In ("egypt/water_square.vox"%string, vox_egypt_water_square) shipped_files.
Proof. apply (nth_error_In shipped_files 36). reflexivity. Qed.
Lemma class_sound s : In s shipped_rooms -> sound_file (s_file s).
Proof. intros Hi. pose proof classes_fit as F. rewrite forallb_forall in F. specialize (F s Hi). apply file_fits_sound.
  unfold class_fits in F. unfold file_fits. destruct (read_file (s_file s)) as [v|]; [|discriminate].
  destruct (vf_voxels v); [discriminate|]. apply Bool.andb_true_iff in F as [F _]. exact F. Qed.
Lemma class_model s : In s shipped_rooms -> exists v, read_file (s_file s) = Ok v /\ load_file (s_file s) = Ok (model_of v) /\
  valid_model (model_of v) /\ vf_voxels v <> [] /\
  forall c r g b, nth_error (vm_palette (model_of v)) c = Some (r, g, b) -> exists a, nth_error (vf_palette v) c = Some (r, g, b, a).
Proof.
  intros Hi. destruct (class_sound s Hi) as (v & E & N & F). exists v. split; [exact E|]. unfold load_file. rewrite E. cbn [bind].
  split; [reflexivity|]. split; [|split; [exact N|]].
  - intros x y z c Hv. destruct (F x y z c Hv) as (_ & r & g & b & a & Hn & Hc & _). split; [exact Hc|].
    cbn [model_of vm_palette]. rewrite map_length.
    assert (Z.to_nat c < List.length (vf_palette v))%nat by (apply nth_error_Some; congruence). lia.
  - intros c r g b Hn. cbn [model_of vm_palette] in Hn. rewrite nth_error_map in Hn.
    destruct (nth_error (vf_palette v) c) as [[[[r' g'] b'] a']|]; [|discriminate]. cbn in Hn. injection Hn as -> -> ->. eauto.
Qed.

(** ** Layout *)
Definition kblock (k : key) : cell := let '(x, y, z) := k in (halves x / 16, halves y / 16, halves z / 16).
Definition cell_vec (d : cell) : vec := let '(x, y, z) := d in V Coarse (I x) (I y) (I z).
Definition add_new (acc : list cell) (d : cell) : list cell := if existsb (cell_eqb d) acc then acc else acc ++ [d].
Definition int_key (k : key) : Prop := exists x y z, k = (I x, I y, I z).
Lemma cell_vec_at d : cell_at (cell_vec d) d.
Proof. destruct d as [[x y] z]. split; reflexivity. Qed.
Lemma add_new_in acc d x : In x (add_new acc d) <-> In x acc \/ x = d.
Proof.
  unfold add_new. destruct (existsb (cell_eqb d) acc) eqn:E.
  - apply existsb_exists in E as (y & Hy & E). apply cell_eqb_eq in E. subst y. split; [auto|]. intros [Hx| ->]; assumption.
  - rewrite in_app_iff. cbn [In]. intuition congruence.
Qed.
Lemma adds_in ks : forall acc x, In x (fold_left add_new ks acc) <-> In x acc \/ In x ks.
Proof.
  induction ks as [|k ks IH]; intros acc x; cbn [fold_left In]; [tauto|]. rewrite IH, add_new_in. intuition congruence.
Qed.
Lemma existsb_veq d acc : existsb (fun p => veq (cell_vec d) p) (map cell_vec acc) = existsb (cell_eqb d) acc.
Proof.
  induction acc as [|a l IH]; [reflexivity|]. cbn [map existsb]. rewrite IH, (bridge_eq _ _ _ _ (cell_vec_at d) (cell_vec_at a)).
  reflexivity.
Qed.
Lemma layout_fold (es : list (key * Z)) : Forall (fun e => int_key (fst e)) es -> forall acc,
  foldM (fun acc e =>
           let! s := vadd (key_vec (fst e)) (V Fine (I 0) (I 0) (I 0)) in
           let! t := vcoarse s in
           Ok (if existsb (fun p => veq t p) acc then acc else acc ++ [t])) es (map cell_vec acc) =
  Ok (map cell_vec (fold_left add_new (map (fun e => kblock (fst e)) es) acc)).
Proof.
  induction 1 as [|[k c] es (x & y & z & E) _ IH]; intros acc; [reflexivity|]. cbn [fst] in E. subst k.
  cbn [foldM map fold_left fst].
  replace (let! s := vadd (key_vec (I x, I y, I z)) (V Fine (I 0) (I 0) (I 0)) in
           let! t := vcoarse s in Ok (if existsb (fun p => veq t p) (map cell_vec acc) then map cell_vec acc else map cell_vec acc ++ [t]))
    with (@Ok (list vec) (map cell_vec (add_new acc (kblock (I x, I y, I z))))); [apply IH|].
  assert (forall n, 2 * n / 16 = n / 8) as D by (intros n; Z.div_mod_to_equations; lia).
  cbn [key_vec vadd vfine vc vx vy vz raw_add nadd bind vcoarse nfloordiv kblock halves]. rewrite !Z.add_0_r, !D.
  change (V Coarse (I (x / 8)) (I (y / 8)) (I (z / 8))) with (cell_vec (x / 8, y / 8, z / 8)). rewrite existsb_veq.
  unfold add_new. destruct (existsb (cell_eqb (x / 8, y / 8, z / 8)) acc); [reflexivity|]. rewrite map_app. reflexivity.
Qed.
Lemma dset_keys {A} (d : list (key * A)) k v :
  map fst (dset keqb d k v) = if existsb (fun k' => keqb k' k) (map fst d) then map fst d else map fst d ++ [k].
Proof.
  induction d as [|[k' v'] d IH]; [reflexivity|]. cbn [dset map existsb fst]. destruct (keqb k' k); cbn [map fst]; [reflexivity|].
  rewrite IH. cbn [orb]. destruct (existsb _ _); reflexivity.
Qed.
Lemma layout_keys l : let w := fold_left (fun w v => let '(x, y, z, c) := v in set_point w (I x) (I y) (I z) c) l (@new_world Z (2 ^ 7)) in
  Forall int_key (map fst (w_map w)) /\ fold_left add_new (map kblock (map fst (w_map w))) [] = blocks l.
Proof.
  induction l as [|[[[x y] z] c] l IH] using rev_ind; [split; [constructor|reflexivity]|]. cbn zeta in *. destruct IH as [K B].
  rewrite fold_left_app. cbn [fold_left]. set (w := fold_left _ l _) in *.
  assert (w_map (set_point w (I x) (I y) (I z) c) = dset keqb (w_map w) (I x, I y, I z) c) as -> by reflexivity.
  rewrite dset_keys. unfold blocks in *. rewrite fold_left_app, <- B. cbn [fold_left block].
  assert (kblock (I x, I y, I z) = (x / 8, y / 8, z / 8)) as KB
    by (cbn [kblock halves]; apply t3_eq; Z.div_mod_to_equations; lia).
  destruct (existsb (fun k' => keqb k' (I x, I y, I z)) (map fst (w_map w))) eqn:E.
  - split; [exact K|]. symmetry.
    replace (existsb (cell_eqb (x / 8, y / 8, z / 8)) _) with true; [reflexivity|]. symmetry. apply existsb_exists.
    exists (x / 8, y / 8, z / 8). split; [|apply cell_eqb_refl]. apply adds_in. right.
    apply existsb_exists in E as (k & Hk & E). rewrite Forall_forall in K. destruct (K k Hk) as (x' & y' & z' & ->).
    apply in_map_iff. exists (I x', I y', I z'). split; [|exact Hk]. rewrite <- KB. unfold keqb, neqb in E. cbn [halves] in E.
    assert (x' = x /\ y' = y /\ z' = z) as (-> & -> & ->) by lia. reflexivity.
  - split; [apply Forall_app; split; [exact K|repeat constructor; exists x, y, z; reflexivity]|].
    rewrite map_app, fold_left_app. cbn [map fold_left]. rewrite KB. reflexivity.
Qed.
Lemma layout v : magica_positions 0 0 (load_world (model_of v)) = Ok (map cell_vec (blocks (vf_voxels v))).
Proof.
  unfold magica_positions, load_world. cbn [model_of vm_voxels].
  destruct (layout_keys (vf_voxels v)) as [K B]. cbn zeta in *. set (w := fold_left _ (vf_voxels v) _) in *.
  change (@nil vec) with (map cell_vec []). rewrite layout_fold.
  - rewrite <- (map_map fst kblock), B. reflexivity.
  - rewrite Forall_map in K. exact K.
Qed.
Lemma cells_eqb_eq a : forall b, cells_eqb a b = true -> a = b.
Proof.
  unfold cells_eqb. induction a as [|x a IH]; intros [|y b]; cbn; try discriminate; auto. rewrite !Bool.andb_true_iff.
  intros (L & E & F). apply cell_eqb_eq in E. subst y. f_equal. apply IH. rewrite L, F. reflexivity.
Qed.
Lemma facing_points orient t : cell_at orient (cdir t) -> points_to orient (facing t).
Proof.
  intros [K E]. split; [congruence|]. unfold fpos2. rewrite E, K. destruct t; reflexivity.
Qed.
Lemma placed_facing p t d : placed p (facing t) d = cadd p (crot t d).
Proof. rewrite placed_cadd. destruct t, d as [[x y] z]; reflexivity. Qed.
Definition plain_class (c : rclass) : bool := match rc_flags c with None => negb (rc_shift c) | Some _ => false end.
Lemma classes_plain : forallb (fun s => plain_class (s_class s)) shipped_rooms = true.
Proof. vm_compute. reflexivity. Qed.
Lemma room_of_eq s p t : In s shipped_rooms -> room_of s p t = R (s_class s) p t [].
Proof.
  intros Hi. pose proof classes_plain as F. rewrite forallb_forall in F. specialize (F s Hi). unfold plain_class in F.
  unfold room_of, mk_room, default_flags. destruct (rc_flags (s_class s)); [discriminate|].
  destruct (rc_shift (s_class s)); [discriminate|reflexivity].
Qed.
Lemma class_positions s p t pos orient : In s shipped_rooms -> room_vectors (room_of s p t) pos orient ->
  exists v ps, read_file (s_file s) = Ok v /\ magica_get_positions (model_of v) 0 0 pos orient = Ok ps /\
    Forall2 cell_at ps (positions (room_of s p t)).
Proof.
  intros Hi. rewrite (room_of_eq s p t Hi). intros [HP HO]. cbn [r_pos r_turn] in *.
  destruct (class_model s Hi) as (v & E & _). exists v. unfold magica_get_positions. rewrite layout. cbn [bind].
  pose proof classes_fit as B. rewrite forallb_forall in B. specialize (B s Hi). unfold class_fits in B. rewrite E in B.
  assert (rc_cells (s_class s) [] = blocks (vf_voxels v)) as B'
    by (destruct (vf_voxels v); [discriminate|]; apply Bool.andb_true_iff in B as [_ B]; apply cells_eqb_eq; exact B). clear B. rename B' into B.
  destruct (positions_placed pos orient p (facing t) (map cell_vec (blocks (vf_voxels v))) (blocks (vf_voxels v)))
    as (ps & EP & F); [exact HP|apply facing_points; exact HO| |].
  { clear. induction (blocks (vf_voxels v)); constructor; [apply cell_vec_at|assumption]. }
  exists ps. split; [exact E|]. split; [exact EP|]. unfold positions. cbn [r_cls r_pos r_turn r_flags]. rewrite B.
  erewrite map_ext; [exact F|]. intros d. symmetry. apply placed_facing.
Qed.

(** ** Doors *)
Definition door_fits (cells : list cell) (d : door) : bool :=
  existsb (fun t => cell_eqb (snd d) (cdir t)) CARD && negb (existsb (cell_eqb (fst d)) cells)
  && existsb (cell_eqb (csub (fst d) (snd d))) cells.
Definition doors_fit (s : shipped) : bool := forallb (door_fits (rc_cells (s_class s) [])) (rc_doors (s_class s) []).
Lemma existsb_cell d l : existsb (cell_eqb d) l = true <-> In d l.
Proof.
  rewrite existsb_exists. split; [intros (x & Hx & E); apply cell_eqb_eq in E; congruence|]. intros Hi. exists d. split; [exact Hi|apply cell_eqb_refl].
Qed.
Lemma moved_inj p t a b : cadd p (crot t a) = cadd p (crot t b) -> a = b.
Proof. rewrite <- !placed_facing. apply placed_inj. Qed.
Lemma moved_sub p t a b : csub (cadd p (crot t a)) (crot t b) = cadd p (crot t (csub a b)).
Proof.
  destruct p as [[x y] z], a as [[a1 a2] a3], b as [[b1 b2] b3], t; cbn [crot cadd csub]; apply t3_eq; lia.
Qed.
Lemma doors_usable s p t : In s shipped_rooms -> doors_fit s = true -> forall d, In d (doorways (room_of s p t)) -> usable_door (room_of s p t) d.
Proof.
  intros Hi F d. rewrite (room_of_eq s p t Hi). unfold doorways. cbn [r_cls r_pos r_turn r_flags]. rewrite in_map_iff.
  intros ([o u] & <- & Hd). cbn [fst snd]. unfold doors_fit in F. rewrite forallb_forall in F. specialize (F _ Hd).
  unfold door_fits in F. cbn [fst snd] in F. rewrite !Bool.andb_true_iff, Bool.negb_true_iff in F. destruct F as [[F1 F2] F3].
  unfold usable_door, positions. cbn [fst snd r_cls r_pos r_turn r_flags]. split; [|split].
  - apply existsb_exists in F1 as (t' & _ & F1). apply cell_eqb_eq in F1. exists (tadd t' t). subst u. unfold cdir. apply crot_crot.
  - rewrite in_map_iff. intros (x & E & Hx). apply moved_inj in E. subst x. apply existsb_cell in Hx. congruence.
  - rewrite in_map_iff. exists (csub o u). split; [symmetry; apply moved_sub|]. apply existsb_cell. exact F3.
Qed.

(** ** Entities *)
Definition turn3 (t : turn) (p : Z * Z * Z) : Z * Z * Z := crot t p.
Definition corner (p : cell) : Z * Z * Z := let '(a, b, h) := p in (16 * a, 16 * b, 16 * h).
Definition positionalb (v : vec) : bool := negb (vcls_eqb (vc v) Base).
Definition place_point (t : turn) (pl : place) : Z * Z * Z :=
  match pl with
  | Unturned steps => fold_left t3add (map fpos2 steps) (0, 0, 0)
  | Turned off => turn3 t (fpos2 off)
  end.
Definition place_sane (pl : place) : bool := match pl with Unturned steps => forallb positionalb steps | Turned off => positionalb off end.
(** The points, relative to the corner of the room's own cell, at which the entity may stand. *)
Definition extra_points (t : turn) (x : extra) : list (Z * Z * Z) :=
  match x with
  | XLight pl _ => [middle (place_point t pl)]
  | XFlag off => [t3add (8, 8, 0) (turn3 t (fpos2 off))]
  | XSpawn => [(8, 8, 2)]
  | XArms => [(8, 8, 2); (8, 8, 6)]
  | XPusher off => [turn3 t (fpos2 off)]
  end.
Definition extra_sane (x : extra) : bool :=
  match x with XLight pl _ => place_sane pl | XFlag off | XPusher off => positionalb off | _ => true end.
Lemma positionalb_ok v : positionalb v = true -> vc v <> Base.
Proof. unfold positionalb. destruct (vc v); cbn; congruence. Qed.
Lemma t3add_assoc a b c : t3add (t3add a b) c = t3add a (t3add b c).
Proof. destruct a as [[? ?] ?], b as [[? ?] ?], c as [[? ?] ?]. cbn [t3add]. apply t3_eq; lia. Qed.
Lemma t3add_0 a : t3add a (0, 0, 0) = a.
Proof. destruct a as [[? ?] ?]. cbn [t3add]. apply t3_eq; lia. Qed.
Lemma t3adds l : forall a b, fold_left t3add l (t3add a b) = t3add a (fold_left t3add l b).
Proof. induction l as [|x l IH]; intros a b; [reflexivity|]. cbn [fold_left]. rewrite t3add_assoc. apply IH. Qed.
Lemma middle_add a b : middle (t3add a b) = t3add a (middle b).
Proof. destruct a as [[? ?] ?], b as [[? ?] ?]. cbn [t3add middle]. apply t3_eq; lia. Qed.
Lemma steps_ok steps : forallb positionalb steps = true -> forall pos, vc pos <> Base ->
  exists v, foldM vadd steps pos = Ok v /\ vc v <> Base /\ fpos2 v = t3add (fpos2 pos) (fold_left t3add (map fpos2 steps) (0, 0, 0)).
Proof.
  induction steps as [|x l IH]; intros F pos Hp; cbn [foldM].
  - exists pos. cbn [map fold_left]. rewrite t3add_0. auto.
  - cbn [forallb] in F. apply Bool.andb_true_iff in F as [Fx F]. apply positionalb_ok in Fx.
    destruct (vadd_meaning pos x Hp Fx) as (r & -> & P & C). cbn [bind].
    assert (vc r <> Base) as Hr by (rewrite C; destruct (_ && _); discriminate).
    destruct (IH F r Hr) as (v & -> & Hv & Pv). exists v. split; [reflexivity|]. split; [exact Hv|].
    rewrite Pv, P. cbn [map fold_left]. rewrite t3add_assoc. f_equal.
    rewrite <- (t3add_0 (fpos2 x)) at 1. rewrite <- t3adds. f_equal. destruct (fpos2 x) as [[? ?] ?]. cbn [t3add]. apply t3_eq; lia.
Qed.
Lemma rotate_ok off orient t : cell_at orient (cdir t) -> vc off <> Base ->
  exists r, vrotate off (DVec orient) = Ok r /\ vc r <> Base /\ fpos2 r = turn3 t (fpos2 off).
Proof.
  intros HO Hv. rewrite (vrotate_dir off orient (facing t) (facing_points orient t HO)). eexists. split; [reflexivity|].
  destruct off as [k x y z]. cbn [vc] in Hv. destruct t, k; try congruence; (split; [discriminate|]);
    unfold fpos2, coords2, turn3, crot; cbn [facing rotq vc vx vy vz]; rewrite ?halves_H; apply t3_eq; cbn [halves]; lia.
Qed.
Lemma corner_pos pos p : cell_at pos p -> vc pos <> Base /\ fpos2 pos = corner p.
Proof. intros [K E]. split; [congruence|]. unfold fpos2. rewrite K, E. destruct p as [[a b] h]. cbn [corner]. apply t3_eq; lia. Qed.
Lemma place_ok pl pos orient p t : place_sane pl = true -> cell_at pos p -> cell_at orient (cdir t) ->
  exists v, place_vec pos orient pl = Ok v /\ vc v <> Base /\ fpos2 v = t3add (corner p) (place_point t pl).
Proof.
  intros S HP HO. destruct (corner_pos pos p HP) as [N P]. destruct pl as [steps|off]; cbn [place_sane place_vec place_point] in *.
  - rewrite <- P. apply steps_ok; assumption.
  - destruct (rotate_ok off orient t HO (positionalb_ok _ S)) as (r & -> & Nr & Pr). cbn [bind].
    destruct (vadd_meaning pos r N Nr) as (v & -> & Pv & C). exists v. split; [reflexivity|].
    split; [rewrite C; destruct (_ && _); discriminate|]. rewrite Pv, Pr, P. reflexivity.
Qed.
Lemma one_more_add m e : one_more m e (apply_edit m (AddEnt e)).
Proof. unfold one_more. cbn [apply_edit m_ents m_magic m_version m_headersize m_meta m_vars m_texmru m_vslots m_chg m_world]. auto 12. Qed.
Lemma add_ok v w : vc v <> Base -> vc w <> Base -> exists r, vadd v w = Ok r /\ vc r <> Base /\ fpos2 r = t3add (fpos2 v) (fpos2 w).
Proof.
  intros Hv Hw. destruct (vadd_meaning v w Hv Hw) as (r & E & P & C). exists r. split; [exact E|]. split; [|exact P].
  rewrite C. destruct (_ && _); discriminate.
Qed.
Lemma add_fine v w : vc v <> Base -> vc w = Fine -> exists r, vadd v w = Ok r /\ vc r = Fine /\ fpos2 r = t3add (fpos2 v) (fpos2 w).
Proof.
  intros Hv Hw. assert (vc w <> Base) as Hw' by congruence. destruct (vadd_meaning v w Hv Hw') as (r & E & P & C). exists r.
  split; [exact E|]. split; [|exact P]. rewrite C, Hw. destruct (vc v); reflexivity.
Qed.
Lemma cell_dir_veq orient t w t' : cell_at orient (cdir t) -> cell_at w (cdir t') -> veq orient w = cell_eqb (cdir t) (cdir t').
Proof. intros H1 H2. exact (bridge_eq _ _ _ _ H1 H2). Qed.
Lemma dirs : cell_at EAST (cdir T0) /\ cell_at NORTH (cdir T1) /\ cell_at WEST (cdir T2) /\ cell_at SOUTH (cdir T3).
Proof. repeat split. Qed.
Lemma flag_team_ok orient t : cell_at orient (cdir t) -> flag_team orient = Ok (team_of t).
Proof.
  intros HO. destruct dirs as (DE & DN & DW & DS). unfold flag_team.
  rewrite (cell_dir_veq _ _ _ _ HO DE), (cell_dir_veq _ _ _ _ HO DN), (cell_dir_veq _ _ _ _ HO DW), (cell_dir_veq _ _ _ _ HO DS).
  destruct t; reflexivity.
Qed.
Lemma rotate_yaw_ok a orient t : cell_at orient (cdir t) -> rotate_yaw a orient = Ok ((degrees t + a) mod 360).
Proof.
  intros HO. destruct dirs as (DE & DN & DW & DS). unfold rotate_yaw.
  rewrite (cell_dir_veq _ _ _ _ HO DE), (cell_dir_veq _ _ _ _ HO DN), (cell_dir_veq _ _ _ _ HO DW), (cell_dir_veq _ _ _ _ HO DS).
  destruct t; cbn [cell_eqb cdir crot Z.eqb andb Pos.eqb Z.opp degrees]; do 2 f_equal; lia.
Qed.
Lemma made_at v ty attrs e : vc v <> Base -> (let! p := vfine v in Ok (ent_at (vmul p 4) ty attrs)) = Ok e ->
  e_type e = ty /\ e_attrs e = attrs /\ e_links e = [] /\ e_reserved e = [0; 0; 0] /\ stands e (fpos2 v) 2.
Proof.
  intros Hv. destruct (fine4 v Hv) as (p & Ep & X & Y & Z0). rewrite Ep. cbn [bind]. intros E. injection E as <-.
  split; [reflexivity|]. split; [reflexivity|]. split; [reflexivity|]. split; [reflexivity|].
  eapply stands_of; eauto. destruct (vc v); tauto.
Qed.
Lemma made_fine v ty attrs : vc v = Fine -> stands (ent_at (vmul v 4) ty attrs) (fpos2 v) 2.
Proof.
  intros Hv. apply (made_at v ty attrs); [congruence|]. unfold vfine. rewrite Hv. reflexivity.
Qed.
Lemma extra_ok hue x pos orient p t m g : extra_sane x = true -> cell_at pos p -> cell_at orient (cdir t) ->
  exists e m' g', run_extra (LIGHTMAN hue) pos orient x m g = (Ok m', g') /\ one_more m e m' /\ asked_for hue t x e /\
    exists q, In q (extra_points t x) /\ stands e (t3add (corner p) q) 2.
Proof.
  intros S HP HO. destruct (corner_pos pos p HP) as [N P]. destruct x as [pl sf|off| | |off]; cbn [run_extra extra_sane extra_points] in *.
  - destruct (place_ok pl pos orient p t S HP HO) as (v & -> & Hv & Pv). cbn [bind].
    destruct (light_ok (LIGHTMAN hue) m v None sf Hv) as (e & m' & -> & O & St & Ty & (r & g0 & b & At & q & _ & Hq) & L & R).
    exists e, m', g. split; [reflexivity|]. split; [exact O|]. split.
    { split; [exact L|]. split; [exact R|]. split; [exact Ty|]. exists q, r, g0, b. split; [exact Hq|exact At]. }
    exists (middle (place_point t pl)). split; [left; reflexivity|]. rewrite <- middle_add, <- Pv. exact St.
  - destruct (add_fine pos TILE_CENTER N eq_refl) as (a & -> & Na & Pa). cbn [bind]. assert (vc a <> Base) as Na' by congruence.
    destruct (rotate_ok off orient t HO (positionalb_ok _ S)) as (r & -> & Nr & Pr). cbn [bind].
    destruct (add_ok a r Na' Nr) as (v & -> & Nv & Pv). cbn [bind]. rewrite (flag_team_ok orient t HO). cbn [bind].
    destruct (others_stand v Nv) as (_ & Ft & _).
    destruct (Ft (AInt (team_of t)) (AInt 0) (AInt 0) (AInt 2) (AInt 0) (AInt 0)) as (e & Ee & _). rewrite Ee.
    apply (made_at v _ _ _ Nv) in Ee as (Ty & At & L & R & St).
    exists e, (apply_edit m (AddEnt e)), g. split; [reflexivity|]. split; [apply one_more_add|]. split; [exact (conj L (conj R (conj Ty At)))|].
    eexists. split; [left; reflexivity|]. rewrite Pv, Pa, Pr, P, t3add_assoc in St. exact St.
  - destruct (add_fine pos TILE_CENTER N eq_refl) as (a & Ea & Na & Pa). assert (vc a <> Base) as Na' by congruence.
    destruct (add_fine a (fine 0 0 1) Na' eq_refl) as (b & Eb & Nb & Pb).
    unfold spawn_entity. rewrite Ea. cbn [bind]. rewrite Eb. cbn [bind]. unfold mk_playerspawn. cbn [add_entity bind].
    eexists _, _, g. split; [reflexivity|]. split; [apply one_more_add|].
    split; [repeat split|]. exists (8, 8, 2). split; [left; reflexivity|].
    match goal with |- stands (ent_at _ ?ty ?a) _ _ => pose proof (made_fine b ty a Nb) as St end.
    rewrite Pb, Pa, P, t3add_assoc in St. exact St.
  - destruct (add_fine pos TILE_CENTER N eq_refl) as (a & Ea & Na & Pa). assert (vc a <> Base) as Na' by congruence.
    destruct (add_fine a (fine 0 0 1) Na' eq_refl) as (b & Eb & Nb & Pb).
    destruct (add_fine a ABOVE_FINE Na' eq_refl) as (c1 & Ec1 & Nc1 & Pc1). assert (vc c1 <> Base) as Nc1' by congruence.
    destruct (add_fine c1 ABOVE_FINE Nc1' eq_refl) as (c2 & Ec2 & Nc2 & Pc2). assert (vc c2 <> Base) as Nc2' by congruence.
    destruct (add_fine c2 ABOVE_FINE Nc2' eq_refl) as (c3 & Ec3 & Nc3 & Pc3).
    unfold spawn_entity, weapon_pos. cbn [foldM]. rewrite Ea. cbn [bind]. rewrite Ec1. cbn [bind]. rewrite Ec2. cbn [bind]. rewrite Ec3. cbn [bind].
    rewrite Eb. cbn [bind]. rewrite (rotate_yaw_ok 90 orient t HO). unfold mk_playerspawn, mk_weapon. cbn [add_entity bind].
    destruct (draw g) as [d g']. destruct (d mod 3 =? 0).
    + eexists _, _, g'. split; [reflexivity|]. split; [apply one_more_add|].
      split; [split; [reflexivity|split; [reflexivity|left; split; reflexivity]]|]. exists (8, 8, 2). split; [left; reflexivity|].
      match goal with |- stands (ent_at _ ?ty ?a) _ _ => pose proof (made_fine b ty a Nb) as St end. rewrite Pb, Pa, P, t3add_assoc in St. exact St.
    + eexists _, _, g'. split; [reflexivity|]. split; [apply one_more_add|].
      split.
      { split; [reflexivity|]. split; [reflexivity|]. right. split; [reflexivity|]. eexists. split; [|reflexivity]. destruct (d mod 3 =? 1); auto. }
      exists (8, 8, 6). split; [right; left; reflexivity|].
      match goal with |- stands (ent_at _ ?ty ?a) _ _ => pose proof (made_fine c3 ty a Nc3) as St end. rewrite Pc3, Pc2, Pc1, Pa, P, !t3add_assoc in St. exact St.
  - destruct (rotate_ok off orient t HO (positionalb_ok _ S)) as (r & -> & Nr & Pr). cbn [bind].
    destruct (add_ok pos r N Nr) as (v & -> & Nv & Pv). cbn [bind]. rewrite (rotate_yaw_ok 0 orient t HO). cbn [bind].
    destruct (others_stand v Nv) as (Fp & _).
    destruct (Fp (AInt ((degrees t + 0) mod 360)) (AInt 90) (AInt 230) (AInt 1) (AInt 0) (AInt 0)) as (e & Ee & _). rewrite Ee.
    apply (made_at v _ _ _ Nv) in Ee as (Ty & At & L & R & St).
    exists e, (apply_edit m (AddEnt e)), g. split; [reflexivity|]. split; [apply one_more_add|]. split.
    { refine (conj L (conj R (conj Ty _))). rewrite At. destruct t; reflexivity. }
    eexists. split; [left; reflexivity|]. rewrite Pv, Pr, P in St. exact St.
Qed.
Definition in_cellb (q : Z * Z * Z) (d : cell) : bool :=
  let '(x, y, z) := q in let '(a, b, h) := d in
  (16 * a <=? x) && (x <? 16 * (a + 1)) && (16 * b <=? y) && (y <? 16 * (b + 1)) && (16 * h <=? z) && (z <? 16 * (h + 1)).
Definition extra_fits (cells : list cell) (t : turn) (x : extra) : bool :=
  forallb (fun q => existsb (fun c => in_cellb q (crot t c)) cells) (extra_points t x).
Definition extras_fit (s : shipped) : bool := forallb (fun t => forallb (extra_fits (rc_cells (s_class s) []) t) (s_extra s)) CARD.
Lemma extras_sane : forallb (fun s => forallb extra_sane (s_extra s)) shipped_rooms = true.
Proof. vm_compute. reflexivity. Qed.
Lemma in_cellb_moved q c p : in_cellb q c = true <-> point_in_cell (t3add (corner p) q) (cadd p c).
Proof.
  destruct q as [[x y] z], c as [[a b] h], p as [[u v] w]. unfold in_cellb, point_in_cell. cbn [corner t3add cadd].
  rewrite !Bool.andb_true_iff, !Z.leb_le, !Z.ltb_lt. lia.
Qed.
Lemma more_nil m : more_ents m [] m.
Proof. unfold more_ents. rewrite app_nil_r. auto 12. Qed.
Lemma more_cons m e m1 es m2 : one_more m e m1 -> more_ents m1 es m2 -> more_ents m (e :: es) m2.
Proof.
  unfold one_more, more_ents. intros (A1 & A2 & A3 & A4 & A5 & A6 & A7 & A8 & A9 & A10) (B1 & B2 & B3 & B4 & B5 & B6 & B7 & B8 & B9 & B10).
  rewrite B1, A1, <- app_assoc. split; [reflexivity|]. repeat split; congruence.
Qed.
(** Each entity stands at one of its points. *)
Definition stands_off (p : cell) (t : turn) (x : extra) (e : entity) : Prop := exists q, In q (extra_points t x) /\ stands e (t3add (corner p) q) 2.
Lemma extras_run p t pos orient hue : cell_at pos p -> cell_at orient (cdir t) ->
  forall l, forallb extra_sane l = true -> forall m g,
  exists es m' g', run_extras (LIGHTMAN hue) pos orient l m g = (Ok m', g') /\ more_ents m es m' /\
    Forall2 (asked_for hue t) l es /\ Forall2 (stands_off p t) l es.
Proof.
  intros HP HO. induction l as [|x l IH]; intros F m g; cbn [run_extras].
  - exists [], m, g. split; [reflexivity|]. split; [apply more_nil|]. split; constructor.
  - cbn [forallb] in F. apply Bool.andb_true_iff in F as [Sx F].
    destruct (extra_ok hue x pos orient p t m g Sx HP HO) as (e & m1 & g1 & -> & O & A & St).
    destruct (IH F m1 g1) as (es & m2 & g2 & -> & M & As & Ss). exists (e :: es), m2, g2. split; [reflexivity|].
    split; [exact (more_cons _ _ _ _ _ O M)|]. split; constructor; assumption.
Qed.
Lemma class_extras s p t pos orient hue m g : In s shipped_rooms -> cell_at pos p -> cell_at orient (cdir t) ->
  exists es m' g', run_extras (LIGHTMAN hue) pos orient (s_extra s) m g = (Ok m', g') /\ more_ents m es m' /\
    Forall2 (asked_for hue t) (s_extra s) es /\ Forall2 (stands_off p t) (s_extra s) es.
Proof.
  intros Hi HP HO. apply extras_run; try assumption. pose proof extras_sane as F. rewrite forallb_forall in F. exact (F s Hi).
Qed.
Lemma extras_furnish s : In s shipped_rooms -> extras_fit s = true -> furnished s.
Proof.
  intros Hi F p t pos orient hue m g [HP HO]. rewrite (room_of_eq s p t Hi) in HP, HO. cbn [r_pos r_turn] in HP, HO.
  destruct (class_extras s p t pos orient hue m g Hi HP HO) as (es & m' & g' & E & M & A & St). exists es, m', g'.
  split; [exact E|]. split; [exact M|]. split; [exact A|]. unfold extras_fit in F. rewrite forallb_forall in F.
  assert (In t CARD) as Ht by (destruct t; cbn; tauto). specialize (F t Ht). rewrite forallb_forall in F. rewrite Forall_forall.
  intros e He. destruct (Forall2_in_r _ _ _ St e He) as (x & Hx & q & Hq & Sq). specialize (F x Hx). unfold extra_fits in F.
  rewrite forallb_forall in F. specialize (F q Hq). apply existsb_exists in F as (c & Hc & Fc).
  exists (t3add (corner p) q), (cadd p (crot t c)). split; [exact Sq|]. split; [|apply in_cellb_moved; exact Fc].
  rewrite (room_of_eq s p t Hi). unfold positions. cbn [r_cls r_pos r_turn r_flags]. apply in_map_iff. exists c. split; [reflexivity|exact Hc].
Qed.
(** A class one of whose entities is always outside when it faces [t]. *)
Definition extra_misfits (cells : list cell) (t : turn) (x : extra) : bool :=
  forallb (fun q => negb (existsb (fun c => in_cellb q (crot t c)) cells)) (extra_points t x).
Lemma coord_is_inj f n n' k : coord_is f n k -> coord_is f n' k -> n = n'.
Proof.
  unfold coord_is, feq. destruct f as [s m e| |]; try contradiction. intros [-> E] [S E'].
  rewrite E in E'. apply Z.mul_reg_r in E'; [|pose proof (Z.pow_pos_nonneg 2 (k - 1 - Z.min e (k - 1))); lia].
  destruct (Z.ltb_spec n 0), (Z.ltb_spec n' 0); try discriminate; lia.
Qed.
Lemma stands_inj e p p' k : stands e p k -> stands e p' k -> p = p'.
Proof.
  destruct p as [[x y] z], p' as [[x' y'] z']. intros (X & Y & Z0) (X' & Y' & Z1).
  apply t3_eq; eapply coord_is_inj; eassumption.
Qed.
Lemma extras_misplaced s t : In s shipped_rooms -> existsb (extra_misfits (rc_cells (s_class s) []) t) (s_extra s) = true -> misplaced s.
Proof.
  intros Hi F. exists t. intros p pos orient hue m g [HP HO]. rewrite (room_of_eq s p t Hi) in *. cbn [r_pos r_turn] in HP, HO.
  destruct (class_extras s p t pos orient hue m g Hi HP HO) as (es & m' & g' & E & M & _ & St). exists es, m', g'.
  apply existsb_exists in F as (x & Hx & F). destruct (Forall2_in_l _ _ _ St x Hx) as (e & He & q & Hq & Sq). exists e.
  split; [exact E|]. split; [exact M|]. split; [exact He|]. intros (q' & d & Sq' & Hd & In').
  assert (q' = t3add (corner p) q) as -> by exact (stands_inj _ _ _ _ Sq' Sq).
  unfold positions in Hd. cbn [r_cls r_pos r_turn r_flags] in Hd. apply in_map_iff in Hd as (c & <- & Hc).
  apply in_cellb_moved in In'. unfold extra_misfits in F. rewrite forallb_forall in F. specialize (F q Hq).
  apply Bool.negb_true_iff in F. assert (existsb (fun c => in_cellb q (crot t c)) (rc_cells (s_class s) []) = true); [|congruence].
  apply existsb_exists. exists c. split; assumption.
Qed.
