(** Proofs about the map generator: blocks, entities and the file. *)
From Coq Require Import QArith.
From Verif Require Import Py VecModel VecSpec VecProofs VoxelModel VoxelSpec VoxelProofs CodecModel CodecSpec CodecProofs CodecMap OutModel OutSpec OutProofs
  UpmModel UpmSpec UpmProofs UpmInv UpmBridge UpmTrace UpmFinal KitModel KitSpec KitProofs KitPaint KitTile EffectProofs RoomModel MagicaModel RoomSpec MagicaProofs TexModel TexSpec TexProofs
  LightModel LightSpec LightProofs VoxFileModel ShippedModel ShippedSpec ShippedProofs ShippedDraw DistModel DistSpec DistProofs GenModel GenSpec GenLayout GenDraw.
Local Open Scope Z_scope.

(** ** Blocks *)
Lemma shift0 q : shift q 0 0 0 = q.
Proof. destruct q as [[x y] z]. cbn [shift]. apply t3_eq; lia. Qed.
Lemma cell_of v : voxel_in_cell v (let '(x, y, z) := v in (x / 8, y / 8, z / 8)).
Proof. destruct v as [[x y] z]. cbn [voxel_in_cell]. Z.div_mod_to_equations. lia. Qed.
Lemma cell_of_unique v d : voxel_in_cell v d -> d = (let '(x, y, z) := v in (x / 8, y / 8, z / 8)).
Proof. destruct v as [[x y] z], d as [[a b] h]. cbn [voxel_in_cell]. intros (H1 & H2 & H3). apply t3_eq; Z.div_mod_to_equations; lia. Qed.
Lemma rooms_blocks_in cs (HL : incl cs shipped_rooms) hue vecs obs tm size m g : true_vectors vecs -> Forall (one_of cs) obs -> disjoint_rooms obs -> manager tm ->
  exists tm' w m' g' ess, render_rooms hue vecs obs tm (new_world size) m g = (tm', Ok (w, m'), g') /\
    manager tm' /\ keeps_numbers tm tm' /\ stems tm tm' (flat_map file_colours cs) /\ more_ents m (List.concat ess) m' /\ Forall2 (furnished_at hue) obs ess /\
    w_size w = size /\
    ((forall ob d, In ob obs -> In d (positions (snd ob)) -> exists v tex, voxel_in_cell v d /\ has_block tm' (snd ob) v tex) /\
     (forall ob s v q a, In ob obs -> In s shipped_rooms -> s_class s = r_cls (snd ob) -> read_file (s_file s) = Ok v -> voxel_colour (vf_voxels v) q = Some a ->
        exists tex, has_block tm' (snd ob) (frame (r_pos (snd ob)) (facing (r_turn (snd ob))) q) tex)) /\
    forall x y z tex, get_point w (I x) (I y) (I z) = Some tex <-> exists ob, In ob obs /\ has_block tm' (snd ob) (x, y, z) tex.
Proof.
  intros TV F D M. destruct (render_rooms_ok_in cs HL hue vecs TV obs F tm M) as (tm' & M' & K & S & C & R).
  assert (Forall job_ok (map (job_of vecs tm') obs)) as JO
    by (rewrite Forall_forall in *; intros j Hj; apply in_map_iff in Hj as (ob & <- & Hob); apply (job_of_ok_in cs HL); auto).
  destruct (jobs_region_world (map (job_of vecs tm') obs) size [] g JO (jobs_disjoint_in cs HL vecs tm' obs TV F D)) as (w & RW & RJ & RO).
  cbn [wrun fold_left] in RW, RJ, RO.
  destruct (R tm' (keeps_refl tm') (new_world size) w m g RW) as (m' & g' & ess & E & ME & FF).
  exists tm', w, m', g', ess. split; [exact E|]. split; [exact M'|]. split; [exact K|]. split; [exact S|]. split; [exact ME|]. split; [exact FF|].
  split.
  { destruct (jobs_have_ops _ JO) as (opss & FO). rewrite (render_jobs_run _ _ FO) in RW.
    assert (wrun (List.concat opss) (new_world size) = w) as <- by congruence. apply w_size_run. }
  split.
  { assert (forall ob s v q a, In ob obs -> In s shipped_rooms -> s_class s = r_cls (snd ob) -> read_file (s_file s) = Ok v -> voxel_colour (vf_voxels v) q = Some a ->
      exists tex, has_block tm' (snd ob) (frame (r_pos (snd ob)) (facing (r_turn (snd ob))) q) tex) as NB.
    { intros ob s0 v0 q a Hob Hi0 Ec0 Ev0 Col. assert (one_of cs ob) as U by (rewrite Forall_forall in F; auto).
      destruct (job_of_eq_in cs HL vecs tm' ob U) as (s & v & Hs & Ec & ES & Ev & VM & _). pose proof (HL s Hs) as Hi.
      assert (s0 = s) as ->. { pose proof (shipped_of_self s0 Hi0) as Q. rewrite Ec0 in Q. congruence. }
      assert (v0 = v) as -> by congruence.
      destruct (class_model s Hi) as (v' & Ev'' & _ & _ & _ & PA). assert (v' = v) as -> by congruence.
      assert (0 <= a < Z.of_nat (List.length (vm_palette (model_of v)))) as Ha
        by (pose proof (voxel_colour_in _ _ _ Col) as Hq; destruct q as [[x y] z]; exact (VM x y z a Hq)).
      destruct (nth_error (vm_palette (model_of v)) (Z.to_nat a)) as [[[r g0] b]|] eqn:EN; [|exfalso; apply nth_error_None in EN; lia].
      destruct (C ob s v q a (r, g0, b) Hob ES Ev Col EN) as (n & N). destruct (PA _ _ _ _ EN) as (al & Hal).
      exists (repeat n 6), s, v, q, a, r, g0, b, al, n. repeat (split; [first [assumption | reflexivity | symmetry; assumption]|]). reflexivity. }
    split; [|exact NB]. intros ob d Hob Hd. assert (one_of cs ob) as U by (rewrite Forall_forall in F; auto).
    destruct (job_of_eq_in cs HL vecs tm' ob U) as (s & v & Hs & Ec & ES & Ev & VM & _). pose proof (HL s Hs) as Hi. destruct (TV ob) as [HP HO].
    rewrite (same_positions s _ Hi Ec) in Hd.
    destruct (reserved s (r_pos (snd ob)) (r_turn (snd ob)) (fst (vecs ob)) (snd (vecs ob)) Hi) as (v' & ps & Ev' & _ & _ & _ & RS).
    { rewrite (room_of_eq s _ _ Hi). split; assumption. }
    assert (v' = v) as -> by congruence. apply RS in Hd as (q & a & Col & Hd).
    destruct (NB ob s v q a Hob Hi (eq_sym Ec) Ev Col) as (tex & HB). eauto. }
  intros x y z tex.
  (* one room *)
  assert (forall ob d, In ob obs -> In d (positions (snd ob)) -> voxel_in_cell (x, y, z) d ->
    (get_point w (I x) (I y) (I z) = Some tex <-> has_block tm' (snd ob) (x, y, z) tex)) as ONE.
  { intros ob d Hob Hd Hv. assert (one_of cs ob) as U by (rewrite Forall_forall in F; auto).
    destruct (job_of_eq_in cs HL vecs tm' ob U) as (s & v & Hs & Ec & ES & Ev & VM & EJ). pose proof (HL s Hs) as Hi.
    destruct (RJ (job_of vecs tm' ob) (in_map _ _ _ Hob)) as (wj & RWj & AT).
    specialize (AT d (x, y, z) (proj2 (job_cells_in cs HL vecs tm' ob d TV U) Hd) Hv). cbn [at_voxel] in AT. rewrite AT.
    rewrite EJ in RWj. unfold render_job in RWj. cbn [j_model j_west j_south j_pos j_orient j_tex] in RWj.
    destruct (TV ob) as [HP HO].
    destruct (magica_exact (model_of v) 0 0 _ _ _ (facing (r_turn (snd ob))) (number_of tm' (s_paint s) (r_turn (snd ob))) HP (facing_points _ _ HO)) with
      (size := size) (ops := @nil (wop (list Z))) (g := g) as (wj' & X & Y & Z0); [right; split; reflexivity|exact VM|].
    cbn [wrun fold_left] in X, Z0. assert (wj' = wj) as -> by congruence.
    set (p := r_pos (snd ob)) in *. set (c := facing (r_turn (snd ob))) in *.
    split.
    - intros G. destruct (voxel_colour (vf_voxels v) (unframe p c (x, y, z))) as [a|] eqn:Col.
      + destruct (Y _ _ Col) as ([[r g0] b] & Hn & At). rewrite shift0, frame_unframe in At. cbn [at_voxel] in At.
        destruct (C ob s v _ a (r, g0, b) Hob ES Ev Col Hn) as (n & N).
        destruct (class_model s Hi) as (v' & Ev' & _ & _ & _ & PA). assert (v' = v) as -> by congruence. destruct (PA _ _ _ _ Hn) as (al & Ha).
        rewrite (number_of_ok _ _ _ _ _ N) in At.
        exists s, v, (unframe p c (x, y, z)), a, r, g0, b, al, n. fold p c. rewrite frame_unframe.
        repeat (split; [first [assumption | reflexivity | symmetry; assumption]|]). congruence.
      + rewrite Z0 in G; [discriminate|]. intros q a Col' E'. rewrite shift0 in E'.
        assert (frame p c q = (x, y, z)) as Eq by (apply doubled_inj; exact E').
        rewrite <- Eq, unframe_frame in Col. cbn [model_of vm_voxels] in Col'. congruence.
    - intros (s' & v' & q & a & r & g0 & b & al & n & Hi' & Ec' & Ev' & Col & Fq & Hn & N & ->).
      assert (s' = s) as ->. { pose proof (shipped_of_self s' Hi') as Q. rewrite Ec' in Q. congruence. }
      assert (v' = v) as -> by congruence. fold p c in Fq. destruct (Y q a Col) as (rgb & Hn' & At). rewrite shift0, Fq in At. cbn [at_voxel] in At. rewrite At.
      cbn [model_of vm_palette] in Hn'. rewrite nth_error_map, Hn in Hn'. cbn [option_map] in Hn'. assert (rgb = (r, g0, b)) as -> by congruence.
      rewrite (number_of_ok _ _ _ _ _ N). reflexivity. }
  (* the cell of a block *)
  assert (forall ob, In ob obs -> has_block tm' (snd ob) (x, y, z) tex -> In (x / 8, y / 8, z / 8) (positions (snd ob))) as CELL.
  { intros ob Hob (s & v & q & a & r & g0 & b & al & n & Hi & Ec & Ev & Col & Fq & _). destruct (TV ob) as [HP HO].
    rewrite (same_positions s _ Hi (eq_sym Ec)).
    destruct (reserved s (r_pos (snd ob)) (r_turn (snd ob)) (fst (vecs ob)) (snd (vecs ob)) Hi) as (v' & ps & Ev' & _ & _ & _ & RS).
    { rewrite (room_of_eq s _ _ Hi). split; assumption. }
    assert (v' = v) as -> by congruence. apply RS. exists q, a. split; [exact Col|]. rewrite Fq. exact (cell_of (x, y, z)). }
  split.
  - intros G. destruct (existsb (fun ob : obj => existsb (cell_eqb (x / 8, y / 8, z / 8)) (positions (snd ob))) obs) eqn:EX.
    + apply existsb_exists in EX as (ob & Hob & EX). apply existsb_cell in EX. exists ob. split; [exact Hob|].
      apply (ONE ob _ Hob EX (cell_of (x, y, z))). exact G.
    + exfalso. rewrite RO in G; [discriminate|]. intros j d v Hj Hd Hv Ev. apply in_map_iff in Hj as (ob & <- & Hob).
      assert (v = (x, y, z)) as -> by (apply doubled_inj; exact Ev).
      assert (one_of cs ob) as U by (rewrite Forall_forall in F; auto). apply (job_cells_in cs HL vecs tm' ob d TV U) in Hd.
      apply cell_of_unique in Hv. subst d.
      assert (existsb (fun ob : obj => existsb (cell_eqb (x / 8, y / 8, z / 8)) (positions (snd ob))) obs = true); [|congruence].
      apply existsb_exists. exists ob. split; [exact Hob|]. apply existsb_cell. exact Hd.
  - intros (ob & Hob & HB). apply (ONE ob _ Hob (CELL ob Hob HB) (cell_of (x, y, z))). exact HB.
Qed.
Lemma rooms_blocks ctf hue vecs obs tm size m g : true_vectors vecs -> Forall (of_use ctf) obs -> disjoint_rooms obs -> manager tm ->
  exists tm' w m' g' ess, render_rooms hue vecs obs tm (new_world size) m g = (tm', Ok (w, m'), g') /\
    manager tm' /\ keeps_numbers tm tm' /\ stems tm tm' all_colours /\ more_ents m (List.concat ess) m' /\ Forall2 (furnished_at hue) obs ess /\
    w_size w = size /\
    ((forall ob d, In ob obs -> In d (positions (snd ob)) -> exists v tex, voxel_in_cell v d /\ has_block tm' (snd ob) v tex) /\
     (forall ob s v q a, In ob obs -> In s shipped_rooms -> s_class s = r_cls (snd ob) -> read_file (s_file s) = Ok v -> voxel_colour (vf_voxels v) q = Some a ->
        exists tex, has_block tm' (snd ob) (frame (r_pos (snd ob)) (facing (r_turn (snd ob))) q) tex)) /\
    forall x y z tex, get_point w (I x) (I y) (I z) = Some tex <-> exists ob, In ob obs /\ has_block tm' (snd ob) (x, y, z) tex.
Proof.
  intros TV F D M. destruct (rooms_blocks_in (in_use ctf) (in_use_shipped ctf) hue vecs obs tm size m g TV F D M) as (tm' & w & m' & g' & ess & E & M' & K & S & R).
  exists tm', w, m', g', ess. split; [exact E|]. split; [exact M'|]. split; [exact K|]. split; [exact (stems_incl _ _ _ _ S (all_in ctf))|exact R].
Qed.

(** ** Entities in the file *)
(** What the writer makes of attributes that are Python floats. *)
Definition norm_attr (a : attr) : attr := match a with AHalf h => AInt (Z.quot h 2) | _ => a end.
Definition norm_ent (e : entity) : entity := Ent (e_x e) (e_y e) (e_z e) (e_type e) (map norm_attr (e_attrs e)) (e_links e) (e_reserved e).
Definition norm_map (m : rmap) : rmap :=
  Map (m_magic m) (m_version m) (m_headersize m) (m_meta m) (m_vars m) (m_texmru m) (map norm_ent (m_ents m)) (m_vslots m) (m_chg m) (m_world m).
Lemma mapM_norm {A B} (f : A -> res B) (h : A -> A) l : (forall a, f (h a) = f a) -> mapM f (map h l) = mapM f l.
Proof. intros E. induction l as [|a l IH]; [reflexivity|]. cbn [map mapM]. rewrite E, IH. reflexivity. Qed.
Lemma w_ent_norm e : w_ent (norm_ent e) = w_ent e.
Proof.
  unfold w_ent, norm_ent, wcat. cbn [e_x e_y e_z e_type e_attrs e_links e_reserved]. rewrite map_length, mapM_norm; [reflexivity|]. intros []; reflexivity.
Qed.
Lemma write_norm m : write_map (norm_map (set_numents m)) = write_map m.
Proof.
  unfold write_map, wcat. unfold norm_map, set_numents. cbn [m_magic m_version m_headersize m_meta m_vars m_texmru m_ents m_vslots m_chg m_world].
  rewrite map_length, (mapM_norm w_ent norm_ent _ w_ent_norm).
  assert (forall d k v, dset String.eqb (dset String.eqb d k v) k v = dset String.eqb d k (v : mval)) as D.
  { induction d as [|[k' v'] d IH]; intros k v; cbn [dset]; [rewrite String.eqb_refl; reflexivity|].
    destruct (String.eqb k' k) eqn:E; cbn [dset]; rewrite ?E; [reflexivity|]. f_equal. apply IH. }
  rewrite D. reflexivity.
Qed.
Lemma output_norm fuel w m : output_map fuel w (norm_map (set_numents m)) = output_map fuel w m.
Proof.
  unfold output_map. destruct (to_octree fuel w) as [[| | l]|x]; cbn [bind]; try reflexivity. destruct (map tree_cube l) as [|c r]; [reflexivity|].
  rewrite <- (write_norm (apply_edit m (SetWorld (with_octsav c 0 :: r)))). reflexivity.
Qed.
(** The numbers the shipped classes use are small. *)
Definition small_extra (t : turn) (x : extra) : bool :=
  forallb (withinb 65536) (extra_points t x) &&
  match x with XLight _ sf => (0 <=? halves sf) && (halves sf <=? 65536) | _ => true end.
Lemma extras_small : forallb (fun s => forallb (fun t => forallb (small_extra t) (s_extra s)) CARD && (Z.of_nat (List.length (s_extra s)) <=? 16)) shipped_rooms = true.
Proof. vm_compute. reflexivity. Qed.
Lemma stands_f32 e q p : within 65536 q -> within 42 p -> stands e (t3add (corner p) q) 2 -> is_f32 (e_x e) /\ is_f32 (e_y e) /\ is_f32 (e_z e).
Proof.
  destruct p as [[a b] h], q as [[x y] z]. cbn [corner t3add stands within]. intros Q P (X & Y & Z0).
  split; [|split]; (eapply (coord_f32 _ _ 2); [lia| |eassumption]); lia.
Qed.
Lemma halves_norm sf : attr_value (norm_attr (num_attr (nmulz sf 64))) = attr_value (num_attr (nmulz sf 64)).
Proof.
  destruct sf as [z|h]; cbn [nmulz num_attr norm_attr attr_value]; [reflexivity|].
  replace (h * 64) with (h * 32 * 2) by ring. rewrite Z.quot_mul by lia. ring.
Qed.
Lemma i32_small z : -2000000000 <= z <= 2000000000 -> is_i32 z.
Proof. unfold is_i32. lia. Qed.
Lemma asked_wf hue s t p x e : byte_hues hue -> In s shipped_rooms -> In x (s_extra s) -> within 42 p -> asked_for hue t x e -> stands_off p t x e ->
  wf_entity (norm_ent e) /\ map attr_value (e_attrs (norm_ent e)) = map attr_value (e_attrs e).
Proof.
  intros BH Hi Hx WP (L & R & A) (q & Hq & St).
  pose proof extras_small as F. rewrite forallb_forall in F. specialize (F s Hi). apply Bool.andb_true_iff in F as [F _].
  rewrite forallb_forall in F. assert (In t CARD) as Ht by (destruct t; cbn; tauto). specialize (F t Ht). rewrite forallb_forall in F. specialize (F x Hx).
  apply Bool.andb_true_iff in F as [FP FS]. rewrite forallb_forall in FP. specialize (FP q Hq). apply withinb_ok in FP.
  destruct (stands_f32 e q p FP WP St) as (F1 & F2 & F3). unfold wf_entity, norm_ent. cbn [e_x e_y e_z e_type e_attrs e_links e_reserved]. rewrite L, R.
  assert (Forall is_i32 [] /\ len (@nil Z) < 2 ^ 31 /\ List.length [0; 0; 0] = 3%nat /\ Forall is_char [0; 0; 0]) as TL.
  { split; [constructor|]. split; [reflexivity|]. split; [reflexivity|]. repeat constructor; unfold is_char; lia. }
  assert (forall l ty, e_type e = ty -> e_attrs e = l -> attr_count ty = Some (List.length l) -> 
    Forall (fun a => exists z, (norm_attr a = AInt z \/ norm_attr a = AWeap z) /\ is_i32 z) l -> map attr_value (map norm_attr l) = map attr_value l ->
    (weapon_typed ty -> exists z r, map norm_attr l = AInt z :: r /\ is_weapon z = true) ->
    (is_f32 (e_x e) /\ is_f32 (e_y e) /\ is_f32 (e_z e) /\ attr_count (e_type e) = Some (List.length (map norm_attr (e_attrs e))) /\
     Forall (fun a => exists z, (a = AInt z \/ a = AWeap z) /\ is_i32 z) (map norm_attr (e_attrs e)) /\
     (weapon_typed (e_type e) -> exists z r, (map norm_attr (e_attrs e) = AInt z :: r \/ map norm_attr (e_attrs e) = AWeap z :: r) /\ is_weapon z = true) /\
     Forall is_i32 [] /\ len (@nil Z) < 2 ^ 31 /\ List.length [0; 0; 0] = 3%nat /\ Forall is_char [0; 0; 0]) /\
    map attr_value (map norm_attr (e_attrs e)) = map attr_value (e_attrs e)) as W.
  { intros l ty ET EA C FA V WT. rewrite ET, EA. rewrite map_length, C.
    split; [|exact V]. repeat (split; [assumption || reflexivity|]). split; [rewrite Forall_map; exact FA|].
    split; [|exact TL]. intros HW. destruct (WT HW) as (z & r & E & Z0). exists z, r. auto. }
  assert (forall z, -2000000000 <= z <= 2000000000 -> exists z', (AInt z = AInt z' \/ AInt z = AWeap z') /\ is_i32 z') as WI.
  { intros z Hz. exists z. split; [left; reflexivity|apply i32_small, Hz]. }
  destruct x as [pl sf|off| | |off].
  - destruct A as (Ty & u & r & g & b & Hh & At). specialize (BH u). rewrite Hh in BH. destruct BH as (B1 & B2 & B3). apply Bool.andb_true_iff in FS as [S1 S2].
    apply Z.leb_le in S1. apply Z.leb_le in S2. apply (W _ _ Ty At); [reflexivity| | |intros [?|?]; discriminate].
    + constructor; [|repeat (constructor; [cbn [norm_attr]; apply WI; lia|]); constructor].
      destruct sf as [z|h]; cbn [nmulz num_attr norm_attr halves] in *.
      * apply WI. lia.
      * replace (h * 64) with (h * 32 * 2) by ring. rewrite Z.quot_mul by lia. apply WI. lia.
    + cbn [map]. rewrite halves_norm. reflexivity.
  - destruct A as (Ty & At). apply (W _ _ Ty At); [reflexivity| |reflexivity|intros [?|?]; discriminate].
    repeat (constructor; [cbn [norm_attr]; apply WI; try lia; destruct t; cbn [team_of]; lia|]). constructor.
  - destruct A as (Ty & At). apply (W _ _ Ty At); [reflexivity| |reflexivity|intros _; eexists; eexists; split; reflexivity].
    repeat (constructor; [cbn [norm_attr]; apply WI; lia|]). constructor.
  - destruct A as [(Ty & At)|(Ty & w & Hw & At)]; apply (W _ _ Ty At); try reflexivity.
    + repeat (constructor; [cbn [norm_attr]; apply WI; try lia; Z.div_mod_to_equations; lia|]). constructor.
    + intros _. eexists; eexists; split; reflexivity.
    + repeat (constructor; [cbn [norm_attr]; apply WI; lia|]). constructor.
    + intros _. eexists; eexists; split; [reflexivity|]. destruct Hw as [-> | ->]; reflexivity.
  - destruct A as (Ty & At). apply (W _ _ Ty At); [reflexivity| |reflexivity|intros [?|?]; discriminate].
    repeat (constructor; [cbn [norm_attr]; apply WI; try lia; destruct t; cbn [degrees]; lia|]). constructor.
Qed.
(** What a list of rooms asks for is well formed, and not too many. *)
Lemma rooms_wf_any hue obs ess : byte_hues hue -> Forall (fun ob : obj => within 37 (r_pos (snd ob))) obs -> Forall2 (furnished_at hue) obs ess ->
  Forall (fun e => wf_entity (norm_ent e) /\ map attr_value (e_attrs (norm_ent e)) = map attr_value (e_attrs e)) (List.concat ess) /\
  Z.of_nat (List.length (List.concat ess)) <= 16 * Z.of_nat (List.length obs).
Proof.
  intros BH F FF. induction FF as [|ob es obs ess (s & ES & A & St) FF IH]; [split; [constructor|cbn; lia]|].
  inversion F as [|? ? WP F']; subst. destruct (IH F') as [W L]. cbn [List.concat List.length].
  assert (In s shipped_rooms) as Hi by (unfold shipped_of in ES; apply find_some in ES; tauto).
  split.
  - apply Forall_app. split; [|exact W]. rewrite Forall_forall. intros e He.
    assert (forall l, Forall2 (asked_for hue (r_turn (snd ob))) l es -> Forall2 (stands_off (r_pos (snd ob)) (r_turn (snd ob))) l es -> 
      exists x, In x l /\ asked_for hue (r_turn (snd ob)) x e /\ stands_off (r_pos (snd ob)) (r_turn (snd ob)) x e) as P.
    { clear - He. intros l A. revert He. induction A as [|x y l es Hx A IH]; intros He St; [destruct He|]. inversion St; subst.
      destruct He as [<-|He]; [exists x; split; [left; reflexivity|auto]|]. destruct (IH He) as (x' & Hx' & ?); [assumption|]. exists x'. split; [right; exact Hx'|assumption]. }
    destruct (P _ A St) as (x & Hx & Ax & Sx). apply (asked_wf hue s (r_turn (snd ob)) (r_pos (snd ob)) x e); try assumption.
    destruct (r_pos (snd ob)) as [[a b] h]. unfold within in *. lia.
  - rewrite app_length, Nat2Z.inj_add. pose proof extras_small as G. rewrite forallb_forall in G. specialize (G s Hi). apply Bool.andb_true_iff in G as [_ G].
    apply Z.leb_le in G. rewrite <- (F2_length _ _ _ A). lia.
Qed.
Lemma rooms_wf ctf hue obs ess : byte_hues hue -> Forall (fun ob => of_use ctf ob /\ within 37 (r_pos (snd ob))) obs -> Forall2 (furnished_at hue) obs ess ->
  Forall (fun e => wf_entity (norm_ent e) /\ map attr_value (e_attrs (norm_ent e)) = map attr_value (e_attrs e)) (List.concat ess) /\
  Z.of_nat (List.length (List.concat ess)) <= 16 * Z.of_nat (List.length obs).
Proof. intros BH F. apply (rooms_wf_any hue obs ess BH). apply (Forall_impl _) with (2 := F). intros ob [_ W]. exact W. Qed.

(** ** The whole *)
Lemma furnished_furniture hue ob es : furnished_at hue ob es -> (exists s, In s shipped_rooms /\ r_cls (snd ob) = s_class s) -> furniture hue ob es.
Proof.
  intros (s & ES & A & St) (s' & Hi & Ec). rewrite Ec, (shipped_of_self s' Hi) in ES. assert (s' = s) as -> by congruence.
  exists s. split; [exact Hi|]. split; [congruence|]. split; [exact A|]. intros NB.
  pose proof classes_extras as F. rewrite Forall_forall in F. destruct (F s Hi) as [B|EF]; [contradiction|]. unfold extras_fit in EF. rewrite forallb_forall in EF.
  assert (In (r_turn (snd ob)) CARD) as Ht by (destruct (r_turn (snd ob)); cbn; tauto). specialize (EF _ Ht). rewrite forallb_forall in EF. rewrite Forall_forall.
  intros e He. destruct (Forall2_in_r _ _ _ St e He) as (x & Hx & q & Hq & Sq). specialize (EF x Hx). unfold extra_fits in EF.
  rewrite forallb_forall in EF. specialize (EF q Hq). apply existsb_exists in EF as (c & Hc & Fc).
  exists (t3add (corner (r_pos (snd ob))) q), (cadd (r_pos (snd ob)) (crot (r_turn (snd ob)) c)).
  split; [exact Sq|]. split; [|apply in_cellb_moved; exact Fc].
  rewrite (same_positions s _ Hi Ec), (room_of_eq s _ _ Hi). unfold positions. cbn [r_cls r_pos r_turn r_flags]. apply in_map_iff. exists c. split; [reflexivity|exact Hc].
Qed.
Lemma sun_made : exists sun, sunlight = Ok sun /\ is_sun sun /\ wf_entity sun.
Proof.
  unfold sunlight. destruct (sunlight_lemma (V Base (I 0) (I 0) (I 0)) (AInt 0) (AInt 0) (AInt 128) (AInt 128) (AInt 128) (AInt 45) (AInt 0) (AInt 0)) as (e & E & W & _).
  - unfold exact_pos, exact_coord. cbn. lia.
  - repeat (constructor; [eexists; split; [reflexivity|apply i32_small; lia]|]). constructor.
  - exists e. split; [exact E|]. split; [|exact W]. vm_compute in E. injection E as <-. unfold is_sun. vm_compute. auto 12.
Qed.
Lemma generate_ok fuel e hue vecs tm size n ctf rooms m g st g1 : true_vectors vecs -> manager tm -> mirror_factor n -> good_env e ->
  lay_out fuel e (Some n) false ctf rooms g = (st, None, g1) ->
  exists tm' w m2 g' sun ess, generate fuel e hue vecs tm size (Some n) false ctf rooms m g = (tm', Ok (w, m2, st), g') /\
    laid_out n ctf st /\ disjoint_rooms (u_rooms st) /\
    is_sun sun /\ wf_entity sun /\ more_ents m (sun :: List.concat ess) m2 /\ Forall2 (furnished_at hue) (u_rooms st) ess /\ Forall2 (furniture hue) (u_rooms st) ess /\
    manager tm' /\ keeps_numbers tm tm' /\ stems tm tm' all_colours /\ w_size w = size /\
    ((forall ob d, In ob (u_rooms st) -> In d (positions (snd ob)) -> exists v tex, voxel_in_cell v d /\ has_block tm' (snd ob) v tex) /\
     (forall ob s v q a, In ob (u_rooms st) -> In s shipped_rooms -> s_class s = r_cls (snd ob) -> read_file (s_file s) = Ok v -> voxel_colour (vf_voxels v) q = Some a ->
        exists tex, has_block tm' (snd ob) (frame (r_pos (snd ob)) (facing (r_turn (snd ob))) q) tex)) /\
    (forall x y z tex, get_point w (I x) (I y) (I z) = Some tex <-> exists ob, In ob (u_rooms st) /\ has_block tm' (snd ob) (x, y, z) tex).
Proof.
  intros TV M Hn G E. destruct (lay_out_run n ctf fuel e rooms g st g1 Hn G E) as (g2 & U & L). destruct (rooms_disjoint_lemma _ _ _ U) as [D _].
  assert (Forall (of_use ctf) (u_rooms st)) as F.
  { rewrite Forall_forall. intros ob Hob. destruct (room_bounds n ctf st ob L Hob) as (s & Hs & Ec & _). exists s. auto. }
  destruct sun_made as (sun & ES & IS & WS). set (m1 := apply_edit m (AddEnt sun)).
  destruct (rooms_blocks ctf hue vecs (u_rooms st) tm size m1 g1 TV F D M) as (tm' & w & m2 & g' & ess & R & M' & K & S & ME & FF & SZ & NE & B).
  exists tm', w, m2, g', sun, ess. split; [unfold generate; rewrite E, ES; cbn [add_entity bind]; fold m1; rewrite R; reflexivity|].
  split; [exact L|]. split; [exact D|]. split; [exact IS|]. split; [exact WS|].
  split; [apply (more_app m [sun] m1 _ m2); [|exact ME]; unfold more_ents, m1; cbn; auto 12|].
  split; [exact FF|]. split; [|auto 12].
  assert (forall ob, In ob (u_rooms st) -> exists s, In s shipped_rooms /\ r_cls (snd ob) = s_class s) as HC.
  { intros ob Hob. destruct (room_bounds n ctf st ob L Hob) as (s & Hs & Ec & _). exists s. split; [exact (in_use_shipped ctf s Hs)|exact Ec]. }
  clear - FF HC. induction FF as [|ob es obs ess H FF IH]; constructor.
  - apply furnished_furniture; [exact H|]. apply HC. left. reflexivity.
  - apply IH. intros ob' Ho. apply HC. right. exact Ho.
Qed.
Lemma norm_wf e : wf_entity e -> norm_ent e = e.
Proof.
  intros (_ & _ & _ & _ & F & _). destruct e as [x y z ty at_ l r]. unfold norm_ent. cbn [e_x e_y e_z e_type e_attrs e_links e_reserved] in *. f_equal.
  induction F as [|a at_ (v & [-> | ->] & _) F IH]; [reflexivity| |]; cbn [map norm_attr]; rewrite IH; reflexivity.
Qed.
Lemma start_cell n ctf st : mirror_factor n -> laid_out n ctf st -> exists ob d, In ob (u_rooms st) /\ In d (positions (snd ob)) /\
  (let '(x, y, z) := d in 0 <= x < 16 /\ 0 <= y < 16 /\ 0 <= z < 16).
Proof.
  intros Hn (placed & caps & E & _). exists (O, start_room ctf).
  assert (exists d, In d (positions (start_room ctf)) /\ (let '(x, y, z) := d in 0 <= x < 16 /\ 0 <= y < 16 /\ 0 <= z < 16)) as (d & Hd & B).
  { assert (existsb (fun d => let '(x, y, z) := d in (0 <=? x) && (x <? 16) && (0 <=? y) && (y <? 16) && (0 <=? z) && (z <? 16)) (positions (start_room ctf)) = true) as X
      by (destruct ctf; vm_compute; reflexivity).
    apply existsb_exists in X as (d & Hd & B). exists d. split; [exact Hd|]. destruct d as [[x y] z]. rewrite !Bool.andb_true_iff, !Z.leb_le, !Z.ltb_lt in B. lia. }
  exists d. split; [|auto]. rewrite E. apply in_or_app. left.
  assert (mirror_room T0 (start_room ctf) = start_room ctf) as EM by (destruct ctf; vm_compute; reflexivity).
  destruct Hn as [-> | [-> | ->]]; unfold turns_of; cbn [Z.eqb Pos.eqb map List.length seq combine]; left; rewrite EM; reflexivity.
Qed.
Lemma generated k fuel fuelo e hue vecs tm n ctf rooms m ws g st g1 :
  true_vectors vecs -> byte_hues hue -> manager tm -> mirror_factor n -> good_env e ->
  (7 <= k)%nat -> (S k < fuelo)%nat -> wf_map m -> header_size m = Some ws -> 2 ^ Z.of_nat (S k) <= ws <= 8192 ->
  Z.of_nat (List.length (tm_atlas tm)) <= 57000 -> len (m_ents m) <= 2 ^ 30 ->
  lay_out fuel e (Some n) false ctf rooms g = (st, None, g1) ->
  exists tm' w m2 g' sun ess bs m', generate fuel e hue vecs tm (2 ^ Z.of_nat (S k)) (Some n) false ctf rooms m g = (tm', Ok (w, m2, st), g') /\
    output_map fuelo w m2 = Ok bs /\ read_rest bs = Ok (m', []) /\ same_settings m m' /\
    laid_out n ctf st /\ disjoint_rooms (u_rooms st) /\
    (forall x y z tex, 0 <= x < 2 ^ Z.of_nat (S k) -> 0 <= y < 2 ^ Z.of_nat (S k) -> 0 <= z < 2 ^ Z.of_nat (S k) ->
       (world_lookup (S k) m' x y z = Some tex <-> exists ob, In ob (u_rooms st) /\ has_block tm' (snd ob) (x, y, z) tex)) /\
    m_ents m2 = m_ents m ++ sun :: List.concat ess /\ is_sun sun /\ Forall2 (furnished_at hue) (u_rooms st) ess /\
    Forall2 (furniture hue) (u_rooms st) ess /\ Forall2 same_entity (m_ents m2) (m_ents m').
Proof.
  intros TV BH M Hn G Hk Hf WM HS Hws HA HE E.
  destruct (generate_ok fuel e hue vecs tm (2 ^ Z.of_nat (S k)) n ctf rooms m g st g1 TV M Hn G E)
    as (tm' & w & m2 & g' & sun & ess & EG & L & D & IS & WS & ME & FA & FF & M' & K & S0 & SZ & [NE _] & B).
  assert (Forall (fun ob => of_use ctf ob /\ within 37 (r_pos (snd ob))) (u_rooms st)) as FU.
  { rewrite Forall_forall. intros ob Hob. destruct (room_bounds n ctf st ob L Hob) as (s & Hs & Ec & W). split; [exists s; auto|exact W]. }
  destruct (rooms_wf ctf hue (u_rooms st) ess BH FU FA) as [WE LE]. pose proof (room_count n ctf st L D) as RC.
  pose proof ME as (Ee & E1 & E2 & E3 & E4 & E5 & E6 & E7 & E8 & E9).
  assert (forall e0, In e0 (m_ents m2) -> wf_entity (norm_ent e0) /\ map attr_value (e_attrs (norm_ent e0)) = map attr_value (e_attrs e0)) as WA.
  { intros e0 He. rewrite Ee in He. destruct WM as (_ & _ & _ & _ & _ & _ & _ & _ & _ & _ & WO & _). rewrite Forall_forall in WO, WE.
    apply in_app_or in He as [He|[<-|He]]; [|rewrite (norm_wf sun WS); auto|auto]. rewrite (norm_wf e0 (WO e0 He)). auto. }
  set (mn := norm_map (set_numents m2)).
  assert (len (m_ents m2) < 2 ^ 31) as LE2.
  { unfold len in *. rewrite Ee, app_length. cbn [List.length]. lia. }
  assert (wf_map mn) as WN.
  { destruct WM as (W1 & W2 & W3 & (h & Hh & Hm & Hsl & Hwd) & L1 & L2 & Nd & Wv & Lt & Wt & WO & Wvs & W8). unfold wf_map, mn, norm_map, set_numents.
    cbn [m_magic m_version m_headersize m_meta m_vars m_texmru m_ents m_vslots m_chg m_world]. rewrite E1, E2, E3, E4, E5, E6, E7, E8, E9.
    do 3 (split; [assumption|]). split; [exists h; rewrite Hm; split; [exact Hh|split; [unfold len; rewrite map_length; reflexivity|auto]]|].
    split; [unfold len in *; rewrite map_length; exact LE2|]. do 5 (split; [assumption|]). split; [|auto].
    rewrite Forall_map, Forall_forall. intros e0 He. apply WA, He. }
  assert (header_size mn = Some ws) as HSn.
  { destruct WM as (_ & _ & _ & (h & _ & Hm & _) & _). unfold header_size, mn, norm_map, set_numents in *. cbn [m_meta]. rewrite E4, Hm in *. exact HS. }
  destruct (output_lemma k fuelo w mn ws) as (bs & m' & EO & ER & SR & WL); try assumption.
  - lia.
  - intros x y z tex Hg. apply B in Hg as (ob & _ & s & v & q & a & r & g0 & b & al & num & _ & _ & _ & _ & _ & _ & N & ->).
    split; [apply repeat_length|]. pose proof (numbered_small tm tm' all_colours _ _ M S0 N) as NS. pose proof count_colours as CC.
    rewrite Forall_forall. intros u Hu. apply repeat_spec in Hu. subst u. unfold is_u16. lia.
  - destruct (start_cell n ctf st Hn L) as (ob & d & Hob & Hd & Bd). destruct (NE ob d Hob Hd) as ([[x y] z] & tex & Hv & HB).
    exists x, y, z. assert (2 ^ 7 <= 2 ^ Z.of_nat k) as P by (apply Z.pow_le_mono_r; lia). change (2 ^ 7) with 128 in P.
    destruct d as [[a b] h]. cbn [voxel_in_cell] in Hv. split; [lia|]. rewrite (proj2 (B x y z tex)) by eauto. discriminate.
  - unfold mn in EO. rewrite output_norm in EO. exists tm', w, m2, g', sun, ess, bs, m'. split; [exact EG|]. split; [exact EO|]. split; [exact ER|].
    destruct SR as (R1 & R2 & R3 & R4 & R5 & R6 & R7 & R8 & R9). unfold mn, norm_map, set_numents in R1, R2, R3, R4, R5, R6, R7, R8, R9.
    cbn [m_magic m_version m_headersize m_meta m_vars m_texmru m_ents m_vslots m_chg m_world] in R1, R2, R3, R4, R5, R6, R7, R8, R9.
    assert (List.length (m_ents m') = List.length (m_ents m2)) as EL by (rewrite <- (F2_length _ _ _ R7), map_length; reflexivity).
    split.
    { unfold same_settings. rewrite R1, R2, R3, R4, R6, R8, R9, EL, E1, E2, E3, E4, E6, E7, E8. rewrite <- E5.
      do 4 (split; [reflexivity|]). split; [exact R5|]. auto. }
    split; [exact L|]. split; [exact D|]. split.
    { intros x y z tex Hx Hy Hz. rewrite WL by (rewrite SZ; assumption). apply B. }
    split; [exact Ee|]. split; [exact IS|]. split; [exact FA|]. split; [exact FF|].
    assert (forall l l', Forall2 same_entity (map norm_ent l) l' -> (forall e0, In e0 l -> map attr_value (e_attrs (norm_ent e0)) = map attr_value (e_attrs e0)) -> Forall2 same_entity l l') as Q.
    { clear. induction l as [|a l IH]; intros l' F H; inversion F as [|? b ? l2 Hab F2]; subst; constructor.
      - destruct Hab as (X & Y & Z0 & T & V & Lk & Rs). unfold same_entity. unfold norm_ent in X, Y, Z0, T, Lk, Rs. cbn [e_x e_y e_z e_type e_links e_reserved] in *.
        rewrite V, (H a (or_introl eq_refl)). auto 12.
      - apply IH; [exact F2|]. intros e0 He. apply H. right. exact He. }
    apply Q; [exact R7|]. intros e0 He. apply WA, He.
Qed.

(** ** Flags *)
Lemma flags_app l l' : flags_of (l ++ l') = flags_of l ++ flags_of l'.
Proof. apply filter_app. Qed.
Lemma room_flags hue ob es s : In s shipped_rooms -> r_cls (snd ob) = s_class s -> furnished_at hue ob es -> furniture hue ob es ->
  (has_flag s = false -> flags_of es = []) /\
  (has_flag s = true -> ~ In s bad_extras -> exists e, flags_of es = [e] /\ flag_in (snd ob) e).
Proof.
  intros Hi Ec (s1 & ES & A & _) (s2 & Hi2 & Ec2 & _ & IN).
  assert (s1 = s) as -> by (rewrite Ec, (shipped_of_self s Hi) in ES; congruence).
  assert (s2 = s) as -> by (pose proof (shipped_of_self s2 Hi2) as Q; rewrite Ec2, Ec, (shipped_of_self s Hi) in Q; congruence).
  destruct (flag_count hue (r_turn (snd ob)) _ _ A) as (fs & Ef & Af). fold (flags_of es) in Ef. split.
  - intros HF. rewrite Ef. destruct (filter _ (s_extra s)) as [|x l] eqn:EX; [inversion Af; reflexivity|]. exfalso.
    assert (In x (filter (fun x => match x with XFlag _ => true | _ => false end) (s_extra s))) as Hx by (rewrite EX; left; reflexivity).
    apply filter_In in Hx as [Hx E]. assert (has_flag s = true); [|congruence]. apply existsb_exists. exists x. auto.
  - intros HF NB. pose proof flags_good as FG. rewrite Forall_forall in FG. destruct (FG s Hi) as [?|(_ & _ & L1)]; [congruence|].
    destruct (filter _ (s_extra s)) as [|x [|? ?]] eqn:EX; try discriminate. destruct fs as [|e [|? ?]]; [inversion Af| |inversion Af as [|? ? ? ? ? Af2]; inversion Af2].
    assert (asked_for hue (r_turn (snd ob)) x e) as Ae by (inversion Af; assumption). exists e. split; [exact Ef|]. split.
    + assert (In x (filter (fun x => match x with XFlag _ => true | _ => false end) (s_extra s))) as Hx by (rewrite EX; left; reflexivity).
      apply filter_In in Hx as [_ Hx]. destruct x; try discriminate. destruct Ae as (_ & _ & _ & At). rewrite At. reflexivity.
    + specialize (IN NB). rewrite Forall_forall in IN. apply IN.
      assert (In e (flags_of es)) as He by (rewrite Ef; left; reflexivity). apply filter_In in He. tauto.
Qed.
Lemma others_plain : Forall (fun s => has_flag s = false) (station_tubeX :: possible_rooms ++ possible_endcaps).
Proof. unfold possible_rooms, possible_endcaps. cbn [app]. repeat (apply Forall_cons; [vm_compute; reflexivity|]). apply Forall_nil. Qed.
Lemma flagroom_fine : ~ In station_flagroom bad_extras.
Proof.
  intros H. apply (in_map (fun s => rc_id (s_class s))) in H. unfold bad_extras in H. cbn [map] in H.
  repeat (destruct H as [H|H]; [vm_compute in H; discriminate|]). destruct H.
Qed.
Lemma plain_rooms hue : forall obs ess, Forall2 (furnished_at hue) obs ess -> Forall2 (furniture hue) obs ess ->
  Forall (fun ob => exists s, In s shipped_rooms /\ r_cls (snd ob) = s_class s /\ has_flag s = false) obs -> flags_of (List.concat ess) = [].
Proof.
  intros obs ess FA. induction FA as [|ob es obs ess H FA IH]; intros FF P; [reflexivity|].
  inversion FF; subst. inversion P as [|? ? (s & Hi & Ec & HF) P']; subst. cbn [List.concat]. rewrite flags_app.
  destruct (room_flags hue ob es s Hi Ec) as [N _]; [assumption|assumption|]. rewrite (N HF). apply IH; assumption.
Qed.
Lemma start_flags hue : forall ids ts obs ess, Forall2 (furnished_at hue) (combine ids (map (fun t => mirror_room t (start_room true)) ts) ++ obs) ess ->
  Forall2 (furniture hue) (combine ids (map (fun t => mirror_room t (start_room true)) ts) ++ obs) ess -> List.length ids = List.length ts ->
  Forall (fun ob => exists s, In s shipped_rooms /\ r_cls (snd ob) = s_class s /\ has_flag s = false) obs ->
  Forall2 flag_in (map (fun t => mirror_room t (start_room true)) ts) (flags_of (List.concat ess)).
Proof.
  induction ids as [|i ids IH]; intros [|t ts] obs ess FA FF L P; try discriminate.
  - cbn [combine map app] in *. rewrite (plain_rooms hue obs ess FA FF P). constructor.
  - cbn [combine map app] in *. inversion FA as [|? es ? ess' A1 FA']; subst. inversion FF as [|? ? ? ? A2 FF']; subst. cbn [List.concat]. rewrite flags_app.
    destruct (room_flags hue (i, mirror_room t (start_room true)) es station_flagroom (first_shipped true)) with (2 := A1) as [_ Q].
    { unfold start_room. rewrite (room_of_eq _ _ _ (first_shipped true)). reflexivity. }
    { exact A2. }
    destruct Q as (e & -> & Fe); [vm_compute; reflexivity|exact flagroom_fine|]. cbn [app]. constructor; [exact Fe|].
    apply (IH ts obs ess'); try assumption. cbn in L. lia.
Qed.
Lemma flag_lemma hue n (ctf : bool) st m m2 sun ess : laid_out n ctf st -> m_ents m2 = m_ents m ++ sun :: List.concat ess -> is_sun sun ->
  Forall2 (furnished_at hue) (u_rooms st) ess -> Forall2 (furniture hue) (u_rooms st) ess ->
  exists fs, flags_of (m_ents m2) = flags_of (m_ents m) ++ fs /\
    Forall2 flag_in (if ctf then map (fun t => mirror_room t (start_room true)) (turns_of n) else []) fs.
Proof.
  intros (placed & caps & E & P & C) Em IS FA FF. exists (flags_of (List.concat ess)). rewrite Em, flags_app.
  assert (flags_of (sun :: List.concat ess) = flags_of (List.concat ess)) as -> by (unfold flags_of; cbn [filter]; destruct IS as [-> _]; reflexivity).
  split; [reflexivity|]. pose proof others_plain as OP. rewrite Forall_forall in OP.
  assert (Forall (fun ob => exists s, In s shipped_rooms /\ r_cls (snd ob) = s_class s /\ has_flag s = false) (placed ++ caps)) as PL.
  { rewrite Forall_forall. intros ob Hob. apply in_app_or in Hob as [Hob|Hob].
    - destruct (P ob Hob) as (s & Hs & Ec & _). exists s. split; [exact (rooms_shipped s Hs)|]. split; [exact Ec|]. apply OP. right. apply in_or_app. left. exact Hs.
    - destruct (C ob Hob) as (s & Hs & Ec & _). exists s. split; [exact (caps_shipped s Hs)|]. split; [exact Ec|]. apply OP. right. apply in_or_app. right. exact Hs. }
  rewrite E in FA, FF. destruct ctf.
  - apply (start_flags hue (seq 0 (List.length (turns_of n))) _ (placed ++ caps)); try assumption. apply seq_length.
  - rewrite (plain_rooms hue _ _ FA FF); [constructor|]. apply Forall_app. split; [|exact PL]. rewrite Forall_forall. intros [i r] Hob.
    apply in_combine_r in Hob. apply in_map_iff in Hob as (t & <- & _). exists station_tubeX. split; [exact (first_shipped false)|].
    unfold start_room. rewrite (room_of_eq _ _ _ (first_shipped false)). split; [reflexivity|]. apply OP. left. reflexivity.
Qed.
Lemma teams_distinct n : mirror_factor n -> NoDup (map (fun t => team_of (r_turn (mirror_room t (start_room true)))) (turns_of n)).
Proof.
  intros [-> | [-> | ->]]; vm_compute; repeat (constructor; [cbn; intuition discriminate|]); constructor.
Qed.

(** ** The graph *)
Lemma link_lemma fuel e n ctf rooms g st g' : mirror_factor n -> good_env e -> lay_out fuel e (Some n) false ctf rooms g = (st, None, g') ->
  forall a b, In (a, b) (u_links st) -> exists oa ob, In oa (u_rooms st) /\ In ob (u_rooms st) /\ r_pos (snd oa) = a /\ r_pos (snd ob) = b /\
    (In a (positions (snd oa)) -> link_end st a = Some (fst oa)) /\ (In b (positions (snd ob)) -> link_end st b = Some (fst ob)).
Proof.
  intros Hn G E a b Hab. destruct (lay_out_run n ctf fuel e rooms g st g' Hn G E) as (g1 & U & _). destruct (rooms_disjoint_lemma _ _ _ U) as [_ O].
  destruct (start_registers n ctf Hn) as (st0 & E0 & M0 & _). cbn [urun ustep] in U. rewrite E0 in U.
  destruct (place_rooms fuel e st0 (map s_class possible_rooms) rooms g) as [[st1 [k|x]] g3] eqn:EP; [|discriminate].
  assert (urun [ORegister (start_room ctf); OPlace fuel e (map s_class possible_rooms) rooms g] (upm_init (Some n) false) = Some st1) as U1
    by (cbn [urun ustep]; rewrite E0, EP; reflexivity).
  destruct (endcap false (map s_class possible_endcaps) st1 g1) as [[st2 x] g2] eqn:EC. destruct (endcap_ok_lemma _ _ _ _ _ _ EC) as (-> & EL & caps & ER & _).
  assert (st2 = st) as -> by congruence.
  assert (exists ts, rotations st1 = Some ts) as (ts & ET).
  { unfold place_rooms in EP. destruct (place_loop_count _ _ _ _ _ _ _ _ _ _ EP) as (_ & PM & _). unfold rotations. rewrite PM, M0.
    destruct Hn as [-> | [-> | ->]]; eexists; reflexivity. }
  rewrite EL in Hab. destruct (links_lemma [ORegister (start_room ctf); OPlace fuel e (map s_class possible_rooms) rooms g] _ _ _ _ eq_refl eq_refl U1 ET) as (L & _). destruct (L a b Hab) as (oa & ob & Ha & Hb & Pa & Pb).
  assert (incl (u_rooms st1) (u_rooms st)) as I by (intros o Ho; rewrite ER; apply in_or_app; left; exact Ho).
  exists oa, ob. split; [exact (I oa Ha)|]. split; [exact (I ob Hb)|]. split; [exact Pa|]. split; [exact Pb|]. unfold link_end.
  split; intros Hin.
  - rewrite (proj2 (O a oa)) by auto. reflexivity.
  - rewrite (proj2 (O b ob)) by auto. reflexivity.
Qed.
Lemma graph_lemma fuel e n ctf rooms g st g' : mirror_factor n -> good_env e -> lay_out fuel e (Some n) false ctf rooms g = (st, None, g') ->
  true_nodes st /\ List.length (graph_links st) = List.length (u_links st) /\
  forall i a b, nth_error (u_links st) i = Some (a, b) -> exists oa ob ea eb, nth_error (graph_links st) i = Some (ea, eb) /\
    In oa (u_rooms st) /\ In ob (u_rooms st) /\ r_pos (snd oa) = a /\ r_pos (snd ob) = b /\
    (In a (positions (snd oa)) -> ea = Some (fst oa)) /\ (In b (positions (snd ob)) -> eb = Some (fst ob)).
Proof.
  intros Hn G E. split; [|split].
  - destruct (lay_out_run n ctf fuel e rooms g st g' Hn G E) as (g1 & U & _). apply urun_any_agrees in U.
    pose proof (Iany_history [ORegister (start_room ctf); OPlace fuel e (map s_class possible_rooms) rooms g; OEndcap false (map s_class possible_endcaps) g1] (Some n) false) as (_ & _ & _ & ND).
    rewrite U in ND. clear - ND. unfold true_nodes, graph_nodes. rewrite <- (map_map fst Some). split.
    + constructor; [rewrite in_map_iff; intros (x & X & _); discriminate|]. apply FinFun.Injective_map_NoDup; [|exact ND]. intros x y X. congruence.
    + intros o. cbn [In]. rewrite in_map_iff. split.
      * intros [<-|(x & <- & Hx)]; [left; reflexivity|]. apply in_map_iff in Hx as (ob & <- & Hob). right. eauto.
      * intros [->|(ob & Hob & ->)]; [left; reflexivity|]. right. exists (fst ob). split; [reflexivity|]. apply in_map. exact Hob.
  - unfold graph_links. apply map_length.
  - intros i a b Hi. destruct (link_lemma fuel e n ctf rooms g st g' Hn G E a b (nth_error_In _ _ Hi)) as (oa & ob & Ha & Hb & Pa & Pb & La & Lb).
    exists oa, ob, (link_end st a), (link_end st b). unfold graph_links. rewrite nth_error_map, Hi. cbn [option_map fst snd]. auto 8.
Qed.
(** An execution of the layout with default options (60 rooms). *)
Definition sample_env : env := env_of castle_dist (fun q => q).
Lemma sample_good : good_env sample_env.
Proof. apply managers_env; [|auto]. unfold managers. cbn. tauto. Qed.
Definition far (c : cell) : bool := let '(x, y, z) := c in (32 <=? x) || (32 <=? y) || (32 <=? z).
Definition facts (st : upm) : bool :=
  existsb (fun ab => match link_end st (fst ab) with None => true | _ => false end) (u_links st) &&
  existsb (fun ab => match link_end st (fst ab) with
                     | Some i => forallb (fun ob : obj => negb (Nat.eqb (fst ob) i && cell_eqb (r_pos (snd ob)) (fst ab))) (u_rooms st)
                     | None => false end) (u_links st) &&
  existsb (fun ob : obj => existsb far (positions (snd ob))) (u_rooms st).
Definition run_facts (r : upm * option exn * rng) : bool := match r with (st, None, _) => facts st | _ => false end.
Lemma run_facts_inv r : run_facts r = true -> exists st g', r = (st, None, g') /\ facts st = true.
Proof. destruct r as [[st [x|]] g']; cbn [run_facts]; [discriminate|eauto]. Qed.
Lemma sample_facts : run_facts (lay_out 400 sample_env (Some 2) false false 60 stream) = true.
Proof. vm_compute. reflexivity. Qed.
Lemma graph_false : exists fuel e rooms g st g', good_env e /\ lay_out fuel e (Some 2) false false rooms g = (st, None, g') /\ ~ true_links st /\
  (exists i eb, nth_error (graph_links st) i = Some (None, eb)) /\
  (exists i a b k eb, nth_error (u_links st) i = Some (a, b) /\ nth_error (graph_links st) i = Some (Some k, eb) /\
     forall ob, In ob (u_rooms st) -> fst ob = k -> r_pos (snd ob) <> a).
Proof.
  destruct (run_facts_inv _ sample_facts) as (st & g' & E & F). apply Bool.andb_true_iff in F as [F _]. apply Bool.andb_true_iff in F as [H2 H3].
  exists 400%nat, sample_env, 60, stream, st, g'. split; [exact sample_good|]. split; [exact E|].
  assert (exists i eb, nth_error (graph_links st) i = Some (None, eb)) as X.
  { apply existsb_exists in H2 as ((a & b) & Hab & H2). cbn [fst] in H2. destruct (In_nth_error _ _ Hab) as (i & Hi). exists i, (link_end st b).
    unfold graph_links. rewrite nth_error_map, Hi. cbn [option_map fst snd]. destruct (link_end st a); [discriminate|reflexivity]. }
  split; [|split; [exact X|]].
  - destruct X as (i & eb & X). intros T. destruct (nth_error (u_links st) i) as [[a b]|] eqn:Hi.
    + destruct (T i a b Hi) as (oa & ob & _ & _ & _ & _ & Y). congruence.
    + apply nth_error_None in Hi. assert (nth_error (graph_links st) i = None) as Y by (apply nth_error_None; unfold graph_links; rewrite map_length; exact Hi). congruence.
  - apply existsb_exists in H3 as ((a & b) & Hab & H3). cbn [fst] in H3. destruct (link_end st a) as [k|] eqn:EL; [|discriminate].
    destruct (In_nth_error _ _ Hab) as (i & Hi). exists i, a, b, k, (link_end st b). split; [exact Hi|].
    split; [unfold graph_links; rewrite nth_error_map, Hi; cbn [option_map fst snd]; rewrite EL; reflexivity|]. intros ob Hob Ei Ep. rewrite forallb_forall in H3. specialize (H3 ob Hob).
    rewrite Ei, Ep, Nat.eqb_refl in H3. destruct a as [[u v] w]. cbn [cell_eqb] in H3. rewrite !Z.eqb_refl in H3. discriminate.
Qed.
(** Rooms outside of the world. *)
Lemma lost_blocks hue vecs tm m : true_vectors vecs -> manager tm ->
  exists fuel e rooms g tm' w m2 st g', good_env e /\ generate fuel e hue vecs tm 256 (Some 2) false false rooms m g = (tm', Ok (w, m2, st), g') /\
    exists ob p tex, In ob (u_rooms st) /\ has_block tm' (snd ob) p tex /\ ~ in_world 256 p.
Proof.
  intros TV M. destruct (run_facts_inv _ sample_facts) as (st & g1 & E & F). apply Bool.andb_true_iff in F as [_ H4].
  destruct (generate_ok 400 sample_env hue vecs tm 256 2 false 60 m stream st g1 TV M) as (tm' & w & m2 & g' & sun & ess & EG & L & _ & _ & _ & _ & _ & _ & _ & _ & _ & _ & [NE _] & _);
    [right; left; reflexivity|exact sample_good|exact E|].
  exists 400%nat, sample_env, 60, stream, tm', w, m2, st, g'. split; [exact sample_good|]. split; [exact EG|].
  apply existsb_exists in H4 as (ob & Hob & H4). apply existsb_exists in H4 as (d & Hd & FD). destruct (NE ob d Hob Hd) as (p & tex & Hp & HB).
  exists ob, p, tex. split; [exact Hob|]. split; [exact HB|]. destruct p as [[x y] z], d as [[a b] h]. cbn [voxel_in_cell in_world far] in *.
  rewrite !Bool.orb_true_iff, !Z.leb_le in FD. lia.
Qed.

(** ** Assembly *)
Lemma block_cell vecs tm r p tex : true_vectors vecs -> has_block tm r p tex -> exists d, In d (positions r) /\ voxel_in_cell p d.
Proof.
  intros TV (s & v & q & a & r0 & g0 & b & al & n & Hi & Ec & Ev & Col & Fq & _). destruct (TV (O, r)) as [HP HO]. cbn [snd] in HP, HO.
  destruct (reserved s (r_pos r) (r_turn r) (fst (vecs (O, r))) (snd (vecs (O, r))) Hi) as (v' & ps & Ev' & _ & _ & _ & RS).
  { rewrite (room_of_eq s _ _ Hi). split; assumption. }
  assert (v' = v) as -> by congruence.
  exists (let '(x, y, z) := p in (x / 8, y / 8, z / 8)). split; [|apply cell_of].
  rewrite (same_positions s r Hi (eq_sym Ec)). apply RS. exists q, a. split; [exact Col|]. rewrite Fq. apply cell_of.
Qed.
Lemma map_file : forall k fuelo e hue vecs tm n ctf rooms m ws g,
  true_vectors vecs -> byte_hues hue -> manager tm -> mirror_factor n -> good_env e ->
  (7 <= k)%nat -> (S k < fuelo)%nat -> wf_map m -> header_size m = Some ws -> 2 ^ Z.of_nat (S k) <= ws <= 8192 ->
  Z.of_nat (List.length (tm_atlas tm)) <= 57000 -> len (m_ents m) <= 2 ^ 30 ->
  exists fuel0, forall fuel, (fuel0 <= fuel)%nat -> exists tm' w m2 st g' bs m',
    generate fuel e hue vecs tm (2 ^ Z.of_nat (S k)) (Some n) false ctf rooms m g = (tm', Ok (w, m2, st), g') /\
    output_map fuelo w m2 = Ok bs /\ read_rest bs = Ok (m', []) /\ same_settings m m' /\ disjoint_rooms (u_rooms st) /\
    (forall x y z tex, in_world (2 ^ Z.of_nat (S k)) (x, y, z) ->
       (world_lookup (S k) m' x y z = Some tex <-> exists ob, In ob (u_rooms st) /\ has_block tm' (snd ob) (x, y, z) tex)) /\
    (exists sun ess, m_ents m2 = m_ents m ++ sun :: List.concat ess /\ is_sun sun /\ Forall2 (furniture hue) (u_rooms st) ess) /\
    Forall2 same_entity (m_ents m2) (m_ents m').
Proof.
  intros k fuelo e hue vecs tm n ctf rooms m ws g TV BH M Hn G Hk Hf WM HS Hws HA HE. destruct (lay_out_total n ctf e rooms g Hn G) as (fuel0 & T).
  exists fuel0. intros fuel Hl. destruct (T fuel Hl) as (st & g1 & E).
  destruct (generated k fuel fuelo e hue vecs tm n ctf rooms m ws g st g1 TV BH M Hn G Hk Hf WM HS Hws HA HE E)
    as (tm' & w & m2 & g' & sun & ess & bs & m' & EG & EO & ER & SS & _ & D & B & EE & IS & _ & FF & SE).
  exists tm', w, m2, st, g', bs, m'. repeat (split; [assumption|]). split; [intros x y z tex (Hx & Hy & Hz); apply B; assumption|].
  split; [exists sun, ess; auto|exact SE].
Qed.
Lemma generate_total e hue vecs tm size n ctf rooms m g : true_vectors vecs -> manager tm -> mirror_factor n -> good_env e ->
  exists fuel0, forall fuel, (fuel0 <= fuel)%nat -> exists tm' w m2 st g',
    generate fuel e hue vecs tm size (Some n) false ctf rooms m g = (tm', Ok (w, m2, st), g').
Proof.
  intros TV M Hn G. destruct (lay_out_total n ctf e rooms g Hn G) as (fuel0 & T). exists fuel0. intros fuel Hl. destruct (T fuel Hl) as (st & g1 & E).
  destruct (generate_ok fuel e hue vecs tm size n ctf rooms m g st g1 TV M Hn G E) as (tm' & w & m2 & g' & sun & ess & EG & _). eauto 8.
Qed.
Lemma generate_lays fuel e hue vecs tm size mi debug ctf rooms m g tm' w m2 st g' :
  generate fuel e hue vecs tm size mi debug ctf rooms m g = (tm', Ok (w, m2, st), g') -> exists g1, lay_out fuel e mi debug ctf rooms g = (st, None, g1).
Proof.
  unfold generate. destruct (lay_out fuel e mi debug ctf rooms g) as [[st1 [x|]] g1]; [discriminate|].
  destruct (add_entity m sunlight) as [m1|]; [|discriminate]. destruct (render_rooms hue vecs (u_rooms st1) tm (new_world size) m1 g1) as [[tm1 [[w1 m3]|x]] g2]; [|discriminate].
  intros E. exists g1. congruence.
Qed.
Lemma ctf_flags fuel e hue vecs tm size n (ctf : bool) rooms m g tm' w m2 st g' : true_vectors vecs -> manager tm -> mirror_factor n -> good_env e ->
  generate fuel e hue vecs tm size (Some n) false ctf rooms m g = (tm', Ok (w, m2, st), g') ->
  exists bases fs, (forall r, In r bases -> exists i, In (i, r) (u_rooms st)) /\
    bases = (if ctf then map (fun t => mirror_room t (start_room true)) (turns_of n) else []) /\
    flags_of (m_ents m2) = flags_of (m_ents m) ++ fs /\ Forall2 flag_in bases fs /\ NoDup (map (fun r => team_of (r_turn r)) bases).
Proof.
  intros TV M Hn G EG. destruct (generate_lays _ _ _ _ _ _ _ _ _ _ _ _ _ _ _ _ _ EG) as (g1 & E).
  destruct (generate_ok fuel e hue vecs tm size n ctf rooms m g st g1 TV M Hn G E) as (tm2 & w2 & m3 & g3 & sun & ess & EG2 & L & _ & IS & _ & ME & FA & FF & _).
  assert (m3 = m2) as -> by congruence. destruct ME as (EE & _). destruct (flag_lemma hue n ctf st m m2 sun ess L EE IS FA FF) as (fs & EF & F2).
  exists (if ctf then map (fun t => mirror_room t (start_room true)) (turns_of n) else []), fs. split; [|split; [reflexivity|]].
  - destruct L as (placed & caps & ER & _). destruct ctf; [|intros r []]. intros r Hr. destruct (In_nth_error _ _ Hr) as (i & Hi).
    assert (i < List.length (turns_of n))%nat as Hl by (rewrite <- (map_length (fun t => mirror_room t (start_room true))); apply nth_error_Some; congruence).
    exists i. rewrite ER. apply in_or_app. left. apply (nth_error_In _ i).
    assert (forall (l : list room) k j, nth_error l j = Some r -> nth_error (combine (seq k (List.length l)) l) j = Some (k + j, r)%nat) as Q.
    { clear. induction l as [|a l IH]; intros k [|j] Hj; try discriminate; cbn [List.length seq combine nth_error] in *.
      - rewrite Nat.add_0_r. congruence.
      - rewrite (IH (S k) j Hj). f_equal. f_equal. lia. }
    specialize (Q _ O i Hi). rewrite map_length in Q. exact Q.
  - split; [exact EF|]. split; [exact F2|]. destruct ctf; [|constructor]. rewrite map_map. exact (teams_distinct n Hn).
Qed.
Lemma kept_blocks k fuel fuelo e hue vecs tm n ctf rooms m ws g tm' w m2 st g' bs m' :
  true_vectors vecs -> byte_hues hue -> manager tm -> mirror_factor n -> good_env e ->
  (7 <= k)%nat -> (S k < fuelo)%nat -> wf_map m -> header_size m = Some ws -> 2 ^ Z.of_nat (S k) <= ws <= 8192 ->
  Z.of_nat (List.length (tm_atlas tm)) <= 57000 -> len (m_ents m) <= 2 ^ 30 ->
  generate fuel e hue vecs tm (2 ^ Z.of_nat (S k)) (Some n) false ctf rooms m g = (tm', Ok (w, m2, st), g') ->
  output_map fuelo w m2 = Ok bs -> read_rest bs = Ok (m', []) ->
  forall ob, In ob (u_rooms st) -> (forall c, In c (positions (snd ob)) -> in_world (2 ^ Z.of_nat (S k) / 8) c) ->
  forall x y z tex, has_block tm' (snd ob) (x, y, z) tex -> world_lookup (S k) m' x y z = Some tex.
Proof.
  intros TV BH M Hn G Hk Hf WM HS Hws HA HE EG EO ER ob Hob Hin x y z tex HB.
  destruct (generate_lays _ _ _ _ _ _ _ _ _ _ _ _ _ _ _ _ _ EG) as (g1 & E).
  destruct (generated k fuel fuelo e hue vecs tm n ctf rooms m ws g st g1 TV BH M Hn G Hk Hf WM HS Hws HA HE E)
    as (tm2 & w2 & m3 & g3 & sun & ess & bs2 & m4 & EG2 & EO2 & ER2 & _ & _ & _ & B & _).
  assert (tm2 = tm' /\ w2 = w /\ m3 = m2) as (-> & -> & ->) by (split; [|split]; congruence). assert (bs2 = bs) as -> by congruence. assert (m4 = m') as -> by congruence.
  destruct (block_cell vecs tm' (snd ob) (x, y, z) tex TV HB) as ([[a b] h] & Hd & Hv). specialize (Hin _ Hd). cbn [in_world voxel_in_cell] in *.
  assert (2 ^ Z.of_nat (S k) = 8 * (2 ^ Z.of_nat (S k) / 8)) as E8.
  { replace (Z.of_nat (S k)) with (3 + (Z.of_nat k - 2)) by lia. rewrite Z.pow_add_r by lia. change (2 ^ 3) with 8.
    rewrite Z.mul_comm, Z.div_mul by lia. ring. }
  apply B; try lia. exists ob. auto.
Qed.
