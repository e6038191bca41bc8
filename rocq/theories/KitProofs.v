(** Lemmas about the construction kit. *)
From Coq Require Import QArith.
From Verif Require Import Py VecModel VecSpec VecProofs VoxelModel VoxelSpec VoxelProofs UpmModel UpmSpec
  KitModel KitSpec.
Local Open Scope Z_scope.

Lemma in_zrange a b x : In x (zrange a b) <-> a <= x < b.
Proof.
  unfold zrange. rewrite in_map_iff. split.
  - intros (i & <- & Hi). apply in_seq in Hi. lia.
  - intros Hx. exists (Z.to_nat (x - a)). split; [lia|]. apply in_seq. lia.
Qed.
Lemma NoDup_zrange a b : NoDup (zrange a b).
Proof.
  unfold zrange. apply FinFun.Injective_map_NoDup; [|apply seq_NoDup].
  intros i j E. lia.
Qed.
Lemma in_span n x : In x (span n) <-> within 0 n x.
Proof. unfold span, within. destruct (Z.ltb_spec 0 n); rewrite in_zrange; lia. Qed.
Lemma NoDup_span n : NoDup (span n).
Proof. unfold span. destruct (0 <? n); apply NoDup_zrange. Qed.

Lemma mapM_total {A B} (f : A -> res B) (h : A -> B) l :
  (forall x, In x l -> f x = Ok (h x)) -> mapM f l = Ok (map h l).
Proof.
  induction l as [|x l IH]; intros Hf; cbn [mapM map]; [reflexivity|].
  rewrite Hf by (left; reflexivity). cbn [bind]. rewrite IH by (intros; apply Hf; right; assumption).
  reflexivity.
Qed.

Lemma in_cube_points x y z v : In v (cube_points x y z) <->
  exists i j k, v = V Fine (I i) (I j) (I k) /\ within 0 x i /\ within 0 y j /\ within 0 z k.
Proof.
  unfold cube_points. rewrite in_flat_map. split.
  - intros (i & Hi & Hv). apply in_flat_map in Hv as (j & Hj & Hv). apply in_map_iff in Hv as (k & <- & Hk).
    apply in_span in Hi, Hj, Hk. exists i, j, k. auto.
  - intros (i & j & k & -> & Hi & Hj & Hk). exists i. split; [apply in_span; exact Hi|].
    apply in_flat_map. exists j. split; [apply in_span; exact Hj|]. apply in_map_iff. exists k.
    split; [reflexivity|apply in_span; exact Hk].
Qed.

Lemma NoDup_app_intro {A} (l l' : list A) :
  NoDup l -> NoDup l' -> (forall x, In x l -> ~ In x l') -> NoDup (l ++ l').
Proof.
  intros N N' D. induction N as [|x l Hx N IH]; cbn; [exact N'|].
  constructor.
  - rewrite in_app_iff. intros [Hi|Hi]; [auto|]. apply (D x); [left; reflexivity|exact Hi].
  - apply IH. intros y Hy. apply D. right. exact Hy.
Qed.
Lemma NoDup_flat_map {A B} (f : A -> list B) l :
  NoDup l -> (forall x, In x l -> NoDup (f x)) ->
  (forall x y b, In x l -> In y l -> In b (f x) -> In b (f y) -> x = y) -> NoDup (flat_map f l).
Proof.
  induction l as [|x l IH]; intros N F D; cbn; [constructor|]. inversion N as [|? ? Nx Nl]; subst.
  apply NoDup_app_intro.
  - apply F. left. reflexivity.
  - apply IH; [exact Nl| |]; intros; [apply F; right; assumption|].
    eapply D; eauto; right; assumption.
  - intros b Hb Hb'. apply in_flat_map in Hb' as (y & Hy & Hb').
    assert (x = y) by (eapply D; eauto; [left; reflexivity|right; assumption]). subst. auto.
Qed.
Lemma NoDup_cube_points x y z : NoDup (cube_points x y z).
Proof.
  unfold cube_points. apply NoDup_flat_map; [apply NoDup_span| |].
  - intros i Hi. apply NoDup_flat_map; [apply NoDup_span| |].
    + intros j Hj. apply FinFun.Injective_map_NoDup; [|apply NoDup_span].
      intros k k' E. congruence.
    + intros j j' b _ _ Hb Hb'. apply in_map_iff in Hb as (k & <- & _), Hb' as (k' & E & _). congruence.
  - intros i i' b _ _ Hb Hb'. apply in_flat_map in Hb as (j & _ & Hb), Hb' as (j' & _ & Hb').
    apply in_map_iff in Hb as (k & <- & _), Hb' as (k' & E & _). congruence.
Qed.

(** ** Where a room's own voxels go *)

Lemma vrotate_dir v o c : points_to o c ->
  vrotate v (DVec o) = Ok (rotq (match c with CE => 0 | CN => 1 | CW => 2 | CS => 3 end) v).
Proof.
  intros P. rewrite (vrotate_compass v o c P). unfold vrotate. destruct c; reflexivity.
Qed.

Lemma local_position_ok pos orient off p c o :
  cell_at pos p -> points_to orient c -> voxel_at off o ->
  exists l, local_position pos orient off = Ok l /\ vc l = Fine /\ voxel_at l (frame p c o).
Proof.
  intros HP HO HF. unfold local_position, voffset_rotate.
  assert (exists s, vadd off TILE_VOX_OFF = Ok s /\ vc s = Fine /\
            halves (vx s) = 2 * fst (fst o) - 7 /\ halves (vy s) = 2 * snd (fst o) - 7 /\
            halves (vz s) = 2 * snd o + 1) as (s & Es & Cs & Xs & Ys & Zs).
  { destruct HF as [N F]. destruct off as [k x y z], o as [[a b] h]. unfold fpos2, coords2 in F.
    cbn [vc vx vy vz fst snd] in *.
    destruct k; [congruence| |]; apply t3_inv in F as (Fx & Fy & Fz);
      (eexists; split; [reflexivity|]); (split; [reflexivity|]);
      cbn [raw_add vx vy vz vmul]; rewrite !halves_nadd, ?halves_nmulz;
      cbn [TILE_VOX_OFF vx vy vz]; cbn [halves]; lia. }
  rewrite Es. cbn [bind]. rewrite (vrotate_dir s orient c HO). cbn [bind].
  destruct HP as [Cp HP]. destruct pos as [k x y z], p as [[a b] h], o as [[u v] w], s as [ks xs ys zs].
  unfold coords2 in HP. cbn [vc vx vy vz fst snd] in *. subst k ks.
  apply t3_inv in HP as (Px & Py & Pz).
  destruct c; (eexists; split; [reflexivity|]); (split; [reflexivity|]); (split; [discriminate|]);
    unfold fpos2, coords2, frame, tile_turn; cbn [vc vx vy vz raw_add raw_sub vmul rotq];
    rewrite !halves_nadd, !halves_nsub, !halves_nmulz; cbn [TILE_VOX_OFF vx vy vz]; cbn [halves]; apply t3_eq; lia.
Qed.

Lemma voxel_at_fine l q : vc l = Fine -> voxel_at l q ->
  halves (vx l) = 2 * fst (fst q) /\ halves (vy l) = 2 * snd (fst q) /\ halves (vz l) = 2 * snd q.
Proof.
  intros C [_ E]. destruct q as [[x y] z]. unfold fpos2, coords2 in E. rewrite C in E.
  apply t3_inv in E. cbn. exact E.
Qed.

(** The points of a prism, as a list. *)
Lemma x_prism_ok pos orient off xyz p c o s :
  cell_at pos p -> points_to orient c -> voxel_at off o -> size_is xyz s ->
  exists pts, x_prism pos orient off xyz = Ok pts /\ once pts /\
    covers pts (fun v => exists q, in_box o s q /\ v = frame p c q).
Proof.
  intros HP HO HF HS. unfold x_prism. rewrite (vrotate_dir xyz orient c HO). cbn [bind].
  destruct (local_position_ok pos orient off p c o HP HO HF) as (l & -> & Cl & Hl). cbn [bind].
  set (rs := rotq _ xyz).
  assert (exists sx sy sz, nfloor (vx (vvox rs)) = sx /\ nfloor (vy (vvox rs)) = sy /\ nfloor (vz (vvox rs)) = sz /\
            (sx, sy, sz) = cell_turn c s) as (sx & sy & sz & -> & -> & -> & Hs).
  { do 3 eexists. do 3 (split; [reflexivity|]). unfold rs. destruct xyz as [k x y z], s as [[a b] h].
    unfold size_is, coords2 in HS. cbn [vx vy vz] in HS. apply t3_inv in HS as (Hx & Hy & Hz).
    destruct c; cbn [rotq vvox vx vy vz cell_turn nfloor]; rewrite ?nfloor_halves;
      apply t3_eq; (try rewrite Hx; try rewrite Hy; try rewrite Hz; cbn [halves]; 
      first [rewrite Hx|rewrite Hy|rewrite Hz|idtac]); Z.div_mod_to_equations; lia. }
  rewrite (mapM_total _ (fun q => raw_add Fine q l)).
  2:{ intros v Hv. apply in_cube_points in Hv as (i & j & k & -> & _). unfold vadd. cbn [vc vfine bind].
      unfold vfine. rewrite Cl. reflexivity. }
  eexists. split; [reflexivity|].
  destruct (voxel_at_fine l _ Cl Hl) as (Lx & Ly & Lz).
  assert (forall i j k, fpos2 (raw_add Fine (V Fine (I i) (I j) (I k)) l) =
            (2 * (fst (fst (frame p c o)) + i), 2 * (snd (fst (frame p c o)) + j), 2 * (snd (frame p c o) + k))) as FP.
  { intros i j k. unfold fpos2, coords2, raw_add. cbn [vc vx vy vz]. rewrite !halves_nadd.
    rewrite Lx, Ly, Lz. cbn [halves]. apply t3_eq; lia. }
  split.
  - unfold once. rewrite map_map.
    assert (forall L, NoDup L -> (forall v, In v L -> In v (cube_points sx sy sz)) ->
              NoDup (map (fun x => fpos2 (raw_add Fine x l)) L)) as K.
    { intros L N. induction N as [|v L Hv N IH]; intros HL; cbn [map]; [constructor|]. constructor.
      - intros Hi. apply in_map_iff in Hi as (v' & E & Hv').
        assert (v = v'); [|subst; auto].
        pose proof (HL v (or_introl eq_refl)) as V1. pose proof (HL v' (or_intror Hv')) as V2.
        apply in_cube_points in V1 as (i & j & k & -> & _), V2 as (i' & j' & k' & -> & _).
        cbv beta in E. rewrite !FP in E. apply t3_inv in E as (E1 & E2 & E3).
        assert (i = i') by lia. assert (j = j') by lia. assert (k = k') by lia. congruence.
      - apply IH. intros v' Hv'. apply HL. right. exact Hv'. }
    apply K; [apply NoDup_cube_points|auto].
  - assert (forall i j k q, voxel_at (raw_add Fine (V Fine (I i) (I j) (I k)) l) q <->
        q = (fst (fst (frame p c o)) + i, snd (fst (frame p c o)) + j, snd (frame p c o) + k)) as VA.
    { intros i j k [[x y] z]. unfold voxel_at. rewrite FP. split.
      - intros [_ E]. apply t3_inv in E. apply t3_eq; lia.
      - intros E. apply t3_inv in E. split; [discriminate|]. apply t3_eq; lia. }
    split.
    + intros v Hv. apply in_map_iff in Hv as (u & <- & Hu). apply in_cube_points in Hu as (i & j & k & -> & _).
      split; [reflexivity|]. eexists. apply VA. reflexivity.
    + intros q. split.
      * intros (v & Hv & Hq). apply in_map_iff in Hv as (u & <- & Hu).
        apply in_cube_points in Hu as (i & j & k & -> & Hi & Hj & Hk). apply VA in Hq. subst q.
        destruct o as [[a b] h], s as [[m n] r], p as [[pa pb] ph].
        destruct c; cbn [cell_turn] in Hs; apply t3_inv in Hs as (-> & -> & ->);
          [exists (a + i, b + j, h + k)|exists (a + j, b - i, h + k)|exists (a - i, b - j, h + k)|exists (a - j, b + i, h + k)];
          (split; [unfold in_box, within in *; lia|]); cbn [frame tile_turn fst snd]; apply t3_eq; lia.
      * intros (q0 & Hb & ->). destruct o as [[a b] h], s as [[m n] r], p as [[pa pb] ph], q0 as [[x y] z].
        cbn [in_box] in Hb. destruct Hb as (B1 & B2 & B3).
        destruct c; cbn [cell_turn] in Hs; apply t3_inv in Hs as (-> & -> & ->);
          [exists (raw_add Fine (V Fine (I (x - a)) (I (y - b)) (I (z - h))) l)
          |exists (raw_add Fine (V Fine (I (b - y)) (I (x - a)) (I (z - h))) l)
          |exists (raw_add Fine (V Fine (I (a - x)) (I (b - y)) (I (z - h))) l)
          |exists (raw_add Fine (V Fine (I (y - b)) (I (a - x)) (I (z - h))) l)];
          (split; [apply in_map_iff; eexists; (split; [reflexivity|]); apply in_cube_points; do 3 eexists; (split; [reflexivity|]); unfold within in *; lia|]);
          apply VA; cbn [frame tile_turn fst snd]; apply t3_eq; lia.
Qed.
