(** Proofs about lights. *)
From Verif Require Import Py VecModel VecSpec VoxelModel VoxelSpec CodecModel CodecSpec CodecParse CodecMap OutModel OutSpec OutProofs LightModel LightSpec.

Lemma halves_add a b : halves (nadd a b) = halves a + halves b.
Proof. destruct a, b; unfold nadd, halves; lia. Qed.
Lemma halves_scale n m : halves (nmulz n m) = m * halves n.
Proof. destruct n; unfold nmulz, halves; lia. Qed.
Lemma triple_eq (a b c a' b' c' : Z) : a = a' -> b = b' -> c = c' -> (a, b, c) = (a', b', c').
Proof. congruence. Qed.
Lemma light_pos v : vc v <> Base -> exists p q, vadd v TILE_CENTER = Ok p /\ vadd p HALF_HEIGHT = Ok q /\ vc q = Fine /\
  fpos2 q = middle (fpos2 v).
Proof.
  intros Hv. destruct v as [[] x y z]; [contradiction Hv; reflexivity| |];
    unfold vadd, vfine, TILE_CENTER, HALF_HEIGHT, raw_add, vmul; cbn [vc vx vy vz bind];
    do 2 eexists; (split; [reflexivity|]); (split; [reflexivity|]); (split; [reflexivity|]);
    unfold fpos2, coords2, middle; cbn [vc vx vy vz]; rewrite !halves_add, ?halves_scale; cbn [halves]; apply triple_eq; lia.
Qed.
Lemma coord_shift k n : coord_is (pf_mul4 (pf_shift (pf_of_num (nmulz n 4)) (k - 6))) (halves n) (10 - k).
Proof.
  unfold coord_is, pf_of_num, pf_shift, pf_mul4, feq. rewrite halves_scale. split.
  - destruct (Z.ltb_spec (4 * halves n) 0), (Z.ltb_spec (halves n) 0); try reflexivity; lia.
  - replace (Z.min (-1 - (k - 6) + 2) (10 - k - 1)) with (7 - k) by lia.
    replace (-1 - (k - 6) + 2 - (7 - k)) with 0 by lia. replace (10 - k - 1 - (7 - k)) with 2 by lia.
    rewrite Z.abs_mul. change (2 ^ 0) with 1. change (2 ^ 2) with 4. change (Z.abs 4) with 4. lia.
Qed.
Lemma light_ok lm m v colour sf : vc v <> Base -> exists e m', light lm m v colour true sf = Ok m' /\ one_more m e m' /\
  stands e (middle (fpos2 v)) (10 - lm_exp lm) /\ e_type e = 1 /\
  (exists r g b, e_attrs e = [num_attr (nmulz sf 64); AInt r; AInt g; AInt b; AInt 0; AInt 0] /\
     match colour with Some c => c = (r, g, b) | None => exists q, fpos2 q = middle (fpos2 v) /\ lm_hue lm q = (r, g, b) end) /\
  e_links e = [] /\ e_reserved e = [0; 0; 0].
Proof.
  intros Hv. destruct (light_pos v Hv) as (p & q & E1 & E2 & Hq & T). unfold light. rewrite E1. cbn [bind]. rewrite E2. cbn [bind].
  unfold get_light, ventity, vfine. rewrite Hq. cbn [bind].
  destruct (match colour with Some c => c | None => lm_hue lm q end) as [[r g] b] eqn:C.
  do 2 eexists. split; [reflexivity|]. split; [unfold one_more; cbn [apply_edit m_ents m_magic m_version m_headersize m_meta m_vars m_texmru m_vslots m_chg m_world]; auto 12|].
  split; [|split; [reflexivity|split; [|split; reflexivity]]].
  - rewrite <- T. unfold fpos2, coords2. rewrite Hq. unfold stands. cbn [e_x e_y e_z vmul vx vy vz]. split; [|split]; apply coord_shift.
  - exists r, g, b. split; [reflexivity|]. destruct colour as [c|]; [exact C|eauto].
Qed.
Lemma light_raises lm m v colour sf : light lm m v colour false sf = Err UnboundLocalError.
Proof. reflexivity. Qed.
(** A coordinate below 2^24 (in units of half a map unit) is exact in the file. *)
Lemma coord_f32 f n k : 0 <= k <= 20 -> - 2 ^ 24 < n * 2 ^ k < 2 ^ 24 -> coord_is f n k -> is_f32 f.
Proof.
  intros Hk Hn Hf.
  assert (is_f32 (PF (n <? 0) (Z.abs n) (k - 1))) as (b & Hb & E).
  { assert (pow : 0 < 2 ^ k) by (apply Z.pow_pos_nonneg; lia).
    assert (is_f32 (PF (n * 2 ^ k <? 0) (Z.abs (n * 2 ^ k)) (-1))) as (b & Hb & E).
    { apply small_is_f32; [lia|]. intros Z0. apply Z.ltb_ge. lia. }
    exists b. split; [exact Hb|]. revert E. unfold feq. destruct (f32_decode b) as [s m e| |]; auto. intros [<- E]. split.
    - destruct (Z.ltb_spec n 0), (Z.ltb_spec (n * 2 ^ k) 0); try reflexivity; nia.
    - rewrite Z.abs_mul, (Z.abs_eq (2 ^ k)) in E by lia. destruct (Z.le_gt_cases e (-1)) as [L|G].
      + rewrite Z.min_r in E by lia. rewrite Z.min_r by lia. rewrite <- E, <- Z.mul_assoc, <- Z.pow_add_r by lia. f_equal. f_equal. lia.
      + rewrite Z.min_l in E by lia. rewrite Z.sub_diag, Z.pow_0_r, Z.mul_1_r in E.
        destruct (Z.le_gt_cases e (k - 1)) as [L2|G2].
        * rewrite Z.min_r by lia. rewrite Z.sub_diag, Z.pow_0_r, Z.mul_1_r.
          apply (Z.mul_reg_r _ _ (2 ^ (e - -1))); [pose proof (Z.pow_pos_nonneg 2 (e - -1)); lia|].
          rewrite <- E, <- Z.mul_assoc, <- Z.pow_add_r by lia. f_equal. f_equal. lia.
        * rewrite Z.min_l by lia. rewrite Z.sub_diag, Z.pow_0_r, Z.mul_1_r.
          apply (Z.mul_reg_r _ _ (2 ^ k)); [lia|]. rewrite E, <- Z.mul_assoc, <- Z.pow_add_r by lia. f_equal. f_equal. lia. }
  exists b. split; [exact Hb|]. unfold coord_is in Hf. revert Hf E. unfold feq.
  destruct f as [s m e| |]; try contradiction. destruct (f32_decode b) as [s' m' e'| |]; auto. intros [-> E1] [-> E2]. split; [reflexivity|].
  set (o := Z.min (Z.min e e') (k - 1)).
  assert (forall M x y, o <= y -> y <= x -> M * 2 ^ (x - o) = M * 2 ^ (x - y) * 2 ^ (y - o)) as A
    by (intros M x y H1 H2; rewrite <- Z.mul_assoc, <- Z.pow_add_r by lia; f_equal; f_equal; lia).
  assert (m * 2 ^ (e - o) = Z.abs n * 2 ^ (k - 1 - o)) as F1
    by (rewrite (A m e (Z.min e (k - 1))), (A (Z.abs n) (k - 1) (Z.min e (k - 1))), E1 by lia; reflexivity).
  assert (Z.abs n * 2 ^ (k - 1 - o) = m' * 2 ^ (e' - o)) as F2
    by (rewrite (A m' e' (Z.min (k - 1) e')), (A (Z.abs n) (k - 1) (Z.min (k - 1) e')), E2 by lia; reflexivity).
  apply (Z.mul_reg_r _ _ (2 ^ (Z.min e e' - o))); [pose proof (Z.pow_pos_nonneg 2 (Z.min e e' - o)); lia|].
  rewrite <- !A by lia. congruence.
Qed.
Lemma light_wf e p k r g b rad : 0 <= k <= 20 -> in_file p k -> stands e p k -> e_type e = 1 ->
  e_attrs e = [AInt rad; AInt r; AInt g; AInt b; AInt 0; AInt 0] -> Forall is_i32 [rad; r; g; b] ->
  e_links e = [] -> e_reserved e = [0; 0; 0] -> wf_entity e.
Proof.
  destruct p as [[x y] z]. intros Hk HF HS Ht Ha Hi Hl Hr. unfold wf_entity. rewrite Ht, Ha, Hl, Hr.
  unfold in_file in HF. cbn zeta in HF. destruct HF as [X [Y Z0]]. unfold stands in HS. destruct HS as [Sx [Sy Sz]].
  split; [exact (coord_f32 _ _ _ Hk X Sx)|]. split; [exact (coord_f32 _ _ _ Hk Y Sy)|]. split; [exact (coord_f32 _ _ _ Hk Z0 Sz)|].
  split; [reflexivity|]. rewrite Forall_forall in Hi.
  split; [repeat constructor; eexists; (split; [left; reflexivity|]); try (apply Hi; cbn; tauto); unfold is_i32; lia|].
  split; [intros [?|?]; discriminate|]. split; [constructor|]. split; [unfold len; cbn; lia|]. split; [reflexivity|].
  repeat constructor; unfold is_char; lia.
Qed.
Lemma light_written lm m v colour sf : vc v <> Base -> 0 <= lm_exp lm <= 10 -> in_file (middle (fpos2 v)) (10 - lm_exp lm) ->
  is_i32 (64 * sf) -> (forall c, In c (match colour with Some c => [c] | None => [] end) -> let '(r, g, b) := c in Forall is_i32 [r; g; b]) ->
  (colour = None -> forall q, let '(r, g, b) := lm_hue lm q in Forall is_i32 [r; g; b]) ->
  exists e m' bs e', light lm m v colour true (I sf) = Ok m' /\ one_more m e m' /\ w_ent e = Ok bs /\ same_entity e e' /\
    forall rest, p_ent (S (List.length (bs ++ rest))) (bs ++ rest) = Ok (e', rest).
Proof.
  intros Hv Hk Hf Hsf Hc Hh. destruct (light_ok lm m v colour (I sf) Hv) as (e & m' & E & O & S & T & (r & g & b & A & C) & L & R).
  assert (wf_entity e) as W.
  { eapply light_wf; [|exact Hf|exact S|exact T|exact A| |exact L|exact R]; [lia|]. cbn [nmulz num_attr].
    assert (Forall is_i32 [r; g; b]) as F.
    { destruct colour as [c|].
      - subst c. exact (Hc (r, g, b) (or_introl eq_refl)).
      - destruct C as (q & _ & C). specialize (Hh eq_refl q). rewrite C in Hh. exact Hh. }
    constructor; [|exact F]. rewrite Z.mul_comm. exact Hsf. }
  destruct (ent_roundtrip_lemma e W) as (bs & e' & B & Se & _ & P). exists e, m', bs, e'. auto.
Qed.
Lemma stands_of p v k : (vc v = Fine \/ vc v = Coarse) -> vx p = nmulz (vx v) k -> vy p = nmulz (vy v) k -> vz p = nmulz (vz v) k ->
  k = units v -> forall ty attrs, stands (ent_at p ty attrs) (fpos2 v) 2.
Proof.
  intros Hc X Y Z0 -> ty attrs.
  assert (forall n u h, u = 4 * h -> 0 < h -> coord_is (pf_of_num (nmulz n u)) (h * halves n) 2) as A.
  { intros n u h -> Hh. unfold coord_is, pf_of_num, feq. rewrite halves_scale. split.
    - destruct (Z.ltb_spec (4 * h * halves n) 0), (Z.ltb_spec (h * halves n) 0); try reflexivity; nia.
    - change (Z.min (-1) (2 - 1)) with (-1). change (2 ^ (-1 - -1)) with 1. change (2 ^ (2 - 1 - -1)) with 4.
      rewrite !Z.abs_mul, (Z.abs_eq h) by lia. change (Z.abs 4) with 4. ring. }
  unfold fpos2, coords2, units in *. cbn [ent_at]. unfold stands, ent_at. cbn [e_x e_y e_z].
  destruct Hc as [Hc|Hc]; rewrite Hc in *; rewrite X, Y, Z0.
  - replace (halves (vx v)) with (1 * halves (vx v)) by ring. replace (halves (vy v)) with (1 * halves (vy v)) by ring.
    replace (halves (vz v)) with (1 * halves (vz v)) by ring. split; [|split]; apply A; lia.
  - split; [|split]; apply A; lia.
Qed.
Lemma others_stand v : vc v <> Base ->
  (forall a b c d e f, exists p, mk_pusher v a b c d e f = Ok p /\ stands p (fpos2 v) 2) /\
  (forall a b c d e f, exists p, mk_teamflag v a b c d e f = Ok p /\ stands p (fpos2 v) 2) /\
  (vc v = Fine -> forall a b c d e f, exists p, mk_playerspawn v a b c d e f = Ok p /\ stands p (fpos2 v) 2) /\
  (vc v = Fine -> forall a b c d e, exists p, mk_weapon v a b c d e = Ok p /\ stands p (fpos2 v) 2).
Proof.
  intros Hv. assert (vc v = Fine \/ vc v = Coarse) as Hc by (destruct (vc v); tauto).
  destruct (fine4 v Hv) as (p & Ep & X & Y & Z0).
  split; [|split; [|split]]; intros.
  - unfold mk_pusher. rewrite Ep. cbn [bind]. eexists. split; [reflexivity|]. eapply stands_of; eauto.
  - unfold mk_teamflag. rewrite Ep. cbn [bind]. eexists. split; [reflexivity|]. eapply stands_of; eauto.
  - unfold mk_playerspawn. eexists. split; [reflexivity|]. eapply (stands_of _ v 4); eauto; try reflexivity. unfold units. rewrite H. reflexivity.
  - unfold mk_weapon. eexists. split; [reflexivity|]. eapply (stands_of _ v 4); eauto; try reflexivity. unfold units. rewrite H. reflexivity.
Qed.
Lemma stands_far e p k : stands e p k -> fst (fst p) <> 0 -> ~ stands e p (k + 1).
Proof.
  destruct p as [[x y] z]. cbn [fst]. intros (S & _) Hx (S' & _). unfold coord_is, feq in *.
  destruct (e_x e) as [s m f| |]; try contradiction. destruct S as [-> S], S' as [_ S'].
  set (o := Z.min f (k - 1)).
  assert (m * 2 ^ (f - o) = Z.abs x * 2 ^ (k - 1 - o)) as A by exact S.
  assert (m * 2 ^ (f - o) = Z.abs x * 2 ^ (k - o)) as B.
  { destruct (Z.le_gt_cases f (k - 1)).
    - unfold o. rewrite Z.min_l by lia. rewrite Z.min_l in S' by lia. replace (k - f) with (k + 1 - 1 - f) by lia. exact S'.
    - unfold o. rewrite Z.min_r by lia. rewrite Z.min_r in S' by lia.
      replace (f - (k - 1)) with (f - (k + 1 - 1) + 1) by lia. replace (k - (k - 1)) with (k + 1 - 1 - (k + 1 - 1) + 1) by lia.
      rewrite !Z.pow_add_r by lia. rewrite !Z.mul_assoc, S'. ring. }
  rewrite A in B. replace (k - o) with (k - 1 - o + 1) in B by lia. rewrite Z.pow_add_r in B by lia.
  pose proof (Z.pow_pos_nonneg 2 (k - 1 - o)). assert (0 < Z.abs x) by lia. nia.
Qed.
Lemma default_far m v colour sf : vc v <> Base -> fst (fst (middle (fpos2 v))) <> 0 ->
  exists e m', light default_lightman m v colour true sf = Ok m' /\ one_more m e m' /\
    stands e (middle (fpos2 v)) 3 /\ ~ stands e (middle (fpos2 v)) 2.
Proof.
  intros Hv Hx. destruct (light_ok default_lightman m v colour sf Hv) as (e & m' & E & O & S & _). exists e, m'.
  split; [exact E|]. split; [exact O|]. split; [exact S|]. intros S2. exact (stands_far e _ 2 S2 Hx S).
Qed.
