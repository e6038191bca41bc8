(** Every construction is the image of its shape under the room's placement. *)
From Coq Require Import QArith.
From Verif Require Import Py VecModel VecSpec VecProofs VoxelModel VoxelSpec VoxelProofs UpmModel UpmSpec
  KitModel KitSpec KitProofs.
Local Open Scope Z_scope.

Lemma voxel_at_inj v q q' : voxel_at v q -> voxel_at v q' -> q = q'.
Proof.
  intros [_ E] [_ E']. destruct q as [[x y] z], q' as [[x' y'] z']. rewrite E in E'.
  apply t3_inv in E'. apply t3_eq; lia.
Qed.
Lemma covers_intro pts (S : cell -> Prop) :
  (forall v, In v pts -> vc v = Fine /\ exists q, voxel_at v q /\ S q) ->
  (forall q, S q -> exists v, In v pts /\ voxel_at v q) -> covers pts S.
Proof.
  intros A B. split.
  - intros v Hv. destruct (A v Hv) as (C & q & Hq & _). eauto.
  - intros q. split; [|apply B]. intros (v & Hv & Hq). destruct (A v Hv) as (_ & q' & Hq' & HS).
    rewrite (voxel_at_inj _ _ _ Hq Hq'). exact HS.
Qed.
Lemma covers_ext pts (S S' : cell -> Prop) : (forall q, S q <-> S' q) -> covers pts S -> covers pts S'.
Proof. intros E [A B]. split; [exact A|]. intros q. rewrite B. apply E. Qed.
Lemma covers_app p1 p2 S1 S2 : covers p1 S1 -> covers p2 S2 -> covers (p1 ++ p2) (fun q => S1 q \/ S2 q).
Proof.
  intros [A1 B1] [A2 B2]. split.
  - intros v Hv. apply in_app_iff in Hv as [Hv|Hv]; auto.
  - intros q. rewrite <- B1, <- B2. split.
    + intros (v & Hv & Hq). apply in_app_iff in Hv as [Hv|Hv]; eauto.
    + intros [(v & Hv & Hq)|(v & Hv & Hq)]; exists v; rewrite in_app_iff; auto.
Qed.

Lemma voxel_at_shift o b x y z : voxel_at o b ->
  exists o', vadd o (fine x y z) = Ok o' /\ voxel_at o' (shift b x y z).
Proof.
  intros [N E]. destruct o as [k ox oy oz], b as [[a b] c]. unfold fpos2, coords2 in E. cbn [vc vx vy vz] in *.
  destruct k; [congruence| |]; apply t3_inv in E as (E1 & E2 & E3); (eexists; split; [reflexivity|]);
    (split; [discriminate|]); unfold fpos2, coords2; cbn [shift vc vx vy vz raw_add vmul fine];
    rewrite !halves_nadd, ?halves_nmulz; cbn [halves]; apply t3_eq; lia.
Qed.
Lemma size_is_fine x y z : size_is (fine x y z) (x, y, z).
Proof. unfold size_is, coords2, fine. cbn [vx vy vz halves]. reflexivity. Qed.

Lemma frame_step p c b u i : frame p c (step b u i) = step (frame p c b) (cell_turn c u) i.
Proof.
  destruct p as [[pa pb] pc], b as [[a b] h], u as [[x y] z].
  destruct c; cbn [frame tile_turn step shift cell_turn]; apply t3_eq; ring.
Qed.

Lemma halves_H h : halves (H h) = h.
Proof. reflexivity. Qed.
(** The step of a column. *)
Lemma column_step d orient c u : points_to orient c -> voxel_at d (cmul8 u) ->
  exists r e, vrotate d (DVec orient) = Ok r /\ (forall n, column_points n r = Ok (map (fun i => vmul e i) (zrange 0 n))) /\
    vc e = Fine /\ voxel_at e (cell_turn c u).
Proof.
  intros HO [N E]. rewrite (vrotate_dir d orient c HO). eexists.
  destruct d as [k x y z], u as [[ux uy] uz]. unfold fpos2, coords2 in E. cbn [vc vx vy vz cmul8] in *.
  assert (forall f : vec, vc f = Fine -> forall a b h, halves (vx f) = 8 * a -> halves (vy f) = 8 * b -> halves (vz f) = 8 * h ->
    vdiv f 8 = Ok (V Fine (H a) (H b) (H h))) as D.
  { intros f Cf a b h Ha Hb Hh. unfold vdiv, ndiv. rewrite Ha, Hb, Hh. cbn [Z.eqb].
    replace (8 * a mod 8) with 0 by (Z.div_mod_to_equations; lia).
    replace (8 * b mod 8) with 0 by (Z.div_mod_to_equations; lia).
    replace (8 * h mod 8) with 0 by (Z.div_mod_to_equations; lia).
    replace (8 * a / 8) with a by (Z.div_mod_to_equations; lia).
    replace (8 * b / 8) with b by (Z.div_mod_to_equations; lia).
    replace (8 * h / 8) with h by (Z.div_mod_to_equations; lia).
    cbn [Z.eqb bind]. rewrite Cf. reflexivity. }
  exists (V Fine (H (2 * fst (fst (cell_turn c (ux, uy, uz))))) (H (2 * snd (fst (cell_turn c (ux, uy, uz)))))
            (H (2 * snd (cell_turn c (ux, uy, uz))))).
  split; [reflexivity|]. split; [|split; [reflexivity|split; [discriminate|]]].
  - intros n. unfold column_points.
    destruct (vfine_ok (rotq (match c with CE => 0 | CN => 1 | CW => 2 | CS => 3 end) (V k x y z))) as (f & -> & Cf & Pf).
    { destruct c; exact N. }
    cbn [bind]. destruct f as [kf fx fy fz]. cbn [vc] in Cf. subst kf.
    rewrite (D (V Fine fx fy fz) eq_refl (2 * fst (fst (cell_turn c (ux, uy, uz)))) (2 * snd (fst (cell_turn c (ux, uy, uz))))
            (2 * snd (cell_turn c (ux, uy, uz)))); [reflexivity| | |];
    unfold fpos2, coords2 in Pf; cbn [vc vx vy vz] in Pf |- *;
    (destruct k; [congruence| |]); destruct c; cbn [rotq vc vx vy vz cell_turn fst snd] in Pf |- *; rewrite ?halves_H in Pf;
    apply t3_inv in Pf as (P1 & P2 & P3); apply t3_inv in E as (E1 & E2 & E3); lia.
  - unfold fpos2, coords2. cbn [vc vx vy vz]. destruct c; cbn [cell_turn fst snd halves]; reflexivity.
Qed.

Lemma voxel_at_step e l u b i : vc e = Fine -> vc l = Fine -> voxel_at e u -> voxel_at l b ->
  vadd (vmul e i) l = Ok (raw_add Fine (vmul e i) l) /\ voxel_at (raw_add Fine (vmul e i) l) (step b u i).
Proof.
  intros Ce Cl He Hl. split.
  - unfold vadd. cbn [vmul vc]. rewrite Ce. unfold vfine. cbn [vc vmul]. rewrite Ce, Cl. reflexivity.
  - destruct (voxel_at_fine _ _ Ce He) as (E1 & E2 & E3), (voxel_at_fine _ _ Cl Hl) as (L1 & L2 & L3).
    split; [discriminate|]. unfold fpos2, coords2. cbn [raw_add vc vx vy vz vmul].
    rewrite !halves_nadd, !halves_nmulz, E1, E2, E3, L1, L2, L3.
    destruct u as [[x y] z], b as [[a b] h]. cbn [step shift fst snd]. apply t3_eq; ring.
Qed.

Definition frame_image (p : cell) (c : compass) (S : cell -> Prop) (v : cell) : Prop :=
  exists q, S q /\ v = frame p c q.

Lemma column_shape pos orient o d n p c : cell_at pos p -> points_to orient c -> grid_args (KColumn o d n) ->
  exists pts, points pos orient (KColumn o d n) = Ok pts /\ covers pts (frame_image p c (shape (KColumn o d n))).
Proof.
  intros HP HO [[b Hb] [u Hu]]. cbn [points]. unfold x_column.
  destruct (local_position_ok pos orient o p c b HP HO Hb) as (l & -> & Cl & Hl). cbn [bind].
  destruct (column_step d orient c u HO Hu) as (r & e & -> & Hc & Ce & He). cbn [bind]. rewrite Hc. cbn [bind].
  rewrite (mapM_total _ (fun q => raw_add Fine q l)).
  2:{ intros v Hv. apply in_map_iff in Hv as (i & <- & _). eapply voxel_at_step; eauto. }
  eexists. split; [reflexivity|]. apply covers_intro.
  - intros v Hv. apply in_map_iff in Hv as (w & <- & Hw). apply in_map_iff in Hw as (i & <- & Hi). apply in_zrange in Hi.
    split; [reflexivity|]. eexists. split; [eapply (voxel_at_step e l _ _ i Ce Cl He Hl)|]. exists (step b u i). split.
    + exists b, u, i. auto.
    + symmetry. apply frame_step.
  - intros q (q0 & (b' & u' & i & Hb' & Hu' & Hi & ->) & ->).
    rewrite (voxel_at_inj _ _ _ Hb' Hb).
    assert (u' = u) as -> by (pose proof (voxel_at_inj _ _ _ Hu' Hu) as E; destruct u as [[x y] z], u' as [[x' y'] z'];
      cbn [cmul8] in E; apply t3_inv in E; apply t3_eq; lia).
    eexists. split.
    + apply in_map_iff. eexists. split; [reflexivity|]. apply in_map_iff. eexists. split; [reflexivity|].
      apply in_zrange. exact Hi.
    + rewrite frame_step. eapply (voxel_at_step e l _ _ i Ce Cl He Hl).
Qed.

Lemma onoff_nth on off i : (0 < on + off)%nat ->
  nth (i mod List.length (repeat true on ++ repeat false off))%nat (repeat true on ++ repeat false off) false
  = (Z.of_nat i mod (Z.of_nat on + Z.of_nat off) <? Z.of_nat on).
Proof.
  intros Hp. rewrite app_length, !repeat_length.
  rewrite <- Nat2Z.inj_add, <- Nat2Z.inj_mod.
  set (m := (i mod (on + off))%nat).
  assert (m < on + off)%nat by (apply Nat.mod_upper_bound; lia).
  destruct (Nat.ltb_spec m on).
  - rewrite app_nth1 by (rewrite repeat_length; lia). assert (forall k n, (k < n)%nat -> nth k (repeat true n) false = true) as -> by
      (intros k n; revert k; induction n; intros [|k] L; cbn; try lia; auto with arith; apply IHn; lia).
    2:{ assumption. }
    symmetry. apply Z.ltb_lt. lia.
  - rewrite app_nth2 by (rewrite repeat_length; lia). rewrite repeat_length.
    rewrite nth_repeat. symmetry. apply Z.ltb_ge. lia.
Qed.

Lemma zrange_nth a b i x : nth_error (zrange a b) i = Some x -> x = a + Z.of_nat i.
Proof.
  unfold zrange. intros E. rewrite nth_error_map in E.
  destruct (nth_error (seq 0 (Z.to_nat (b - a))) i) eqn:E'; [|discriminate]. cbn in E. injection E as <-.
  assert (i < List.length (seq 0 (Z.to_nat (b - a))))%nat as L by (apply nth_error_Some; congruence).
  rewrite seq_length in L. rewrite (nth_error_nth' _ 0%nat) in E' by (rewrite seq_length; exact L).
  rewrite seq_nth in E' by exact L. injection E' as <-. lia.
Qed.

Lemma in_combine_seq {A} (l : list A) i x : In (i, x) (combine (seq 0 (List.length l)) l) <-> nth_error l i = Some x.
Proof.
  assert (forall k, In (i, x) (combine (seq k (List.length l)) l) <-> (k <= i)%nat /\ nth_error l (i - k) = Some x) as K.
  { induction l as [|a l IH]; intros k; cbn [combine List.length seq].
    - split; [intros []|]. intros [_ E]. destruct (i - k)%nat; discriminate.
    - cbn [In]. rewrite IH. split.
      + intros [E|[L E]]; [injection E as -> ->; rewrite Nat.sub_diag; auto|].
        split; [lia|]. replace (i - k)%nat with (S (i - S k))%nat by lia. exact E.
      + intros [L E]. destruct (Nat.eq_dec i k) as [->|]; [rewrite Nat.sub_diag in E; cbn in E; left; congruence|].
        right. split; [lia|]. replace (i - k)%nat with (S (i - S k))%nat in E by lia. exact E. }
  rewrite K, Nat.sub_0_r. split; [tauto|]. intros; split; [lia|assumption].
Qed.

Lemma dotted_shape pos orient o d n on off p c : cell_at pos p -> points_to orient c -> grid_args (KDotted o d n on off) ->
  exists pts, points pos orient (KDotted o d n on off) = Ok pts /\
    covers pts (frame_image p c (shape (KDotted o d n on off))).
Proof.
  intros HP HO ([b Hb] & [u Hu] & Hn). cbn [points]. unfold x_dotted.
  destruct (local_position_ok pos orient o p c b HP HO Hb) as (l & -> & Cl & Hl). cbn [bind].
  destruct (column_step d orient c u HO Hu) as (r & e & -> & Hc & Ce & He). cbn [bind]. rewrite Hc. cbn [bind].
  set (ps := map _ (zrange 0 n)).
  set (onoff := repeat true on ++ repeat false off).
  set (F := mapM _ _).
  assert (match ps, onoff with _ :: _, [] => Err ZeroDivisionError | _, _ => F end = F) as ->.
  { destruct ps; [reflexivity|]. destruct onoff eqn:E; [|reflexivity]. exfalso.
    assert (List.length onoff = 0%nat) as L by (rewrite E; reflexivity).
    unfold onoff in L. rewrite app_length, !repeat_length in L. lia. }
  assert (forall i x, nth_error ps i = Some x -> x = vmul e (Z.of_nat i) /\ 0 <= Z.of_nat i < n) as NP.
  { intros i x E. unfold ps in E. rewrite nth_error_map in E. destruct (nth_error (zrange 0 n) i) eqn:E'; [|discriminate].
    cbn in E. injection E as <-. pose proof (zrange_nth _ _ _ _ E'). split; [f_equal; lia|].
    apply nth_error_In in E'. apply in_zrange in E'. lia. }
  unfold F. rewrite (mapM_total _ (fun ip => raw_add Fine (snd ip) l)).
  2:{ intros [i v] Hv. apply filter_In in Hv as [Hv _]. apply in_combine_seq in Hv. destruct (NP _ _ Hv) as [-> _].
      eapply voxel_at_step; eauto. }
  eexists. split; [reflexivity|]. apply covers_intro.
  - intros v Hv. apply in_map_iff in Hv as ([i w] & <- & Hw). apply filter_In in Hw as [Hw Ho].
    apply in_combine_seq in Hw. destruct (NP _ _ Hw) as [-> Hi]. cbn [fst snd] in *.
    unfold onoff in Ho. rewrite onoff_nth in Ho by exact Hn. apply Z.ltb_lt in Ho.
    split; [reflexivity|]. eexists. split; [eapply (voxel_at_step e l _ _ _ Ce Cl He Hl)|]. exists (step b u (Z.of_nat i)). split.
    + exists b, u, (Z.of_nat i). auto.
    + symmetry. apply frame_step.
  - intros q (q0 & (b' & u' & i & Hb' & Hu' & Hi & Ho & ->) & ->).
    rewrite (voxel_at_inj _ _ _ Hb' Hb).
    assert (u' = u) as -> by (pose proof (voxel_at_inj _ _ _ Hu' Hu) as E; destruct u as [[x y] z], u' as [[x' y'] z'];
      cbn [cmul8] in E; apply t3_inv in E; apply t3_eq; lia).
    assert (In i (zrange 0 n)) as Hz by (apply in_zrange; exact Hi).
    apply In_nth_error in Hz as [j Hj]. pose proof (zrange_nth _ _ _ _ Hj) as Hij.
    assert (nth_error ps j = Some (vmul e i)) as Hp by (unfold ps; rewrite nth_error_map, Hj; reflexivity).
    exists (raw_add Fine (vmul e i) l). split.
    + apply in_map_iff. exists (j, vmul e i). split; [reflexivity|]. apply filter_In. split; [apply in_combine_seq; exact Hp|].
      cbn [fst]. unfold onoff. rewrite onoff_nth by exact Hn. apply Z.ltb_lt. replace (Z.of_nat j) with i by lia. exact Ho.
    + rewrite frame_step. eapply (voxel_at_step e l _ _ i Ce Cl He Hl).
Qed.

(** A prism whose box is described in any way. *)
Lemma prism_as pos orient o s p c b l (S : cell -> Prop) :
  cell_at pos p -> points_to orient c -> voxel_at o b -> size_is s l -> (forall q, in_box b l q <-> S q) ->
  exists pts, x_prism pos orient o s = Ok pts /\ covers pts (frame_image p c S).
Proof.
  intros HP HO Hb Hs HS. destruct (x_prism_ok pos orient o s p c b l HP HO Hb Hs) as (pts & -> & _ & C).
  exists pts. split; [reflexivity|]. eapply covers_ext; [|exact C]. intros q. unfold frame_image.
  split; intros (q0 & A & B); exists q0; (split; [apply HS; exact A|exact B]).
Qed.

Lemma wall_ok pos orient o f h p c b : cell_at pos p -> points_to orient c -> voxel_at o b ->
  exists pts, x_wall pos orient o f h = Ok pts /\ covers pts (frame_image p c (wall_shape o f h)).
Proof.
  intros HP HO Hb. unfold x_wall.
  assert (forall (s : cell) x y,
    (forall q, wall_shape o f h q <-> in_box (shift b x y 0) s q) -> exists pts, (let! o' := vadd o (fine x y 0) in x_prism pos orient o' (fine (fst (fst s)) (snd (fst s)) (snd s))) = Ok pts /\
      covers pts (frame_image p c (wall_shape o f h))) as K.
  { intros [[s1 s2] s3] x y H2. destruct (voxel_at_shift o b x y 0 Hb) as (o' & -> & Ho'). cbn [bind fst snd].
    eapply prism_as; eauto using size_is_fine. intros q. rewrite H2. tauto. }
  assert (forall d q, points_to f d -> wall_shape o f h q <-> 
     match d with
    | CE => in_box (shift b 7 0 0) (1, 8, h) q
    | CW => in_box b (1, 8, h) q
    | CN => in_box (shift b 0 7 0) (8, 1, h) q
    | CS => in_box b (8, 1, h) q
    end) as W.
  { intros d q Hd. split.
    - intros (b' & d' & Hb' & Hd' & A). rewrite (voxel_at_inj _ _ _ Hb' Hb) in A.
      destruct Hd as [_ Hd], Hd' as [_ Hd']. rewrite Hd in Hd'. destruct d, d'; try discriminate; exact A.
    - intros A. exists b, d. auto. }
  assert (shift b 0 0 0 = b) as S0 by (destruct b as [[x y] z]; cbn [shift]; apply t3_eq; lia).
  pose proof (fun d => proj2 (veq_compass f d)) as VC. pose proof (fun d => proj1 (veq_compass f d)) as VC'.
  destruct (veq f EAST) eqn:E1; [|destruct (veq f WEST) eqn:E2; [|destruct (veq f NORTH) eqn:E3; [|destruct (veq f SOUTH) eqn:E4]]].
  - apply (K (1, 8, h) 7 0). intros q. apply (W CE q (VC CE E1)).
  - apply (K (1, 8, h) 0 0). intros q. rewrite S0. apply (W CW q (VC CW E2)).
  - apply (K (8, 1, h) 0 7). intros q. apply (W CN q (VC CN E3)).
  - apply (K (8, 1, h) 0 0). intros q. rewrite S0. apply (W CS q (VC CS E4)).
  - exists []. split; [reflexivity|]. split; [intros v []|]. intros q. split; [intros (v & [] & _)|].
    intros (q0 & (b' & d & _ & Hd & _) & _). apply VC' in Hd. destruct d; congruence.
Qed.

Lemma ring_ok pos orient o n p c : cell_at pos p -> points_to orient c -> grid_args (KRing o n) ->
  exists pts, x_ring pos orient o n = Ok pts /\ covers pts (frame_image p c (shape (KRing o n))).
Proof.
  intros HP HO [[b Hb] Hn]. unfold x_ring.
  destruct (prism_as pos orient o (fine 1 (n - 1) 1) p c b _ _ HP HO Hb (size_is_fine _ _ _) (fun q => iff_refl _)) as (p1 & -> & C1).
  destruct (prism_as pos orient o (fine (n - 1) 1 1) p c b _ _ HP HO Hb (size_is_fine _ _ _) (fun q => iff_refl _)) as (p2 & -> & C2).
  cbn [bind].
  destruct (voxel_at_shift o b 0 (n - 1) 0 Hb) as (o3 & -> & Ho3). cbn [bind].
  destruct (prism_as pos orient o3 (fine n 1 1) p c _ _ _ HP HO Ho3 (size_is_fine _ _ _) (fun q => iff_refl _)) as (p3 & -> & C3).
  cbn [bind].
  destruct (voxel_at_shift o b (n - 1) 0 0 Hb) as (o4 & -> & Ho4). cbn [bind].
  destruct (prism_as pos orient o4 (fine 1 n 1) p c _ _ _ HP HO Ho4 (size_is_fine _ _ _) (fun q => iff_refl _)) as (p4 & -> & C4).
  cbn [bind]. eexists. split; [reflexivity|].
  eapply covers_ext; [|apply covers_app; [exact C1|apply covers_app; [exact C2|apply covers_app; [exact C3|exact C4]]]].
  destruct b as [[a b] h].
  assert (forall q, shape (KRing o n) q <-> in_box (a, b, h) (1, n - 1, 1) q \/ in_box (a, b, h) (n - 1, 1, 1) q \/
     in_box (shift (a, b, h) 0 (n - 1) 0) (n, 1, 1) q \/ in_box (shift (a, b, h) (n - 1) 0 0) (1, n, 1) q) as R.
  { intros [[x y] z]. split.
    - intros [(a' & b' & c' & x' & y' & Hb' & Eq & Hx & Hy & Ho)|[-> Hq]]; [|
        pose proof (voxel_at_inj _ _ _ Hb Hq) as E; apply t3_inv in E as (-> & -> & ->); cbn [in_box shift]; unfold within; lia].
      apply t3_inv in Eq as (-> & -> & ->).
      pose proof (voxel_at_inj _ _ _ Hb Hb') as E. apply t3_inv in E as (-> & -> & ->).
      cbn [in_box shift]. unfold within. lia.
    - intros A. cbn [in_box shift] in A. unfold within in A. destruct (Z.eq_dec n 0) as [->|].
      { right. split; [reflexivity|]. replace (x, y, z) with (a, b, h) by (apply t3_eq; lia). exact Hb. }
      left. exists a, b, h, x, y.
      split; [exact Hb|]. split; [apply t3_eq; lia|]. lia. }
  intros q. unfold frame_image. setoid_rewrite R. split.
  - intros [(q0 & A & B)|[(q0 & A & B)|[(q0 & A & B)|(q0 & A & B)]]]; exists q0; tauto.
  - intros (q0 & [A|[A|[A|A]]] & B); [left|right; left|do 2 right; left|do 3 right]; exists q0; tauto.
Qed.

(** The voxels of any construction with arguments on the grid. *)
Theorem points_shape pos orient k p c : cell_at pos p -> points_to orient c -> grid_args k ->
  exists pts, points pos orient k = Ok pts /\ covers pts (frame_image p c (shape k)).
Proof.
  intros HP HO G. destruct k.
  - destruct G as [b Hb]. cbn [points].
    destruct (local_position_ok pos orient offset p c b HP HO Hb) as (l & -> & Cl & Hl). cbn [bind].
    eexists. split; [reflexivity|]. apply covers_intro.
    + intros v [<-|[]]. split; [exact Cl|]. exists (frame p c b). split; [exact Hl|]. exists b. auto.
    + intros q (q0 & Hq & ->). exists l. split; [left; reflexivity|]. rewrite (voxel_at_inj _ _ _ Hq Hb). exact Hl.
  - apply column_shape; assumption.
  - apply dotted_shape; assumption.
  - destruct G as [b Hb]. cbn [points]. destruct (voxel_at_shift offset b 0 0 7 Hb) as (o' & -> & Ho'). cbn [bind].
    eapply prism_as; eauto using size_is_fine. intros q. split.
    + intros A. exists b. auto.
    + intros (b' & Hb' & A). rewrite (voxel_at_inj _ _ _ Hb Hb'). exact A.
  - destruct G as [b Hb]. cbn [points]. eapply prism_as; eauto using size_is_fine. intros q. split.
    + intros A. exists b. auto.
    + intros (b' & Hb' & A). rewrite (voxel_at_inj _ _ _ Hb Hb'). exact A.
  - destruct G as [b Hb]. eapply wall_ok; eauto.
  - destruct G as [b Hb]. eapply wall_ok; eauto.
  - apply ring_ok; assumption.
  - destruct G as [[b Hb] [l Hl]]. cbn [points]. eapply prism_as; eauto. intros q. split.
    + intros A. exists b, l. auto.
    + intros (b' & l' & Hb' & Hl' & A). rewrite (voxel_at_inj _ _ _ Hb Hb').
      replace l with l'; [exact A|]. unfold size_is in *. destruct l as [[x y] z], l' as [[x' y'] z'].
      rewrite Hl in Hl'. apply t3_inv in Hl'. apply t3_eq; lia.
Qed.
