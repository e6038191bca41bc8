(** What a call of [x] does to a world. *)
From Coq Require Import QArith.
From Verif Require Import Py VecModel VecSpec VecProofs VoxelModel VoxelSpec VoxelProofs UpmModel UpmSpec
  KitModel KitSpec KitProofs KitShape.
Local Open Scope Z_scope.

Lemma latest_app {A} (l r : list (wop A)) p :
  (forall o, In o l -> op_pos o <> p) -> latest (l ++ r) p = latest r p.
Proof.
  induction l as [|o l IH]; intros Hn; cbn [app latest]; [reflexivity|].
  destruct (pos_eqb (op_pos o) p) eqn:E.
  - apply pos_eqb_eq in E. exfalso. apply (Hn o); [left; reflexivity|exact E].
  - apply IH. intros o' Ho'. apply Hn. right. exact Ho'.
Qed.
Lemma latest_hit {A} (l r : list (wop A)) p o :
  In o l -> op_pos o = p -> exists o', In o' l /\ latest (l ++ r) p = op_val o'.
Proof.
  induction l as [|a l IH]; intros Hi Hp; [destruct Hi|]. cbn [app latest].
  destruct (pos_eqb (op_pos a) p) eqn:E; [exists a; split; [left|]; reflexivity|].
  destruct Hi as [->|Hi]; [rewrite Hp, pos_eqb_refl in E; discriminate|].
  destruct (IH Hi Hp) as (o' & A1 & A2). exists o'. split; [right; exact A1|exact A2].
Qed.

Lemma wrun_app {A} (a b : list (wop A)) w : wrun (a ++ b) w = wrun b (wrun a w).
Proof. unfold wrun. apply fold_left_app. Qed.

(** Painting is a history of calls, one per point, in order. *)
Lemma paint_run pts tex sub prob : forall w g, exists ops g',
  paint pts tex sub prob w g = (wrun ops w, g') /\
  map op_pos ops = map coords2 pts /\
  (forall o, In o ops ->
     if sub then op_val o = None
     else if Qle_bool 1 prob then op_val o = Some (repeat tex 6)
     else op_val o = None \/ op_val o = Some (repeat tex 6)).
Proof.
  induction pts as [|v pts IH]; intros w g; cbn [paint].
  - exists [], g. split; [reflexivity|]. split; [reflexivity|intros o []].
  - destruct (subtract_or_skip sub prob g) as [s g1] eqn:E.
    set (o := if s then DelPointV v else SetPointV v (repeat tex 6)).
    destruct (IH (wstep w o) g1) as (ops & g' & E1 & E2 & E3).
    exists (o :: ops), g'. split; [|split].
    + cbn [wrun fold_left]. fold (wrun ops (wstep w o)). rewrite <- E1. unfold o. destruct s; reflexivity.
    + cbn [map]. rewrite E2. f_equal. unfold o. destruct s; reflexivity.
    + intros o' [<-|Ho']; [|apply E3; exact Ho']. unfold subtract_or_skip in E. unfold o.
      destruct sub; [injection E as <- _; reflexivity|].
      destruct (Qle_bool 1 prob); [injection E as <- _; reflexivity|].
      destruct s; [left|right]; reflexivity.
Qed.

Lemma doubled_inj q q' : doubled q = doubled q' -> q = q'.
Proof. destruct q as [[x y] z], q' as [[x' y'] z']. cbn [doubled]. intros E. apply t3_inv in E. apply t3_eq; lia. Qed.
Lemma fpos2_fine v : vc v = Fine -> fpos2 v = coords2 v.
Proof. intros C. unfold fpos2. rewrite C. destruct (coords2 v) as [[x y] z]. reflexivity. Qed.

Lemma paint_ok pts (S : cell -> Prop) tex sub prob size ops g : covers pts S ->
  exists ops' g', paint pts tex sub prob (wrun ops (new_world size)) g = (wrun (ops ++ ops') (new_world size), g') /\
    (forall o, In o ops' -> exists q, S q /\ op_pos o = doubled q) /\
    (forall x y z, (forall q, S q -> doubled q <> (halves x, halves y, halves z)) ->
       get_point (wrun (ops ++ ops') (new_world size)) x y z = get_point (wrun ops (new_world size)) x y z) /\
    (forall q, S q -> drawn tex sub prob (at_voxel (wrun (ops ++ ops') (new_world size)) q)).
Proof.
  intros [C1 C2].
  destruct (paint_run pts tex sub prob (wrun ops (new_world size)) g) as (ops' & g' & E & P & V).
  exists ops', g'. rewrite E, <- wrun_app. split; [reflexivity|].
  assert (forall o, In o ops' -> exists q, S q /\ op_pos o = doubled q) as IN.
  { intros o Ho. assert (In (op_pos o) (map coords2 pts)) as Hi by (rewrite <- P; apply in_map; exact Ho).
    apply in_map_iff in Hi as (v & Hv & Hin). destruct (C1 v Hin) as (Cv & q & Nq & Hq). exists q.
    split; [apply C2; exists v; split; [exact Hin|split; assumption]|].
    rewrite <- Hv, <- (fpos2_fine v Cv), Hq. destruct q as [[x y] z]. reflexivity. }
  split; [exact IN|]. split.
  - intros x y z Hn. rewrite !world_history_lemma, rev_app_distr. apply latest_app.
    intros o Ho. apply in_rev in Ho. destruct (IN o Ho) as (q & Hq & ->). apply Hn. exact Hq.
  - intros q Hq. apply C2 in Hq as (v & Hv & Nv & Ev).
    assert (In (doubled q) (map op_pos ops')) as Hi.
    { rewrite P. apply in_map_iff. exists v. split; [|exact Hv].
      rewrite <- (fpos2_fine v (proj1 (C1 v Hv))), Ev. destruct q as [[x y] z]. reflexivity. }
    apply in_map_iff in Hi as (o & Po & Ho). apply in_rev in Ho.
    destruct (latest_hit (rev ops') (rev ops) (doubled q) o Ho Po) as (o' & Ho' & L).
    destruct q as [[x y] z]. unfold at_voxel. rewrite world_history_lemma, rev_app_distr.
    cbn [doubled] in L. change (halves (I x), halves (I y), halves (I z)) with (2 * x, 2 * y, 2 * z).
    rewrite L. apply V. apply in_rev. exact Ho'.
Qed.

(** A call, for arguments on the grid. *)
Lemma x_call_ok pos orient p c k tex sub prob size ops g :
  cell_at pos p -> points_to orient c -> grid_args k ->
  exists ops' g', x_call pos orient (C k tex sub prob) (wrun ops (new_world size)) g
      = (Ok (wrun (ops ++ ops') (new_world size)), g') /\
    (forall o, In o ops' -> exists q, shape k q /\ op_pos o = doubled (frame p c q)) /\
    (forall x y z, (forall q, shape k q -> doubled (frame p c q) <> (halves x, halves y, halves z)) ->
       get_point (wrun (ops ++ ops') (new_world size)) x y z = get_point (wrun ops (new_world size)) x y z) /\
    (forall q, shape k q -> drawn tex sub prob (at_voxel (wrun (ops ++ ops') (new_world size)) (frame p c q))).
Proof.
  intros HP HO G. destruct (points_shape pos orient k p c HP HO G) as (pts & E & Cv).
  unfold x_call. cbn [k_con k_tex k_sub k_prob]. rewrite E.
  destruct (paint_ok pts _ tex sub prob size ops g Cv) as (ops' & g' & -> & A & B & D).
  exists ops', g'. split; [reflexivity|]. split; [|split].
  - intros o Ho. destruct (A o Ho) as (q & (q0 & Hq & ->) & Po). eauto.
  - intros x y z Hn. apply B. intros q (q0 & Hq & ->). apply Hn. exact Hq.
  - intros q Hq. apply D. exists q. auto.
Qed.

Lemma draws_intro pos orient p c k (S : cell -> Prop) : cell_at pos p -> points_to orient c -> grid_args k ->
  (forall v, S v <-> exists q, shape k q /\ v = frame p c q) -> draws pos orient k S.
Proof.
  intros HP HO G E tex sub prob size ops g w.
  destruct (x_call_ok pos orient p c k tex sub prob size ops g HP HO G) as (ops' & g' & E1 & _ & E2 & E3).
  eexists _, g'. split; [exact E1|]. split.
  - intros v Hv. apply E in Hv as (q & Hq & ->). apply E3. exact Hq.
  - intros x y z Hn. apply E2. intros q Hq. apply Hn. apply E. exists q. auto.
Qed.

Lemma prism_draws pos orient p c off o xyz s : cell_at pos p -> points_to orient c -> voxel_at off o -> size_is xyz s ->
  draws pos orient (KPrism off xyz) (fun v => exists q, in_box o s q /\ v = frame p c q).
Proof.
  intros HP HO Hf Hs. apply (draws_intro _ _ p c); [assumption|assumption|cbn [grid_args]; eauto|].
  intros v. split.
  - intros (q & Hq & ->). exists q. split; [exists o, s; auto|reflexivity].
  - intros (q & (b & l & Hb & Hl & Hq) & ->). exists q. rewrite (voxel_at_inj _ _ _ Hf Hb).
    unfold size_is in *. rewrite Hs in Hl. destruct s as [[x y] z], l as [[x' y'] z']. apply t3_inv in Hl.
    split; [|reflexivity]. replace (x, y, z) with (x', y', z') by (apply t3_eq; lia). exact Hq.
Qed.

Lemma cell_voxel v d : cell_at v d -> voxel_at v (cmul8 d).
Proof.
  intros [C E]. split; [congruence|]. unfold fpos2. rewrite C, E. destruct d as [[x y] z]. cbn [cmul8]. apply t3_eq; lia.
Qed.

Lemma tile_frame p c d q : let '(x, y, z) := d in
  frame p c (shift q (8 * x) (8 * y) (8 * z)) = frame (placed p c d) c q.
Proof.
  destruct p as [[pa pb] ph], d as [[x y] z], q as [[u v] w].
  destruct c; cbn [frame tile_turn shift placed cell_turn]; apply t3_eq; lia.
Qed.
