(** Lemmas about the voxel world model. *)
From Verif Require Import Py VecModel VoxelModel VoxelSpec.
Ltac Zify.zify_post_hook ::= Z.div_mod_to_equations.

(** ** Ordered dictionaries with a decidable key equivalence *)
Section DictFacts.
  Context {K V : Type} (eqb : K -> K -> bool).
  Hypothesis eqb_refl : forall k, eqb k k = true.
  Hypothesis eqb_sym : forall a b, eqb a b = eqb b a.
  Hypothesis eqb_trans : forall a b c, eqb a b = true -> eqb b c = eqb a c.

  Lemma dget_dset d k v k' :
    dget (V:=V) eqb (dset eqb d k v) k' = if eqb k k' then Some v else dget eqb d k'.
  Proof.
    induction d as [|[k0 v0] d IH]; cbn [dset dget].
    - reflexivity.
    - destruct (eqb k0 k) eqn:E; cbn [dget].
      + pose proof (eqb_trans k0 k k' E) as T. rewrite T.
        destruct (eqb k0 k'); reflexivity.
      + rewrite IH. destruct (eqb k0 k') eqn:E1; [|reflexivity].
        destruct (eqb k k') eqn:E2; [|reflexivity].
        rewrite eqb_sym in E2. pose proof (eqb_trans k' k k0 E2) as T.
        rewrite (eqb_sym k' k0), E1, (eqb_sym k k0), E in T. discriminate.
  Qed.

  (** Keys pairwise inequivalent. *)
  Fixpoint keys_nodup (d : list (K * V)) : Prop :=
    match d with [] => True | (k, _) :: d' => dget eqb d' k = None /\ keys_nodup d' end.

  Lemma dget_equiv d a b : eqb a b = true -> dget (V:=V) eqb d a = dget eqb d b.
  Proof.
    intros E. induction d as [|[k0 v0] d IH]; cbn [dget]; [reflexivity|].
    rewrite IH. rewrite (eqb_sym k0 a), (eqb_sym k0 b).
    rewrite eqb_sym in E. rewrite (eqb_trans b a k0 E). reflexivity.
  Qed.

  Lemma keys_nodup_dset d k v : keys_nodup d -> keys_nodup (dset eqb d k v).
  Proof.
    induction d as [|[k0 v0] d IH]; cbn [dset keys_nodup]; [intuition|].
    intros [H1 H2]. destruct (eqb k0 k) eqn:E; cbn [keys_nodup]; [auto|].
    split; [|auto]. rewrite dget_dset, eqb_sym, E. exact H1.
  Qed.

  Lemma dget_ddel d k k' : keys_nodup d ->
    dget (V:=V) eqb (ddel eqb d k) k' = if eqb k k' then None else dget eqb d k'.
  Proof.
    induction d as [|[k0 v0] d IH]; cbn [ddel dget keys_nodup].
    - intros _. destruct (eqb k k'); reflexivity.
    - intros [H1 H2]. destruct (eqb k0 k) eqn:E; cbn [dget].
      + pose proof (eqb_trans k0 k k' E) as T. rewrite T.
        destruct (eqb k0 k') eqn:E1; [|reflexivity].
        rewrite <- (dget_equiv d k0 k' E1). exact H1.
      + rewrite (IH H2). destruct (eqb k0 k') eqn:E1; [|reflexivity].
        destruct (eqb k k') eqn:E2; [|reflexivity].
        rewrite eqb_sym in E2. pose proof (eqb_trans k' k k0 E2) as T.
        rewrite (eqb_sym k' k0), E1, (eqb_sym k k0), E in T. discriminate.
  Qed.

  Lemma keys_nodup_ddel d k : keys_nodup d -> keys_nodup (ddel eqb d k).
  Proof.
    induction d as [|[k0 v0] d IH]; cbn [ddel keys_nodup]; [auto|].
    intros [H1 H2]. destruct (eqb k0 k) eqn:E; cbn [keys_nodup]; [auto|].
    split; [|auto]. rewrite dget_ddel by assumption.
    destruct (eqb k k0); auto.
  Qed.
End DictFacts.

(** ** Keys *)
Lemma keqb_spec a b : keqb a b = pos_eqb (kpos a) (kpos b).
Proof. destruct a as [[x y] z], b as [[x' y'] z']. reflexivity. Qed.
Lemma pos_eqb_eq p q : pos_eqb p q = true <-> p = q.
Proof.
  destruct p as [[x y] z], q as [[x' y'] z']. cbn [pos_eqb].
  rewrite !andb_true_iff, !Z.eqb_eq. split; [intros [[-> ->] ->]|intros [= -> -> ->]]; auto.
Qed.
Lemma pos_eqb_refl p : pos_eqb p p = true.
Proof. apply pos_eqb_eq. reflexivity. Qed.
Lemma pos_eqb_sym p q : pos_eqb p q = pos_eqb q p.
Proof.
  destruct (pos_eqb p q) eqn:E; symmetry.
  - apply pos_eqb_eq. symmetry. apply pos_eqb_eq. exact E.
  - apply not_true_is_false. intros E'. apply pos_eqb_eq in E'. subst.
    rewrite pos_eqb_refl in E. discriminate.
Qed.
Lemma keqb_refl k : keqb k k = true.
Proof. rewrite keqb_spec. apply pos_eqb_refl. Qed.
Lemma keqb_sym a b : keqb a b = keqb b a.
Proof. rewrite !keqb_spec. apply pos_eqb_sym. Qed.
Lemma keqb_trans a b c : keqb a b = true -> keqb b c = keqb a c.
Proof. rewrite !keqb_spec. intros E. apply pos_eqb_eq in E. rewrite E. reflexivity. Qed.

(** ** Histories (C10, C11) *)
Section Hist.
Context {A : Type}.
Implicit Type w : world A.

Lemma set_point_map w x y z a :
  w_map (set_point w x y z a) = dset keqb (w_map w) (x, y, z) a.
Proof. reflexivity. Qed.

Lemma del_point_map w x y z :
  keys_nodup keqb (w_map w) ->
  keys_nodup keqb (w_map (del_point w x y z)) /\
  forall k, dget keqb (w_map (del_point w x y z)) k
            = if keqb (x, y, z) k then None else dget keqb (w_map w) k.
Proof.
  intros Hn. unfold del_point, dmem.
  destruct (dget keqb (w_map w) (x, y, z)) eqn:E; cbn [w_map with_map].
  - split; [apply keys_nodup_ddel; auto using keqb_refl, keqb_sym, keqb_trans|].
    intros k. apply dget_ddel; auto using keqb_refl, keqb_sym, keqb_trans.
  - split; [assumption|]. intros k. destruct (keqb (x, y, z) k) eqn:E1; [|reflexivity].
    rewrite <- E. symmetry. apply dget_equiv; auto using keqb_refl, keqb_sym, keqb_trans.
Qed.

Lemma wstep_map w o :
  keys_nodup keqb (w_map w) ->
  keys_nodup keqb (w_map (wstep w o)) /\
  forall k, dget keqb (w_map (wstep w o)) k
            = if pos_eqb (op_pos o) (kpos k) then op_val o else dget keqb (w_map w) k.
Proof.
  intros Hn. destruct o as [x y z a|v a|x y z|v]; cbn [wstep op_pos op_val].
  - rewrite set_point_map. split.
    + apply keys_nodup_dset; auto using keqb_refl, keqb_sym, keqb_trans.
    + intros k. rewrite dget_dset by auto using keqb_refl, keqb_sym, keqb_trans.
      rewrite keqb_spec. reflexivity.
  - cbn [set_pointv with_map w_map update_boundaries]. split.
    + apply keys_nodup_dset; auto using keqb_refl, keqb_sym, keqb_trans.
    + intros k. rewrite dget_dset by auto using keqb_refl, keqb_sym, keqb_trans.
      rewrite keqb_spec. reflexivity.
  - destruct (del_point_map w x y z Hn) as [H1 H2]. split; [assumption|].
    intros k. rewrite H2, keqb_spec. reflexivity.
  - change (del_pointv w v) with (del_point w (vx v) (vy v) (vz v)).
    destruct (del_point_map w (vx v) (vy v) (vz v) Hn) as [H1 H2]. split; [assumption|].
    intros k. rewrite H2, keqb_spec. reflexivity.
Qed.

Lemma wrun_nodup ops w : keys_nodup keqb (w_map w) -> keys_nodup keqb (w_map (wrun ops w)).
Proof.
  revert w. induction ops as [|o ops IH]; intros w Hn; [exact Hn|].
  cbn [wrun fold_left]. apply IH. apply wstep_map. exact Hn.
Qed.

Lemma wrun_snoc ops o w : wrun (ops ++ [o]) w = wstep (wrun ops w) o.
Proof. unfold wrun. rewrite fold_left_app. reflexivity. Qed.

Lemma world_history_lemma size (ops : list (wop A)) x y z :
  get_point (wrun ops (new_world size)) x y z
  = latest (rev ops) (halves x, halves y, halves z).
Proof.
  induction ops as [|o ops IH] using rev_ind; [reflexivity|].
  rewrite wrun_snoc, rev_app_distr. cbn [rev app latest].
  unfold get_point in *.
  destruct (wstep_map (wrun ops (new_world size)) o (wrun_nodup ops (new_world size) Logic.I)) as [_ H2].
  rewrite H2. cbn [kpos]. destruct (pos_eqb _ _); [reflexivity|exact IH].
Qed.

Lemma keys_nodup_NoDup (d : list (key * A)) :
  keys_nodup keqb d -> NoDup (map (fun e => kpos (fst e)) d).
Proof.
  induction d as [|[k v] d IH]; cbn [keys_nodup map]; [constructor|].
  intros [H1 H2]. constructor; [|auto].
  cbn [fst]. intros Hin. apply in_map_iff in Hin. destruct Hin as ([k' v'] & E & Hin).
  cbn [fst] in E. clear IH H2. induction d as [|[k0 v0] d IH]; [destruct Hin|].
  cbn [dget] in H1. rewrite keqb_spec in H1.
  destruct (pos_eqb (kpos k0) (kpos k)) eqn:E1; [discriminate|].
  destruct Hin as [Hin|Hin].
  - injection Hin as -> ->. rewrite E, pos_eqb_refl in E1. discriminate.
  - apply IH; assumption.
Qed.

Lemma dget_in (d : list (key * A)) k a :
  keys_nodup keqb d ->
  (dget keqb d k = Some a <-> exists k', In (k', a) d /\ kpos k' = kpos k).
Proof.
  induction d as [|[k0 v0] d IH]; cbn [keys_nodup dget].
  - intros _. split; [discriminate|intros (k' & [] & _)].
  - intros [H1 H2]. rewrite keqb_spec. destruct (pos_eqb (kpos k0) (kpos k)) eqn:E.
    + apply pos_eqb_eq in E. split.
      * intros [= ->]. exists k0. split; [left; reflexivity|exact E].
      * intros (k' & [Hin|Hin] & Hk); [injection Hin as -> ->; reflexivity|].
        exfalso.
        assert (G : dget keqb d k0 = Some a).
        { rewrite (dget_equiv keqb keqb_sym keqb_trans d k0 k)
            by (rewrite keqb_spec, E; apply pos_eqb_refl).
          apply IH; [assumption|]. eauto. }
        congruence.
    + rewrite IH by assumption. split.
      * intros (k' & Hin & Hk). exists k'. split; [right|]; assumption.
      * intros (k' & [Hin|Hin] & Hk).
        -- injection Hin as -> ->. rewrite Hk, pos_eqb_refl in E. discriminate.
        -- eauto.
Qed.

(** The stored entries are exactly the present positions, each listed once. *)
Lemma world_entries_lemma size (ops : list (wop A)) :
  let w := wrun ops (new_world size) in
  NoDup (map (fun e => kpos (fst e)) (w_map w)) /\
  (forall p a, latest (rev ops) p = Some a <->
               exists k, In (k, a) (w_map w) /\ kpos k = p).
Proof.
  intros w. assert (Hn : keys_nodup keqb (w_map w)) by (apply wrun_nodup; exact Logic.I).
  split; [apply keys_nodup_NoDup; exact Hn|].
  intros [[x y] z] a.
  assert (E : latest (rev ops) (x, y, z) = get_point w (H x) (H y) (H z))
    by (symmetry; apply world_history_lemma).
  rewrite E. unfold get_point. rewrite dget_in by exact Hn. reflexivity.
Qed.

(** *** Boundaries *)
Lemma nmax_fold a b : halves (if nltb a b then b else a) = Z.max (halves a) (halves b).
Proof. unfold nltb. destruct (Z.ltb_spec (halves a) (halves b)); lia. Qed.
Lemma nmin_fold a b : halves (if nltb b a then b else a) = Z.min (halves a) (halves b).
Proof. unfold nltb. destruct (Z.ltb_spec (halves b) (halves a)); lia. Qed.

Definition bx (w : world A) := (halves (w_xmin w), halves (w_xmax w)).
Definition by_ (w : world A) := (halves (w_ymin w), halves (w_ymax w)).
Definition bz (w : world A) := (halves (w_zmin w), halves (w_zmax w)).

Definition fold_bounds (ops : list (wop A)) (f : Z * Z * Z -> Z) (b : Z * Z) : Z * Z :=
  fold_left (fun b p => (Z.min (fst b) (f p), Z.max (snd b) (f p))) (set_positions ops) b.

Lemma wstep_bounds w o :
  bx (wstep w o) = fold_bounds [o] p1 (bx w) /\
  by_ (wstep w o) = fold_bounds [o] p2 (by_ w) /\
  bz (wstep w o) = fold_bounds [o] p3 (bz w).
Proof.
  destruct o as [x y z a|v a|x y z|v].
  - unfold bx, by_, bz, fold_bounds, set_positions, p1, p2, p3.
    cbn [wstep set_point with_map update_boundaries w_xmin w_xmax w_ymin w_ymax w_zmin w_zmax
         filter op_val map op_pos fold_left fst snd].
    rewrite !nmax_fold, !nmin_fold. auto.
  - unfold bx, by_, bz, fold_bounds, set_positions, p1, p2, p3.
    cbn [wstep set_pointv with_map update_boundaries w_xmin w_xmax w_ymin w_ymax w_zmin w_zmax
         filter op_val map op_pos fold_left fst snd].
    rewrite !nmax_fold, !nmin_fold. auto.
  - cbn [wstep]. unfold del_point. destruct (dmem _ _ _); auto.
  - cbn [wstep]. unfold del_pointv. destruct (dmem _ _ _); auto.
Qed.

Lemma fold_bounds_app ops1 ops2 f b :
  fold_bounds (ops1 ++ ops2) f b = fold_bounds ops2 f (fold_bounds ops1 f b).
Proof.
  unfold fold_bounds, set_positions. rewrite filter_app, map_app, fold_left_app. reflexivity.
Qed.

Lemma wrun_bounds ops w :
  bx (wrun ops w) = fold_bounds ops p1 (bx w) /\
  by_ (wrun ops w) = fold_bounds ops p2 (by_ w) /\
  bz (wrun ops w) = fold_bounds ops p3 (bz w).
Proof.
  revert w. induction ops as [|o ops IH]; intros w; [auto|].
  change (wrun (o :: ops) w) with (wrun ops (wstep w o)).
  destruct (IH (wstep w o)) as (-> & -> & ->).
  destruct (wstep_bounds w o) as (-> & -> & ->).
  change (o :: ops) with ([o] ++ ops). rewrite !fold_bounds_app. auto.
Qed.

Lemma fold_tight (l : list (Z * Z * Z)) f lo hi :
  tight (fold_left (fun b p => (Z.min (fst b) (f p), Z.max (snd b) (f p))) l (lo, hi))
        lo hi (map f l).
Proof.
  induction l as [|p l IH] using rev_ind.
  - cbn [fold_left map]. unfold tight. cbn [fst snd In]. intuition lia.
  - rewrite fold_left_app, map_app. cbn [fold_left map].
    destruct (fold_left _ l (lo, hi)) as [a b]. unfold tight in *. cbn [fst snd] in *.
    destruct IH as (H1 & H2 & H3 & H4 & H5).
    split; [|split; [|split; [|split]]]; try lia.
    + destruct (Z.min_spec a (f p)) as [[_ ->]|[_ ->]].
      * destruct H1; [left|right; apply in_or_app; left]; assumption.
      * right. apply in_or_app. right. left. reflexivity.
    + destruct (Z.max_spec b (f p)) as [[_ ->]|[_ ->]].
      * right. apply in_or_app. right. left. reflexivity.
      * destruct H2; [left|right; apply in_or_app; left]; assumption.
    + intros c Hc. apply in_app_or in Hc. destruct Hc as [Hc|[<-|[]]]; [|lia].
      specialize (H5 c Hc). lia.
Qed.

Lemma boundaries_lemma size (ops : list (wop A)) :
  let w := wrun ops (new_world size) in
  let ps := set_positions ops in
  tight (halves (w_xmin w), halves (w_xmax w)) (2 * size) 0 (map p1 ps) /\
  tight (halves (w_ymin w), halves (w_ymax w)) (2 * size) 0 (map p2 ps) /\
  tight (halves (w_zmin w), halves (w_zmax w)) (2 * size) 0 (map p3 ps).
Proof.
  intros w ps. destruct (wrun_bounds ops (new_world size)) as (Hx & Hy & Hz).
  unfold bx, by_, bz in *. unfold w. rewrite Hx, Hy, Hz. unfold fold_bounds.
  cbn [new_world w_xmin w_xmax w_ymin w_ymax w_zmin w_zmax halves Z.mul].
  split; [|split]; apply (fold_tight (set_positions ops)).
Qed.

Lemma fold_widen (l : list (Z * Z * Z)) f b :
  fst (fold_left (fun b p => (Z.min (fst b) (f p), Z.max (snd b) (f p))) l b) <= fst b /\
  snd b <= snd (fold_left (fun b p => (Z.min (fst b) (f p), Z.max (snd b) (f p))) l b).
Proof.
  revert b. induction l as [|p l IH]; intros b; cbn [fold_left]; [lia|].
  specialize (IH (Z.min (fst b) (f p), Z.max (snd b) (f p))). cbn [fst snd] in IH. lia.
Qed.
Lemma widen_lemma (ops : list (wop A)) w :
  let w' := wrun ops w in
  halves (w_xmin w') <= halves (w_xmin w) /\ halves (w_xmax w) <= halves (w_xmax w') /\ halves (w_ymin w') <= halves (w_ymin w) /\ halves (w_ymax w) <= halves (w_ymax w') /\ halves (w_zmin w') <= halves (w_zmin w) /\ halves (w_zmax w) <= halves (w_zmax w').
Proof.
  intros w'. destruct (wrun_bounds ops w) as (Hx & Hy & Hz). fold w' in Hx, Hy, Hz.
  unfold bx, by_, bz, fold_bounds in *.
  pose proof (fold_widen (set_positions ops) p1 (halves (w_xmin w), halves (w_xmax w))) as Wx.
  pose proof (fold_widen (set_positions ops) p2 (halves (w_ymin w), halves (w_ymax w))) as Wy.
  pose proof (fold_widen (set_positions ops) p3 (halves (w_zmin w), halves (w_zmax w))) as Wz.
  rewrite <- Hx in Wx. rewrite <- Hy in Wy. rewrite <- Hz in Wz. cbn [fst snd] in *. lia.
Qed.

Lemma latest_in_sets (ops : list (wop A)) p a :
  latest ops p = Some a -> In p (set_positions ops).
Proof.
  unfold set_positions. induction ops as [|o ops IH]; cbn [latest]; [discriminate|].
  destruct (pos_eqb (op_pos o) p) eqn:E.
  - intros Hv. cbn [filter]. rewrite Hv. apply pos_eqb_eq in E. left. exact E.
  - intros Hl. cbn [filter]. destruct (op_val o); [right|]; auto.
Qed.

Lemma enclosing_lemma size (ops : list (wop A)) x y z a :
  let w := wrun ops (new_world size) in
  get_point w x y z = Some a ->
  halves (w_xmin w) <= halves x <= halves (w_xmax w) /\
  halves (w_ymin w) <= halves y <= halves (w_ymax w) /\
  halves (w_zmin w) <= halves z <= halves (w_zmax w).
Proof.
  intros w Hg. unfold w in Hg. rewrite world_history_lemma in Hg.
  apply latest_in_sets in Hg.
  assert (Hin : In (halves x, halves y, halves z) (set_positions ops)).
  { unfold set_positions in *. apply in_map_iff in Hg. destruct Hg as (o & Ho & Hf).
    apply in_map_iff. exists o. split; [exact Ho|].
    apply filter_In in Hf. destruct Hf as [Hf1 Hf2]. apply filter_In. split; [|exact Hf2].
    apply in_rev. exact Hf1. }
  destruct (boundaries_lemma size ops) as ((_ & _ & _ & _ & Hx) & (_ & _ & _ & _ & Hy) & (_ & _ & _ & _ & Hz)).
  cbn [fst snd] in *.
  repeat split; first [eapply Hx | eapply Hy | eapply Hz];
    first [exact (in_map p1 _ _ Hin) | exact (in_map p2 _ _ Hin) | exact (in_map p3 _ _ Hin)].
Qed.
End Hist.

(** ** Octree (C12, C13, C14) *)
Section Oct.
Context {A : Type}.
Implicit Type w : world A.

(** What octree construction must return on an aligned cube of side 2^k below
    the root: a tree (None for empty) agreeing with the world on that cube. *)
Definition sub_ok (k : nat) w (x0 y0 z0 : Z) (o : oval A) : Prop :=
  exists t, fill o = Ok t /\ shaped k t /\ (t = TEmpty <-> o = ONone) /\
    (forall i j l, 0 <= i < 2 ^ Z.of_nat k -> 0 <= j < 2 ^ Z.of_nat k -> 0 <= l < 2 ^ Z.of_nat k ->
       tlookup k t (x0 + i) (y0 + j) (z0 + l)
       = get_point w (I (x0 + i)) (I (y0 + j)) (I (z0 + l))).

Definition aligned (k : nat) (c : Z) : Prop := exists q, c = q * 2 ^ Z.of_nat k.

Lemma pow_S k : 2 ^ Z.of_nat (S k) = 2 * 2 ^ Z.of_nat k.
Proof. rewrite Nat2Z.inj_succ, Z.pow_succ_r by lia. reflexivity. Qed.
Lemma pow_pos k : 0 < 2 ^ Z.of_nat k.
Proof. apply Z.pow_pos_nonneg; lia. Qed.

Lemma aligned_half k c : aligned (S k) c -> aligned k c /\ aligned k (c + 2 ^ Z.of_nat k).
Proof.
  intros [q ->]. rewrite pow_S. split; [exists (2 * q)|exists (2 * q + 1)]; ring.
Qed.

Lemma bit_lo k c i :
  aligned (S k) c -> 0 <= i < 2 ^ Z.of_nat k -> ((c + i) / 2 ^ Z.of_nat k) mod 2 = 0.
Proof.
  intros [q ->] Hi. rewrite pow_S. pose proof (pow_pos k) as Hp.
  replace (q * (2 * 2 ^ Z.of_nat k) + i) with (i + (2 * q) * 2 ^ Z.of_nat k) by ring.
  rewrite Z.div_add, Z.div_small by lia. rewrite Z.add_0_l, Z.mul_comm. apply Z.mod_mul. lia.
Qed.
Lemma bit_hi k c i :
  aligned (S k) c -> 0 <= i < 2 ^ Z.of_nat k ->
  ((c + 2 ^ Z.of_nat k + i) / 2 ^ Z.of_nat k) mod 2 = 1.
Proof.
  intros [q ->] Hi. rewrite pow_S. pose proof (pow_pos k) as Hp.
  replace (q * (2 * 2 ^ Z.of_nat k) + 2 ^ Z.of_nat k + i)
    with (i + (2 * q + 1) * 2 ^ Z.of_nat k) by ring.
  rewrite Z.div_add, Z.div_small by lia. rewrite Z.add_0_l.
  rewrite Z.add_comm, Z.mul_comm. rewrite Z.mod_add by lia. reflexivity.
Qed.

Lemma mid k c : (c + (c + 2 ^ Z.of_nat (S k))) / 2 = c + 2 ^ Z.of_nat k.
Proof. rewrite pow_S. pose proof (pow_pos k). lia. Qed.

(** The eight sub-results, in order. *)
Definition eight (k : nat) w x0 y0 z0 (cs : list (oval A)) : Prop :=
  let h := 2 ^ Z.of_nat k in
  exists c0 c1 c2 c3 c4 c5 c6 c7, cs = [c0; c1; c2; c3; c4; c5; c6; c7] /\
    sub_ok k w x0 y0 z0 c0 /\ sub_ok k w (x0 + h) y0 z0 c1 /\
    sub_ok k w x0 (y0 + h) z0 c2 /\ sub_ok k w (x0 + h) (y0 + h) z0 c3 /\
    sub_ok k w x0 y0 (z0 + h) c4 /\ sub_ok k w (x0 + h) y0 (z0 + h) c5 /\
    sub_ok k w x0 (y0 + h) (z0 + h) c6 /\ sub_ok k w (x0 + h) (y0 + h) (z0 + h) c7.

Lemma bit_nat (b : Z) : b = 0 -> Z.to_nat b = 0%nat. Proof. intros ->; reflexivity. Qed.

Lemma half_split k i : 0 <= i < 2 ^ Z.of_nat (S k) ->
  (0 <= i < 2 ^ Z.of_nat k) \/ (exists i', i = 2 ^ Z.of_nat k + i' /\ 0 <= i' < 2 ^ Z.of_nat k).
Proof.
  rewrite pow_S. intros Hi. destruct (Z_lt_le_dec i (2 ^ Z.of_nat k)); [left; lia|].
  right. exists (i - 2 ^ Z.of_nat k). lia.
Qed.

Lemma node_lookup k w x0 y0 z0 cs l :
  aligned (S k) x0 -> aligned (S k) y0 -> aligned (S k) z0 ->
  eight k w x0 y0 z0 cs -> mapM fill cs = Ok l ->
  forall i j m, 0 <= i < 2 ^ Z.of_nat (S k) -> 0 <= j < 2 ^ Z.of_nat (S k) ->
                0 <= m < 2 ^ Z.of_nat (S k) ->
  tlookup (S k) (TNode l) (x0 + i) (y0 + j) (z0 + m)
  = get_point w (I (x0 + i)) (I (y0 + j)) (I (z0 + m)).
Proof.
  intros Ax Ay Az (c0 & c1 & c2 & c3 & c4 & c5 & c6 & c7 & -> & S0 & S1 & S2 & S3 & S4 & S5 & S6 & S7) Hl.
  destruct S0 as (t0 & F0 & _ & _ & L0), S1 as (t1 & F1 & _ & _ & L1),
           S2 as (t2 & F2 & _ & _ & L2), S3 as (t3 & F3 & _ & _ & L3),
           S4 as (t4 & F4 & _ & _ & L4), S5 as (t5 & F5 & _ & _ & L5),
           S6 as (t6 & F6 & _ & _ & L6), S7 as (t7 & F7 & _ & _ & L7).
  cbn [mapM] in Hl. rewrite F0, F1, F2, F3, F4, F5, F6, F7 in Hl. cbn [bind] in Hl.
  injection Hl as <-.
  intros i j m Hi Hj Hm.
  cbn [tlookup].
  destruct (half_split k i Hi) as [Bi|(i' & -> & Bi)];
  destruct (half_split k j Hj) as [Bj|(j' & -> & Bj)];
  destruct (half_split k m Hm) as [Bm|(m' & -> & Bm)];
  rewrite ?Z.add_assoc;
  repeat first
    [ rewrite (bit_lo k x0) by assumption | rewrite (bit_hi k x0) by assumption
    | rewrite (bit_lo k y0) by assumption | rewrite (bit_hi k y0) by assumption
    | rewrite (bit_lo k z0) by assumption | rewrite (bit_hi k z0) by assumption ];
  change (Z.to_nat 0) with 0%nat; change (Z.to_nat 1) with 1%nat;
  cbn [Nat.add Nat.mul nth_error]; auto.
Qed.

Lemma fill_all_empty cs l :
  mapM (@fill A) cs = Ok l -> forallb is_none cs = true -> forall t, In t l -> t = TEmpty.
Proof.
  revert l. induction cs as [|c cs IH]; cbn [mapM forallb]; intros l Hl Hn t Ht.
  - injection Hl as <-. destruct Ht.
  - apply andb_true_iff in Hn. destruct Hn as [Hc Hn]. destruct c; try discriminate Hc.
    cbn [fill bind] in Hl. destruct (mapM fill cs) as [l'|]; [|discriminate].
    cbn [bind] in Hl. injection Hl as <-. destruct Ht as [<-|Ht]; [reflexivity|].
    eapply IH; eauto.
Qed.

Lemma eight_mapM k w x0 y0 z0 cs :
  eight k w x0 y0 z0 cs ->
  exists l, mapM fill cs = Ok l /\ List.length l = 8%nat /\
    (forall t, In t l -> shaped k t) /\
    (forallb is_none cs = false -> exists t, In t l /\ t <> TEmpty).
Proof.
  intros (c0 & c1 & c2 & c3 & c4 & c5 & c6 & c7 & -> & S0 & S1 & S2 & S3 & S4 & S5 & S6 & S7).
  destruct S0 as (t0 & F0 & P0 & N0 & _), S1 as (t1 & F1 & P1 & N1 & _),
           S2 as (t2 & F2 & P2 & N2 & _), S3 as (t3 & F3 & P3 & N3 & _),
           S4 as (t4 & F4 & P4 & N4 & _), S5 as (t5 & F5 & P5 & N5 & _),
           S6 as (t6 & F6 & P6 & N6 & _), S7 as (t7 & F7 & P7 & N7 & _).
  exists [t0; t1; t2; t3; t4; t5; t6; t7].
  cbn [mapM]. rewrite F0, F1, F2, F3, F4, F5, F6, F7. cbn [bind].
  split; [reflexivity|]. split; [reflexivity|]. split.
  - intros t Ht. cbn [In] in Ht. intuition congruence.
  - cbn [forallb]. intros Hn.
    assert (E : forall (c : oval A) t, (t = TEmpty <-> c = ONone) -> is_none c = false -> t <> @TEmpty A).
    { intros c t Hc Hi Ht. apply Hc in Ht. subst. discriminate. }
    rewrite !andb_false_iff in Hn.
    repeat (destruct Hn as [Hn|Hn];
            [eexists; split; [|eapply E; [|exact Hn]; eassumption]; cbn [In]; intuition|]).
    discriminate.
Qed.

Lemma shaped_node k (l : list (tree A)) :
  shaped (S k) (TNode l) <->
  List.length l = 8%nat /\ (exists t, In t l /\ t <> TEmpty) /\ (forall t, In t l -> shaped k t).
Proof.
  cbn [shaped].
  assert (E : ((fix all (l : list (tree A)) : Prop :=
             match l with [] => True | t' :: l' => shaped k t' /\ all l' end) l)
             <-> (forall t, In t l -> shaped k t)).
  { clear. induction l as [|t l IH]; [split; [intros _ t []|auto]|].
    rewrite IH. split.
    - intros [H1 H2] t' [<-|Ht]; auto.
    - intros Hall. split; [apply Hall; left; reflexivity|intros t' Ht; apply Hall; right; exact Ht]. }
  rewrite E. reflexivity.
Qed.

Lemma octree_sub k : forall fuel w x0 y0 z0,
  (k < fuel)%nat -> aligned k x0 -> aligned k y0 -> aligned k z0 ->
  (x0 = 0 -> 2 ^ Z.of_nat k < w_size w) -> (0 <= x0) -> x0 + 2 ^ Z.of_nat k <= w_size w ->
  exists o, octree fuel w x0 (x0 + 2 ^ Z.of_nat k) y0 (y0 + 2 ^ Z.of_nat k)
                          z0 (z0 + 2 ^ Z.of_nat k) = Ok o /\ sub_ok k w x0 y0 z0 o.
Proof.
  induction k as [|k IH]; intros fuel w x0 y0 z0 Hf Ax Ay Az Hroot Hx Hend;
    (destruct fuel as [|fuel]; [lia|]); cbn [octree].
  - change (2 ^ Z.of_nat 0) with 1.
    replace (x0 + 1 - x0 =? 1) with true by lia.
    destruct (get_point w (I x0) (I y0) (I z0)) as [a|] eqn:E;
      (eexists; split; [reflexivity|]); eexists; (split; [reflexivity|]);
      (split; [cbn [shaped]; auto|]); (split; [split; congruence|]);
      intros i j l Hi Hj Hl; change (2 ^ Z.of_nat 0) with 1 in *;
      replace i with 0 by lia; replace j with 0 by lia; replace l with 0 by lia;
      rewrite !Z.add_0_r; cbn [tlookup]; auto.
  - pose proof (pow_pos k) as Hp. pose proof (pow_S k) as HS.
    replace (x0 + 2 ^ Z.of_nat (S k) - x0 =? 1) with false by lia.
    unfold split8. rewrite !mid.
    destruct (aligned_half k x0 Ax) as [Ax1 Ax2].
    destruct (aligned_half k y0 Ay) as [Ay1 Ay2].
    destruct (aligned_half k z0 Az) as [Az1 Az2].
    assert (HH : forall c, c + 2 ^ Z.of_nat (S k) = c + 2 ^ Z.of_nat k + 2 ^ Z.of_nat k) by (intros; lia).
    rewrite !HH.
    assert (E8 : exists cs, mapM (fun b => match b with ((a0, a1), (b0, b1), (c0, c1)) =>
                                    octree fuel w a0 a1 b0 b1 c0 c1 end)
       [ ((x0, x0 + 2 ^ Z.of_nat k), (y0, y0 + 2 ^ Z.of_nat k), (z0, z0 + 2 ^ Z.of_nat k));
         ((x0 + 2 ^ Z.of_nat k, x0 + 2 ^ Z.of_nat k + 2 ^ Z.of_nat k), (y0, y0 + 2 ^ Z.of_nat k), (z0, z0 + 2 ^ Z.of_nat k));
         ((x0, x0 + 2 ^ Z.of_nat k), (y0 + 2 ^ Z.of_nat k, y0 + 2 ^ Z.of_nat k + 2 ^ Z.of_nat k), (z0, z0 + 2 ^ Z.of_nat k));
         ((x0 + 2 ^ Z.of_nat k, x0 + 2 ^ Z.of_nat k + 2 ^ Z.of_nat k), (y0 + 2 ^ Z.of_nat k, y0 + 2 ^ Z.of_nat k + 2 ^ Z.of_nat k), (z0, z0 + 2 ^ Z.of_nat k));
         ((x0, x0 + 2 ^ Z.of_nat k), (y0, y0 + 2 ^ Z.of_nat k), (z0 + 2 ^ Z.of_nat k, z0 + 2 ^ Z.of_nat k + 2 ^ Z.of_nat k));
         ((x0 + 2 ^ Z.of_nat k, x0 + 2 ^ Z.of_nat k + 2 ^ Z.of_nat k), (y0, y0 + 2 ^ Z.of_nat k), (z0 + 2 ^ Z.of_nat k, z0 + 2 ^ Z.of_nat k + 2 ^ Z.of_nat k));
         ((x0, x0 + 2 ^ Z.of_nat k), (y0 + 2 ^ Z.of_nat k, y0 + 2 ^ Z.of_nat k + 2 ^ Z.of_nat k), (z0 + 2 ^ Z.of_nat k, z0 + 2 ^ Z.of_nat k + 2 ^ Z.of_nat k));
         ((x0 + 2 ^ Z.of_nat k, x0 + 2 ^ Z.of_nat k + 2 ^ Z.of_nat k), (y0 + 2 ^ Z.of_nat k, y0 + 2 ^ Z.of_nat k + 2 ^ Z.of_nat k), (z0 + 2 ^ Z.of_nat k, z0 + 2 ^ Z.of_nat k + 2 ^ Z.of_nat k)) ]
       = Ok cs /\ eight k w x0 y0 z0 cs).
    { destruct (IH fuel w x0 y0 z0) as (c0 & E0 & S0); [lia|assumption..|lia|lia|lia|].
      destruct (IH fuel w (x0 + 2 ^ Z.of_nat k) y0 z0) as (c1 & E1 & S1); [lia|assumption..|lia|lia|lia|].
      destruct (IH fuel w x0 (y0 + 2 ^ Z.of_nat k) z0) as (c2 & E2 & S2); [lia|assumption..|lia|lia|lia|].
      destruct (IH fuel w (x0 + 2 ^ Z.of_nat k) (y0 + 2 ^ Z.of_nat k) z0) as (c3 & E3 & S3); [lia|assumption..|lia|lia|lia|].
      destruct (IH fuel w x0 y0 (z0 + 2 ^ Z.of_nat k)) as (c4 & E4 & S4); [lia|assumption..|lia|lia|lia|].
      destruct (IH fuel w (x0 + 2 ^ Z.of_nat k) y0 (z0 + 2 ^ Z.of_nat k)) as (c5 & E5 & S5); [lia|assumption..|lia|lia|lia|].
      destruct (IH fuel w x0 (y0 + 2 ^ Z.of_nat k) (z0 + 2 ^ Z.of_nat k)) as (c6 & E6 & S6); [lia|assumption..|lia|lia|lia|].
      destruct (IH fuel w (x0 + 2 ^ Z.of_nat k) (y0 + 2 ^ Z.of_nat k) (z0 + 2 ^ Z.of_nat k)) as (c7 & E7 & S7); [lia|assumption..|lia|lia|lia|].
      exists [c0; c1; c2; c3; c4; c5; c6; c7]. split.
      - cbn [mapM]. rewrite E0, E1, E2, E3, E4, E5, E6, E7. reflexivity.
      - exists c0, c1, c2, c3, c4, c5, c6, c7. repeat (split; [first [reflexivity|assumption]|]). assumption. }
    destruct E8 as (cs & Ecs & H8). rewrite Ecs. cbn [bind].
    replace ((x0 =? 0) && (x0 + 2 ^ Z.of_nat k + 2 ^ Z.of_nat k =? w_size w)) with false
      by (destruct (Z.eqb_spec x0 0); lia).
    destruct (eight_mapM _ _ _ _ _ _ H8) as (l & Hl & Hlen & Hsh & Hne).
    destruct (forallb is_none cs) eqn:Eall.
    + exists ONone. split; [reflexivity|]. exists TEmpty. split; [reflexivity|].
      split; [exact Logic.I|]. split; [split; auto|].
      intros i j m Hi Hj Hm. rewrite <- (node_lookup k w x0 y0 z0 cs l) by assumption.
      cbn [tlookup].
      destruct (nth_error l _) as [t|] eqn:En; [|reflexivity].
      apply nth_error_In in En. apply (fill_all_empty _ _ Hl Eall) in En. subst t.
      destruct k; reflexivity.
    + rewrite Hl. cbn [bind]. exists (OTree (TNode l)). split; [reflexivity|].
      exists (TNode l). split; [reflexivity|]. split.
      { apply shaped_node. split; [exact Hlen|]. split; [exact (Hne eq_refl)|exact Hsh]. }
      split; [split; discriminate|].
      intros i j m Hi Hj Hm. apply (node_lookup k w x0 y0 z0 cs l); assumption.
Qed.

Lemma aligned_0 k : aligned k 0. Proof. exists 0. ring. Qed.
Lemma aligned_pow k : aligned k (2 ^ Z.of_nat k). Proof. exists 1. ring. Qed.

Lemma octree_root k fuel w :
  (S k < fuel)%nat -> w_size w = 2 ^ Z.of_nat (S k) ->
  exists l, to_octree fuel w = Ok (OList l) /\ List.length l = 8%nat /\
    (forall t, In t l -> shaped k t) /\
    (forall x y z, 0 <= x < w_size w -> 0 <= y < w_size w -> 0 <= z < w_size w ->
       tlookup (S k) (TNode l) x y z = get_point w (I x) (I y) (I z)).
Proof.
  intros Hf Hs. destruct fuel as [|fuel]; [lia|].
  unfold to_octree. cbn [octree]. rewrite Hs.
  pose proof (pow_pos k) as Hp. pose proof (pow_S k) as HS.
  replace (2 ^ Z.of_nat (S k) - 0 =? 1) with false by lia.
  rewrite Z.eqb_refl. cbn [Z.eqb andb].
  unfold split8. replace ((0 + 2 ^ Z.of_nat (S k)) / 2) with (2 ^ Z.of_nat k) by lia.
  set (h := 2 ^ Z.of_nat k) in *.
  pose proof (octree_sub k) as IH. fold h in IH.
  assert (G : forall x0 y0 z0, (x0 = 0 \/ x0 = h) -> (y0 = 0 \/ y0 = h) -> (z0 = 0 \/ z0 = h) ->
    exists o, octree fuel w x0 (x0 + h) y0 (y0 + h) z0 (z0 + h) = Ok o /\ sub_ok k w x0 y0 z0 o).
  { intros x0 y0 z0 Hx Hy Hz.
    assert (AL : forall c, c = 0 \/ c = h -> aligned k c)
      by (intros c [-> | ->]; [apply aligned_0|apply aligned_pow]).
    apply IH; auto; lia. }
  replace (2 ^ Z.of_nat (S k)) with (h + h) by lia.
  destruct (G 0 0 0) as (c0 & E0 & S0); [auto..|].
  destruct (G h 0 0) as (c1 & E1 & S1); [auto..|].
  destruct (G 0 h 0) as (c2 & E2 & S2); [auto..|].
  destruct (G h h 0) as (c3 & E3 & S3); [auto..|].
  destruct (G 0 0 h) as (c4 & E4 & S4); [auto..|].
  destruct (G h 0 h) as (c5 & E5 & S5); [auto..|].
  destruct (G 0 h h) as (c6 & E6 & S6); [auto..|].
  destruct (G h h h) as (c7 & E7 & S7); [auto..|].
  rewrite Z.add_0_l in *. cbn [mapM]. rewrite E0, E1, E2, E3, E4, E5, E6, E7. cbn [bind].
  assert (H8 : eight k w 0 0 0 [c0; c1; c2; c3; c4; c5; c6; c7]).
  { exists c0, c1, c2, c3, c4, c5, c6, c7. rewrite Z.add_0_l. fold h.
    repeat (split; [first [reflexivity|assumption]|]). assumption. }
  destruct (eight_mapM _ _ _ _ _ _ H8) as (l & Hl & Hlen & Hsh & _).
  exists l. split; [cbn [mapM] in Hl |- *; rewrite Hl, ?Z.eqb_refl; reflexivity|].
  split; [exact Hlen|]. split; [exact Hsh|].
  intros x y z Hx Hy Hz.
  apply (node_lookup k w 0 0 0 _ l (aligned_0 _) (aligned_0 _) (aligned_0 _) H8 Hl);
    rewrite HS; lia.
Qed.

(** The octree only looks at integer positions. *)
Lemma mapM_ext {B C} (f g : B -> res C) l :
  (forall x, f x = g x) -> mapM f l = mapM g l.
Proof. intros E. induction l as [|x l IH]; cbn [mapM]; [reflexivity|]. rewrite E, IH. reflexivity. Qed.

Lemma octree_ext fuel w w' :
  w_size w = w_size w' ->
  (forall x y z, get_point w (I x) (I y) (I z) = get_point w' (I x) (I y) (I z)) ->
  to_octree fuel w = to_octree fuel w'.
Proof.
  intros Hs Hg. unfold to_octree. rewrite Hs.
  enough (G : forall x0 x1 y0 y1 z0 z1, octree fuel w x0 x1 y0 y1 z0 z1 = octree fuel w' x0 x1 y0 y1 z0 z1)
    by (intros; apply G).
  induction fuel as [|fuel IH]; intros; cbn [octree]; [reflexivity|].
  rewrite Hg, Hs. rewrite (mapM_ext _ (fun b => match b with ((a0, a1), (b0, b1), (c0, c1)) =>
                                    octree fuel w' a0 a1 b0 b1 c0 c1 end)).
  - reflexivity.
  - intros [[[? ?] [? ?]] [? ?]]. apply IH.
Qed.

Lemma octree_size_one fuel w :
  w_size w = 1 ->
  to_octree (S fuel) w = match get_point w (I 0) (I 0) (I 0) with
                         | None => Ok ONone | Some a => Ok (OTree (TVox a)) end.
Proof. intros Hs. unfold to_octree. rewrite Hs. reflexivity. Qed.

(** Size 0 never terminates. *)
Lemma octree_zero fuel w : w_size w = 0 -> to_octree fuel w = Err RecursionError.
Proof.
  intros Hs. unfold to_octree. rewrite Hs.
  induction fuel as [|fuel IH]; [reflexivity|].
  cbn [octree Z.sub Z.eqb]. unfold split8. change ((0 + 0) / 2) with 0.
  cbn [mapM]. rewrite IH. reflexivity.
Qed.

(** Every non-empty well-shaped tree holds a voxel. *)
Lemma shaped_inhabited k : forall (t : tree A),
  shaped k t -> t <> TEmpty ->
  exists x y z a, 0 <= x < 2 ^ Z.of_nat k /\ 0 <= y < 2 ^ Z.of_nat k /\
    0 <= z < 2 ^ Z.of_nat k /\ tlookup k t x y z = Some a.
Proof.
  induction k as [|k IH]; intros t Hs Hne.
  - destruct t as [|a|l]; [congruence| |destruct Hs].
    exists 0, 0, 0, a. cbn. repeat split; lia.
  - destruct t as [|a|l]; [congruence|discriminate Hs|].
    apply shaped_node in Hs. destruct Hs as (Hlen & (t' & Hin & Hne') & Hall).
    destruct (IH t' (Hall t' Hin) Hne') as (x & y & z & a & Hx & Hy & Hz & Hl).
    apply In_nth_error in Hin. destruct Hin as [n Hn].
    assert (Hb : (n < 8)%nat) by (rewrite <- Hlen; apply nth_error_Some; congruence).
    pose proof (pow_pos k) as Hp. pose proof (pow_S k) as HS.
    set (h := 2 ^ Z.of_nat k) in *.
    set (bx0 := Z.of_nat (n mod 2)). set (by0 := Z.of_nat (n / 2 mod 2)). set (bz0 := Z.of_nat (n / 4)).
    assert (B : forall b c, 0 <= c < h -> b = 0 \/ b = 1 -> ((c + b * h) / h) mod 2 = b).
    { intros b c Hc Hb0. rewrite Z.div_add, Z.div_small by lia. destruct Hb0; subst b; reflexivity. }
    assert (R : forall b c, 0 <= c < h -> b = 0 \/ b = 1 -> 0 <= c + b * h < 2 * h)
      by (intros b c Hc [-> | ->]; lia).
    assert (L : forall j (t0 : tree A) x0 y0 z0 q1 q2 q3, (j <= k)%nat ->
        tlookup j t0 (x0 + q1 * h) (y0 + q2 * h) (z0 + q3 * h) = tlookup j t0 x0 y0 z0).
    { clear - Hp. intros j. induction j as [|j IHj]; intros t0 x0 y0 z0 q1 q2 q3 Hj;
        destruct t0 as [|b|l0]; try reflexivity.
      cbn [tlookup].
      assert (D : forall c q, (c + q * h) / 2 ^ Z.of_nat j mod 2 = c / 2 ^ Z.of_nat j mod 2).
      { intros c q. pose proof (pow_pos j).
        replace (q * h) with ((q * 2 ^ (Z.of_nat k - Z.of_nat j - 1) * 2) * 2 ^ Z.of_nat j).
        - rewrite Z.div_add by lia. rewrite Z.mod_add by lia. reflexivity.
        - unfold h. replace (Z.of_nat k) with ((Z.of_nat k - Z.of_nat j - 1) + 1 + Z.of_nat j) at 2 by lia.
          rewrite !Z.pow_add_r by lia. change (2 ^ 1) with 2. ring. }
      rewrite !D. destruct (nth_error l0 _) as [t1|]; [|reflexivity]. apply IHj. lia. }
    assert (Hb1 : bx0 = 0 \/ bx0 = 1) by (unfold bx0; pose proof (Nat.mod_upper_bound n 2); lia).
    assert (Hb2 : by0 = 0 \/ by0 = 1) by (unfold by0; pose proof (Nat.mod_upper_bound (n / 2) 2); lia).
    assert (Hb3 : bz0 = 0 \/ bz0 = 1)
      by (unfold bz0; do 8 (destruct n as [|n]; [cbn; lia|]); lia).
    exists (x + bx0 * h), (y + by0 * h), (z + bz0 * h), a.
    rewrite HS. split; [auto|]. split; [auto|]. split; [auto|].
    cbn [tlookup]. fold h. rewrite !B by assumption.
    replace (Z.to_nat bx0 + 2 * Z.to_nat by0 + 4 * Z.to_nat bz0)%nat with n.
    + rewrite Hn. rewrite L by lia. exact Hl.
    + unfold bx0, by0, bz0. rewrite !Nat2Z.id. do 8 (destruct n as [|n]; [reflexivity|]). lia.
Qed.

Lemma shaped_holds k : forall (t : tree A), shaped k t -> t <> TEmpty -> exists a, holds t a.
Proof.
  induction k as [|k IH]; intros t Hs Hne.
  - destruct t as [|a|l]; [congruence|exists a; constructor|destruct Hs].
  - destruct t as [|a|l]; [congruence|discriminate Hs|].
    apply shaped_node in Hs. destruct Hs as (_ & (t' & Hin & Hne') & Hall).
    destruct (IH t' (Hall t' Hin) Hne') as [a Ha]. exists a. econstructor; eauto.
Qed.

Lemma shaped_within (t : tree A) n u : within t n u -> forall k, shaped k t ->
  (n <= k)%nat /\ shaped (k - n) u.
Proof.
  induction 1 as [t|l t n u Hin Hw IH]; intros k Hs.
  - split; [lia|]. rewrite Nat.sub_0_r. exact Hs.
  - destruct k as [|k]; [destruct Hs|]. apply shaped_node in Hs. destruct Hs as (_ & _ & Hall).
    destruct (IH k (Hall t Hin)) as [Hn Hu]. split; [lia|exact Hu].
Qed.

Lemma octree_minimal k fuel w :
  (S k < fuel)%nat -> w_size w = 2 ^ Z.of_nat (S k) ->
  exists l, to_octree fuel w = Ok (OList l) /\ List.length l = 8%nat /\
    (forall n u, within (TNode l) n u -> (n <= S k)%nat /\
       (forall a, u = TVox a -> n = S k) /\
       (forall cs, u = TNode cs -> List.length cs = 8%nat /\ (n <> O -> exists a, holds u a))).
Proof.
  intros Hf Hs. destruct (octree_root k fuel w Hf Hs) as (l & E & Hlen & Hsh & _).
  exists l. split; [exact E|]. split; [exact Hlen|]. intros n u Hw. inversion Hw as [t|l0 t n0 u0 Hin Hw0]; subst.
  - split; [lia|]. split; [intros a Ha; discriminate Ha|]. intros cs Hcs.
    injection Hcs as <-. split; [exact Hlen|congruence].
  - destruct (shaped_within _ _ _ Hw0 _ (Hsh t Hin)) as [Hn Hu].
    split; [lia|]. split.
    + intros a ->. destruct (k - n0)%nat eqn:D; [lia|discriminate Hu].
    + intros cs ->. destruct (k - n0)%nat as [|j] eqn:D; [destruct Hu|].
      split; [apply (proj1 (proj1 (shaped_node _ _) Hu))|]. intros _.
      eapply shaped_holds; [exact Hu|discriminate].
Qed.
End Oct.

Lemma fractional_example :
  let w := wrun [SetPoint (H 1) (I 2) (I 0) 7] (new_world 4) in
  get_point w (H 1) (I 2) (I 0) = Some 7 /\
  (forall x y z, get_point w (I x) (I y) (I z) = get_point (new_world 4) (I x) (I y) (I z)).
Proof.
  split; [reflexivity|]. intros x y z. rewrite !world_history_lemma.
  change (get_point (new_world 4) (I x) (I y) (I z)) with (@None Z).
  cbn [rev app latest op_pos op_val pos_eqb halves].
  replace (1 =? 2 * x) with false by lia. reflexivity.
Qed.
