(** Proofs about the aftereffects. *)
From Coq Require Import QArith Qpower Lqa.
From Verif Require Import Py VecModel VecSpec VecProofs VoxelModel VoxelSpec VoxelProofs UpmModel UpmSpec KitModel KitSpec
  KitProofs KitShape KitPaint EffectModel EffectSpec.
Local Open Scope Z_scope.

Definition clean (w : world (list Z)) : Prop := keys_nodup keqb (w_map w).
Lemma clean_run size ops : clean (wrun ops (new_world size)).
Proof. apply wrun_nodup. exact Logic.I. Qed.
Lemma get_step w o x y z : clean w -> clean (wstep w o) /\
  get_point (wstep w o) x y z = if pos_eqb (op_pos o) (halves x, halves y, halves z) then op_val o else get_point w x y z.
Proof. intros Hc. destruct (wstep_map w o Hc) as [H1 H2]. split; [exact H1|]. apply H2. Qed.

(** A loop that at each cell changes at most that cell. *)
Section Local.
  Variable step : nat -> cell -> world (list Z) -> world (list Z).
  Variable T : nat -> cell -> option (list Z) -> option (list Z).
  Hypothesis local : forall i c w, clean w -> clean (step i c w) /\
    forall x y z, get_point (step i c w) x y z =
      if pos_eqb (doubled c) (halves x, halves y, halves z) then T i c (get_point w x y z) else get_point w x y z.
  Fixpoint loop (i : nat) (l : list cell) (w : world (list Z)) : world (list Z) :=
    match l with [] => w | c :: l' => loop (S i) l' (step i c w) end.
  Lemma loop_local : forall l i w, clean w -> NoDup l ->
    clean (loop i l w) /\
    (forall k c, nth_error l k = Some c -> at_voxel (loop i l w) c = T (i + k) c (at_voxel w c)) /\
    (forall x y z, (forall v, In v l -> doubled v <> (halves x, halves y, halves z)) -> get_point (loop i l w) x y z = get_point w x y z).
  Proof.
    induction l as [|c l IH]; intros i w Hc Hn; cbn [loop].
    - split; [exact Hc|]. split; [|reflexivity]. intros [|k] c; discriminate.
    - inversion Hn as [|? ? Hnot Hn']; subst. destruct (local i c w Hc) as [Hc1 HL].
      destruct (IH (S i) (step i c w) Hc1 Hn') as (C2 & A & B). split; [exact C2|]. split.
      + intros [|k] d E; cbn [nth_error] in E.
        * injection E as ->. destruct d as [[x y] z]. cbn [at_voxel]. rewrite B.
          -- rewrite HL. change (halves (I x), halves (I y), halves (I z)) with (doubled (x, y, z)).
             rewrite pos_eqb_refl. rewrite Nat.add_0_r. reflexivity.
          -- intros v Hv E. apply (doubled_inj v (x, y, z)) in E. subst v. exact (Hnot Hv).
        * rewrite (A k d E). replace (i + S k)%nat with (S i + k)%nat by lia. f_equal.
          destruct d as [[x y] z]. cbn [at_voxel]. rewrite HL.
          destruct (pos_eqb (doubled c) _) eqn:E2; [|reflexivity]. apply pos_eqb_eq in E2.
          apply (doubled_inj c (x, y, z)) in E2. subst c. exfalso. apply Hnot. apply nth_error_In in E. exact E.
      + intros x y z Hv. rewrite B by (intros v Hi; apply Hv; right; exact Hi). rewrite HL.
        destruct (pos_eqb (doubled c) _) eqn:E2; [|reflexivity]. apply pos_eqb_eq in E2.
        exfalso. apply (Hv c); [left; reflexivity|exact E2].
  Qed.
End Local.

(** ** The order of the sweep *)
Lemma nth_flat_map {A B} (f : A -> list B) k l : (forall a, In a l -> List.length (f a) = k) ->
  forall i j a b, nth_error l i = Some a -> nth_error (f a) j = Some b -> nth_error (flat_map f l) (i * k + j) = Some b.
Proof.
  induction l as [|x l IH]; intros HL i j a b Hi Hj; [destruct i; discriminate|]. cbn [flat_map].
  destruct i as [|i]; cbn [nth_error] in Hi.
  - injection Hi as ->. rewrite Nat.mul_0_l, Nat.add_0_l. rewrite nth_error_app1; [exact Hj|].
    apply nth_error_Some. rewrite Hj. discriminate.
  - assert (List.length (f x) = k) as Lx by (apply HL; left; reflexivity).
    rewrite nth_error_app2 by lia. rewrite Lx.
    replace (S i * k + j - k)%nat with (i * k + j)%nat by lia.
    apply (IH (fun a' Ha => HL a' (or_intror Ha)) i j a b Hi Hj).
Qed.
Lemma nth_zrange n x : 0 <= x < n -> nth_error (zrange 0 n) (Z.to_nat x) = Some x.
Proof.
  intros Hx. unfold zrange. rewrite nth_error_map.
  rewrite (nth_error_nth' _ O) by (rewrite seq_length; lia). rewrite seq_nth by lia. cbn. f_equal. lia.
Qed.
Lemma zrange_length n : List.length (zrange 0 n) = Z.to_nat n.
Proof. unfold zrange. rewrite map_length, seq_length. f_equal. lia. Qed.
Lemma flat_map_length_const {A B} (f : A -> list B) k l : (forall a, List.length (f a) = k) -> List.length (flat_map f l) = (List.length l * k)%nat.
Proof. intros HL. induction l as [|a l IH]; [reflexivity|]. cbn [flat_map List.length]. rewrite app_length, HL, IH. lia. Qed.
Lemma in_sweep n h v : In v (sweep (zrange 0 h) n) <-> swept n h v.
Proof.
  destruct v as [[x y] z]. unfold sweep, swept. rewrite in_flat_map. split.
  - intros (z' & Hz & Hi). apply in_flat_map in Hi as (x' & Hx & Hi). apply in_map_iff in Hi as (y' & E & Hy).
    injection E as -> -> ->. rewrite in_zrange in *. tauto.
  - intros (Hx & Hy & Hz). exists z. rewrite in_zrange. split; [exact Hz|]. apply in_flat_map. exists x.
    rewrite in_zrange. split; [exact Hx|]. apply in_map_iff. exists y. rewrite in_zrange. auto.
Qed.
Lemma NoDup_sweep n h : NoDup (sweep (zrange 0 h) n).
Proof.
  unfold sweep. apply NoDup_flat_map; [apply NoDup_zrange| |].
  - intros z Hz. apply NoDup_flat_map; [apply NoDup_zrange| |].
    + intros x Hx. apply FinFun.Injective_map_NoDup; [|apply NoDup_zrange]. intros a b E. congruence.
    + intros x x' b _ _ Hb Hb'. apply in_map_iff in Hb as (k & <- & _), Hb' as (k' & E & _). congruence.
  - intros z z' b _ _ Hb Hb'. apply in_flat_map in Hb as (j & _ & Hb), Hb' as (j' & _ & Hb').
    apply in_map_iff in Hb as (k & <- & _), Hb' as (k' & E & _). congruence.
Qed.
Lemma nth_sweep n h v : swept n h v -> nth_error (sweep (zrange 0 h) n) (place n v) = Some v.
Proof.
  destruct v as [[x y] z]. intros (Hx & Hy & Hz). unfold sweep, place.
  assert (Z.to_nat ((z * n + x) * n + y) = (Z.to_nat z * (Z.to_nat n * Z.to_nat n) + (Z.to_nat x * Z.to_nat n + Z.to_nat y)))%nat as ->.
  { apply Nat2Z.inj. rewrite !Nat2Z.inj_add, !Nat2Z.inj_mul, !Z2Nat.id by nia. ring. }
  eapply (nth_flat_map _ (Z.to_nat n * Z.to_nat n)); [|apply nth_zrange; exact Hz|].
  - intros a _. rewrite (flat_map_length_const _ (Z.to_nat n)); [rewrite zrange_length; reflexivity|].
    intros b. rewrite map_length. apply zrange_length.
  - cbv beta. eapply (nth_flat_map _ (Z.to_nat n)); [|apply nth_zrange; exact Hx|].
    + intros a _. rewrite map_length. apply zrange_length.
    + cbv beta. rewrite nth_error_map, nth_zrange by exact Hy. reflexivity.
Qed.

(** ** Decay and growth *)
Definition decay_step (f : posfun) (g : rng) (i : nat) (c : cell) (w : world (list Z)) : world (list Z) :=
  let '(x, y, z) := c in if Qle_bool (rnd g i) (f x y z) then w else del_point w (I x) (I y) (I z).
Definition growth_step (f : posfun) (g : rng) (i : nat) (c : cell) (w : world (list Z)) : world (list Z) :=
  let '(x, y, z) := c in if Qle_bool (rnd g i) (f x y z) then w else put_if_empty w x y z.
Definition at3 (f : posfun) (c : cell) : Q := let '(x, y, z) := c in f x y z.

Lemma loop_ext s s' (E : forall i c w, s i c w = s' i c w) : forall l i w, loop s i l w = loop s' i l w.
Proof. induction l as [|c l IH]; intros i w; cbn [loop]; [reflexivity|]. rewrite E. apply IH. Qed.
Lemma loop_shift s l : forall i w, loop s (S i) l w = loop (fun k => s (S k)) i l w.
Proof. induction l as [|c l IH]; intros i w; cbn [loop]; [reflexivity|]. apply IH. Qed.
Lemma decay_is_loop f l : forall w g, fst (decay_loop f l w g) = loop (decay_step f g) 0 l w.
Proof.
  induction l as [|[[x y] z] l IH]; intros w g; cbn [decay_loop]; [reflexivity|].
  unfold rand01, draw. rewrite IH. cbn [loop]. rewrite loop_shift. apply loop_ext. reflexivity.
Qed.
Lemma growth_is_loop f l : forall w g, fst (growth_loop f l w g) = loop (growth_step f g) 0 l w.
Proof.
  induction l as [|[[x y] z] l IH]; intros w g; cbn [growth_loop]; [reflexivity|].
  unfold rand01, draw. rewrite IH. cbn [loop]. rewrite loop_shift. apply loop_ext. reflexivity.
Qed.
Lemma del_get w c x y z : clean w -> let '(a, b, d) := c in clean (del_point w (I a) (I b) (I d)) /\
  get_point (del_point w (I a) (I b) (I d)) x y z = if pos_eqb (doubled c) (halves x, halves y, halves z) then None else get_point w x y z.
Proof. intros Hc. destruct c as [[a b] d]. exact (get_step w (DelPoint (I a) (I b) (I d)) x y z Hc). Qed.
Lemma put_get w c x y z : clean w -> let '(a, b, d) := c in clean (put w a b d) /\
  get_point (put w a b d) x y z = if pos_eqb (doubled c) (halves x, halves y, halves z) then Some tex2 else get_point w x y z.
Proof. intros Hc. destruct c as [[a b] d]. exact (get_step w (SetPoint (I a) (I b) (I d) tex2) x y z Hc). Qed.
Lemma get_point_pos (w : world (list Z)) x y z x' y' z' : (halves x, halves y, halves z) = (halves x', halves y', halves z') ->
  get_point w x y z = get_point w x' y' z'.
Proof.
  intros E. unfold get_point. apply dget_equiv; auto using keqb_sym, keqb_trans. rewrite keqb_spec. cbn [kpos]. rewrite E. apply pos_eqb_refl.
Qed.
Lemma put_if_empty_get w c x y z : clean w -> let '(a, b, d) := c in clean (put_if_empty w a b d) /\
  get_point (put_if_empty w a b d) x y z =
    if pos_eqb (doubled c) (halves x, halves y, halves z) then match get_point w x y z with Some v => Some v | None => Some tex2 end
    else get_point w x y z.
Proof.
  intros Hc. destruct c as [[a b] d]. unfold put_if_empty.
  destruct (get_point w (I a) (I b) (I d)) as [v|] eqn:E.
  - split; [exact Hc|]. destruct (pos_eqb _ _) eqn:E2; [|reflexivity]. apply pos_eqb_eq in E2.
    rewrite (get_point_pos w x y z (I a) (I b) (I d)), E by (symmetry; exact E2). reflexivity.
  - destruct (put_get w (a, b, d) x y z Hc) as [H1 H2]. split; [exact H1|]. rewrite H2.
    destruct (pos_eqb _ _) eqn:E2; [|reflexivity]. apply pos_eqb_eq in E2.
    rewrite (get_point_pos w x y z (I a) (I b) (I d)), E by (symmetry; exact E2). reflexivity.
Qed.
Ltac by_cases_if := match goal with |- context [if pos_eqb ?a ?b then _ else _] => destruct (pos_eqb a b) end; reflexivity.

Lemma decay_exact size ops f g h : let w := wrun ops (new_world size) in w_zmax w = I h ->
  exists w' g', decay w f g = (Ok w', g') /\
    (forall v, swept (w_size w) h v -> at_voxel w' v =
       if Qle_bool (rnd g (place (w_size w) v)) (at3 f v) then at_voxel w v else None) /\
    same_except (swept (w_size w) h) w w'.
Proof.
  intros w Eh. unfold decay. rewrite Eh. cbn [py_range].
  destruct (decay_loop f (sweep (zrange 0 h) (w_size w)) w g) as [w' g'] eqn:E.
  exists w', g'. split; [reflexivity|]. assert (w' = fst (decay_loop f (sweep (zrange 0 h) (w_size w)) w g)) as -> by (rewrite E; reflexivity).
  rewrite decay_is_loop.
  destruct (loop_local (decay_step f g) (fun i c o => if Qle_bool (rnd g i) (at3 f c) then o else None)) with (l := sweep (zrange 0 h) (w_size w)) (i := O) (w := w)
    as (_ & A & B); [|apply clean_run|apply NoDup_sweep|].
  - intros i [[a b] d] w0 Hc. cbn [decay_step at3]. destruct (Qle_bool (rnd g i) (f a b d)).
    + split; [exact Hc|]. intros x y z. by_cases_if.
    + split; [apply (del_get w0 (a, b, d) (I 0) (I 0) (I 0) Hc)|]. intros x y z. apply (del_get w0 (a, b, d) x y z Hc).
  - split.
    + intros v Hv. exact (A _ v (nth_sweep _ _ v Hv)).
    + intros x y z Hn. apply B. intros v Hv. apply Hn. apply in_sweep. exact Hv.
Qed.
Lemma growth_exact size ops f g h : let w := wrun ops (new_world size) in w_zmax w = I h ->
  exists w' g', growth w f g = (Ok w', g') /\
    (forall v, swept (w_size w) h v -> at_voxel w' v =
       match at_voxel w v with
       | Some a => Some a
       | None => if Qle_bool (rnd g (place (w_size w) v)) (at3 f v) then None else Some (repeat 2 6)
       end) /\
    same_except (swept (w_size w) h) w w'.
Proof.
  intros w Eh. unfold growth. rewrite Eh. cbn [py_range].
  destruct (growth_loop f (sweep (zrange 0 h) (w_size w)) w g) as [w' g'] eqn:E.
  exists w', g'. split; [reflexivity|]. assert (w' = fst (growth_loop f (sweep (zrange 0 h) (w_size w)) w g)) as -> by (rewrite E; reflexivity).
  rewrite growth_is_loop.
  destruct (loop_local (growth_step f g) (fun i c o => match o with Some a => Some a | None => if Qle_bool (rnd g i) (at3 f c) then None else Some tex2 end)) with (l := sweep (zrange 0 h) (w_size w)) (i := O) (w := w)
    as (_ & A & B); [|apply clean_run|apply NoDup_sweep|].
  - intros i [[a b] d] w0 Hc. cbn [growth_step at3]. destruct (Qle_bool (rnd g i) (f a b d)).
    + split; [exact Hc|]. intros x y z. destruct (pos_eqb _ _); [destruct (get_point w0 x y z); reflexivity|reflexivity].
    + split; [apply (put_if_empty_get w0 (a, b, d) (I 0) (I 0) (I 0) Hc)|]. intros x y z. apply (put_if_empty_get w0 (a, b, d) x y z Hc).
  - split.
    + intros v Hv. exact (A _ v (nth_sweep _ _ v Hv)).
    + intros x y z Hn. apply B. intros v Hv. apply Hn. apply in_sweep. exact Hv.
Qed.

(** Every stored position, swept or not. *)
Lemma swept_dec n h p : (exists v, swept n h v /\ p = doubled v) \/ (forall v, swept n h v -> doubled v <> p).
Proof.
  destruct (existsb (fun v => pos_eqb (doubled v) p) (sweep (zrange 0 h) n)) eqn:E.
  - left. apply existsb_exists in E as (v & Hv & E). apply pos_eqb_eq in E. exists v. rewrite <- in_sweep. auto.
  - right. intros v Hv E2. apply in_sweep in Hv.
    assert (existsb (fun v => pos_eqb (doubled v) p) (sweep (zrange 0 h) n) = true); [|congruence].
    apply existsb_exists. exists v. split; [exact Hv|]. rewrite E2. apply pos_eqb_refl.
Qed.
Lemma point_at (w : world (list Z)) x y z v : (halves x, halves y, halves z) = doubled v -> get_point w x y z = at_voxel w v.
Proof. destruct v as [[a b] d]. intros E. apply get_point_pos. exact E. Qed.

Lemma decay_only_removes size ops f g w' g' : let w := wrun ops (new_world size) in
  decay w f g = (Ok w', g') -> only_removes w w'.
Proof.
  intros w E x y z. assert (exists h, w_zmax w = I h) as [h Eh].
  { unfold decay in E. destruct (w_zmax w); [eauto|discriminate]. }
  destruct (decay_exact size ops f g h Eh) as (w1 & g1 & E1 & A & B). fold w in E1, A, B. rewrite E in E1. injection E1 as -> ->.
  destruct (swept_dec (w_size w) h (halves x, halves y, halves z)) as [(v & Hv & Ev)|Hn].
  - rewrite (point_at w1 x y z v Ev), (point_at w x y z v Ev), (A v Hv). destruct (Qle_bool _ _); auto.
  - right. apply B. exact Hn.
Qed.
Lemma growth_only_adds size ops f g w' g' : let w := wrun ops (new_world size) in
  growth w f g = (Ok w', g') -> only_adds w w'.
Proof.
  intros w E x y z a Ha. assert (exists h, w_zmax w = I h) as [h Eh].
  { unfold growth in E. destruct (w_zmax w); [eauto|discriminate]. }
  destruct (growth_exact size ops f g h Eh) as (w1 & g1 & E1 & A & B). fold w in E1, A, B. rewrite E in E1. injection E1 as -> ->.
  destruct (swept_dec (w_size w) h (halves x, halves y, halves z)) as [(v & Hv & Ev)|Hn].
  - rewrite (point_at w1 x y z v Ev), (A v Hv), <- (point_at w x y z v Ev), Ha. reflexivity.
  - rewrite B by exact Hn. exact Ha.
Qed.

(** ** Grid and boxes *)
Lemma fold_is_loop (s : cell -> world (list Z) -> world (list Z)) l : forall i w,
  fold_left (fun w c => s c w) l w = loop (fun _ => s) i l w.
Proof. induction l as [|c l IH]; intros i w; cbn [fold_left loop]; [reflexivity|]. apply IH. Qed.
Lemma on_grid_spec s x y z : s <> 0 -> on_grid s x y z = true <-> two_on_grid s (x, y, z).
Proof.
  intros Hs. unfold on_grid, two_on_grid. rewrite !orb_true_iff, !andb_true_iff, !Z.eqb_eq, !Z.mod_divide by exact Hs. tauto.
Qed.
Lemma grid_exact size ops s h : let w := wrun ops (new_world size) in w_zmax w = I h -> s <> 0 ->
  exists w', grid w s = Ok w' /\
    (forall v, swept (w_size w) h v -> two_on_grid s v ->
       at_voxel w' v = match at_voxel w v with Some a => Some a | None => Some (repeat 2 6) end) /\
    same_except (fun v => swept (w_size w) h v /\ two_on_grid s v) w w'.
Proof.
  intros w Eh Hs. unfold grid. rewrite Eh. cbn [py_range bind]. rewrite (proj2 (Z.eqb_neq s 0) Hs).
  set (st := fun (c : cell) (w0 : world (list Z)) => let '(x, y, z) := c in if on_grid s x y z then put_if_empty w0 x y z else w0).
  exists (loop (fun _ => st) 0 (sweep (zrange 0 h) (w_size w)) w). split; [f_equal; exact (fold_is_loop st _ 0 w)|].
  destruct (loop_local (fun _ => st) (fun _ c o => let '(x, y, z) := c in
      if on_grid s x y z then match o with Some a => Some a | None => Some tex2 end else o)) with (l := sweep (zrange 0 h) (w_size w)) (i := O) (w := w)
    as (_ & A & B); [|apply clean_run|apply NoDup_sweep|].
  - intros _ [[a b] d] w0 Hc. cbn [st]. destruct (on_grid s a b d).
    + split; [apply (put_if_empty_get w0 (a, b, d) (I 0) (I 0) (I 0) Hc)|]. intros x y z. apply (put_if_empty_get w0 (a, b, d) x y z Hc).
    + split; [exact Hc|]. intros x y z. by_cases_if.
  - split.
    + intros v Hv Hg. rewrite (A _ v (nth_sweep _ _ v Hv)). destruct v as [[x y] z].
      rewrite (proj2 (on_grid_spec s x y z Hs) Hg). reflexivity.
    + intros x y z Hn. destruct (swept_dec (w_size w) h (halves x, halves y, halves z)) as [(v & Hv & Ev)|Hn'].
      * rewrite (point_at _ x y z v Ev), (point_at w x y z v Ev), (A _ v (nth_sweep _ _ v Hv)).
        destruct v as [[a b] d]. destruct (on_grid s a b d) eqn:E; [|reflexivity].
        exfalso. apply (Hn (a, b, d)); [|symmetry; exact Ev]. split; [exact Hv|]. apply on_grid_spec; assumption.
      * apply B. intros v Hv. apply Hn'. apply in_sweep. exact Hv.
Qed.

Lemma boxes_exact (test : Z -> Z -> Z -> Z -> bool) (P : Z -> cell -> Prop) size ops h :
  (forall n x y z, swept n h (x, y, z) -> test n x y z = true <-> P n (x, y, z)) ->
  let w := wrun ops (new_world size) in
  let w' := fold_left (fun w' c => let '(x, y, z) := c in if test (w_size w) x y z then put w' x y z else w')
              (sweep (zrange 0 h) (w_size w)) w in
  (forall v, swept (w_size w) h v -> P (w_size w) v -> at_voxel w' v = Some (repeat 2 6)) /\
  same_except (fun v => swept (w_size w) h v /\ P (w_size w) v) w w'.
Proof.
  intros HT w w'.
  set (st := fun (c : cell) (w0 : world (list Z)) => let '(x, y, z) := c in if test (w_size w) x y z then put w0 x y z else w0).
  assert (w' = loop (fun _ => st) 0 (sweep (zrange 0 h) (w_size w)) w) as -> by exact (fold_is_loop st _ 0 w).
  destruct (loop_local (fun _ => st) (fun _ c o => let '(x, y, z) := c in if test (w_size w) x y z then Some tex2 else o))
    with (l := sweep (zrange 0 h) (w_size w)) (i := O) (w := w)
    as (_ & A & B); [|apply clean_run|apply NoDup_sweep|].
  - intros _ [[a b] d] w0 Hc. cbn [st]. destruct (test (w_size w) a b d).
    + split; [apply (put_get w0 (a, b, d) (I 0) (I 0) (I 0) Hc)|]. intros x y z. apply (put_get w0 (a, b, d) x y z Hc).
    + split; [exact Hc|]. intros x y z. by_cases_if.
  - split.
    + intros v Hv Hg. rewrite (A _ v (nth_sweep _ _ v Hv)). destruct v as [[x y] z].
      rewrite (proj2 (HT _ x y z Hv) Hg). reflexivity.
    + intros x y z Hn. destruct (swept_dec (w_size w) h (halves x, halves y, halves z)) as [(v & Hv & Ev)|Hn'].
      * rewrite (point_at _ x y z v Ev), (point_at w x y z v Ev), (A _ v (nth_sweep _ _ v Hv)).
        destruct v as [[a b] d]. destruct (test (w_size w) a b d) eqn:E; [|reflexivity].
        exfalso. apply (Hn (a, b, d)); [|symmetry; exact Ev]. split; [exact Hv|]. apply HT; assumption.
      * apply B. intros v Hv. apply Hn'. apply in_sweep. exact Hv.
Qed.
Lemma on_box_spec n h x y z : swept n h (x, y, z) -> on_box n x y z = true <-> face n (x, y, z).
Proof. intros _. unfold on_box, face. rewrite !orb_true_iff, !Z.eqb_eq. tauto. Qed.
Lemma ends n c : n <> 1 -> b2z (c =? 0) + b2z (c =? n - 1) = 1 /\ on_x n c \/ b2z (c =? 0) + b2z (c =? n - 1) = 0 /\ ~ on_x n c.
Proof.
  intros N. unfold on_x. destruct (Z.eqb_spec c 0) as [->|A].
  - destruct (Z.eqb_spec 0 (n - 1)) as [B|B]; [lia|left; split; [reflexivity|left; reflexivity]].
  - destruct (Z.eqb_spec c (n - 1)) as [B|B]; [left; split; [reflexivity|right; exact B]|right; split; [reflexivity|tauto]].
Qed.
Lemma on_outline_spec n h x y z : swept n h (x, y, z) -> on_outline n x y z = true <-> edge n (x, y, z).
Proof.
  intros (Hx & Hy & _). unfold on_outline. rewrite Z.ltb_lt. destruct (Z.eq_dec n 1) as [->|N].
  - assert (x = 0) as -> by lia. assert (y = 0) as -> by lia. split; [intros _; left; split; left; reflexivity|].
    intros _. cbn [Z.eqb b2z Z.sub Z.add Z.opp Z.pos_sub]. unfold b2z. destruct (z =? 0); reflexivity.
  - unfold edge. destruct (ends n x N) as [[X X']|[X X']], (ends n y N) as [[Y Y']|[Y Y']], (ends n z N) as [[Z Z']|[Z Z']]; split; intros; try lia; tauto.
Qed.

Lemma w_size_set (w : world (list Z)) x y z a : w_size (set_point w x y z a) = w_size w.
Proof. reflexivity. Qed.
Lemma w_size_step (w : world (list Z)) o : w_size (wstep w o) = w_size w.
Proof.
  destruct o; cbn [wstep]; unfold del_point, del_pointv; try reflexivity; destruct (dmem _ _ _); reflexivity.
Qed.
Lemma w_size_run ops (w : world (list Z)) : w_size (wrun ops w) = w_size w.
Proof.
  revert w. induction ops as [|o ops IH]; intros w; [reflexivity|]. cbn [wrun fold_left]. fold (wrun ops (wstep w o)).
  rewrite IH. apply w_size_step.
Qed.

Lemma box_exact size ops height : let w := wrun ops (new_world size) in
  let h := match height with Some h => if h =? 0 then size else h | None => size end in
  (forall v, swept size h v -> face size v -> at_voxel (box w height) v = Some (repeat 2 6)) /\
  same_except (fun v => swept size h v /\ face size v) w (box w height).
Proof.
  intros w h. pose proof (boxes_exact on_box face size ops h (fun n => on_box_spec n h)) as X. cbv zeta in X.
  rewrite w_size_run in X. cbn [new_world w_size] in X. unfold box, max_height, w. rewrite w_size_run. exact X.
Qed.
Lemma box_outline_exact size ops height : let w := wrun ops (new_world size) in
  let h := match height with Some h => if h =? 0 then size else h | None => size end in
  (forall v, swept size h v -> edge size v -> at_voxel (box_outline w height) v = Some (repeat 2 6)) /\
  same_except (fun v => swept size h v /\ edge size v) w (box_outline w height).
Proof.
  intros w h. pose proof (boxes_exact on_outline edge size ops h (fun n => on_outline_spec n h)) as X. cbv zeta in X.
  rewrite w_size_run in X. cbn [new_world w_size] in X. unfold box_outline, max_height, w. rewrite w_size_run. exact X.
Qed.

(** ** Filling the open cells *)
Lemma in_block d v : voxel_in_cell v d <-> exists i j k, 0 <= i < 8 /\ 0 <= j < 8 /\ 0 <= k < 8 /\
  v = (let '(a, b, c) := d in (8 * a + i, 8 * b + j, 8 * c + k)).
Proof.
  destruct d as [[a b] c], v as [[x y] z]. cbn [voxel_in_cell]. split.
  - intros. exists (x - 8 * a), (y - 8 * b), (z - 8 * c). repeat split; try lia. apply t3_eq; lia.
  - intros (i & j & k & Hi & Hj & Hk & E). apply t3_inv in E. lia.
Qed.
Lemma endcap_one pos d : cell_at pos d -> forall pts, (forall v, In v pts -> exists i j k, v = V Fine (I i) (I j) (I k)) ->
  exists ops, (forall w, foldM (fun w off => let! p := vadd pos off in Ok (set_pointv w p tex2)) pts w = Ok (wrun ops w)) /\
    (forall o, In o ops -> op_val o = Some tex2) /\
    (forall p, (exists o, In o ops /\ op_pos o = p) <-> exists i j k, In (V Fine (I i) (I j) (I k)) pts /\
       p = doubled (let '(a, b, c) := d in (8 * a + i, 8 * b + j, 8 * c + k))).
Proof.
  intros HP. induction pts as [|v pts IH]; intros HV.
  - exists []. split; [reflexivity|]. split; [intros o []|]. intros p. split; [intros (o & [] & _)|intros (i & j & k & [] & _)].
  - destruct (HV v (or_introl eq_refl)) as (i & j & k & ->).
    assert (exists u, vadd pos (V Fine (I i) (I j) (I k)) = Ok u /\
        (halves (vx u), halves (vy u), halves (vz u)) = doubled (let '(a, b, c) := d in (8 * a + i, 8 * b + j, 8 * c + k))) as (u & EU & PU).
    { destruct HP as [K E]. destruct pos as [kk x y z], d as [[a b] c]. cbn [vc] in K. subst kk. unfold coords2 in E. cbn [vx vy vz] in E.
      apply t3_inv in E as (E1 & E2 & E3). eexists. split; [reflexivity|]. cbn [raw_add vx vy vz vmul doubled].
      rewrite !halves_nadd, !halves_nmulz. cbn [halves]. apply t3_eq; lia. }
    destruct (IH (fun v' H' => HV v' (or_intror H'))) as (ops & R & A & B).
    exists (SetPointV u tex2 :: ops). split; [|split].
    + intros w. cbn [foldM]. rewrite EU. cbn [bind]. rewrite R. reflexivity.
    + intros o [<-|Ho]; [reflexivity|auto].
    + intros p. split.
      * intros (o & [<-|Ho] & Po); [exists i, j, k; split; [left; reflexivity|]; rewrite <- Po; exact PU|].
        destruct (proj1 (B p)) as (i' & j' & k' & Hi & E); [eauto|]. exists i', j', k'. split; [right; exact Hi|exact E].
      * intros (i' & j' & k' & [Hi|Hi] & E).
        -- injection Hi as <- <- <-. exists (SetPointV u tex2). split; [left; reflexivity|]. cbn [op_pos]. rewrite E. exact PU.
        -- destruct (proj2 (B p)) as (o & Ho & Po); [eauto|]. exists o. split; [right; exact Ho|exact Po].
Qed.
Lemma endcap_ops opens ds : Forall2 cell_at opens ds ->
  exists ops, (forall w, endcap_fill w opens = Ok (wrun ops w)) /\ (forall o, In o ops -> op_val o = Some tex2) /\
    (forall p, (exists o, In o ops /\ op_pos o = p) <-> exists d v, In d ds /\ voxel_in_cell v d /\ p = doubled v).
Proof.
  induction 1 as [|pos d opens ds HP F IH].
  - exists []. split; [reflexivity|]. split; [intros o []|]. intros p. split; [intros (o & [] & _)|intros (x & y & [] & _)].
  - destruct IH as (ops & R & A & B).
    destruct (endcap_one pos d HP (cube_points 8 8 8)) as (ops1 & R1 & A1 & B1).
    { intros v Hv. apply in_cube_points in Hv as (i & j & k & -> & _). eauto. }
    exists (ops1 ++ ops). split; [|split].
    + intros w. unfold endcap_fill. cbn [foldM]. rewrite R1. cbn [bind]. rewrite wrun_app. apply R.
    + intros o Ho. apply in_app_iff in Ho as [Ho|Ho]; auto.
    + intros p. split.
      * intros (o & Ho & Po). apply in_app_iff in Ho as [Ho|Ho].
        -- destruct (proj1 (B1 p)) as (i & j & k & Hi & E); [eauto|]. apply in_cube_points in Hi as (i' & j' & k' & Ev & W1 & W2 & W3).
           injection Ev as <- <- <-. exists d. eexists. split; [left; reflexivity|]. split; [|exact E].
           apply in_block. exists i, j, k. unfold within in *. repeat split; lia.
        -- destruct (proj1 (B p)) as (d' & v & Hd & Hv); [eauto|]. exists d', v. split; [right; exact Hd|exact Hv].
      * intros (d' & v & [<-|Hd] & Hv & E).
        -- apply in_block in Hv as (i & j & k & Hi & Hj & Hk & Ev). destruct (proj2 (B1 p)) as (o & Ho & Po).
           { exists i, j, k. split; [|rewrite <- Ev; exact E]. apply in_cube_points. exists i, j, k. unfold within. repeat split; lia. }
           exists o. rewrite in_app_iff. auto.
        -- destruct (proj2 (B p)) as (o & Ho & Po); [eauto|]. exists o. rewrite in_app_iff. auto.
Qed.
Lemma endcap_exact opens ds size ops : Forall2 cell_at opens ds -> let w := wrun ops (new_world size) in
  exists w', endcap_fill w opens = Ok w' /\
    (forall d v, In d ds -> voxel_in_cell v d -> at_voxel w' v = Some (repeat 2 6)) /\
    same_except (fun v => exists d, In d ds /\ voxel_in_cell v d) w w'.
Proof.
  intros F w. destruct (endcap_ops opens ds F) as (ops' & R & A & B). exists (wrun ops' w). split; [apply R|].
  unfold w. rewrite <- wrun_app. split.
  - intros d v Hd Hv. destruct (proj2 (B (doubled v))) as (o & Ho & Po); [eauto|].
    destruct (latest_hit (rev ops') (rev ops) (doubled v) o) as (o' & Ho' & L); [apply -> in_rev; exact Ho|exact Po|].
    apply in_rev in Ho'. destruct v as [[x y] z]. cbn [at_voxel]. rewrite world_history_lemma, rev_app_distr.
    change (halves (I x), halves (I y), halves (I z)) with (doubled (x, y, z)). rewrite L. apply A. exact Ho'.
  - intros x y z Hn. rewrite !world_history_lemma, rev_app_distr. apply latest_app.
    intros o Ho E. apply in_rev in Ho. destruct (proj1 (B (op_pos o))) as (d & v & Hd & Hv & P); [eauto|].
    apply (Hn v); [eauto|]. congruence.
Qed.

(** ** Effects and the worlds the rooms draw *)
Lemma float_height_raises (w : world (list Z)) h f g s : w_zmax w = H h ->
  decay w f g = (Err TypeError, g) /\ growth w f g = (Err TypeError, g) /\ grid w s = Err TypeError.
Proof. intros E. unfold decay, growth, grid. rewrite E. repeat split. Qed.
Lemma top_layer_kept size ops f g h w' g' : let w := wrun ops (new_world size) in w_zmax w = I h ->
  decay w f g = (Ok w', g') -> forall x y, at_voxel w' (x, y, h) = at_voxel w (x, y, h).
Proof.
  intros w Eh E x y. destruct (decay_exact size ops f g h Eh) as (w1 & g1 & E1 & _ & B). fold w in E1, B.
  rewrite E in E1. injection E1 as -> ->. apply B. intros [[a b] c] (_ & _ & Hc) Ev.
  apply (doubled_inj (a, b, c) (x, y, h)) in Ev. apply t3_inv in Ev. lia.
Qed.

(** ** Gradients *)
Open Scope Q_scope.
Lemma vg_range x y z s : (0 < s)%Z -> (0 <= z <= s)%Z -> exists q, vertical_gradient x y z s = Ok q /\ 0 <= q <= 1.
Proof.
  intros Hs Hz. unfold vertical_gradient. rewrite (proj2 (Z.eqb_neq s 0)) by lia. eexists. split; [reflexivity|].
  assert (0 < inject_Z s) as P by (change 0 with (inject_Z 0); rewrite <- Zlt_Qlt; lia).
  assert (0 <= inject_Z z) as P0 by (change 0 with (inject_Z 0); rewrite <- Zle_Qle; lia).
  assert (inject_Z z <= inject_Z s) as P1 by (rewrite <- Zle_Qle; lia).
  assert (0 <= inject_Z z / inject_Z s) by (apply Qle_shift_div_l; [exact P|rewrite Qmult_0_l; exact P0]).
  assert (inject_Z z / inject_Z s <= 1) by (apply Qle_shift_div_r; [exact P|rewrite Qmult_1_l; exact P1]).
  lra.
Qed.
Lemma vg_ends x y s : (0 < s)%Z -> exists a b, vertical_gradient x y 0 s = Ok a /\ vertical_gradient x y s s = Ok b /\ a == 1 /\ b == 0.
Proof.
  intros Hs. unfold vertical_gradient. rewrite (proj2 (Z.eqb_neq s 0)) by lia. eexists _, _. split; [reflexivity|]. split; [reflexivity|].
  assert (~ inject_Z s == 0) as P by (change 0 with (inject_Z 0); rewrite inject_Z_injective; lia).
  split; field; exact P.
Qed.
Lemma vg_antitone x y z z' x' y' s a b : (0 < s)%Z -> (z <= z')%Z ->
  vertical_gradient x y z s = Ok a -> vertical_gradient x' y' z' s = Ok b -> b <= a.
Proof.
  intros Hs Hz. unfold vertical_gradient. rewrite (proj2 (Z.eqb_neq s 0)) by lia. intros E1 E2. injection E1 as <-. injection E2 as <-.
  assert (0 < inject_Z s) as P by (change 0 with (inject_Z 0); rewrite <- Zlt_Qlt; lia).
  assert (inject_Z z <= inject_Z z') as P1 by (rewrite <- Zle_Qle; lia).
  assert (inject_Z z / inject_Z s <= inject_Z z' / inject_Z s); [|lra].
  unfold Qdiv. apply Qmult_le_compat_r; [exact P1|]. apply Qlt_le_weak. apply Qinv_lt_0_compat. exact P.
Qed.
Lemma Qle_bool_false a b : Qle_bool a b = false -> b < a.
Proof. intros E. apply Qnot_le_lt. intros L. apply Qle_bool_iff in L. congruence. Qed.
Lemma vg2_range x y z : 0 <= vertical_gradient2 x y z <= 1.
Proof.
  unfold vertical_gradient2. set (r := (_ - _ - _)). cbv zeta.
  destruct (Qle_bool 0 r) eqn:E.
  - apply Qle_bool_iff in E. destruct (Qle_bool r 1) eqn:E1; [apply Qle_bool_iff in E1|]; split; try assumption; discriminate.
  - cbn. split; discriminate.
Qed.
Lemma vg2inv_complement x y z : vertical_gradient2 x y z + vertical_gradient2inv x y z == 1.
Proof. unfold vertical_gradient2inv. ring. Qed.
Lemma vg2_antitone x y z x' y' z' : (0 <= z <= z')%Z -> vertical_gradient2 x' y' z' <= vertical_gradient2 x y z.
Proof.
  intros [H0 H1]. unfold vertical_gradient2. set (r := (_ - _ * inject_Z z - _)). set (r' := (_ - _ * inject_Z z' - _)). cbv zeta.
  assert (0 <= inject_Z z) as P0 by (change 0 with (inject_Z 0); rewrite <- Zle_Qle; lia).
  assert (inject_Z z <= inject_Z z') as P1 by (rewrite <- Zle_Qle; lia).
  assert (r' <= r) as L by (unfold r, r'; nra).
  destruct (Qle_bool 0 r) eqn:E1, (Qle_bool 0 r') eqn:E2;
    repeat match goal with H : Qle_bool _ _ = true |- _ => apply Qle_bool_iff in H | H : Qle_bool _ _ = false |- _ => apply Qle_bool_false in H end.
  - destruct (Qle_bool r 1) eqn:E3, (Qle_bool r' 1) eqn:E4;
      repeat match goal with H : Qle_bool _ _ = true |- _ => apply Qle_bool_iff in H | H : Qle_bool _ _ = false |- _ => apply Qle_bool_false in H end; lra.
  - change (Qle_bool 0 1) with true. cbv iota. destruct (Qle_bool r 1); [assumption|discriminate].
  - exfalso. lra.
  - change (Qle_bool 0 1) with true. cbv iota. apply Qle_refl.
Qed.
Lemma power_pos z : 0 < Qpower (1001 # 1000) z.
Proof. apply Qpower_0_lt. reflexivity. Qed.
Lemma power_nonpos z : (0 <= z)%Z -> Qpower (1001 # 1000) (- z) <= 1.
Proof.
  intros Hz. rewrite Qpower_opp. assert (1 <= Qpower (1001 # 1000) z) as L.
  { change 1 with (Qpower (1001 # 1000) 0). apply Qpower_le_compat_l; [exact Hz|]. unfold Qle. cbn. lia. }
  apply Qle_shift_inv_r; lra.
Qed.
Lemma gradient3_as u : 0 < u -> 2 - 2 / (1 + u) == 2 * (u / (1 + u)).
Proof. intros P. field. intros E. lra. Qed.
Lemma gradient3_range x y z : (0 <= z)%Z -> 0 < gradient3 x y z <= 1.
Proof.
  intros Hz. unfold gradient3. pose proof (power_pos (- z)) as P. pose proof (power_nonpos z Hz) as L.
  set (u := Qpower (1001 # 1000) (- z)) in *. rewrite (gradient3_as u P).
  assert (0 < u / (1 + u)) by (apply Qlt_shift_div_l; lra).
  assert (u / (1 + u) <= 1 # 2) by (apply Qle_shift_div_r; lra). lra.
Qed.
Lemma gradient3_antitone x y z x' y' z' : (z <= z')%Z -> gradient3 x' y' z' <= gradient3 x y z.
Proof.
  intros Hz. unfold gradient3.
  pose proof (power_pos (- z)) as P. pose proof (power_pos (- z')) as P'.
  assert (Qpower (1001 # 1000) (- z') <= Qpower (1001 # 1000) (- z)) as L.
  { apply Qpower_le_compat_l; [lia|]. unfold Qle. cbn. lia. }
  set (u := Qpower (1001 # 1000) (- z)) in *. set (u' := Qpower (1001 # 1000) (- z')) in *.
  rewrite (gradient3_as u P), (gradient3_as u' P').
  assert (u' / (1 + u') <= u / (1 + u)); [|lra].
  apply Qle_shift_div_r; [lra|]. unfold Qdiv. rewrite <- Qmult_assoc, (Qmult_comm (/ (1 + u))), Qmult_assoc.
  apply Qle_shift_div_l; [lra|]. nra.
Qed.
Lemma lower_layers size ops f g h : let w := wrun ops (new_world size) in w_zmax w = I h ->
  exists w' g', decay w f g = (Ok w', g') /\
    forall v, swept (w_size w) h v -> ~ (rnd g (place (w_size w) v) <= at3 f v) -> at_voxel w' v = None.
Proof.
  intros w Eh. destruct (decay_exact size ops f g h Eh) as (w' & g' & E & A & _). exists w', g'. split; [exact E|].
  intros v Hv N. rewrite (A v Hv). destruct (Qle_bool (rnd g (place (w_size _) v)) (at3 f v)) eqn:EQ; [|reflexivity].
  apply Qle_bool_iff in EQ. contradiction.
Qed.
