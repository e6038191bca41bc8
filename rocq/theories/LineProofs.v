(** Lemmas about slanted lines. *)
From Verif Require Import Py VecModel VecSpec VecProofs VoxelModel VoxelSpec UpmModel UpmSpec
  KitModel KitSpec KitProofs LineModel LineSpec.
Local Open Scope Z_scope.

(** [n*k/d], rounded to the nearest, halves up. *)
Definition rnd (n d k : Z) : Z := (2 * n * k + d) / (2 * d).

Lemma rnd_bounds n d k : 0 < d -> - d <= 2 * n * k - 2 * d * rnd n d k < d.
Proof. intros. unfold rnd. Z.div_mod_to_equations. nia. Qed.
Lemma rnd_unique n d k v : 0 < d -> - d <= 2 * n * k - 2 * d * v < d -> rnd n d k = v.
Proof. intros D B. pose proof (rnd_bounds n d k D). nia. Qed.
Lemma rnd_0 n d : 0 < d -> rnd n d 0 = 0.
Proof. intros. apply rnd_unique; lia. Qed.
Lemma rnd_top n d : 0 < d -> rnd n d d = n.
Proof. intros. apply rnd_unique; lia. Qed.
Lemma rnd_zero d k : 0 < d -> rnd 0 d k = 0.
Proof. intros. apply rnd_unique; lia. Qed.
Lemma rnd_diag d k : 0 < d -> rnd d d k = k.
Proof. intros. apply rnd_unique; nia. Qed.
Lemma rnd_step n d k : 0 <= n <= d -> 0 < d -> rnd n d (k + 1) = rnd n d k \/ rnd n d (k + 1) = rnd n d k + 1.
Proof.
  intros N D. pose proof (rnd_bounds n d k D). pose proof (rnd_bounds n d (k + 1) D).
  assert (rnd n d (k + 1) - rnd n d k < 2) by nia. assert (-1 < rnd n d (k + 1) - rnd n d k) by nia. lia.
Qed.
Lemma rnd_mono n d i j : 0 <= n -> 0 < d -> i <= j -> rnd n d i <= rnd n d j.
Proof. intros. unfold rnd. apply Z.div_le_mono; nia. Qed.
Lemma rnd_range n d k : 0 <= n <= d -> 0 < d -> 0 <= k <= d -> 0 <= rnd n d k <= n.
Proof.
  intros N D K. pose proof (rnd_mono n d 0 k). pose proof (rnd_mono n d k d).
  rewrite rnd_0 in * by lia. rewrite rnd_top in * by lia. lia.
Qed.
(** Every value is taken. *)
Lemma rnd_onto n d v : 0 < n <= d -> 0 <= v <= n -> exists k, 0 <= k <= d /\ rnd n d k = v.
Proof.
  intros N V. destruct (Z.eq_dec v 0) as [->|V0].
  - exists 0. split; [lia|]. apply rnd_0. lia.
  - exists ((2 * d * v - d + 2 * n - 1) / (2 * n)).
    assert (2 * d * v - d <= 2 * n * ((2 * d * v - d + 2 * n - 1) / (2 * n)) < 2 * d * v - d + 2 * n)
      by (Z.div_mod_to_equations; nia).
    split; [|apply rnd_unique; lia]. split; nia.
Qed.

Lemma zrange_cons a b : a < b -> zrange a b = a :: zrange (a + 1) b.
Proof.
  intros. unfold zrange. replace (Z.to_nat (b - a)) with (S (Z.to_nat (b - (a + 1)))) by lia.
  cbn [seq map]. f_equal; [lia|]. rewrite <- seq_shift, map_map. apply map_ext. intros. lia.
Qed.
Lemma zrange_nil a b : b <= a -> zrange a b = [].
Proof. intros. unfold zrange. replace (Z.to_nat (b - a)) with O by lia. reflexivity. Qed.
Lemma zrange_len a b : a <= b -> Z.of_nat (List.length (zrange a b)) = b - a.
Proof. intros. unfold zrange. rewrite map_length, seq_length. lia. Qed.

(** ** The package's line *)
Lemma bloop_eq dx dy : 0 <= dy <= dx -> 0 < dx -> forall n x y D,
  y = rnd dy dx x -> D = 2 * dy * (x + 1) - dx - 2 * dx * y ->
  bloop n x y D dx dy = map (fun k => (k, rnd dy dx k)) (zrange x (x + Z.of_nat n)).
Proof.
  intros Y X. induction n as [|n IH]; intros x y D -> ->.
  - rewrite zrange_nil by lia. reflexivity.
  - rewrite zrange_cons by lia. cbn [bloop map]. f_equal.
    replace (x + Z.of_nat (S n)) with (x + 1 + Z.of_nat n) by lia.
    pose proof (rnd_bounds dy dx x X) as B. pose proof (rnd_bounds dy dx (x + 1) X) as B1.
    destruct (0 <=? _) eqn:E; [apply Z.leb_le in E|apply Z.leb_gt in E]; apply IH.
    + symmetry. apply rnd_unique; lia.
    + lia.
    + symmetry. apply rnd_unique; lia.
    + lia.
Qed.

Definition sign (d : Z) : Z := if 0 <? d then 1 else -1.
(** The line in one plane: the [k]-th point. *)
Definition bpoint (X Y k : Z) : Z * Z :=
  if Z.abs Y <? X then (k, sign Y * rnd (Z.abs Y) X k) else (rnd X (Z.abs Y) k, sign Y * k).
Definition steps (X Y : Z) : Z := Z.max X (Z.abs Y).

Lemma bresenham_eq x0 y0 x1 y1 : x0 < x1 ->
  bresenham x0 y0 x1 y1
  = map (fun k => (x0 + fst (bpoint (x1 - x0) (y1 - y0) k), y0 + snd (bpoint (x1 - x0) (y1 - y0) k)))
        (zrange 0 (steps (x1 - x0) (y1 - y0) + 1)).
Proof.
  intros L. unfold bresenham, steps, bpoint, sign.
  set (X := x1 - x0). set (Y := y1 - y0). assert (0 < X) by lia.
  rewrite (Z.abs_eq X) by lia. replace (0 <? X) with true by (symmetry; apply Z.ltb_lt; lia).
  destruct (Z.abs Y <? X) eqn:E; [apply Z.ltb_lt in E|apply Z.ltb_ge in E].
  - rewrite (bloop_eq X (Z.abs Y)) by (rewrite ?rnd_0; lia). rewrite map_map, Z2Nat.id by lia.
    rewrite Z.max_l by lia. apply map_ext. intros k. cbn [fst snd]. f_equal; lia.
  - rewrite (bloop_eq (Z.abs Y) X) by (rewrite ?rnd_0; lia). rewrite map_map, Z2Nat.id by lia.
    rewrite Z.max_r by lia. apply map_ext. intros k. cbn [fst snd]. f_equal; lia.
Qed.

Lemma bpoint_0 X Y : 0 < X -> bpoint X Y 0 = (0, 0).
Proof.
  intros. unfold bpoint. destruct (Z.abs Y <? X) eqn:E; [|apply Z.ltb_ge in E];
    rewrite rnd_0 by lia; f_equal; lia.
Qed.
Lemma bpoint_top X Y : 0 < X -> bpoint X Y (steps X Y) = (X, Y).
Proof.
  intros. unfold bpoint, steps, sign. destruct (Z.abs Y <? X) eqn:E; [apply Z.ltb_lt in E|apply Z.ltb_ge in E].
  - rewrite Z.max_l, rnd_top by lia. destruct (0 <? Y) eqn:F; [apply Z.ltb_lt in F|apply Z.ltb_ge in F]; f_equal; lia.
  - rewrite Z.max_r, rnd_top by lia. destruct (0 <? Y) eqn:F; [apply Z.ltb_lt in F|apply Z.ltb_ge in F]; f_equal; lia.
Qed.
Lemma bpoint_x_range X Y k : 0 < X -> 0 <= k <= steps X Y -> 0 <= fst (bpoint X Y k) <= X.
Proof.
  intros HX K. unfold bpoint, steps in *. destruct (Z.abs Y <? X) eqn:E; [apply Z.ltb_lt in E|apply Z.ltb_ge in E]; cbn [fst].
  - lia.
  - apply rnd_range; lia.
Qed.
Lemma bpoint_x_mono X Y i j : 0 < X -> i <= j -> fst (bpoint X Y i) <= fst (bpoint X Y j).
Proof.
  intros HX K. unfold bpoint. destruct (Z.abs Y <? X) eqn:E; [|apply Z.ltb_ge in E]; cbn [fst]; [lia|].
  apply rnd_mono; lia.
Qed.
Lemma bpoint_x_onto X Y v : 0 < X -> 0 <= v <= X -> exists k, 0 <= k <= steps X Y /\ fst (bpoint X Y k) = v.
Proof.
  intros HX V. unfold bpoint, steps. destruct (Z.abs Y <? X) eqn:E; [|apply Z.ltb_ge in E]; cbn [fst].
  - exists v. lia.
  - rewrite Z.max_r by lia. apply rnd_onto; lia.
Qed.
(** One step on: each coordinate stays or moves one towards the end, one of them moves. *)
Lemma bpoint_step X Y k : 0 < X -> 
  let p := bpoint X Y k in let q := bpoint X Y (k + 1) in
  (fst q = fst p \/ fst q = fst p + 1) /\ (snd q = snd p \/ snd q = snd p + Z.sgn Y) /\ q <> p.
Proof.
  intros HX. unfold bpoint. destruct (Z.abs Y <? X) eqn:E; [apply Z.ltb_lt in E|apply Z.ltb_ge in E]; cbn [fst snd].
  - split; [lia|]. split; [|intros F; apply (f_equal fst) in F; cbn [fst] in F; lia].
    destruct (Z.eq_dec Y 0) as [->|N]; [left; rewrite !rnd_zero by lia; reflexivity|].
    destruct (rnd_step (Z.abs Y) X k) as [->| ->]; [lia|lia|left; reflexivity|right].
    unfold sign. destruct (0 <? Y) eqn:F; [apply Z.ltb_lt in F|apply Z.ltb_ge in F]; lia.
  - split; [apply rnd_step; lia|]. 
    unfold sign. destruct (0 <? Y) eqn:F; [apply Z.ltb_lt in F|apply Z.ltb_ge in F];
      (split; [right; lia|intros G; apply (f_equal snd) in G; cbn [snd] in G; lia]).
Qed.
Lemma bpoint_off X Y k : 0 < X ->
  2 * Z.abs (X * snd (bpoint X Y k) - Y * fst (bpoint X Y k)) <= steps X Y.
Proof.
  intros HX. unfold bpoint, steps, sign. destruct (Z.abs Y <? X) eqn:E; [apply Z.ltb_lt in E|apply Z.ltb_ge in E]; cbn [fst snd].
  - rewrite Z.max_l by lia. pose proof (rnd_bounds (Z.abs Y) X k HX) as R.
    destruct (0 <? Y) eqn:F; [apply Z.ltb_lt in F; rewrite (Z.abs_eq Y) in * by lia
                             |apply Z.ltb_ge in F; rewrite (Z.abs_neq Y) in * by lia].
    + replace (X * _ - _) with (X * rnd Y X k - Y * k) by ring. lia.
    + replace (X * _ - _) with (- (X * rnd (- Y) X k) - Y * k) by ring. lia.
  - rewrite Z.max_r by lia. pose proof (rnd_bounds X (Z.abs Y) k ltac:(lia)) as R.
    destruct (0 <? Y) eqn:F; [apply Z.ltb_lt in F; rewrite (Z.abs_eq Y) in * by lia
                             |apply Z.ltb_ge in F; rewrite (Z.abs_neq Y) in * by lia].
    + replace (X * _ - _) with (X * k - Y * rnd X Y k) by ring. lia.
    + replace (X * _ - _) with (- (X * k) - Y * rnd X (- Y) k) by ring. lia.
Qed.
(** Not steeper than x: the point is given by its x. *)
Definition bheight (X Y x : Z) : Z := sign Y * rnd (Z.abs Y) X x.
Lemma bpoint_gentle X Y k : 0 < X -> Z.abs Y <= X -> bpoint X Y k = (k, bheight X Y k).
Proof.
  intros HX G. unfold bpoint, bheight. destruct (Z.abs Y <? X) eqn:E; [reflexivity|apply Z.ltb_ge in E].
  assert (Z.abs Y = X) as -> by lia. rewrite !rnd_diag by lia. reflexivity.
Qed.

(** ** Collecting by x *)
Lemma filter_none (h : Z -> Z) L a : (forall k, In k L -> a < h k) -> filter (fun k => h k =? a) L = [].
Proof.
  induction L as [|k L IH]; intros K; [reflexivity|]. cbn [filter].
  pose proof (K k (or_introl eq_refl)). replace (h k =? a) with false by (symmetry; apply Z.eqb_neq; lia).
  apply IH. intros; apply K; right; assumption.
Qed.
Section Gather.
  Context {A : Type} (h : Z -> Z) (F : Z -> A).
  Lemma gather : (forall i j, i <= j -> h i <= h j) -> forall n m a b, 
    (forall k, m <= k < m + Z.of_nat n -> a <= h k < b) ->
    flat_map (fun pt => map F (filter (fun k => h k =? pt) (zrange m (m + Z.of_nat n)))) (zrange a b)
    = map F (zrange m (m + Z.of_nat n)).
  Proof.
    intros M. induction n as [|n IH]; intros m a b B.
    { rewrite (zrange_nil m) by lia. cbn [filter map]. induction (zrange a b); [reflexivity|assumption]. }
    rewrite (zrange_cons m) by lia. replace (m + Z.of_nat (S n)) with (m + 1 + Z.of_nat n) in * by lia.
    pose proof (B m ltac:(lia)) as Bm.
    remember (Z.to_nat (h m - a)) as d eqn:Ed.
    assert (forall d a, d = Z.to_nat (h m - a) -> a <= h m < b ->
      flat_map (fun pt => map F (filter (fun k => h k =? pt) (m :: zrange (m + 1) (m + 1 + Z.of_nat n)))) (zrange a b)
      = map F (m :: zrange (m + 1) (m + 1 + Z.of_nat n))) as K; [|apply (K d a Ed Bm)].
    clear - M IH B. intros d. induction d as [|d IHd]; intros a0 Ed Ba.
    - assert (a0 = h m) as -> by lia. rewrite (zrange_cons (h m) b) by lia. cbn [flat_map filter].
      rewrite Z.eqb_refl. cbn [map app]. f_equal.
      rewrite <- (IH (m + 1) (h m) b).
      2:{ intros k K. split; [apply M; lia|apply B; lia]. }
      rewrite (zrange_cons (h m) b) by lia. cbn [flat_map]. f_equal. rewrite !flat_map_concat_map. f_equal.
      apply map_ext_in. intros pt P. apply in_zrange in P.
      replace (h m =? pt) with false by (symmetry; apply Z.eqb_neq; lia). reflexivity.
    - rewrite (zrange_cons a0 b) by lia. cbn [flat_map]. rewrite filter_none.
      + cbn [map app]. apply IHd; lia.
      + intros k [<-|K]; [lia|]. apply in_zrange in K. pose proof (M m k ltac:(lia)). lia.
  Qed.
End Gather.

Lemma under_map pt (h f : Z -> Z) L :
  under pt (map (fun k => (h k, f k)) L) = map f (filter (fun k => h k =? pt) L).
Proof.
  unfold under. induction L as [|k L IH]; [reflexivity|]. cbn [map filter fst].
  destruct (h k =? pt); cbn [map snd]; rewrite IH; reflexivity.
Qed.

(** ** One x *)
Definition vox (p : cell) : vec := V Fine (I (px p)) (I (py p)) (I (pz p)).

Lemma mapM_map_ok {A B C} (f : A -> res B) (g : C -> A) (h : C -> B) l :
  (forall x, In x l -> f (g x) = Ok (h x)) -> mapM f (map g l) = Ok (map h l).
Proof.
  intros K. induction l as [|x l IH]; [reflexivity|]. cbn [map mapM].
  rewrite K by (left; reflexivity). cbn [bind]. rewrite IH by (intros; apply K; right; assumption). reflexivity.
Qed.
Lemma list_prod_one {A B} (a : A) (l : list B) : list_prod [a] l = map (fun b => (a, b)) l.
Proof. cbn [list_prod]. apply app_nil_r. Qed.
Lemma map_seq_nth {A} (f : Z -> A) (d : A) l :
  map (fun i => match nth_error l i with Some v => f v | None => d end) (seq 0 (List.length l)) = map f l.
Proof.
  induction l as [|x l IH]; [reflexivity|]. cbn [List.length seq map nth_error]. f_equal.
  rewrite <- seq_shift, map_map. exact IH.
Qed.
Lemma resolve_one_z pt ys z : resolve pt ys [z] = Ok (map (fun y => vox (pt, y, z)) ys).
Proof.
  unfold resolve. cbn [List.length].
  destruct (List.length ys =? 1)%nat eqn:E.
  - apply Nat.eqb_eq in E. destruct ys as [|y [|]]; try discriminate. reflexivity.
  - cbn [Nat.eqb]. rewrite Nat.mod_1_r. cbn [Nat.eqb]. rewrite Nat.div_1_r.
    cbn [seq]. rewrite list_prod_one.
    rewrite <- (map_seq_nth (fun y => vox (pt, y, z)) (vox (pt, 0, z)) ys).
    apply mapM_map_ok. intros i K. apply in_seq in K. cbn [fst snd Nat.add]. unfold at_index.
    destruct (nth_error ys i) eqn:N; [reflexivity|]. apply nth_error_None in N. lia.
Qed.
Lemma resolve_one_y pt y zs : zs <> [] -> resolve pt [y] zs = Ok (map (fun z => vox (pt, y, z)) zs).
Proof.
  intros NE. unfold resolve. cbn [List.length].
  destruct (1 =? List.length zs)%nat eqn:E.
  - apply Nat.eqb_eq in E. destruct zs as [|z [|]]; try discriminate. reflexivity.
  - apply Nat.eqb_neq in E. assert (1 < List.length zs)%nat as L by (destruct zs as [|? [|]]; cbn [List.length] in *; try congruence; lia).
    replace (List.length zs =? 0)%nat with false by (symmetry; apply Nat.eqb_neq; lia).
    rewrite (Nat.mod_small 1) by lia. cbn [Nat.eqb]. rewrite Nat.mod_1_r, Nat.div_1_r. cbn [Nat.eqb seq].
    rewrite list_prod_one. rewrite <- (map_seq_nth (fun z => vox (pt, y, z)) (vox (pt, y, 0)) zs).
    apply mapM_map_ok. intros i K. apply in_seq in K. cbn [fst snd Nat.add]. unfold at_index. cbn [nth_error bind].
    destruct (nth_error zs i) eqn:N; [reflexivity|]. apply nth_error_None in N. lia.
Qed.
Lemma combine_maps {A B C} (f : A -> B) (g : A -> C) l : combine (map f l) (map g l) = map (fun k => (f k, g k)) l.
Proof. induction l as [|x l IH]; [reflexivity|]. cbn [map combine]. rewrite IH. reflexivity. Qed.
Lemma resolve_same {A} pt (f g : A -> Z) L :
  resolve pt (map f L) (map g L) = Ok (map (fun k => vox (pt, f k, g k)) L).
Proof.
  unfold resolve. rewrite !map_length, Nat.eqb_refl, combine_maps, map_map. reflexivity.
Qed.

Lemma mapM_some {A B} (f : A -> res B) (P : B -> Prop) l :
  (forall x, In x l -> exists y, f x = Ok y /\ P y) ->
  exists ys, mapM f l = Ok ys /\ forall y, In y ys -> P y.
Proof.
  induction l as [|x l IH]; intros K.
  - exists []. split; [reflexivity|intros y []].
  - destruct (K x (or_introl eq_refl)) as (y & E & Py). destruct IH as (ys & Es & Ps); [intros; apply K; right; assumption|].
    exists (y :: ys). cbn [mapM]. rewrite E. cbn [bind]. rewrite Es. split; [reflexivity|].
    intros y' [<-|I']; [exact Py|apply Ps, I'].
Qed.
Lemma resolve_some pt ys zs : ys <> [] -> zs <> [] -> exists l, resolve pt ys zs = Ok l /\
  forall v, In v l -> exists y z, In y ys /\ In z zs /\ v = vox (pt, y, z).
Proof.
  intros NY NZ. unfold resolve.
  assert (List.length ys <> 0)%nat as LY by (destruct ys; [congruence|discriminate]).
  assert (List.length zs <> 0)%nat as LZ by (destruct zs; [congruence|discriminate]).
  apply Nat.eqb_neq in LY, LZ. rewrite LY, LZ. apply Nat.eqb_neq in LY, LZ.
  destruct (List.length ys =? List.length zs)%nat.
  { eexists. split; [reflexivity|]. intros v K. apply in_map_iff in K as ([y z] & <- & K).
    exists y, z. split; [eapply in_combine_l; exact K|]. split; [eapply in_combine_r; exact K|reflexivity]. }
  destruct (List.length ys mod List.length zs =? 0)%nat eqn:E1.
  { apply mapM_some. intros [i j] K. apply in_prod_iff in K as [Ki Kj]. apply in_seq in Ki, Kj. cbn [fst snd].
    apply Nat.eqb_eq in E1. apply Nat.mod_divides in E1 as [q E1]; [|exact LZ].
    rewrite E1, Nat.mul_comm, Nat.div_mul in Kj by exact LZ.
    unfold at_index. destruct (nth_error ys (i + j)) as [y|] eqn:Ny.
    2:{ apply nth_error_None in Ny. nia. }
    destruct (nth_error zs i) as [z|] eqn:Nz; [|apply nth_error_None in Nz; lia].
    eexists. split; [reflexivity|]. exists y, z. apply nth_error_In in Ny, Nz. auto. }
  destruct (List.length zs mod List.length ys =? 0)%nat eqn:E2.
  { apply mapM_some. intros [i j] K. apply in_prod_iff in K as [Ki Kj]. apply in_seq in Ki, Kj. cbn [fst snd].
    apply Nat.eqb_eq in E2. apply Nat.mod_divides in E2 as [q E2]; [|exact LY].
    rewrite E2, Nat.mul_comm, Nat.div_mul in Kj by exact LY.
    unfold at_index. destruct (nth_error zs (i + j)) as [z|] eqn:Nz.
    2:{ apply nth_error_None in Nz. nia. }
    destruct (nth_error ys i) as [y|] eqn:Ny; [|apply nth_error_None in Ny; lia].
    eexists. split; [reflexivity|]. exists y, z. apply nth_error_In in Ny, Nz. auto. }
  eexists. split; [reflexivity|]. intros v K. apply in_map_iff in K as ([y z] & <- & K).
  apply in_prod_iff in K as [Ky Kz]. exists y, z. auto.
Qed.

(** ** The whole line *)
Lemma kv_ok x0 x1 y0 y1 z0 z1 : x0 < x1 ->
  forallb (fun p => (x0 <=? fst p) && (fst p <? x1 + 1)) (bresenham x0 z0 x1 z1 ++ bresenham x0 y0 x1 y1) = true.
Proof.
  intros L. rewrite forallb_app. apply andb_true_iff.
  assert (forall a b, forallb (fun p => (x0 <=? fst p) && (fst p <? x1 + 1)) (bresenham x0 a x1 b) = true) as K; [|auto].
  intros a b. rewrite bresenham_eq by exact L. apply forallb_forall.
  intros p K. apply in_map_iff in K as (k & <- & K). apply in_zrange in K. cbn [fst].
  pose proof (bpoint_x_range (x1 - x0) (b - a) k). apply andb_true_iff. split; [apply Z.leb_le|apply Z.ltb_lt]; lia.
Qed.
Lemma mapM_concat {A B} (f : A -> res (list B)) (g : A -> list B) l :
  (forall x, In x l -> f x = Ok (g x)) -> (let! c := mapM f l in Ok (List.concat c)) = Ok (flat_map g l).
Proof.
  intros K. rewrite (mapM_total f g l K). cbn [bind]. rewrite flat_map_concat_map. reflexivity.
Qed.

Lemma filter_pick (h : Z -> Z) pt L k : In k (filter (fun k => h k =? pt) L) -> h k = pt.
Proof. intros K. apply filter_In in K as [_ K]. apply Z.eqb_eq, K. Qed.
Lemma filter_one n m v : m <= v < m + Z.of_nat n -> filter (fun k => k =? v) (zrange m (m + Z.of_nat n)) = [v].
Proof.
  revert m. induction n as [|n IH]; intros m V; [lia|]. rewrite zrange_cons by lia. cbn [filter].
  replace (m + Z.of_nat (S n)) with (m + 1 + Z.of_nat n) by lia.
  destruct (m =? v) eqn:E; [apply Z.eqb_eq in E; subst v|apply Z.eqb_neq in E; apply IH; lia].
  f_equal. apply (filter_none (fun k => k)). intros k K. apply in_zrange in K. lia.
Qed.

(** What is appended under one key. *)
Lemma under_bres x0 y0 x1 y1 pt : x0 < x1 ->
  let f := bpoint (x1 - x0) (y1 - y0) in
  under pt (bresenham x0 y0 x1 y1)
  = map (fun k => y0 + snd (f k)) (filter (fun k => x0 + fst (f k) =? pt) (zrange 0 (steps (x1 - x0) (y1 - y0) + 1))).
Proof. intros L f. rewrite bresenham_eq by exact L. fold f. apply (under_map pt (fun k => x0 + fst (f k))). Qed.
Lemma under_gentle x0 y0 x1 y1 pt : x0 < x1 -> Z.abs (y1 - y0) <= x1 - x0 -> x0 <= pt <= x1 ->
  under pt (bresenham x0 y0 x1 y1) = [y0 + bheight (x1 - x0) (y1 - y0) (pt - x0)].
Proof.
  intros L G P. rewrite under_bres by exact L. set (X := x1 - x0) in *. unfold steps. rewrite Z.max_l by lia.
  rewrite (filter_ext _ (fun k => k =? pt - x0)).
  2:{ intros k. rewrite bpoint_gentle by lia. cbn [fst].
      destruct (k =? pt - x0) eqn:E; [apply Z.eqb_eq in E; apply Z.eqb_eq|apply Z.eqb_neq in E; apply Z.eqb_neq]; lia. }
  pose proof (filter_one (Z.to_nat (X + 1)) 0 (pt - x0)) as K. rewrite Z2Nat.id in K by lia.
  rewrite Z.add_0_l in K. rewrite K by lia. cbn [map]. rewrite bpoint_gentle by lia. reflexivity.
Qed.
Lemma under_some x0 y0 x1 y1 pt : x0 < x1 -> x0 <= pt <= x1 -> under pt (bresenham x0 y0 x1 y1) <> [].
Proof.
  intros L P. rewrite under_bres by exact L.
  destruct (bpoint_x_onto (x1 - x0) (y1 - y0) (pt - x0)) as (k & K & E); [lia|lia|].
  intros Z0. apply map_eq_nil in Z0.
  assert (In k []) as []. rewrite <- Z0. apply filter_In. split; [apply in_zrange; lia|apply Z.eqb_eq; lia].
Qed.

(** The columns put together again, when each is what one parametrised line has at that x. *)
Lemma line_gathered x0 y0 z0 x1 y1 z1 Y (F : Z -> cell) : x0 < x1 ->
  let h k := x0 + fst (bpoint (x1 - x0) Y k) in
  let K := zrange 0 (steps (x1 - x0) Y + 1) in
  (forall pt, x0 <= pt <= x1 ->
     resolve pt (under pt (bresenham x0 y0 x1 y1)) (under pt (bresenham x0 z0 x1 z1))
     = Ok (map (fun k => vox (F k)) (filter (fun k => h k =? pt) K))) ->
  line_points (x0, y0, z0) (x1, y1, z1) = Ok (map (fun k => vox (F k)) K).
Proof.
  intros L h K R. unfold line_points. replace (x0 =? x1) with false by (symmetry; apply Z.eqb_neq; lia).
  rewrite kv_ok by exact L. cbv zeta.
  rewrite (mapM_concat _ (fun pt => map (fun k => vox (F k)) (filter (fun k => h k =? pt) K))).
  2:{ intros pt P. apply in_zrange in P. apply R. lia. }
  f_equal. unfold K.
  pose proof (gather h (fun k => vox (F k))) as G. 
  assert (0 <= steps (x1 - x0) Y + 1) as N by (unfold steps; lia).
  specialize (G ltac:(intros i j B; unfold h; pose proof (bpoint_x_mono (x1 - x0) Y i j); lia)
                (Z.to_nat (steps (x1 - x0) Y + 1)) 0 x0 (x1 + 1)).
  rewrite Z2Nat.id, Z.add_0_l in G by exact N. apply G.
  intros k B. unfold h. pose proof (bpoint_x_range (x1 - x0) Y k). lia.
Qed.

(** z not steeper than x: the line follows the line in the x,y plane. *)
Lemma line_follow_y x0 y0 z0 x1 y1 z1 : x0 < x1 -> Z.abs (z1 - z0) <= x1 - x0 ->
  let f := bpoint (x1 - x0) (y1 - y0) in
  line_points (x0, y0, z0) (x1, y1, z1)
  = Ok (map (fun k => vox (x0 + fst (f k), y0 + snd (f k), z0 + bheight (x1 - x0) (z1 - z0) (fst (f k))))
            (zrange 0 (steps (x1 - x0) (y1 - y0) + 1))).
Proof.
  intros L G f. apply (line_gathered x0 y0 z0 x1 y1 z1 (y1 - y0)); [exact L|].
  intros pt P. rewrite under_bres, under_gentle by assumption. fold f. rewrite resolve_one_z, map_map. f_equal.
  apply map_ext_in. intros k K. apply filter_pick in K. fold f in K. replace (pt - x0) with (fst (f k)) by lia.
  rewrite <- K. reflexivity.
Qed.
Lemma line_follow_z x0 y0 z0 x1 y1 z1 : x0 < x1 -> Z.abs (y1 - y0) <= x1 - x0 ->
  let f := bpoint (x1 - x0) (z1 - z0) in
  line_points (x0, y0, z0) (x1, y1, z1)
  = Ok (map (fun k => vox (x0 + fst (f k), y0 + bheight (x1 - x0) (y1 - y0) (fst (f k)), z0 + snd (f k)))
            (zrange 0 (steps (x1 - x0) (z1 - z0) + 1))).
Proof.
  intros L G f. apply (line_gathered x0 y0 z0 x1 y1 z1 (z1 - z0)); [exact L|].
  intros pt P. rewrite (under_gentle x0 y0) by assumption. rewrite resolve_one_y by (apply under_some; assumption).
  rewrite under_bres by assumption. fold f. rewrite map_map. f_equal.
  apply map_ext_in. intros k K. apply filter_pick in K. fold f in K. replace (pt - x0) with (fst (f k)) by lia.
  rewrite <- K. reflexivity.
Qed.
(** y and z equally steep. *)
Lemma line_follow_both x0 y0 z0 x1 y1 z1 : x0 < x1 -> Z.abs (y1 - y0) = Z.abs (z1 - z0) ->
  let f := bpoint (x1 - x0) (y1 - y0) in
  let g := bpoint (x1 - x0) (z1 - z0) in
  line_points (x0, y0, z0) (x1, y1, z1)
  = Ok (map (fun k => vox (x0 + fst (f k), y0 + snd (f k), z0 + snd (g k)))
            (zrange 0 (steps (x1 - x0) (y1 - y0) + 1))).
Proof.
  intros L G f g. apply (line_gathered x0 y0 z0 x1 y1 z1 (y1 - y0)); [exact L|].
  intros pt P. rewrite !under_bres by assumption. fold f. fold g.
  replace (steps (x1 - x0) (z1 - z0)) with (steps (x1 - x0) (y1 - y0)) by (unfold steps; rewrite G; reflexivity).
  rewrite (filter_ext (fun k => x0 + fst (g k) =? pt) (fun k => x0 + fst (f k) =? pt)).
  2:{ intros k. unfold f, g, bpoint. rewrite G. destruct (_ <? _); reflexivity. }
  rewrite resolve_same. f_equal. apply map_ext_in. intros k K. apply filter_pick in K. fold f in K.
  rewrite <- K. reflexivity.
Qed.

(** ** Unbroken *)
Lemma leads_on_run s e (F : Z -> cell) n : forall m,
  F (m + Z.of_nat n) = e -> (forall k, m <= k < m + Z.of_nat n -> onward s e (F k) (F (k + 1))) ->
  leads_on s e (F m) (map F (zrange m (m + Z.of_nat n + 1))).
Proof.
  induction n as [|n IH]; intros m E S.
  - rewrite zrange_cons by lia. rewrite zrange_nil by lia. cbn [map]. replace (m + Z.of_nat 0) with m in E by lia.
    rewrite E. constructor.
  - rewrite zrange_cons by lia. cbn [map]. apply lead_step with (b := F (m + 1)).
    + apply S. lia.
    + replace (m + Z.of_nat (Datatypes.S n) + 1) with (m + 1 + Z.of_nat n + 1) by lia. apply IH.
      * rewrite <- E. f_equal. lia.
      * intros k K. apply S. lia.
Qed.
Lemma run_straight s e (F : Z -> cell) n : 0 <= n -> n = extent s e -> F 0 = s -> F n = e ->
  (forall k, 0 <= k < n -> onward s e (F k) (F (k + 1))) -> (forall k, 0 <= k <= n -> hugs s e (F k)) ->
  straight_line s e (map F (zrange 0 (n + 1))).
Proof.
  intros N E S T O H. split; [|split].
  - pose proof (leads_on_run s e F (Z.to_nat n) 0) as L. rewrite Z2Nat.id, Z.add_0_l, S in L by lia. apply L; assumption.
  - rewrite map_length, zrange_len by lia. lia.
  - intros p P. apply in_map_iff in P as (k & <- & K). apply in_zrange in K. apply H. lia.
Qed.

Lemma bheight_0 X Y : 0 < X -> bheight X Y 0 = 0.
Proof. intros. unfold bheight. rewrite rnd_0 by lia. lia. Qed.
Lemma bheight_top X Y : 0 < X -> bheight X Y X = Y.
Proof.
  intros. unfold bheight, sign. rewrite rnd_top by lia.
  destruct (0 <? Y) eqn:F; [apply Z.ltb_lt in F|apply Z.ltb_ge in F]; lia.
Qed.
Lemma bheight_step X Y x : 0 < X -> Z.abs Y <= X ->
  bheight X Y (x + 1) = bheight X Y x \/ bheight X Y (x + 1) = bheight X Y x + Z.sgn Y.
Proof.
  intros HX G. pose proof (bpoint_step X Y x HX) as (_ & K & _). rewrite !bpoint_gentle in K by lia. exact K.
Qed.
Lemma bheight_off X Y x : 0 < X -> Z.abs Y <= X -> 2 * Z.abs (X * bheight X Y x - Y * x) <= X.
Proof.
  intros HX G. pose proof (bpoint_off X Y x HX) as K. rewrite bpoint_gentle in K by lia. cbn [fst snd] in K.
  unfold steps in K. lia.
Qed.

Lemma pair_neq {A B} (p q : A * B) : p <> q -> fst p = fst q -> snd p <> snd q.
Proof. intros N E F. apply N. destruct p, q. cbn in *. congruence. Qed.

Definition flat_enough (s e : cell) : Prop :=
  Z.abs (py e - py s) <= px e - px s \/ Z.abs (pz e - pz s) <= px e - px s \/
  Z.abs (py e - py s) = Z.abs (pz e - pz s).

Lemma line_straight s e : px s < px e -> flat_enough s e ->
  exists l, line_points s e = Ok (map vox l) /\ straight_line s e l.
Proof.
  intros L G. destruct s as [[x0 y0] z0], e as [[x1 y1] z1]. unfold flat_enough, px, py, pz in L, G. cbn [fst snd] in L, G.
  assert (0 < x1 - x0) as HX by lia.
  assert (forall F Y, line_points (x0, y0, z0) (x1, y1, z1) = Ok (map (fun k => vox (F k)) (zrange 0 (steps (x1 - x0) Y + 1))) ->
    steps (x1 - x0) Y = extent (x0, y0, z0) (x1, y1, z1) ->
    F 0 = (x0, y0, z0) -> F (steps (x1 - x0) Y) = (x1, y1, z1) ->
    (forall k, 0 <= k < steps (x1 - x0) Y -> onward (x0, y0, z0) (x1, y1, z1) (F k) (F (k + 1))) ->
    (forall k, 0 <= k <= steps (x1 - x0) Y -> hugs (x0, y0, z0) (x1, y1, z1) (F k)) ->
    exists l, line_points (x0, y0, z0) (x1, y1, z1) = Ok (map vox l) /\ straight_line (x0, y0, z0) (x1, y1, z1) l) as K.
  { intros F Y E N S T O H. eexists. split; [rewrite E, <- (map_map F vox); reflexivity|].
    apply run_straight; auto. unfold steps. lia. }
  destruct G as [G|[G|G]].
  - apply (K _ _ (line_follow_z x0 y0 z0 x1 y1 z1 L G)); clear K.
    + unfold steps, extent, px, py, pz. cbn [fst snd]. lia.
    + rewrite bpoint_0 by lia. cbn [fst snd]. rewrite bheight_0 by lia. apply t3_eq; lia.
    + rewrite bpoint_top by lia. cbn [fst snd]. rewrite bheight_top by lia. apply t3_eq; lia.
    + intros k B. pose proof (bpoint_step (x1 - x0) (z1 - z0) k HX) as S. cbv zeta in S.
      set (u := bpoint _ _ k) in *. set (v := bpoint _ _ (k + 1)) in *. destruct S as (Sx & Sz & N).
      unfold onward, px, py, pz. cbn [fst snd]. rewrite (Z.sgn_pos (x1 - x0)) by lia.
      split; [destruct Sx; [left|right]; lia|]. split; [|split].
      * destruct Sx as [-> | ->]; [left; reflexivity|].
        destruct (bheight_step (x1 - x0) (y1 - y0) (fst u) HX G) as [-> | ->]; [left; reflexivity|right; lia].
      * destruct Sz; [left|right]; lia.
      * intros E. apply t3_inv in E as (E1 & _ & E2). apply N. rewrite (surjective_pairing u), (surjective_pairing v). f_equal; lia.
    + intros k B. unfold hugs, half_off, px, py, pz. cbn [fst snd].
      rewrite !Z.add_simpl_l. pose proof (bpoint_off (x1 - x0) (z1 - z0) k HX). set (u := bpoint _ _ k) in *.
      pose proof (bheight_off (x1 - x0) (y1 - y0) (fst u) HX G). unfold steps in *. lia.
  - apply (K _ _ (line_follow_y x0 y0 z0 x1 y1 z1 L G)); clear K.
    + unfold steps, extent, px, py, pz. cbn [fst snd]. lia.
    + rewrite bpoint_0 by lia. cbn [fst snd]. rewrite bheight_0 by lia. apply t3_eq; lia.
    + rewrite bpoint_top by lia. cbn [fst snd]. rewrite bheight_top by lia. apply t3_eq; lia.
    + intros k B. pose proof (bpoint_step (x1 - x0) (y1 - y0) k HX) as S. cbv zeta in S.
      set (u := bpoint _ _ k) in *. set (v := bpoint _ _ (k + 1)) in *. destruct S as (Sx & Sy & N).
      unfold onward, px, py, pz. cbn [fst snd]. rewrite (Z.sgn_pos (x1 - x0)) by lia.
      split; [destruct Sx; [left|right]; lia|]. split; [|split].
      * destruct Sy; [left|right]; lia.
      * destruct Sx as [-> | ->]; [left; reflexivity|].
        destruct (bheight_step (x1 - x0) (z1 - z0) (fst u) HX G) as [-> | ->]; [left; reflexivity|right; lia].
      * intros E. apply t3_inv in E as (E1 & E2 & _). apply N. rewrite (surjective_pairing u), (surjective_pairing v). f_equal; lia.
    + intros k B. unfold hugs, half_off, px, py, pz. cbn [fst snd].
      rewrite !Z.add_simpl_l. pose proof (bpoint_off (x1 - x0) (y1 - y0) k HX). set (u := bpoint _ _ k) in *.
      pose proof (bheight_off (x1 - x0) (z1 - z0) (fst u) HX G). unfold steps in *. lia.
  - apply (K _ _ (line_follow_both x0 y0 z0 x1 y1 z1 L G)); clear K.
    + unfold steps, extent, px, py, pz. cbn [fst snd]. lia.
    + rewrite !bpoint_0 by lia. cbn [fst snd]. apply t3_eq; lia.
    + replace (steps (x1 - x0) (y1 - y0)) with (steps (x1 - x0) (z1 - z0)) at 3 by (unfold steps; rewrite G; reflexivity).
      rewrite !bpoint_top by lia. cbn [fst snd]. apply t3_eq; lia.
    + intros k B. pose proof (bpoint_step (x1 - x0) (y1 - y0) k HX) as S. cbv zeta in S.
      pose proof (bpoint_step (x1 - x0) (z1 - z0) k HX) as S'. cbv zeta in S'. destruct S' as (_ & Sz & _).
      set (u := bpoint _ (y1 - y0) k) in *. set (v := bpoint _ (y1 - y0) (k + 1)) in *. destruct S as (Sx & Sy & N).
      unfold onward, px, py, pz. cbn [fst snd]. rewrite (Z.sgn_pos (x1 - x0)) by lia.
      split; [destruct Sx; [left|right]; lia|]. split; [|split].
      * destruct Sy; [left|right]; lia.
      * destruct Sz; [left|right]; lia.
      * intros E. apply t3_inv in E as (E1 & E2 & _). apply N. rewrite (surjective_pairing u), (surjective_pairing v). f_equal; lia.
    + intros k B. unfold hugs, half_off, px, py, pz. cbn [fst snd].
      rewrite !Z.add_simpl_l. pose proof (bpoint_off (x1 - x0) (y1 - y0) k HX). pose proof (bpoint_off (x1 - x0) (z1 - z0) k HX).
      assert (fst (bpoint (x1 - x0) (z1 - z0) k) = fst (bpoint (x1 - x0) (y1 - y0) k)) as EX
        by (unfold bpoint; rewrite G; destruct (_ <? _); reflexivity).
      rewrite EX in *. unfold steps in *. lia.
Qed.

(** Every line towards larger x is drawn, and only with points close to the straight line. *)
Lemma line_forward s e : px s < px e ->
  exists l, line_points s e = Ok (map vox l) /\ forall p, In p l -> hugs s e p.
Proof.
  intros L. destruct s as [[x0 y0] z0], e as [[x1 y1] z1]. unfold px in L. cbn [fst snd] in L.
  unfold line_points. replace (x0 =? x1) with false by (symmetry; apply Z.eqb_neq; lia).
  rewrite kv_ok by exact L. cbv zeta.
  destruct (mapM_some (fun pt => resolve pt (under pt (bresenham x0 y0 x1 y1)) (under pt (bresenham x0 z0 x1 z1)))
    (fun c => exists l, c = map vox l /\ forall p, In p l -> hugs (x0, y0, z0) (x1, y1, z1) p) (zrange x0 (x1 + 1))) as (cs & E & P).
  - intros pt B. apply in_zrange in B.
    destruct (resolve_some pt (under pt (bresenham x0 y0 x1 y1)) (under pt (bresenham x0 z0 x1 z1))) as (c & Ec & Pc);
      [apply under_some; lia|apply under_some; lia|].
    exists c. split; [exact Ec|]. clear Ec.
    induction c as [|v c IH].
    + exists []. split; [reflexivity|intros p []].
    + destruct IH as (l & -> & Pl); [intros w W; apply Pc; right; exact W|].
      destruct (Pc v (or_introl eq_refl)) as (y & z & Iy & Iz & ->).
      exists ((pt, y, z) :: l). split; [reflexivity|]. intros p [<-|I']; [|apply Pl, I'].
      rewrite under_bres in Iy, Iz by exact L.
      apply in_map_iff in Iy as (k & <- & K). apply filter_pick in K.
      apply in_map_iff in Iz as (k' & <- & K'). apply filter_pick in K'.
      unfold hugs, half_off, px, py, pz. cbn [fst snd]. rewrite !Z.add_simpl_l.
      pose proof (bpoint_off (x1 - x0) (y1 - y0) k ltac:(lia)). pose proof (bpoint_off (x1 - x0) (z1 - z0) k' ltac:(lia)).
      rewrite <- K at 1. replace (pt - x0) with (fst (bpoint (x1 - x0) (z1 - z0) k')) by lia. 
      rewrite Z.add_simpl_l. unfold steps in *. lia.
  - rewrite E. cbn [bind].
    assert (exists l, List.concat cs = map vox l /\ forall p, In p l -> hugs (x0, y0, z0) (x1, y1, z1) p) as (l & El & Pl).
    { clear E. induction cs as [|c cs IH].
      - exists []. split; [reflexivity|intros p []].
      - destruct IH as (l & El & Pl); [intros y Y; apply P; right; exact Y|].
        destruct (P c (or_introl eq_refl)) as (m & -> & Pm). exists (m ++ l). cbn [List.concat]. rewrite El, map_app.
        split; [reflexivity|]. intros p I'. apply in_app_or in I' as [I'|I']; auto. }
    exists l. rewrite El. auto.
Qed.
Lemma line_level s e : px s = px e -> line_points s e = Ok [].
Proof.
  intros E. destruct s as [[x0 y0] z0], e as [[x1 y1] z1]. unfold px in E. cbn [fst snd] in E. subst x1.
  unfold line_points. rewrite Z.eqb_refl. reflexivity.
Qed.
Lemma bresenham_some x0 y0 x1 y1 : exists p l, bresenham x0 y0 x1 y1 = p :: l.
Proof.
  unfold bresenham. cbv zeta. destruct (Z.abs (y1 - y0) <? Z.abs (x1 - x0)) eqn:E.
  - replace (Z.to_nat (Z.abs (x1 - x0) + 1)) with (S (Z.to_nat (Z.abs (x1 - x0)))) by lia.
    cbn [bloop map]. do 2 eexists. reflexivity.
  - replace (Z.to_nat (Z.abs (y1 - y0) + 1)) with (S (Z.to_nat (Z.abs (y1 - y0)))) by lia.
    cbn [bloop map]. do 2 eexists. reflexivity.
Qed.
Lemma line_backward s e : px e < px s -> line_points s e = Err KeyError.
Proof.
  intros L. destruct s as [[x0 y0] z0], e as [[x1 y1] z1]. unfold px in L. cbn [fst snd] in L.
  unfold line_points. replace (x0 =? x1) with false by (symmetry; apply Z.eqb_neq; lia). cbv zeta.
  destruct (bresenham_some x0 z0 x1 z1) as (p & l & ->). cbn [app forallb].
  assert ((x0 <=? fst p) && (fst p <? x1 + 1) = false) as ->; [|reflexivity].
  apply andb_false_iff. destruct (x0 <=? fst p) eqn:E; [right; apply Z.leb_le in E; apply Z.ltb_ge; lia|left; reflexivity].
Qed.

(** ** In a room *)
Lemma onward_shift b s e u v : onward s e u v -> onward (plus b s) (plus b e) (plus b u) (plus b v).
Proof.
  destruct b as [[b1 b2] b3], s as [[s1 s2] s3], e as [[e1 e2] e3], u as [[u1 u2] u3], v as [[v1 v2] v3].
  unfold onward, plus, px, py, pz. cbn [fst snd].
  replace (b1 + e1 - (b1 + s1)) with (e1 - s1) by lia. replace (b2 + e2 - (b2 + s2)) with (e2 - s2) by lia.
  replace (b3 + e3 - (b3 + s3)) with (e3 - s3) by lia.
  intros (A & B & C & N). split; [|split; [|split]]; [destruct A; [left|right]; lia|destruct B; [left|right]; lia|destruct C; [left|right]; lia|].
  intros E. apply t3_inv in E. apply N. apply t3_eq; lia.
Qed.
Lemma hugs_shift b s e p : hugs s e p -> hugs (plus b s) (plus b e) (plus b p).
Proof.
  destruct b as [[b1 b2] b3], s as [[s1 s2] s3], e as [[e1 e2] e3], p as [[p1 p2] p3].
  unfold hugs, half_off, plus, px, py, pz. cbn [fst snd].
  replace (b1 + e1 - (b1 + s1)) with (e1 - s1) by lia. replace (b2 + e2 - (b2 + s2)) with (e2 - s2) by lia.
  replace (b3 + e3 - (b3 + s3)) with (e3 - s3) by lia.
  replace (b1 + p1 - (b1 + s1)) with (p1 - s1) by lia. replace (b2 + p2 - (b2 + s2)) with (p2 - s2) by lia.
  replace (b3 + p3 - (b3 + s3)) with (p3 - s3) by lia. tauto.
Qed.
Lemma straight_shift b s e l : straight_line s e l -> straight_line (plus b s) (plus b e) (map (plus b) l).
Proof.
  intros (A & B & C). split; [|split].
  - clear B C. assert (forall a, leads_on s e a l -> leads_on (plus b s) (plus b e) (plus b a) (map (plus b) l)) as K; [|exact (K s A)].
    clear A. intros a A. induction A as [|a b' l O A IH]; cbn [map]; [apply lead_end|].
    apply lead_step with (b := plus b b'); [apply onward_shift, O|exact IH].
  - rewrite map_length, B. unfold extent, plus, px, py, pz. cbn [fst snd]. f_equal. f_equal; [f_equal; lia|f_equal; f_equal; lia].
  - intros p P. apply in_map_iff in P as (q & <- & Q). apply hugs_shift, C, Q.
Qed.

Lemma frame_plus p c o d : frame p c (plus o d) = plus (frame p c o) (cell_turn c d).
Proof.
  destruct p as [[a b] h], o as [[u v] w], d as [[i j] k]. unfold frame, plus, px, py, pz.
  destruct c; cbn [tile_turn cell_turn fst snd]; apply t3_eq; lia.
Qed.
Lemma vox_turn v c s : size_is v s -> vox_cell (rotq (match c with CE => 0 | CN => 1 | CW => 2 | CS => 3 end) v) = cell_turn c s.
Proof.
  destruct v as [k x y z], s as [[a b] h]. unfold size_is, coords2. cbn [vx vy vz].
  intros K. apply t3_inv in K as (Hx & Hy & Hz). unfold vox_cell.
  destruct c; cbn [rotq vvox vx vy vz cell_turn nfloor]; rewrite ?nfloor_halves;
      apply t3_eq; (try rewrite Hx; try rewrite Hy; try rewrite Hz; cbn [halves]; 
      first [rewrite Hx|rewrite Hy|rewrite Hz|idtac]); Z.div_mod_to_equations; lia.
Qed.
Lemma interpolate_eq pos orient off start end_ p c o s e :
  cell_at pos p -> points_to orient c -> voxel_at off o -> size_is start s -> size_is end_ e ->
  exists l, vc l = Fine /\ voxel_at l (frame p c o) /\
    x_interpolate pos orient off start end_ =
    let! pts := line_points (cell_turn c s) (cell_turn c e) in mapM (fun p => vadd p l) pts.
Proof.
  intros HP HO HF HS HE. unfold x_interpolate. rewrite !(vrotate_dir _ orient c HO). cbn [bind].
  destruct (local_position_ok pos orient off p c o HP HO HF) as (l & -> & Cl & Hl). cbn [bind].
  rewrite (vox_turn start c s HS), (vox_turn end_ c e HE). exists l. auto.
Qed.
Lemma add_local l b ps : vc l = Fine -> voxel_at l b ->
  exists pts, mapM (fun p => vadd p l) (map vox ps) = Ok pts /\ are_voxels pts (map (plus b) ps).
Proof.
  intros Cl Hl. exists (map (fun q => raw_add Fine (vox q) l) ps). split.
  - apply mapM_map_ok. intros q _. unfold vadd, vox. cbn [vc vfine bind]. unfold vfine. rewrite Cl. reflexivity.
  - destruct (voxel_at_fine l _ Cl Hl) as (Lx & Ly & Lz). unfold are_voxels.
    induction ps as [|q ps IH]; cbn [map]; constructor; [|exact IH]. split; [reflexivity|].
    split; [discriminate|]. unfold fpos2, coords2, raw_add, plus. cbn [vc vx vy vz]. rewrite !halves_nadd.
    rewrite Lx, Ly, Lz. cbn [halves]. unfold vox, px, py, pz. cbn [vx vy vz halves]. apply t3_eq; lia.
Qed.
Lemma turn_ahead c s e : ahead c s e = (px (cell_turn c e) - px (cell_turn c s), py (cell_turn c e) - py (cell_turn c s),
                                         pz (cell_turn c e) - pz (cell_turn c s)).
Proof.
  destruct s as [[s1 s2] s3], e as [[e1 e2] e3]. unfold ahead, px, py, pz.
  destruct c; cbn [cell_turn fst snd]; apply t3_eq; lia.
Qed.
Lemma interpolate_straight pos orient off start end_ p c o s e :
  cell_at pos p -> points_to orient c -> voxel_at off o -> size_is start s -> size_is end_ e ->
  0 < px (ahead c s e) -> flat_enough (0, 0, 0) (ahead c s e) ->
  exists pts l, x_interpolate pos orient off start end_ = Ok pts /\ are_voxels pts l /\
    straight_line (frame p c (plus o s)) (frame p c (plus o e)) l.
Proof.
  intros HP HO HF HS HE F G. rewrite turn_ahead in F, G.
  destruct (interpolate_eq pos orient off start end_ p c o s e HP HO HF HS HE) as (l & Cl & Hl & ->).
  destruct (line_straight (cell_turn c s) (cell_turn c e)) as (ps & -> & S).
  - unfold px in *. cbn [fst snd] in F. lia.
  - unfold flat_enough, px, py, pz in *. cbn [fst snd] in G. rewrite !Z.sub_0_r in G. exact G.
  - cbn [bind]. destruct (add_local l _ ps Cl Hl) as (pts & -> & A). exists pts, (map (plus (frame p c o)) ps).
    split; [reflexivity|]. split; [exact A|]. rewrite !frame_plus. apply straight_shift, S.
Qed.
Lemma interpolate_forward pos orient off start end_ p c o s e :
  cell_at pos p -> points_to orient c -> voxel_at off o -> size_is start s -> size_is end_ e ->
  0 < px (ahead c s e) ->
  exists pts l, x_interpolate pos orient off start end_ = Ok pts /\ are_voxels pts l /\
    forall q, In q l -> hugs (frame p c (plus o s)) (frame p c (plus o e)) q.
Proof.
  intros HP HO HF HS HE F. rewrite turn_ahead in F.
  destruct (interpolate_eq pos orient off start end_ p c o s e HP HO HF HS HE) as (l & Cl & Hl & ->).
  destruct (line_forward (cell_turn c s) (cell_turn c e)) as (ps & -> & S).
  - unfold px in *. cbn [fst snd] in F. lia.
  - cbn [bind]. destruct (add_local l _ ps Cl Hl) as (pts & -> & A). exists pts, (map (plus (frame p c o)) ps).
    split; [reflexivity|]. split; [exact A|]. intros q Q. apply in_map_iff in Q as (q' & <- & Q).
    rewrite !frame_plus. apply hugs_shift, S, Q.
Qed.
Lemma interpolate_level pos orient off start end_ p c o s e :
  cell_at pos p -> points_to orient c -> voxel_at off o -> size_is start s -> size_is end_ e ->
  px (ahead c s e) = 0 -> x_interpolate pos orient off start end_ = Ok [].
Proof.
  intros HP HO HF HS HE F. rewrite turn_ahead in F.
  destruct (interpolate_eq pos orient off start end_ p c o s e HP HO HF HS HE) as (l & Cl & Hl & ->).
  rewrite line_level; [reflexivity|]. unfold px in *. cbn [fst snd] in F. lia.
Qed.
Lemma interpolate_backward pos orient off start end_ p c o s e :
  cell_at pos p -> points_to orient c -> voxel_at off o -> size_is start s -> size_is end_ e ->
  px (ahead c s e) < 0 -> x_interpolate pos orient off start end_ = Err KeyError.
Proof.
  intros HP HO HF HS HE F. rewrite turn_ahead in F.
  destruct (interpolate_eq pos orient off start end_ p c o s e HP HO HF HS HE) as (l & Cl & Hl & ->).
  rewrite line_backward; [reflexivity|]. unfold px in *. cbn [fst snd] in F. lia.
Qed.

Lemma interpolate_drawable pos orient off start end_ p c o s e :
  cell_at pos p -> points_to orient c -> voxel_at off o -> size_is start s -> size_is end_ e ->
  drawable (ahead c s e) ->
  exists pts l, x_interpolate pos orient off start end_ = Ok pts /\ are_voxels pts l /\
    straight_line (frame p c (plus o s)) (frame p c (plus o e)) l.
Proof.
  intros HP HO HF HS HE [F G]. eapply interpolate_straight; try eassumption.
  unfold flat_enough. change (px (0, 0, 0)) with 0. change (py (0, 0, 0)) with 0. change (pz (0, 0, 0)) with 0.
  rewrite !Z.sub_0_r. exact G.
Qed.

(** ** A line that misses its end *)
Lemma leads_last s e a l : leads_on s e a l -> In e l.
Proof. induction 1; [left; reflexivity|right; assumption]. Qed.
Lemma are_voxels_in pts l q : are_voxels pts l -> In q l -> exists v, In v pts /\ voxel_at v q.
Proof.
  induction 1 as [|v q' pts l [_ E] F IH]; intros K; [destruct K|]. destruct K as [<-|K].
  - exists v. split; [left; reflexivity|exact E].
  - destruct (IH K) as (w & W & E'). exists w. split; [right; exact W|exact E'].
Qed.
Lemma end_missed : ~ exists pts l,
  x_interpolate (V Coarse (I 0) (I 0) (I 0)) EAST (fine 0 0 0) (fine 0 0 0) (fine 1 7 3) = Ok pts /\ are_voxels pts l /\
  straight_line (frame (0, 0, 0) CE (plus (0, 0, 0) (0, 0, 0))) (frame (0, 0, 0) CE (plus (0, 0, 0) (1, 7, 3))) l.
Proof.
  intros (pts & l & E & A & (L & _)). apply leads_last in L. destruct (are_voxels_in _ _ _ A L) as (v & V & _ & F).
  assert (forallb (fun v => let '(x, y, z) := fpos2 v in negb (y =? 14)) pts = true) as K.
  { vm_compute in E. injection E as <-. reflexivity. }
  rewrite forallb_forall in K. specialize (K v V). rewrite F in K. discriminate K.
Qed.
