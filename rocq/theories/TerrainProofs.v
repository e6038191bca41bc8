(** Proofs about the terrain programs. *)
From Coq Require Import QArith Qabs Sorted Lqa.
From Verif Require Import Py VecModel VoxelModel VoxelSpec VoxelProofs CodecModel CodecSpec OutModel OutSpec OutProofs UpmModel KitProofs TerrainModel TerrainSpec.
Local Open Scope Z_scope.

Lemma Qltb_spec a b : Qltb a b = true <-> (a < b)%Q.
Proof.
  unfold Qltb. destruct (Qle_bool b a) eqn:E; cbn [negb].
  - apply Qle_bool_iff in E. split; [discriminate|]. intros H. exfalso. apply (Qlt_not_le _ _ H E).
  - split; [intros _|reflexivity]. apply Qnot_le_lt. intros H. apply Qle_bool_iff in H. congruence.
Qed.
Lemma Qltb_false a b : Qltb a b = false <-> (b <= a)%Q.
Proof.
  rewrite <- not_true_iff_false, Qltb_spec. split; [apply Qnot_lt_le|apply Qle_not_lt].
Qed.
Lemma dense_spec w : dense w = Qltb w (Qmake (-1) 10).
Proof.
  unfold dense. destruct (Qlt_le_dec w (-1 # 10)) as [H|H]; symmetry; [apply Qltb_spec|apply Qltb_false]; assumption.
Qed.
Lemma peqb_eq a b : peqb a b = true <-> a = b.
Proof. destruct a, b. unfold peqb. cbn [fst snd]. rewrite andb_true_iff, !Z.eqb_eq. split; [intros [-> ->]; reflexivity|intros [= -> ->]; auto]. Qed.
Lemma grid_square n : grid n = square n.
Proof.
  assert (forall l l' : list Z, flat_map (fun i => map (fun j => (i, j)) l') l = list_prod l l') as A
    by (induction l as [|a l IH]; intros l'; [reflexivity|]; cbn [flat_map list_prod]; rewrite <- IH; reflexivity).
  apply A.
Qed.
Lemma in_square n c : In c (square n) <-> 0 <= fst c < n /\ 0 <= snd c < n.
Proof. destruct c. unfold square. rewrite in_prod_iff, !in_zrange. reflexivity. Qed.

(** ** Reading order *)
Lemma zrange_sorted n : StronglySorted Z.lt (zrange 0 n).
Proof.
  unfold zrange. generalize (Z.to_nat (n - 0)). intros k. enough (forall k s, StronglySorted Z.lt (map (fun i => 0 + Z.of_nat i) (seq s k))) by auto.
  clear. induction k as [|k IH]; intros s; [constructor|]. cbn [seq map]. constructor; [apply IH|]. rewrite Forall_forall. intros x Hx.
  apply in_map_iff in Hx as (i & <- & Hi). apply in_seq in Hi. lia.
Qed.
Definition before (a b : Z * Z) : Prop := earlier a b = true.
Lemma before_spec a b : before a b <-> fst a < fst b \/ (fst a = fst b /\ snd a < snd b).
Proof. unfold before, earlier. lia. Qed.
Lemma sorted_app {A} (R : A -> A -> Prop) l l' : StronglySorted R l -> StronglySorted R l' -> (forall a b, In a l -> In b l' -> R a b) -> StronglySorted R (l ++ l').
Proof.
  induction 1 as [|a l S IH F]; intros S' H; [exact S'|]. cbn [app]. constructor.
  - apply IH; [exact S'|]. intros x y Hx Hy. apply H; [right|]; assumption.
  - apply Forall_app. split; [exact F|]. rewrite Forall_forall. intros y Hy. apply H; [left; reflexivity|exact Hy].
Qed.
Lemma square_sorted n : StronglySorted before (square n).
Proof.
  unfold square. pose proof (zrange_sorted n) as S1. pose proof (zrange_sorted n) as S2. revert S2. generalize (zrange 0 n) at 1 3. intros l' S2.
  induction S1 as [|a l S1 IH F]; [constructor|]. cbn [list_prod]. apply sorted_app; [|exact IH|].
  - clear - S2. induction S2 as [|b l' S2 IH F]; [constructor|]. cbn [map]. constructor; [exact IH|]. rewrite Forall_forall in *. intros x Hx.
    apply in_map_iff in Hx as (y & <- & Hy). apply before_spec. right. cbn. auto.
  - intros x y Hx Hy. apply in_map_iff in Hx as (b & <- & _). destruct y as [c d]. apply in_prod_iff in Hy as [Hc _].
    rewrite Forall_forall in F. apply before_spec. left. cbn. auto.
Qed.
Lemma rank_sorted l : StronglySorted before l -> forall p i c, nth_error l i = Some c ->
  List.length (filter p (firstn i l)) = List.length (filter (fun b => p b && earlier b c) l).
Proof.
  induction 1 as [|a l S IH F]; intros p [|i] c E; try discriminate; cbn [firstn nth_error] in *.
  - assert (a = c) as -> by congruence. cbn [filter]. assert (earlier c c = false) as ->
      by (unfold earlier; lia). rewrite andb_false_r. cbn [filter List.length].
    symmetry. rewrite Forall_forall in F. assert (forall x, In x l -> p x && earlier x c = false) as G.
    { intros x Hx. apply F in Hx. unfold before, earlier in Hx. assert (earlier x c = false) as -> by (unfold earlier; lia). apply andb_false_r. }
    clear - G. induction l as [|x l IH]; [reflexivity|]. cbn [filter]. rewrite (G x (or_introl eq_refl)). apply IH. intros y Hy. apply G. right. exact Hy.
  - rewrite Forall_forall in F. assert (earlier a c = true) as EA by (apply F; apply nth_error_In in E; exact E). cbn [filter]. rewrite EA, andb_true_r.
    destruct (p a); cbn [List.length]; rewrite (IH p i c E); reflexivity.
Qed.

(** ** The lotteries *)
Section Lottery.
  Context (cand : Z * Z -> bool) (limit : Z * Z -> Q) (add : list ((Z * Z) * bool) -> Z * Z -> list ((Z * Z) * bool)) (covers : Z * Z -> Z * Z -> bool).
  Context (add_ok : forall d c x, dmem peqb (add d c) x = covers c x || dmem peqb d x).
  Definition turn (s : list ((Z * Z) * bool) * rng) (c : Z * Z) : list ((Z * Z) * bool) * rng :=
    let '(d, g) := s in
    if cand c then let (u, g') := random01 g in if Qltb u (limit c) then (add d c, g') else (d, g') else (d, g).
  Lemma lottery l : forall d g,
    (forall i, snd (fold_left turn l (d, g)) i = g (List.length (filter cand l) + i)%nat) /\
    forall x, dmem peqb (fst (fold_left turn l (d, g))) x = true <-> dmem peqb d x = true \/
      exists p c, nth_error l p = Some c /\ cand c = true /\ (unit_of (g (List.length (filter cand (firstn p l)))) < limit c)%Q /\ covers c x = true.
  Proof.
    induction l as [|c l IH]; intros d g.
    - split; [intros; reflexivity|]. intros x. cbn [fold_left fst]. split; [auto|]. intros [H|([|p] & c & E & _)]; [exact H|discriminate E|discriminate E].
    - cbn [fold_left turn]. unfold random01, draw. fold (unit_of (g O)). destruct (cand c) eqn:C.
      + destruct (Qltb (unit_of (g O)) (limit c)) eqn:W.
        * destruct (IH (add d c) (fun i => g (S i))) as (A & B). split.
          -- intros i. rewrite A. cbn [filter]. rewrite C. reflexivity.
          -- intros x. rewrite B, add_ok, orb_true_iff. split.
             ++ intros [[H|H]|(p & c' & E & H1 & H2 & H3)]; [|auto|].
                ** right. exists 0%nat, c. cbn [nth_error firstn filter List.length]. apply Qltb_spec in W. auto.
                ** right. exists (S p), c'. cbn [nth_error firstn filter]. rewrite C. cbn [List.length]. auto.
             ++ intros [H|([|p] & c' & E & H1 & H2 & H3)]; [auto| |].
                ** cbn in E. assert (c = c') as <- by congruence. auto.
                ** right. exists p, c'. cbn [nth_error firstn filter] in E, H2. rewrite C in H2. cbn [List.length] in H2. auto.
        * destruct (IH d (fun i => g (S i))) as (A & B). split.
          -- intros i. rewrite A. cbn [filter]. rewrite C. reflexivity.
          -- intros x. rewrite B. split.
             ++ intros [H|(p & c' & E & H1 & H2 & H3)]; [auto|]. right. exists (S p), c'. cbn [nth_error firstn filter]. rewrite C. cbn [List.length]. auto.
             ++ intros [H|([|p] & c' & E & H1 & H2 & H3)]; [auto| |].
                ** cbn in E. assert (c = c') as <- by congruence. cbn [firstn filter List.length] in H2. apply Qltb_spec in H2. congruence.
                ** right. exists p, c'. cbn [nth_error firstn filter] in E, H2. rewrite C in H2. cbn [List.length] in H2. auto.
      + destruct (IH d g) as (A & B). split.
        * intros i. rewrite A. cbn [filter]. rewrite C. reflexivity.
        * intros x. rewrite B. split.
          -- intros [H|(p & c' & E & H1 & H2 & H3)]; [auto|]. right. exists (S p), c'. cbn [nth_error firstn filter]. rewrite C. auto.
          -- intros [H|([|p] & c' & E & H1 & H2 & H3)]; [auto| |].
             ++ cbn in E. congruence.
             ++ right. exists p, c'. cbn [nth_error firstn filter] in E, H2. rewrite C in H2. auto.
  Qed.
  Lemma lottery_square n g x :
    dmem peqb (fst (fold_left turn (square n) ([], g))) x = true <->
      exists c, In c (square n) /\ cand c = true /\ (unit_of (g (how_many_before n cand c)) < limit c)%Q /\ covers c x = true.
  Proof.
    rewrite (proj2 (lottery (square n) [] g)). cbn [dmem dget]. split.
    - intros [H|(p & c & E & H1 & H2 & H3)]; [discriminate H|]. exists c. split; [apply nth_error_In in E; exact E|].
      rewrite (rank_sorted _ (square_sorted n) _ _ _ E) in H2. auto.
    - intros (c & Hc & H1 & H2 & H3). right. apply In_nth_error in Hc as (p & E). exists p, c.
      rewrite (rank_sorted _ (square_sorted n) _ _ _ E). auto.
  Qed.
  Lemma lottery_end n g i : snd (fold_left turn (square n) ([], g)) i = g (how_many n cand + i)%nat.
  Proof. apply (proj1 (lottery (square n) [] g)). Qed.
End Lottery.
Lemma dmem_dset d c x : dmem peqb (dset peqb d c true) x = peqb c x || dmem peqb d x.
Proof.
  unfold dmem. induction d as [|[k v] d IH]; cbn [dset dget].
  - destruct (peqb c x); reflexivity.
  - destruct (peqb k c) eqn:E.
    + apply peqb_eq in E. subst k. cbn [dget]. destruct (peqb c x); reflexivity.
    + cbn [dget]. destruct (peqb k x) eqn:E2; [|exact IH]. destruct (peqb c x); reflexivity.
Qed.
Lemma fold_ext {A B} (f g : A -> B -> A) : (forall a b, f a b = g a b) -> forall l a, fold_left f l a = fold_left g l a.
Proof. intros H. induction l as [|b l IH]; intros a; [reflexivity|]. cbn [fold_left]. rewrite H. apply IH. Qed.
Lemma tree_density_eq noise g : tree_density noise g =
  fold_left (turn (fun c => Qltb (forest noise c) (Qmake (-1) 10)) (fun c => Qabs (forest noise c) / inject_Z 4)%Q (fun d c => dset peqb d c true)) (square 128) ([], g).
Proof. unfold tree_density, PERLIN_IJ. rewrite grid_square. apply fold_ext. intros [d g0] [i j]. reflexivity. Qed.
Definition sixteen (d : list ((Z * Z) * bool)) (c : Z * Z) : list ((Z * Z) * bool) :=
  fold_left (fun d i2 => fold_left (fun d j2 => dset peqb d (i2, j2) true) (zrange (4 * snd c) (4 * (snd c + 1))) d) (zrange (4 * fst c) (4 * (fst c + 1))) d.
Lemma bldg_density_eq noise g : bldg_density noise g =
  fold_left (turn (fun c => Qltb (town noise c) (Qmake (-1) 10)) (fun c => Qabs (town noise c) / inject_Z 3)%Q sixteen) (square 32) ([], g).
Proof. unfold bldg_density, PERLIN_IJ. change (128 / 4) with 32. rewrite grid_square. apply fold_ext. intros [d g0] [i j]. reflexivity. Qed.
Definition in_block (c x : Z * Z) : bool := peqb (fst x / 4, snd x / 4) c.
Lemma sixteen_ok d c x : dmem peqb (sixteen d c) x = in_block c x || dmem peqb d x.
Proof.
  assert (forall l i d x, dmem peqb (fold_left (fun d j2 => dset peqb d (i, j2) true) l d) x = existsb (fun j => peqb (i, j) x) l || dmem peqb d x) as A.
  { induction l as [|j l IH]; intros i d0 y; [reflexivity|]. cbn [fold_left existsb]. rewrite IH, dmem_dset. destruct (peqb (i, j) y), (existsb (fun j => peqb (i, j) y) l); reflexivity. }
  assert (forall l l' d x, dmem peqb (fold_left (fun d i2 => fold_left (fun d j2 => dset peqb d (i2, j2) true) l d) l' d) x =
    existsb (fun i => existsb (fun j => peqb (i, j) x) l) l' || dmem peqb d x) as B.
  { induction l' as [|i l' IH]; intros d0 y; [reflexivity|]. cbn [fold_left existsb]. rewrite IH, A. rewrite orb_assoc. f_equal. apply orb_comm. }
  unfold sixteen. rewrite B. f_equal. apply eq_true_iff_eq. rewrite existsb_exists. unfold in_block. rewrite peqb_eq. destruct c as [a b], x as [u v]. cbn [fst snd]. split.
  - intros (i & Hi & H). apply existsb_exists in H as (j & Hj & H). apply peqb_eq in H. injection H as -> ->. rewrite in_zrange in *. f_equal; nia.
  - intros [= <- <-]. exists u. rewrite in_zrange. split; [pose proof (Z.div_mod u 4); pose proof (Z.mod_pos_bound u 4); lia|]. apply existsb_exists. exists v. rewrite in_zrange.
    split; [pose proof (Z.div_mod v 4); pose proof (Z.mod_pos_bound v 4); lia|]. apply peqb_eq. reflexivity.
Qed.
Lemma how_many_ext n p q : (forall c, p c = q c) -> how_many n p = how_many n q.
Proof. intros H. unfold how_many. f_equal. induction (square n) as [|a l IH]; [reflexivity|]. cbn [filter]. rewrite H, IH. reflexivity. Qed.
Lemma how_many_before_ext n p q c : (forall c, p c = q c) -> how_many_before n p c = how_many_before n q c.
Proof. intros H. unfold how_many_before. apply how_many_ext. intros. rewrite H. reflexivity. Qed.
Lemma trees_ok noise g c : 0 <= fst c < 128 -> 0 <= snd c < 128 -> dmem peqb (fst (tree_density noise g)) c = true <-> planted noise g c.
Proof.
  intros Hi Hj. rewrite tree_density_eq. rewrite (lottery_square _ _ _ peqb dmem_dset). unfold planted.
  assert (forall c0, how_many_before 128 (fun b => dense (forest noise b)) c0 = how_many_before 128 (fun b => Qltb (forest noise b) (-1 # 10)) c0) as E
    by (intros; apply how_many_before_ext; intros; apply dense_spec).
  rewrite E. split.
  - intros (c' & _ & H1 & H2 & H3). apply peqb_eq in H3. subst c'. apply Qltb_spec in H1. auto.
  - intros (H1 & H2). exists c. rewrite in_square, Qltb_spec, peqb_eq. auto.
Qed.
Lemma bldgs_ok noise g c : 0 <= fst c < 128 -> 0 <= snd c < 128 ->
  dmem peqb (fst (bldg_density noise (snd (tree_density noise g)))) c = true <-> built noise g c.
Proof.
  intros Hi Hj. rewrite bldg_density_eq. rewrite (lottery_square _ _ _ in_block sixteen_ok). unfold built. cbv zeta.
  rewrite tree_density_eq.
  assert (forall i, snd (fold_left (turn (fun c => Qltb (forest noise c) (-1 # 10)) (fun c => (Qabs (forest noise c) / inject_Z 4)%Q) (fun d c => dset peqb d c true)) (square 128) ([], g)) i =
    g (how_many 128 (fun b => dense (forest noise b)) + i)%nat) as G.
  { intros i. rewrite (lottery_end _ _ _ peqb dmem_dset). rewrite (how_many_ext 128 _ _ (fun b => dense_spec (forest noise b))). reflexivity. }
  assert (forall c0, how_many_before 32 (fun b => dense (town noise b)) c0 = how_many_before 32 (fun b => Qltb (town noise b) (-1 # 10)) c0) as E
    by (intros; apply how_many_before_ext; intros; apply dense_spec).
  rewrite E. split.
  - intros (c' & _ & H1 & H2 & H3). unfold in_block in H3. apply peqb_eq in H3. subst c'. rewrite G in H2. apply Qltb_spec in H1. auto.
  - intros (H1 & H2). exists (fst c / 4, snd c / 4). rewrite in_square, Qltb_spec, G. unfold in_block. rewrite peqb_eq. cbn [fst snd] in *.
    split; [|auto]. split; [split; [apply Z.div_pos|apply Z.div_lt_upper_bound]; lia|split; [apply Z.div_pos|apply Z.div_lt_upper_bound]; lia].
Qed.

(** ** Painting *)
Definition at_pos (w : world (list Z)) (p : Z * Z * Z) : option (list Z) := let '(x, y, z) := p in get_point w (I x) (I y) (I z).
Definition p3eqb (a b : Z * Z * Z) : bool := let '(x, y, z) := a in let '(x', y', z') := b in (x =? x') && (y =? y') && (z =? z').
Lemma p3eqb_eq a b : p3eqb a b = true <-> a = b.
Proof. destruct a as [[x y] z], b as [[x' y'] z']. unfold p3eqb. rewrite !andb_true_iff, !Z.eqb_eq. split; [intros ((-> & ->) & ->); reflexivity|intros [= -> -> ->]; auto]. Qed.
Definition paints (F : world (list Z) -> world (list Z)) (S : Z * Z * Z -> bool) (f : Z * Z * Z -> option (list Z)) : Prop :=
  forall w, w_size (F w) = w_size w /\
    forall p, at_pos (F w) p = if S p then match f p with Some t => Some t | None => at_pos w p end else at_pos w p.
Lemma paints_point p f t : f p = Some t -> paints (fun w => let '(x, y, z) := p in set_point w (I x) (I y) (I z) t) (p3eqb p) f.
Proof.
  destruct p as [[x y] z]. intros E w. split; [reflexivity|]. intros [[x' y'] z']. unfold at_pos, get_point, set_point, with_map, update_boundaries. cbn [w_map].
  rewrite dget_dset by auto using keqb_refl, keqb_sym, keqb_trans. rewrite keqb_spec.
  replace (pos_eqb (kpos (I x, I y, I z)) (kpos (I x', I y', I z'))) with (p3eqb (x, y, z) (x', y', z')).
  - destruct (p3eqb (x, y, z) (x', y', z')) eqn:Q; [|reflexivity]. apply p3eqb_eq in Q. injection Q as <- <- <-. rewrite E. reflexivity.
  - unfold p3eqb, pos_eqb, kpos, halves. lia.
Qed.
Lemma paints_none p f : f p = None -> paints (fun w => w) (p3eqb p) f.
Proof. intros E w. split; [reflexivity|]. intros q. destruct (p3eqb p q) eqn:Q; [|reflexivity]. apply p3eqb_eq in Q. subst q. rewrite E. reflexivity. Qed.
Lemma paints_fold {C} (F : world (list Z) -> C -> world (list Z)) (S : C -> Z * Z * Z -> bool) f l :
  (forall c, In c l -> paints (fun w => F w c) (S c) f) -> paints (fun w => fold_left F l w) (fun p => existsb (fun c => S c p) l) f.
Proof.
  induction l as [|c l IH]; intros P w; [split; reflexivity|]. cbn [fold_left existsb]. destruct (P c (or_introl eq_refl) w) as (Z1 & G1).
  destruct (IH (fun c' Hc => P c' (or_intror Hc)) (F w c)) as (Z2 & G2). split; [congruence|]. intros p. rewrite G2, G1. destruct (S c p); cbn [orb].
  - destruct (f p); destruct (existsb (fun c0 => S c0 p) l); reflexivity.
  - reflexivity.
Qed.
Lemma paints_set F S S' f : (forall p, S p = S' p) -> paints F S f -> paints F S' f.
Proof. intros E P w. destruct (P w) as (Z1 & G). split; [exact Z1|]. intros p. rewrite G, E. reflexivity. Qed.
Lemma paints_seq F G S S' f : paints F S f -> paints G S' f -> paints (fun w => G (F w)) (fun p => S p || S' p) f.
Proof.
  intros PF PG w. destruct (PF w) as (Z1 & G1), (PG (F w)) as (Z2 & G2). split; [congruence|]. intros p. rewrite G2, G1. destruct (S p), (S' p), (f p); reflexivity.
Qed.

(** ** perlin *)
Lemma perlin_world_ok noise g : w_size (perlin_world noise g) = 128 /\ forall i j k,
  at_pos (perlin_world noise g) (i, j, k) =
    if ((0 <=? i) && (i <? 128)) && ((0 <=? j) && (j <? 128)) && ((0 <=? k) && (k <? 50))
    then point noise (fst (tree_density noise g)) (fst (bldg_density noise (snd (tree_density noise g)))) i j k else None.
Proof.
  unfold perlin_world, PERLIN_IJ. rewrite grid_square. destruct (tree_density noise g) as [trees g1]. cbn [fst snd]. destruct (bldg_density noise g1) as [bldgs g2]. cbn [fst snd].
  set (f := fun p : Z * Z * Z => let '(i, j, k) := p in point noise trees bldgs i j k).
  assert (paints (fun w => fold_left (fun v (c : Z * Z) => fold_left (fun v k =>
    match point noise trees bldgs (fst c) (snd c) k with
    | Some t => set_point v (I (fst c)) (I (snd c)) (I k) t
    | None => v end) (zrange 0 PERLIN_K) v) (square 128) w)
    (fun p => existsb (fun c : Z * Z => existsb (fun k => p3eqb (fst c, snd c, k) p) (zrange 0 PERLIN_K)) (square 128)) f) as P.
  { apply paints_fold. intros c Hc. apply paints_fold. intros k Hk. destruct (point noise trees bldgs (fst c) (snd c) k) as [t|] eqn:E.
    - apply (paints_point (fst c, snd c, k) f t E).
    - apply (paints_none (fst c, snd c, k) f E). }
  destruct (P (new_world 128)) as (Z1 & G). split; [exact Z1|]. intros i j k. rewrite G. clear G Z1 P.
  assert (existsb (fun c : Z * Z => existsb (fun k0 => p3eqb (fst c, snd c, k0) (i, j, k)) (zrange 0 PERLIN_K)) (square 128) =
    ((0 <=? i) && (i <? 128)) && ((0 <=? j) && (j <? 128)) && ((0 <=? k) && (k <? 50))) as ->.
  { apply eq_true_iff_eq. rewrite existsb_exists. split.
    - intros (c & Hc & H). apply existsb_exists in H as (k0 & Hk & H). apply p3eqb_eq in H. injection H as <- <- <-. apply in_square in Hc. apply in_zrange in Hk. unfold PERLIN_K in Hk. lia.
    - intros H. exists (i, j). split; [apply in_square; cbn [fst snd]; lia|]. apply existsb_exists. exists k. split; [apply in_zrange; unfold PERLIN_K; lia|]. apply p3eqb_eq. reflexivity. }
  destruct (((0 <=? i) && (i <? 128)) && ((0 <=? j) && (j <? 128)) && ((0 <=? k) && (k <? 50))); [|reflexivity].
  change (f (i, j, k)) with (point noise trees bldgs i j k). change (at_pos (new_world 128) (i, j, k)) with (@None (list Z)).
  destruct (point noise trees bldgs i j k); reflexivity.
Qed.
Lemma ground_eq noise i j : (noise 1%Z 0%Z (scaled i) (scaled j) * inject_Z 5 + inject_Z 30 == ground noise i j)%Q.
Proof. unfold ground, scaled. ring. Qed.
Lemma point_ok noise g i j k : 0 <= i < 128 -> 0 <= j < 128 ->
  let t := point noise (fst (tree_density noise g)) (fst (bldg_density noise (snd (tree_density noise g)))) i j k in
  (planted noise g (i, j) -> t = Some [58; 58; 58; 58; 59; 59]) /\
    (~ planted noise g (i, j) ->
      ((inject_Z k < ground noise i j)%Q -> t = Some [23; 23; 23; 23; 22; 61]) /\
      ((ground noise i j <= inject_Z k)%Q -> (inject_Z k < ground noise i j + inject_Z 4)%Q -> built noise g (i, j) -> t = Some [57; 57; 57; 57; 57; 57]) /\
      ((ground noise i j <= inject_Z k)%Q -> (ground noise i j + inject_Z 4 <= inject_Z k)%Q \/ ~ built noise g (i, j) -> t = None)).
Proof.
  intros Hi Hj. cbv zeta. unfold point. pose proof (trees_ok noise g (i, j) Hi Hj) as T. pose proof (bldgs_ok noise g (i, j) Hi Hj) as B.
  pose proof (ground_eq noise i j) as GE. set (q := (noise 1%Z 0%Z (scaled i) (scaled j) * inject_Z 5 + inject_Z 30)%Q) in *.
  destruct (dmem peqb (fst (tree_density noise g)) (i, j)).
  { split; [reflexivity|]. intros N. exfalso. apply N, T. reflexivity. }
  split; [intros P; apply T in P; discriminate|]. intros _. split; [|split].
  - intros L. assert (Qle_bool q (inject_Z k) = false) as ->.
    { apply not_true_iff_false. rewrite Qle_bool_iff. apply Qlt_not_le. rewrite GE. exact L. }
    rewrite andb_false_r. assert (Qltb (inject_Z k) q = true) as -> by (apply Qltb_spec; rewrite GE; exact L). reflexivity.
  - intros G1 G2 Bu. apply B in Bu. rewrite Bu. assert (Qle_bool q (inject_Z k) = true) as -> by (apply Qle_bool_iff; rewrite GE; exact G1).
    assert (Qltb (inject_Z k) (q + inject_Z 4) = true) as -> by (apply Qltb_spec; rewrite GE; exact G2). reflexivity.
  - intros G1 G2. assert (Qltb (inject_Z k) q = false) as E2 by (apply Qltb_false; rewrite GE; exact G1).
    assert (dmem peqb (fst (bldg_density noise (snd (tree_density noise g)))) (i, j) && Qltb (inject_Z k) (q + inject_Z 4) = false) as E1.
    { destruct G2 as [G2|G2].
      - apply andb_false_intro2. apply Qltb_false. rewrite GE. exact G2.
      - apply andb_false_intro1. apply not_true_iff_false. rewrite B. exact G2. }
    rewrite E1, E2. reflexivity.
Qed.
Lemma ground_range noise i j : bounded noise -> (inject_Z 25 <= ground noise i j <= inject_Z 35)%Q.
Proof.
  intros Bd. unfold ground. destruct (Bd 1 0 (i # 32) (j # 32)) as [L U]. set (n := noise 1 0 (i # 32) (j # 32)) in *. unfold inject_Z.
  split; lra.
Qed.
Lemma point_some noise t b i j k : (inject_Z k < ground noise i j)%Q -> point noise t b i j k <> None.
Proof.
  intros L. unfold point. destruct (dmem peqb t (i, j)); [discriminate|]. destruct (_ && _ && _); [discriminate|].
  assert (Qltb (inject_Z k) (noise 1%Z 0%Z (scaled i) (scaled j) * inject_Z 5 + inject_Z 30) = true) as -> by (apply Qltb_spec; rewrite ground_eq; exact L). discriminate.
Qed.
Lemma box_in i j k : 0 <= i < 128 -> 0 <= j < 128 -> 0 <= k -> ((0 <=? i) && (i <? 128)) && ((0 <=? j) && (j <? 128)) && ((0 <=? k) && (k <? 50)) = (k <? 50).
Proof. intros. lia. Qed.
Lemma perlin_lemma fuel noise m ws g : bounded noise -> (8 <= fuel)%nat -> wf_map m -> header_size m = Some ws -> 128 <= ws <= 8192 ->
  exists bs m', perlin fuel noise m g = Ok bs /\ read_rest bs = Ok (m', []) /\ same_rest m m' /\
    forall i j k, 0 <= i < 128 -> 0 <= j < 128 -> 0 <= k < 128 -> column noise g i j k (world_lookup 7 m' i j k).
Proof.
  intros Bd Hf WM HS Hws. destruct (perlin_world_ok noise g) as (Sz & G). unfold perlin. revert Sz G. generalize (perlin_world noise g). intros v Sz G.
  destruct (output_lemma 6 fuel v m ws) as (bs & m' & EO & ER & SR & WL); try assumption; try lia.
  - intros x y z tex E. pose proof (G x y z) as Gp. unfold at_pos in Gp. rewrite E in Gp.
    destruct (((0 <=? x) && (x <? 128)) && ((0 <=? y) && (y <? 128)) && ((0 <=? z) && (z <? 50))); [|discriminate].
    unfold point in Gp. destruct (dmem peqb (fst (tree_density noise g)) (x, y)); [|destruct (_ && _ && _); [|destruct (Qltb _ _); [|discriminate]]];
    (assert (tex = _) as -> by (symmetry in Gp; injection Gp as Gp; symmetry; exact Gp)); (split; [reflexivity|]); repeat (constructor; [unfold is_u16; lia|]); constructor.
  - assert (forall x, 0 <= x < 2 ^ Z.of_nat 6 -> x < 25 -> get_point v (I x) (I x) (I x) <> None) as A.
    { intros x Hx Hx2. pose proof (G x x x) as Gp. unfold at_pos in Gp. rewrite Gp, box_in by (cbn in Hx; lia). replace (x <? 50) with true by lia. apply point_some.
      apply Qlt_le_trans with (inject_Z 25); [rewrite <- Zlt_Qlt; exact Hx2|apply ground_range; exact Bd]. }
    exists 0, 0, 0. split; [cbn; lia|]. apply A; cbn; lia.
  - exists bs, m'. split; [exact EO|]. split; [exact ER|]. split; [exact SR|]. intros i j k Hi Hj Hk. rewrite WL by (rewrite Sz; assumption).
    pose proof (G i j k) as Gp. unfold at_pos in Gp. rewrite Gp. clear Gp. unfold column. split.
    + intros H. rewrite box_in by (assumption || apply Hk). apply Z.ltb_ge in H. rewrite H. reflexivity.
    + intros H. rewrite box_in by (assumption || apply Hk). apply Z.ltb_lt in H. rewrite H. apply point_ok; assumption.
Qed.

(** ** snow_forest *)
Lemma light_ok noise i j wan ldist seed : light_distribution noise i j wan ldist seed = true <-> grove noise seed (Qmake wan 1000) (Qmake ldist 1000) i j.
Proof.
  unfold light_distribution, grove. rewrite !andb_true_iff, negb_true_iff, Qltb_false, !Qltb_spec.
  replace (2 * 29 * i) with (58 * i) by lia. replace (2 * 11 * j) with (22 * j) by lia. replace (2 * 269 * i) with (538 * i) by lia. replace (2 * 231 * j) with (462 * j) by lia.
  assert (2 # 10 == 1 # 5)%Q as -> by reflexivity. tauto.
Qed.
Lemma grove_eq noise seed a b c i j : (a == c)%Q -> grove noise seed a b i j <-> grove noise seed c b i j.
Proof. intros E. unfold grove. rewrite E. tauto. Qed.
Lemma tree_ok noise i j : point_tree noise i j = true <-> has_tree noise i j.
Proof. unfold point_tree. rewrite light_ok. apply grove_eq. reflexivity. Qed.
Lemma spawn_ok noise i j : point_spawn noise i j = true <-> has_spawn noise i j.
Proof. unfold point_spawn. rewrite light_ok. apply grove_eq. reflexivity. Qed.
Lemma rock_ok noise i j : point_rock noise i j = true <-> has_rock noise i j.
Proof. unfold point_rock. rewrite light_ok. reflexivity. Qed.
Definition feature (noise : noise_fun) (i j : Z) : bool := point_tree noise i j || point_spawn noise i j || point_rock noise i j.
Lemma entities_ok noise : snow_entities noise = if existsb (fun c => feature noise (fst c) (snd c)) (square 256) then Err TypeError else Ok tt.
Proof.
  unfold snow_entities, SNOW_IJ. rewrite grid_square. induction (square 256) as [|[i j] l IH]; [reflexivity|]. cbn [foldM existsb fst snd]. unfold feature at 1.
  destruct (point_tree noise i j); [reflexivity|]. destruct (point_spawn noise i j); [reflexivity|]. destruct (point_rock noise i j); [reflexivity|]. exact IH.
Qed.
Lemma feature_spec noise : existsb (fun c => feature noise (fst c) (snd c)) (square 256) = true <->
  exists i j, (0 <= i < 256) /\ (0 <= j < 256) /\ (has_tree noise i j \/ has_spawn noise i j \/ has_rock noise i j).
Proof.
  rewrite existsb_exists. split.
  - intros ([i j] & Hc & F). apply in_square in Hc as [Hi Hj]. cbn [fst snd] in *. exists i, j. unfold feature in F. rewrite !orb_true_iff, tree_ok, spawn_ok, rock_ok in F. tauto.
  - intros (i & j & Hi & Hj & F). exists (i, j). rewrite in_square. cbn [fst snd]. unfold feature. rewrite !orb_true_iff, tree_ok, spawn_ok, rock_ok. tauto.
Qed.
Lemma snow_fails fuel noise m :
  (exists i j, (0 <= i < 256) /\ (0 <= j < 256) /\ (has_tree noise i j \/ has_spawn noise i j \/ has_rock noise i j)) -> snow_forest fuel noise m = Err TypeError.
Proof. intros F. apply feature_spec in F. unfold snow_forest. cbv zeta. rewrite entities_ok, F. reflexivity. Qed.
Lemma height_eq noise i j : (point_height noise i j == inject_Z 60 + inject_Z 15 * noise 2%Z 0%Z ((3 * i) # 320) ((7 * j) # 320))%Q.
Proof. unfold point_height. ring. Qed.
Lemma height_range noise i j : bounded noise -> (inject_Z 45 <= point_height noise i j <= inject_Z 75)%Q.
Proof.
  intros Bd. rewrite height_eq. destruct (Bd 2 0 ((3 * i) # 320) ((7 * j) # 320)) as [L U]. set (n := noise 2 0 ((3 * i) # 320) ((7 * j) # 320)) in *. unfold inject_Z. split; lra.
Qed.
Lemma int_floor q : (0 <= q)%Q -> (inject_Z (int_of q) <= q < inject_Z (int_of q + 1))%Q.
Proof.
  destruct q as [a b]. unfold int_of, inject_Z, Qle, Qlt. cbn [Qnum Qden]. intros H. assert (0 <= a) as Ha by lia. rewrite Z.quot_div_nonneg by lia.
  pose proof (Z.div_mod a (Zpos b)). pose proof (Z.mod_pos_bound a (Zpos b)). lia.
Qed.
Lemma floor_unique q h h' : (inject_Z h <= q < inject_Z (h + 1))%Q -> (inject_Z h' <= q < inject_Z (h' + 1))%Q -> h = h'.
Proof.
  intros [A B] [C D]. pose proof (Qle_lt_trans _ _ _ A D) as E. pose proof (Qle_lt_trans _ _ _ C B) as F. rewrite <- Zlt_Qlt in E, F. lia.
Qed.
Lemma level_ok noise i j h : bounded noise -> snow_level noise i j h -> int_of (point_height noise i j) = h.
Proof.
  intros Bd L. unfold snow_level in L. cbv zeta in L. rewrite <- height_eq in L. refine (floor_unique _ _ _ (int_floor _ _) L).
  apply Qle_trans with (inject_Z 45); [discriminate|apply height_range; exact Bd].
Qed.
Lemma level_exists noise i j : bounded noise -> exists h, snow_level noise i j h /\ 45 <= h <= 75.
Proof.
  intros Bd. pose proof (height_range noise i j Bd) as [L U]. exists (int_of (point_height noise i j)).
  assert (0 <= point_height noise i j)%Q as P by (apply Qle_trans with (inject_Z 45); [discriminate|exact L]). pose proof (int_floor _ P) as [A B].
  split; [unfold snow_level; cbv zeta; rewrite <- height_eq; auto|]. split.
  - pose proof (Qle_lt_trans _ _ _ L B) as E. rewrite <- Zlt_Qlt in E. lia.
  - pose proof (Qle_trans _ _ _ A U) as E. rewrite <- Zle_Qle in E. exact E.
Qed.
Definition borderb (i j : Z) : bool := (i =? 0) || (j =? 0) || (i =? SNOW_IJ - 1) || (j =? SNOW_IJ - 1).
Lemma border_ok i j : borderb i j = true <-> on_border i j.
Proof. unfold borderb, on_border, SNOW_IJ. lia. Qed.
Lemma snow_world_ok noise : w_size (snow_world noise) = 256 /\ forall i j z,
  at_pos (snow_world noise) (i, j, z) =
    if ((0 <=? i) && (i <? 256)) && ((0 <=? j) && (j <? 256)) &&
       (let h := int_of (point_height noise i j) in ((h - 2 <=? z) && (z <? h)) || (borderb i j && ((h - 2 <=? z) && (z <? h + 9))))
    then Some (repeat (if point_snow noise i j then 13 else 11) 6) else None.
Proof.
  unfold snow_world. change (grid SNOW_IJ) with (grid 256). rewrite grid_square.
  set (f := fun p : Z * Z * Z => let '(i, j, k) := p in Some (repeat (if point_snow noise i j then 13 else 11) 6)).
  set (S := fun (c : Z * Z) (p : Z * Z * Z) => existsb (fun k => p3eqb (fst c, snd c, k) p || (if borderb (fst c) (snd c) then existsb (fun q => p3eqb (fst c, snd c, k + q) p) (zrange 0 10) else false))
    (zrange (int_of (point_height noise (fst c) (snd c)) - 2) (int_of (point_height noise (fst c) (snd c))))).
  match goal with |- context[fold_left ?F (square 256) ?W] => assert (paints (fun w => fold_left F (square 256) w) (fun p => existsb (fun c => S c p) (square 256)) f) as P end.
  { apply paints_fold. intros [i j] _. unfold S. cbn [fst snd]. apply paints_fold. intros k _. fold (borderb i j). cbv zeta.
    pose proof (paints_point (i, j, k) f _ eq_refl) as P1. cbn beta iota in P1. destruct (borderb i j) eqn:EB.
    - refine (paints_seq _ (fun w => fold_left (fun v q => set_point v (I i) (I j) (I (k + q)) (repeat (if point_snow noise i j then 13 else 11) 6)) (zrange 0 10) w) _ _ _ P1 _).
      apply paints_fold. intros q _. apply (paints_point (i, j, k + q) f _ eq_refl).
    - eapply paints_set; [|exact P1]. intros p. rewrite orb_false_r. reflexivity. }
  destruct (P (new_world 256)) as (Z1 & G). split; [exact Z1|]. intros i j z. rewrite G. clear G Z1 P.
  match goal with |- (if ?a then _ else _) = (if ?b then _ else _) => assert (a = b) as -> end.
  - apply eq_true_iff_eq. rewrite existsb_exists. unfold S. split.
    + intros ([a b] & Hc & H). apply in_square in Hc as [Ha Hb]. cbn [fst snd] in *. apply existsb_exists in H as (k & Hk & H). apply in_zrange in Hk. apply orb_true_iff in H as [H|H].
      * apply p3eqb_eq in H. injection H as <- <- <-. cbv zeta. lia.
      * destruct (borderb a b) eqn:EB; [|discriminate]. apply existsb_exists in H as (q & Hq & H). apply in_zrange in Hq. apply p3eqb_eq in H. injection H as <- <- <-. cbv zeta. rewrite EB. lia.
    + cbv zeta. intros H. exists (i, j). split; [apply in_square; cbn [fst snd]; lia|]. cbn [fst snd]. apply existsb_exists. set (h := int_of (point_height noise i j)) in *.
      destruct ((h - 2 <=? z) && (z <? h)) eqn:E1.
      * exists z. split; [apply in_zrange; lia|]. apply orb_true_iff. left. apply p3eqb_eq. reflexivity.
      * destruct (borderb i j) eqn:EB; [|lia]. exists (if z <? h + 8 then h - 2 else h - 1). assert (h <= z < h + 9) as Hz by lia. split; [apply in_zrange; destruct (z <? h + 8); lia|].
        apply orb_true_iff. right. apply existsb_exists. exists (z - (if z <? h + 8 then h - 2 else h - 1)). split; [apply in_zrange; destruct (z <? h + 8) eqn:E8; lia|].
        apply p3eqb_eq. f_equal. lia.
  - change (at_pos (new_world 256) (i, j, z)) with (@None (list Z)). cbn [f]. reflexivity.
Qed.
Lemma snow_lemma fuel noise m ws : bounded noise -> (9 <= fuel)%nat -> wf_map m -> header_size m = Some ws -> 256 <= ws <= 8192 ->
  (forall i j, 0 <= i < 256 -> 0 <= j < 256 -> ~ has_tree noise i j /\ ~ has_spawn noise i j /\ ~ has_rock noise i j) ->
  exists bs m', snow_forest fuel noise m = Ok bs /\ read_rest bs = Ok (m', []) /\ same_rest m m' /\
    forall i j z h, 0 <= i < 256 -> 0 <= j < 256 -> 0 <= z < 256 -> snow_level noise i j h ->
      (snow_block i j h z -> (snowy noise i j -> world_lookup 8 m' i j z = Some (repeat 13 6)) /\ (~ snowy noise i j -> world_lookup 8 m' i j z = Some (repeat 11 6))) /\
      (~ snow_block i j h z -> world_lookup 8 m' i j z = None).
Proof.
  intros Bd Hf WM HS Hws NF. destruct (snow_world_ok noise) as (Sz & G). unfold snow_forest. cbv zeta. rewrite entities_ok.
  destruct (existsb (fun c => feature noise (fst c) (snd c)) (square 256)) eqn:EF.
  { apply feature_spec in EF as (i & j & Hi & Hj & F). destruct (NF i j Hi Hj) as (N1 & N2 & N3). tauto. }
  cbn [bind]. clear EF. revert Sz G. generalize (snow_world noise). intros v Sz G.
  destruct (output_lemma 7 fuel v m ws) as (bs & m' & EO & ER & SR & WL); try assumption; try lia.
  - intros x y z tex E. pose proof (G x y z) as Gp. unfold at_pos in Gp. rewrite E in Gp. destruct (_ && _) in Gp; [|discriminate].
    assert (tex = repeat (if point_snow noise x y then 13 else 11) 6) as -> by congruence. split; [apply repeat_length|].
    rewrite Forall_forall. intros u Hu. apply repeat_spec in Hu. subst u. unfold is_u16. destruct (point_snow noise x y); lia.
  - destruct (level_exists noise 0 0 Bd) as (h & L & Hh). exists 0, 0, (h - 2). split; [cbn; lia|]. pose proof (G 0 0 (h - 2)) as Gp. unfold at_pos in Gp. rewrite Gp.
    cbv zeta. rewrite (level_ok _ _ _ _ Bd L). replace (_ && _) with true by lia. discriminate.
  - exists bs, m'. split; [exact EO|]. split; [exact ER|]. split; [exact SR|]. intros i j z h Hi Hj Hz L. rewrite WL by (rewrite Sz; assumption).
    pose proof (G i j z) as Gp. unfold at_pos in Gp. rewrite Gp. cbv zeta. rewrite (level_ok _ _ _ _ Bd L). clear - Hi Hj Hz.
    pose proof (border_ok i j) as BO. unfold snow_block. rewrite <- BO. clear BO. unfold snowy. rewrite <- Qltb_spec. fold (point_snow noise i j).
    replace ((0 <=? i) && (i <? 256) && ((0 <=? j) && (j <? 256))) with true by lia. cbn [andb]. split.
    + intros H. replace ((h - 2 <=? z) && (z <? h) || borderb i j && ((h - 2 <=? z) && (z <? h + 9))) with true by (destruct (borderb i j); lia).
      destruct (point_snow noise i j); split; intros; congruence.
    + intros H. replace ((h - 2 <=? z) && (z <? h) || borderb i j && ((h - 2 <=? z) && (z <? h + 9))) with false by (destruct (borderb i j); lia). reflexivity.
Qed.

Lemma planted_dec noise g i j : 0 <= i < 128 -> 0 <= j < 128 -> planted noise g (i, j) \/ ~ planted noise g (i, j).
Proof.
  intros Hi Hj. pose proof (trees_ok noise g (i, j) Hi Hj) as T. destruct (dmem peqb (fst (tree_density noise g)) (i, j)); [left; apply T; reflexivity|right; rewrite <- T; discriminate].
Qed.
Lemma built_dec noise g i j : 0 <= i < 128 -> 0 <= j < 128 -> built noise g (i, j) \/ ~ built noise g (i, j).
Proof.
  intros Hi Hj. pose proof (bldgs_ok noise g (i, j) Hi Hj) as T.
  destruct (dmem peqb (fst (bldg_density noise (snd (tree_density noise g)))) (i, j)); [left; apply T; reflexivity|right; rewrite <- T; discriminate].
Qed.
Lemma supported noise g i j k t t' : 0 <= i < 128 -> 0 <= j < 128 -> column noise g i j k t -> column noise g i j (k - 1) t' -> t <> None -> t' <> None.
Proof.
  intros Hi Hj [C1 C2] [_ D2] N. destruct (Z_lt_le_dec k 50) as [K|K]; [|exfalso; auto]. destruct (C2 K) as (_ & C3), (D2 ltac:(lia)) as (D1 & D3).
  destruct (planted_dec noise g i j Hi Hj) as [P|P]; [rewrite (D1 P); discriminate|]. destruct (C3 P) as (_ & _ & CN), (D3 P) as (DG & DB & _).
  destruct (Qlt_le_dec (inject_Z (k - 1)) (ground noise i j)) as [L|L]; [rewrite (DG L); discriminate|].
  assert (inject_Z (k - 1) <= inject_Z k)%Q as LE by (rewrite <- Zle_Qle; lia).
  assert (ground noise i j <= inject_Z k)%Q as L' by (eapply Qle_trans; eassumption).
  destruct (built_dec noise g i j Hi Hj) as [B|B]; [|exfalso; auto].
  destruct (Qlt_le_dec (inject_Z k) (ground noise i j + inject_Z 4)) as [U|U]; [|exfalso; auto].
  rewrite (DB L (Qle_lt_trans _ _ _ LE U) B). discriminate.
Qed.
Lemma perlin_floats fuel noise m ws g bs m' : bounded noise -> (8 <= fuel)%nat -> wf_map m -> header_size m = Some ws -> 128 <= ws <= 8192 ->
  perlin fuel noise m g = Ok bs -> read_rest bs = Ok (m', []) ->
  forall i j k, 0 <= i < 128 -> 0 <= j < 128 -> 0 < k < 128 -> world_lookup 7 m' i j k <> None -> world_lookup 7 m' i j (k - 1) <> None.
Proof.
  intros Bd Hf WM HS Hws E R i j k Hi Hj Hk. destruct (perlin_lemma fuel noise m ws g Bd Hf WM HS Hws) as (bs2 & m2 & E2 & R2 & _ & C).
  assert (bs2 = bs) as -> by congruence. assert (m2 = m') as -> by congruence.
  apply (supported noise g i j k); auto; apply C; lia.
Qed.
