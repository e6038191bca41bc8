(** Proofs about the vector classes of redeclipse/vector/re.py. *)
From Coq Require Import QArith.
From Verif Require Import Py ReModel ReSpec.
Local Open Scope Z_scope.

Lemma trunc_proper p q : (p == q)%Q -> trunc p = trunc q.
Proof.
  unfold Qeq, trunc. destruct p as [a b], q as [c d]. cbn [Qnum Qden]. intros E.
  rewrite <- (Z.quot_mul_cancel_r a (Z.pos b) (Z.pos d)), <- (Z.quot_mul_cancel_r c (Z.pos d) (Z.pos b)) by discriminate. rewrite E. f_equal. lia.
Qed.
Lemma trunc_Z z : trunc (inject_Z z) = z.
Proof. unfold trunc. cbn. apply Z.quot_1_r. Qed.
Lemma trunc_is q z : (q == inject_Z z)%Q -> trunc q = z.
Proof. intros E. rewrite (trunc_proper _ _ E). apply trunc_Z. Qed.
Lemma whole_is v : whole v -> (t_x v == inject_Z (X v) /\ t_y v == inject_Z (Y v) /\ t_z v == inject_Z (Z_ v))%Q.
Proof. intros (x & y & z & Ex & Ey & Ez). unfold X, Y, Z_. rewrite (trunc_is _ _ Ex), (trunc_is _ _ Ey), (trunc_is _ _ Ez). auto. Qed.
Lemma whole_int x y z : whole (ivec3 (inject_Z x) (inject_Z y) (inject_Z z)).
Proof. exists x, y, z. cbn. repeat split; reflexivity. Qed.
Lemma int_dict x y z : to_dict (ivec3 (inject_Z x) (inject_Z y) (inject_Z z)) = [x; y; z].
Proof. unfold to_dict, X, Y, Z_, ivec3. cbn [t_x t_y t_z]. rewrite !trunc_Z. reflexivity. Qed.
Lemma list3 {A} (a b c a' b' c' : A) : [a; b; c] = [a'; b'; c'] -> a = a' /\ b = b' /\ c = c'.
Proof. intros E. injection E as -> -> ->. auto. Qed.

Lemma list3_eq {A} (a b c a' b' c' : A) : a = a' -> b = b' -> c = c' -> [a; b; c] = [a'; b'; c'].
Proof. congruence. Qed.

(** ** Sums *)
Lemma order_matters : exists a b, to_dict (add a b) <> to_dict (add b a) /\ ~ (dot a b == dot b a)%Q.
Proof. exists (ivec3 (-1 # 2) 0 0), (ivec3 1 0 0). split; [vm_compute; discriminate|]. vm_compute. discriminate. Qed.
Lemma add_is a b : whole b -> to_dict (add a b) = zip Z.add (to_dict a) (to_dict b) /\ whole (add a b).
Proof.
  intros W. apply whole_is in W as (Ex & Ey & Ez).
  assert (t_x (add a b) == inject_Z (X a + X b) /\ t_y (add a b) == inject_Z (Y a + Y b) /\ t_z (add a b) == inject_Z (Z_ a + Z_ b))%Q as (E1 & E2 & E3).
  { cbn [add ivec3 t_x t_y t_z]. rewrite Ex, Ey, Ez, !inject_Z_plus. repeat split; reflexivity. }
  split; [|exists (X a + X b), (Y a + Y b), (Z_ a + Z_ b); auto].
  unfold to_dict at 1. unfold X at 1, Y at 1, Z_ at 1. rewrite (trunc_is _ _ E1), (trunc_is _ _ E2), (trunc_is _ _ E3). reflexivity.
Qed.
Lemma sub_is a b : to_dict (sub a b) = zip Z.sub (to_dict a) (to_dict b) /\ whole (sub a b).
Proof. split; [|apply whole_int]. unfold to_dict at 1, X at 1, Y at 1, Z_ at 1, sub. cbn [ivec3 t_x t_y t_z]. rewrite !trunc_Z. reflexivity. Qed.
Lemma dot_is a b : whole b -> (dot a b == inject_Z (X a * X b + Y a * Y b + Z_ a * Z_ b))%Q.
Proof. intros W. apply whole_is in W as (Ex & Ey & Ez). unfold dot. rewrite Ex, Ey, Ez, !inject_Z_plus, !inject_Z_mult. reflexivity. Qed.
Lemma whole_arith : forall a b c, whole a -> whole b -> whole c ->
  to_dict (add a b) = to_dict (add b a) /\ to_dict (add (add a b) c) = to_dict (add a (add b c)) /\
  to_dict (sub (add a b) b) = to_dict a /\ (dot a b == dot b a)%Q /\ (dot (add a b) c == dot a c + dot b c)%Q /\
  (iszero (sub a b) = true <-> to_dict a = to_dict b).
Proof.
  intros a b c Wa Wb Wc. destruct (add_is a b Wb) as [Eab Wab]. destruct (add_is b a Wa) as [Eba _]. destruct (add_is b c Wc) as [Ebc Wbc].
  rewrite Eab, Eba, (proj1 (add_is (add a b) c Wc)), (proj1 (add_is a (add b c) Wbc)), (proj1 (sub_is (add a b) b)), Eab, Ebc. cbn [to_dict zip].
  split; [apply list3_eq; lia|]. split; [apply list3_eq; lia|]. split; [apply list3_eq; lia|].
  split; [rewrite (dot_is a b Wb), (dot_is b a Wa); apply inject_Z_injective; lia|]. split.
  - rewrite !(dot_is _ c Wc), <- inject_Z_plus. apply inject_Z_injective. unfold to_dict in Eab. cbn [zip] in Eab. apply list3 in Eab as (-> & -> & ->). lia.
  - destruct (sub_is a b) as [Es _]. unfold to_dict in Es. cbn [zip] in Es. apply list3 in Es as (E1 & E2 & E3). unfold iszero.
    rewrite !Bool.andb_true_iff, !Z.eqb_eq, E1, E2, E3. split; [intros ((H1 & H2) & H3); unfold to_dict; apply list3_eq; lia|].
    intros E. apply list3 in E. lia.
Qed.
Lemma sub_cuts : forall a b, to_dict (sub a b) = zip Z.sub (to_dict a) (to_dict b).
Proof. intros a b. exact (proj1 (sub_is a b)). Qed.

(** ** The cross product *)
Lemma cross_is a b : whole a -> whole b ->
  to_dict (cross a b) = [Y a * Z_ b - Z_ a * Y b; Z_ a * X b - X a * Z_ b; X a * Y b - Y a * X b] /\ whole (cross a b).
Proof.
  intros Wa Wb. apply whole_is in Wa as (Ax & Ay & Az). apply whole_is in Wb as (Bx & By & Bz).
  assert (t_x (cross a b) == inject_Z (Y a * Z_ b - Z_ a * Y b) /\ t_y (cross a b) == inject_Z (Z_ a * X b - X a * Z_ b) /\ t_z (cross a b) == inject_Z (X a * Y b - Y a * X b))%Q as (E1 & E2 & E3).
  { cbn [cross t_x t_y t_z]. unfold Qminus, Z.sub. rewrite Ax, Ay, Az, Bx, By, Bz, !inject_Z_plus, !inject_Z_opp, !inject_Z_mult. repeat split; reflexivity. }
  split; [|eexists _, _, _; split; [exact E1|split; [exact E2|exact E3]]].
  unfold to_dict, X at 1, Y at 1, Z_ at 1. rewrite (trunc_is _ _ E1), (trunc_is _ _ E2), (trunc_is _ _ E3). reflexivity.
Qed.
Lemma nonzero3 x y z : (x = 0 /\ y = 0 /\ z = 0) \/ x <> 0 \/ y <> 0 \/ z <> 0.
Proof. lia. Qed.
Lemma cross_laws : forall a b, whole a -> whole b ->
  (dot (cross a b) a == 0)%Q /\ (dot (cross a b) b == 0)%Q /\ to_dict (cross b a) = map Z.opp (to_dict (cross a b)) /\
  (dot (cross a b) (cross a b) + dot a b * dot a b == dot a a * dot b b)%Q /\
  (iszero (cross a b) = true <-> collinear (to_dict a) (to_dict b)).
Proof.
  intros a b Wa Wb. destruct (cross_is a b Wa Wb) as [Ec Wc]. destruct (cross_is b a Wb Wa) as [Ed _]. rewrite Ed. unfold to_dict in Ec. apply list3 in Ec as (E1 & E2 & E3).
  split; [rewrite (dot_is _ a Wa), E1, E2, E3; apply inject_Z_injective; lia|].
  split; [rewrite (dot_is _ b Wb), E1, E2, E3; apply inject_Z_injective; lia|].
  split; [unfold to_dict; cbn [map]; rewrite E1, E2, E3; apply list3_eq; lia|].
  split; [rewrite (dot_is _ _ Wc), (dot_is a b Wb), (dot_is a a Wa), (dot_is b b Wb), <- !inject_Z_mult, <- inject_Z_plus, E1, E2, E3; apply inject_Z_injective; lia|].
  unfold iszero, collinear, to_dict. cbn [map]. rewrite !Bool.andb_true_iff, !Z.eqb_eq, E1, E2, E3.
  generalize (X a) (Y a) (Z_ a) (X b) (Y b) (Z_ b). clear. intros a1 a2 a3 b1 b2 b3. split.
  - intros ((H1 & H2) & H3). destruct (nonzero3 a1 a2 a3) as [(-> & -> & ->)|[N|[N|N]]].
    + exists 1, 0. split; [lia|]. apply list3_eq; lia.
    + exists b1, a1. split; [right; exact N|]. apply list3_eq; lia.
    + exists b2, a2. split; [right; exact N|]. apply list3_eq; lia.
    + exists b3, a3. split; [right; exact N|]. apply list3_eq; lia.
  - intros (k & m & N & E). apply list3 in E as (F1 & F2 & F3). destruct N as [N|N].
    + assert (forall p q r t, k * p = m * r -> k * q = m * t -> p * t - q * r = 0) as Q.
      { intros p q r t E1 E2. assert (k * (p * t - q * r) = 0) as Z0.
        { replace (k * (p * t - q * r)) with (k * p * t - k * q * r) by ring. rewrite E1, E2. ring. }
        apply Z.mul_eq_0 in Z0. lia. }
      split; [split|]; apply Q; assumption.
    + assert (forall p q r t, k * p = m * r -> k * q = m * t -> p * t - q * r = 0) as Q.
      { intros p q r t E1 E2. assert (m * (p * t - q * r) = 0) as Z0.
        { replace (m * (p * t - q * r)) with (p * (m * t) - q * (m * r)) by ring. rewrite <- E1, <- E2. ring. }
        apply Z.mul_eq_0 in Z0. lia. }
      split; [split|]; apply Q; assumption.
Qed.
Lemma cross_kind : forall a b, t_kind (cross a b) = t_kind a. Proof. reflexivity. Qed.

(** ** Octants *)
Lemma bit_of i n : 0 <= n -> Z.shiftr (Z.land i (2 ^ n)) n = Z.b2z (Z.testbit i n).
Proof.
  intros Hn. apply Z.bits_inj'. intros j Hj. rewrite Z.shiftr_spec by lia. rewrite Z.land_spec, Z.pow2_bits_eqb by lia.
  destruct (Z.eqb_spec n (j + n)) as [E|E].
  - assert (j = 0) as -> by lia. rewrite Z.add_0_l, Bool.andb_true_r. symmetry. apply Z.b2z_bit0.
  - rewrite Bool.andb_false_r. symmetry. destruct (Z.testbit i n); cbn [Z.b2z]; [|apply Z.bits_0]. rewrite (Z.bits_above_log2 1 j); cbn; lia || reflexivity.
Qed.
Definition digit (i n : Z) : Z := Z.b2z (Z.testbit i n).
Lemma digit_01 i n : digit i n = 0 \/ digit i n = 1.
Proof. unfold digit. destruct (Z.testbit i n); cbn; lia. Qed.
Lemma corner i x y z s : to_dict (ivec5 i x y z s) = [x + digit i 0 * s; y + digit i 1 * s; z + digit i 2 * s].
Proof.
  unfold to_dict, X, Y, Z_, ivec5. cbn [ivec3 t_x t_y t_z]. rewrite !trunc_Z. change 2 with (2 ^ 1) at 1. change 4 with (2 ^ 2). change (Z.land i 1) with (Z.land i (2 ^ 0)).
  rewrite !bit_of by lia. reflexivity.
Qed.
Lemma eight i : 0 <= i < 8 -> i = digit i 0 + 2 * digit i 1 + 4 * digit i 2.
Proof. intros H. assert (i = 0 \/ i = 1 \/ i = 2 \/ i = 3 \/ i = 4 \/ i = 5 \/ i = 6 \/ i = 7) as C by lia. repeat (destruct C as [->|C]; [reflexivity|]). subst i. reflexivity. Qed.
Lemma digits a b c : (a = 0 \/ a = 1) -> (b = 0 \/ b = 1) -> (c = 0 \/ c = 1) -> let i := a + 2 * b + 4 * c in 0 <= i < 8 /\ digit i 0 = a /\ digit i 1 = b /\ digit i 2 = c.
Proof. intros [->| ->] [->| ->] [->| ->]; cbn; lia. Qed.
Lemma half x s p : 0 < s -> x <= p < x + 2 * s -> exists a, (a = 0 \/ a = 1) /\ x + a * s <= p < x + a * s + s.
Proof. intros Hs H. destruct (Z.lt_ge_cases p (x + s)); [exists 0|exists 1]; lia. Qed.
Lemma half_one x s p a b : 0 < s -> (a = 0 \/ a = 1) -> (b = 0 \/ b = 1) -> x + a * s <= p < x + a * s + s -> x + b * s <= p < x + b * s + s -> a = b.
Proof. intros Hs [->| ->] [->| ->]; lia. Qed.
Lemma octants_tile : forall x y z s p, 0 < s ->
  (in_cube [x; y; z] (2 * s) p <-> exists i, 0 <= i < 8 /\ in_cube (to_dict (ivec5 i x y z s)) s p) /\
  forall i j, 0 <= i < 8 -> 0 <= j < 8 -> in_cube (to_dict (ivec5 i x y z s)) s p -> in_cube (to_dict (ivec5 j x y z s)) s p -> i = j.
Proof.
  intros x y z s [[u v] w] Hs. split; [split|].
  - intros (a & b & c & E & Hu & Hv & Hw). apply list3 in E as (<- & <- & <-).
    destruct (half x s u Hs Hu) as (d0 & D0 & B0). destruct (half y s v Hs Hv) as (d1 & D1 & B1). destruct (half z s w Hs Hw) as (d2 & D2 & B2).
    destruct (digits d0 d1 d2 D0 D1 D2) as (H & E0 & E1 & E2). exists (d0 + 2 * d1 + 4 * d2). split; [exact H|]. rewrite corner, E0, E1, E2. eexists _, _, _. split; [reflexivity|]. auto.
  - intros (i & Hi & H). rewrite corner in H. destruct H as (a & b & c & E & Hu & Hv & Hw). apply list3 in E as (<- & <- & <-). exists x, y, z. split; [reflexivity|].
    destruct (digit_01 i 0) as [E0|E0], (digit_01 i 1) as [E1|E1], (digit_01 i 2) as [E2|E2]; rewrite E0 in Hu; rewrite E1 in Hv; rewrite E2 in Hw; lia.
  - intros i j Hi Hj Pi Pj. rewrite corner in Pi, Pj. destruct Pi as (a & b & c & E & Hu & Hv & Hw). apply list3 in E as (<- & <- & <-).
    destruct Pj as (a & b & c & E & Hu' & Hv' & Hw'). apply list3 in E as (<- & <- & <-).
    rewrite (eight i Hi), (eight j Hj). rewrite (half_one x s u _ _ Hs (digit_01 i 0) (digit_01 j 0) Hu Hu'), (half_one y s v _ _ Hs (digit_01 i 1) (digit_01 j 1) Hv Hv'), (half_one z s w _ _ Hs (digit_01 i 2) (digit_01 j 2) Hw Hw'). reflexivity.
Qed.
Lemma land_ones x k : 0 <= k -> Z.land x (2 ^ k - 1) = x mod 2 ^ k.
Proof. intros Hk. rewrite <- Z.land_ones by exact Hk. rewrite Z.ones_equiv. reflexivity. Qed.
Lemma mask_is v k : 0 <= k -> to_dict (mask v (2 ^ k - 1)) = map (fun x => x mod 2 ^ k) (to_dict v).
Proof. intros Hk. unfold to_dict at 1, X at 1, Y at 1, Z_ at 1, mask. cbn [ivec3 t_x t_y t_z]. rewrite !trunc_Z, !land_ones by exact Hk. reflexivity. Qed.
Lemma octant_path : forall v k, 0 <= k -> in_cube [0; 0; 0] (2 ^ (k + 1)) (X v, Y v, Z_ v) ->
  exists i, 0 <= i < 8 /\ in_cube (to_dict (ivec5 i 0 0 0 (2 ^ k))) (2 ^ k) (X v, Y v, Z_ v) /\
    to_dict (add (ivec5 i 0 0 0 (2 ^ k)) (mask v (2 ^ k - 1))) = to_dict v.
Proof.
  intros v k Hk H. rewrite Z.pow_add_r, Z.pow_1_r, Z.mul_comm in H by lia. assert (0 < 2 ^ k) as Hs by (apply Z.pow_pos_nonneg; lia).
  apply (octants_tile 0 0 0 (2 ^ k) (X v, Y v, Z_ v) Hs) in H as (i & Hi & H). exists i. split; [exact Hi|]. split; [exact H|].
  rewrite (proj1 (add_is _ (mask v (2 ^ k - 1)) (whole_int _ _ _))), (mask_is v k Hk), corner. cbn [to_dict map zip].
  rewrite corner in H. destruct H as (a & b & c & E & Hu & Hv & Hw). apply list3 in E as (<- & <- & <-).
  assert (forall p d, 0 + d * 2 ^ k <= p < 0 + d * 2 ^ k + 2 ^ k -> 0 + d * 2 ^ k + p mod 2 ^ k = p) as Q.
  { intros p d Hp. rewrite (Z.mod_eq p (2 ^ k)) by lia. assert (p / 2 ^ k = d) as -> by (symmetry; apply (Z.div_unique p (2 ^ k) d (p - d * 2 ^ k)); lia). lia. }
  rewrite !Q by assumption. reflexivity.
Qed.
Lemma shift_mask : forall v k, 0 <= k -> exists w q, whole q /\ to_dict q = map (fun x => x / 2 ^ k) (to_dict v) /\ shl q k = Ok w /\ to_dict (add w (mask v (2 ^ k - 1))) = to_dict v.
Proof.
  intros v k Hk. exists (ivec3 (inject_Z (Z.shiftl (X v / 2 ^ k) k)) (inject_Z (Z.shiftl (Y v / 2 ^ k) k)) (inject_Z (Z.shiftl (Z_ v / 2 ^ k) k))), (ivec3 (inject_Z (X v / 2 ^ k)) (inject_Z (Y v / 2 ^ k)) (inject_Z (Z_ v / 2 ^ k))).
  split; [apply whole_int|]. split; [rewrite int_dict; reflexivity|]. split.
  - unfold shl. rewrite (proj2 (Z.ltb_ge k 0)) by lia. generalize (X v / 2 ^ k) (Y v / 2 ^ k) (Z_ v / 2 ^ k). intros x y z. unfold X, Y, Z_. cbn [ivec3 t_x t_y t_z]. rewrite !trunc_Z. reflexivity.
  - rewrite (proj1 (add_is _ (mask v (2 ^ k - 1)) (whole_int _ _ _))), (mask_is v k Hk). assert (2 ^ k <> 0) by (pose proof (Z.pow_pos_nonneg 2 k); lia).
    rewrite int_dict, !Z.shiftl_mul_pow2 by lia. cbn [to_dict map zip].
    assert (forall p, p / 2 ^ k * 2 ^ k + p mod 2 ^ k = p) as Q by (intros p; rewrite (Z.mod_eq p) by assumption; lia). rewrite !Q. reflexivity.
Qed.

(** ** Cutting *)
Lemma trunc_cut q : cut q (trunc q).
Proof.
  destruct q as [n d]. unfold cut, trunc, Qle, Qlt. cbn [Qnum Qden inject_Z]. split; intros H; rewrite ?Z.mul_1_r, ?Z.mul_1_l in *.
  - pose proof (Z.quot_rem' n (Zpos d)). pose proof (Z.rem_bound_pos n (Zpos d)). nia.
  - pose proof (Z.quot_rem' n (Zpos d)). pose proof (Z.rem_bound_pos (- n) (Zpos d)). rewrite Z.rem_opp_l in * by lia. nia.
Qed.
Lemma dict_cut v : Forall2 cut (to_floats v) (to_dict v).
Proof. unfold to_floats, to_dict, X, Y, Z_. do 3 (apply Forall2_cons; [apply trunc_cut|]). constructor. Qed.
