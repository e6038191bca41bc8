(** Floating point justification of [rotq] (vector/__init__.py:132-136).

    The code computes  round((2*x*cos t) - (2*y*sin t)) / 2  and
    round((2*x*sin t) + (2*y*cos t)) / 2  in binary64.  Here the computed cosine
    and sine are arbitrary rationals [c], [s] close to the true values, and every
    multiplication, subtraction and addition is followed by an arbitrary
    rounding function [fl] of bounded relative error.  Doubling is exact. *)
From Verif Require Import Py VecModel VecSpec VecProofs.
From Coq Require Import QArith Qabs Qround Lqa.
Ltac Zify.zify_post_hook ::= Z.div_mod_to_equations.

(** Python's [round(q)] on a float: nearest integer, ties to even. *)
Definition py_round (q : Q) : Z :=
  let f := Qfloor q in
  match Qcompare (q - inject_Z f) (1 # 2) with
  | Lt => f
  | Gt => (f + 1)%Z
  | Eq => if Z.even f then f else (f + 1)%Z
  end.

(** vector/__init__.py:133 — twice the new x, for X = 2x and Y = 2y. *)
Definition rot_x_float (fl : Q -> Q) (c s : Q) (X Y : Z) : Z :=
  py_round (fl (fl (inject_Z X * c) - fl (inject_Z Y * s))).
(** vector/__init__.py:134 — twice the new y. *)
Definition rot_y_float (fl : Q -> Q) (c s : Q) (X Y : Z) : Z :=
  py_round (fl (fl (inject_Z X * s) + fl (inject_Z Y * c))).

(** 2^-50 *)
Definition eps : Q := 1 # 1125899906842624.
(** 2^40 *)
Definition bnd : Q := 1099511627776 # 1.

Lemma py_round_near q z : Qabs (q - inject_Z z) < 1 # 2 -> py_round q = z.
Proof.
  intros Hq. apply Qabs_Qlt_condition in Hq. destruct Hq as [Hl Hu].
  unfold py_round. set (f := Qfloor q).
  pose proof (Qfloor_le q) as F1. pose proof (Qlt_floor q) as F2. fold f in F1, F2.
  rewrite inject_Z_plus in F2. change (inject_Z 1) with 1%Q in F2.
  assert (Hz : (f = z \/ f + 1 = z)%Z).
  { assert (A : inject_Z f < inject_Z (z + 1)) by (rewrite inject_Z_plus; change (inject_Z 1) with 1; lra).
    assert (B : inject_Z (z - 1) < inject_Z (f + 1)).
    { unfold Z.sub. rewrite !inject_Z_plus. change (inject_Z 1) with 1. change (inject_Z (-(1))) with (-(1)). lra. }
    rewrite <- Zlt_Qlt in A, B. lia. }
  destruct Hz as [Hz|Hz].
  - rewrite Hz in *. destruct (q - inject_Z z ?= 1 # 2) eqn:E.
    + apply Qeq_alt in E. lra.
    + reflexivity.
    + apply Qgt_alt in E. lra.
  - assert (E' : inject_Z z == inject_Z f + 1) by (rewrite <- Hz, inject_Z_plus; reflexivity).
    destruct (q - inject_Z f ?= 1 # 2) eqn:E.
    + apply Qeq_alt in E. lra.
    + apply Qlt_alt in E. lra.
    + exact Hz.
Qed.

Lemma prod_bound a b A B : Qabs a <= A -> Qabs b <= B -> Qabs (a * b) <= A * B.
Proof.
  intros Ha Hb. rewrite Qabs_Qmult.
  apply Qmult_le_compat_nonneg; split; try assumption; apply Qabs_nonneg.
Qed.

(** One rounded product: X*c is within 2^-8 of X*c0. *)
Lemma prod_step fl X c c0 :
  (forall q, Qabs (fl q - q) <= eps * Qabs q) ->
  Qabs (inject_Z X) <= bnd -> Qabs c0 <= 1 -> Qabs (c - c0) <= eps ->
  Qabs (fl (inject_Z X * c) - inject_Z X * c0) <= 1 # 256.
Proof.
  intros Hfl HX Hc0 Hc.
  assert (P : Qabs (inject_Z X * (c - c0)) <= bnd * eps) by (apply prod_bound; assumption).
  assert (C1 : Qabs c <= 2).
  { apply Qabs_Qle_condition in Hc0, Hc. apply Qabs_Qle_condition. unfold eps in *. lra. }
  assert (P2 : Qabs (inject_Z X * c) <= bnd * 2) by (apply prod_bound; assumption).
  pose proof (Hfl (inject_Z X * c)) as F.
  assert (F2 : Qabs (fl (inject_Z X * c) - inject_Z X * c) <= eps * (bnd * 2)).
  { eapply Qle_trans; [exact F|]. apply Qmult_le_compat_nonneg; split; try (apply Qabs_nonneg); try assumption;
      unfold eps; lra. }
  apply Qabs_Qle_condition in P, F2. apply Qabs_Qle_condition.
  set (m := inject_Z X * c) in *. set (m0 := inject_Z X * c0).
  assert (E : inject_Z X * (c - c0) == m - m0) by (unfold m, m0; ring).
  rewrite E in P. unfold bnd, eps in *. lra.
Qed.

Lemma sum_step fl a b a0 b0 z :
  (forall q, Qabs (fl q - q) <= eps * Qabs q) ->
  Qabs (a - a0) <= 1 # 256 -> Qabs (b - b0) <= 1 # 256 ->
  Qabs a0 <= bnd -> Qabs b0 <= bnd -> a0 + b0 == inject_Z z ->
  py_round (fl (a + b)) = z.
Proof.
  intros Hfl Ha Hb Ba Bb Ez. apply py_round_near.
  assert (S : Qabs (a + b) <= 4 * bnd).
  { apply Qabs_Qle_condition in Ha, Hb, Ba, Bb. apply Qabs_Qle_condition. unfold bnd in *. lra. }
  pose proof (Hfl (a + b)) as F.
  assert (F2 : Qabs (fl (a + b) - (a + b)) <= eps * (4 * bnd)).
  { eapply Qle_trans; [exact F|]. apply Qmult_le_compat_nonneg; split; try (apply Qabs_nonneg); try assumption;
      unfold eps; lra. }
  apply Qabs_Qle_condition in F2, Ha, Hb. apply Qabs_Qlt_condition. unfold eps, bnd in *. lra.
Qed.

Lemma fl_compat_sub (fl : Q -> Q) a b : fl (a - b) = fl (a + - b).
Proof. reflexivity. Qed.

Lemma csq_range k : Qabs (inject_Z (cosq k)) <= 1 /\ Qabs (inject_Z (sinq k)) <= 1.
Proof.
  unfold cosq, sinq. destruct (mod4_cases k) as [E|[E|[E|E]]]; rewrite E; split; vm_compute; congruence.
Qed.

Lemma bnd_prod X c0 : Qabs (inject_Z X) <= bnd -> Qabs c0 <= 1 -> Qabs (inject_Z X * c0) <= bnd.
Proof. intros A B. pose proof (prod_bound _ _ _ _ A B) as P. setoid_replace bnd with (bnd * 1) by ring. exact P. Qed.

Lemma abs_bnd X : (Z.abs X <= 2 ^ 40)%Z -> Qabs (inject_Z X) <= bnd.
Proof.
  intros Hx. apply Qabs_Qle_condition. unfold bnd. split; unfold Qle; cbn [Qnum Qden inject_Z Qopp]; lia.
Qed.

Lemma rot_float_exact fl c s X Y k :
  (forall q, Qabs (fl q - q) <= eps * Qabs q) ->
  Qabs (c - inject_Z (cosq k)) <= eps -> Qabs (s - inject_Z (sinq k)) <= eps ->
  (Z.abs X <= 2 ^ 40)%Z -> (Z.abs Y <= 2 ^ 40)%Z ->
  rot_x_float fl c s X Y = (cosq k * X - sinq k * Y)%Z /\
  rot_y_float fl c s X Y = (sinq k * X + cosq k * Y)%Z.
Proof.
  intros Hfl Hc Hs HX HY. apply abs_bnd in HX, HY.
  destruct (csq_range k) as [Rc Rs].
  pose proof (prod_step fl X c _ Hfl HX Rc Hc) as XC.
  pose proof (prod_step fl Y s _ Hfl HY Rs Hs) as YS.
  pose proof (prod_step fl X s _ Hfl HX Rs Hs) as XS.
  pose proof (prod_step fl Y c _ Hfl HY Rc Hc) as YC.
  split.
  - unfold rot_x_float. rewrite fl_compat_sub.
    apply (sum_step fl _ _ (inject_Z X * inject_Z (cosq k)) (- (inject_Z Y * inject_Z (sinq k)))); try assumption.
    + setoid_replace (- fl (inject_Z Y * s) - - (inject_Z Y * inject_Z (sinq k)))
        with (- (fl (inject_Z Y * s) - inject_Z Y * inject_Z (sinq k))) by ring.
      rewrite Qabs_opp. exact YS.
    + apply bnd_prod; assumption.
    + rewrite Qabs_opp. apply bnd_prod; assumption.
    + rewrite <- !inject_Z_mult. rewrite <- inject_Z_opp, <- inject_Z_plus.
      replace (cosq k * X - sinq k * Y)%Z with (X * cosq k + - (Y * sinq k))%Z by ring. reflexivity.
  - unfold rot_y_float.
    apply (sum_step fl _ _ (inject_Z X * inject_Z (sinq k)) (inject_Z Y * inject_Z (cosq k))); try assumption.
    + apply bnd_prod; assumption.
    + apply bnd_prod; assumption.
    + rewrite <- !inject_Z_mult, <- inject_Z_plus.
      replace (sinq k * X + cosq k * Y)%Z with (X * sinq k + Y * cosq k)%Z by ring. reflexivity.
Qed.

(** The computed coordinates are those of the model's [rotq]. *)
Lemma rot_float_matches_model fl c s v k :
  (forall q, Qabs (fl q - q) <= eps * Qabs q) ->
  Qabs (c - inject_Z (cosq k)) <= eps -> Qabs (s - inject_Z (sinq k)) <= eps ->
  (Z.abs (halves (vx v)) <= 2 ^ 40)%Z -> (Z.abs (halves (vy v)) <= 2 ^ 40)%Z ->
  vrotate v (Deg (90 * k)) =
  Ok (V (vc v) (H (rot_x_float fl c s (halves (vx v)) (halves (vy v))))
               (H (rot_y_float fl c s (halves (vx v)) (halves (vy v)))) (vz v)).
Proof.
  intros Hfl Hc Hs HX HY.
  destruct (rot_float_exact fl c s _ _ k Hfl Hc Hs HX HY) as [-> ->].
  unfold vrotate. rewrite quarter_deg. unfold cosq, sinq.
  destruct (mod4_cases k) as [E|[E|[E|E]]]; rewrite E; cbn [rotq Z.eqb Pos.eqb]; do 3 f_equal; lia.
Qed.
