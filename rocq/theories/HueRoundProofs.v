(** Proofs about the hue of lights, with rounded arithmetic. *)
From Coq Require Import QArith Qround Qminmax Qabs Lqa Lia.
From Verif Require Import Py VecModel HueModel HueSpec HueProofs HueExactProofs.
Local Open Scope Q_scope.

(** Numbers of up to 256 are rounded by at most 2^-44; for binary64 half a unit in the last place is
    2^-46 there. *)
Definition close (rd : Q -> Q) : Prop := forall q, Qabs q <= 256 -> Qabs (rd q - q) <= 1 # 17592186044416.
Definition within (d a b : Q) : Prop := a - b <= d /\ b - a <= d.
Lemma within_abs d a b : Qabs (a - b) <= d <-> within d a b.
Proof. rewrite Qabs_Qle_condition. unfold within. split; intros [A B]; split; lra. Qed.

(** The circle of hues: how far each component is from the greatest, [z] sixths around. *)
Definition wheel (z kr kg kb : Q) : Prop :=
  (0 <= z /\ z <= 1 /\ kr == 0 /\ kg == 1 - z /\ kb == 1) \/ (1 <= z /\ z <= 2 /\ kr == z - 1 /\ kg == 0 /\ kb == 1) \/
  (2 <= z /\ z <= 3 /\ kr == 1 /\ kg == 0 /\ kb == 3 - z) \/ (3 <= z /\ z <= 4 /\ kr == 1 /\ kg == z - 3 /\ kb == 0) \/
  (4 <= z /\ z <= 5 /\ kr == 5 - z /\ kg == 1 /\ kb == 0) \/ (5 <= z /\ z <= 6 /\ kr == 0 /\ kg == 1 /\ kb == z - 5).
Lemma wheel_near d z x kr kg kb cr cg cb : 0 <= d -> d < 1 # 10 -> wheel z kr kg kb -> wheel x cr cg cb ->
  within d z x \/ within d z (x + 6) \/ within d z (x - 6) -> within d kr cr /\ within d kg cg /\ within d kb cb.
Proof.
  intros D1 D2 [Z|[Z|[Z|[Z|[Z|Z]]]]] [X|[X|[X|[X|[X|X]]]]] [W|[W|W]]; destruct Z as (Z1 & Z2 & Z3 & Z4 & Z5), X as (X1 & X2 & X3 & X4 & X5), W as [W1 W2];
  first [exfalso; clear Z3 Z4 Z5 X3 X4 X5; lra|unfold within; repeat split; lra].
Qed.
(** The noise colour on the circle. *)
Definition far (r g b c : Z) : Q := inject_Z (most r g b - c) / inject_Z (most r g b - least r g b).
Lemma wheel_sixth r g b i n w : sixth r g b i n w -> wheel (inject_Z i + inject_Z n / inject_Z w) (far r g b r) (far r g b g) (far r g b b).
Proof.
  intros S. assert (0 <= n < w)%Z as P by (unfold sixth in S; lia). destruct (parts n w P) as (W & A & B). unfold far, most, least.
  destruct S as [S|[S|[S|[S|[S|S]]]]]; destruct S as (-> & O & -> & ->).
  all: repeat match goal with |- context [Z.max ?a (Z.max ?b0 ?c)] => first [replace (Z.max a (Z.max b0 c)) with a in * by lia|replace (Z.max a (Z.max b0 c)) with b0 in * by lia|replace (Z.max a (Z.max b0 c)) with c in * by lia] end.
  all: repeat match goal with |- context [Z.min ?a (Z.min ?b0 ?c)] => first [replace (Z.min a (Z.min b0 c)) with a in * by lia|replace (Z.min a (Z.min b0 c)) with b0 in * by lia|replace (Z.min a (Z.min b0 c)) with c in * by lia] end.
  all: rewrite ?Z.sub_diag.
  - left. assert (inject_Z (r - g) / inject_Z (r - b) == 1 - inject_Z (g - b) / inject_Z (r - b)) as E by (rewrite (sub_q (r - g) (r - b) (g - b)) by lia; field; lra).
    assert (inject_Z (r - b) / inject_Z (r - b) == 1) as E1 by (field; lra). assert (inject_Z 0 / inject_Z (r - b) == 0) as E0 by (change (inject_Z 0) with 0; field; lra).
    rewrite E, E1, E0. change (inject_Z 0) with 0. repeat split; lra.
  - right. left. assert (inject_Z (g - b) / inject_Z (g - b) == 1) as E1 by (field; lra). assert (inject_Z 0 / inject_Z (g - b) == 0) as E0 by (change (inject_Z 0) with 0; field; lra).
    rewrite E1, E0. change (inject_Z 1) with 1. repeat split; lra.
  - do 2 right. left. assert (inject_Z (g - b) / inject_Z (g - r) == 1 - inject_Z (b - r) / inject_Z (g - r)) as E by (rewrite (sub_q (g - b) (g - r) (b - r)) by lia; field; lra).
    assert (inject_Z (g - r) / inject_Z (g - r) == 1) as E1 by (field; lra). assert (inject_Z 0 / inject_Z (g - r) == 0) as E0 by (change (inject_Z 0) with 0; field; lra).
    rewrite E, E1, E0. change (inject_Z 2) with 2. repeat split; lra.
  - do 3 right. left. assert (inject_Z (b - r) / inject_Z (b - r) == 1) as E1 by (field; lra). assert (inject_Z 0 / inject_Z (b - r) == 0) as E0 by (change (inject_Z 0) with 0; field; lra).
    rewrite E1, E0. change (inject_Z 3) with 3. repeat split; lra.
  - do 4 right. left. assert (inject_Z (b - r) / inject_Z (b - g) == 1 - inject_Z (r - g) / inject_Z (b - g)) as E by (rewrite (sub_q (b - r) (b - g) (r - g)) by lia; field; lra).
    assert (inject_Z (b - g) / inject_Z (b - g) == 1) as E1 by (field; lra). assert (inject_Z 0 / inject_Z (b - g) == 0) as E0 by (change (inject_Z 0) with 0; field; lra).
    rewrite E, E1, E0. change (inject_Z 4) with 4. repeat split; lra.
  - do 5 right. assert (inject_Z (r - g) / inject_Z (r - g) == 1) as E1 by (field; lra). assert (inject_Z 0 / inject_Z (r - g) == 0) as E0 by (change (inject_Z 0) with 0; field; lra).
    rewrite E1, E0. change (inject_Z 5) with 5. repeat split; lra.
Qed.

Section Rounded.
Variable rd : Q -> Q.
Hypothesis RD : rounding rd.
Hypothesis CL : close rd.
Lemma step q : -(256) <= q -> q <= 256 -> within (1 # 17592186044416) (rd q) q.
Proof. intros A B. apply within_abs, CL. apply Qabs_Qle_condition. split; assumption. Qed.
Lemma mul_within v d a b : 0 <= v -> v <= 255 -> 0 <= d -> within d a b -> within (255 * d) (v * a) (v * b).
Proof. intros A B D [E F]. unfold within. split; nra. Qed.
Lemma mul_unit s d a b : 0 <= s -> s <= 1 -> 0 <= d -> within d a b -> within d (s * a) (s * b).
Proof. intros A B D [E F]. unfold within. split; nra. Qed.

(** One component. *)
Lemma shade s v f k : 0 <= s -> s <= 1 -> 0 <= v -> v <= 255 -> 0 <= f -> f <= 1 -> within (4 # 17592186044416) f k ->
  within (2000 # 17592186044416) (rd (v * rd (1 - rd (s * f)))) (v * (1 - s * k)).
Proof.
  intros S1 S2 V1 V2 F1 F2 K.
  assert (0 <= s * f /\ s * f <= 1) as [P1 P2] by (split; nra).
  pose proof (step (s * f) ltac:(lra) ltac:(lra)) as [A1 A2].
  pose proof (mul_unit s _ f k S1 S2 (proj1 (Qle_bool_iff 0 (4 # 17592186044416)) eq_refl) K) as [B1 B2].
  pose proof (step (1 - rd (s * f)) ltac:(lra) ltac:(lra)) as [C1 C2].
  assert (within (6 # 17592186044416) (rd (1 - rd (s * f))) (1 - s * k)) as D by (split; lra).
  pose proof (mul_within v (6 # 17592186044416) _ _ V1 V2 ltac:(lra) D) as [E1 E2].
  assert (within (2 # 17592186044416) (rd (1 - rd (s * f))) (1 - s * f)) as D' by (split; lra).
  pose proof (mul_within v (2 # 17592186044416) _ _ V1 V2 ltac:(lra) D') as [G1 G2].
  assert (0 <= v * (1 - s * f) /\ v * (1 - s * f) <= 255) as [H1 H2] by (split; nra).
  pose proof (step (v * rd (1 - rd (s * f))) ltac:(lra) ltac:(lra)) as [I1 I2].
  split; lra.
Qed.
Lemma shade_least s v : 0 <= s -> s <= 1 -> 0 <= v -> v <= 255 -> within (2000 # 17592186044416) (rd (v * rd (1 - s))) (v * (1 - s * 1)).
Proof.
  intros S1 S2 V1 V2. pose proof (step (1 - s) ltac:(lra) ltac:(lra)) as D.
  pose proof (mul_within v (1 # 17592186044416) _ _ V1 V2 ltac:(lra) D) as [E1 E2].
  assert (0 <= v * (1 - s) /\ v * (1 - s) <= 255) as [H1 H2] by (split; nra).
  pose proof (step (v * rd (1 - s)) ltac:(lra) ltac:(lra)) as [I1 I2]. assert (v * (1 - s * 1) == v * (1 - s)) as E by ring. split; rewrite E; lra.
Qed.
Lemma shade_most s v : within (2000 # 17592186044416) v (v * (1 - s * 0)).
Proof. assert (v * (1 - s * 0) == v) as E by ring. split; rewrite E; lra. Qed.

(** The conversion back to red, green and blue. *)
Lemma rgb_near h s v R G B : 0 <= h -> h <= 1 -> 0 <= s -> s <= 1 -> (0 <= v <= 255)%Z -> ~ s == 0 -> hsv_rgb rd h s v = (R, G, B) ->
  exists kr kg kb, wheel (rd (h * 6)) kr kg kb /\ within (2000 # 17592186044416) R (inject_Z v * (1 - s * kr)) /\
  within (2000 # 17592186044416) G (inject_Z v * (1 - s * kg)) /\ within (2000 # 17592186044416) B (inject_Z v * (1 - s * kb)).
Proof.
  intros H1 H2 S1 S2 Vb NS X. unfold hsv_rgb in X. cbv zeta in X.
  destruct (Qeq_bool s 0) eqn:Es; [apply Qeq_bool_iff in Es; contradiction|].
  assert (0 <= rd (h * 6)) as Z1 by (apply (rd_ge rd RD 0); [lia|change (inject_Z 0) with 0; lra]).
  assert (rd (h * 6) <= 6) as Z2 by (apply (rd_le rd RD 6); [lia|change (inject_Z 6) with 6; lra]).
  revert X Z1 Z2. generalize (rd (h * 6)). intros z X Z1 Z2. rewrite (q_int_pos z Z1) in X.
  pose proof (Qfloor_le z) as L1. pose proof (Qlt_floor z) as L2. rewrite inject_Z_plus in L2. change (inject_Z 1) with 1 in L2.
  assert (0 <= Qfloor z)%Z as I1 by (change 0%Z with (Qfloor 0); apply Qfloor_resp_le; exact Z1).
  assert (Qfloor z <= 6)%Z as I2 by (change 6%Z with (Qfloor 6); apply Qfloor_resp_le; exact Z2).
  revert X L1 L2 I1 I2. generalize (Qfloor z). intros i X L1 L2 I1 I2.
  pose proof (unit_rd rd RD (z - inject_Z i) ltac:(split; lra)) as [F1 F2].
  pose proof (step (z - inject_Z i) ltac:(lra) ltac:(lra)) as [F3 F4].
  revert X F1 F2 F3 F4. generalize (rd (z - inject_Z i)). intros f X F1 F2 F3 F4.
  pose proof (unit_rd rd RD (1 - f) ltac:(split; lra)) as [T1 T2].
  pose proof (step (1 - f) ltac:(lra) ltac:(lra)) as [T3 T4].
  assert (0 <= inject_Z v /\ inject_Z v <= 255) as [V1 V2] by (split; [change 0 with (inject_Z 0)|change 255 with (inject_Z 255)]; rewrite <- Zle_Qle; lia).
  revert X V1 V2. generalize (inject_Z v). intros u X V1 V2.
  assert (i = 0 \/ i = 1 \/ i = 2 \/ i = 3 \/ i = 4 \/ i = 5 \/ i = 6)%Z as C by lia.
  pose proof (shade_least s u S1 S2 V1 V2) as Sp. pose proof (shade_most s u) as Sv.
  assert (forall k, k == z - inject_Z i -> within (2000 # 17592186044416) (rd (u * rd (1 - rd (s * f)))) (u * (1 - s * k))) as Sq.
  { intros k K. apply shade; try assumption. split; lra. }
  assert (forall k, k == 1 - (z - inject_Z i) -> within (2000 # 17592186044416) (rd (u * rd (1 - rd (s * rd (1 - f))))) (u * (1 - s * k))) as St.
  { intros k K. apply shade; try assumption. split; lra. }
  revert X Sp Sq St. generalize (rd (u * rd (1 - s))) (rd (u * rd (1 - rd (s * f)))) (rd (u * rd (1 - rd (s * rd (1 - f))))). intros p q t X Sp Sq St.
  destruct C as [->|[->|[->|[->|[->|[->| ->]]]]]].
  - change (0 mod 6)%Z with 0%Z in X. cbv iota in X. assert (R = u /\ G = t /\ B = p) as (-> & -> & ->) by (repeat split; congruence).
    change (inject_Z 0) with 0 in *. exists 0, (1 - z), 1. split; [left; repeat split; lra|]. repeat split; first [apply Sv|apply Sp|apply St; lra].
  - change (1 mod 6)%Z with 1%Z in X. cbv iota in X. assert (R = q /\ G = u /\ B = p) as (-> & -> & ->) by (repeat split; congruence).
    change (inject_Z 1) with 1 in *. exists (z - 1), 0, 1. split; [right; left; repeat split; lra|]. repeat split; first [apply Sv|apply Sp|apply Sq; lra].
  - change (2 mod 6)%Z with 2%Z in X. cbv iota in X. assert (R = p /\ G = u /\ B = t) as (-> & -> & ->) by (repeat split; congruence).
    change (inject_Z 2) with 2 in *. exists 1, 0, (3 - z). split; [do 2 right; left; repeat split; lra|]. repeat split; first [apply Sv|apply Sp|apply St; lra].
  - change (3 mod 6)%Z with 3%Z in X. cbv iota in X. assert (R = p /\ G = q /\ B = u) as (-> & -> & ->) by (repeat split; congruence).
    change (inject_Z 3) with 3 in *. exists 1, (z - 3), 0. split; [do 3 right; left; repeat split; lra|]. repeat split; first [apply Sv|apply Sp|apply Sq; lra].
  - change (4 mod 6)%Z with 4%Z in X. cbv iota in X. assert (R = t /\ G = p /\ B = u) as (-> & -> & ->) by (repeat split; congruence).
    change (inject_Z 4) with 4 in *. exists (5 - z), 1, 0. split; [do 4 right; left; repeat split; lra|]. repeat split; first [apply Sv|apply Sp|apply St; lra].
  - change (5 mod 6)%Z with 5%Z in X. cbv iota in X. assert (R = u /\ G = p /\ B = q) as (-> & -> & ->) by (repeat split; congruence).
    change (inject_Z 5) with 5 in *. exists 0, 1, (z - 5). split; [do 5 right; repeat split; lra|]. repeat split; first [apply Sv|apply Sp|apply Sq; lra].
  - change (6 mod 6)%Z with 0%Z in X. cbv iota in X. assert (R = u /\ G = t /\ B = p) as (-> & -> & ->) by (repeat split; congruence).
    change (inject_Z 6) with 6 in *. exists 0, 1, 1. split; [do 5 right; repeat split; lra|]. repeat split; first [apply Sv|apply Sp|apply St; lra].
Qed.

(** The hue. *)
Lemma wrap_near raw raw' x : -1 <= raw -> raw < 6 -> within (4 # 17592186044416) raw' raw -> x == (if Qle_bool 0 raw then raw else raw + 6) ->
  let h6 := rd (raw' / 6) in let z := rd (rd (h6 - inject_Z (Qfloor h6)) * 6) in
  within (20 # 17592186044416) z x \/ within (20 # 17592186044416) z (x + 6) \/ within (20 # 17592186044416) z (x - 6).
Proof.
  intros A B [C1 C2] X h6 z. assert (raw' / 6 == raw' * (1 # 6)) as E by field.
  pose proof (step (raw' / 6) ltac:(rewrite E; lra) ltac:(rewrite E; lra)) as [D1 D2]. fold h6 in D1, D2.
  rewrite E in D1, D2. subst z. clearbody h6. clear E.
  pose proof (Qfloor_le h6) as L1. pose proof (Qlt_floor h6) as L2. rewrite inject_Z_plus in L2. change (inject_Z 1) with 1 in L2.
  revert L1 L2. generalize (Qfloor h6). intros F L1 L2.
  assert (-2 < F < 2)%Z as G. { split; rewrite Zlt_Qlt; [change (inject_Z (-2)) with (-2 # 1)|change (inject_Z 2) with (2 # 1)]; lra. }
  pose proof (step (h6 - inject_Z F) ltac:(lra) ltac:(lra)) as [H1 H2]. revert H1 H2. generalize (rd (h6 - inject_Z F)). intros k H1 H2.
  pose proof (step (k * 6) ltac:(lra) ltac:(lra)) as [K1 K2]. revert K1 K2. generalize (rd (k * 6)). intros z K1 K2. unfold within.
  assert (F = -1 \/ F = 0 \/ F = 1)%Z as [->|[->| ->]] by lia; [change (inject_Z (-1)) with (-1 # 1) in *|change (inject_Z 0) with 0 in *|change (inject_Z 1) with 1 in *].
  all: destruct (Qle_bool 0 raw) eqn:Y; [apply Qle_bool_iff in Y|assert (raw < 0) as Y' by (apply Qnot_le_lt; intros W; apply Qle_bool_iff in W; congruence)].
  - right. left. split; lra.
  - left. split; lra.
  - left. split; lra.
  - right. right. split; lra.
  - right. right. split; lra.
  - exfalso. lra.
Qed.
Lemma share n w : (0 <= n <= w)%Z -> (0 < w)%Z -> 0 <= inject_Z n / inject_Z w /\ inject_Z n / inject_Z w <= 1.
Proof.
  intros P W'. assert (0 < inject_Z w) as W by (change 0 with (inject_Z 0); rewrite <- Zlt_Qlt; lia). split.
  - apply Qle_shift_div_l; [exact W|]. rewrite Qmult_0_l. change 0 with (inject_Z 0). rewrite <- Zle_Qle. lia.
  - apply Qle_shift_div_r; [exact W|]. rewrite Qmult_1_l. rewrite <- Zle_Qle. lia.
Qed.
Lemma hue_near r g b i n w : sixth r g b i n w ->
  let x := inject_Z i + inject_Z n / inject_Z w in let z := rd (hsv_hue rd r g b * 6) in
  within (20 # 17592186044416) z x \/ within (20 # 17592186044416) z (x + 6) \/ within (20 # 17592186044416) z (x - 6).
Proof.
  intros S. pose proof (hue_sixth r g b i n w S) as X. cbv zeta. revert X. generalize (inject_Z i + inject_Z n / inject_Z w). intros x X.
  assert (Z.min r (Z.min g b) < Z.max r (Z.max g b))%Z as M by (unfold sixth in S; destruct S as [S|[S|[S|[S|[S|S]]]]]; lia). clear S.
  unfold hsv_hue in *. cbv zeta in *. unfold unrounded in X. set (lo := Z.min r (Z.min g b)) in *. set (hi := Z.max r (Z.max g b)) in *.
  assert (lo <= r <= hi /\ lo <= g <= hi /\ lo <= b <= hi)%Z as (Or & Og & Ob) by lia. clearbody lo hi.
  replace (lo =? hi)%Z with false in * by lia.
  destruct (share (hi - r) (hi - lo)) as [A1 A2]; [lia|lia|]. destruct (share (hi - g) (hi - lo)) as [B1 B2]; [lia|lia|]. destruct (share (hi - b) (hi - lo)) as [C1 C2]; [lia|lia|].
  revert X A1 A2 B1 B2 C1 C2. generalize (inject_Z (hi - r) / inject_Z (hi - lo)) (inject_Z (hi - g) / inject_Z (hi - lo)) (inject_Z (hi - b) / inject_Z (hi - lo)).
  intros rc gc bc X A1 A2 B1 B2 C1 C2.
  pose proof (step rc ltac:(lra) ltac:(lra)) as [R1 R2]. pose proof (step gc ltac:(lra) ltac:(lra)) as [G1 G2]. pose proof (step bc ltac:(lra) ltac:(lra)) as [K1 K2].
  revert R1 R2 G1 G2 K1 K2. generalize (rd rc) (rd gc) (rd bc). intros rc' gc' bc' R1 R2 G1 G2 K1 K2.
  destruct (r =? hi)%Z; [|destruct (g =? hi)%Z].
  - rewrite (wrap (bc - gc)) in X by lra. pose proof (step (bc' - gc') ltac:(lra) ltac:(lra)) as [T1 T2].
    apply (wrap_near (bc - gc)); [lra|lra|split; lra|symmetry; exact X].
  - rewrite (wrap (2 + rc - bc)) in X by lra. pose proof (step (2 + rc') ltac:(lra) ltac:(lra)) as [T1 T2]. pose proof (step (rd (2 + rc') - bc') ltac:(lra) ltac:(lra)) as [T3 T4].
    apply (wrap_near (2 + rc - bc)); [lra|lra|split; lra|symmetry; exact X].
  - rewrite (wrap (4 + gc - rc)) in X by lra. pose proof (step (4 + gc') ltac:(lra) ltac:(lra)) as [T1 T2]. pose proof (step (rd (4 + gc') - rc') ltac:(lra) ltac:(lra)) as [T3 T4].
    apply (wrap_near (4 + gc - rc)); [lra|lra|split; lra|symmetry; exact X].
Qed.

(** A component of the noise colour as computed, and the brightness. *)
Definition noise_rd (noise : Z -> Q -> Q -> Q -> Q) (scale : Q) (pos : vec) (base : Z) : Z :=
  cut (rd (Qabs (noise base (rd (coord (vx pos) * scale)) (rd (coord (vy pos) * scale)) (rd (coord (vz pos) * scale))) * 255)).
Definition value_rd (brightness : Q) : Q := inject_Z (cut (rd (255 * Qmin brightness 1))).
Lemma hue_parts_rd noise scale br s pos : position_hue rd noise scale br s pos =
  (let '(R, G, B) := hsv_rgb rd (hsv_hue rd (noise_rd noise scale pos 10) (noise_rd noise scale pos 0) (noise_rd noise scale pos 43)) s (cut (rd (255 * Qmin br 1))) in (cut R, cut G, cut B)).
Proof.
  unfold noise_rd. rewrite <- !int_cut, <- !coord_q. unfold position_hue. cbv zeta.
  destruct (hsv_rgb _ _ _ _) as [[R G] B]. rewrite !int_cut. reflexivity.
Qed.
Lemma value_byte br : 0 <= br -> (0 <= cut (rd (255 * Qmin br 1)) <= 255)%Z.
Proof. intros P. rewrite <- int_cut. destruct (bright_byte rd RD br P) as [A ->]. exact A. Qed.
Lemma channel_near s v d R k c : 0 <= s -> s <= 1 -> 0 <= v -> v <= 255 -> 0 <= d -> within (2000 # 17592186044416) R (v * (1 - s * k)) -> within d k c ->
  within ((2000 # 17592186044416) + 255 * d) R (v * (1 - s * c)).
Proof.
  intros S1 S2 V1 V2 D [A1 A2] K. pose proof (mul_unit s d k c S1 S2 D K) as [B1 B2]. assert (within d (1 - s * k) (1 - s * c)) as W by (split; lra).
  pose proof (mul_within v d _ _ V1 V2 D W) as [C1 C2]. split; lra.
Qed.
Lemma hue_rounded noise scale br s pos r g b : 0 <= br -> 0 <= s <= 1 ->
  r = noise_rd noise scale pos 10 -> g = noise_rd noise scale pos 0 -> b = noise_rd noise scale pos 43 -> ~ (r = g /\ g = b) ->
  exists R G B, position_hue rd noise scale br s pos = (cut R, cut G, cut B) /\
  Qabs (R - channel (value_rd br) s (least r g b) (most r g b) r) <= 1 # 2147483648 /\
  Qabs (G - channel (value_rd br) s (least r g b) (most r g b) g) <= 1 # 2147483648 /\
  Qabs (B - channel (value_rd br) s (least r g b) (most r g b) b) <= 1 # 2147483648.
Proof.
  intros Pb [S1 S2] Er Eg Eb N. rewrite hue_parts_rd, <- Er, <- Eg, <- Eb. clear Er Eg Eb. pose proof (value_byte br Pb) as V. unfold value_rd.
  revert V. generalize (cut (rd (255 * Qmin br 1))). intros v V.
  assert (0 <= inject_Z v /\ inject_Z v <= 255) as [V1 V2] by (split; [change 0 with (inject_Z 0)|change 255 with (inject_Z 255)]; rewrite <- Zle_Qle; lia).
  destruct (sixth_found r g b N) as (i & n & w & S). pose proof (hue_near r g b i n w S) as Hn. pose proof (wheel_sixth r g b i n w S) as Hw. cbv zeta in Hn.
  pose proof (hue_unit rd RD r g b) as [U1 U2]. revert Hn U1 U2. generalize (hsv_hue rd r g b). intros h Hn U1 U2.
  destruct (hsv_rgb rd h s v) as [[R G] B] eqn:X. exists R, G, B. split; [reflexivity|]. rewrite !within_abs.
  change (channel (inject_Z v) s (least r g b) (most r g b) ?c) with (inject_Z v * (1 - s * far r g b c)).
  destruct (Qeq_bool s 0) eqn:Es.
  { unfold hsv_rgb in X. rewrite Es in X. assert (R = inject_Z v /\ G = inject_Z v /\ B = inject_Z v) as (-> & -> & ->) by (repeat split; congruence). apply Qeq_bool_iff in Es.
    assert (forall k, inject_Z v * (1 - s * k) == inject_Z v) as E by (intros k; rewrite Es; ring). repeat split; rewrite E; lra. }
  assert (~ s == 0) as NS by (intros F; apply Qeq_bool_iff in F; congruence).
  destruct (rgb_near h s v R G B U1 U2 S1 S2 V NS X) as (kr & kg & kb & W & A1 & A2 & A3).
  destruct (wheel_near (20 # 17592186044416) _ _ _ _ _ _ _ _ ltac:(lra) ltac:(lra) W Hw Hn) as (K1 & K2 & K3).
  pose proof (channel_near s _ (20 # 17592186044416) R kr _ S1 S2 V1 V2 ltac:(lra) A1 K1) as [C1 C2].
  pose proof (channel_near s _ (20 # 17592186044416) G kg _ S1 S2 V1 V2 ltac:(lra) A2 K2) as [C3 C4].
  pose proof (channel_near s _ (20 # 17592186044416) B kb _ S1 S2 V1 V2 ltac:(lra) A3 K3) as [C5 C6].
  repeat split; lra.
Qed.
Lemma grey_rounded noise scale br s pos : 0 <= br -> 0 <= s <= 1 ->
  noise_rd noise scale pos 10 = noise_rd noise scale pos 0 -> noise_rd noise scale pos 0 = noise_rd noise scale pos 43 ->
  exists R G B, position_hue rd noise scale br s pos = (cut R, cut G, cut B) /\
  Qabs (R - value_rd br) <= 1 # 2147483648 /\ Qabs (G - value_rd br * (1 - s)) <= 1 # 2147483648 /\ Qabs (B - value_rd br * (1 - s)) <= 1 # 2147483648.
Proof.
  intros Pb [S1 S2] E1 E2. rewrite hue_parts_rd, E1, E2. clear E1 E2. pose proof (value_byte br Pb) as V. unfold value_rd.
  revert V. generalize (cut (rd (255 * Qmin br 1))). intros v V. generalize (noise_rd noise scale pos 43). intros k.
  assert (0 <= inject_Z v /\ inject_Z v <= 255) as [V1 V2] by (split; [change 0 with (inject_Z 0)|change 255 with (inject_Z 255)]; rewrite <- Zle_Qle; lia).
  assert (hsv_hue rd k k k = 0) as -> by (unfold hsv_hue; cbv zeta; rewrite Z.max_id, Z.max_id, Z.min_id, Z.min_id, Z.eqb_refl; reflexivity).
  destruct (hsv_rgb rd 0 s v) as [[R G] B] eqn:X. exists R, G, B. split; [reflexivity|]. rewrite !within_abs.
  destruct (Qeq_bool s 0) eqn:Es.
  { unfold hsv_rgb in X. rewrite Es in X. assert (R = inject_Z v /\ G = inject_Z v /\ B = inject_Z v) as (-> & -> & ->) by (repeat split; congruence). apply Qeq_bool_iff in Es.
    assert (inject_Z v * (1 - s) == inject_Z v) as E by (rewrite Es; ring). repeat split; rewrite ?E; lra. }
  assert (~ s == 0) as NS by (intros F; apply Qeq_bool_iff in F; congruence).
  destruct (rgb_near 0 s v R G B ltac:(lra) ltac:(lra) S1 S2 V NS X) as (kr & kg & kb & W & A1 & A2 & A3).
  assert (rd (0 * 6) == 0) as Z0. { change (0 * 6) with (inject_Z 0). apply (proj2 RD). lia. }
  assert (within 0 kr 0 /\ within 0 kg 1 /\ within 0 kb 1) as (K1 & K2 & K3).
  { apply (wheel_near 0 (rd (0 * 6)) 0); [lra|lra|exact W|left; repeat split; lra|left; split; lra]. }
  pose proof (channel_near s _ 0 R kr _ S1 S2 V1 V2 ltac:(lra) A1 K1) as [C1 C2].
  pose proof (channel_near s _ 0 G kg _ S1 S2 V1 V2 ltac:(lra) A2 K2) as [C3 C4].
  pose proof (channel_near s _ 0 B kb _ S1 S2 V1 V2 ltac:(lra) A3 K3) as [C5 C6].
  repeat split; lra.
Qed.
End Rounded.
