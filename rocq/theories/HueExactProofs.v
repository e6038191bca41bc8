(** Proofs about the hue of lights, with exact arithmetic. *)
From Coq Require Import QArith Qround Qminmax Qabs Lqa Lia.
From Verif Require Import Py VecModel HueModel.
Local Open Scope Q_scope.

Definition unrounded (q : Q) : Q := q.
(** A component of a light: [c] is the component of the noise colour, [lo] and [hi] its least and greatest one. *)
Definition channel (v s : Q) (lo hi c : Z) : Q := v * (1 - s * (inject_Z (hi - c) / inject_Z (hi - lo))).

Lemma floor_at x i : inject_Z i <= x -> x < inject_Z i + 1 -> Qfloor x = i.
Proof.
  intros A B. pose proof (Qfloor_le x) as C. pose proof (Qlt_floor x) as D. rewrite inject_Z_plus in D. change (inject_Z 1) with 1 in D.
  assert (inject_Z (Qfloor x) < inject_Z (i + 1)) as E by (rewrite inject_Z_plus; change (inject_Z 1) with 1; lra).
  assert (inject_Z i < inject_Z (Qfloor x + 1)) as F by (rewrite inject_Z_plus; change (inject_Z 1) with 1; lra).
  rewrite <- Zlt_Qlt in E, F. lia.
Qed.
Lemma int_resp a b : a == b -> q_int a = q_int b.
Proof.
  intros E. unfold q_int. assert (Qle_bool 0 a = Qle_bool 0 b) as -> by (rewrite E; reflexivity). destruct (Qle_bool 0 b); [apply Qfloor_comp, E|apply Qceiling_comp, E].
Qed.
Lemma int_at x i : (0 <= i)%Z -> inject_Z i <= x -> x < inject_Z i + 1 -> q_int x = i.
Proof.
  intros P A B. unfold q_int. assert (0 <= inject_Z i) as Q by (change 0 with (inject_Z 0); rewrite <- Zle_Qle; exact P).
  replace (Qle_bool 0 x) with true; [apply floor_at; assumption|]. symmetry. apply Qle_bool_iff. lra.
Qed.
(** The hue as a number of sixths. *)
Lemma wrap raw : -1 <= raw -> raw < 6 -> (raw / 6 - inject_Z (Qfloor (raw / 6))) * 6 == (if Qle_bool 0 raw then raw else raw + 6).
Proof.
  intros A B. destruct (Qle_bool 0 raw) eqn:E.
  - apply Qle_bool_iff in E. rewrite (floor_at (raw / 6) 0); [change (inject_Z 0) with 0; field| |]; change (inject_Z 0) with 0; [apply Qle_shift_div_l|apply Qlt_shift_div_r]; lra.
  - assert (raw < 0) as L by (apply Qnot_le_lt; intros F; apply Qle_bool_iff in F; congruence).
    rewrite (floor_at (raw / 6) (-1)); [change (inject_Z (-1)) with (-1 # 1); field| |]; change (inject_Z (-1)) with (-1 # 1); [apply Qle_shift_div_l|apply Qlt_shift_div_r]; lra.
Qed.

(** Which sixth, and how far into it: [n] parts of [w]. *)
Definition sixth (r g b i n w : Z) : Prop :=
  ((i = 0 /\ b <= g < r /\ n = g - b /\ w = r - b) \/ (i = 1 /\ b < r <= g /\ n = g - r /\ w = g - b) \/
  (i = 2 /\ r <= b < g /\ n = b - r /\ w = g - r) \/ (i = 3 /\ r < g <= b /\ n = b - g /\ w = b - r) \/
  (i = 4 /\ g <= r < b /\ n = r - g /\ w = b - g) \/ (i = 5 /\ g < b <= r /\ n = r - b /\ w = r - g))%Z.
Local Open Scope Z_scope.
Lemma sixth_found r g b : ~ (r = g /\ g = b) -> exists i n w, sixth r g b i n w.
Proof.
  intros N. unfold sixth.
  destruct (Z_lt_dec g r), (Z_lt_dec b g), (Z_lt_dec b r), (Z_lt_dec r g), (Z_lt_dec g b), (Z_lt_dec r b); try lia;
  first [exists 0, (g - b), (r - b); lia|exists 1, (g - r), (g - b); lia|exists 2, (b - r), (g - r); lia|exists 3, (b - g), (b - r); lia|exists 4, (r - g), (b - g); lia|exists 5, (r - b), (r - g); lia].
Qed.
Local Open Scope Q_scope.
Lemma sub_q a b c : (a = b - c)%Z -> inject_Z a == inject_Z b - inject_Z c.
Proof. intros ->. unfold Z.sub. rewrite inject_Z_plus, inject_Z_opp. reflexivity. Qed.
Lemma parts n w : (0 <= n < w)%Z -> 0 < inject_Z w /\ 0 <= inject_Z n / inject_Z w /\ inject_Z n / inject_Z w < 1.
Proof.
  intros P. assert (0 < inject_Z w) as W by (change 0 with (inject_Z 0); rewrite <- Zlt_Qlt; lia). split; [exact W|]. split.
  - apply Qle_shift_div_l; [exact W|]. rewrite Qmult_0_l. change 0 with (inject_Z 0). rewrite <- Zle_Qle. lia.
  - apply Qlt_shift_div_r; [exact W|]. rewrite Qmult_1_l. rewrite <- Zlt_Qlt. lia.
Qed.
Lemma hue_sixth r g b i n w : sixth r g b i n w -> hsv_hue unrounded r g b * 6 == inject_Z i + inject_Z n / inject_Z w.
Proof.
  intros S. unfold hsv_hue, unrounded. cbv zeta.
  destruct S as [S|[S|[S|[S|[S|S]]]]]; destruct S as (-> & O & -> & ->).
  - replace (Z.max r (Z.max g b)) with r by lia. replace (Z.min r (Z.min g b)) with b by lia. replace (b =? r)%Z with false by lia. rewrite Z.eqb_refl.
    destruct (parts (g - b) (r - b) ltac:(lia)) as (W & A & B).
    assert (inject_Z (r - b) / inject_Z (r - b) - inject_Z (r - g) / inject_Z (r - b) == inject_Z (g - b) / inject_Z (r - b)) as E.
    { rewrite (sub_q (r - g) (r - b) (g - b)) by lia. field. lra. }
    rewrite wrap by (rewrite E; lra). rewrite E. replace (Qle_bool 0 (inject_Z (g - b) / inject_Z (r - b))) with true by (symmetry; apply Qle_bool_iff; exact A).
    cbv iota. rewrite ?E. change (inject_Z 0) with 0. rewrite Qplus_0_l. reflexivity.
  - replace (Z.max r (Z.max g b)) with g by lia. replace (Z.min r (Z.min g b)) with b by lia. replace (b =? g)%Z with false by lia.
    destruct (parts (g - r) (g - b) ltac:(lia)) as (W & A & B). destruct (Z.eqb_spec r g) as [->|NE].
    + rewrite Z.sub_diag. assert (inject_Z (g - b) / inject_Z (g - b) - inject_Z 0 / inject_Z (g - b) == 1) as E by (change (inject_Z 0) with 0; field; lra).
      rewrite wrap by (rewrite E; lra). rewrite E. change (Qle_bool 0 1) with true. cbv iota. rewrite ?E. change (inject_Z 0) with 0. change (inject_Z 1) with 1. field. lra.
    + rewrite Z.eqb_refl.
      assert (2 + inject_Z (g - r) / inject_Z (g - b) - inject_Z (g - b) / inject_Z (g - b) == 1 + inject_Z (g - r) / inject_Z (g - b)) as E by (field; lra).
      rewrite wrap by (rewrite E; lra). rewrite E. replace (Qle_bool 0 (1 + inject_Z (g - r) / inject_Z (g - b))) with true by (symmetry; apply Qle_bool_iff; lra). cbv iota. rewrite ?E. change (inject_Z 1) with 1. first [ring|reflexivity|field; lra].
  - replace (Z.max r (Z.max g b)) with g by lia. replace (Z.min r (Z.min g b)) with r by lia. replace (r =? g)%Z with false by lia. rewrite Z.eqb_refl.
    destruct (parts (b - r) (g - r) ltac:(lia)) as (W & A & B).
    assert (2 + inject_Z (g - r) / inject_Z (g - r) - inject_Z (g - b) / inject_Z (g - r) == 2 + inject_Z (b - r) / inject_Z (g - r)) as E.
    { rewrite (sub_q (g - b) (g - r) (b - r)) by lia. field. lra. }
    rewrite wrap by (rewrite E; lra). rewrite E. replace (Qle_bool 0 (2 + inject_Z (b - r) / inject_Z (g - r))) with true by (symmetry; apply Qle_bool_iff; lra). cbv iota. rewrite ?E. change (inject_Z 2) with 2. first [ring|reflexivity|field; lra].
  - replace (Z.max r (Z.max g b)) with b by lia. replace (Z.min r (Z.min g b)) with r by lia. replace (r =? b)%Z with false by lia.
    destruct (parts (b - g) (b - r) ltac:(lia)) as (W & A & B). destruct (Z.eqb_spec g b) as [->|NE].
    + rewrite Z.sub_diag. assert (2 + inject_Z (b - r) / inject_Z (b - r) - inject_Z 0 / inject_Z (b - r) == 3) as E by (change (inject_Z 0) with 0; field; lra).
      rewrite wrap by (rewrite E; lra). rewrite E. change (Qle_bool 0 3) with true. cbv iota. rewrite ?E. change (inject_Z 0) with 0. change (inject_Z 3) with 3. field. lra.
    + assert (4 + inject_Z (b - g) / inject_Z (b - r) - inject_Z (b - r) / inject_Z (b - r) == 3 + inject_Z (b - g) / inject_Z (b - r)) as E by (field; lra).
      rewrite wrap by (rewrite E; lra). rewrite E. replace (Qle_bool 0 (3 + inject_Z (b - g) / inject_Z (b - r))) with true by (symmetry; apply Qle_bool_iff; lra). cbv iota. rewrite ?E. change (inject_Z 3) with 3. first [ring|reflexivity|field; lra].
  - replace (Z.max r (Z.max g b)) with b by lia. replace (Z.min r (Z.min g b)) with g by lia. replace (g =? b)%Z with false by lia. replace (r =? b)%Z with false by lia.
    destruct (parts (r - g) (b - g) ltac:(lia)) as (W & A & B).
    assert (4 + inject_Z (b - g) / inject_Z (b - g) - inject_Z (b - r) / inject_Z (b - g) == 4 + inject_Z (r - g) / inject_Z (b - g)) as E.
    { rewrite (sub_q (b - r) (b - g) (r - g)) by lia. field. lra. }
    rewrite wrap by (rewrite E; lra). rewrite E. replace (Qle_bool 0 (4 + inject_Z (r - g) / inject_Z (b - g))) with true by (symmetry; apply Qle_bool_iff; lra). cbv iota. rewrite ?E. change (inject_Z 4) with 4. first [ring|reflexivity|field; lra].
  - replace (Z.max r (Z.max g b)) with r by lia. replace (Z.min r (Z.min g b)) with g by lia. replace (g =? r)%Z with false by lia. rewrite Z.eqb_refl.
    destruct (parts (r - b) (r - g) ltac:(lia)) as (W & A & B).
    assert (inject_Z (r - b) / inject_Z (r - g) - inject_Z (r - g) / inject_Z (r - g) == inject_Z (r - b) / inject_Z (r - g) - 1) as E by (field; lra).
    rewrite wrap by (rewrite E; lra). rewrite E. replace (Qle_bool 0 (inject_Z (r - b) / inject_Z (r - g) - 1)) with false.
    2: { symmetry. apply Bool.not_true_iff_false. intros F. apply Qle_bool_iff in F. lra. }
    cbv iota. rewrite ?E. change (inject_Z 5) with 5. first [ring|reflexivity|field; lra].
Qed.

(** The components in each sixth. *)
Lemma rgb_sixth h s v i n w r g b R G B : sixth r g b i n w -> h * 6 == inject_Z i + inject_Z n / inject_Z w -> hsv_rgb unrounded h s v = (R, G, B) ->
  let lo := Z.min r (Z.min g b) in let hi := Z.max r (Z.max g b) in
  R == channel (inject_Z v) s lo hi r /\ G == channel (inject_Z v) s lo hi g /\ B == channel (inject_Z v) s lo hi b.
Proof.
  intros S E X. cbv zeta. unfold hsv_rgb, unrounded in X. cbv zeta in X. unfold channel.
  assert (0 <= n < w /\ 0 <= i)%Z as [P Pi] by (unfold sixth in S; lia). destruct (parts n w P) as (W & A1 & A2).
  assert (~ inject_Z (Z.max r (Z.max g b) - Z.min r (Z.min g b)) == 0) as NZ.
  { intros F. change 0 with (inject_Z 0) in F. apply (proj1 (inject_Z_injective _ _)) in F. clear - F S P. unfold sixth in S. destruct S as [S|[S|[S|[S|[S|S]]]]]; lia. }
  destruct (Qeq_bool s 0) eqn:Es.
  { apply Qeq_bool_iff in Es. assert (R = inject_Z v /\ G = inject_Z v /\ B = inject_Z v) as (-> & -> & ->) by (repeat split; congruence). rewrite Es. repeat split; ring. }
  assert (q_int (h * 6) = i) as Ei.
  { rewrite (int_resp _ _ E). revert A1 A2. generalize (inject_Z n / inject_Z w). intros q A1 A2. apply int_at; [exact Pi| |]; generalize (inject_Z i); intros; lra. }
  rewrite Ei in X.
  assert (h * 6 - inject_Z i == inject_Z n / inject_Z w) as F by (rewrite E; ring).
  revert X F. generalize (h * 6 - inject_Z i). intros f X F. clear E Ei.
  destruct S as [S|[S|[S|[S|[S|S]]]]]; destruct S as (-> & O & -> & ->); change (_ mod 6)%Z with 0%Z in X || change (_ mod 6)%Z with 1%Z in X || change (_ mod 6)%Z with 2%Z in X || change (_ mod 6)%Z with 3%Z in X || change (_ mod 6)%Z with 4%Z in X || change (_ mod 6)%Z with 5%Z in X; cbv iota in X.
  all: match type of X with (?a, ?b0, ?c) = _ => assert (R = a /\ G = b0 /\ B = c) as (-> & -> & ->) by (repeat split; congruence) end; clear X; rewrite F; clear F.
  all: repeat match goal with |- context [Z.max ?a (Z.max ?b0 ?c)] => first [replace (Z.max a (Z.max b0 c)) with a in * by lia|replace (Z.max a (Z.max b0 c)) with b0 in * by lia|replace (Z.max a (Z.max b0 c)) with c in * by lia] end.
  all: repeat match goal with |- context [Z.min ?a (Z.min ?b0 ?c)] => first [replace (Z.min a (Z.min b0 c)) with a in * by lia|replace (Z.min a (Z.min b0 c)) with b0 in * by lia|replace (Z.min a (Z.min b0 c)) with c in * by lia] end.
  all: rewrite ?Z.sub_diag; change (inject_Z 0) with 0.
  - rewrite (sub_q (r - g) (r - b) (g - b)) by lia. repeat split; field; exact NZ.
  - repeat split; field; exact NZ.
  - rewrite (sub_q (g - b) (g - r) (b - r)) by lia. repeat split; field; exact NZ.
  - repeat split; field; exact NZ.
  - rewrite (sub_q (b - r) (b - g) (r - g)) by lia. repeat split; field; exact NZ.
  - repeat split; field; exact NZ.
Qed.

(** The least and the greatest of three. *)
Definition least (r g b : Z) : Z := Z.min r (Z.min g b).
Definition most (r g b : Z) : Z := Z.max r (Z.max g b).
(** A number without its fraction; a coordinate, a whole or a half number. *)
Definition cut (q : Q) : Z := Z.quot (Qnum q) (Z.pos (Qden q)).
Definition coord (n : num) : Q := match n with I z => inject_Z z | H h => inject_Z h / 2 end.
(** A component of the noise colour at a place. *)
Definition noise_at (noise : Z -> Q -> Q -> Q -> Q) (scale : Q) (pos : vec) (base : Z) : Z :=
  cut (Qabs (noise base (coord (vx pos) * scale) (coord (vy pos) * scale) (coord (vz pos) * scale)) * 255).
Definition value (brightness : Q) : Q := inject_Z (cut (255 * Qmin brightness 1)).
Lemma int_cut q : q_int q = cut q.
Proof.
  destruct q as [n d]. unfold q_int, cut. cbn [Qnum Qden]. destruct (Qle_bool 0 (n # d)) eqn:E.
  - apply Qle_bool_iff in E. unfold Qle in E. cbn [Qnum Qden] in E. cbn [Qfloor]. rewrite Z.quot_div_nonneg by lia. reflexivity.
  - assert (n < 0)%Z as L. { apply Z.nle_gt. intros F. assert (Qle_bool 0 (n # d) = true); [|congruence]. apply Qle_bool_iff. unfold Qle. cbn [Qnum Qden]. lia. }
    unfold Qceiling, Qopp. cbn [Qnum Qden Qfloor]. rewrite <- Z.quot_div_nonneg by lia. rewrite Z.quot_opp_l by lia. lia.
Qed.
Lemma coord_q n : q_of_num n = coord n.
Proof. destruct n as [z|h]; [reflexivity|]. unfold q_of_num, coord, Qdiv, Qmult, inject_Z. cbn [Qnum Qden Qinv]. rewrite Z.mul_1_r. reflexivity. Qed.
Lemma hue_parts noise scale br s pos : position_hue unrounded noise scale br s pos =
  (let '(R, G, B) := hsv_rgb unrounded (hsv_hue unrounded (noise_at noise scale pos 10) (noise_at noise scale pos 0) (noise_at noise scale pos 43)) s (cut (255 * Qmin br 1)) in (q_int R, q_int G, q_int B)).
Proof.
  unfold noise_at. rewrite <- !int_cut, <- !coord_q. reflexivity.
Qed.

Lemma hue_exact noise scale br s pos r g b :
  r = noise_at noise scale pos 10 -> g = noise_at noise scale pos 0 -> b = noise_at noise scale pos 43 -> ~ (r = g /\ g = b) ->
  position_hue unrounded noise scale br s pos =
  (cut (channel (value br) s (least r g b) (most r g b) r), cut (channel (value br) s (least r g b) (most r g b) g), cut (channel (value br) s (least r g b) (most r g b) b)).
Proof.
  intros Er Eg Eb N. rewrite hue_parts. rewrite <- Er, <- Eg, <- Eb. clear Er Eg Eb.
  destruct (sixth_found r g b N) as (i & n & w & S). pose proof (hue_sixth r g b i n w S) as Hh.
  destruct (hsv_rgb unrounded (hsv_hue unrounded r g b) s (cut (255 * Qmin br 1))) as [[R G] B] eqn:X.
  destruct (rgb_sixth _ _ _ _ _ _ _ _ _ _ _ _ S Hh X) as (A1 & A2 & A3). unfold least, most, value.
  rewrite (int_resp _ _ A1), (int_resp _ _ A2), (int_resp _ _ A3), !int_cut. reflexivity.
Qed.
Lemma hue_grey noise scale br s pos :
  noise_at noise scale pos 10 = noise_at noise scale pos 0 -> noise_at noise scale pos 0 = noise_at noise scale pos 43 ->
  position_hue unrounded noise scale br s pos = (cut (value br), cut (value br * (1 - s)), cut (value br * (1 - s))).
Proof.
  intros E1 E2. rewrite hue_parts. rewrite E1, E2. generalize (noise_at noise scale pos 43). intros k.
  assert (hsv_hue unrounded k k k = 0) as -> by (unfold hsv_hue; cbv zeta; rewrite Z.max_id, Z.max_id, Z.min_id, Z.min_id, Z.eqb_refl; reflexivity).
  unfold hsv_rgb, value. cbv zeta. unfold unrounded. generalize (inject_Z (cut (255 * Qmin br 1))). intros v.
  destruct (Qeq_bool s 0) eqn:Es.
  - apply Qeq_bool_iff in Es. assert (q_int v = q_int (v * (1 - s))) as E by (apply int_resp; rewrite Es; ring). rewrite <- !int_cut. congruence.
  - change (q_int (0 * 6)) with 0%Z. change (0 mod 6)%Z with 0%Z. cbv iota.
    assert (q_int (v * (1 - s * (1 - (0 * 6 - inject_Z 0)))) = q_int (v * (1 - s))) as E by (apply int_resp; change (inject_Z 0) with 0; ring). rewrite <- !int_cut. congruence.
Qed.
