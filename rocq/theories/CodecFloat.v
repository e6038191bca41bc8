(** Lemmas: bytes and binary32 encoding. *)
From Verif Require Import Py VecModel CodecModel CodecSpec.
Ltac Zify.zify_post_hook ::= Z.div_mod_to_equations.

Lemma le_length n z : List.length (le n z) = n.
Proof. revert z; induction n as [|n IH]; intros z; cbn [le List.length]; [|rewrite IH]; reflexivity. Qed.

Lemma le_bytes n z : Forall is_byte (le n z).
Proof.
  revert z; induction n as [|n IH]; intros z; cbn [le]; constructor; [|apply IH].
  unfold is_byte. lia.
Qed.

Lemma unle_le n z : unle (le n z) = z mod 256 ^ Z.of_nat n.
Proof.
  revert z; induction n as [|n IH]; intros z; cbn [le unle].
  - change (256 ^ Z.of_nat 0) with 1. rewrite Z.mod_1_r. reflexivity.
  - rewrite IH. rewrite Nat2Z.inj_succ, Z.pow_succ_r by lia.
    rewrite Z.rem_mul_r; [reflexivity|lia|]. apply Z.pow_pos_nonneg; lia.
Qed.

Lemma unle_range b : Forall is_byte b -> 0 <= unle b < 256 ^ len b.
Proof.
  unfold len. induction 1 as [|x b Hx _ IH]; cbn [unle List.length]; [cbn; lia|].
  unfold is_byte in Hx. rewrite Nat2Z.inj_succ, Z.pow_succ_r by lia. lia.
Qed.

Lemma le_unle b : Forall is_byte b -> le (List.length b) (unle b) = b.
Proof.
  induction 1 as [|x b Hx _ IH]; cbn [unle List.length le]; [reflexivity|].
  unfold is_byte in Hx. replace ((x + 256 * unle b) mod 256) with x by lia.
  replace ((x + 256 * unle b) / 256) with (unle b) by lia. rewrite IH. reflexivity.
Qed.

(** ** feq *)
Lemma feq_refl f : feq f f.
Proof. destruct f; cbn; auto. Qed.
Lemma feq_sym f g : feq f g -> feq g f.
Proof.
  destruct f as [s m e|s|b], g as [s' m' e'|s'|b']; cbn; auto.
  rewrite Z.min_comm. intuition.
Qed.

(** feq holds iff one is a scaled version of the other. *)
Definition scaled (s : bool) (m e : Z) (g : pfloat) : Prop :=
  exists k, 0 <= k /\ g = PF s (m * 2 ^ k) (e - k).

Lemma feq_scaled s m e s' m' e' :
  feq (PF s m e) (PF s' m' e') -> scaled s m e (PF s' m' e') \/ scaled s' m' e' (PF s m e).
Proof.
  cbn [feq]. intros [-> H].
  destruct (Z_le_gt_dec e' e) as [L|L].
  - left. exists (e - e'). split; [lia|]. rewrite Z.min_r in H by lia.
    rewrite Z.sub_diag in H. change (2 ^ 0) with 1 in H. f_equal; lia.
  - right. exists (e' - e). split; [lia|]. rewrite Z.min_l in H by lia.
    rewrite Z.sub_diag in H. change (2 ^ 0) with 1 in H. f_equal; lia.
Qed.

Lemma rne_scale m k j : 0 <= k -> 0 <= j -> rne (m * 2 ^ j) (k + j) = rne m k.
Proof.
  intros Hk Hj. unfold rne. rewrite Z.pow_add_r by assumption.
  assert (P1 : 0 < 2 ^ k) by (apply Z.pow_pos_nonneg; lia).
  assert (P2 : 0 < 2 ^ j) by (apply Z.pow_pos_nonneg; lia).
  rewrite Z.div_mul_cancel_r by lia. rewrite Z.mul_mod_distr_r by lia.
  set (r := m mod 2 ^ k).
  replace (2 * (r * 2 ^ j) <? 2 ^ k * 2 ^ j) with (2 * r <? 2 ^ k).
  2:{ destruct (Z.ltb_spec (2 * r) (2 ^ k)); destruct (Z.ltb_spec (2 * (r * 2 ^ j)) (2 ^ k * 2 ^ j)); nia. }
  replace (2 ^ k * 2 ^ j <? 2 * (r * 2 ^ j)) with (2 ^ k <? 2 * r); [reflexivity|].
  destruct (Z.ltb_spec (2 ^ k) (2 * r)); destruct (Z.ltb_spec (2 ^ k * 2 ^ j) (2 * (r * 2 ^ j))); nia.
Qed.

Lemma encode_scale s m e k : 0 <= m -> 0 <= k ->
  f32_encode (PF s (m * 2 ^ k) (e - k)) = f32_encode (PF s m e).
Proof.
  intros Hm Hk. cbn [f32_encode].
  assert (P2 : 0 < 2 ^ k) by (apply Z.pow_pos_nonneg; lia).
  destruct (Z.eqb_spec m 0) as [->|Hne]; [reflexivity|].
  replace (m * 2 ^ k =? 0) with false by (symmetry; apply Z.eqb_neq; nia).
  rewrite Z.log2_mul_pow2 by lia.
  replace (e - k + (k + Z.log2 m) - 23) with (e + Z.log2 m - 23) by lia.
  set (q := Z.max (e + Z.log2 m - 23) (-149)).
  assert (E : (if q <=? e - k then m * 2 ^ k * 2 ^ (e - k - q) else rne (m * 2 ^ k) (q - (e - k)))
              = (if q <=? e then m * 2 ^ (e - q) else rne m (q - e))).
  { destruct (Z.leb_spec q (e - k)), (Z.leb_spec q e); try lia.
    - rewrite <- Z.mul_assoc, <- Z.pow_add_r by lia. f_equal. f_equal. lia.
    - replace (q - (e - k)) with (0 + (q - (e - k))) by lia.
      replace (m * 2 ^ k) with ((m * 2 ^ (e - q)) * 2 ^ (q - (e - k))).
      + rewrite rne_scale by lia. unfold rne. change (2 ^ 0) with 1. rewrite Z.div_1_r, Z.mod_1_r.
        reflexivity.
      + rewrite <- Z.mul_assoc, <- Z.pow_add_r by lia. f_equal. f_equal. lia.
    - replace (q - (e - k)) with ((q - e) + k) by lia. apply rne_scale; lia. }
  rewrite E. reflexivity.
Qed.

Definition nonneg (f : pfloat) : Prop := match f with PF _ m _ => 0 <= m | _ => True end.

Lemma encode_feq f g : nonneg g -> feq f g -> f32_encode f = f32_encode g.
Proof.
  destruct f as [s m e|s|b], g as [s' m' e'|s'|b']; cbn [nonneg]; intros Hn Hf;
    try (destruct Hf; fail); try (cbn in Hf; subst; reflexivity).
  assert (Hm : 0 <= m).
  { destruct Hf as [_ Hf].
    assert (0 < 2 ^ (e - Z.min e e')) by (apply Z.pow_pos_nonneg; lia).
    assert (0 < 2 ^ (e' - Z.min e e')) by (apply Z.pow_pos_nonneg; lia). nia. }
  apply feq_scaled in Hf. destruct Hf as [(k & Hk & E)|(k & Hk & E)]; rewrite E.
  - symmetry. apply encode_scale; assumption.
  - apply encode_scale; assumption.
Qed.

Lemma decode_nonneg b : 0 <= b -> nonneg (f32_decode b).
Proof.
  intros Hb. unfold f32_decode, nonneg.
  destruct (_ =? 255); [destruct (_ =? 0); exact Logic.I|].
  destruct (_ =? 0); change (2 ^ 23) with 8388608; lia.
Qed.

Lemma log2_23 f : 0 <= f < 2 ^ 23 -> Z.log2 (2 ^ 23 + f) = 23.
Proof. intros Hf. apply Z.log2_unique; [lia|]. change (2 ^ Z.succ 23) with (2 ^ 23 + 2 ^ 23). lia. Qed.

(** The canonical bit pattern: NaNs are quiet. *)
Definition canon (b : Z) : Z :=
  if ((b / 2 ^ 23) mod 256 =? 255) && negb (b mod 2 ^ 23 =? 0) then Z.lor b (2 ^ 22) else b.

Lemma encode_decode b : 0 <= b < 2 ^ 32 -> f32_encode (f32_decode b) = Ok (canon b).
Proof.
  intros Hb. unfold f32_decode, canon.
  set (s := b / 2 ^ 31). set (x := (b / 2 ^ 23) mod 256). set (f := b mod 2 ^ 23).
  assert (Hs : s = 0 \/ s = 1) by (unfold s; change (2 ^ 31) with 2147483648; change (2 ^ 32) with 4294967296 in Hb; lia).
  assert (Hx : 0 <= x < 256) by (unfold x; lia).
  assert (Hf : 0 <= f < 2 ^ 23) by (unfold f; change (2 ^ 23) with 8388608; lia).
  assert (Eb : b = s * 2 ^ 31 + x * 2 ^ 23 + f).
  { unfold s, x, f. change (2 ^ 31) with 2147483648; change (2 ^ 23) with 8388608;
      change (2 ^ 32) with 4294967296 in Hb. lia. }
  assert (Esb : (if s =? 1 then 2 ^ 31 else 0) = s * 2 ^ 31)
    by (destruct Hs as [-> | ->]; reflexivity).
  destruct (Z.eqb_spec x 255) as [X|X]; cbn [andb].
  { destruct (Z.eqb_spec f 0) as [F|F]; cbn [negb f32_encode]; [|reflexivity].
    rewrite Esb. f_equal. rewrite Eb, X, F. lia. }
  destruct (Z.eqb_spec x 0) as [X0|X0]; cbn [f32_encode].
  - destruct (Z.eqb_spec f 0) as [F|F]; [f_equal; rewrite Esb; lia|].
    assert (Hl : 0 <= Z.log2 f <= 22).
    { split; [apply Z.log2_nonneg|]. assert (Z.log2 f < 23) by (apply Z.log2_lt_pow2; lia). lia. }
    rewrite Z.max_r by lia. rewrite Z.leb_refl. change (2 ^ (-149 - -149)) with 1.
    rewrite Z.mul_1_r.
    replace (f =? 2 ^ 24) with false by (symmetry; apply Z.eqb_neq; change (2 ^ 24) with (2 ^ 23 + 2 ^ 23); lia).
    replace (104 <? -149) with false by reflexivity.
    replace (f <? 2 ^ 23) with true by lia. rewrite Esb. f_equal. lia.
  - replace (2 ^ 23 + f =? 0) with false by lia.
    rewrite log2_23 by assumption.
    replace (x - 150 + 23 - 23) with (x - 150) by lia.
    rewrite Z.max_l by lia. rewrite Z.leb_refl, Z.sub_diag. change (2 ^ 0) with 1. rewrite Z.mul_1_r.
    replace (2 ^ 23 + f =? 2 ^ 24) with false
      by (symmetry; apply Z.eqb_neq; change (2 ^ 24) with (2 ^ 23 + 2 ^ 23); lia).
    replace (104 <? x - 150) with false by lia.
    replace (2 ^ 23 + f <? 2 ^ 23) with false by lia. rewrite Esb. f_equal. lia.
Qed.

Lemma lor_bit22 b : 0 <= b -> Z.lor (Z.lor b (2 ^ 22)) (2 ^ 22) = Z.lor b (2 ^ 22).
Proof. intros _. rewrite <- Z.lor_assoc, Z.lor_diag. reflexivity. Qed.

Lemma lor22_add b : 0 <= b -> Z.lor b (2 ^ 22) = b + (if Z.testbit b 22 then 0 else 2 ^ 22).
Proof.
  intros Hb. destruct (Z.testbit b 22) eqn:T.
  - rewrite Z.add_0_r. apply Z.bits_inj'. intros n Hn. rewrite Z.lor_spec.
    destruct (Z.eqb_spec n 22) as [->|Hne]; [rewrite T; reflexivity|].
    rewrite Z.pow2_bits_false by lia. apply orb_false_r.
  - assert (E : Z.land b (2 ^ 22) = 0).
    { apply Z.bits_inj'. intros n Hn. rewrite Z.land_spec, Z.bits_0.
      destruct (Z.eqb_spec n 22) as [->|Hne]; [rewrite T; reflexivity|].
      rewrite Z.pow2_bits_false by lia. apply andb_false_r. }
    rewrite Z.add_nocarry_lxor by exact E. symmetry. apply Z.lxor_lor. exact E.
Qed.

Lemma testbit22 b : 0 <= b -> Z.testbit b 22 = ((b / 2 ^ 22) mod 2 =? 1).
Proof.
  intros Hb.
  destruct (Z.testbit b 22) eqn:T.
  - apply Z.testbit_true in T; [|lia]. rewrite T. reflexivity.
  - apply Z.testbit_false in T; [|lia]. rewrite T. reflexivity.
Qed.

Lemma canon_range b : 0 <= b < 2 ^ 32 -> 0 <= canon b < 2 ^ 32.
Proof.
  intros Hb. unfold canon. destruct (_ && _); [|assumption].
  rewrite lor22_add by lia. rewrite testbit22 by lia.
  change (2 ^ 22) with 4194304. change (2 ^ 32) with 4294967296 in *.
  destruct (Z.eqb_spec ((b / 4194304) mod 2) 1); lia.
Qed.

Lemma decode_canon b : 0 <= b < 2 ^ 32 -> f32_decode (canon b) = f32_decode b.
Proof.
  intros Hb. unfold canon.
  destruct (((b / 2 ^ 23) mod 256 =? 255) && negb (b mod 2 ^ 23 =? 0)) eqn:E; [|reflexivity].
  apply andb_true_iff in E. destruct E as [E1 E2]. apply Z.eqb_eq in E1.
  apply negb_true_iff in E2. apply Z.eqb_neq in E2.
  unfold f32_decode.
  assert (A1 : (Z.lor b (2 ^ 22) / 2 ^ 23) mod 256 = 255 /\ Z.lor b (2 ^ 22) mod 2 ^ 23 <> 0 /\
               Z.lor b (2 ^ 22) / 2 ^ 31 = b / 2 ^ 31).
  { rewrite lor22_add by lia. rewrite testbit22 by lia.
    change (2 ^ 22) with 4194304. change (2 ^ 23) with 8388608 in *.
    change (2 ^ 31) with 2147483648. change (2 ^ 32) with 4294967296 in *.
    destruct (Z.eqb_spec ((b / 4194304) mod 2) 1); repeat split; lia. }
  destruct A1 as (A1 & A2 & A3). rewrite A1, A3, E1. cbn [Z.eqb Pos.eqb].
  rewrite (proj2 (Z.eqb_neq _ _) A2), (proj2 (Z.eqb_neq _ _) E2).
  rewrite lor_bit22 by lia. reflexivity.
Qed.

(** Writing a representable float produces four bytes that read back as the same
    value. *)
Lemma w_f32_ok v : is_f32 v ->
  exists b, 0 <= b < 2 ^ 32 /\ w_f32 v = Ok (le 4 b) /\ feq v (f32_decode b).
Proof.
  intros (b & Hb & Hf). exists (canon b). split; [apply canon_range; exact Hb|]. split.
  - unfold w_f32. rewrite (encode_feq v (f32_decode b)); [|apply decode_nonneg; lia|exact Hf].
    rewrite encode_decode by exact Hb. reflexivity.
  - rewrite decode_canon by exact Hb. exact Hf.
Qed.

Lemma feq_mul4_div4 f g : feq f g -> feq f (pf_mul4 (pf_div4 g)).
Proof.
  destruct g as [s m e|s|b]; cbn [pf_div4 pf_mul4]; auto.
  replace (e - 2 + 2) with e by lia. auto.
Qed.

Lemma mul4_div4 f : pf_mul4 (pf_div4 f) = f.
Proof. destruct f as [s m e|s|b]; cbn [pf_div4 pf_mul4]; try reflexivity. f_equal. lia. Qed.

Lemma decode_is_f32 b : 0 <= b < 2 ^ 32 -> is_f32 (f32_decode b).
Proof. intros Hb. exists b. split; [assumption|apply feq_refl]. Qed.
