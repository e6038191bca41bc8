(** Proofs for the colours of lights. *)
From Coq Require Import QArith Qround Qminmax Qabs Lqa.
From Verif Require Import Py VecModel VecSpec VoxelModel VoxelSpec CodecModel CodecSpec OutModel OutSpec UpmModel UpmSpec KitModel KitSpec
  RoomModel MagicaModel RoomSpec TexModel TexSpec LightModel LightSpec VoxFileModel ShippedModel ShippedSpec ShippedProofs DistModel DistSpec GenModel GenSpec GenLayout GenDraw GenProofs HueModel HueSpec.
Local Open Scope Q_scope.

Section Round.
Variables (rd : Q -> Q) (R : rounding rd).
Let mono := proj1 R.
Let ints := proj2 R.
Lemma rd0 : rd 0 == 0. Proof. apply (ints 0). lia. Qed.
Lemma rd1 : rd 1 == 1. Proof. apply (ints 1). lia. Qed.
Lemma rd_ge z q : (- 2 ^ 53 <= z <= 2 ^ 53)%Z -> inject_Z z <= q -> inject_Z z <= rd q.
Proof. intros Hz H. rewrite <- (ints z Hz). apply mono. exact H. Qed.
Lemma rd_le z q : (- 2 ^ 53 <= z <= 2 ^ 53)%Z -> q <= inject_Z z -> rd q <= inject_Z z.
Proof. intros Hz H. rewrite <- (ints z Hz). apply mono. exact H. Qed.
Lemma q_int_pos q : 0 <= q -> q_int q = Qfloor q.
Proof. intros H. unfold q_int. rewrite (proj2 (Qle_bool_iff 0 q) H). reflexivity. Qed.
Lemma frac_bounds q : 0 <= q - inject_Z (Qfloor q) <= 1.
Proof. pose proof (Qfloor_le q). pose proof (Qlt_floor q). rewrite inject_Z_plus in H0. change (inject_Z 1) with 1 in H0. lra. Qed.
Lemma unit_rd q : 0 <= q <= 1 -> 0 <= rd q <= 1.
Proof. intros [A B]. split; [apply (rd_ge 0); [lia|exact A]|apply (rd_le 1); [lia|exact B]]. Qed.
Lemma hue_unit r g b : 0 <= hsv_hue rd r g b <= 1.
Proof. unfold hsv_hue. destruct (_ =? _)%Z; [lra|]. apply unit_rd, frac_bounds. Qed.

(** The middle component of a colour. *)
Lemma between s f v : rd s == s -> 0 <= s <= 1 -> 0 <= f <= 1 -> (0 <= v <= 255)%Z ->
  rd (inject_Z v * rd (1 - s)) <= rd (inject_Z v * rd (1 - rd (s * f))) /\ rd (inject_Z v * rd (1 - rd (s * f))) <= inject_Z v.
Proof.
  intros Es Hs Hf Hv. assert (0 <= inject_Z v) as V0 by (change 0 with (inject_Z 0); rewrite <- Zle_Qle; lia).
  assert (0 <= s * f <= s) as Hu by (split; nra). assert (rd (s * f) <= s) as Hs' by (rewrite <- Es at 2; apply mono; tauto).
  assert (0 <= rd (s * f)) as H0 by (apply (rd_ge 0); [lia|tauto]).
  assert (0 <= rd (1 - rd (s * f)) <= 1) as Hw by (apply unit_rd; lra).
  assert (rd (1 - s) <= rd (1 - rd (s * f))) as Hm by (apply mono; lra).
  split.
  - apply mono. nra.
  - apply (rd_le v); [lia|]. nra.
Qed.
Lemma least s v : 0 <= s <= 1 -> (0 <= v <= 255)%Z -> 0 <= rd (inject_Z v * rd (1 - s)) <= inject_Z v.
Proof.
  intros Hs Hv. assert (0 <= inject_Z v) as V0 by (change 0 with (inject_Z 0); rewrite <- Zle_Qle; lia).
  assert (0 <= rd (1 - s) <= 1) as Hp by (apply unit_rd; lra).
  split; [apply (rd_ge 0); [lia|]; change (inject_Z 0) with 0; nra|apply (rd_le v); [lia|]; nra].
Qed.
Lemma bright_byte br : 0 <= br -> (0 <= bright rd br <= 255)%Z /\ q_int (rd (255 * Qmin br 1)) = bright rd br.
Proof.
  intros H. unfold bright. assert (0 <= Qmin br 1 <= 1) as Hm by (split; [apply Q.min_glb; lra|apply Q.le_min_r]).
  assert (0 <= rd (255 * Qmin br 1) <= 255) as [A B].
  { split; [apply (rd_ge 0); [lia|]; change (inject_Z 0) with 0; lra|]. apply (rd_le 255); [lia|]. change (inject_Z 255) with 255. lra. }
  split; [|apply q_int_pos, A]. apply Qfloor_resp_le in A, B. change (Qfloor 0) with 0%Z in A. change (Qfloor 255) with 255%Z in B. lia.
Qed.
Lemma rgb_spans h s v : rd s == s -> 0 <= s <= 1 -> 0 <= h <= 1 -> (0 <= v <= 255)%Z ->
  let '(r, g, b) := hsv_rgb rd h s v in spans (Qfloor (rd (inject_Z v * rd (1 - s)))) v (q_int r, q_int g, q_int b).
Proof.
  intros Es Hs Hh Hv. unfold hsv_rgb.
  assert (0 <= inject_Z v) as V0 by (change 0 with (inject_Z 0); rewrite <- Zle_Qle; lia).
  assert (q_int (inject_Z v) = v) as Ev by (rewrite (q_int_pos _ V0); apply Qfloor_Z).
  set (p := rd (inject_Z v * rd (1 - s))).
  destruct (Qeq_bool s 0) eqn:E0.
  { apply Qeq_bool_iff in E0. unfold spans. rewrite Ev.
    assert (Qfloor p = v) as Ep.
    { rewrite <- (Qfloor_Z v). apply Qfloor_comp. unfold p.
      assert (rd (1 - s) == 1) as E1. { apply Qle_antisym; [rewrite <- rd1 at 2|rewrite <- rd1 at 1]; apply mono; lra. }
      rewrite <- (ints v ltac:(lia)) at 2. apply Qle_antisym; apply mono; nra. }
    rewrite Ep. cbn [In]. repeat split; try lia; auto. }
  clear E0. set (h6 := rd (h * 6)).
  assert (0 <= h6) as H6 by (apply (rd_ge 0); [lia|]; change (inject_Z 0) with 0; lra).
  rewrite (q_int_pos h6 H6). set (i := Qfloor h6). set (f := rd (h6 - inject_Z i)).
  assert (0 <= f <= 1) as Hf by apply unit_rd, frac_bounds.
  assert (0 <= rd (1 - f) <= 1) as Hf' by (apply unit_rd; lra).
  destruct (between s f v Es Hs Hf Hv) as [Q1 Q2]. destruct (between s (rd (1 - f)) v Es Hs Hf' Hv) as [T1 T2]. destruct (least s v Hs Hv) as [P0 P1].
  fold p in Q1, T1, P0, P1. set (q := rd (inject_Z v * rd (1 - rd (s * f)))) in *. set (t := rd (inject_Z v * rd (1 - rd (s * rd (1 - f))))) in *.
  assert (q_int p = Qfloor p) as Ep by apply q_int_pos, P0.
  assert (q_int q = Qfloor q) as Eq by (apply q_int_pos; lra). assert (q_int t = Qfloor t) as Et by (apply q_int_pos; lra).
  apply Qfloor_resp_le in Q1, Q2, T1, T2, P1. rewrite Qfloor_Z in Q2, T2, P1.
  destruct (i mod 6)%Z as [|x|x]; [|repeat (destruct x as [x|x|]; try (unfold spans; rewrite Ep, Ev, ?Eq, ?Et; cbn [In]; repeat split; auto; lia))|];
    unfold spans; rewrite Ep, Ev, ?Eq, ?Et; cbn [In]; repeat split; auto; lia.
Qed.
Lemma hue_spans noise scale br s pos : 0 <= br -> 0 <= s <= 1 -> rd s == s ->
  spans (dim rd br s) (bright rd br) (position_hue rd noise scale br s pos).
Proof.
  intros Hb Hs Es. destruct (bright_byte br Hb) as [Bv Be]. unfold position_hue. rewrite Be.
  set (h := hsv_hue rd _ _ _). pose proof (rgb_spans h s (bright rd br) Es Hs (hue_unit _ _ _) Bv) as S0.
  destruct (hsv_rgb rd h s (bright rd br)) as [[r g] b]. exact S0.
Qed.
Lemma dim_pos br s : 0 <= br -> 0 <= s <= 1 -> (0 <= dim rd br s)%Z.
Proof.
  intros Hb Hs. destruct (bright_byte br Hb) as [Bv _]. destruct (least s _ Hs Bv) as [A _]. unfold dim.
  apply Qfloor_resp_le in A. change (Qfloor 0) with 0%Z in A. exact A.
Qed.
Lemma hue_bytes noise scale br s : 0 <= br -> 0 <= s <= 1 -> rd s == s -> byte_hues (position_hue rd noise scale br s).
Proof.
  intros Hb Hs Es q. pose proof (hue_spans noise scale br s q Hb Hs Es) as S0. pose proof (dim_pos br s Hb Hs). destruct (bright_byte br Hb) as [Bv _].
  destruct (position_hue rd noise scale br s q) as [[r g] b]. destruct S0 as (A & B & C & _). lia.
Qed.
End Round.

(** ** Lights of a generated map *)
Local Open Scope Z_scope.
Lemma asked_light hue t x e : asked_for hue t x e -> e_type e = 1 -> exists q, colour_of e (hue q).
Proof.
  intros (_ & _ & A) T. destruct x; try (rewrite T in A; destruct A as [A _]; discriminate A).
  - destruct A as (_ & q & r & g & b & Eh & Ea). exists q. rewrite Eh. unfold colour_of. eauto.
  - rewrite T in A. destruct A as [[A _]|[A _]]; discriminate A.
Qed.
Lemma map_lights fuel e hue vecs tm size n ctf rooms m g tm' w m2 st g' es : true_vectors vecs -> manager tm -> mirror_factor n -> good_env e ->
  generate fuel e hue vecs tm size (Some n) false ctf rooms m g = (tm', Ok (w, m2, st), g') -> m_ents m2 = m_ents m ++ es ->
  forall x, In x es -> e_type x = 1 -> exists q, colour_of x (hue q).
Proof.
  intros TV M Hn G EG EE x Hx T. destruct (generate_lays _ _ _ _ _ _ _ _ _ _ _ _ _ _ _ _ _ EG) as (g1 & E).
  destruct (generate_ok fuel e hue vecs tm size n ctf rooms m g st g1 TV M Hn G E)
    as (tm2 & w2 & m3 & g3 & sun & ess & EG2 & L & _ & IS & _ & (ME & _) & FA & _).
  assert (m3 = m2) as -> by congruence. rewrite EE in ME. apply app_inv_head in ME. subst es.
  destruct Hx as [<-|Hx]; [destruct IS as [A _]; rewrite T in A; discriminate A|].
  clear - FA Hx T. induction FA as [|ob l obs ess (s & _ & A & _) _ IH]; [destruct Hx|]. cbn [List.concat] in Hx. apply in_app_or in Hx as [Hx|Hx]; [|auto].
  clear - A Hx T. induction A as [|y z l l' A _ IH]; [destruct Hx|]. destruct Hx as [<-|Hx]; [exact (asked_light _ _ _ _ A T)|auto].
Qed.
Lemma map_hues rd fuel e noise scale br s vecs tm size n ctf rooms m g tm' w m2 st g' es :
  rounding rd -> (0 <= br)%Q -> (0 <= s <= 1)%Q -> (rd s == s)%Q -> true_vectors vecs -> manager tm -> mirror_factor n -> good_env e ->
  generate fuel e (position_hue rd noise scale br s) vecs tm size (Some n) false ctf rooms m g = (tm', Ok (w, m2, st), g') -> m_ents m2 = m_ents m ++ es ->
  forall x, In x es -> e_type x = 1 -> exists c, colour_of x c /\ spans (dim rd br s) (bright rd br) c.
Proof.
  intros R Hb Hs Es TV M Hn G EG EE x Hx T. destruct (map_lights _ _ _ _ _ _ _ _ _ _ _ _ _ _ _ _ _ TV M Hn G EG EE x Hx T) as (q & C).
  exists (position_hue rd noise scale br s q). split; [exact C|]. apply hue_spans; assumption.
Qed.
