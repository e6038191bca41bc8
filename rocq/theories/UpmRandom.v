(** Lemmas about the random choices of the position manager. *)
From Coq Require Import QArith Qround Lqa.
From Verif Require Import Py VecProofs UpmModel UpmSpec UpmProofs.
Local Open Scope Z_scope.

(** ** Sampling is a permutation *)
Lemma remove_at_perm {A} : forall (l : list A) i, l <> [] ->
  exists x l', remove_at l i = Some (x, l') /\ Permutation (x :: l') l.
Proof.
  induction l as [|x l IH]; intros i H; [contradiction|]. destruct i as [|j]; cbn [remove_at].
  - exists x, l. auto.
  - destruct l as [|y l].
    + destruct j; cbn [remove_at]; exists x, []; auto.
    + destruct (IH j) as (z & l' & E & P); [discriminate|]. rewrite E.
      exists z, (x :: l'). split; [reflexivity|].
      rewrite perm_swap. apply perm_skip. exact P.
Qed.
Lemma sample_n_perm {A} : forall n (l : list A) g, List.length l = n ->
  Permutation (fst (sample_n n l g)) l.
Proof.
  induction n as [|n IH]; intros l g H; cbn [sample_n].
  - destruct l; [constructor|discriminate].
  - destruct (draw g) as [d g1].
    destruct (remove_at_perm l (Z.to_nat (d mod Z.of_nat (List.length l)))) as (x & l' & E & P).
    { intros ->. discriminate. }
    rewrite E. specialize (IH l' g1).
    destruct (sample_n n l' g1) as [r g2]. cbn [fst] in *. rewrite <- P. apply perm_skip, IH.
    apply Permutation_length in P. cbn [List.length] in P. lia.
Qed.
Lemma sample_perm {A} (l : list A) g l' g' : sample l g = (l', g') -> Permutation l' l.
Proof.
  intros E. pose proof (sample_n_perm (List.length l) l g eq_refl) as P.
  unfold sample in E. rewrite E in P. exact P.
Qed.

(** Every permutation can be drawn. *)
Lemma remove_at_app {A} (a : list A) x b : remove_at (a ++ x :: b) (List.length a) = Some (x, a ++ b).
Proof.
  induction a as [|y a IH]; [reflexivity|]. cbn [app List.length remove_at]. rewrite IH. reflexivity.
Qed.
Lemma sample_n_all {A} : forall n (l l' : list A), List.length l = n -> Permutation l' l ->
  exists g, forall g', (forall i, (i < n)%nat -> g' i = g i) -> fst (sample_n n l g') = l'.
Proof.
  induction n as [|n IH]; intros l l' Hl P.
  - destruct l; [|discriminate]. apply Permutation_sym, Permutation_nil in P. subst.
    exists (fun _ => 0). reflexivity.
  - destruct l' as [|x l'].
    { apply Permutation_nil in P. subst. discriminate. }
    assert (In x l) as Hx by (rewrite <- P; left; reflexivity).
    apply in_split in Hx as (a & b & ->).
    assert (Permutation l' (a ++ b)) as P'.
    { apply Permutation_cons_inv with x. rewrite P. symmetry. apply Permutation_middle. }
    destruct (IH (a ++ b) l') as [g Hg]; [rewrite app_length in *; cbn in Hl; lia|exact P'|].
    exists (fun i => match i with O => Z.of_nat (List.length a) | S j => g j end).
    intros g' E. cbn [sample_n draw]. rewrite (E O) by lia.
    rewrite Z.mod_small by (rewrite app_length; cbn [List.length]; lia).
    rewrite Nat2Z.id, remove_at_app. cbn [fst].
    specialize (Hg (fun i => g' (S i))).
    destruct (sample_n n (a ++ b) (fun i => g' (S i))) as [r g2]. cbn [fst] in *.
    rewrite Hg; [reflexivity|]. intros i Hi. rewrite E by lia. reflexivity.
Qed.
Lemma sample_all {A} (l l' : list A) : Permutation l' l -> exists g, fst (sample l g) = l'.
Proof.
  intros P. destruct (sample_n_all (List.length l) l l' eq_refl P) as [g H].
  exists g. apply H. reflexivity.
Qed.

(** ** Weighted choice *)
Lemma wchoice_from_spec {A} : forall (l : list (A * Q)) r u,
  (forall cw, In cw l -> (0 <= snd cw)%Q) -> (u <= r)%Q -> (r <= u + wsum l (List.length l))%Q ->
  l <> [] ->
  exists i c w, nth_error l i = Some (c, w) /\ wchoice_from l r u = Some c /\
    (u + wsum l i <= r \/ i = O)%Q /\ (r <= u + wsum l (S i))%Q /\
    (i = O \/ (u + wsum l i < r)%Q).
Proof.
  induction l as [|[c w] l IH]; intros r u Hw Hu Hr Hl; [contradiction|].
  cbn [wchoice_from]. destruct (Qle_bool r (u + w)) eqn:E.
  - apply Qle_bool_iff in E. exists O, c, w. unfold wsum. cbn [nth_error firstn fold_right snd].
    do 2 (split; [reflexivity|]). split; [right; reflexivity|]. split; [lra|left; reflexivity].
  - assert (~ (r <= u + w)%Q) as N by (intros X; apply Qle_bool_iff in X; congruence).
    apply Qnot_le_lt in N.
    destruct l as [|cw l].
    { unfold wsum in Hr. cbn in Hr. lra. }
    destruct (IH r (u + w)%Q) as (i & c' & w' & E1 & E2 & E3 & E4 & E5).
    + intros x Hx. apply Hw. right. exact Hx.
    + lra.
    + unfold wsum in *. cbn [List.length firstn fold_right snd] in *. lra.
    + discriminate.
    + exists (S i), c', w'. cbn [nth_error]. split; [exact E1|]. split; [exact E2|].
      unfold wsum in *. cbn [firstn fold_right snd] in *.
      split; [left; destruct E5 as [-> | E5]; cbn in *; lra|]. split; [lra|].
      right. destruct E5 as [-> | E5]; cbn in *; lra.
Qed.

Lemma wtotal_from {A} (l : list (A * Q)) : forall s,
  (fold_left (fun s cw => s + snd cw) l s == s + wsum l (List.length l))%Q.
Proof.
  induction l as [|[c w] l IH]; intros s; cbn [fold_left].
  - unfold wsum. cbn. lra.
  - rewrite IH. unfold wsum. cbn [List.length firstn fold_right snd]. lra.
Qed.
Lemma wtotal_wsum {A} (l : list (A * Q)) : (wtotal l == wsum l (List.length l))%Q.
Proof. unfold wtotal. rewrite wtotal_from. lra. Qed.

Lemma wsum_nonneg {A} (l : list (A * Q)) : (forall cw, In cw l -> (0 <= snd cw)%Q) ->
  forall n, (0 <= wsum l n)%Q.
Proof.
  intros H n. unfold wsum. revert l H. induction n as [|n IH]; intros l H; cbn [firstn fold_right]; [lra|].
  destruct l as [|cw l]; cbn [fold_right]; [lra|].
  specialize (IH l (fun x Hx => H x (or_intror Hx))). specialize (H cw (or_introl eq_refl)). lra.
Qed.

Lemma uniform_range t g r g' : (0 <= t)%Q -> uniform t g = (r, g') -> (0 <= r <= t)%Q.
Proof.
  unfold uniform, draw. intros Ht E. apply (f_equal fst) in E. cbn [fst] in E. subst r.
  pose proof (Z.mod_pos_bound (g O) (2 ^ 53 + 1) ltac:(lia)) as B.
  set (k := g O mod (2 ^ 53 + 1)) in *. clearbody k.
  assert (0 <= k # 2 ^ 53)%Q by (unfold Qle; cbn [Qnum Qden]; lia).
  assert (k # 2 ^ 53 <= 1)%Q.
  { unfold Qle. cbn [Qnum Qden]. change (Z.pos (2 ^ 53)) with (2 ^ 53). lia. }
  split.
  - apply Qmult_le_0_compat; assumption.
  - apply Qle_trans with (1 * t)%Q; [|lra]. rewrite Qmult_comm.
    apply Qmult_le_compat_r; assumption.
Qed.

Lemma wchoice_lemma {A} (l : list (A * Q)) r :
  l <> [] -> (forall cw, In cw l -> (0 <= snd cw)%Q) -> (0 <= r)%Q -> (r <= wsum l (List.length l))%Q ->
  exists i c w, nth_error l i = Some (c, w) /\ wchoice l r = Some c /\
    (wsum l i < r \/ (i = O /\ wsum l i <= r))%Q /\ (r <= wsum l (S i))%Q /\
    (w == 0 -> r == 0)%Q.
Proof.
  intros Hl Hw H0 Hr. unfold wchoice.
  destruct (wchoice_from_spec l r 0%Q Hw) as (i & c & w & E1 & E2 & E3 & E4 & E5); [lra|lra|exact Hl|].
  exists i, c, w. split; [exact E1|]. split; [exact E2|].
  assert (wsum l (S i) == wsum l i + w)%Q as S1.
  { clear - E1. unfold wsum. revert l E1. induction i as [|i IH]; intros l E1.
    - destruct l as [|cw l]; [discriminate|]. injection E1 as ->. cbn. lra.
    - destruct l as [|cw l]; [discriminate|]. cbn [nth_error] in E1. apply IH in E1.
      change (firstn (S (S i)) (cw :: l)) with (cw :: firstn (S i) l).
      change (firstn (S i) (cw :: l)) with (cw :: firstn i l). cbn [fold_right].
      rewrite E1. lra. }
  split; [|split; [lra|]].
  - destruct E5 as [-> | E5]; [right; split; [reflexivity|]|left; lra].
    unfold wsum. cbn. lra.
  - intros W. destruct E5 as [-> | E5]; [|lra]. unfold wsum in S1 at 2. cbn [firstn fold_right] in S1. lra.
Qed.

Lemma weighted_choice_some {A} (l : list (A * Q)) g x g' :
  l <> [] -> (forall cw, In cw l -> (0 <= snd cw)%Q) ->
  weighted_choice l g = (x, g') -> exists c w, x = Some c /\ In (c, w) l.
Proof.
  unfold weighted_choice. intros Hl Hw E.
  destruct (uniform (wtotal l) g) as [r g1] eqn:U. injection E as <- _.
  apply uniform_range in U; [|rewrite wtotal_wsum; apply wsum_nonneg, Hw].
  destruct (wchoice_lemma l r Hl Hw) as (i & c & w & E1 & E2 & _).
  - lra.
  - rewrite <- wtotal_wsum. lra.
  - exists c, w. split; [exact E2|]. eapply nth_error_In, E1.
Qed.
Lemma weighted_choice_in {A} (l : list (A * Q)) g c g' :
  weighted_choice l g = (Some c, g') -> exists w, In (c, w) l.
Proof.
  unfold weighted_choice. destruct (uniform (wtotal l) g) as [r g1]. intros E. injection E as E _.
  unfold wchoice in E. revert E. generalize 0%Q.
  induction l as [|[c' w'] l IH]; intros u E; cbn [wchoice_from] in E; [discriminate|].
  destruct (Qle_bool r (u + w')).
  - injection E as ->. exists w'. left. reflexivity.
  - apply IH in E as [w E]. exists w. right. exact E.
Qed.

(** ** Picking an open door *)
Lemma combine_seq_nth {A} (l : list A) : forall s i x, In (i, x) (combine (seq s (List.length l)) l) ->
  (s <= i)%nat /\ nth_error l (i - s) = Some x.
Proof.
  induction l as [|y l IH]; intros s i x H; cbn [List.length seq combine] in H; [contradiction|].
  destruct H as [H | H].
  - injection H as -> ->. rewrite Nat.sub_diag. auto.
  - apply IH in H as [H1 H2]. split; [lia|].
    replace (i - s)%nat with (S (i - S s)) by lia. exact H2.
Qed.

Lemma nonrandom_in fl st g e g' : nonrandom_position fl st g = (Ok e, g') -> In e (u_open st).
Proof.
  unfold nonrandom_position. destruct (weighted_choice _ g) as [wc g1].
  destruct (u_open st) as [|e0 l] eqn:O; [discriminate|]. intros E. injection E as E _.
  destruct wc as [i|]; [|discriminate].
  destruct (nth_error (e0 :: l) i) eqn:N; [|discriminate]. injection E as <-.
  eapply nth_error_In, N.
Qed.
Lemma nonrandom_total fl st g x g' : u_open st <> [] ->
  (forall e, In e (u_open st) -> (0 <= fl (fst (fst e)))%Q) ->
  nonrandom_position fl st g = (x, g') -> exists e, x = Ok e.
Proof.
  intros Ho Hf. unfold nonrandom_position.
  destruct (weighted_choice _ g) as [wc g1] eqn:W.
  apply weighted_choice_some in W as (i & w & -> & W).
  - apply in_map_iff in W as ([i' e] & W1 & W2). injection W1 as W1 _. cbn [fst] in W1. subst i'.
    apply combine_seq_nth in W2 as [_ W2]. rewrite Nat.sub_0_r in W2.
    unfold open_door, obj in *.
    destruct (u_open st) as [|e0 l]; [contradiction|].
    intros E. rewrite W2 in E. injection E as <- _. eauto.
  - destruct (u_open st); [contradiction|]. discriminate.
  - intros cw Hc. apply in_map_iff in Hc as ([i e] & <- & H). cbn [fst snd].
    apply Hf. apply in_combine_r in H. exact H.
Qed.

(** ** The stream of classes *)

Lemma dedupe_in : forall l seen c, In c (dedupe seen l) -> In c l /\ ~ In (rc_id c) seen.
Proof.
  induction l as [|x l IH]; intros seen c H; cbn [dedupe] in H; [contradiction|].
  destruct (existsb _ seen) eqn:E.
  - apply IH in H as [H1 H2]. split; [right; exact H1|exact H2].
  - destruct H as [-> | H].
    + split; [left; reflexivity|]. intros Hin.
      assert (existsb (Z.eqb (rc_id c)) seen = true) by (apply existsb_exists; exists (rc_id c); split; [exact Hin|apply Z.eqb_refl]).
      congruence.
    + apply IH in H as [H1 H2]. cbn [In] in H2. split; [right; exact H1|tauto].
Qed.
Lemma dedupe_complete : forall l seen c, In c l -> ~ In (rc_id c) seen ->
  exists c', In c' (dedupe seen l) /\ rc_id c' = rc_id c.
Proof.
  induction l as [|x l IH]; intros seen c H N; [contradiction|]. cbn [dedupe].
  destruct (existsb (Z.eqb (rc_id x)) seen) eqn:E.
  - destruct H as [-> | H]; [|eauto]. exfalso. apply N.
    apply existsb_exists in E as [k [E1 E2]]. apply Z.eqb_eq in E2. subst. exact E1.
  - destruct (Z.eq_dec (rc_id x) (rc_id c)) as [Q | Q].
    + exists x. split; [left; reflexivity|exact Q].
    + destruct H as [-> | H]; [contradiction|].
      destruct (IH (rc_id x :: seen) c H) as (c' & C1 & C2).
      { cbn [In]. tauto. }
      exists c'. split; [right; exact C1|exact C2].
Qed.
Lemma dedupe_nodup : forall l seen, NoDup (map rc_id (dedupe seen l)).
Proof.
  induction l as [|x l IH]; intros seen; cbn [dedupe]; [constructor|].
  destruct (existsb _ seen); [apply IH|]. cbn [map]. constructor; [|apply IH].
  intros H. apply in_map_iff in H as (c & E & H). apply dedupe_in in H as [_ H].
  apply H. left. auto.
Qed.

Lemma qmin_le l : forall m, (qmin m l <= m)%Q /\ (forall x, In x l -> (qmin m l <= x)%Q).
Proof.
  induction l as [|y l IH]; intros m; cbn [qmin].
  - split; [lra|intros ? []].
  - destruct (Qle_bool m y) eqn:E.
    + apply Qle_bool_iff in E. destruct (IH m) as [H1 H2]. split; [exact H1|].
      intros x [-> | Hx]; [lra|auto].
    + assert (~ (m <= y)%Q) as N by (intros X; apply Qle_bool_iff in X; congruence).
      apply Qnot_le_lt in N. destruct (IH y) as [H1 H2]. split; [lra|].
      intros x [-> | Hx]; [exact H1|auto].
Qed.
Lemma qmin_pos l : forall m, (0 < m)%Q -> (forall x, In x l -> (0 < x)%Q) -> (0 < qmin m l)%Q.
Proof.
  induction l as [|y l IH]; intros m Hm Hl; cbn [qmin]; [exact Hm|].
  apply IH; [|intros; apply Hl; right; assumption].
  destruct (Qle_bool m y); [exact Hm|apply Hl; left; reflexivity].
Qed.

Lemma prob_pos e prev c : good_env e -> (0 < prob e prev c)%Q.
Proof.
  intros [G _]. unfold prob. destruct (e_tp e _ _) as [p|] eqn:E; [eapply G, E|reflexivity].
Qed.

Lemma frequency_pos e p m : good_env e -> (0 < m)%Q -> (m <= p)%Q -> 1 <= frequency e p m.
Proof.
  intros [_ G] Hm Hp. unfold frequency.
  assert (1 <= p / m)%Q as Q1.
  { apply Qle_shift_div_l; lra. }
  apply G in Q1. destruct (e_round e (p / m)) as [n d]. unfold Qle in Q1. cbn [Qnum Qden] in *.
  apply Z.quot_le_lower_bound; lia.
Qed.

Lemma room_stream_lemma e prev opts g x g' : good_env e -> opts <> [] ->
  room_stream e prev opts g = (x, g') ->
  exists cs, x = Ok cs /\ NoDup (map rc_id cs) /\ (forall c, In c cs -> In c opts) /\
    (forall c, In c opts -> exists c', In c' cs /\ rc_id c' = rc_id c).
Proof.
  intros G Ho. unfold room_stream.
  destruct (map (prob e prev) opts) as [|p0 ps] eqn:M.
  { destruct opts; [contradiction|discriminate]. }
  assert (forall c, In c opts -> (qmin p0 ps <= prob e prev c)%Q) as Hmin.
  { intros c Hc. assert (In (prob e prev c) (p0 :: ps)) as Hi by (rewrite <- M; apply in_map, Hc).
    destruct (qmin_le ps p0) as [H1 H2]. destruct Hi as [<- | Hi]; auto. }
  assert (forall p, In p (p0 :: ps) -> (0 < p)%Q) as Hpos.
  { intros p Hp. rewrite <- M in Hp. apply in_map_iff in Hp as (c & <- & _). apply prob_pos, G. }
  assert (0 < qmin p0 ps)%Q as Hm.
  { apply qmin_pos; [apply Hpos; left; reflexivity|intros; apply Hpos; right; assumption]. }
  destruct (Qeq_bool (qmin p0 ps) 0) eqn:E.
  { apply Qeq_bool_iff in E. lra. }
  destruct (sample _ g) as [s g1] eqn:S. intros Q. injection Q as <- <-.
  apply sample_perm in S.
  exists (dedupe [] s). split; [reflexivity|]. split; [apply dedupe_nodup|]. split.
  - intros c Hc. apply dedupe_in in Hc as [Hc _]. rewrite S in Hc.
    apply in_flat_map in Hc as (c' & H1 & H2). apply repeat_spec in H2. subst. exact H1.
  - intros c Hc. apply dedupe_complete; [|intros []]. rewrite S. apply in_flat_map.
    exists c. split; [exact Hc|].
    pose proof (frequency_pos e (prob e prev c) (qmin p0 ps) G Hm (Hmin c Hc)) as F.
    destruct (Z.to_nat (frequency e (prob e prev c) (qmin p0 ps))) eqn:N; [lia|]. left. reflexivity.
Qed.

Lemma room_stream_perm e prev opts g x g' : good_env e -> opts <> [] -> NoDup (map rc_id opts) ->
  room_stream e prev opts g = (x, g') -> exists cs, x = Ok cs /\ Permutation cs opts.
Proof.
  intros G Ho N E. destruct (room_stream_lemma _ _ _ _ _ _ G Ho E) as (cs & -> & H1 & H2 & H3).
  exists cs. split; [reflexivity|].
  assert (forall l : list rclass, NoDup (map rc_id l) -> NoDup l) as ND.
  { intros l. induction l as [|c l IH]; intros Hn; [constructor|]. cbn [map] in Hn.
    inversion Hn; subst. constructor; [|auto]. intros Hc. apply H4, in_map, Hc. }
  apply NoDup_Permutation; auto.
  intros c. split; [apply H2|]. intros Hc.
  destruct (H3 c Hc) as (c' & C1 & C2). enough (c' = c) as <- by exact C1.
  specialize (H2 c' C1). clear - N H2 Hc C2.
  induction opts as [|y l IH]; [contradiction|]. cbn [map] in N. inversion N; subst.
  destruct H2 as [<- | H2], Hc as [<- | Hc]; auto.
  - exfalso. apply H1. rewrite C2. apply in_map, Hc.
  - exfalso. apply H1. rewrite <- C2. apply in_map, H2.
Qed.
Lemma coherent_nodup opts : NoDup (map rc_id opts) -> coherent opts.
Proof.
  intros N c c' Hc Hc' E.
  induction opts as [|y l IH]; [contradiction|]. cbn [map] in N. inversion N; subst.
  destruct Hc as [<- | Hc], Hc' as [<- | Hc']; auto.
  - exfalso. apply H1. rewrite E. apply in_map, Hc'.
  - exfalso. apply H1. rewrite <- E. apply in_map, Hc.
Qed.
