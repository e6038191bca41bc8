(** Lemmas about the vector model. *)
From Verif Require Import Py VecModel VecSpec.
Ltac Zify.zify_post_hook ::= Z.div_mod_to_equations.

Lemma t3_inv (a b c a' b' c' : Z) : (a, b, c) = (a', b', c') -> a = a' /\ b = b' /\ c = c'.
Proof. intros E; injection E; auto. Qed.

(** Replace triple equations by component equations. *)
Ltac inv_pairs := repeat match goal with
  | H : (_, _, _) = (_, _, _) |- _ =>
      let A := fresh "A" in apply t3_inv in H; destruct H as (A & ? & ?)
  end.

Lemma t3_eq (a b c a' b' c' : Z) : a = a' -> b = b' -> c = c' -> (a, b, c) = (a', b', c').
Proof. congruence. Qed.

Lemma orientation_constants :
  vrotate NORTH (Deg 90) = Ok WEST /\ vrotate NORTH (Deg 180) = Ok SOUTH /\
  vrotate NORTH (Deg 270) = Ok EAST /\ vsub VOXEL_OFFSET TILE_CENTER = Ok TILE_VOX_OFF /\
  vrotate NORTH_FINE (Deg 90) = Ok WEST_FINE /\ vrotate NORTH_FINE (Deg 180) = Ok SOUTH_FINE /\
  vrotate NORTH_FINE (Deg 270) = Ok EAST_FINE.
Proof. vm_compute. repeat split. Qed.

Lemma raw_eqb_iff a b : raw_eqb a b = true <-> coords2 a = coords2 b.
Proof.
  unfold raw_eqb, coords2, neqb. rewrite !andb_true_iff, !Z.eqb_eq.
  split; [intros [[-> ->] ->]; reflexivity | intros E; injection E; auto].
Qed.

Lemma halves_nmulz n m : halves (nmulz n m) = halves n * m.
Proof. destruct n; cbn [halves nmulz]; lia. Qed.
Lemma halves_nadd a b : halves (nadd a b) = halves a + halves b.
Proof. destruct a, b; cbn [halves nadd]; lia. Qed.
Lemma halves_nsub a b : halves (nsub a b) = halves a - halves b.
Proof. destruct a, b; cbn [halves nsub]; lia. Qed.

Lemma vfine_ok a : vc a <> Base -> exists f, vfine a = Ok f /\ vc f = Fine /\ coords2 f = fpos2 a.
Proof.
  destruct a as [[] x y z]; cbn [vc]; intros N; [congruence| |]; unfold vfine; cbn [vc vmul vx vy vz].
  - eexists; split; [reflexivity|split; reflexivity].
  - eexists; split; [reflexivity|split; [reflexivity|]].
    unfold coords2, fpos2, coords2; cbn [vc vx vy vz]. rewrite !halves_nmulz. apply t3_eq; lia.
Qed.

Lemma veq_meaning a b :
  veq a b = true <->
  (vc a = Base /\ vc b = Base /\ coords2 a = coords2 b) \/
  (vc a <> Base /\ vc b <> Base /\ fpos2 a = fpos2 b).
Proof.
  destruct a as [[] ax ay az], b as [[] bx by_ bz];
    unfold veq, base_eq, fine_eq, coarse_eq, fpos2; cbn [vc vfine vmul vx vy vz];
    rewrite ?raw_eqb_iff; unfold coords2; cbn [vc vx vy vz]; rewrite ?halves_nmulz;
    (split;
     [ intros E; inv_pairs;
       first [ discriminate E
             | left; split; [reflexivity|split; [reflexivity|apply t3_eq; lia]]
             | right; split; [discriminate|split; [discriminate|apply t3_eq; lia]] ]
     | intros [(N1 & N2 & E) | (N1 & N2 & E)]; inv_pairs;
       first [ discriminate N1 | discriminate N2 | congruence | apply t3_eq; lia ] ]).
Qed.

Lemma veq_refl a : veq a a = true.
Proof. apply veq_meaning. destruct (vc a) eqn:E; [left|right|right]; repeat split; congruence. Qed.

Lemma veq_sym a b : veq a b = veq b a.
Proof.
  apply eq_true_iff_eq. rewrite !veq_meaning. intuition congruence.
Qed.

Lemma veq_trans a b c : veq a b = true -> veq b c = true -> veq a c = true.
Proof. rewrite !veq_meaning. intuition congruence. Qed.

Lemma veq_equivalence :
  (forall a, veq a a = true) /\ (forall a b, veq a b = true -> veq b a = true) /\
  (forall a b c, veq a b = true -> veq b c = true -> veq a c = true).
Proof.
  split; [exact veq_refl|split; [|exact veq_trans]].
  intros a b E. rewrite veq_sym. exact E.
Qed.

Lemma nfloor_halves n : nfloor n = halves n / 2.
Proof. destruct n; cbn [nfloor halves]; lia. Qed.

Lemma hash_same_class a b : vc a = vc b -> veq a b = true -> vhash a = vhash b.
Proof.
  intros Hc E. apply veq_meaning in E.
  assert (coords2 a = coords2 b) as Ec.
  { destruct E as [(_ & _ & E)|(_ & _ & E)]; [exact E|].
    destruct a as [ca ax ay az], b as [cb bx by_ bz]. cbn [vc] in Hc. subst cb.
    unfold fpos2, coords2 in *; cbn [vc vx vy vz] in *.
    destruct ca; inv_pairs; apply t3_eq; lia. }
  unfold vhash. rewrite !nfloor_halves, Hc.
  unfold coords2 in Ec. injection Ec; intros -> -> ->. reflexivity.
Qed.

Lemma hash_cross_class_refuted : exists a b, veq a b = true /\ vhash a <> vhash b.
Proof.
  exists (V Coarse (I 1) (I 1) (I 1)), (V Fine (I 8) (I 8) (I 8)).
  split; [reflexivity | vm_compute; congruence].
Qed.

Lemma vlt_meaning a b :
  vlt a b = true <->
  (halves (vx a) < halves (vx b) \/
   (halves (vx a) = halves (vx b) /\
    (halves (vy a) < halves (vy b) \/
     (halves (vy a) = halves (vy b) /\ halves (vz a) < halves (vz b))))).
Proof.
  unfold vlt, nltb, neqb.
  destruct (halves (vx a) <? halves (vx b)) eqn:E1; [split; [lia|reflexivity]|].
  destruct (halves (vx a) =? halves (vx b)) eqn:E2; [|split; [discriminate|lia]].
  destruct (halves (vy a) <? halves (vy b)) eqn:E3; [split; [lia|reflexivity]|].
  destruct (halves (vy a) =? halves (vy b)) eqn:E4; [|split; [discriminate|lia]].
  destruct (halves (vz a) <? halves (vz b)) eqn:E5; split; (lia || discriminate || reflexivity).
Qed.

Lemma coords2_iff a b : coords2 a = coords2 b <->
  halves (vx a) = halves (vx b) /\ halves (vy a) = halves (vy b) /\ halves (vz a) = halves (vz b).
Proof.
  unfold coords2; split; [intros E; injection E; auto | intros (-> & -> & ->); reflexivity].
Qed.

Lemma veq_same_class a b : vc a = vc b -> (veq a b = true <-> coords2 a = coords2 b).
Proof.
  intros Hc. rewrite veq_meaning. unfold fpos2. rewrite Hc.
  unfold coords2. destruct (vc b);
    (split; [intros [(? & ? & E)|(? & ? & E)]; inv_pairs; try congruence;
             apply t3_eq; lia
            | intros E; inv_pairs; 
              try (left; repeat split; congruence);
              right; repeat split; try congruence; apply t3_eq; lia]).
Qed.

Lemma vlt_strict_total :
  (forall a, vlt a a = false) /\
  (forall a b c, vlt a b = true -> vlt b c = true -> vlt a c = true) /\
  (forall a b, vc a = vc b ->
     (vlt a b = true /\ veq a b = false /\ vlt b a = false) \/
     (vlt a b = false /\ veq a b = true /\ vlt b a = false) \/
     (vlt a b = false /\ veq a b = false /\ vlt b a = true)) /\
  (forall a b, vc a = vc b -> (vle a b = true <-> vlt b a = false)).
Proof.
  assert (T : forall a b, vc a = vc b ->
     (vlt a b = true /\ veq a b = false /\ vlt b a = false) \/
     (vlt a b = false /\ veq a b = true /\ vlt b a = false) \/
     (vlt a b = false /\ veq a b = false /\ vlt b a = true)).
  { intros a b Hc.
    pose proof (vlt_meaning a b) as L1. pose proof (vlt_meaning b a) as L2.
    pose proof (veq_same_class a b Hc) as E. rewrite coords2_iff in E.
    destruct (vlt a b), (vlt b a), (veq a b); intuition lia. }
  split; [|split; [|split]].
  - intros a. destruct (vlt a a) eqn:E; [|reflexivity]. apply vlt_meaning in E. lia.
  - intros a b c. rewrite !vlt_meaning. lia.
  - exact T.
  - intros a b Hc. unfold vle. destruct (T a b Hc) as [(-> & -> & ->)|[(-> & -> & ->)|(-> & -> & ->)]];
      cbn; intuition congruence.
Qed.

Lemma lt_cross_class_refuted : exists a b, veq a b = true /\ vlt a b = true.
Proof.
  exists (V Coarse (I 1) (I 1) (I 1)), (V Fine (I 8) (I 8) (I 8)). split; reflexivity.
Qed.

Ltac nobase := match goal with |- context [if ?b then _ else _] => destruct b; discriminate end.

(** Addition and subtraction. *)
Lemma vadd_meaning a b :
  vc a <> Base -> vc b <> Base ->
  exists r, vadd a b = Ok r /\ fpos2 r = t3add (fpos2 a) (fpos2 b) /\
            vc r = (if vcls_eqb (vc a) Coarse && vcls_eqb (vc b) Coarse then Coarse else Fine).
Proof.
  destruct a as [[] ax ay az], b as [[] bx by_ bz]; cbn [vc]; intros Na Nb; try congruence;
    (eexists; split; [reflexivity|split; [|reflexivity]]);
    unfold fpos2, coords2, raw_add; cbn [vc vx vy vz vmul t3add];
    rewrite ?halves_nadd, ?halves_nmulz; apply t3_eq; lia.
Qed.

Lemma vsub_meaning a b :
  vc a <> Base -> vc b <> Base ->
  exists r, vsub a b = Ok r /\ fpos2 r = t3sub (fpos2 a) (fpos2 b) /\
            vc r = (if vcls_eqb (vc a) Coarse && vcls_eqb (vc b) Coarse then Coarse else Fine).
Proof.
  destruct a as [[] ax ay az], b as [[] bx by_ bz]; cbn [vc]; intros Na Nb; try congruence;
    (eexists; split; [reflexivity|split; [|reflexivity]]);
    unfold fpos2, coords2, raw_sub; cbn [vc vx vy vz vmul t3sub];
    rewrite ?halves_nsub, ?halves_nmulz; apply t3_eq; lia.
Qed.

Lemma vec_add_base_only a b :
  (vc a = Base /\ vc b = Base ->
     exists s d, vadd a b = Ok s /\ vsub a b = Ok d /\ vc s = Base /\ vc d = Base /\
       coords2 s = t3add (coords2 a) (coords2 b) /\ coords2 d = t3sub (coords2 a) (coords2 b)) /\
  ((vc a = Base /\ vc b <> Base) \/ (vc a <> Base /\ vc b = Base) ->
     (exists e, vadd a b = Err e) /\ (exists e, vsub a b = Err e)).
Proof.
  destruct a as [[] ax ay az], b as [[] bx by_ bz]; cbn [vc]; split;
    try (intros [? ?]; congruence); try (intros [[? ?]|[? ?]]; congruence);
    try (intros _; split; eexists; reflexivity).
  intros _. do 2 eexists. repeat split; unfold raw_add, raw_sub, coords2; cbn [vx vy vz t3add t3sub];
    rewrite ?halves_nadd, ?halves_nsub; reflexivity.
Qed.

Lemma vadd_vsub_inverse a b :
  vc a <> Base -> vc b <> Base ->
  exists s s' d, vadd a b = Ok s /\ vadd b a = Ok s' /\ veq s s' = true /\
    vsub s b = Ok d /\ veq d a = true /\
    fpos2 s = t3add (fpos2 a) (fpos2 b).
Proof.
  intros Na Nb.
  destruct (vadd_meaning a b Na Nb) as (s & Es & Ps & Cs).
  destruct (vadd_meaning b a Nb Na) as (s' & Es' & Ps' & Cs').
  assert (Ns : vc s <> Base) by (rewrite Cs; nobase).
  assert (Ns' : vc s' <> Base) by (rewrite Cs'; nobase).
  destruct (vsub_meaning s b Ns Nb) as (d & Ed & Pd & Cd).
  assert (Nd : vc d <> Base) by (rewrite Cd; nobase).
  exists s, s', d. repeat split; try assumption.
  - apply veq_meaning. right. repeat split; try assumption. rewrite Ps, Ps'.
    destruct (fpos2 a) as [[? ?] ?], (fpos2 b) as [[? ?] ?]; cbn [t3add]. apply t3_eq; lia.
  - apply veq_meaning. right. repeat split; try assumption. rewrite Pd, Ps.
    destruct (fpos2 a) as [[? ?] ?], (fpos2 b) as [[? ?] ?]; cbn [t3add t3sub]. apply t3_eq; lia.
Qed.

(** Fine and coarse. *)
Lemma halves_nfloordiv n : halves (nfloordiv n 8) = 2 * (halves n / 16).
Proof. destruct n; cbn [nfloordiv halves]; lia. Qed.

Definition integral (v : vec) : Prop :=
  Z.even (halves (vx v)) = true /\ Z.even (halves (vy v)) = true /\ Z.even (halves (vz v)) = true.

Lemma coarse_fine_roundtrip c :
  vc c = Coarse -> Z.even (halves (vx c)) = true -> Z.even (halves (vy c)) = true ->
  Z.even (halves (vz c)) = true ->
  exists f c', vfine c = Ok f /\ vcoarse f = Ok c' /\ veq f c = true /\ veq c' c = true.
Proof.
  destruct c as [cc x y z]; cbn [vc vx vy vz]; intros -> Ex Ey Ez.
  do 2 eexists. split; [reflexivity|split; [reflexivity|]].
  rewrite Z.even_spec in Ex, Ey, Ez.
  destruct Ex as [x' Ex], Ey as [y' Ey], Ez as [z' Ez].
  split; apply veq_meaning; right; repeat split; cbn [vc]; try congruence;
    unfold fpos2, coords2; cbn [vc vx vy vz vmul];
    rewrite ?halves_nfloordiv, ?halves_nmulz, Ex, Ey, Ez; apply t3_eq; lia.
Qed.

(** The cell of a fine vector: the unique integer cell whose block contains it. *)
Lemma fine_to_coarse_floor f :
  vc f = Fine ->
  exists c, vcoarse f = Ok c /\ vc c = Coarse /\
    forall i j k,
      coords2 c = (2 * i, 2 * j, 2 * k) <->
      (16 * i <= halves (vx f) < 16 * (i + 1) /\
       16 * j <= halves (vy f) < 16 * (j + 1) /\
       16 * k <= halves (vz f) < 16 * (k + 1)).
Proof.
  destruct f as [cf x y z]; cbn [vc vx vy vz]; intros ->.
  eexists. split; [reflexivity|split; [reflexivity|]]. intros i j k.
  unfold coords2; cbn [vx vy vz]. rewrite !halves_nfloordiv.
  split; [intros E; inv_pairs; lia | intros (? & ? & ?); apply t3_eq; lia].
Qed.

(** Every fine vector has such a cell, so the result is always integral. *)
Lemma fine_to_coarse_integral f c : vcoarse f = Ok c ->
  exists i j k, coords2 c = (2 * i, 2 * j, 2 * k).
Proof.
  unfold vcoarse. destruct (vc f); try discriminate. intros E; injection E; intros <-.
  unfold coords2; cbn [vx vy vz]. rewrite !halves_nfloordiv. eauto.
Qed.

(** Rotation. *)
Lemma quarter_deg k : quarter (Deg (90 * k)) = Some (k mod 4).
Proof.
  unfold quarter. replace ((90 * k) mod 90) with 0 by lia. cbn [Z.eqb].
  replace (90 * k / 90) with k by lia. reflexivity.
Qed.

Lemma mod4_cases k : k mod 4 = 0 \/ k mod 4 = 1 \/ k mod 4 = 2 \/ k mod 4 = 3.
Proof. lia. Qed.

Lemma rotq_turn k v : is_turn k v (rotq (k mod 4) v).
Proof.
  unfold is_turn, cosq, sinq.
  destruct (mod4_cases k) as [E|[E|[E|E]]]; rewrite E; cbn [rotq Z.eqb vc vx vy vz halves Pos.eqb];
    repeat split; lia.
Qed.

Lemma vrotate_exact v k :
  exists r, vrotate v (Deg (90 * k)) = Ok r /\ is_turn k v r.
Proof.
  unfold vrotate. rewrite quarter_deg. eexists. split; [reflexivity|]. apply rotq_turn.
Qed.

Lemma csq_add j k :
  cosq (j + k) = cosq j * cosq k - sinq j * sinq k /\
  sinq (j + k) = sinq j * cosq k + cosq j * sinq k.
Proof.
  unfold cosq, sinq.
  destruct (mod4_cases j) as [E|[E|[E|E]]]; destruct (mod4_cases k) as [F|[F|[F|F]]]; rewrite E, F;
    first [ replace ((j + k) mod 4) with 0 by lia; split; reflexivity
          | replace ((j + k) mod 4) with 1 by lia; split; reflexivity
          | replace ((j + k) mod 4) with 2 by lia; split; reflexivity
          | replace ((j + k) mod 4) with 3 by lia; split; reflexivity ].
Qed.

Lemma is_turn_compose j k v r r' : is_turn j v r -> is_turn k r r' -> is_turn (j + k) v r'.
Proof.
  unfold is_turn. destruct (csq_add j k) as [-> ->].
  intros (C1 & X1 & Y1 & Z1) (C2 & X2 & Y2 & Z2).
  rewrite X2, Y2, X1, Y1. repeat split; try congruence; ring.
Qed.

Lemma is_turn_func k v r r' : is_turn k v r -> is_turn k v r' -> veq r r' = true.
Proof.
  intros (C1 & X1 & Y1 & Z1) (C2 & X2 & Y2 & Z2).
  apply veq_same_class; [congruence|]. apply coords2_iff. lia.
Qed.

Lemma vrotate_group v j k :
  exists r r' rjk, vrotate v (Deg (90 * j)) = Ok r /\ vrotate r (Deg (90 * k)) = Ok r' /\
    vrotate v (Deg (90 * (j + k))) = Ok rjk /\ veq r' rjk = true.
Proof.
  destruct (vrotate_exact v j) as (r & Er & Tr).
  destruct (vrotate_exact r k) as (r' & Er' & Tr').
  destruct (vrotate_exact v (j + k)) as (s & Es & Ts).
  exists r, r', s. repeat split; try assumption.
  exact (is_turn_func _ _ _ _ (is_turn_compose _ _ _ _ _ Tr Tr') Ts).
Qed.

Lemma vrotate_full_circle v k :
  exists r, vrotate v (Deg (360 * k)) = Ok r /\ veq r v = true.
Proof.
  destruct (vrotate_exact v (4 * k)) as (r & Er & C & X & Y & Z).
  exists r. replace (360 * k) with (90 * (4 * k)) by lia. split; [exact Er|].
  apply veq_same_class; [exact C|]. apply coords2_iff.
  unfold cosq, sinq in *. replace ((4 * k) mod 4) with 0 in * by lia. cbn [Z.eqb] in *. lia.
Qed.

Lemma is_turn_dist k a b a' b' : is_turn k a a' -> is_turn k b b' -> dist2 a' b' = dist2 a b.
Proof.
  intros (C1 & X1 & Y1 & Z1) (C2 & X2 & Y2 & Z2). unfold dist2.
  rewrite X1, Y1, Z1, X2, Y2, Z2. unfold cosq, sinq.
  destruct (mod4_cases k) as [E|[E|[E|E]]]; rewrite E; cbn [Z.eqb Pos.eqb]; ring.
Qed.

Lemma quarter_points_to o c : points_to o c -> quarter (DVec o) = quarter (Deg (compass_angle c)).
Proof.
  intros [N E]. destruct o as [co x y z]. unfold fpos2, coords2 in E. cbn [vc vx vy vz] in N, E.
  unfold quarter at 1. cbn [vx vy]. cbv zeta.
  generalize dependent (halves x). generalize dependent (halves y). intros hy hx E.
  destruct (hy =? 0) eqn:E1; destruct (hx <? 0) eqn:E2; destruct (hx =? 0) eqn:E3;
    destruct (hy <? 0) eqn:E4; destruct co; try (exfalso; congruence);
    destruct c; inv_pairs; try (exfalso; lia); reflexivity.
Qed.

Lemma vrotate_compass v o c :
  points_to o c -> vrotate v (DVec o) = vrotate v (Deg (compass_angle c)).
Proof. intros P. unfold vrotate. rewrite (quarter_points_to _ _ P). reflexivity. Qed.

Lemma vrotate_additive a b s k :
  vc a <> Base -> vc b <> Base -> vadd a b = Ok s ->
  exists ra rb rs t, vrotate a (Deg (90 * k)) = Ok ra /\ vrotate b (Deg (90 * k)) = Ok rb /\
    vrotate s (Deg (90 * k)) = Ok rs /\ vadd ra rb = Ok t /\ veq rs t = true.
Proof.
  intros Na Nb Es.
  destruct (vadd_meaning a b Na Nb) as (s0 & Es0 & Ps & Cs). assert (s0 = s) by congruence; subst s0.
  destruct (vrotate_exact a k) as (ra & Era & Ta). destruct (vrotate_exact b k) as (rb & Erb & Tb).
  destruct (vrotate_exact s k) as (rs & Ers & Ts).
  assert (Nra : vc ra <> Base) by (destruct Ta as [-> _]; exact Na).
  assert (Nrb : vc rb <> Base) by (destruct Tb as [-> _]; exact Nb).
  destruct (vadd_meaning ra rb Nra Nrb) as (t & Et & Pt & Ct).
  exists ra, rb, rs, t. repeat split; try assumption.
  assert (Cts : vc rs = vc t).
  { destruct Ta as [Ca _], Tb as [Cb _], Ts as [C _]. rewrite Ct, Ca, Cb, C, Cs. reflexivity. }
  apply veq_meaning. right. split; [rewrite Cts, Ct; nobase|].
  split; [rewrite Ct; nobase|].
  rewrite Pt. destruct Ta as (Ca & Xa & Ya & Za), Tb as (Cb & Xb & Yb & Zb), Ts as (C & X & Y & Z).
  clear Cts Era Erb Ers Et Es Es0 Pt.
  unfold fpos2, coords2 in *. rewrite Ca, Cb, C, X, Y, Z, Xa, Ya, Za, Xb, Yb, Zb.
  rewrite Cs in *. clear Ca Cb C X Y Z Xa Ya Za Xb Yb Zb Cs Ct.
  destruct (vc a), (vc b); try congruence; cbn [vcls_eqb andb t3add] in *; inv_pairs;
    apply t3_eq; nia.
Qed.

Lemma vadd_same a b : vc a <> Base -> vc a = vc b ->
  exists s, vadd a b = Ok s /\ vc s = vc a /\ halves (vx s) = halves (vx a) + halves (vx b) /\
    halves (vy s) = halves (vy a) + halves (vy b) /\ halves (vz s) = halves (vz a) + halves (vz b).
Proof.
  destruct a as [ca x y z], b as [cb x' y' z']; cbn [vc vx vy vz]; intros N <-.
  destruct ca; [congruence| |]; (eexists; split; [reflexivity|]);
    unfold raw_add; cbn [vc vx vy vz]; rewrite !halves_nadd; repeat split.
Qed.

Lemma vsub_same a b : vc a <> Base -> vc a = vc b ->
  exists s, vsub a b = Ok s /\ vc s = vc a /\ halves (vx s) = halves (vx a) - halves (vx b) /\
    halves (vy s) = halves (vy a) - halves (vy b) /\ halves (vz s) = halves (vz a) - halves (vz b).
Proof.
  destruct a as [ca x y z], b as [cb x' y' z']; cbn [vc vx vy vz]; intros N <-.
  destruct ca; [congruence| |]; (eexists; split; [reflexivity|]);
    unfold raw_sub; cbn [vc vx vy vz]; rewrite !halves_nsub; repeat split.
Qed.

(** Rotation about a centre: [offset] is minus the centre. *)
Lemma voffset_rotate_meaning v off k :
  vc v <> Base -> vc off = vc v ->
  exists r, voffset_rotate v (Deg (90 * k)) off = Ok r /\ vc r = vc v /\
    halves (vx r) + halves (vx off) =
      cosq k * (halves (vx v) + halves (vx off)) - sinq k * (halves (vy v) + halves (vy off)) /\
    halves (vy r) + halves (vy off) =
      sinq k * (halves (vx v) + halves (vx off)) + cosq k * (halves (vy v) + halves (vy off)) /\
    halves (vz r) = halves (vz v).
Proof.
  intros N C. unfold voffset_rotate.
  pose proof (vadd_same v off N (eq_sym C)) as A.
  destruct A as (s & Es & Cs & Xs & Ys & Zs). rewrite Es. cbn [bind].
  destruct (vrotate_exact s k) as (r & Er & Cr & Xr & Yr & Zr). rewrite Er. cbn [bind].
  assert (B : exists d, vsub r off = Ok d /\ vc d = vc r /\ halves (vx d) = halves (vx r) - halves (vx off) /\
            halves (vy d) = halves (vy r) - halves (vy off) /\ halves (vz d) = halves (vz r) - halves (vz off)).
  { apply vsub_same; congruence. }
  destruct B as (d & Ed & Cd & Xd & Yd & Zd).
  exists d. split; [exact Ed|]. split; [congruence|]. rewrite Xd, Yd, Zd, Xr, Yr, Zr, Xs, Ys, Zs.
  repeat split; lia.
Qed.

(** Yaw. *)
Lemma veq_compass o c : points_to o c <->
  veq o (match c with CE => EAST | CN => NORTH | CW => WEST | CS => SOUTH end) = true.
Proof.
  unfold points_to. rewrite veq_meaning.
  destruct c; (split;
    [ intros [N E]; right; repeat split; [exact N| discriminate | exact E]
    | intros [(_ & F & _)|(N & _ & E)]; [discriminate F | split; [exact N|exact E]] ]).
Qed.

Lemma rotate_yaw_ok a o c : points_to o c ->
  rotate_yaw a o = Ok ((a + compass_angle c) mod 360).
Proof.
  intros P. unfold rotate_yaw.
  assert (D : forall c', c' <> c ->
     veq o (match c' with CE => EAST | CN => NORTH | CW => WEST | CS => SOUTH end) = false).
  { intros c' N. destruct (veq o _) eqn:E; [|reflexivity]. exfalso.
    apply veq_compass in E. destruct P as [_ P], E as [_ E]. rewrite P in E.
    destruct c, c'; congruence. }
  pose proof (proj1 (veq_compass o c) P) as T.
  destruct c; cbn [compass_angle] in *.
  - rewrite T, Z.add_0_r. reflexivity.
  - rewrite (D CE) by congruence. rewrite T. reflexivity.
  - rewrite (D CE), (D CN) by congruence. rewrite T. reflexivity.
  - rewrite (D CE), (D CN), (D CW) by congruence. rewrite T. reflexivity.
Qed.

Lemma rotate_yaw_err a o : (forall c, ~ points_to o c) -> rotate_yaw a o = Err UserExn.
Proof.
  intros N. unfold rotate_yaw.
  pose proof (N CE) as N1. pose proof (N CN) as N2. pose proof (N CW) as N3. pose proof (N CS) as N4.
  rewrite veq_compass in N1, N2, N3, N4.
  destruct (veq o EAST); [congruence|]. destruct (veq o NORTH); [congruence|].
  destruct (veq o WEST); [congruence|]. destruct (veq o SOUTH); [congruence|]. reflexivity.
Qed.

Lemma voffset_rotate_centre v off k :
  vc v <> Base -> vc off = vc v ->
  halves (vx v) = - halves (vx off) -> halves (vy v) = - halves (vy off) ->
  exists r, voffset_rotate v (Deg (90 * k)) off = Ok r /\ veq r v = true.
Proof.
  intros N C EX EY. destruct (voffset_rotate_meaning v off k N C) as (r & Er & Cr & X & Y & Z).
  exists r. split; [exact Er|]. apply veq_same_class; [exact Cr|]. apply coords2_iff.
  rewrite EX, EY in X, Y. replace (- halves (vx off) + halves (vx off)) with 0 in X, Y by lia.
  replace (- halves (vy off) + halves (vy off)) with 0 in X, Y by lia. lia.
Qed.

Lemma voffset_rotate_compose v off j k :
  vc v <> Base -> vc off = vc v ->
  exists r r' s, voffset_rotate v (Deg (90 * j)) off = Ok r /\
    voffset_rotate r (Deg (90 * k)) off = Ok r' /\
    voffset_rotate v (Deg (90 * (j + k))) off = Ok s /\ veq r' s = true.
Proof.
  intros N C. destruct (voffset_rotate_meaning v off j N C) as (r & Er & Cr & X & Y & Z).
  assert (Nr : vc r <> Base) by congruence. assert (Cr' : vc off = vc r) by congruence.
  destruct (voffset_rotate_meaning r off k Nr Cr') as (r' & Er' & Cr2 & X' & Y' & Z').
  destruct (voffset_rotate_meaning v off (j + k) N C) as (s & Es & Cs & Xs & Ys & Zs).
  exists r, r', s. repeat split; try assumption.
  apply veq_same_class; [congruence|]. apply coords2_iff.
  destruct (csq_add j k) as [Ec Es']. rewrite Ec, Es' in Xs, Ys. rewrite X, Y in X', Y'.
  repeat split; [| |lia].
  - apply (Z.add_cancel_r _ _ (halves (vx off))). rewrite X', Xs. ring.
  - apply (Z.add_cancel_r _ _ (halves (vy off))). rewrite Y', Ys. ring.
Qed.

Lemma voffset_rotate_isometry a b off k ra rb :
  vc a <> Base -> vc b = vc a -> vc off = vc a ->
  voffset_rotate a (Deg (90 * k)) off = Ok ra -> voffset_rotate b (Deg (90 * k)) off = Ok rb ->
  dist2 ra rb = dist2 a b.
Proof.
  intros N Cb C Ea Eb.
  destruct (voffset_rotate_meaning a off k N C) as (r & Er & _ & X & Y & Z).
  assert (Nb : vc b <> Base) by congruence. assert (Cb' : vc off = vc b) by congruence.
  destruct (voffset_rotate_meaning b off k Nb Cb') as (r' & Er' & _ & X' & Y' & Z').
  assert (r = ra) by congruence. assert (r' = rb) by congruence. subst r r'.
  unfold dist2. rewrite Z, Z'.
  replace (halves (vx ra) - halves (vx rb)) with
    (halves (vx ra) + halves (vx off) - (halves (vx rb) + halves (vx off))) by ring.
  replace (halves (vy ra) - halves (vy rb)) with
    (halves (vy ra) + halves (vy off) - (halves (vy rb) + halves (vy off))) by ring.
  rewrite X, Y, X', Y'. unfold cosq, sinq.
  destruct (mod4_cases k) as [E|[E|[E|E]]]; rewrite E; cbn [Z.eqb Pos.eqb]; ring.
Qed.

Lemma tile_rotation_in_tile x y z k r :
  0 <= x < 8 -> 0 <= y < 8 ->
  voffset_rotate (V Fine (I x) (I y) z) (Deg (90 * k)) TILE_VOX_OFF = Ok r ->
  exists x' y', 0 <= x' < 8 /\ 0 <= y' < 8 /\ halves (vx r) = 2 * x' /\ halves (vy r) = 2 * y'.
Proof.
  intros Hx Hy E.
  destruct (voffset_rotate_meaning (V Fine (I x) (I y) z) TILE_VOX_OFF k) as (s & Es & _ & X & Y & _);
    [discriminate|reflexivity|]. assert (s = r) by congruence. subst s.
  cbn [TILE_VOX_OFF vx vy halves] in X, Y. unfold cosq, sinq in X, Y.
  destruct (mod4_cases k) as [F|[F|[F|F]]]; rewrite F in X, Y; cbn [Z.eqb Pos.eqb] in X, Y.
  - exists x, y. lia.
  - exists (7 - y), x. lia.
  - exists (7 - x), (7 - y). lia.
  - exists y, (7 - x). lia.
Qed.

Lemma rotate_yaw_spec a o c : points_to o c ->
  exists r, rotate_yaw a o = Ok r /\ 0 <= r < 360 /\ (r - (a + compass_angle c)) mod 360 = 0.
Proof.
  intros P. rewrite (rotate_yaw_ok a o c P). eexists. split; [reflexivity|]. lia.
Qed.

Lemma points_to_turn o c k o' : points_to o c -> vrotate o (Deg (90 * k)) = Ok o' ->
  exists c', points_to o' c' /\ (compass_angle c' - compass_angle c - 90 * k) mod 360 = 0.
Proof.
  intros [N P] E. destruct (vrotate_exact o k) as (r & Er & Cr & X & Y & Z).
  assert (r = o') by congruence. subst r.
  unfold points_to. rewrite Cr. unfold fpos2 in *. rewrite Cr.
  unfold coords2 in *. rewrite X, Y, Z. unfold cosq, sinq.
  clear X Y Z. revert P.
  generalize (halves (vx o)) (halves (vy o)) (halves (vz o)). intros hx hy hz P.
  destruct (vc o); [congruence| |];
  destruct (mod4_cases k) as [F|[F|[F|F]]]; rewrite F; cbn [Z.eqb Pos.eqb];
  destruct c; inv_pairs; cbn [compass_angle];
  first [ exists CE; split; [split; [discriminate|apply t3_eq; lia] | cbn [compass_angle]; lia]
        | exists CN; split; [split; [discriminate|apply t3_eq; lia] | cbn [compass_angle]; lia]
        | exists CW; split; [split; [discriminate|apply t3_eq; lia] | cbn [compass_angle]; lia]
        | exists CS; split; [split; [discriminate|apply t3_eq; lia] | cbn [compass_angle]; lia] ].
Qed.

Lemma rotate_yaw_turn a o c k o' : points_to o c -> vrotate o (Deg (90 * k)) = Ok o' ->
  exists r r', rotate_yaw a o = Ok r /\ rotate_yaw a o' = Ok r' /\ (r' - r - 90 * k) mod 360 = 0.
Proof.
  intros P E. destruct (points_to_turn _ _ _ _ P E) as (c' & P' & A).
  rewrite (rotate_yaw_ok a o c P), (rotate_yaw_ok a o' c' P'). do 2 eexists.
  split; [reflexivity|split; [reflexivity|]]. lia.
Qed.

Lemma get_vector_rotation_spec o c : points_to o c ->
  exists d, get_vector_rotation o = Ok d /\ (d - compass_angle c) mod 360 = 0.
Proof.
  intros P. unfold get_vector_rotation. rewrite (quarter_points_to _ _ P).
  destruct c; vm_compute; eexists; split; reflexivity.
Qed.
