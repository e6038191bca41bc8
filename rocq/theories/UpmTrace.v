(** Lemmas about room localization and the placement loop. *)
From Coq Require Import QArith.
From Verif Require Import Py VecProofs UpmModel UpmSpec UpmProofs UpmRandom.
Local Open Scope Z_scope.

(** ** Localization *)
(** The candidate built for a matching door. *)
Definition candidate (c : rclass) (t : turn) (d o : cell) (ch : door) (fl : option (list bool)) : room :=
  mk_room c (csub P0 (cadd (csub (fst ch) d) o)) t fl.

Lemma try_doors_some st c t d prev o : forall ds g r g',
  try_doors st c t d prev o ds g = (Ok (Some r), g') ->
  exists ch fl, In ch ds /\ r = candidate c t d o ch fl /\ preregister_room st r = Ok true.
Proof.
  induction ds as [|ch ds IH]; intros g r g' E; cbn [try_doors] in E; [discriminate|].
  destruct (rand_opts c prev g) as [[fl|x] g1]; [|discriminate].
  destruct (preregister_room st _) as [[|]|x] eqn:P; [| |discriminate].
  - injection E as <- <-. exists ch, fl. split; [left; reflexivity|]. split; [reflexivity|exact P].
  - apply IH in E as (ch' & fl' & H1 & H2). exists ch', fl'. split; [right; exact H1|exact H2].
Qed.
Lemma try_doors_none st c t d prev o : forall ds g g',
  try_doors st c t d prev o ds g = (Ok None, g') ->
  forall ch, In ch ds -> exists fl, preregister_room st (candidate c t d o ch fl) = Ok false.
Proof.
  induction ds as [|ch ds IH]; intros g g' E ch0 H; cbn [try_doors] in E; [contradiction|].
  destruct (rand_opts c prev g) as [[fl|x] g1]; [|discriminate].
  destruct (preregister_room st _) as [[|]|x] eqn:P; [discriminate| |discriminate].
  destruct H as [<- | H]; [exists fl; exact P|eauto].
Qed.
Lemma try_turns_some st c d prev o : forall ts g r g',
  try_turns st c ts d prev o g = (Ok (Some r), g') ->
  exists t ch fl, In ch (matching (mk_room c P0 t None) o) /\ r = candidate c t d o ch fl /\
    preregister_room st r = Ok true.
Proof.
  induction ts as [|t ts IH]; intros g r g' E; cbn [try_turns] in E; [discriminate|].
  destruct (try_doors _ _ _ _ _ _ _ g) as [[[r'|]|x] g1] eqn:T.
  - injection E as -> ->. apply try_doors_some in T as (ch & fl & T). exists t, ch, fl. exact T.
  - eauto.
  - discriminate.
Qed.
Lemma try_turns_none st c d prev o : forall ts g g',
  try_turns st c ts d prev o g = (Ok None, g') ->
  forall t ch, In t ts -> In ch (matching (mk_room c P0 t None) o) ->
  exists fl, preregister_room st (candidate c t d o ch fl) = Ok false.
Proof.
  induction ts as [|t ts IH]; intros g g' E t0 ch H Hc; cbn [try_turns] in E; [contradiction|].
  destruct (try_doors _ _ _ _ _ _ _ g) as [[[r'|]|x] g1] eqn:T; [discriminate| |discriminate].
  destruct H as [-> | H]; [|eauto].
  eapply try_doors_none; [exact T|exact Hc].
Qed.
Lemma in_CARD t : In t CARD.
Proof. destruct t; cbn; auto 6. Qed.
Lemma try_classes_some st d prev o : forall cs g r g',
  try_classes st cs d prev o g = (Ok (Some r), g') ->
  exists c t ch fl, In c cs /\ In ch (matching (mk_room c P0 t None) o) /\
    r = candidate c t d o ch fl /\ preregister_room st r = Ok true.
Proof.
  induction cs as [|c cs IH]; intros g r g' E; cbn [try_classes] in E; [discriminate|].
  destruct (sample CARD g) as [ts g1] eqn:S.
  destruct (try_turns _ _ _ _ _ _ g1) as [[[r'|]|x] g2] eqn:T.
  - injection E as -> ->. apply try_turns_some in T as (t & ch & fl & T).
    exists c, t, ch, fl. split; [left; reflexivity|exact T].
  - apply IH in E as (c' & t & ch & fl & H & E). exists c', t, ch, fl. split; [right; exact H|exact E].
  - discriminate.
Qed.
Lemma try_classes_none st d prev o : forall cs g g',
  try_classes st cs d prev o g = (Ok None, g') ->
  forall c t ch, In c cs -> In ch (matching (mk_room c P0 t None) o) ->
  exists fl, preregister_room st (candidate c t d o ch fl) = Ok false.
Proof.
  induction cs as [|c cs IH]; intros g g' E c0 t ch H Hc; cbn [try_classes] in E; [contradiction|].
  destruct (sample CARD g) as [ts g1] eqn:S.
  destruct (try_turns _ _ _ _ _ _ g1) as [[[r'|]|x] g2] eqn:T; [discriminate| |discriminate].
  destruct H as [-> | H]; [|eauto].
  eapply try_turns_none; [exact T| |exact Hc].
  apply sample_perm in S. rewrite S. apply in_CARD.
Qed.

(** A candidate of a class whose layout ignores the flags is attached. *)
Lemma matching_in r o ch : In ch (matching r o) <-> In ch (doorways r) /\ snd ch = opposite o.
Proof.
  unfold matching. rewrite filter_In, cell_eqb_eq, crot_opposite. reflexivity.
Qed.
Lemma candidate_turn c t d o ch fl : r_turn (candidate c t d o ch fl) = t.
Proof. reflexivity. Qed.
Lemma candidate_cls c t d o ch fl : r_cls (candidate c t d o ch fl) = c.
Proof. reflexivity. Qed.

(** The matching doors found at P0 are the ways to attach a room with default flags. *)
Lemma attached_default c pos t d o : attached (mk_room c pos t None) d o <->
  exists ch, In ch (matching (mk_room c P0 t None) o) /\ pos = csub P0 (cadd (csub (fst ch) d) o).
Proof.
  split.
  - intros A. unfold attached, doorways in A. apply in_map_iff in A as (q & E & H).
    injection E as E1 E2.
    exists (cadd (r_pos (mk_room c P0 t None)) (crot t (fst q)), crot t (snd q)).
    split.
    + apply matching_in. split; [|exact E2]. unfold doorways. apply in_map_iff.
      exists q. split; [reflexivity|exact H].
    + cbn [mk_room r_pos r_turn fst] in *. revert E1. generalize (crot t (fst q)) (cdir t). clear.
      intros q s E. destruct d as [[dx dy] dz], o as [[ox oy] oz], q as [[qx qy] qz], pos as [[px py] pz],
        P0 as [[ax ay] az], s as [[sx sy] sz].
      destruct (rc_shift c); cbn [csub cadd] in *; apply t3_inv in E as (? & ? & ?); apply t3_eq; lia.
  - intros (ch & H & ->). apply matching_in in H as [H1 H2]. unfold attached, doorways in *.
    cbn [r_cls r_flags mk_room r_pos r_turn] in *.
    apply in_map_iff in H1 as (q & H1 & H3). apply in_map_iff. exists q. split; [|exact H3].
    subst ch. cbn [fst snd] in *. rewrite H2. f_equal. clear.
    generalize (crot t (fst q)) (cdir t). intros a s.
    destruct d as [[dx dy] dz], o as [[ox oy] oz], a as [[qx qy] qz], P0 as [[px py] pz],
      s as [[sx sy] sz].
    destruct (rc_shift c); cbn [csub cadd]; apply t3_eq; lia.
Qed.
Lemma attached_flag_free c pos t fl d o : flag_free c ->
  attached (mk_room c pos t None) d o -> attached (mk_room c pos t fl) d o.
Proof.
  intros F. unfold attached, doorways. cbn [r_cls r_flags mk_room r_pos r_turn].
  match goal with |- In _ (map _ (rc_doors c ?x)) -> In _ (map _ (rc_doors c ?y)) =>
    destruct (F x y) as [_ ->] end. auto.
Qed.

Lemma same_layout_positions a b : r_cls a = r_cls b -> flag_free (r_cls a) ->
  r_pos a = r_pos b -> r_turn a = r_turn b ->
  positions a = positions b /\ doorways a = doorways b.
Proof.
  intros C F P T. unfold positions, doorways. rewrite <- C, P, T.
  destruct (F (r_flags a) (r_flags b)) as [-> ->]. auto.
Qed.
Lemma prereg_ext occ : forall rs rs' added,
  Forall2 (fun a b => positions a = positions b /\ doorways a = doorways b) rs rs' ->
  prereg occ added rs = prereg occ added rs'.
Proof.
  intros rs rs' added F. revert added. induction F as [|a b rs rs' [P D] F IH]; intros added; [reflexivity|].
  cbn [prereg]. rewrite P, D, IH. reflexivity.
Qed.
Lemma preregister_ext st a b : r_cls a = r_cls b -> flag_free (r_cls a) ->
  r_pos a = r_pos b -> r_turn a = r_turn b -> preregister_room st a = preregister_room st b.
Proof.
  intros C F P T. unfold preregister_room. destruct (rotations st) as [ts|]; [|reflexivity].
  f_equal. apply prereg_ext. induction ts as [|t ts IH]; cbn [map]; constructor; [|exact IH].
  rewrite !positions_mirror, !doorways_mirror.
  destruct (same_layout_positions a b C F P T) as [-> ->]. auto.
Qed.

Lemma localize_some e st opts d prev o g r g' : localize e st opts d prev o g = (Ok (Some r), g') ->
  exists c pos t fl, r = mk_room c pos t fl /\ In c opts /\ preregister_room st r = Ok true /\
    attached (mk_room c pos t None) d o.
Proof.
  unfold localize. destruct (room_stream e prev opts g) as [[cs|x] g1] eqn:S; [|discriminate].
  intros E. apply try_classes_some in E as (c & t & ch & fl & H1 & H2 & -> & H4).
  exists c, (csub P0 (cadd (csub (fst ch) d) o)), t, fl. split; [reflexivity|]. split.
  - unfold room_stream in S. destruct (map _ opts); [congruence|].
    destruct (Qeq_bool _ _); [congruence|]. destruct (sample _ g) as [s g2] eqn:Sm.
    injection S as <- _. apply dedupe_in in H1 as [H1 _]. apply sample_perm in Sm. rewrite Sm in H1.
    apply in_flat_map in H1 as (c' & K1 & K2). apply repeat_spec in K2. subst. exact K1.
  - split; [exact H4|]. apply attached_default. eauto.
Qed.

Lemma localize_none e st opts d prev o g g' : good_env e -> coherent opts ->
  localize e st opts d prev o g = (Ok None, g') ->
  forall c pos t, In c opts -> attached (mk_room c pos t None) d o ->
    exists fl, preregister_room st (mk_room c pos t fl) = Ok false.
Proof.
  intros G C. unfold localize. destruct (room_stream e prev opts g) as [[cs|x] g1] eqn:S; [|discriminate].
  intros E c pos t Hc A. apply attached_default in A as (ch & Hch & ->).
  eapply try_classes_none; [exact E| |exact Hch].
  assert (opts <> []) as NE by (intros ->; contradiction).
  destruct (room_stream_lemma _ _ _ _ _ _ G NE S) as (cs' & Q & _ & I1 & I2).
  injection Q as <-. destruct (I2 c Hc) as (c' & Hc' & Ei).
  rewrite <- (C c' c); auto.
Qed.

(** ** The loop *)
Definition discard (st : upm) (x : open_door) : upm :=
  U (u_noclip st) (u_mirror st) (u_occ st) (filter (fun y => negb (open_eqb y x)) (u_open st))
    (u_rooms st) (u_links st) (u_next st) (u_gone st ++ [x]).

(** One-step view of the loop. *)
Lemma place_loop_cases fuel e st opts n k g st' x g' :
  place_loop (S fuel) e st opts n k g = (st', x, g') ->
  (n <= k /\ st' = st /\ x = Ok k) \/
  (k < n /\ u_open st = [] /\ st' = st /\ x = Ok k) \/
  (k < n /\ u_open st <> [] /\ exists y, x = Err y /\
     ((st' = st /\ exists g1, nonrandom_position flavour_vertical st g = (Err y, g1)) \/
      (exists d prev o g1 g2, In (d, prev, o) (u_open st) /\
         st' = st /\ localize e st opts d (snd prev) o g1 = (Err y, g2)))) \/
  (k < n /\ exists d prev o g1 r g2, In (d, prev, o) (u_open st) /\
     localize e st opts d (snd prev) o g1 = (Ok (Some r), g2) /\
     exists st1 st2 m, register_room st r = (st1, None) /\ u_mirror st = Some m /\
       register_link st1 (snd prev) r = (st2, None) /\
       place_loop fuel e st2 opts n (k + m) g2 = (st', x, g')) \/
  (k < n /\ exists d prev o g1 g2, In (d, prev, o) (u_open st) /\
     localize e st opts d (snd prev) o g1 = (Ok None, g2) /\
     place_loop fuel e (discard st (d, prev, o)) opts n k g2 = (st', x, g')).
Proof.
  cbn [place_loop]. destruct (Z.leb_spec n k) as [L | L].
  { intros E. injection E as <- <- <-. auto. }
  destruct (u_open st) as [|e0 l] eqn:O.
  { intros E. injection E as <- <- <-. right. left. auto. }
  rewrite <- O. assert (u_open st <> []) as NE by (rewrite O; discriminate). clear O e0 l.
  destruct (nonrandom_position flavour_vertical st g) as [[[[d prev] o]|y] g1] eqn:NR.
  2:{ intros E. injection E as <- <- <-. right. right. left. split; [exact L|]. split; [exact NE|].
      exists y. split; [reflexivity|]. left. eauto. }
  apply nonrandom_in in NR.
  destruct (localize e st opts d (snd prev) o g1) as [[[r|]|y] g2] eqn:LO.
  - destruct (localize_some _ _ _ _ _ _ _ _ _ LO) as (lc & lp & lt & lf & _ & _ & PR & _).
    unfold preregister_room in PR. destruct (rotations st) as [ts|] eqn:RO; [|discriminate].
    injection PR as PR.
    destruct (prereg_ok_register _ _ _ st PR) as [st1 RG]; [reflexivity|].
    assert (register_room st r = (st1, None)) as RR by (unfold register_room; rewrite RO; exact RG).
    rewrite RR.
    destruct (u_mirror st) as [m|] eqn:M; [|unfold rotations in RO; rewrite M in RO; discriminate].
    assert (rotations st1 = Some ts) as RO1.
    { apply register_all_ok in RG as (_ & Q & _). unfold rotations in *. rewrite Q. exact RO. }
    unfold register_link at 1. rewrite RO1. intros E.
    right. right. right. left. split; [exact L|].
    exists d, prev, o, g1, r, g2. do 2 (split; [assumption|]).
    eexists st1, _, m. split; [exact RR|]. split; [reflexivity|].
    split; [unfold register_link; rewrite RO1; reflexivity|exact E].
  - intros E. right. right. right. right. split; [exact L|].
    exists d, prev, o, g1, g2. split; [exact NR|]. split; [exact LO|]. exact E.
  - intros E. injection E as <- <- <-. right. right. left. split; [exact L|]. split; [exact NE|].
    exists y. split; [reflexivity|]. right. exists d, prev, o, g1, g2. auto.
Qed.

Lemma place_loop_trace e opts n : good_env e -> coherent opts ->
  forall fuel st k g st' x g', place_loop fuel e st opts n k g = (st', x, g') ->
  exists rs, trace opts st rs st'.
Proof.
  intros G C. induction fuel as [|fuel IH]; intros st k g st' x g' E.
  - cbn [place_loop] in E. injection E as <- _ _. exists []. constructor.
  - apply place_loop_cases in E as [H | [H | [H | [H | H]]]].
    + destruct H as (_ & -> & _). exists []. constructor.
    + destruct H as (_ & _ & -> & _). exists []. constructor.
    + destruct H as (_ & _ & y & _ & [(-> & _) | (? & ? & ? & ? & ? & _ & -> & _)]);
        exists []; constructor.
    + destruct H as (_ & d & prev & o & g1 & r & g2 & Hin & LO & st1 & st2 & m & R1 & M & R2 & E).
      apply IH in E as [rs T].
      apply localize_some in LO as (c & pos & t & fl & -> & L1 & L2 & L3).
      exists (mk_room c pos t fl :: rs). econstructor; eauto.
    + destruct H as (_ & d & prev & o & g1 & g2 & Hin & LO & E).
      apply IH in E as [rs T]. exists rs.
      pose proof (localize_none _ _ _ _ _ _ _ _ G C LO) as L2.
      eapply TDiscard with (st1 := discard st (d, prev, o)); eauto.
Qed.

(** ** Termination *)
Lemma open_eqb_refl x : open_eqb x x = true.
Proof.
  destruct x as [[c ob] o]. unfold open_eqb. rewrite !cell_eqb_refl, Nat.eqb_refl. reflexivity.
Qed.
Lemma filter_length_lt {A} (f : A -> bool) l x : In x l -> f x = false ->
  (List.length (filter f l) < List.length l)%nat.
Proof.
  intros H F. induction l as [|y l IH]; [contradiction|]. cbn [filter List.length].
  assert (forall l, List.length (filter f l) <= List.length l)%nat as LE.
  { clear. induction l as [|y l IH]; cbn [filter List.length]; [lia|]. destruct (f y); cbn [List.length]; lia. }
  destruct H as [-> | H].
  - rewrite F. specialize (LE l). lia.
  - specialize (IH H). destruct (f y); cbn [List.length]; lia.
Qed.

Lemma rotations_mirror st ts : rotations st = Some ts ->
  u_mirror st = Some (Z.of_nat (List.length ts)) /\ (1 <= List.length ts <= 4)%nat /\ In T0 ts.
Proof.
  unfold rotations. destruct (u_mirror st) as [m|]; [|discriminate].
  destruct m as [|[[[p|p|]|[p|p|]|]|[[p|p|]|[p|p|]|]|]|p]; intros E; try discriminate E; injection E as <-; cbn; auto 6 with zarith.
Qed.

Lemma place_loop_terminates_lemma e opts n : forall st k g,
  exists fuel0, forall fuel, (fuel0 <= fuel)%nat -> forall st' x g',
    place_loop fuel e st opts n k g = (st', x, g') -> x <> Err OutOfFuel.
Proof.
  (* outer measure: rooms still to place; inner measure: number of open doors *)
  assert (forall b a st k g, (Z.to_nat (n - k) <= b)%nat -> (List.length (u_open st) <= a)%nat ->
    exists fuel0, forall fuel, (fuel0 <= fuel)%nat -> forall st' x g',
      place_loop fuel e st opts n k g = (st', x, g') -> x <> Err OutOfFuel) as K.
  { induction b as [|b IHb].
    { intros a st k g Hb Ha. exists 1%nat. intros fuel Hf st' x g' E. destruct fuel as [|fuel]; [lia|].
      cbn [place_loop] in E. destruct (Z.leb_spec n k); [|lia]. injection E as <- <- <-. discriminate. }
    induction a as [|a IHa]; intros st k g Hb Ha.
    { exists 1%nat. intros fuel Hf st' x g' E. destruct fuel as [|fuel]; [lia|].
      cbn [place_loop] in E. destruct (Z.leb_spec n k).
      - injection E as <- <- <-. discriminate.
      - destruct (u_open st); [|cbn in Ha; lia]. injection E as <- <- <-. discriminate. }
    (* run one step to see where it goes *)
    destruct (Z.leb_spec n k) as [L | L].
    { exists 1%nat. intros fuel Hf st' x g' E. destruct fuel as [|fuel]; [lia|].
      cbn [place_loop] in E. destruct (Z.leb_spec n k); [|lia]. injection E as <- <- <-. discriminate. }
    destruct (nonrandom_position flavour_vertical st g) as [[[[d prev] o]|y] g1] eqn:NR.
    2:{ exists 1%nat. intros fuel Hf st' x g' E. destruct fuel as [|fuel]; [lia|].
        cbn [place_loop] in E. destruct (Z.leb_spec n k); [lia|].
        destruct (u_open st) eqn:O; [injection E as <- <- <-; discriminate|].
        rewrite NR in E. injection E as <- <- <-. intros X. injection X as X. subst y.
        unfold nonrandom_position in NR. destruct (weighted_choice _ g) as [wc gg]. rewrite O in NR.
        destruct wc as [i|]; [destruct (nth_error _ i)|]; discriminate. }
    destruct (localize e st opts d (snd prev) o g1) as [[[r|]|y] g2] eqn:LO.
    - destruct (localize_some _ _ _ _ _ _ _ _ _ LO) as (lc & lp & lt & lf & _ & _ & PR & _).
      unfold preregister_room in PR. destruct (rotations st) as [ts|] eqn:RO; [|discriminate].
      injection PR as PR.
      destruct (prereg_ok_register _ _ _ st PR) as [st1 RG]; [reflexivity|].
      assert (register_room st r = (st1, None)) as RR by (unfold register_room; rewrite RO; exact RG).
      destruct (rotations_mirror st ts RO) as (M & Lt & _).
      destruct (register_link st1 (snd prev) r) as [st2 [y|]] eqn:RL.
      + exists 1%nat. intros fuel Hf st' x g' E. destruct fuel as [|fuel]; [lia|].
        cbn [place_loop] in E. destruct (Z.leb_spec n k); [lia|].
        destruct (u_open st) eqn:O; [injection E as <- <- <-; discriminate|].
        rewrite NR, LO, RR, M, RL in E. injection E as <- <- <-.
        unfold register_link in RL. destruct (rotations st1); [discriminate|].
        injection RL as <- <-. discriminate.
      + destruct (IHb (List.length (u_open st2)) st2 (k + Z.of_nat (List.length ts)) g2) as [f0 Hf0]; [lia|lia|].
        exists (S f0). intros fuel Hf st' x g' E. destruct fuel as [|fuel]; [lia|].
        cbn [place_loop] in E. destruct (Z.leb_spec n k); [lia|].
        destruct (u_open st) eqn:O; [injection E as <- <- <-; discriminate|].
        rewrite NR, LO, RR, M, RL in E. eapply Hf0; [|exact E]. lia.
    - destruct (IHa (discard st (d, prev, o)) k g2) as [f0 Hf0]; [lia| |].
      { cbn [discard u_open]. apply nonrandom_in in NR.
        pose proof (filter_length_lt (fun y => negb (open_eqb y (d, prev, o))) (u_open st) (d, prev, o) NR) as FL.
        assert (negb (open_eqb (d, prev, o) (d, prev, o)) = false) as FX by (rewrite open_eqb_refl; reflexivity).
        specialize (FL FX). lia. }
      exists (S f0). intros fuel Hf st' x g' E. destruct fuel as [|fuel]; [lia|].
      cbn [place_loop] in E. destruct (Z.leb_spec n k); [lia|].
      destruct (u_open st) eqn:O; [injection E as <- <- <-; discriminate|].
      rewrite NR, LO in E. unfold discard in Hf0. rewrite O in Hf0.
      eapply Hf0; [|exact E]. lia.
    - exists 1%nat. intros fuel Hf st' x g' E. destruct fuel as [|fuel]; [lia|].
      cbn [place_loop] in E. destruct (Z.leb_spec n k); [lia|].
      destruct (u_open st) eqn:O; [injection E as <- <- <-; discriminate|].
      rewrite NR, LO in E. injection E as <- <- <-. intros X. injection X as X. subst y.
      (* localization never runs out of fuel *)
      clear - LO. unfold localize in LO.
      assert (forall prev c gg, fst (rand_opts c prev gg) <> Err OutOfFuel) as RO.
      { intros pv c gg. unfold rand_opts. destruct (rc_flags c); [|discriminate].
        destruct (_ =? _); [destruct (r_flags pv); [discriminate|destruct (draw gg); discriminate]|].
        destruct (draw_bits _ gg). discriminate. }
      assert (forall c t ds gg, fst (try_doors st c t d (snd prev) o ds gg) <> Err OutOfFuel) as TD.
      { intros c t. induction ds as [|ch ds IH]; intros gg; cbn [try_doors]; [discriminate|].
        pose proof (RO (snd prev) c gg) as R. destruct (rand_opts c (snd prev) gg) as [[fl|x] g3]; [|cbn [fst] in *; congruence].
        unfold preregister_room. destruct (rotations st); [|discriminate].
        destruct (prereg _ _ _); [discriminate|apply IH]. }
      assert (forall c ts gg, fst (try_turns st c ts d (snd prev) o gg) <> Err OutOfFuel) as TT.
      { intros c. induction ts as [|t ts IH]; intros gg; cbn [try_turns]; [discriminate|].
        pose proof (TD c t (matching (mk_room c P0 t None) o) gg) as R.
        destruct (try_doors _ _ _ _ _ _ _ gg) as [[[r|]|x] g3]; [exact R|apply IH|exact R]. }
      assert (forall cs gg, fst (try_classes st cs d (snd prev) o gg) <> Err OutOfFuel) as TC.
      { induction cs as [|c cs IH]; intros gg; cbn [try_classes]; [discriminate|].
        destruct (sample CARD gg) as [ts g3]. pose proof (TT c ts g3) as R.
        destruct (try_turns _ _ _ _ _ _ g3) as [[[r|]|x] g4]; [exact R|apply IH|exact R]. }
      unfold room_stream in LO. destruct (map _ opts); [discriminate|].
      destruct (Qeq_bool _ _); [discriminate|]. destruct (sample _ g1) as [s g3].
      specialize (TC (dedupe [] s) g3). rewrite LO in TC. apply TC. reflexivity. }
  intros st k g. eapply K; reflexivity.
Qed.

(** ** Count *)
Lemma place_loop_count e opts n : forall fuel st k g st' k' g',
  place_loop fuel e st opts n k g = (st', Ok k', g') ->
  Z.of_nat (List.length (u_rooms st')) = Z.of_nat (List.length (u_rooms st)) + (k' - k) /\
  u_mirror st' = u_mirror st /\
  (u_open st' = [] \/ (n <= k' /\ forall m, u_mirror st = Some m -> k' < n + m \/ k' = k)).
Proof.
  induction fuel as [|fuel IH]; intros st k g st' k' g' E; [discriminate|].
  apply place_loop_cases in E as [H | [H | [H | [H | H]]]].
  - destruct H as (L & -> & X). injection X as ->. split; [lia|]. split; [reflexivity|]. right. auto.
  - destruct H as (_ & O & -> & X). injection X as ->. split; [lia|]. auto.
  - destruct H as (_ & _ & y & X & _). discriminate.
  - destruct H as (L & d & prev & o & g1 & r & g2 & Hin & LO & st1 & st2 & m & R1 & M & R2 & E).
    unfold register_room in R1. destruct (rotations st) as [ts|] eqn:RO; [|discriminate].
    destruct (rotations_mirror st ts RO) as (M' & Lt & _).
    assert (m = Z.of_nat (List.length ts)) as -> by congruence.
    apply register_all_ok in R1 as (_ & Q2 & _ & _ & _ & Q6 & _).
    unfold register_link in R2. destruct (rotations st1) as [ts1|]; [|discriminate].
    injection R2 as <-.
    apply IH in E as (E1 & E2 & E3). cbn [u_rooms u_mirror] in *.
    rewrite Q6, app_length in E1. unfold obj in *.
    rewrite combine_length, seq_length, map_length in E1.
    split; [lia|]. split; [congruence|].
    destruct E3 as [E3 | [E3 E4]]; [left; exact E3|right]. split; [exact E3|].
    intros m Hm. left. specialize (E4 m). rewrite Q2 in E4. specialize (E4 Hm).
    assert (m = Z.of_nat (List.length ts)) by congruence. lia.
  - destruct H as (L & d & prev & o & g1 & g2 & Hin & LO & E).
    apply IH in E. exact E.
Qed.
