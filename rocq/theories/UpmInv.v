(** Invariants of the position manager over all histories. *)
From Coq Require Import QArith.
From Verif Require Import Py VecProofs UpmModel UpmSpec UpmProofs UpmRandom UpmTrace.
Local Open Scope Z_scope.

(** ** Lifting step invariants to histories *)
Lemma place_loop_inv (P : upm -> Prop) :
  (forall st d prev o r st1 st2, P st -> In (d, prev, o) (u_open st) ->
     preregister_room st r = Ok true -> register_room st r = (st1, None) ->
     register_link st1 (snd prev) r = (st2, None) -> P st2) ->
  (forall st x, P st -> In x (u_open st) -> P (discard st x)) ->
  forall e opts n fuel st k g st' x g',
    place_loop fuel e st opts n k g = (st', x, g') -> P st -> P st'.
Proof.
  intros Hp Hd e opts n. induction fuel as [|fuel IH]; intros st k g st' x g' E H.
  - cbn [place_loop] in E. injection E as <- _ _. exact H.
  - apply place_loop_cases in E as [Q | [Q | [Q | [Q | Q]]]].
    + destruct Q as (_ & -> & _). exact H.
    + destruct Q as (_ & _ & -> & _). exact H.
    + destruct Q as (_ & _ & y & _ & [(-> & _) | (? & ? & ? & ? & ? & _ & -> & _)]); exact H.
    + destruct Q as (_ & d & prev & o & g1 & r & g2 & Hin & LO & st1 & st2 & m & R1 & M & R2 & E).
      eapply IH; [exact E|]. apply localize_some in LO as (c & pos & t & fl & _ & _ & PR & _). eauto.
    + destruct Q as (_ & d & prev & o & g1 & g2 & Hin & LO & E).
      eapply IH; [exact E|]. apply Hd; auto.
Qed.

Lemma endcap_loop_inv (P : upm -> Prop) :
  (forall st r st' x, P st -> register1 st r = (st', x) -> P st') ->
  forall debug caps todo st g st' x g',
    endcap_loop debug caps todo st g = (st', x, g') -> P st -> P st'.
Proof.
  intros HP debug caps. induction todo as [|[[d ob] o] todo IH]; intros st g st' x g' E H; cbn [endcap_loop] in E.
  - injection E as <- _ _. exact H.
  - destruct (if debug then _ else _) as [[r|] g1].
    + destruct (register1 st r) as [st1 [y|]] eqn:R.
      * injection E as <- _ _. eauto.
      * eauto.
    + eauto.
Qed.
Lemma endcap_loop_inv_ok (P : upm -> Prop) :
  (forall st r st', P st -> register1 st r = (st', None) -> P st') ->
  forall debug caps todo st g st' g',
    endcap_loop debug caps todo st g = (st', None, g') -> P st -> P st'.
Proof.
  intros HP debug caps. induction todo as [|[[d ob] o] todo IH]; intros st g st' g' E H; cbn [endcap_loop] in E.
  - injection E as <- _. exact H.
  - destruct (if debug then _ else _) as [[r|] g1].
    + destruct (register1 st r) as [st1 [y|]] eqn:R; [discriminate|]. eauto.
    + eauto.
Qed.

(** Invariants of single registrations, links and discards hold after any history. *)
Lemma lift_any (P : upm -> Prop) :
  (forall st r st' x, P st -> register1 st r = (st', x) -> P st') ->
  (forall st a b st' x, P st -> register_link st a b = (st', x) -> P st') ->
  (forall st x, P st -> In x (u_open st) -> P (discard st x)) ->
  forall ops st, P st -> P (urun_any ops st).
Proof.
  intros H1 H2 H3. unfold urun_any. induction ops as [|op ops IH]; intros st H; cbn [fold_left]; [exact H|].
  apply IH. clear IH.
  assert (forall st r st' x, P st -> register_room st r = (st', x) -> P st') as RR.
  { intros s r s' x Hs. unfold register_room. destruct (rotations s).
    - intros E. eapply register_all_inv; eauto.
    - intros E. injection E as <- _. exact Hs. }
  destruct op as [r | a b | fuel e opts n g | debug caps g]; cbn [ustep].
  - destruct (register_room st r) as [st' x] eqn:E. eauto.
  - destruct (register_link st a b) as [st' x] eqn:E. eauto.
  - unfold place_rooms. destruct (place_loop fuel e st opts n 0 g) as [[st' [k|x]] g'] eqn:E;
      (refine (place_loop_inv P _ _ _ _ _ _ _ _ _ _ _ _ E H); eauto).
  - unfold endcap. destruct (endcap_loop debug caps (u_open st) st g) as [[st' x] g'] eqn:E.
    exact (endcap_loop_inv P H1 _ _ _ _ _ _ _ _ E H).
Qed.
Lemma lift_ok (P : upm -> Prop) :
  (forall st r st', P st -> register1 st r = (st', None) -> P st') ->
  (forall st a b st', P st -> register_link st a b = (st', None) -> P st') ->
  (forall st x, P st -> In x (u_open st) -> P (discard st x)) ->
  forall ops st st', P st -> urun ops st = Some st' -> P st'.
Proof.
  intros H1 H2 H3. induction ops as [|op ops IH]; intros st st' H E; cbn [urun] in E.
  { injection E as <-. exact H. }
  destruct (ustep st op) as [st1 [x|]] eqn:S; [discriminate|]. eapply IH; [|exact E]. clear IH E.
  assert (forall st r st', P st -> register_room st r = (st', None) -> P st') as RR.
  { intros s r s' Hs. unfold register_room. destruct (rotations s); [|discriminate].
    intros E. eapply register_all_inv_ok; eauto. }
  destruct op as [r | a b | fuel e opts n g | debug caps g]; cbn [ustep] in S.
  - eauto.
  - eauto.
  - unfold place_rooms in S. destruct (place_loop fuel e st opts n 0 g) as [[st2 [k|x]] g'] eqn:E; [|discriminate].
    injection S as <-. refine (place_loop_inv P _ _ _ _ _ _ _ _ _ _ _ _ E H); eauto.
  - unfold endcap in S. destruct (endcap_loop debug caps (u_open st) st g) as [[st2 x] g'] eqn:E.
    injection S as -> ->. exact (endcap_loop_inv_ok P H1 _ _ _ _ _ _ _ E H).
Qed.
(** Without endcaps the step may be stated for whole mirrored registrations; [P] may
    depend on the calls made so far. *)
Lemma lift_mirrored (P : list uop -> upm -> Prop) :
  (forall done op st, P done st -> P (done ++ [op]) st) ->
  (forall done st r st', P (done ++ [ORegister r]) st -> register_room st r = (st', None) ->
     P (done ++ [ORegister r]) st') ->
  (forall done st d prev o r st1 st2, P done st -> In (d, prev, o) (u_open st) ->
     preregister_room st r = Ok true -> register_room st r = (st1, None) ->
     register_link st1 (snd prev) r = (st2, None) -> P done st2) ->
  (forall done st x, P done st -> In x (u_open st) -> P done (discard st x)) ->
  (forall done st a b st', P done st -> register_link st a b = (st', None) ->
     P (done ++ [OLink a b]) st') ->
  forall ops done st st', existsb is_endcap ops = false -> P done st ->
    urun ops st = Some st' -> P (done ++ ops) st'.
Proof.
  intros Hw H1 H2 H3 H4. induction ops as [|op ops IH]; intros done st st' NE H E; cbn [urun existsb] in *.
  { injection E as <-. rewrite app_nil_r. exact H. }
  apply orb_false_elim in NE as [NE1 NE2].
  destruct (ustep st op) as [st1 [x|]] eqn:S; [discriminate|].
  replace (done ++ op :: ops) with ((done ++ [op]) ++ ops) by (rewrite <- app_assoc; reflexivity).
  eapply IH; [exact NE2| |exact E]. clear IH E.
  destruct op as [r | a b | fuel e opts n g | debug caps g]; cbn [ustep] in S.
  - eauto.
  - eauto.
  - unfold place_rooms in S. destruct (place_loop fuel e st opts n 0 g) as [[st2 [k|x]] g'] eqn:E; [|discriminate].
    injection S as <-. refine (place_loop_inv (P _) _ _ _ _ _ _ _ _ _ _ _ _ E (Hw _ _ _ H)); eauto.
  - discriminate.
Qed.

(** ** Invariant of every history *)
Definition Iany (st : upm) : Prop :=
  (forall c ob o, In (c, ob, o) (u_open st) ->
     is_legal c = true /\ occupied (u_occ st) c = false /\ In ob (u_rooms st) /\
     In (c, o) (doorways (snd ob))) /\
  (forall c ob, dget cell_eqb (u_occ st) c = Some ob -> In ob (u_rooms st) /\ In c (positions (snd ob))) /\
  (forall ob, In ob (u_rooms st) -> (fst ob < u_next st)%nat) /\
  NoDup (map fst (u_rooms st)).

Lemma Iany_init m nc : Iany (upm_init m nc).
Proof.
  split; [|split; [|split]]; cbn; try (intros; contradiction); try discriminate. constructor.
Qed.

Lemma nodup_snoc {A} (l : list A) x : NoDup l -> ~ In x l -> NoDup (l ++ [x]).
Proof.
  intros N H. apply Permutation_NoDup with (x :: l); [apply Permutation_cons_append|].
  constructor; assumption.
Qed.
Lemma rooms_fresh (st : upm) r : (forall ob, In ob (u_rooms st) -> (fst ob < u_next st)%nat) ->
  NoDup (map fst (u_rooms st)) ->
  (forall ob, In ob (u_rooms st ++ [(u_next st, r)]) -> (fst ob < S (u_next st))%nat) /\
  NoDup (map fst (u_rooms st ++ [(u_next st, r)])).
Proof.
  intros H N. split.
  - intros ob Hob. apply in_app_or in Hob as [Hob | [<- | []]]; [|cbn; lia]. apply H in Hob. lia.
  - rewrite map_app. cbn [map fst]. apply nodup_snoc; [exact N|].
    intros X. apply in_map_iff in X as (ob & E & X). apply H in X. lia.
Qed.

Lemma Iany_register1 st r st' x : Iany st -> register1 st r = (st', x) -> Iany st'.
Proof.
  intros (A & B & C & D) E. destruct x as [x|].
  - apply register1_err in E as (_ & _ & _ & ->).
    destruct (rooms_fresh st r C D) as [C' D'].
    split; [|split; [|split]]; cbn [u_open u_occ u_rooms u_next]; [| |exact C'|exact D'].
    + intros c ob o H. apply A in H as (? & ? & ? & ?). do 2 (split; [assumption|]). split; [|assumption].
      apply in_or_app. auto.
    + intros c ob H. apply B in H as [? ?]. split; [|assumption]. apply in_or_app. auto.
  - apply register1_ok in E as (E0 & E1 & E2 & E3 & E4 & E5 & E6 & E7 & E8).
    destruct (rooms_fresh st r C D) as [C' D'].
    split; [|split; [|split]]; rewrite ?E5, ?E7; [| |exact C'|exact D'].
    + intros c ob o H. rewrite E4 in H. apply in_app_or in H as [H | H].
      * apply filter_In in H as [H1 H2]. cbn [fst] in H2. apply A in H1 as (A1 & A2 & A3 & A4).
        split; [exact A1|]. split; [|split; [apply in_or_app; auto|exact A4]].
        rewrite E3, occupied_update, A2. apply negb_true_iff in H2. rewrite H2. reflexivity.
      * apply in_map_iff in H as ([c' o'] & H1 & H2). injection H1 as -> <- ->.
        apply filter_In in H2 as [H2 H3]. cbn [fst] in H3.
        apply andb_true_iff in H3 as [H3 H4]. apply negb_true_iff in H4.
        split; [exact H3|]. split; [exact H4|]. split; [apply in_or_app; right; left; reflexivity|exact H2].
    + intros c ob H. rewrite E3, occ_get_update in H. destruct (cmem c (positions r)) eqn:M.
      * injection H as <-. apply cmem_in in M. split; [apply in_or_app; right; left; reflexivity|exact M].
      * apply B in H as [? ?]. split; [apply in_or_app; auto|assumption].
Qed.
Lemma Iany_link st a b st' x : Iany st -> register_link st a b = (st', x) -> Iany st'.
Proof.
  unfold register_link. intros H. destruct (rotations st); intros E; injection E as <- _; exact H.
Qed.
Lemma Iany_discard st x : Iany st -> Iany (discard st x).
Proof.
  intros (A & B & C & D). split; [|split; [|split]]; cbn [discard u_open u_occ u_rooms u_next]; auto.
  intros c ob o H. apply filter_In in H as [H _]. auto.
Qed.

Lemma Iany_history ops m nc : Iany (urun_any ops (upm_init m nc)).
Proof.
  apply lift_any; [exact Iany_register1|exact Iany_link|intros; apply Iany_discard; assumption|apply Iany_init].
Qed.

(** ** Invariant of histories without failures *)
Definition Iok (st : upm) : Prop :=
  Iany st /\
  (forall ob c, In ob (u_rooms st) -> In c (positions (snd ob)) -> occupied (u_occ st) c = true) /\
  (u_noclip st = false -> forall ob c, In ob (u_rooms st) -> In c (positions (snd ob)) ->
     dget cell_eqb (u_occ st) c = Some ob) /\
  (forall ob c o, In ob (u_rooms st) -> In (c, o) (doorways (snd ob)) -> is_legal c = true ->
     occupied (u_occ st) c = false -> In (c, ob, o) (u_open st) \/ In (c, ob, o) (u_gone st)).

Lemma Iok_init m nc : Iok (upm_init m nc).
Proof. split; [apply Iany_init|]. cbn. intuition contradiction. Qed.

Lemma nodup_fst_inj (l : list obj) a b : NoDup (map fst l) -> In a l -> In b l -> fst a = fst b -> a = b.
Proof.
  induction l as [|y l IH]; intros N Ha Hb E; [contradiction|]. cbn [map] in N. inversion N; subst.
  destruct Ha as [<- | Ha], Hb as [<- | Hb]; auto.
  - exfalso. apply H1. rewrite E. apply in_map, Hb.
  - exfalso. apply H1. rewrite <- E. apply in_map, Ha.
Qed.

Lemma Iok_register1 st r st' : Iok st -> register1 st r = (st', None) -> Iok st'.
Proof.
  intros (A & B & C & D) E. split; [eapply Iany_register1; eauto|].
  apply register1_ok in E as (E0 & E1 & E2 & E3 & E4 & E5 & E6 & E7 & E8).
  rewrite E1, E3, E5, E8. split; [|split].
  - intros ob c H Hc. rewrite occupied_update. apply in_app_or in H as [H | [<- | []]].
    + rewrite (B _ _ H Hc). apply orb_true_r.
    + apply cmem_in in Hc. cbn [snd] in Hc. rewrite Hc. reflexivity.
  - intros N ob c H Hc. specialize (E0 N). rewrite occ_get_update. apply in_app_or in H as [H | [<- | []]].
    + destruct (cmem c (positions r)) eqn:M; [|apply C; assumption].
      apply cmem_in in M. assert (clash (u_occ st) r = true); [|congruence].
      apply clash_iff. exists c. split; [exact M|]. apply (B ob); assumption.
    + apply cmem_in in Hc. cbn [snd] in Hc. rewrite Hc. reflexivity.
  - intros ob c o H Hd L O. rewrite E4, E3. apply in_app_or in H as [H | [<- | []]].
    + rewrite occupied_update in O. apply orb_false_elim in O as [O1 O2].
      destruct (D ob c o H Hd L O2) as [K | K]; [left|right; exact K].
      apply in_or_app. left. apply filter_In. split; [exact K|]. cbn [fst]. rewrite O1. reflexivity.
    + left. apply in_or_app. right. apply in_map_iff. exists (c, o). split; [reflexivity|].
      apply filter_In. split; [exact Hd|]. cbn [fst]. rewrite L, O. reflexivity.
Qed.
Lemma Iok_link st a b st' : Iok st -> register_link st a b = (st', None) -> Iok st'.
Proof.
  unfold register_link. intros (A & H). destruct (rotations st) eqn:R; [|discriminate].
  intros E. split; [eapply Iany_link; [exact A|unfold register_link; rewrite R; exact E]|].
  injection E as <-. exact H.
Qed.
Lemma open_eqb_eq st x y : NoDup (map fst (u_rooms st)) ->
  In (snd (fst x)) (u_rooms st) -> In (snd (fst y)) (u_rooms st) -> open_eqb x y = true -> x = y.
Proof.
  destruct x as [[c ob] o], y as [[c' ob'] o']. cbn [fst snd open_eqb]. intros N H1 H2 E.
  apply andb_true_iff in E as [E E3]. apply andb_true_iff in E as [E1 E2].
  apply cell_eqb_eq in E1, E3. apply Nat.eqb_eq in E2. subst.
  rewrite (nodup_fst_inj _ _ _ N H1 H2 E2). reflexivity.
Qed.
Lemma Iok_discard st x : Iok st -> In x (u_open st) -> Iok (discard st x).
Proof.
  intros (A & B & C & D) Hx. split; [apply Iany_discard, A|].
  cbn [discard u_occ u_rooms u_open u_gone u_noclip]. split; [exact B|]. split; [exact C|].
  intros ob c o H Hd L O. destruct (D ob c o H Hd L O) as [K | K]; [|right; apply in_or_app; auto].
  destruct (open_eqb (c, ob, o) x) eqn:E.
  - right. apply in_or_app. right. left. symmetry.
    destruct A as (A1 & _ & _ & A4). eapply open_eqb_eq; eauto.
    destruct x as [[c' ob'] o']. apply A1 in Hx. apply Hx.
  - left. apply filter_In. split; [exact K|]. rewrite E. reflexivity.
Qed.
Lemma Iok_history ops m nc st : urun ops (upm_init m nc) = Some st -> Iok st.
Proof.
  intros E. eapply lift_ok; [exact Iok_register1|exact Iok_link|intros; apply Iok_discard; assumption| |exact E].
  apply Iok_init.
Qed.
Lemma noclip_history ops m nc st : urun ops (upm_init m nc) = Some st ->
  u_noclip st = nc /\ u_mirror st = m.
Proof.
  intros E. eapply (lift_ok (fun st => u_noclip st = nc /\ u_mirror st = m)); [| | | |exact E].
  - intros s r s' [H1 H2] R. apply register1_ok in R as (_ & R1 & R2 & _). split; congruence.
  - intros s a b s' [H1 H2] R. unfold register_link in R. destruct (rotations s); [|discriminate].
    injection R as <-. auto.
  - intros s x H _. exact H.
  - auto.
Qed.

(** C23 *)
Lemma rooms_disjoint_lemma ops m st : urun ops (upm_init m false) = Some st ->
  disjoint_rooms (u_rooms st) /\
  (forall c ob, dget cell_eqb (u_occ st) c = Some ob <-> In ob (u_rooms st) /\ In c (positions (snd ob))).
Proof.
  intros E. destruct (Iok_history _ _ _ _ E) as ((_ & B & _ & N) & _ & C & _).
  destruct (noclip_history _ _ _ _ E) as [NC _]. specialize (C NC). split.
  - intros i j a b c Ha Hb Hij H1 H2.
    pose proof (C a c (nth_error_In _ _ Ha) H1) as X. pose proof (C b c (nth_error_In _ _ Hb) H2) as Y.
    assert (a = b) by congruence. subst b. apply Hij. unfold obj in *.
    apply NoDup_nth_error with (l := map fst (u_rooms st)); [exact N| |].
    + apply nth_error_Some. rewrite nth_error_map, Ha. discriminate.
    + rewrite !nth_error_map, Ha, Hb. reflexivity.
  - intros c ob. split; [apply B|]. intros [H1 H2]. auto.
Qed.

(** C24 *)
Lemma prereg_spec_lemma st r ts : rotations st = Some ts ->
  (preregister_room st r = Ok true ->
     exists st', register_room st r = (st', None) /\
       u_rooms st' = u_rooms st ++ combine (seq (u_next st) (List.length ts)) (map (fun t => mirror_room t r) ts)) /\
  (preregister_room st r = Ok false ->
     (exists t c, In t ts /\ In c (positions (mirror_room t r)) /\ occupied (u_occ st) c = true) \/
     (exists i j t t', nth_error ts i = Some t /\ nth_error ts j = Some t' /\ (i < j)%nat /\
        share_cell (positions (mirror_room t r)) (positions (mirror_room t' r))) \/
     (exists t d, In t ts /\ In d (doorways (mirror_room t r)) /\ ~ legal_cell (fst d))).
Proof.
  intros R. unfold preregister_room, register_room. rewrite R. split.
  - intros E. injection E as E. destruct (prereg_ok_register _ _ _ st E) as [st' E']; [reflexivity|].
    exists st'. split; [exact E'|]. apply register_all_ok in E' as (_ & _ & _ & _ & _ & Q & _).
    rewrite Q, map_length. reflexivity.
  - intros E. injection E as E.
    destruct (existsb (fun t => clash (u_occ st) (mirror_room t r)) ts) eqn:X1.
    { left. apply existsb_exists in X1 as (t & H1 & H2). apply clash_iff in H2 as (c & H2 & H3). eauto. }
    destruct (forallb (fun t => forallb (fun d : cell * cell => is_legal (fst d)) (doorways (mirror_room t r))) ts) eqn:X2.
    2:{ right. right. clear - X2. induction ts as [|t ts IH]; [discriminate|]. cbn [forallb] in X2.
        apply andb_false_iff in X2 as [X2 | X2].
        - exists t. revert X2. generalize (doorways (mirror_room t r)). intros l X2.
          induction l as [|d l IHl]; [discriminate|]. cbn [forallb] in X2.
          apply andb_false_iff in X2 as [X2 | X2].
          + exists d. split; [left; reflexivity|]. split; [left; reflexivity|].
            rewrite <- is_legal_iff, X2. discriminate.
          + destruct (IHl X2) as (d' & H1 & H2 & H3). exists d'. split; [exact H1|]. split; [right; exact H2|exact H3].
        - destruct (IH X2) as (t' & d & H1 & H2). exists t', d. split; [right; exact H1|exact H2]. }
    right. left.
    (* decide whether two images overlap *)
    destruct (existsb (fun ij => match nth_error ts (fst ij), nth_error ts (snd ij) with
                                 | Some t, Some t' => (Nat.ltb (fst ij) (snd ij)) &&
                                     existsb (fun c => cmem c (positions (mirror_room t' r))) (positions (mirror_room t r))
                                 | _, _ => false end)
                (list_prod (seq 0 (List.length ts)) (seq 0 (List.length ts)))) eqn:X3.
    { apply existsb_exists in X3 as ([i j] & _ & H). cbn [fst snd] in H.
      destruct (nth_error ts i) as [t|] eqn:Ei; [|discriminate].
      destruct (nth_error ts j) as [t'|] eqn:Ej; [|discriminate].
      apply andb_true_iff in H as [H1 H2]. apply existsb_exists in H2 as (c & H2 & H3).
      apply cmem_in in H3. apply Nat.ltb_lt in H1. exists i, j, t, t'. do 3 (split; [assumption|]). exists c. auto. }
    exfalso.
    enough (prereg (u_occ st) [] (map (fun t => mirror_room t r) ts) = true) by congruence.
    apply prereg_true_iff. split; [|split].
    + intros r' c Hr Hc. apply in_map_iff in Hr as (t & <- & Ht). split; [|reflexivity].
      destruct (occupied (u_occ st) c) eqn:O; [|reflexivity].
      assert (existsb (fun t => clash (u_occ st) (mirror_room t r)) ts = true); [|congruence].
      apply existsb_exists. exists t. split; [exact Ht|]. apply clash_iff. eauto.
    + intros i j a b c Ea Eb Lt Ha Hb. rewrite nth_error_map in Ea, Eb.
      destruct (nth_error ts i) as [t|] eqn:Ei; [|discriminate].
      destruct (nth_error ts j) as [t'|] eqn:Ej; [|discriminate].
      injection Ea as <-. injection Eb as <-.
      assert (forall k t0, nth_error ts k = Some t0 -> In k (seq 0 (List.length ts))) as Hs.
      { intros k t0 Hk. apply in_seq. split; [lia|]. cbn. apply nth_error_Some. congruence. }
      match type of X3 with ?b = false => assert (b = true) as K; [|congruence] end.
      apply existsb_exists. exists (i, j). split; [apply in_prod; eauto|]. cbn [fst snd].
      rewrite Ei, Ej. apply andb_true_iff. split; [apply Nat.ltb_lt; exact Lt|].
      apply existsb_exists. exists c. split; [exact Ha|]. apply cmem_in, Hb.
    + intros r' d Hr Hd. apply in_map_iff in Hr as (t & <- & Ht).
      rewrite forallb_forall in X2. specialize (X2 t Ht). rewrite forallb_forall in X2. auto.
Qed.

(** C25 *)
Lemma register_failure_lemma st r st' x ts : rotations st = Some ts ->
  register_room st r = (st', Some x) ->
  x = UserExn /\ u_noclip st = false /\
  exists before t after st1, ts = before ++ t :: after /\
    register_all st (map (fun t => mirror_room t r) before) = (st1, None) /\
    (exists c, In c (positions (mirror_room t r)) /\ occupied (u_occ st1) c = true) /\
    st' = U (u_noclip st1) (u_mirror st1) (u_occ st1) (u_open st1)
            (u_rooms st1 ++ [(u_next st1, mirror_room t r)]) (u_links st1) (S (u_next st1)) (u_gone st1).
Proof.
  intros R. unfold register_room. rewrite R. clear R.
  assert (forall l st0, register_all st0 (map (fun t => mirror_room t r) l) = (st', Some x) ->
    x = UserExn /\ u_noclip st0 = false /\
    exists before t after st1, l = before ++ t :: after /\
      register_all st0 (map (fun t => mirror_room t r) before) = (st1, None) /\
      (exists c, In c (positions (mirror_room t r)) /\ occupied (u_occ st1) c = true) /\
      st' = U (u_noclip st1) (u_mirror st1) (u_occ st1) (u_open st1)
              (u_rooms st1 ++ [(u_next st1, mirror_room t r)]) (u_links st1) (S (u_next st1)) (u_gone st1)) as K.
  { induction l as [|t l IH]; intros st0 E; cbn [map register_all] in E; [discriminate|].
    destruct (register1 st0 (mirror_room t r)) as [st1 [y|]] eqn:E1.
    - injection E as <- <-. apply register1_err in E1 as (-> & N & C & ->).
      split; [reflexivity|]. split; [exact N|]. exists [], t, l, st0. split; [reflexivity|].
      split; [reflexivity|]. split; [apply clash_iff, C|reflexivity].
    - apply IH in E as (-> & N & before & t' & after & st2 & -> & R2 & C & ->).
      split; [reflexivity|]. split.
      { apply register1_ok in E1 as (_ & Q & _). congruence. }
      exists (t :: before), t', after, st2. split; [reflexivity|]. split; [|split; [exact C|reflexivity]].
      cbn [map register_all]. rewrite E1. exact R2. }
  apply K.
Qed.

(** C26 *)
Lemma open_doors_any_lemma ops m nc c ob o :
  let st := urun_any ops (upm_init m nc) in
  In (c, ob, o) (u_open st) ->
  legal_cell c /\ dget cell_eqb (u_occ st) c = None /\ In ob (u_rooms st) /\ In (c, o) (doorways (snd ob)).
Proof.
  intros st H. destruct (Iany_history ops m nc) as (A & _). apply A in H as (H1 & H2 & H3 & H4).
  rewrite <- is_legal_iff, <- occupied_false. auto.
Qed.
Lemma open_doors_complete_lemma ops m nc st ob c o : urun ops (upm_init m nc) = Some st ->
  In ob (u_rooms st) -> In (c, o) (doorways (snd ob)) -> legal_cell c ->
  dget cell_eqb (u_occ st) c = None ->
  In (c, ob, o) (u_open st) \/ In (c, ob, o) (u_gone st).
Proof.
  intros E H1 H2 H3 H4. destruct (Iok_history _ _ _ _ E) as (_ & _ & _ & D).
  apply D; auto; [apply is_legal_iff, H3|apply occupied_false, H4].
Qed.
Lemma urun_any_agrees ops : forall st st', urun ops st = Some st' -> urun_any ops st = st'.
Proof.
  unfold urun_any. induction ops as [|op ops IH]; intros st st' E; cbn [urun fold_left] in *; [congruence|].
  destruct (ustep st op) as [st1 [x|]]; [discriminate|]. cbn [fst]. auto.
Qed.

(** C27 *)
Lemma rotations_closed st ts s t : rotations st = Some ts -> In s ts -> In t ts -> In (tadd s t) ts.
Proof.
  unfold rotations. destruct (u_mirror st) as [m|]; [|discriminate].
  destruct m as [|[[[p|p|]|[p|p|]|]|[[p|p|]|[p|p|]|]|]|p]; intros E; try discriminate E; injection E as <-;
    cbn [In]; destruct s, t; cbn [tadd tnext]; intuition discriminate.
Qed.
Definition tinv (t : turn) : turn := match t with T0 => T0 | T1 => T3 | T2 => T2 | T3 => T1 end.
Lemma rotations_inv st ts t : rotations st = Some ts -> In t ts -> In (tinv t) ts.
Proof.
  unfold rotations. destruct (u_mirror st) as [m|]; [|discriminate].
  destruct m as [|[[[p|p|]|[p|p|]|]|[[p|p|]|[p|p|]|]|]|p]; intros E; try discriminate E; injection E as <-;
    cbn [In]; destruct t; cbn [tinv]; intuition discriminate.
Qed.
Lemma tinv_l t : tadd (tinv t) t = T0.
Proof. destruct t; reflexivity. Qed.
Lemma tinv_r t : tadd t (tinv t) = T0.
Proof. destruct t; reflexivity. Qed.

Definition Isym (st : upm) : Prop :=
  forall ts t, rotations st = Some ts -> In t ts ->
    (forall c, occupied (u_occ st) (mrot t c) = occupied (u_occ st) c) /\
    (forall ob, In ob (u_rooms st) -> exists ob', In ob' (u_rooms st) /\ snd ob' = mirror_room t (snd ob)).

Lemma in_combine_seq {A} (l : list A) x s : In x l -> exists i, In (i, x) (combine (seq s (List.length l)) l).
Proof.
  revert s. induction l as [|y l IH]; intros s H; [contradiction|]. cbn [List.length seq combine].
  destruct H as [-> | H]; [exists s; left; reflexivity|]. destruct (IH (S s) H) as [i Hi].
  exists i. right. exact Hi.
Qed.

Lemma Isym_register st r st' : Isym st -> register_room st r = (st', None) -> Isym st'.
Proof.
  intros S E ts t R Ht.
  unfold register_room in E. destruct (rotations st) as [ts0|] eqn:R0; [|discriminate].
  apply register_all_ok in E as (_ & E2 & _ & _ & _ & E6 & E7 & _).
  assert (ts0 = ts) as -> by (unfold rotations in *; rewrite E2 in R; congruence).
  destruct (S ts t R0 Ht) as [S1 S2]. split.
  - intros c. rewrite !E7, S1. f_equal.
    assert (forall c t, In t ts -> In c (flat_map positions (map (fun t => mirror_room t r) ts)) ->
      In (mrot t c) (flat_map positions (map (fun t => mirror_room t r) ts))) as K.
    { intros c0 t0 Ht0 H. apply in_flat_map in H as (r' & H1 & H2). apply in_map_iff in H1 as (s & <- & Hs).
      rewrite positions_mirror in H2. apply in_map_iff in H2 as (p & <- & Hp).
      apply in_flat_map. exists (mirror_room (tadd s t0) r). split.
      - apply in_map_iff. exists (tadd s t0). split; [reflexivity|]. eapply rotations_closed; eauto.
      - rewrite positions_mirror, mrot_mrot. apply in_map. exact Hp. }
    destruct (cmem c _) eqn:M.
    + apply cmem_in. apply cmem_in in M. apply K; assumption.
    + destruct (cmem (mrot t c) _) eqn:M2; [|reflexivity]. apply cmem_in in M2.
      apply (K _ (tinv t)) in M2; [|eapply rotations_inv; eauto].
      rewrite mrot_mrot, tinv_r, mrot_T0 in M2. apply cmem_in in M2. congruence.
  - intros ob H. rewrite E6 in *. apply in_app_or in H as [H | H].
    + destruct (S2 ob H) as (ob' & H1 & H2). exists ob'. split; [apply in_or_app; auto|exact H2].
    + destruct ob as [i r']. apply in_combine_r in H. apply in_map_iff in H as (s & <- & Hs).
      destruct (in_combine_seq (map (fun t => mirror_room t r) ts) (mirror_room (tadd s t) r) (u_next st)) as [j Hj].
      { apply in_map_iff. exists (tadd s t). split; [reflexivity|]. eapply rotations_closed; eauto. }
      exists (j, mirror_room (tadd s t) r). split; [apply in_or_app; right; exact Hj|].
      cbn [snd]. symmetry. apply mirror_mirror.
Qed.
Lemma Isym_link st a b st' : Isym st -> register_link st a b = (st', None) -> Isym st'.
Proof.
  unfold register_link. intros S. destruct (rotations st); [|discriminate]. intros E. injection E as <-.
  exact S.
Qed.
Lemma Isym_history ops m nc st : existsb is_endcap ops = false ->
  urun ops (upm_init m nc) = Some st -> Isym st.
Proof.
  intros NE E. refine (lift_mirrored (fun _ => Isym) _ _ _ _ _ ops [] _ st NE _ E).
  - auto.
  - intros; eapply Isym_register; eauto.
  - intros. eapply Isym_link; [|eassumption]. eapply Isym_register; eauto.
  - intros done s x H _. exact H.
  - intros; eapply Isym_link; eauto.
  - intros ts t _ _. split; [reflexivity|intros ob []].
Qed.

(** C35 *)
Lemma linked_trans l a b c : linked l a b -> linked l b c -> linked l a c.
Proof. induction 1; [auto|]. intros. econstructor; eauto. Qed.
Lemma linked_mono l l' a b : incl l l' -> linked l a b -> linked l' a b.
Proof.
  intros I. induction 1 as [|x y z H _ IH]; [constructor|]. econstructor; [|exact IH]. destruct H; auto.
Qed.

Definition Ilinks (ops : list uop) (st : upm) : Prop :=
  existsb is_link ops = false ->
  Isym st /\ Iany st /\
  (forall a b, In (a, b) (u_links st) -> exists oa ob, In oa (u_rooms st) /\ In ob (u_rooms st) /\
     r_pos (snd oa) = a /\ r_pos (snd ob) = b) /\
  (forall ts t a b, rotations st = Some ts -> In t ts -> In (a, b) (u_links st) ->
     In (mrot t a, mrot t b) (u_links st)) /\
  (forall ts ob, rotations st = Some ts -> In ob (u_rooms st) -> exists r t, started ops r /\ In t ts /\
     linked (u_links st) (r_pos (snd ob)) (mrot t (r_pos r))).

Lemma Iany_register st r st' : Iany st -> register_room st r = (st', None) -> Iany st'.
Proof.
  unfold register_room. intros H. destruct (rotations st); [|discriminate].
  intros E. eapply register_all_inv; [|exact H|exact E]. exact Iany_register1.
Qed.

Lemma Ilinks_weaken done op st : Ilinks done st -> Ilinks (done ++ [op]) st.
Proof.
  intros H N. rewrite existsb_app in N. apply orb_false_elim in N as [N _].
  destruct (H N) as (H1 & H2 & H3 & H4 & H5). do 4 (split; [assumption|]).
  intros ts ob R Hob. destruct (H5 ts ob R Hob) as (r & t & K1 & K2). exists r, t.
  split; [apply in_or_app; left; exact K1|exact K2].
Qed.
Lemma Ilinks_register done st r st' : Ilinks (done ++ [ORegister r]) st ->
  register_room st r = (st', None) -> Ilinks (done ++ [ORegister r]) st'.
Proof.
  intros H E N. destruct (H N) as (H1 & H2 & H3 & H4 & H5).
  split; [eapply Isym_register; eauto|]. split; [eapply Iany_register; eauto|].
  unfold register_room in E. destruct (rotations st) as [ts0|] eqn:R0; [|discriminate].
  apply register_all_ok in E as (_ & E2 & E3 & _ & _ & E6 & _).
  assert (rotations st' = Some ts0) as R1 by (unfold rotations in *; rewrite E2; exact R0).
  rewrite E3, E6, R1. split; [|split].
  - intros a b Hab. destruct (H3 a b Hab) as (oa & ob & K1 & K2 & K3). exists oa, ob.
    split; [apply in_or_app; auto|]. split; [apply in_or_app; auto|exact K3].
  - intros ts t a b R. injection R as <-. apply H4. reflexivity.
  - intros ts ob R Hob. injection R as <-. apply in_app_or in Hob as [Hob | Hob]; [eauto|].
    destruct ob as [i r']. apply in_combine_r in Hob. apply in_map_iff in Hob as (t & <- & Ht).
    exists r, t. split; [apply in_or_app; right; left; reflexivity|]. split; [exact Ht|constructor].
Qed.
Lemma Ilinks_place done st d prev o r st1 st2 : Ilinks done st -> In (d, prev, o) (u_open st) ->
  register_room st r = (st1, None) -> register_link st1 (snd prev) r = (st2, None) -> Ilinks done st2.
Proof.
  intros H Hin E EL N. destruct (H N) as (H1 & H2 & H3 & H4 & H5).
  assert (In prev (u_rooms st)) as Hprev by (destruct H2 as (A & _); apply A in Hin; tauto).
  split; [eapply Isym_link; [|exact EL]; eapply Isym_register; eauto|].
  split; [eapply Iany_link; [|exact EL]; eapply Iany_register; eauto|].
  unfold register_room in E. destruct (rotations st) as [ts|] eqn:R0; [|discriminate].
  apply register_all_ok in E as (_ & E2 & E3 & _ & _ & E6 & _).
  assert (rotations st1 = Some ts) as R1 by (unfold rotations in *; rewrite E2; exact R0).
  unfold register_link in EL. rewrite R1 in EL. injection EL as <-.
  assert (rotations (U (u_noclip st1) (u_mirror st1) (u_occ st1) (u_open st1) (u_rooms st1)
      (u_links st1 ++ map (fun t => (mrot t (r_pos (snd prev)), mrot t (r_pos r))) ts)
      (u_next st1) (u_gone st1)) = Some ts) as R2 by exact R1.
  rewrite R2. cbn [u_links u_rooms]. rewrite E3, E6. clear R2.
  split; [|split].
  - intros a b Hab. apply in_app_or in Hab as [Hab | Hab].
    + destruct (H3 a b Hab) as (oa & ob & K1 & K2 & K3). exists oa, ob.
      split; [apply in_or_app; auto|]. split; [apply in_or_app; auto|exact K3].
    + apply in_map_iff in Hab as (t & Q & Ht). injection Q as <- <-.
      destruct (H1 ts t R0 Ht) as [_ S2]. destruct (S2 prev Hprev) as (oa & K1 & K2).
      destruct (in_combine_seq (map (fun t => mirror_room t r) ts) (mirror_room t r) (u_next st)) as [j Hj].
      { apply in_map_iff. eauto. }
      exists oa, (j, mirror_room t r).
      split; [apply in_or_app; auto|]. split; [apply in_or_app; right; exact Hj|].
      split; [rewrite K2; reflexivity|reflexivity].
  - intros ts' t a b Q Ht Hab. injection Q as <-. apply in_app_or in Hab as [Hab | Hab]; apply in_or_app.
    + left. eauto.
    + right. apply in_map_iff in Hab as (s & Q & Hs). injection Q as <- <-.
      apply in_map_iff. exists (tadd s t). rewrite !mrot_mrot. split; [reflexivity|].
      eapply rotations_closed; eauto.
  - assert (forall ob, In ob (u_rooms st) -> exists r0 t, started done r0 /\ In t ts /\
      linked (u_links st ++ map (fun t => (mrot t (r_pos (snd prev)), mrot t (r_pos r))) ts)
        (r_pos (snd ob)) (mrot t (r_pos r0))) as K.
    { intros ob Hob. destruct (H5 ts ob eq_refl Hob) as (r0 & t & K1 & K2 & K3). exists r0, t.
      do 2 (split; [assumption|]). eapply linked_mono; [|exact K3]. apply incl_appl, incl_refl. }
    intros ts' ob Q Hob. injection Q as <-. apply in_app_or in Hob as [Hob | Hob]; [auto|].
    destruct ob as [i r']. apply in_combine_r in Hob. apply in_map_iff in Hob as (t & <- & Ht).
    destruct (H1 ts t R0 Ht) as [_ S2]. destruct (S2 prev Hprev) as (oa & K1 & K2).
    destruct (K oa K1) as (r0 & t0 & L1 & L2 & L3). exists r0, t0. do 2 (split; [assumption|]).
    eapply LStep; [|exact L3]. right. rewrite K2. cbn [snd mirror_room r_pos].
    apply in_or_app. right. apply in_map_iff. exists t. auto.
Qed.

Lemma links_lemma ops m nc st ts : existsb is_endcap ops = false -> existsb is_link ops = false ->
  urun ops (upm_init m nc) = Some st -> rotations st = Some ts ->
  (forall a b, In (a, b) (u_links st) -> exists oa ob, In oa (u_rooms st) /\ In ob (u_rooms st) /\
     r_pos (snd oa) = a /\ r_pos (snd ob) = b) /\
  (forall t a b, In t ts -> In (a, b) (u_links st) -> In (mrot t a, mrot t b) (u_links st)) /\
  (forall ob, In ob (u_rooms st) -> exists r t, started ops r /\ In t ts /\
     linked (u_links st) (r_pos (snd ob)) (mrot t (r_pos r))).
Proof.
  intros NE NL E R.
  assert (Ilinks ops st) as K.
  2:{ destruct (K NL) as (_ & _ & H3 & H4 & H5). split; [exact H3|]. split; [|intros ob; exact (H5 ts ob R)].
    intros t a b. exact (H4 ts t a b R). }
  refine (lift_mirrored Ilinks _ _ _ _ _ ops [] _ st NE _ E).
  - intros; apply Ilinks_weaken; assumption.
  - intros; eapply Ilinks_register; eauto.
  - intros; eapply Ilinks_place; eauto.
  - intros done s x H Hx N. destruct (H N) as (H1 & H2 & H3). split; [exact H1|]. split; [|exact H3].
    apply Iany_discard, H2.
  - intros done s a b s' _ _ N. rewrite existsb_app in N. cbn in N. rewrite orb_true_r in N. discriminate.
  - intros _. split; [intros ts0 t _ _; split; [reflexivity|intros ob []]|]. split; [apply Iany_init|].
    cbn. intuition contradiction.
Qed.
