(** Totality of placement (C29), discarded doors (C30), endcaps (C33), bounds (C34). *)
From Coq Require Import QArith.
From Verif Require Import Py VecProofs UpmModel UpmSpec UpmProofs UpmRandom UpmTrace UpmInv UpmMore.
Local Open Scope Z_scope.

(** ** C29: no exception *)
(** Drawing flags for an option next to the given room works. *)
Definition flags_ok (opts : list rclass) (r : room) : Prop :=
  forall c, In c opts -> rc_id c = rc_id (r_cls r) -> rc_flags c <> None -> r_flags r <> [].

Lemma rand_opts_ok opts c prev g : In c opts -> flags_ok opts prev -> exists fl g', rand_opts c prev g = (Ok fl, g').
Proof.
  intros Hc F. unfold rand_opts. specialize (F c Hc). destruct (rc_flags c) as [l|]; [|eauto].
  destruct (Z.eqb_spec (rc_id c) (rc_id (r_cls prev))) as [Q|Q].
  - destruct (r_flags prev); [exfalso; apply F; [exact Q|discriminate|reflexivity]|]. destruct (draw g). eauto.
  - destruct (draw_bits _ g). eauto.
Qed.
Lemma try_doors_ok opts st ts c t d prev o : rotations st = Some ts -> In c opts -> flags_ok opts prev ->
  forall ds g, exists r g', try_doors st c t d prev o ds g = (Ok r, g').
Proof.
  intros R Hc F. induction ds as [|ch ds IH]; intros g; cbn [try_doors]; [eauto|].
  destruct (rand_opts_ok opts c prev g Hc F) as (fl & g' & ->).
  unfold preregister_room at 1. rewrite R. destruct (prereg _ _ _); eauto.
Qed.
Lemma try_turns_ok opts st ts c d prev o : rotations st = Some ts -> In c opts -> flags_ok opts prev ->
  forall l g, exists r g', try_turns st c l d prev o g = (Ok r, g').
Proof.
  intros R Hc F. induction l as [|t l IH]; intros g; cbn [try_turns]; [eauto|].
  destruct (try_doors_ok opts st ts c t d prev o R Hc F (matching (mk_room c P0 t None) o) g) as (r & g' & ->).
  destruct r; eauto.
Qed.
Lemma try_classes_ok opts st ts d prev o : rotations st = Some ts -> flags_ok opts prev ->
  forall cs g, incl cs opts -> exists r g', try_classes st cs d prev o g = (Ok r, g').
Proof.
  intros R F. induction cs as [|c cs IH]; intros g I; cbn [try_classes]; [eauto|].
  destruct (sample CARD g) as [l g1].
  destruct (try_turns_ok opts st ts c d prev o R (I c (or_introl eq_refl)) F l g1) as (r & g' & ->).
  destruct r; [eauto|]. apply IH. intros y Hy. apply I. right. exact Hy.
Qed.
Lemma localize_ok e opts st ts d prev o g : good_env e -> opts <> [] -> rotations st = Some ts ->
  flags_ok opts prev -> exists r g', localize e st opts d prev o g = (Ok r, g').
Proof.
  intros G NE R F. unfold localize. destruct (room_stream e prev opts g) as [x g1] eqn:S.
  destruct (room_stream_lemma _ _ _ _ _ _ G NE S) as (cs & -> & _ & I & _).
  eapply try_classes_ok; eauto.
Qed.

Definition Itot (opts : list rclass) (st : upm) : Prop :=
  rotations st <> None /\
  (forall c ob o, In (c, ob, o) (u_open st) -> is_legal c = true /\ flags_ok opts (snd ob)).

Lemma Itot_register1 opts st r st' : flags_ok opts r -> Itot opts st -> register1 st r = (st', None) -> Itot opts st'.
Proof.
  intros F [H1 H2] E. apply register1_ok in E as (_ & _ & E2 & _ & E4 & _). split.
  - unfold rotations in *. rewrite E2. exact H1.
  - intros c ob o H. rewrite E4 in H. apply in_app_or in H as [H | H].
    + apply filter_In in H as [H _]. eauto.
    + apply in_map_iff in H as ([p q] & Q & H). injection Q as <- <- <-. apply filter_In in H as [_ H].
      apply andb_prop in H as [H _]. auto.
Qed.
Lemma Itot_register_all opts : forall rs st st', (forall r, In r rs -> flags_ok opts r) -> Itot opts st ->
  register_all st rs = (st', None) -> Itot opts st'.
Proof.
  induction rs as [|r rs IH]; intros st st' F H E; cbn [register_all] in E; [injection E as <-; exact H|].
  destruct (register1 st r) as [st1 [y|]] eqn:R; [discriminate|].
  refine (IH st1 st' _ _ E); [intros; apply F; right; assumption|].
  eapply Itot_register1; eauto. apply F. left. reflexivity.
Qed.

Lemma mk_room_flags_ok opts c pos t fl : coherent opts -> (forall c, In c opts -> rc_flags c <> Some []) ->
  In c opts -> flags_ok opts (mk_room c pos t fl).
Proof.
  intros C NE Hc c' Hc' Q N. cbn [mk_room r_cls r_flags] in *. assert (c' = c) as -> by (apply C; assumption).
  assert (default_flags c <> []) as D.
  { unfold default_flags. specialize (NE c Hc). destruct (rc_flags c); congruence. }
  destruct fl as [[|b l]|]; try exact D. destruct (rc_keep c); [discriminate|exact D].
Qed.

Lemma place_loop_no_error e opts n : good_env e -> opts <> [] -> coherent opts ->
  (forall c, In c opts -> rc_flags c <> Some []) ->
  forall fuel st k g st' y g', Itot opts st -> place_loop fuel e st opts n k g = (st', Err y, g') -> y = OutOfFuel.
Proof.
  intros G NE C FL. induction fuel as [|fuel IH]; intros st k g st' y g' H E.
  { cbn [place_loop] in E. congruence. }
  apply place_loop_cases in E as [Q | [Q | [Q | [Q | Q]]]].
  - destruct Q as (_ & _ & X). discriminate.
  - destruct Q as (_ & _ & _ & X). discriminate.
  - exfalso. destruct H as [H1 H2]. destruct Q as (_ & O & z & _ & [(_ & g1 & NR) | (d & prev & o & g1 & g2 & Hin & _ & LO)]).
    + apply nonrandom_total in NR as [x X]; [discriminate|exact O|].
      intros [[c ob] q] He. apply H2 in He as [He _]. cbn [fst]. apply is_legal_iff in He.
      unfold flavour_vertical. destruct c as [[cx cy] cz]. cbn [snd]. destruct He as (_ & _ & L).
      assert (0 <= cz ^ 5) by (apply Z.pow_nonneg; lia). unfold Qle. cbn. lia.
    + destruct (rotations st) as [ts|] eqn:RO; [|congruence].
      apply H2 in Hin as [_ F].
      destruct (localize_ok e opts st ts d (snd prev) o g1 G NE RO F) as (x & gx & X). congruence.
  - destruct Q as (_ & d & prev & o & g1 & r & g2 & Hin & LO & st1 & st2 & m & R1 & M & R2 & E).
    eapply IH; [|exact E]. apply localize_some in LO as (c & pos & t & fl & -> & L1 & _).
    assert (Itot opts st1) as [K1 K2].
    { unfold register_room in R1. destruct (rotations st) as [ts|] eqn:RO; [|discriminate].
      refine (Itot_register_all opts _ _ _ _ H R1).
      intros r Hr. apply in_map_iff in Hr as (s & <- & _).
      exact (mk_room_flags_ok opts c pos t fl C FL L1). }
    unfold register_link in R2. destruct (rotations st1) as [ts1|] eqn:RO1; [|discriminate]. injection R2 as <-.
    split; [|exact K2]. unfold rotations in *. cbn [u_mirror]. rewrite RO1. discriminate.
  - destruct Q as (_ & d & prev & o & g1 & g2 & Hin & LO & E).
    eapply IH; [|exact E]. destruct H as [H1 H2]. split; [exact H1|].
    intros c ob q Hq. cbn [discard u_open] in Hq. apply filter_In in Hq as [Hq _]. eauto.
Qed.

Lemma place_total_lemma e opts n st m g : good_env e -> opts <> [] -> coherent opts ->
  (forall c, In c opts -> rc_flags c <> Some []) ->
  u_mirror st = Some m -> m = 1 \/ m = 2 \/ m = 4 ->
  (forall c ob o, In (c, ob, o) (u_open st) -> legal_cell c /\
     forall k, In k opts -> rc_id k = rc_id (r_cls (snd ob)) -> rc_flags k <> None -> r_flags (snd ob) <> []) ->
  exists fuel0, forall fuel, (fuel0 <= fuel)%nat -> exists st' k g',
    place_rooms fuel e st opts n g = (st', Ok k, g') /\
    Z.of_nat (List.length (u_rooms st')) = Z.of_nat (List.length (u_rooms st)) + k /\
    ((n <= k /\ (k < n + m \/ k = 0)) \/ u_open st' = []).
Proof.
  intros G NE C FL M Hm HO. destruct (place_loop_terminates_lemma e opts n st 0 g) as [f0 T].
  exists f0. intros fuel Hf. unfold place_rooms. destruct (place_loop fuel e st opts n 0 g) as [[st' [k|y]] g'] eqn:E.
  - exists st', k, g'. split; [reflexivity|]. apply place_loop_count in E as (E1 & E2 & E3).
    split; [lia|]. destruct E3 as [E3 | [E3 E4]]; [right; exact E3|left]. split; [exact E3|]. apply E4. exact M.
  - exfalso. eapply T; [exact Hf|exact E|]. f_equal.
    eapply place_loop_no_error; [exact G|exact NE|exact C|exact FL| |exact E]. split.
    + unfold rotations. rewrite M. destruct Hm as [-> | [-> | ->]]; discriminate.
    + intros c ob o Hin. apply HO in Hin as [H1 H2]. split; [apply is_legal_iff; exact H1|exact H2].
Qed.

(** ** C30: the discarded doors, judged at the end *)
Lemma occ_mono_trace opts st rs st' : trace opts st rs st' ->
  rotations st' = rotations st /\
  (forall c, occupied (u_occ st) c = true -> occupied (u_occ st') c = true).
Proof.
  induction 1 as [st | st st1 st2 st' d prev o c pos t fl rs _ _ _ _ R RL _ [IH1 IH2]
    | st st1 st' d prev o rs _ _ _ Eo _ _ Em _ _ _ _ [IH1 IH2]].
  - auto.
  - unfold register_room in R. destruct (rotations st) as [ts|] eqn:RO; [|discriminate].
    apply register_all_ok in R as (_ & E2 & _ & _ & _ & _ & E7 & _).
    unfold register_link in RL. destruct (rotations st1) as [ts1|] eqn:RO1; [|discriminate].
    injection RL as <-. split.
    + rewrite IH1. unfold rotations in *. cbn [u_mirror]. rewrite E2; exact RO.
    + intros x Hx. apply IH2. cbn [u_occ]. rewrite E7, Hx. apply orb_true_r.
  - split; [rewrite IH1; unfold rotations; rewrite Em; reflexivity|].
    intros x Hx. apply IH2. rewrite Eo. exact Hx.
Qed.
Lemma preregister_mono st st' r : rotations st' = rotations st ->
  (forall c, occupied (u_occ st) c = true -> occupied (u_occ st') c = true) ->
  preregister_room st r = Ok false -> preregister_room st' r = Ok false.
Proof.
  intros R M. unfold preregister_room. rewrite R. destruct (rotations st) as [ts|]; [|discriminate].
  intros E. injection E as E. destruct (prereg (u_occ st') [] _) eqn:P; [|reflexivity]. exfalso.
  apply prereg_true_iff in P as (A & B & D).
  assert (prereg (u_occ st) [] (map (fun t => mirror_room t r) ts) = true) as X.
  { apply prereg_true_iff. split; [|split; [exact B|exact D]]. intros r0 c H1 H2.
    destruct (A r0 c H1 H2) as [A1 A2]. split; [|exact A2].
    destruct (occupied (u_occ st) c) eqn:O; [|reflexivity]. apply M in O. congruence. }
  congruence.
Qed.
Lemma trace_gone opts st rs st' : trace opts st rs st' ->
  exists new, u_gone st' = u_gone st ++ new /\
    forall d prev o, In (d, prev, o) new -> forall c pos t, In c opts ->
      attached (mk_room c pos t None) d o ->
      exists fl, preregister_room st' (mk_room c pos t fl) = Ok false.
Proof.
  induction 1 as [st | st st1 st2 st' d prev o c pos t fl rs _ _ _ _ R RL _ (new & IH1 & IH2)
    | st st1 st' d prev o rs _ Hd _ Eo _ _ Em _ _ Eg T (new & IH1 & IH2)].
  - exists []. rewrite app_nil_r. split; [reflexivity|intros ? ? ? []].
  - exists new. split; [|exact IH2]. rewrite IH1. f_equal.
    unfold register_room in R. destruct (rotations st) as [ts|] eqn:RO; [|discriminate].
    apply register_all_ok in R as (_ & _ & _ & E4 & _).
    unfold register_link in RL. destruct (rotations st1) as [ts1|] eqn:RO1; [|discriminate].
    injection RL as <-. exact E4.
  - exists ((d, prev, o) :: new). split; [rewrite IH1, Eg, <- app_assoc; reflexivity|].
    apply occ_mono_trace in T as [T1 T2].
    intros d' prev' o' [Q | H] c pos t Hc A; [|eauto].
    injection Q as <- <- <-. destruct (Hd c pos t Hc A) as [fl F]. exists fl.
    refine (preregister_mono st st' _ _ _ F).
    + rewrite T1. unfold rotations. rewrite Em. reflexivity.
    + intros x Hx. apply T2. rewrite Eo. exact Hx.
Qed.
Lemma discarded_lemma fuel e st opts n g st' x g' : good_env e -> coherent opts ->
  place_rooms fuel e st opts n g = (st', x, g') ->
  exists new, u_gone st' = u_gone st ++ new /\
    forall d prev o, In (d, prev, o) new -> forall c pos t, In c opts ->
      attached (mk_room c pos t None) d o ->
      (exists fl, preregister_room st' (mk_room c pos t fl) = Ok false) /\
      (flag_free c -> forall fl, preregister_room st' (mk_room c pos t fl) = Ok false).
Proof.
  intros G C E. apply place_loop_trace in E as [rs T]; [|exact G|exact C].
  apply trace_gone in T as (new & T1 & T2). exists new. split; [exact T1|].
  intros d prev o H c pos t Hc A. destruct (T2 d prev o H c pos t Hc A) as [fl F].
  split; [eauto|]. intros FF fl'. rewrite <- F. apply preregister_ext; auto.
Qed.

(** ** C33: endcaps *)
Lemma cap_turns_some st c d o : forall ts r, cap_turns st c ts d o = Some r ->
  exists pos t, r = mk_room c pos t None /\ attached r d o /\
    (forall p, In p (positions r) -> is_legal p = true /\ occupied (u_occ st) p = false).
Proof.
  induction ts as [|t ts IH]; intros r E; cbn [cap_turns] in E; [discriminate|].
  destruct (matching (mk_room c P0 t None) o) as [|ch l] eqn:M; [auto|].
  destruct (forallb is_legal _) eqn:L; [|auto].
  destruct (forallb (fun p => negb (occupied (u_occ st) p)) _) eqn:N; [|auto].
  injection E as <-. exists (csub P0 (cadd (csub (fst ch) d) o)), t. split; [reflexivity|]. split.
  - apply attached_default. exists ch. rewrite M. split; [left; reflexivity|reflexivity].
  - intros p Hp. rewrite forallb_forall in L, N. split; [auto|]. apply N in Hp.
    apply negb_true_iff in Hp. exact Hp.
Qed.
Lemma cap_classes_some st d o : forall cs r, cap_classes st cs d o = Some r ->
  exists c pos t, In c cs /\ r = mk_room c pos t None /\ attached r d o /\
    (forall p, In p (positions r) -> is_legal p = true /\ occupied (u_occ st) p = false).
Proof.
  induction cs as [|c cs IH]; intros r E; cbn [cap_classes] in E; [discriminate|].
  destruct (cap_turns st c CARD d o) as [r'|] eqn:T.
  - injection E as <-. apply cap_turns_some in T as (pos & t & T). exists c, pos, t. split; [left; reflexivity|exact T].
  - apply IH in E as (c' & pos & t & E1 & E2). exists c', pos, t. split; [right; exact E1|exact E2].
Qed.

Lemma endcap_lemma caps : forall todo st g st' x g',
  endcap_loop false caps todo st g = (st', x, g') ->
  x = None /\ u_mirror st' = u_mirror st /\ u_links st' = u_links st /\
  exists new, u_rooms st' = u_rooms st ++ new /\
    (forall ob, In ob new -> exists d p o c pos t, In (d, p, o) todo /\ In c caps /\
       snd ob = mk_room c pos t None /\ attached (snd ob) d o) /\
    (forall ob c, In ob new -> In c (positions (snd ob)) -> legal_cell c /\ occupied (u_occ st) c = false) /\
    disjoint_rooms new /\
    (forall c, occupied (u_occ st') c = true <->
       occupied (u_occ st) c = true \/ exists ob, In ob new /\ In c (positions (snd ob))).
Proof.
  induction todo as [|[[d p] o] todo IH]; intros st g st' x g' E; cbn [endcap_loop] in E.
  - injection E as <- <- <-. do 3 (split; [reflexivity|]). exists []. rewrite app_nil_r.
    split; [reflexivity|]. split; [intros ? []|]. split; [intros ? ? []|]. split.
    + intros [|i] j a b c Q; discriminate.
    + intros c. split; [auto|]. intros [H | (ob & [] & _)]. exact H.
  - destruct (cap_real st d o caps g) as [[r|] g1] eqn:CR.
    + unfold cap_real in CR. destruct (sample caps g) as [cs g2] eqn:S. injection CR as CR <-.
      apply cap_classes_some in CR as (c & pos & t & C1 & C2 & C3 & C4).
      destruct (register1_total st r) as [st1 R1].
      { right. destruct (clash (u_occ st) r) eqn:K; [|reflexivity].
        apply clash_iff in K as (q & K1 & K2). apply C4 in K1 as [_ K1]. congruence. }
      rewrite R1 in E. apply IH in E as (-> & E1 & E2 & new & N1 & N2 & N3 & N4 & N5).
      apply register1_ok in R1 as (_ & _ & R2 & R3 & _ & R5 & R6 & _).
      split; [reflexivity|]. split; [congruence|]. split; [congruence|].
      exists ((u_next st, r) :: new). split; [rewrite N1, R5, <- app_assoc; reflexivity|]. split.
      { intros ob [<- | H].
        - exists d, p, o, c, pos, t. split; [left; reflexivity|]. split; [|auto].
          apply sample_perm in S. rewrite S in C1. exact C1.
        - destruct (N2 ob H) as (d' & p' & o' & c' & pos' & t' & K & K'). exists d', p', o', c', pos', t'.
          split; [right; exact K|exact K']. }
      assert (forall ob q, In ob new -> In q (positions (snd ob)) ->
        legal_cell q /\ occupied (u_occ st) q = false /\ ~ In q (positions r)) as N3'.
      { intros ob q H1 H2. destruct (N3 ob q H1 H2) as [K1 K2]. split; [exact K1|].
        rewrite R3, occupied_update in K2. apply orb_false_elim in K2 as [K2 K3]. split; [exact K3|].
        intros K. apply cmem_in in K. congruence. }
      split; [|split].
      { intros ob q [<- | H] Hq; [apply C4 in Hq as [Q1 Q2]; split; [apply is_legal_iff; exact Q1|exact Q2]|].
        destruct (N3' ob q H Hq) as (K1 & K2 & _). auto. }
      { intros i j a b q Ha Hb Hij Qa Qb. destruct i as [|i], j as [|j]; cbn [nth_error] in *.
        - congruence.
        - injection Ha as <-. apply nth_error_In in Hb. destruct (N3' b q Hb Qb) as (_ & _ & K). auto.
        - injection Hb as <-. apply nth_error_In in Ha. destruct (N3' a q Ha Qa) as (_ & _ & K). auto.
        - eapply N4; [exact Ha|exact Hb| |exact Qa|exact Qb]. congruence. }
      { intros q. rewrite N5, R3, occupied_update, orb_true_iff, cmem_in. split.
        - intros [[H | H] | (ob & H1 & H2)]; [right; exists (u_next st, r); split; [left; reflexivity|exact H]|auto|].
          right. exists ob. split; [right; exact H1|exact H2].
        - intros [H | (ob & [<- | H1] & H2)]; [auto|auto|]. right. eauto. }
    + apply IH in E as (E0 & E1 & E2 & new & N1 & N2 & N3). do 3 (split; [assumption|]).
      exists new. split; [exact N1|]. split; [|exact N3]. intros ob H.
      destruct (N2 ob H) as (d' & p' & o' & c' & pos' & t' & K & K'). exists d', p', o', c', pos', t'.
      split; [right; exact K|exact K'].
Qed.

(** In debug mode. *)
Lemma endcap_debug_lemma caps : forall todo st g st' x g',
  (forall d p o, In (d, p, o) todo -> occupied (u_occ st) d = false) ->
  endcap_loop true caps todo st g = (st', x, g') ->
  (x = None <-> u_noclip st = true \/ NoDup (map (fun e => fst (fst e)) todo)) /\
  (x = None \/ x = Some UserExn).
Proof.
  induction todo as [|[[d p] o] todo IH]; intros st g st' x g' H E; cbn [endcap_loop map] in *.
  - injection E as <- <- <-. split; [|auto]. split; [|reflexivity]. intros _. right. constructor.
  - assert (positions (mk_room TestRoom d T0 None) = [d]) as PS.
    { unfold positions, mk_room. cbn. destruct d as [[a b] c]. cbn. rewrite !Z.add_0_r. reflexivity. }
    destruct (register1_total st (mk_room TestRoom d T0 None)) as [st1 R1].
    { right. destruct (clash (u_occ st) _) eqn:K; [|reflexivity].
      apply clash_iff in K as (q & K1 & K2). rewrite PS in K1. destruct K1 as [<- | []].
      rewrite (H d p o) in K2; [discriminate|left; reflexivity]. }
    rewrite R1 in E. apply register1_ok in R1 as (_ & R2 & _ & R3 & _).
    destruct (in_dec cell_dec d (map (fun e => fst (fst e)) todo)) as [D | D].
    + (* a second door to the same cell *)
      assert (forall l s g s' y g'', occupied (u_occ s) d = true -> In d (map (fun e : open_door => fst (fst e)) l) ->
        u_noclip s = false -> endcap_loop true caps l s g = (s', y, g'') -> y = Some UserExn) as K.
      { clear. induction l as [|[[d' p'] o'] l IHl]; intros s g s' y g'' O I N E; [contradiction|].
        cbn [endcap_loop] in E. destruct (register1 s (mk_room TestRoom d' T0 None)) as [s1 [z|]] eqn:R.
        - apply register1_err in R as [-> _]. congruence.
        - apply register1_ok in R as (R0 & R1 & _ & R3 & _).
          destruct I as [I | I].
          + cbn [fst] in I. subst d'. exfalso. specialize (R0 N).
            assert (clash (u_occ s) (mk_room TestRoom d T0 None) = true) as X; [|congruence].
            apply clash_iff. exists d. split; [|exact O]. unfold positions, mk_room. cbn.
            destruct d as [[a b] c]. cbn. rewrite !Z.add_0_r. left. reflexivity.
          + eapply IHl; [| |rewrite R1; exact N|exact E]; [|exact I].
            rewrite R3, occupied_update, O. apply orb_true_r. }
      destruct (u_noclip st) eqn:N.
      * (* noclip: never raises *)
        assert (forall l s g s' y g'', u_noclip s = true -> endcap_loop true caps l s g = (s', y, g'') -> y = None) as K2.
        { clear. induction l as [|[[d' p'] o'] l IHl]; intros s g s' y g'' N E; cbn [endcap_loop] in E; [congruence|].
          destruct (register1_total s (mk_room TestRoom d' T0 None)) as [s1 R1]; [auto|].
          rewrite R1 in E. apply register1_ok in R1 as (_ & R2 & _). eapply IHl; [rewrite R2; exact N|exact E]. }
        assert (x = None) as -> by (eapply K2; [rewrite R2; reflexivity|exact E]). tauto.
      * assert (x = Some UserExn) as ->.
        { eapply K; [|exact D|rewrite R2; reflexivity|exact E]. rewrite R3, occupied_update, PS.
          replace (cmem d [d]) with true; [reflexivity|]. symmetry. apply cmem_in. left. reflexivity. }
        split; [|auto]. split; [discriminate|]. intros [X | X]; [discriminate|]. inversion X; subst. contradiction.
    + apply IH in E as [E1 E2].
      * split; [|exact E2]. rewrite E1, R2. cbn [fst]. split; (intros [X | X]; [auto|right]).
        -- constructor; assumption.
        -- inversion X; subst. assumption.
      * intros d' p' o' Hin. rewrite R3, occupied_update, PS. apply orb_false_iff. split.
        -- destruct (cmem d' [d]) eqn:M; [|reflexivity]. apply cmem_in in M as [<- | []].
           exfalso. apply D. change d with (fst (fst (d, p', o'))). apply (in_map (fun e : open_door => fst (fst e)) _ _ Hin).
        -- eapply H. right. exact Hin.
Qed.

(** ** C34 *)
Lemma enclosed_room r : enclosed (r_cls r) -> (forall d, In d (doorways r) -> legal_cell (fst d)) ->
  forall x y z, In (x, y, z) (positions r) -> 1 <= x <= 31 /\ 1 <= y <= 31 /\ 0 <= z <= 32.
Proof.
  intros EN L x y z H. unfold positions in H. apply in_map_iff in H as (p & Q & Hp).
  destruct (EN _ _ Hp) as ((d1 & D1 & B1) & (d2 & D2 & B2) & (d3 & D3 & B3) & (d4 & D4 & B4) & (d5 & D5 & B5) & (d6 & D6 & B6)).
  assert (forall d, In d (rc_doors (r_cls r) (r_flags r)) -> legal_cell (cadd (r_pos r) (crot (r_turn r) (fst d)))) as L'.
  { intros d Hd. apply (L (cadd (r_pos r) (crot (r_turn r) (fst d)), crot (r_turn r) (snd d))).
    unfold doorways. apply in_map_iff. exists d. auto. }
  apply L' in D1, D2, D3, D4, D5, D6. clear L L' EN Hp.
  destruct d1 as [[[? ?] ?] ?], d2 as [[[? ?] ?] ?], d3 as [[[? ?] ?] ?], d4 as [[[? ?] ?] ?],
    d5 as [[[? ?] ?] ?], d6 as [[[? ?] ?] ?], p as [[? ?] ?], (r_pos r) as [[? ?] ?].
  cbn [fst snd] in *. destruct (r_turn r); cbn [crot cadd legal_cell] in *;
    apply t3_inv in Q as (? & ? & ?); subst; lia.
Qed.

(** Every doorway of a placed room and of its images leads to a legal cell. *)
Lemma prereg_doors st r ts t d : rotations st = Some ts -> In t ts ->
  preregister_room st r = Ok true -> In d (doorways (mirror_room t r)) -> legal_cell (fst d).
Proof.
  intros R Ht P Hd. unfold preregister_room in P. rewrite R in P. injection P as P.
  apply prereg_true_iff in P as (_ & _ & D). apply is_legal_iff. eapply D; [|exact Hd].
  apply in_map_iff. eauto.
Qed.

Definition Ilegal (ops : list uop) (st : upm) : Prop :=
  forall ob, In ob (u_rooms st) ->
    (exists r t, started ops r /\ snd ob = mirror_room t r) \/
    (offered ops (r_cls (snd ob)) /\ forall d, In d (doorways (snd ob)) -> legal_cell (fst d)).

Lemma offered_weaken done op c : offered done c -> offered (done ++ [op]) c.
Proof.
  intros (f & e & os & n & g & I1 & I2). exists f, e, os, n, g.
  split; [apply in_or_app; left; exact I1|exact I2].
Qed.
Lemma Ilegal_weaken done op st : Ilegal done st -> Ilegal (done ++ [op]) st.
Proof.
  intros H ob Hob. destruct (H ob Hob) as [(r & t & Q1 & Q2) | [Q1 Q2]].
  - left. exists r, t. split; [apply in_or_app; left; exact Q1|exact Q2].
  - right. split; [apply offered_weaken; exact Q1|exact Q2].
Qed.
Lemma placed_doors_lemma ops m nc st : existsb is_endcap ops = false ->
  urun ops (upm_init m nc) = Some st -> Ilegal ops st.
Proof.
  intros NE E. refine (lift_opts Ilegal Ilegal_weaken _ _ _ _ ops [] _ st NE _ E).
  - intros done s r s' H R. unfold register_room in R. destruct (rotations s) as [ts|] eqn:RO; [|discriminate].
    apply register_all_ok in R as (_ & _ & _ & _ & _ & E6 & _). intros ob Hob. rewrite E6 in Hob.
    apply in_app_or in Hob as [Hob | Hob]; [auto|]. left.
    destruct ob as [i r']. apply in_combine_r in Hob. apply in_map_iff in Hob as (t & <- & Ht).
    exists r, t. split; [apply in_or_app; right; left; reflexivity|reflexivity].
  - intros done s d prev o c pos t fl s1 s2 H _ OC _ PR R RL.
    unfold register_room in R. destruct (rotations s) as [ts|] eqn:RO; [|discriminate].
    apply register_all_ok in R as (_ & _ & _ & _ & _ & E6 & _).
    unfold register_link in RL. destruct (rotations s1); [|discriminate]. injection RL as <-.
    intros ob Hob. cbn [u_rooms] in Hob. rewrite E6 in Hob.
    apply in_app_or in Hob as [Hob | Hob]; [auto|]. right.
    destruct ob as [i r']. apply in_combine_r in Hob. apply in_map_iff in Hob as (t' & <- & Ht).
    split; [exact OC|]. intros q Hq. cbn [snd] in Hq. eapply prereg_doors; eauto.
  - intros done s x H _. exact H.
  - intros done s a b s' H RL. apply Ilegal_weaken. unfold register_link in RL.
    destruct (rotations s); [|discriminate]. injection RL as <-. exact H.
  - intros ob [].
Qed.
Lemma placed_inside_lemma ops m nc st ob : existsb is_endcap ops = false ->
  urun ops (upm_init m nc) = Some st -> In ob (u_rooms st) ->
  (exists r t, started ops r /\ snd ob = mirror_room t r) \/
  ((forall d, In d (doorways (snd ob)) -> legal_cell (fst d)) /\
   (enclosed (r_cls (snd ob)) -> forall x y z, In (x, y, z) (positions (snd ob)) ->
      1 <= x <= 31 /\ 1 <= y <= 31 /\ 0 <= z <= 32)).
Proof.
  intros NE E H. destruct (placed_doors_lemma ops m nc st NE E ob H) as [Q | [Q1 Q2]]; [left; exact Q|right].
  split; [exact Q2|]. intros EN. apply enclosed_room; assumption.
Qed.
Lemma cell_world_lemma x y z : (0 <= x <= 31 /\ 0 <= y <= 31 /\ 0 <= z <= 31) <->
  (forall v, voxel_in_cell v (x, y, z) -> voxel_in_world 256 v).
Proof.
  split.
  - intros H [[a b] c]. unfold voxel_in_cell, voxel_in_world. lia.
  - intros H. pose proof (H (8 * x, 8 * y, 8 * z)) as H1. pose proof (H (8 * x + 7, 8 * y + 7, 8 * z + 7)) as H2.
    unfold voxel_in_cell, voxel_in_world in *. lia.
Qed.
