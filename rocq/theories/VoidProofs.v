(** Proofs about the doors that are left open. *)
From Verif Require Import Py VecModel VecSpec VecProofs VoxelModel VoxelSpec CodecModel CodecSpec OutModel OutSpec
  UpmModel UpmSpec UpmProofs UpmRandom UpmTrace UpmInv UpmMore UpmMore2 UpmFinal KitModel KitSpec KitProofs KitTile RoomModel MagicaModel RoomSpec RoomProofs MagicaProofs
  TexModel TexSpec LightModel LightSpec VoxFileModel ShippedModel ShippedSpec ShippedProofs ShippedDraw GenModel GenSpec GenLayout GenDraw GenProofs
  PassSpec PassCheck PassProofs PassGen GenBox VoidSpec.
Local Open Scope Z_scope.

(** ** Endcaps *)
Lemma one_way_matching c t o ch l ch' : one_way c -> matching (mk_room c P0 t None) o = ch :: l -> In ch' (matching (mk_room c P0 t None) o) -> ch' = ch.
Proof.
  intros O M H'. assert (In ch (matching (mk_room c P0 t None) o)) as H by (rewrite M; left; reflexivity). clear M.
  apply matching_in in H as [H1 H2], H' as [H1' H2']. unfold doorways in H1, H1'. cbn [r_cls r_flags r_turn] in *.
  apply in_map_iff in H1 as (q & H1 & Q), H1' as (q' & H1' & Q'). rewrite <- H1 in H2. rewrite <- H1' in H2'. cbn [snd] in H2, H2'.
  assert (snd q = snd q') as E.
  { apply (moved_inj (0, 0, 0) t). cbn [mk_room r_turn] in H2, H2'. rewrite H2, H2'. reflexivity. }
  rewrite (O _ q q' Q Q' E) in H1. congruence.
Qed.
Lemma cap_turns_none st c d o : one_way c -> forall ts, cap_turns st c ts d o = None ->
  forall t pos, In t ts -> attached (mk_room c pos t None) d o ->
  exists q, In q (positions (mk_room c pos t None)) /\ (~ legal_cell q \/ occupied (u_occ st) q = true).
Proof.
  intros O. induction ts as [|t0 ts IH]; intros E t pos Ht A; [destruct Ht|]. cbn [cap_turns] in E.
  destruct Ht as [->|Ht].
  2:{ destruct (matching (mk_room c P0 t0 None) o) as [|ch l]; [exact (IH E t pos Ht A)|].
      destruct (forallb is_legal _); [|exact (IH E t pos Ht A)]. destruct (forallb _ _); [discriminate|exact (IH E t pos Ht A)]. }
  apply attached_default in A as (ch' & A & ->).
  destruct (matching (mk_room c P0 t None) o) as [|ch l] eqn:M; [destruct A|]. rewrite <- M in A.
  rewrite (one_way_matching c t o ch l ch' O M A). clear A M IH.
  destruct (forallb is_legal (positions (mk_room c (csub P0 (cadd (csub (fst ch) d) o)) t None))) eqn:L.
  - destruct (forallb (fun p => negb (occupied (u_occ st) p)) (positions (mk_room c (csub P0 (cadd (csub (fst ch) d) o)) t None))) eqn:N; [discriminate|].
    revert N. generalize (positions (mk_room c (csub P0 (cadd (csub (fst ch) d) o)) t None)). clear. induction l as [|q l IH]; intros N; [discriminate|].
    cbn [forallb] in N. destruct (occupied (u_occ st) q) eqn:EO; [exists q; split; [left; reflexivity|auto]|].
    destruct (IH N) as (q' & H & H'). exists q'. split; [right; exact H|exact H'].
  - revert L. generalize (positions (mk_room c (csub P0 (cadd (csub (fst ch) d) o)) t None)). clear. induction l as [|q l IH]; intros N; [discriminate|].
    cbn [forallb] in N. destruct (is_legal q) eqn:EO; [|exists q; split; [left; reflexivity|left; rewrite <- is_legal_iff; congruence]].
    destruct (IH N) as (q' & H & H'). exists q'. split; [right; exact H|exact H'].
Qed.
Lemma cap_classes_none st d o : forall cs, cap_classes st cs d o = None -> forall c, In c cs -> cap_turns st c CARD d o = None.
Proof.
  induction cs as [|c0 cs IH]; intros E c Hc; [destruct Hc|]. cbn [cap_classes] in E. destruct (cap_turns st c0 CARD d o) eqn:T; [discriminate|].
  destruct Hc as [->|Hc]; [exact T|exact (IH E c Hc)].
Qed.
Lemma endcap_complete caps : forall todo st g st' x g', endcap_loop false caps todo st g = (st', x, g') ->
  exists new, u_rooms st' = u_rooms st ++ new /\ forall d p o, In (d, p, o) todo ->
    (exists ob c, In ob new /\ In c caps /\ r_cls (snd ob) = c /\ attached (snd ob) d o) \/
    forall c pos t, In c caps -> one_way c -> attached (mk_room c pos t None) d o ->
      exists q, In q (positions (mk_room c pos t None)) /\ (~ legal_cell q \/ occupied (u_occ st') q = true).
Proof.
  induction todo as [|[[d p] o] todo IH]; intros st g st' x g' E; cbn [endcap_loop] in E.
  - injection E as <- <- <-. exists []. rewrite app_nil_r. split; [reflexivity|intros ? ? ? []].
  - destruct (cap_real st d o caps g) as [[r|] g1] eqn:CR.
    + unfold cap_real in CR. destruct (sample caps g) as [cs g2] eqn:ES. injection CR as CR <-.
      apply cap_classes_some in CR as (c & pos & t & C1 & C2 & C3 & C4).
      destruct (register1_total st r) as [st1 R1].
      { right. destruct (clash (u_occ st) r) eqn:K; [|reflexivity].
        apply clash_iff in K as (q & K1 & K2). apply C4 in K1 as [_ K1]. congruence. }
      rewrite R1 in E. apply IH in E as (new & N1 & N2).
      apply register1_ok in R1 as (_ & _ & _ & _ & _ & R5 & _).
      exists ((u_next st, r) :: new). split; [rewrite N1, R5, <- app_assoc; reflexivity|].
      intros d' p' o' [H|H].
      * injection H as -> -> ->. left. exists (u_next st, r), c. split; [left; reflexivity|]. split; [|split; [rewrite C2; reflexivity|exact C3]].
        apply sample_perm in ES. rewrite ES in C1. exact C1.
      * destruct (N2 d' p' o' H) as [(ob & c' & K1 & K2)|K]; [left; exists ob, c'; split; [right; exact K1|exact K2]|right; exact K].
    + unfold cap_real in CR. destruct (sample caps g) as [cs g2] eqn:ES. injection CR as CR <-. pose proof E as E'. apply IH in E as (new & N1 & N2).
      exists new. split; [exact N1|]. intros d' p' o' [H|H]; [|exact (N2 d' p' o' H)]. injection H as -> -> ->. right.
      intros c pos t Hc O A. assert (In c cs) as Hc' by (apply sample_perm in ES; rewrite ES; exact Hc).
      destruct (cap_turns_none st c d' o' O CARD (cap_classes_none st d' o' cs CR c Hc') t pos (in_CARD t) A) as (q & Q1 & [Q2|Q2]);
        exists q; (split; [exact Q1|]); [left; exact Q2|right].
      apply endcap_lemma in E' as (_ & _ & _ & new' & _ & _ & _ & _ & N5). apply N5. left. exact Q2.
Qed.
Lemma endcap_closes caps st g st' x g' : endcap false caps st g = (st', x, g') ->
  exists new, u_rooms st' = u_rooms st ++ new /\ forall d p o, In (d, p, o) (u_open st) ->
    (exists ob, In ob new /\ In (r_cls (snd ob)) caps /\ attached (snd ob) d o) \/
    forall c pos t, In c caps -> one_way c -> attached (mk_room c pos t None) d o ->
      exists q, In q (positions (mk_room c pos t None)) /\ (~ legal_cell q \/ taken st' q).
Proof.
  intros E. unfold endcap in E. apply endcap_complete in E as (new & E & K). exists new. split; [exact E|]. intros d p o H.
  destruct (K d p o H) as [(ob & c & K1 & K2 & <- & K4)|K'].
  - left. exists ob. auto.
  - right. intros c pos t Hc O A. destruct (K' c pos t Hc O A) as (q & Q1 & Q2). exists q. rewrite taken_iff. auto.
Qed.

(** ** Generated maps *)
Lemma taken_room ops m st c : urun ops (upm_init m false) = Some st -> taken st c -> in_some_room (u_rooms st) c.
Proof.
  intros U T. destruct (rooms_disjoint_lemma ops m st U) as [_ D]. unfold taken in T. destruct (dget cell_eqb (u_occ st) c) as [ob|] eqn:E; [|congruence].
  exists ob. apply D. exact E.
Qed.
Lemma room_taken ops m st c : urun ops (upm_init m false) = Some st -> in_some_room (u_rooms st) c -> taken st c.
Proof. intros U (ob & H). destruct (rooms_disjoint_lemma ops m st U) as [_ D]. apply D in H. unfold taken. congruence. Qed.
Definition unit_side (o : cell) : Prop := exists t, o = crot t (1, 0, 0).
Lemma side_unit d : side d = true -> unit_side (snd d).
Proof.
  unfold side, unit_side. destruct (snd d) as [[a b] h]. rewrite Bool.andb_true_iff, !Z.eqb_eq. intros [H1 H2].
  assert (a = 1 /\ b = 0 \/ a = -1 /\ b = 0 \/ a = 0 /\ b = 1 \/ a = 0 /\ b = -1) as K by lia. subst h.
  destruct K as [[-> ->] | [[-> ->] | [[-> ->] | [-> ->]]]]; [exists T0 | exists T2 | exists T1 | exists T3]; reflexivity.
Qed.
Lemma section_cells : rc_cells (s_class castle_wall_section_endcap) [] = [(0, 0, 0); (0, 0, 1)] /\
  rc_doors (s_class castle_wall_section_endcap) [] = [((-1, 0, 1), (-1, 0, 0))].
Proof. split; vm_compute; reflexivity. Qed.
Lemma spawn_cells : rc_cells (s_class spawn_room) [] = [(0, 0, 0)] /\ rc_doors (s_class spawn_room) [] = [((1, 0, 0), (1, 0, 0))].
Proof. split; vm_compute; reflexivity. Qed.
Lemma cap_doors s : In s possible_endcaps -> rc_doors (s_class s) [] = [((-1, 0, 1), (-1, 0, 0))].
Proof. intros [<-|[<-|[]]]; vm_compute; reflexivity. Qed.
Lemma section_in : In castle_wall_section_endcap possible_endcaps. Proof. right. left. reflexivity. Qed.
Lemma section_one_way : one_way (s_class castle_wall_section_endcap).
Proof.
  intros fl d d' Hd Hd' _. pose proof shipped_free as F. rewrite Forall_forall in F. destruct (F _ (caps_shipped _ section_in) fl []) as [_ E].
  rewrite E in Hd, Hd'. rewrite (proj2 section_cells) in Hd, Hd'. destruct Hd as [<-|[]], Hd' as [<-|[]]. reflexivity.
Qed.
(** The cap that would close a door. *)
Lemma section_at c o : unit_side o -> exists pos t, attached (mk_room (s_class castle_wall_section_endcap) pos t None) c o /\
  forall q, In q (positions (mk_room (s_class castle_wall_section_endcap) pos t None)) -> q = c \/ q = below c.
Proof.
  intros (t & ->). exists (below c), t. change (mk_room (s_class castle_wall_section_endcap) (below c) t None) with (room_of castle_wall_section_endcap (below c) t).
  pose proof (caps_shipped _ section_in) as Hi. unfold attached. rewrite (doorways_move _ _ _ Hi), (room_of_eq _ _ _ Hi). unfold positions. cbn [r_cls r_pos r_turn r_flags].
  destruct section_cells as [-> ->]. split.
  - left. destruct c as [[x y] z], t; unfold move; cbn [fst snd crot cadd csub opposite below]; f_equal; apply t3_eq; lia.
  - intros q [<-|[<-|[]]]; destruct c as [[x y] z], t; cbn [crot cadd below]; [right|right|right|right|left|left|left|left]; apply t3_eq; lia.
Qed.
(** The spawn room that would. *)
Lemma spawn_at c o : unit_side o -> exists pos t, attached (mk_room (s_class spawn_room) pos t None) c o /\
  positions (mk_room (s_class spawn_room) pos t None) = [c] /\ doorways (mk_room (s_class spawn_room) pos t None) = [(csub c o, opposite o)].
Proof.
  intros (t & ->). exists c, (tadd t T2). change (mk_room (s_class spawn_room) c (tadd t T2) None) with (room_of spawn_room c (tadd t T2)).
  unfold attached. rewrite (doorways_move _ _ _ spawn_shipped), (room_of_eq _ _ _ spawn_shipped). unfold positions. cbn [r_cls r_pos r_turn r_flags].
  destruct spawn_cells as [-> ->]. cbn [map].
  assert (move c (tadd t T2) ((1, 0, 0), (1, 0, 0)) = (csub c (crot t (1, 0, 0)), opposite (crot t (1, 0, 0)))) as ->.
  { destruct c as [[x y] z], t; unfold move; cbn [fst snd tadd crot cadd csub opposite below]; f_equal; apply t3_eq; lia. }
  split; [left; reflexivity|]. split; [|reflexivity]. f_equal. destruct c as [[x y] z], t; cbn [tadd crot cadd]; apply t3_eq; lia.
Qed.
Lemma images_meet n i j t t' c : mirror_factor n -> nth_error (turns_of n) i = Some t -> nth_error (turns_of n) j = Some t' -> (i < j)%nat ->
  mrot t c = mrot t' c -> n <> 1 /\ fst c = (16, 16).
Proof.
  intros Hn Hi Hj L E.
  assert (n <> 1 /\ t <> t') as [N D].
  { destruct Hn as [-> | [-> | -> ]]; unfold turns_of in *; cbn [Z.eqb Pos.eqb] in *.
    - destruct i as [|[|i]], j as [|[|j]]; cbn in Hi, Hj; try discriminate; lia.
    - split; [lia|]. destruct i as [|[|[|i]]], j as [|[|[|j]]]; cbn in Hi, Hj; try discriminate; try lia; congruence.
    - split; [lia|]. destruct i as [|[|[|[|[|i]]]]], j as [|[|[|[|[|j]]]]]; cbn in Hi, Hj; try discriminate; try lia; congruence. }
  split; [exact N|]. destruct c as [[x y] z]. cbn [fst].
  assert (x = 16 /\ y = 16) as [-> ->]; [|reflexivity].
  destruct t, t'; try congruence; cbn [mrot crot cadd csub] in E; injection E; intros; lia.
Qed.
Lemma cap_inside r s c o : In s possible_endcaps -> r_cls r = s_class s -> attached r c o -> In c (positions r).
Proof.
  intros Hs Ec A. destruct (use_side false s r _ ltac:(unfold in_use; right; apply in_or_app; right; exact Hs) Ec A) as [_ K].
  unfold sill in K. cbn [fst snd] in K. assert (csub (csub c o) (opposite o) = c) as E; [|rewrite <- E; exact K].
  unfold attached in A. clear K.
  pose proof (use_side false s r _ ltac:(unfold in_use; right; apply in_or_app; right; exact Hs) Ec A) as [U _]. apply side_unit in U as (t & U). cbn [snd] in U.
  destruct c as [[x y] z], o as [[a b] h]. destruct t; cbn [crot opposite csub] in *; injection U; intros; apply t3_eq; lia.
Qed.
(** ** Discarded doors *)
Lemma rotations_link st a b st' : register_link st a b = (st', None) -> rotations st' = rotations st.
Proof. unfold register_link. destruct (rotations st) eqn:R; [|discriminate]. intros E. injection E as <-. exact R. Qed.
Lemma rotations_register st r st' : register_room st r = (st', None) -> rotations st' = rotations st.
Proof.
  unfold register_room. destruct (rotations st) as [ts|] eqn:R; [|discriminate]. intros E. apply register_all_ok in E as (_ & E & _).
  rewrite <- R. apply rotations_mirror. exact E.
Qed.
Lemma gone_trace n opts st rs st' : mirror_factor n -> In (s_class spawn_room) opts -> trace opts st rs st' -> Isym st -> Iany st -> rotations st = Some (turns_of n) ->
  (forall ob d o, In ob (u_rooms st') -> In (d, o) (doorways (snd ob)) -> unit_side o /\ legal_cell (csub d o)) ->
  (forall x, In x (u_gone st) -> n <> 1 /\ fst (fst (fst x)) = (16, 16)) ->
  forall x, In x (u_gone st') -> n <> 1 /\ fst (fst (fst x)) = (16, 16).
Proof.
  intros Hn HS T. induction T as [st|st st1 st2 st' d prev o c pos t fl rs Ho Hc A P R L T IH|st st1 st' d prev o rs Ho NF O1 O2 O3 O4 O5 O6 O7 O8 T IH]; intros SY AN RO DL GO.
  - exact GO.
  - apply IH.
    + eapply Isym_link; [|exact L]. eapply Isym_register; eauto.
    + eapply Iany_link; [|exact L]. eapply Iany_register; eauto.
    + rewrite (rotations_link _ _ _ _ L), (rotations_register _ _ _ R). exact RO.
    + exact DL.
    + unfold register_link in L. destruct (rotations st1); [|discriminate]. injection L as <-. cbn [u_gone].
      unfold register_room in R. destruct (rotations st); [|discriminate]. apply register_all_ok in R as (_ & _ & _ & R & _). rewrite R. exact GO.
  - apply IH.
    + intros ts t Rt Ht. rewrite O2, O3. apply (SY ts); [|exact Ht]. rewrite <- Rt. apply rotations_mirror. auto.
    + destruct AN as (A1 & A2 & A3 & A4). unfold Iany. rewrite O1, O2, O3, O7. split; [|auto]. intros c ob o' H. apply filter_In in H as [H _]. auto.
    + rewrite <- RO. apply rotations_mirror. auto.
    + exact DL.
    + rewrite O8. intros x Hx. apply in_app_or in Hx as [Hx|[<-|[]]]; [auto|]. cbn [fst].
      destruct AN as (A1 & _). destruct (A1 d prev o Ho) as (L1 & F & Hp & Hd).
      assert (In prev (u_rooms st')) as Hp'.
      { destruct (trace_new _ _ _ _ T) as (new & E & _). rewrite E, O3. apply in_or_app. auto. }
      destruct (DL prev d o Hp' Hd) as [SD SL]. destruct (spawn_at d o SD) as (pos & t & A & PO & DO).
      destruct (NF _ pos t HS A) as (fl & K'). pose proof shipped_free as FR. rewrite Forall_forall in FR.
      rewrite (preregister_ext st (mk_room (s_class spawn_room) pos t fl) (mk_room (s_class spawn_room) pos t None) eq_refl (FR _ spawn_shipped) eq_refl eq_refl) in K'.
      destruct (prereg_spec_lemma st (mk_room (s_class spawn_room) pos t None) (turns_of n) RO) as [_ PS].
      destruct (PS K') as [(t' & q & T1 & T2 & T3)|[(i & j & t1 & t2 & I1 & I2 & Lt & (q & S1 & S2))|(t' & d' & T1 & T2 & T3)]].
      * exfalso. rewrite positions_mirror, PO in T2. destruct T2 as [<-|[]]. destruct (SY (turns_of n) t' RO T1) as [SY' _]. rewrite SY' in T3. congruence.
      * rewrite positions_mirror, PO in S1, S2. destruct S1 as [S1|[]], S2 as [S2|[]]. apply (images_meet n i j t1 t2 d Hn I1 I2 Lt). congruence.
      * exfalso. apply T3. rewrite doorways_mirror, DO in T2. destruct T2 as [<-|[]]. cbn [fst]. apply is_legal_iff. rewrite mrot_legal. apply is_legal_iff. exact SL.
Qed.

Lemma endcap_loop_gone caps : forall todo st g st' x g', endcap_loop false caps todo st g = (st', x, g') -> u_gone st' = u_gone st.
Proof.
  induction todo as [|[[d p] o] todo IH]; intros st g st' x g' E; cbn [endcap_loop] in E; [congruence|].
  destruct (cap_real st d o caps g) as [[r|] g1]; [|exact (IH _ _ _ _ _ E)].
  unfold register1 in E. destruct (existsb (occupied (u_occ st)) (positions r) && negb (u_noclip st))%bool; [injection E as <- _ _; reflexivity|]. apply IH in E. rewrite E. reflexivity.
Qed.
Lemma endcap_gone caps st g st' x g' : endcap false caps st g = (st', x, g') -> u_gone st' = u_gone st.
Proof. apply endcap_loop_gone. Qed.

(** ** The rooms of a generated map *)
Lemma lay_out_parts n ctf fuel e rooms g st g' : mirror_factor n -> good_env e -> lay_out fuel e (Some n) false ctf rooms g = (st, None, g') ->
  exists st1 k g1 caps ops ops', urun ops (upm_init (Some n) false) = Some st1 /\ existsb is_endcap ops = false /\ urun ops' (upm_init (Some n) false) = Some st /\
    endcap false (map s_class possible_endcaps) st1 g1 = (st, None, g') /\ u_rooms st = u_rooms st1 ++ caps /\
    (forall ob, In ob (u_rooms st1) -> (exists s, In s (first_room ctf :: possible_rooms) /\ r_cls (snd ob) = s_class s) /\
       forall d o, In (d, o) (doorways (snd ob)) -> legal_cell d /\ unit_side o /\ In (csub d o) (positions (snd ob)) /\ legal_cell (csub d o)) /\
    (forall ob, In ob caps -> (exists s, In s possible_endcaps /\ r_cls (snd ob) = s_class s) /\
       exists d o ob', In ob' (u_rooms st1) /\ In (d, o) (doorways (snd ob')) /\ attached (snd ob) d o) /\
    (forall d p o, In (d, p, o) (u_open st1) -> (exists ob, In ob caps /\ In (r_cls (snd ob)) (map s_class possible_endcaps) /\ attached (snd ob) d o) \/
       forall c pos t, In c (map s_class possible_endcaps) -> one_way c -> attached (mk_room c pos t None) d o ->
         exists q, In q (positions (mk_room c pos t None)) /\ (~ legal_cell q \/ taken st q)) /\
    (forall x, In x (u_gone st1) -> n <> 1 /\ fst (fst (fst x)) = (16, 16)) /\
    Z.of_nat (List.length (u_rooms st1)) = n + k /\ ((rooms <= k /\ (k < rooms + n \/ k = 0)) \/ u_open st1 = []).
Proof.
  intros Hn G E. pose proof (cells_near n ctf fuel e rooms g st g' Hn G E) as NEAR.
  destruct (lay_out_run n ctf fuel e rooms g st g' Hn G E) as (gx & UF & _).
  unfold lay_out in E. rewrite start_is in E.
  destruct (start_registers n ctf Hn) as (st0 & E0 & M0 & _ & _ & R0). rewrite E0 in E.
  destruct (place_rooms fuel e st0 (map s_class possible_rooms) rooms g) as [[st1 [k|x]] g1] eqn:E1; [|discriminate].
  set (ops := [ORegister (start_room ctf); OPlace fuel e (map s_class possible_rooms) rooms g]).
  assert (urun ops (upm_init (Some n) false) = Some st1) as U by (subst ops; cbn [urun ustep]; rewrite E0, E1; reflexivity).
  destruct (endcap_ok_lemma _ _ _ _ _ _ E) as (_ & _ & caps & E3 & C1 & _ & _ & OCC).
  destruct (endcap_closes _ _ _ _ _ _ E) as (caps' & E3' & CL). assert (caps' = caps) as -> by (rewrite E3 in E3'; apply app_inv_head in E3'; auto).
  clear E3'. exists st1, k, g1, caps, ops. eexists. split; [exact U|]. split; [reflexivity|]. split; [exact UF|]. split; [exact E|]. split; [exact E3|].
  pose proof E1 as E1'. unfold place_rooms in E1'. destruct (place_loop_trace _ _ _ G opts_coherent _ _ _ _ _ _ _ E1') as (rs & T).
  destruct (trace_new _ _ _ _ T) as (placed & E2 & P).
  assert (forall ob, In ob (u_rooms st1) -> (exists s, In s (first_room ctf :: possible_rooms) /\ r_cls (snd ob) = s_class s) /\ forall d, In d (doorways (snd ob)) -> legal_cell (fst d)) as OLD.
  { intros ob Hob. rewrite E2 in Hob. apply in_app_or in Hob as [Hob|Hob].
    - rewrite R0 in Hob. destruct ob as [i r]. apply in_combine_r in Hob. apply in_map_iff in Hob as (t & <- & Ht). cbn [snd]. split.
      + exists (first_room ctf). split; [left; reflexivity|destruct ctf; reflexivity].
      + apply (first_near n ctf). exists t. auto.
    - destruct (P ob Hob) as [Hc D]. apply in_map_iff in Hc as (s & Es & Hs). split; [|exact D]. exists s. split; [right; exact Hs|auto]. }
  assert (forall ob, In ob (u_rooms st1) -> forall d o, In (d, o) (doorways (snd ob)) ->
    legal_cell d /\ unit_side o /\ In (csub d o) (positions (snd ob)) /\ legal_cell (csub d o)) as DOORS.
  { intros ob Hob d o Hd. destruct (OLD ob Hob) as ((s & Hs & Ec) & LD). specialize (LD (d, o) Hd). cbn [fst] in LD.
    assert (In s (in_use ctf)) as Hs' by (unfold in_use; destruct Hs as [Hs|Hs]; [left; exact Hs|right; apply in_or_app; left; exact Hs]).
    destruct (use_side ctf s (snd ob) (d, o) Hs' Ec Hd) as [SD SI]. apply side_unit in SD. cbn [snd] in SD. unfold sill in SI. cbn [fst snd] in SI.
    split; [exact LD|]. split; [exact SD|]. split; [exact SI|].
    pose proof (NEAR ob _ ltac:(rewrite E3; apply in_or_app; left; exact Hob) SI) as N. destruct SD as (t0 & ->).
    destruct d as [[x y] z]. destruct t0; cbn [crot csub] in *; unfold near, legal_cell in *; lia. }
  split; [intros ob Hob; split; [apply OLD; exact Hob|exact (DOORS ob Hob)]|].
  split.
  { intros ob Hob. destruct (C1 ob Hob) as (d & p & o' & cl & pos & t & Ho & Hcl & Eo & A). apply in_map_iff in Hcl as (s & <- & Hs).
    pose proof U as U'. apply urun_any_agrees in U'. rewrite <- U' in Ho. apply open_doors_any_lemma in Ho as (_ & _ & Hp & Hdp). rewrite U' in Hp.
    split; [exists s; split; [exact Hs|rewrite Eo; reflexivity]|]. exists d, o', p. auto. }
  split; [exact CL|].
  assert (urun [ORegister (start_room ctf)] (upm_init (Some n) false) = Some st0) as U0 by (cbn [urun ustep]; rewrite E0; reflexivity).
  split.
  { refine (gone_trace n (map s_class possible_rooms) st0 rs st1 Hn ltac:(left; reflexivity) T (Isym_history [ORegister (start_room ctf)] _ _ _ eq_refl U0) (proj1 (Iok_history _ _ _ _ U0)) (rotations_of n st0 Hn M0) _ _).
    - intros ob d o Hob Hd. destruct (DOORS ob Hob d o Hd) as (_ & K1 & _ & K2). auto.
    - unfold register_room in E0. rewrite (rotations_of n (upm_init (Some n) false) Hn eq_refl) in E0. apply register_all_ok in E0 as (_ & _ & _ & E0 & _). rewrite E0. cbn [upm_init u_gone]. intros x []. }
  apply place_loop_count in E1' as (L1 & L2 & L3). split.
  - assert (Z.of_nat (List.length (u_rooms st0)) = n) as LT by (rewrite R0; destruct Hn as [-> | [-> | -> ]]; reflexivity). lia.
  - destruct L3 as [L3|[L3 L4]]; [right; exact L3|left]. split; [exact L3|]. exact (L4 n M0).
Qed.
Lemma cap_back s r d o c o' : In s possible_endcaps -> r_cls r = s_class s -> attached r d o -> In (c, o') (doorways r) -> c = csub d o.
Proof.
  intros Hs Ec A Hd. pose proof (caps_shipped s Hs) as Hi. unfold attached in A.
  rewrite (same_doorways s _ Hi Ec), (doorways_move s _ _ Hi), (cap_doors s Hs) in A, Hd. destruct A as [A|[]], Hd as [Hd|[]]. congruence.
Qed.
Lemma void_lemma n ctf fuel e rooms g st g' : mirror_factor n -> good_env e -> lay_out fuel e (Some n) false ctf rooms g = (st, None, g') ->
  forall ob c o, In ob (u_rooms st) -> In (c, o) (doorways (snd ob)) ->
  in_some_room (u_rooms st) c \/ snd c = 0 \/ in_some_room (u_rooms st) (below c) \/ (n <> 1 /\ fst c = (16, 16)).
Proof.
  intros Hn G E. destruct (lay_out_parts n ctf fuel e rooms g st g' Hn G E) as (st1 & k & g1 & caps & ops & ops' & U & NE & UF & E2 & E3 & OLD & CAPS & CL & GO & _).
  intros ob c o Hob Hd. rewrite E3 in Hob. apply in_app_or in Hob as [Hob|Hob].
  2:{ left. destruct (CAPS ob Hob) as ((s & Hs & Ec) & d & o' & p & Hp & Hdp & A). exists p. split; [rewrite E3; apply in_or_app; auto|].
      rewrite (cap_back s (snd ob) d o' c o Hs Ec A Hd). destruct (OLD p Hp) as [_ K]. apply (K d o' Hdp). }
  destruct (OLD ob Hob) as [_ K]. destruct (K c o Hd) as (LD & SD & SI & _).
  destruct (dget cell_eqb (u_occ st1) c) as [ob1|] eqn:F.
  { left. assert (in_some_room (u_rooms st1) c) as (ob2 & K1 & K2) by (apply (taken_room ops (Some n) st1 c U); unfold taken; congruence).
    exists ob2. split; [rewrite E3; apply in_or_app; auto|exact K2]. }
  destruct (open_doors_complete_lemma ops (Some n) false st1 ob c o U Hob Hd LD F) as [Ho|Ho].
  - destruct (CL c ob o Ho) as [(cap & K1 & K2 & K3)|K'].
    + left. exists cap. split; [rewrite E3; apply in_or_app; auto|]. apply in_map_iff in K2 as (s' & K2 & Hs'). symmetry in K2. exact (cap_inside _ s' c o Hs' K2 K3).
    + destruct (section_at c o SD) as (pos & t & A & Q). destruct (K' _ pos t (in_map s_class _ _ section_in) section_one_way A) as (q & Q1 & Q2).
      destruct (Q q Q1) as [-> | -> ].
      * destruct Q2 as [Q2|Q2]; [contradiction|]. left. exact (taken_room _ _ _ _ UF Q2).
      * destruct Q2 as [Q2|Q2]; [|right; right; left; exact (taken_room _ _ _ _ UF Q2)]. right. left. destruct c as [[x y] z]. unfold legal_cell, below in *. cbn [snd]. lia.
  - right. right. right. exact (GO _ Ho).
Qed.
(** ** How many rooms there are *)
Lemma not_caps ctf s : In s (first_room ctf :: possible_rooms) -> existsb (fun s' => rc_id (s_class s') =? rc_id (s_class s)) possible_endcaps = false.
Proof. intros Hs. destruct ctf; repeat (destruct Hs as [<-|Hs]; [vm_compute; reflexivity|]); destruct Hs. Qed.
Lemma are_caps s : In s possible_endcaps -> existsb (fun s' => rc_id (s_class s') =? rc_id (s_class s)) possible_endcaps = true.
Proof. intros Hs. repeat (destruct Hs as [<-|Hs]; [vm_compute; reflexivity|]); destruct Hs. Qed.
Lemma enough_lemma n ctf fuel e rooms g st g' : mirror_factor n -> good_env e -> lay_out fuel e (Some n) false ctf rooms g = (st, None, g') ->
  exists k, Z.of_nat (List.length (filter (fun ob => negb (is_cap ob)) (u_rooms st))) = n + k /\
    ((rooms <= k /\ (k < rooms + n \/ k = 0)) \/
     forall ob, In ob (u_rooms st) -> is_cap ob = false /\
       forall c o, In (c, o) (doorways (snd ob)) -> in_some_room (u_rooms st) c \/ (n <> 1 /\ fst c = (16, 16))).
Proof.
  intros Hn G E. destruct (lay_out_parts n ctf fuel e rooms g st g' Hn G E) as (st1 & k & g1 & caps & ops & ops' & U & NE & UF & E2 & E3 & OLD & CAPS & _ & GO & LEN & K).
  assert (forall ob, In ob (u_rooms st1) -> is_cap ob = false) as N1.
  { intros ob Hob. destruct (OLD ob Hob) as ((s & Hs & Ec) & _). unfold is_cap. rewrite Ec. exact (not_caps ctf s Hs). }
  assert (forall ob, In ob caps -> is_cap ob = true) as N2.
  { intros ob Hob. destruct (CAPS ob Hob) as ((s & Hs & Ec) & _). unfold is_cap. rewrite Ec. exact (are_caps s Hs). }
  exists k. split.
  - rewrite E3, filter_app, app_length.
    assert (filter (fun ob => negb (is_cap ob)) (u_rooms st1) = u_rooms st1) as ->.
    { clear - N1. induction (u_rooms st1) as [|ob l IH]; [reflexivity|]. cbn [filter]. rewrite (N1 ob) by (left; reflexivity). cbn [negb]. f_equal. apply IH. intros ob' H. apply N1. right. exact H. }
    assert (filter (fun ob => negb (is_cap ob)) caps = []) as ->.
    { clear - N2. induction caps as [|ob l IH]; [reflexivity|]. cbn [filter]. rewrite (N2 ob) by (left; reflexivity). cbn [negb]. apply IH. intros ob' H. apply N2. right. exact H. }
    cbn [List.length]. lia.
  - destruct K as [K|K]; [left; exact K|right]. unfold endcap in E2. rewrite K in E2. cbn [endcap_loop] in E2. assert (st = st1) as -> by congruence.
    intros ob Hob. split; [exact (N1 ob Hob)|]. intros c o Hd. destruct (OLD ob Hob) as [_ K']. destruct (K' c o Hd) as (LD & _).
    destruct (dget cell_eqb (u_occ st1) c) as [ob1|] eqn:F; [left; apply (taken_room ops (Some n) st1 c U); unfold taken; congruence|right].
    destruct (open_doors_complete_lemma ops (Some n) false st1 ob c o U Hob Hd LD F) as [Ho|Ho]; [rewrite K in Ho; destruct Ho|exact (GO _ Ho)].
Qed.
Lemma gone_lemma n ctf fuel e rooms g st g' : mirror_factor n -> good_env e -> lay_out fuel e (Some n) false ctf rooms g = (st, None, g') ->
  forall d p o, In (d, p, o) (u_gone st) -> n <> 1 /\ fst d = (16, 16).
Proof.
  intros Hn G E. destruct (lay_out_parts n ctf fuel e rooms g st g' Hn G E) as (st1 & k & g1 & caps & ops & ops' & U & NE & UF & E2 & E3 & OLD & CAPS & _ & GO & _).
  assert (u_gone st = u_gone st1) as -> by exact (endcap_gone _ _ _ _ _ _ E2).
  intros d p o H. exact (GO _ H).
Qed.

(** ** Counterexamples *)
Definition voidb (l : list obj) : bool :=
  existsb (fun ob : obj => existsb (fun d : door => negb (existsb (fun ob' : obj => existsb (cell_eqb (fst d)) (positions (snd ob'))) l)) (doorways (snd ob))) l.
Lemma voidb_ok l : voidb l = true -> exists c, into_void l c.
Proof.
  intros H. apply existsb_exists in H as (ob & Hob & H). apply existsb_exists in H as ([c o] & Hd & H). cbn [fst] in H. exists c. split; [eauto|].
  intros (ob' & Ho & Hc). rewrite Bool.negb_true_iff in H. rewrite <- Bool.not_true_iff_false in H. apply H. apply existsb_exists. exists ob'. split; [exact Ho|].
  apply existsb_exists. exists c. split; [exact Hc|]. apply cell_eqb_eq. reflexivity.
Qed.
Lemma void_refuted_lemma n : mirror_factor n -> exists fuel e rooms g st g' c, good_env e /\ lay_out fuel e (Some n) false false rooms g = (st, None, g') /\ into_void (u_rooms st) c.
Proof.
  intros Hn. assert (match lay_out 100 sample_env (Some n) false false 30 stream with (st, None, _) => voidb (u_rooms st) | _ => false end = true) as F.
  { destruct Hn as [-> | [-> | -> ]]; vm_compute; reflexivity. }
  destruct (lay_out 100 sample_env (Some n) false false 30 stream) as [[st [x|]] g'] eqn:E; [discriminate|]. apply voidb_ok in F as (c & F).
  exists 100%nat, sample_env, 30, stream, st, g', c. split; [exact sample_good|]. auto.
Qed.
Lemma place_more e opts n n' : n <= n' -> forall fuel st k g st' x g', place_loop fuel e st opts n k g = (st', Ok x, g') -> u_open st' = [] -> place_loop fuel e st opts n' k g = (st', Ok x, g').
Proof.
  intros L. induction fuel as [|fuel IH]; intros st k g st' x g' E O; cbn [place_loop] in *; [discriminate|].
  destruct (Z.leb_spec n k) as [H|H].
  - assert (st = st') as -> by congruence. rewrite O. destruct (n' <=? k); exact E.
  - destruct (Z.leb_spec n' k) as [H'|H']; [lia|]. destruct (u_open st) as [|x0 l] eqn:EO; [exact E|].
    destruct (nonrandom_position flavour_vertical st g) as [[[[d prev] o]|y] g1]; [|discriminate].
    destruct (localize e st opts d (snd prev) o g1) as [[[r|]|y] g2]; [| |discriminate].
    + destruct (register_room st r) as [st1 [y|]]; [discriminate|]. destruct (u_mirror st) as [m|]; [|discriminate].
      destruct (register_link st1 (snd prev) r) as [st2 [y|]]; [discriminate|]. exact (IH _ _ _ _ _ _ E O).
    + exact (IH _ _ _ _ _ _ E O).
Qed.
Definition ends_early (fuel : nat) (e : env) (n : Z) (ctf : bool) (rooms : Z) (g : rng) (len : nat) : bool :=
  match register_room (upm_init (Some n) false) (start_room ctf) with
  | (st, None) => match place_rooms fuel e st (map s_class possible_rooms) rooms g with
                  | (st1, Ok _, _) => match u_open st1 with [] => Nat.eqb (List.length (u_rooms st1)) len | _ => false end
                  | _ => false end
  | _ => false end.
Lemma ends_ok fuel e n ctf rooms rooms' g len : ends_early fuel e n ctf rooms g len = true -> rooms <= rooms' ->
  exists st g', lay_out fuel e (Some n) false ctf rooms' g = (st, None, g') /\ List.length (u_rooms st) = len.
Proof.
  unfold ends_early, lay_out. rewrite start_is. intros F L.
  destruct (register_room (upm_init (Some n) false) (start_room ctf)) as [st [x|]] eqn:E0; [discriminate|].
  destruct (place_rooms fuel e st (map s_class possible_rooms) rooms g) as [[st1 [k|x]] g1] eqn:E1; [|discriminate].
  destruct (u_open st1) as [|x l] eqn:EO; [|discriminate]. apply Nat.eqb_eq in F.
  apply (place_more e _ rooms rooms' L) in E1; [|exact EO].
  exists st1, g1. split; [|exact F]. unfold place_rooms. rewrite E1. unfold endcap. rewrite EO. reflexivity.
Qed.
Lemma few_early ctf : ends_early 50 sample_env 1 ctf 5 (fun _ => 0) 5 = true.
Proof. destruct ctf; vm_compute; reflexivity. Qed.
Lemma few_rooms ctf rooms : 5 <= rooms -> exists fuel e g st g', good_env e /\ lay_out fuel e (Some 1) false ctf rooms g = (st, None, g') /\ List.length (u_rooms st) = 5%nat.
Proof.
  intros L. destruct (ends_ok _ _ _ _ _ rooms _ _ (few_early ctf) L) as (st & g' & E & F).
  exists 50%nat, sample_env, (fun _ => 0), st, g'. split; [exact sample_good|]. split; [exact E|exact F].
Qed.

(** ** The same of whole runs *)
Lemma void_runs n hue vecs tm m size : mirror_factor n -> true_vectors vecs -> manager tm ->
  exists fuel e rooms g tm' w m2 st g' c, good_env e /\ generate fuel e hue vecs tm size (Some n) false false rooms m g = (tm', Ok (w, m2, st), g') /\ into_void (u_rooms st) c.
Proof.
  intros Hn TV M. destruct (void_refuted_lemma n Hn) as (fuel & e & rooms & g & st & g1 & c & G & E & V).
  destruct (generate_ok fuel e hue vecs tm size n false rooms m g st g1 TV M Hn G E) as (tm' & w & m2 & g' & sun & ess & EG & _).
  exists fuel, e, rooms, g, tm', w, m2, st, g', c. auto.
Qed.
Lemma few_runs ctf hue vecs tm m size rooms : true_vectors vecs -> manager tm -> 5 <= rooms ->
  exists fuel e g tm' w m2 st g', good_env e /\ generate fuel e hue vecs tm size (Some 1) false ctf rooms m g = (tm', Ok (w, m2, st), g') /\ List.length (u_rooms st) = 5%nat.
Proof.
  intros TV M L. destruct (few_rooms ctf rooms L) as (fuel & e & g & st & g1 & G & E & V).
  destruct (generate_ok fuel e hue vecs tm size 1 ctf rooms m g st g1 TV M (or_introl eq_refl) G E) as (tm' & w & m2 & g' & sun & ess & EG & _).
  exists fuel, e, g, tm', w, m2, st, g'. auto.
Qed.
