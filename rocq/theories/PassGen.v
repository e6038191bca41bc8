(** Proofs about moving through generated maps. *)
From Verif Require Import Py VecModel VecSpec VecProofs VoxelModel VoxelSpec CodecModel CodecSpec OutModel OutSpec
  UpmModel UpmSpec UpmProofs UpmTrace UpmInv UpmMore UpmMore2 UpmFinal KitModel KitSpec KitProofs KitTile RoomModel MagicaModel RoomSpec RoomProofs MagicaProofs
  TexModel TexSpec LightModel LightSpec VoxFileModel ShippedModel ShippedSpec ShippedProofs ShippedDraw GenModel GenSpec GenLayout GenDraw GenProofs
  PassSpec PassCheck PassProofs.
Local Open Scope Z_scope.

(** ** Doorways that face each other *)
Lemma cross (air : cell -> Prop) d o e : side (d, o) = true ->
  fits air (doorstep (d, o) e) -> fits air (doorstep (csub d o, opposite o) (- e)) ->
  walk (fits air) (doorstep (d, o) e) (doorstep (csub d o, opposite o) (- e)).
Proof.
  intros S A B. destruct d as [[x y] z], o as [[a b] h].
  assert ((a = 1 \/ a = -1) /\ b = 0 /\ h = 0 \/ a = 0 /\ (b = 1 \/ b = -1) /\ h = 0) as C
    by (unfold side in S; cbn [snd] in S; apply Bool.andb_true_iff in S; lia).
  set (m := (8 * x + 3 - 4 * a - e * b, 8 * y + 3 - 4 * b + e * a, 8 * z + 2)).
  assert (beside (doorstep ((x, y, z), (a, b, h)) e) m /\ beside m (doorstep (csub (x, y, z) (a, b, h), opposite (a, b, h)) (- e))) as [E1 E2].
  { subst m. unfold doorstep, sill. cbn [fst snd csub opposite beside]. lia. }
  assert (fits air m) as M.
  { intros [[i j] k] Hv.
    assert (in_body (doorstep ((x, y, z), (a, b, h)) e) (i, j, k) \/ in_body (doorstep (csub (x, y, z) (a, b, h), opposite (a, b, h)) (- e)) (i, j, k)) as [H|H].
    { subst m. unfold doorstep, sill. cbn [fst snd csub opposite in_body] in *. lia. }
    - exact (A _ H).
    - exact (B _ H). }
  eapply WStep; [exact A|exact E1|]. eapply WStep; [exact M|exact E2|]. constructor. exact B.
Qed.

(** ** The air of a list of rooms *)
Definition rooms_air (l : list obj) (v : cell) : Prop :=
  (exists ob, In ob l /\ in_room (snd ob) v) /\ forall ob, In ob l -> ~ built (snd ob) v.
Lemma built_in r s v : In s shipped_rooms -> r_cls r = s_class s -> built r v -> in_room r v.
Proof.
  intros Hs Ec (s' & f & q & a & Hs' & Ec' & Ef & Col & Fq).
  assert (s' = s) as -> by (apply same_shipped; [assumption|assumption|congruence]).
  set (pos := cell_vec (r_pos r)). set (orient := cell_vec (cdir (r_turn r))).
  destruct (reserved s (r_pos r) (r_turn r) pos orient Hs) as (f' & ps & Ef' & _ & _ & _ & RS).
  { rewrite (room_of_eq s _ _ Hs). split; apply cell_vec_at. }
  assert (f' = f) as -> by congruence. destruct v as [[x y] z]. exists (x / 8, y / 8, z / 8).
  rewrite (same_positions s r Hs Ec). split; [|exact (cell_of (x, y, z))].
  apply RS. exists q, a. split; [exact Col|]. rewrite Fq. exact (cell_of (x, y, z)).
Qed.
Lemma rooms_air_of l ob v : disjoint_rooms l -> (forall ob, In ob l -> exists s, In s shipped_rooms /\ r_cls (snd ob) = s_class s) ->
  In ob l -> room_air (snd ob) v -> rooms_air l v.
Proof.
  intros D S Hob [Hi N]. split; [exists ob; auto|]. intros ob' Hob' B. destruct (S ob' Hob') as (s & Hs & Ec).
  pose proof (built_in _ s v Hs Ec B) as Hi'. destruct (In_nth_error _ _ Hob) as (i & Ei). destruct (In_nth_error _ _ Hob') as (j & Ej).
  destruct (Nat.eq_dec i j) as [<-|Ne]; [assert (ob' = ob) as -> by congruence; contradiction|].
  destruct Hi as (c & Hc & Hv), Hi' as (c' & Hc' & Hv'). assert (c' = c) as -> by exact (same_cell v _ _ Hv' Hv).
  exact (D i j ob ob' c Ei Ej Ne Hc Hc').
Qed.
Lemma air_same s r v : In s shipped_rooms -> r_cls r = s_class s -> room_air (room_of s (r_pos r) (r_turn r)) v -> room_air r v.
Proof.
  intros Hs Ec [(c & Hc & Hv) N]. split; [exists c; rewrite (same_positions s r Hs Ec); auto|].
  intros (s' & f & q & a & H1 & H2 & H3 & H4 & H5). apply N. exists s', f, q, a. rewrite (room_of_eq s _ _ Hs). cbn [r_cls r_pos r_turn].
  rewrite <- Ec. auto 6.
Qed.

(** ** Rooms of a map *)
Lemma use_leads ctf : Forall (fun s => s = castle_gate_simple \/ all_lead s = true) (in_use ctf).
Proof.
  destruct ctf; unfold in_use, first_room, possible_rooms, possible_endcaps; cbn [app];
    repeat (apply Forall_cons; [first [left; exact eq_refl | right; vm_compute; reflexivity]|]); apply Forall_nil.
Qed.
Lemma use_doors ctf : Forall (fun s => doors_fit s = true) (in_use ctf).
Proof.
  destruct ctf; unfold in_use, first_room, possible_rooms, possible_endcaps; cbn [app];
    repeat (apply Forall_cons; [vm_compute; reflexivity|]); apply Forall_nil.
Qed.
Lemma use_side ctf s r d : In s (in_use ctf) -> r_cls r = s_class s -> In d (doorways r) -> side d = true /\ In (sill d) (positions r).
Proof.
  intros Hs Ec Hd. pose proof (in_use_shipped ctf s Hs) as Hi. rewrite (same_doorways s r Hi Ec) in Hd. rewrite (same_positions s r Hi Ec).
  pose proof (use_doors ctf) as F. rewrite Forall_forall in F. destruct (doors_usable s _ _ Hi (F s Hs) d Hd) as ((t & E) & _ & In'). split; [|exact In'].
  unfold side. rewrite E. destruct t; reflexivity.
Qed.
Lemma use_connected s r : In s shipped_rooms -> r_cls r = s_class s -> all_lead s = true -> connected r.
Proof.
  intros Hi Ec L d d' a a' Hd Hd' Ha Ha'. rewrite (same_doorways s r Hi Ec) in Hd, Hd'.
  eapply walk_mono; [|exact (lead_connected s _ _ Hi L d d' a a' Hd Hd' Ha Ha')]. intros c. apply fits_mono. intros v. apply air_same; assumption.
Qed.
Lemma gate_fits r d : is_gate r -> In d (doorways r) -> fits (room_air r) (doorstep d 1).
Proof.
  intros Ec Hd. rewrite (same_doorways _ r gate_shipped Ec) in Hd.
  pose proof (gate_reaches (r_pos r) (r_turn r) d d Hd Hd eq_refl) as W. apply walk_ends in W as [W _]. revert W. apply fits_mono.
  intros v. apply air_same; [exact gate_shipped|exact Ec].
Qed.

Lemma use_doors_on ctf s : In s (in_use ctf) -> doors_flag_free (s_class s) /\ doors_on_cells (s_class s) /\ doors_level (s_class s).
Proof.
  intros Hs. pose proof (in_use_shipped ctf s Hs) as Hi. pose proof shipped_free as F. rewrite Forall_forall in F. specialize (F s Hi).
  pose proof (use_doors ctf) as D. rewrite Forall_forall in D. specialize (D s Hs).
  assert (forall d, In d (rc_doors (s_class s) []) -> In (csub (fst d) (snd d)) (rc_cells (s_class s) []) /\ horizontal (snd d)) as K.
  { intros d Hd. assert (In d (doorways (room_of s (0, 0, 0) T0))) as Hd'.
    { rewrite (doorways_move s _ _ Hi). apply in_map_iff. exists d. split; [|exact Hd]. destruct d as [[[x y] z] [[a b] c]]. reflexivity. }
    destruct (doors_usable s _ _ Hi D d Hd') as ((t & E) & _ & I1). split; [|rewrite E; destruct t; reflexivity].
    rewrite (room_of_eq s _ _ Hi) in I1. unfold positions in I1. cbn [r_cls r_pos r_turn r_flags] in I1. apply in_map_iff in I1 as ([[x y] z] & I1 & I2).
    cbn [crot cadd] in I1. rewrite <- I1. exact I2. }
  split; [|split].
  - intros fl fl'. apply F.
  - intros fl d Hd. destruct (F fl []) as [E1 E2]. rewrite E1. rewrite E2 in Hd. apply K. exact Hd.
  - intros fl d Hd. destruct (F fl []) as [E1 E2]. rewrite E2 in Hd. apply K. exact Hd.
Qed.

(** ** Where the walks come from *)
Lemma lay_out_joined n ctf fuel e rooms g st g' : mirror_factor n -> good_env e -> lay_out fuel e (Some n) false ctf rooms g = (st, None, g') ->
  exists old caps, u_rooms st = old ++ caps /\
    (forall ob, In ob old -> first_of n ctf (snd ob) \/ exists ob', In ob' old /\ (fst ob' < fst ob)%nat /\ faces (snd ob) (snd ob')) /\
    (forall ob, In ob caps -> exists ob', In ob' old /\ faces (snd ob) (snd ob')).
Proof.
  intros Hn G E. unfold lay_out in E. rewrite start_is in E.
  destruct (start_registers n ctf Hn) as (st0 & E0 & M0 & _ & _ & R0). rewrite E0 in E.
  destruct (place_rooms fuel e st0 (map s_class possible_rooms) rooms g) as [[st1 [k|x]] g1] eqn:E1; [|discriminate].
  destruct (endcap_ok_lemma _ _ _ _ _ _ E) as (_ & _ & caps & E3 & C1 & _).
  exists (u_rooms st1), caps. split; [exact E3|].
  set (ops := [ORegister (start_room ctf); OPlace fuel e (map s_class possible_rooms) rooms g]).
  assert (urun ops (upm_init (Some n) false) = Some st1) as U by (subst ops; cbn [urun ustep]; rewrite E0, E1; reflexivity).
  split.
  - intros ob Hob. destruct (join_lemma ops (Some n) false st1 eq_refl U) with (ob := ob) as [(r & ts & t & HT & Ht & (Hr & Er))|(ob' & Ho & L & J)].
    + intros c (f & e' & os & n' & g0 & I1 & I2). subst ops. destruct I1 as [I1|[I1|[]]]; [discriminate|]. assert (os = map s_class possible_rooms) as -> by congruence. clear I1.
      apply in_map_iff in I2 as (s & <- & Hs). apply (use_doors_on ctf). unfold in_use. right. apply in_or_app. left. exact Hs.
    + intros r Hr. subst ops. destruct Hr as [Hr|[Hr|[]]]; [|discriminate]. injection Hr as <-.
      assert (r_cls (start_room ctf) = s_class (first_room ctf)) as -> by (destruct ctf; reflexivity).
      apply (use_doors_on ctf). unfold in_use. left. reflexivity.
    + exact Hob.
    + left. subst ops. destruct Hr as [Hr|[Hr|[]]]; [|discriminate]. injection Hr as <-.
      exists t. split; [|exact Er]. destruct (noclip_history _ _ _ _ U) as [_ MM]. rewrite (rotations_of n st1 Hn MM) in HT. injection HT as <-. exact Ht.
    + right. exists ob'. split; [exact Ho|]. split; [exact L|]. destruct J as (d & o & J1 & _ & _ & J4). exists d, o. auto.
  - intros ob Hob. destruct (C1 ob Hob) as (d & p & o & c & pos & t & Ho & _ & _ & A). apply urun_any_agrees in U. subst st1.
    apply open_doors_any_lemma in Ho as (_ & _ & Hp & Hd). exists p. split; [exact Hp|]. exists d, o. auto.
Qed.
Lemma reach_lemma n ctf fuel e rooms g st g' : mirror_factor n -> good_env e -> lay_out fuel e (Some n) false ctf rooms g = (st, None, g') ->
  forall ob d a, In ob (u_rooms st) -> In d (doorways (snd ob)) -> ~ is_gate (snd ob) /\ In a (doorsteps d) \/ is_gate (snd ob) /\ a = doorstep d 1 ->
  exists ob0 d0 a0, In ob0 (u_rooms st) /\ (first_of n ctf (snd ob0) \/ is_gate (snd ob0)) /\ In d0 (doorways (snd ob0)) /\ In a0 (doorsteps d0) /\
    walk (fits (rooms_air (u_rooms st))) a0 a.
Proof.
  intros Hn G E. destruct (lay_out_run n ctf fuel e rooms g st g' Hn G E) as (g1 & U & L). destruct (rooms_disjoint_lemma _ _ _ U) as [D _].
  destruct (lay_out_joined n ctf fuel e rooms g st g' Hn G E) as (old & caps & ER & J1 & J2).
  assert (forall ob, In ob (u_rooms st) -> exists s, In s (in_use ctf) /\ r_cls (snd ob) = s_class s) as US.
  { intros ob Hob. destruct (room_bounds n ctf st ob L Hob) as (s & Hs & Ec & _). eauto. }
  assert (forall ob, In ob (u_rooms st) -> exists s, In s shipped_rooms /\ r_cls (snd ob) = s_class s) as SH.
  { intros ob Hob. destruct (US ob Hob) as (s & Hs & Ec). exists s. split; [exact (in_use_shipped ctf s Hs)|exact Ec]. }
  assert (forall ob, In ob (u_rooms st) -> ~ is_gate (snd ob) -> connected (snd ob)) as CO.
  { intros ob Hob N. destruct (US ob Hob) as (s & Hs & Ec). pose proof (use_leads ctf) as F. rewrite Forall_forall in F.
    destruct (F s Hs) as [->|Hl]; [contradiction|]. exact (use_connected s _ (in_use_shipped ctf s Hs) Ec Hl). }
  assert (forall ob, In ob (u_rooms st) -> is_gate (snd ob) \/ ~ is_gate (snd ob)) as DEC.
  { intros ob Hob. destruct (US ob Hob) as (s & Hs & Ec). pose proof (use_leads ctf) as F. rewrite Forall_forall in F.
    destruct (F s Hs) as [->|Hl]; [left; exact Ec|]. right. intros X. unfold is_gate in X.
    assert (s = castle_gate_simple) as -> by (apply same_shipped; [exact (in_use_shipped ctf s Hs)|exact gate_shipped|congruence]).
    vm_compute in Hl. discriminate. }
  assert (forall ob a, In ob (u_rooms st) -> fits (room_air (snd ob)) a -> fits (rooms_air (u_rooms st)) a) as UP.
  { intros ob a Hob. apply fits_mono. intros v. apply rooms_air_of; assumption. }
  (* a room whose neighbour is reached *)
  assert (forall ob ob', In ob (u_rooms st) -> In ob' (u_rooms st) -> ~ is_gate (snd ob) -> faces (snd ob) (snd ob') ->
    (~ is_gate (snd ob') -> forall d a, In d (doorways (snd ob')) -> In a (doorsteps d) ->
       exists ob0 d0 a0, In ob0 (u_rooms st) /\ (first_of n ctf (snd ob0) \/ is_gate (snd ob0)) /\ In d0 (doorways (snd ob0)) /\ In a0 (doorsteps d0) /\
         walk (fits (rooms_air (u_rooms st))) a0 a) ->
    forall d a, In d (doorways (snd ob)) -> In a (doorsteps d) ->
       exists ob0 d0 a0, In ob0 (u_rooms st) /\ (first_of n ctf (snd ob0) \/ is_gate (snd ob0)) /\ In d0 (doorways (snd ob0)) /\ In a0 (doorsteps d0) /\
         walk (fits (rooms_air (u_rooms st))) a0 a) as NEXT.
  { intros ob ob' Hob Hob' N (d1 & o1 & F1 & F2) IH d a Hd Ha.
    destruct (US ob' Hob') as (s' & Hs' & Ec'). destruct (use_side ctf s' _ _ Hs' Ec' F1) as [SD _].
    assert (In (doorstep (csub d1 o1, opposite o1) (- (1))) (doorsteps (csub d1 o1, opposite o1))) as I1 by (unfold doorsteps; apply in_map; cbn; auto).
    pose proof (CO ob Hob N _ _ _ _ F2 Hd I1 Ha) as W.
    assert (walk (fits (rooms_air (u_rooms st))) (doorstep (csub d1 o1, opposite o1) (- (1))) a) as W' by (revert W; apply walk_mono; intros c; apply UP; exact Hob).
    assert (In (doorstep (d1, o1) 1) (doorsteps (d1, o1))) as I2 by (unfold doorsteps; apply in_map; cbn; auto).
    assert (fits (room_air (snd ob')) (doorstep (d1, o1) 1)) as FI.
    { destruct (DEC ob' Hob') as [Gt|Ng]; [exact (gate_fits _ _ Gt F1)|]. exact (proj1 (walk_ends _ _ _ (CO ob' Hob' Ng _ _ _ _ F1 F1 I2 I2))). }
    pose proof (cross (rooms_air (u_rooms st)) d1 o1 1 SD (UP ob' _ Hob' FI) (proj1 (walk_ends _ _ _ W'))) as CR.
    destruct (DEC ob' Hob') as [Gt|Ng].
    - exists ob', (d1, o1), (doorstep (d1, o1) 1). split; [exact Hob'|]. split; [right; exact Gt|]. split; [exact F1|]. split; [exact I2|].
      eapply walk_trans; [exact CR|exact W'].
    - destruct (IH Ng _ _ F1 I2) as (ob0 & d0 & a0 & H1 & H2 & H3 & H4 & H5). exists ob0, d0, a0. do 4 (split; [assumption|]).
      eapply walk_trans; [exact H5|]. eapply walk_trans; [exact CR|exact W']. }
  (* the placed rooms *)
  assert (forall k ob, (fst ob < k)%nat -> In ob old -> ~ is_gate (snd ob) -> forall d a, In d (doorways (snd ob)) -> In a (doorsteps d) ->
       exists ob0 d0 a0, In ob0 (u_rooms st) /\ (first_of n ctf (snd ob0) \/ is_gate (snd ob0)) /\ In d0 (doorways (snd ob0)) /\ In a0 (doorsteps d0) /\
         walk (fits (rooms_air (u_rooms st))) a0 a) as OLD.
  { induction k as [|k IH]; intros ob Lk Hob N d a Hd Ha; [lia|].
    assert (In ob (u_rooms st)) as Hob' by (rewrite ER; apply in_or_app; left; exact Hob).
    destruct (J1 ob Hob) as [Fi|(ob' & Ho & Lt & Fa)].
    - exists ob, d, a. split; [exact Hob'|]. split; [left; exact Fi|]. split; [exact Hd|]. split; [exact Ha|].
      constructor. apply (UP ob); [exact Hob'|]. exact (proj1 (walk_ends _ _ _ (CO ob Hob' N d d a a Hd Hd Ha Ha))).
    - refine (NEXT ob ob' Hob' _ N Fa _ d a Hd Ha); [rewrite ER; apply in_or_app; left; exact Ho|].
      intros Ng d1 a1. apply (fun H => IH ob' H Ho Ng d1 a1). lia. }
  intros ob d a Hob Hd [[N Ha]|[Gt ->]].
  - pose proof Hob as Hob'. rewrite ER in Hob. apply in_app_or in Hob as [Ho|Ho].
    + exact (OLD (S (fst ob)) ob (Nat.lt_succ_diag_r _) Ho N d a Hd Ha).
    + destruct (J2 ob Ho) as (ob' & Ho' & Fa). refine (NEXT ob ob' Hob' _ N Fa _ d a Hd Ha); [rewrite ER; apply in_or_app; left; exact Ho'|].
      intros Ng d1 a1. exact (OLD (S (fst ob')) ob' (Nat.lt_succ_diag_r _) Ho' Ng d1 a1).
  - exists ob, d, (doorstep d 1). split; [exact Hob|]. split; [right; exact Gt|]. split; [exact Hd|].
    split; [unfold doorsteps; apply in_map; cbn; auto|]. constructor. apply (UP ob); [exact Hob|]. exact (gate_fits _ _ Gt Hd).
Qed.

(** ** The generated world and its file *)
Lemma block_built tm r v tex : has_block tm r v tex -> built r v.
Proof. intros (s & f & q & a & r0 & g0 & b & al & n & H1 & H2 & H3 & H4 & H5 & _). exists s, f, q, a. auto 6. Qed.
Lemma reach_from n ctf fuel e rooms g st g' (air : cell -> Prop) : mirror_factor n -> good_env e -> lay_out fuel e (Some n) false ctf rooms g = (st, None, g') ->
  (forall v, rooms_air (u_rooms st) v -> air v) ->
  forall ob d, In ob (u_rooms st) -> In d (doorways (snd ob)) ->
  exists ob0 d0, In ob0 (u_rooms st) /\ (first_of n ctf (snd ob0) \/ is_gate (snd ob0)) /\ In d0 (doorways (snd ob0)) /\ reaches air d0 d.
Proof.
  intros Hn G E F ob d Hob Hd.
  assert (exists a, In a (doorsteps d) /\ (~ is_gate (snd ob) /\ In a (doorsteps d) \/ is_gate (snd ob) /\ a = doorstep d 1)) as (a & Ha & Ga).
  { exists (doorstep d 1). assert (In (doorstep d 1) (doorsteps d)) as I1 by (unfold doorsteps; apply in_map; cbn; auto). split; [exact I1|].
    destruct (lay_out_run n ctf fuel e rooms g st g' Hn G E) as (g1 & _ & L). destruct (room_bounds n ctf st ob L Hob) as (s & Hs & Ec & _).
    pose proof (use_leads ctf) as FL. rewrite Forall_forall in FL. destruct (FL s Hs) as [->|Hl]; [right; split; [exact Ec|reflexivity]|].
    left. split; [|exact I1]. intros X. unfold is_gate in X.
    assert (s = castle_gate_simple) as -> by (apply same_shipped; [exact (in_use_shipped ctf s Hs)|exact gate_shipped|congruence]).
    vm_compute in Hl. discriminate. }
  destruct (reach_lemma n ctf fuel e rooms g st g' Hn G E ob d a Hob Hd Ga) as (ob0 & d0 & a0 & H1 & H2 & H3 & H4 & W).
  exists ob0, d0. do 3 (split; [assumption|]). exists a0, a. do 2 (split; [assumption|]). revert W. apply walk_mono. intros c. apply fits_mono. exact F.
Qed.
Lemma world_reach fuel e hue vecs tm size n ctf rooms m g tm' w m2 st g' : true_vectors vecs -> manager tm -> mirror_factor n -> good_env e ->
  generate fuel e hue vecs tm size (Some n) false ctf rooms m g = (tm', Ok (w, m2, st), g') ->
  forall ob d, In ob (u_rooms st) -> In d (doorways (snd ob)) ->
  exists ob0 d0, In ob0 (u_rooms st) /\ (first_of n ctf (snd ob0) \/ is_gate (snd ob0)) /\ In d0 (doorways (snd ob0)) /\
    reaches (world_air w (u_rooms st)) d0 d.
Proof.
  intros TV M Hn G EG. destruct (generate_lays _ _ _ _ _ _ _ _ _ _ _ _ _ _ _ _ _ EG) as (g1 & E).
  destruct (generate_ok fuel e hue vecs tm size n ctf rooms m g st g1 TV M Hn G E)
    as (tm2 & w2 & m3 & g3 & sun & ess & EG2 & L & _ & _ & _ & _ & _ & _ & _ & _ & _ & _ & _ & B).
  assert (tm2 = tm' /\ w2 = w) as (-> & ->) by (split; congruence).
  apply (reach_from n ctf fuel e rooms g st g1 _ Hn G E). intros [[x y] z] [I1 N]. split; [exact I1|]. cbn [at_voxel].
  destruct (get_point w (I x) (I y) (I z)) as [tex|] eqn:GP; [|reflexivity]. apply B in GP as (ob & Hob & HB). exfalso. exact (N ob Hob (block_built _ _ _ _ HB)).
Qed.
Lemma file_reach k fuel fuelo e hue vecs tm n ctf rooms m ws g tm' w m2 st g' bs m' :
  true_vectors vecs -> byte_hues hue -> manager tm -> mirror_factor n -> good_env e ->
  (7 <= k)%nat -> (S k < fuelo)%nat -> wf_map m -> header_size m = Some ws -> 2 ^ Z.of_nat (S k) <= ws <= 8192 ->
  Z.of_nat (List.length (tm_atlas tm)) <= 57000 -> len (m_ents m) <= 2 ^ 30 ->
  generate fuel e hue vecs tm (2 ^ Z.of_nat (S k)) (Some n) false ctf rooms m g = (tm', Ok (w, m2, st), g') ->
  output_map fuelo w m2 = Ok bs -> read_rest bs = Ok (m', []) ->
  (forall ob c, In ob (u_rooms st) -> In c (positions (snd ob)) -> in_world (2 ^ Z.of_nat (S k) / 8) c) ->
  forall ob d, In ob (u_rooms st) -> In d (doorways (snd ob)) ->
  exists ob0 d0, In ob0 (u_rooms st) /\ (first_of n ctf (snd ob0) \/ is_gate (snd ob0)) /\ In d0 (doorways (snd ob0)) /\
    reaches (file_air (S k) m' (u_rooms st)) d0 d.
Proof.
  intros TV BH M Hn G Hk Hf WM HS Hws HA HE EG EO ER Hin.
  destruct (generate_lays _ _ _ _ _ _ _ _ _ _ _ _ _ _ _ _ _ EG) as (g1 & E).
  destruct (generated k fuel fuelo e hue vecs tm n ctf rooms m ws g st g1 TV BH M Hn G Hk Hf WM HS Hws HA HE E)
    as (tm2 & w2 & m3 & g3 & sun & ess & bs2 & m4 & EG2 & EO2 & ER2 & _ & _ & _ & B & _).
  assert (tm2 = tm' /\ w2 = w /\ m3 = m2) as (-> & -> & ->) by (split; [|split]; congruence). assert (bs2 = bs) as -> by congruence. assert (m4 = m') as -> by congruence.
  apply (reach_from n ctf fuel e rooms g st g1 _ Hn G E). intros [[x y] z] [I1 N]. split; [exact I1|].
  destruct I1 as (ob & Hob & [[a b] h] & Hc & Hv). specialize (Hin ob _ Hob Hc). cbn [in_world voxel_in_cell] in *.
  assert (2 ^ Z.of_nat (S k) = 8 * (2 ^ Z.of_nat (S k) / 8)) as E8.
  { replace (Z.of_nat (S k)) with (3 + (Z.of_nat k - 2)) by lia. rewrite Z.pow_add_r by lia. change (2 ^ 3) with 8.
    rewrite Z.mul_comm, Z.div_mul by lia. ring. }
  destruct (world_lookup (S k) m' x y z) as [tex|] eqn:GP; [|reflexivity]. apply B in GP as (ob' & Hob' & HB); try lia.
  exfalso. exact (N ob' Hob' (block_built _ _ _ _ HB)).
Qed.

(** ** A map with a part that cannot be reached *)
Definition low_part : list cell := [(6, 9, 2); (6, 7, 1); (6, 7, 2); (6, 8, 1); (6, 8, 2); (6, 10, 1); (6, 10, 2); (6, 11, 1); (6, 11, 2)].
Definition ring (c : cell) : list cell := map (cadd c) [(1, 0, 0); (-1, 0, 0); (0, 1, 0); (0, -1, 0); (0, 0, 1); (0, 0, -1)].
Definition is_wall (c : cell) : bool := existsb (cell_eqb c) [(5, 9, 2); (7, 9, 2)].
Definition parted (st : upm) : bool :=
  let cells := flat_map (fun ob => positions (snd ob)) (u_rooms st) in
  existsb (fun ob => (rc_id (r_cls (snd ob)) =? 102) && cell_eqb (r_pos (snd ob)) (7, 9, 2) && match r_turn (snd ob) with T2 => true | _ => false end) (u_rooms st) &&
  forallb (fun c => forallb (fun c' => existsb (cell_eqb c') low_part || negb (existsb (cell_eqb c') cells) || is_wall c' || cell_eqb c' (6, 9, 3)) (ring c)) low_part &&
  existsb (fun ob => existsb (fun d => existsb (cell_eqb (sill d)) low_part) (doorways (snd ob))) (u_rooms st) &&
  forallb (fun d => negb (existsb (cell_eqb (sill d)) low_part)) (doorways (mirror_room T0 (start_room false))).
Definition two : rng := fun _ => 2.
Lemma parted_run : match lay_out 100 sample_env (Some 1) false false 1 two with (st, None, _) => parted st | _ => false end = true.
Proof. vm_compute. reflexivity. Qed.
Definition cell_full (s : shipped) (c : cell) : bool :=
  match read_file (s_file s) with
  | Ok f => let '(a, b, h) := c in
            forallb (fun q => match voxel_colour (vf_voxels f) (8 * a + fst (fst q), 8 * b + snd (fst q), 8 * h + snd q) with Some _ => true | None => false end)
              (list_prod (list_prod (zrange 0 8) (zrange 0 8)) (zrange 0 8))
  | Err _ => false
  end.
Lemma gate_full : cell_full castle_gate_simple (0, 0, 0) = true /\ cell_full castle_gate_simple (2, 0, 0) = true.
Proof. split; vm_compute; reflexivity. Qed.
Lemma full_built s p t c v : In s shipped_rooms -> cell_full s c = true -> voxel_in_cell v (cadd p (crot t c)) -> built (room_of s p t) v.
Proof.
  intros Hs F Hv. apply voxel_unframe in Hv. unfold cell_full in F. destruct (read_file (s_file s)) as [f|] eqn:E; [|discriminate].
  destruct c as [[a b] h]. rewrite forallb_forall in F. destruct (unframe p (facing t) v) as [[x y] z] eqn:U. cbn [voxel_in_cell] in Hv.
  specialize (F (x - 8 * a, y - 8 * b, z - 8 * h)). cbn [fst snd] in F.
  replace (8 * a + (x - 8 * a)) with x in F by lia. replace (8 * b + (y - 8 * b)) with y in F by lia. replace (8 * h + (z - 8 * h)) with z in F by lia.
  destruct (voxel_colour (vf_voxels f) (x, y, z)) as [k|] eqn:V.
  2:{ exfalso. apply Bool.diff_false_true. apply F. apply in_prod; [apply in_prod|]; apply in_zrange; lia. }
  rewrite (room_of_eq s p t Hs). exists s, f, (x, y, z), k. cbn [r_cls r_pos r_turn]. split; [exact Hs|]. split; [reflexivity|]. split; [exact E|].
  split; [exact V|]. rewrite <- U. apply frame_unframe.
Qed.
Lemma gate_id ctf : Forall (fun s => rc_id (s_class s) =? 102 = false \/ s = castle_gate_simple) (in_use ctf).
Proof.
  destruct ctf; unfold in_use, first_room, possible_rooms, possible_endcaps; cbn [app];
    repeat (apply Forall_cons; [first [left; reflexivity | right; exact eq_refl]|]); apply Forall_nil.
Qed.
Lemma next_cell v v' c c' : voxel_in_cell v c -> voxel_in_cell v' c' -> beside v v' -> c' = c \/ In c' (ring c).
Proof.
  destruct v as [[x y] z], v' as [[x' y'] z'], c as [[a b] h], c' as [[a' b'] h']. cbn [voxel_in_cell beside ring map cadd]. intros H H' B.
  assert (Z.abs (a' - a) + Z.abs (b' - b) + Z.abs (h' - h) <= 1) as D.
  { assert (Z.abs (x' - x) <= 1 /\ Z.abs (y' - y) <= 1 /\ Z.abs (z' - z) <= 1) by lia. lia. }
  assert (forall u u', u' - u = 0 -> u' = u) as Z0 by lia.
  destruct (Z.eq_dec a' a) as [->|]; [|right; assert (b' = b /\ h' = h) as [-> ->] by lia; assert (a' = a + 1 \/ a' = a + -1) as [-> | ->] by lia; rewrite !Z.add_0_r; cbn [In]; auto].
  destruct (Z.eq_dec b' b) as [->|]; [|right; assert (h' = h) as -> by lia; assert (b' = b + 1 \/ b' = b + -1) as [-> | ->] by lia; rewrite !Z.add_0_r; cbn [In]; auto].
  destruct (Z.eq_dec h' h) as [->|]; [left; reflexivity|]. right. assert (h' = h + 1 \/ h' = h + -1) as [-> | ->] by lia; rewrite !Z.add_0_r; cbn [In]; auto 8.
Qed.
Lemma part_closed st ob l v v' : (forall ob, In ob (u_rooms st) -> exists s, In s (in_use false) /\ r_cls (snd ob) = s_class s) ->
  forallb (fun c => forallb (fun c' => existsb (cell_eqb c') low_part || negb (existsb (cell_eqb c') l) || is_wall c' || cell_eqb c' (6, 9, 3)) (ring c)) low_part = true ->
  l = flat_map (fun ob => positions (snd ob)) (u_rooms st) ->
  In ob (u_rooms st) -> rc_id (r_cls (snd ob)) = 102 -> r_pos (snd ob) = (7, 9, 2) -> r_turn (snd ob) = T2 ->
  rooms_air (u_rooms st) v' -> (exists c, In c low_part /\ voxel_in_cell v c) -> beside v v' -> exists c, In c low_part /\ voxel_in_cell v' c.
Proof.
  intros US F El Hob Hid Hp Ht [(ob' & Hob' & c' & Hc' & Hv') N] (c & Hc & Hv) B.
  destruct (next_cell v v' c c' Hv Hv' B) as [->|R]; [exists c; auto|].
  rewrite forallb_forall in F. specialize (F c Hc). rewrite forallb_forall in F. specialize (F c' R). rewrite !Bool.orb_true_iff in F.
  destruct (US ob Hob) as (s & Hs & Ec). pose proof (gate_id false) as GI. rewrite Forall_forall in GI. destruct (GI s Hs) as [X|X].
  { rewrite Ec in Hid. rewrite Hid in X. discriminate. } subst s.
  assert (forall v, built (room_of castle_gate_simple (7, 9, 2) T2) v -> ~ rooms_air (u_rooms st) v) as NB.
  { intros u (s & f & q & k & H1 & H2 & H3 & H4 & H5) [_ NN]. apply (NN ob Hob). exists s, f, q, k. rewrite (room_of_eq _ _ _ gate_shipped) in *.
    cbn [r_cls r_pos r_turn] in *. rewrite Hp, Ht, Ec. auto 6. }
  assert (rooms_air (u_rooms st) v') as RA by (split; [exists ob'; split; [exact Hob'|exists c'; auto]|exact N]).
  destruct F as [[[F|F]|F]|F].
  - exists c'. split; [|exact Hv']. apply existsb_exists in F as (x & Hx & F). apply cell_eqb_eq in F. subst x. exact Hx.
  - exfalso. apply Bool.negb_true_iff in F. assert (existsb (cell_eqb c') l = true); [|congruence]. apply existsb_exists. exists c'.
    split; [|apply cell_eqb_refl]. subst l. apply in_flat_map. exists ob'. auto.
  - exfalso. apply (NB v'); [|exact RA]. destruct gate_full as [G0 G2].
    apply existsb_exists in F as (x & Hx & F). apply cell_eqb_eq in F. subst x. destruct Hx as [Hx|[Hx|[]]]; subst c'.
    + apply (full_built _ _ _ (2, 0, 0) v' gate_shipped G2). exact Hv'.
    + apply (full_built _ _ _ (0, 0, 0) v' gate_shipped G0). exact Hv'.
  - apply cell_eqb_eq in F. subst c'. exfalso. apply (NB v'); [|exact RA].
    assert (c = (6, 9, 2)) as ->.
    { destruct c as [[a b] h]. cbn [ring map cadd In] in R. cbn [low_part In] in Hc.
      repeat (destruct Hc as [Hc|Hc]; [injection Hc as <- <- <-; repeat (destruct R as [R|R]; [try discriminate R; reflexivity|]); destruct R|]). destruct Hc. }
    destruct v as [[x y] z], v' as [[x' y'] z']. cbn [voxel_in_cell beside] in *.
    assert (z' = 8 * snd (7, 9, 2) + 8) as -> by (cbn [snd]; lia). apply gate_blocked.
    exists (6, 9, 3). split; [|cbn [snd voxel_in_cell]; lia]. rewrite (room_of_eq _ _ _ gate_shipped). unfold positions. cbn [r_cls r_pos r_turn r_flags].
    rewrite gate_cells. cbn. auto 10.
Qed.
Lemma parted_map hue vecs tm m : true_vectors vecs -> manager tm ->
  exists fuel e rooms g tm' w m2 st g', good_env e /\ generate fuel e hue vecs tm 256 (Some 1) false false rooms m g = (tm', Ok (w, m2, st), g') /\
    exists ob d, In ob (u_rooms st) /\ In d (doorways (snd ob)) /\
    forall ob0 d0, In ob0 (u_rooms st) -> first_of 1 false (snd ob0) -> In d0 (doorways (snd ob0)) -> cut_off (world_air w (u_rooms st)) d0 d.
Proof.
  intros TV M. pose proof parted_run as P. destruct (lay_out 100 sample_env (Some 1) false false 1 two) as [[st [x|]] g1] eqn:E; [discriminate|].
  destruct (generate_ok 100 sample_env hue vecs tm 256 1 false 1 m two st g1 TV M)
    as (tm' & w & m2 & g' & sun & ess & EG & L & _ & _ & _ & _ & _ & _ & _ & _ & _ & _ & [_ NB] & B); [left; reflexivity|exact sample_good|exact E|].
  exists 100%nat, sample_env, 1, two, tm', w, m2, st, g'. split; [exact sample_good|]. split; [exact EG|]. clear E EG.
  unfold parted in P. rewrite !Bool.andb_true_iff in P. destruct P as [[[P1 P2] P3] P4].
  assert (forall ob, In ob (u_rooms st) -> exists s, In s (in_use false) /\ r_cls (snd ob) = s_class s) as US.
  { intros ob Hob. destruct (room_bounds 1 false st ob L Hob) as (s & Hs & Ec & _). eauto. }
  assert (forall v, world_air w (u_rooms st) v -> rooms_air (u_rooms st) v) as WA.
  { intros [[x y] z] [I1 N]. split; [exact I1|]. intros ob Hob (s & f & q & a & H1 & H2 & H3 & H4 & H5). cbn [at_voxel] in N.
    destruct (NB ob s f q a Hob H1 H2 H3 H4) as (tex & HB). rewrite H5 in HB.
    assert (get_point w (I x) (I y) (I z) = Some tex) by (apply B; exists ob; auto). congruence. }
  apply existsb_exists in P3 as (ob & Hob & P3). apply existsb_exists in P3 as (d & Hd & P3). exists ob, d. split; [exact Hob|]. split; [exact Hd|].
  apply existsb_exists in P3 as (c0 & Hc0 & P3). apply cell_eqb_eq in P3.
  apply existsb_exists in P1 as (og & Hog & P1). rewrite !Bool.andb_true_iff in P1. destruct P1 as [[Q1 Q2] Q3].
  apply Z.eqb_eq in Q1. apply cell_eqb_eq in Q2. assert (r_turn (snd og) = T2) as Q4 by (destruct (r_turn (snd og)); congruence).
  intros ob0 d0 _ (t & Ht & E0) Hd0 a b Ha Hb W. cbn in Ht. destruct Ht as [<-|[]]. rewrite E0 in Hd0.
  rewrite forallb_forall in P4. specialize (P4 d0 Hd0). apply Bool.negb_true_iff in P4.
  apply walk_sym in W. apply (walk_mono _ _ _ _ WA) in W.
  assert (forall u u', walk (rooms_air (u_rooms st)) u u' -> (exists c, In c low_part /\ voxel_in_cell u c) -> exists c, In c low_part /\ voxel_in_cell u' c) as INV.
  { induction 1 as [|u u1 u2 A Be W' IH]; [auto|]. intros X. apply IH. eapply part_closed with (st := st) (v := u) (ob := og); eauto.
    exact (proj1 (walk_ends _ _ _ W')). }
  destruct (INV b a W) as (c & Hc & Hv); [exists c0; split; [exact Hc0|rewrite <- P3; exact Hb]|].
  assert (c = sill d0) as -> by exact (same_cell a _ _ Hv Ha).
  assert (existsb (cell_eqb (sill d0)) low_part = true); [|congruence]. apply existsb_exists. exists (sill d0). split; [exact Hc|apply cell_eqb_refl].
Qed.
