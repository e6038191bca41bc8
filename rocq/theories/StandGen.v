(** Proofs about the places of the entities of generated maps. *)
From Verif Require Import Py VecModel VecSpec VecProofs VoxelModel VoxelSpec CodecModel CodecSpec OutModel OutSpec
  UpmModel UpmSpec UpmProofs UpmTrace UpmInv UpmMore UpmMore2 UpmFinal KitModel KitSpec KitProofs KitTile RoomModel MagicaModel RoomSpec RoomProofs MagicaProofs
  TexModel TexSpec LightModel LightSpec VoxFileModel ShippedModel ShippedSpec ShippedProofs ShippedDraw GenModel GenSpec GenLayout GenDraw GenProofs
  PassSpec PassCheck PassProofs PassGen StandSpec StandProofs.
Local Open Scope Z_scope.

(** ** The entities of a run *)
Lemma in_ess (hue : vec -> Z * Z * Z) obs ess e : Forall2 (furnished_at hue) obs ess -> In e (List.concat ess) -> exists ob es, In ob obs /\ In e es /\ furnished_at hue ob es.
Proof.
  induction 1 as [|ob es obs ess H F IH]; intros He; [destruct He|]. cbn [List.concat] in He. apply in_app_or in He as [He|He].
  - exists ob, es. split; [left; reflexivity|auto].
  - destruct (IH He) as (ob' & es' & H1 & H2). exists ob', es'. split; [right; exact H1|exact H2].
Qed.
Lemma ess_in (hue : vec -> Z * Z * Z) obs ess ob : Forall2 (furnished_at hue) obs ess -> In ob obs -> exists es, furnished_at hue ob es /\ forall e, In e es -> In e (List.concat ess).
Proof.
  induction 1 as [|ob' es obs ess H F IH]; intros Ho; [destruct Ho|]. cbn [List.concat]. destruct Ho as [<-|Ho].
  - exists es. split; [exact H|]. intros e He. apply in_or_app. left. exact He.
  - destruct (IH Ho) as (es' & H1 & H2). exists es'. split; [exact H1|]. intros e He. apply in_or_app. right. exact (H2 e He).
Qed.
Lemma sun_plain sun : is_sun sun -> ~ of_interest sun.
Proof. intros [E _] H. unfold of_interest in H. rewrite E in H. lia. Qed.
Lemma use_found ctf : Forall (fun s => rc_doors (s_class s) [] <> []) (in_use ctf).
Proof.
  destruct ctf; unfold in_use, first_room, possible_rooms, possible_endcaps; cbn [app];
    repeat (apply Forall_cons; [vm_compute; discriminate|]); apply Forall_nil.
Qed.
(** What is reached, in the air of the rooms. *)
Lemma reach_entity n ctf fuel e rooms g st g' hue ess : mirror_factor n -> good_env e -> lay_out fuel e (Some n) false ctf rooms g = (st, None, g') ->
  Forall2 (furnished_at hue) (u_rooms st) ess -> forall x, In x (List.concat ess) -> of_interest x ->
  exists ob0 d0, In ob0 (u_rooms st) /\ (first_of n ctf (snd ob0) \/ is_gate (snd ob0)) /\ In d0 (doorways (snd ob0)) /\ way_to (rooms_air (u_rooms st)) d0 x.
Proof.
  intros Hn G E FA x Hx OI. destruct (lay_out_run n ctf fuel e rooms g st g' Hn G E) as (g1 & U & L). destruct (rooms_disjoint_lemma _ _ _ U) as [D _].
  destruct (in_ess hue _ _ x FA Hx) as (ob & es & Hob & He & s & Es & A & St). destruct (room_bounds n ctf st ob L Hob) as (s' & Hs & Ec & _).
  pose proof (in_use_shipped ctf s' Hs) as Hi. rewrite Ec, (shipped_of_self s' Hi) in Es. assert (s' = s) as -> by congruence. clear Es.
  destruct (both_in _ _ _ _ _ A St x He) as (ex & Hex & Ax & Sx).
  assert (exists d, In d (doorways (room_of s (r_pos (snd ob)) (r_turn (snd ob))))) as (d & Hd).
  { rewrite (doorways_move s _ _ Hi). pose proof (use_found ctf) as F. rewrite Forall_forall in F. specialize (F s Hs).
    destruct (rc_doors (s_class s) []) as [|d0 ds]; [congruence|]. eexists. left. reflexivity. }
  assert (In (doorstep d 1) (doorsteps d)) as I1 by (unfold doorsteps; apply in_map; cbn; auto).
  pose proof classes_found as CF. rewrite Forall_forall in CF. specialize (CF s Hi).
  destruct (found_walk s _ _ ex x hue d (doorstep d 1) Hi CF Hex Ax Sx OI Hd I1) as (a & Ma & W). rewrite <- (same_doorways s _ Hi Ec) in Hd.
  assert (~ is_gate (snd ob) /\ In (doorstep d 1) (doorsteps d) \/ is_gate (snd ob) /\ doorstep d 1 = doorstep d 1) as Ga.
  { pose proof (use_leads ctf) as FL. rewrite Forall_forall in FL. destruct (FL s Hs) as [->|Hl]; [right; split; [exact Ec|reflexivity]|].
    left. split; [|exact I1]. intros X. unfold is_gate in X.
    assert (s = castle_gate_simple) as -> by (apply same_shipped; [exact Hi|exact gate_shipped|congruence]).
    vm_compute in Hl. discriminate. }
  destruct (reach_lemma n ctf fuel e rooms g st g' Hn G E ob d _ Hob Hd Ga) as (ob0 & d0 & a0 & H1 & H2 & H3 & H4 & W0).
  exists ob0, d0. do 3 (split; [assumption|]). exists a0, a. do 2 (split; [assumption|]). eapply walk_trans; [exact W0|]. apply walk_sym.
  revert W. apply walk_mono. intros c. apply fits_mono. intros v Hv. apply (rooms_air_of _ ob); [exact D| |exact Hob|exact (air_same s _ v Hi Ec Hv)].
  intros ob' Hob'. destruct (room_bounds n ctf st ob' L Hob') as (s2 & Hs2 & Ec2 & _). exists s2. split; [exact (in_use_shipped ctf s2 Hs2)|exact Ec2].
Qed.
Lemma way_mono (f g : cell -> Prop) d e : (forall v, f v -> g v) -> way_to f d e -> way_to g d e.
Proof. intros F (a & b & H1 & H2 & W). exists a, b. do 2 (split; [assumption|]). revert W. apply walk_mono. intros c. apply fits_mono. exact F. Qed.
Lemma added_entity sun ess (m m2 : rmap) es x : m_ents m2 = m_ents m ++ sun :: List.concat ess -> is_sun sun -> m_ents m2 = m_ents m ++ es -> In x es -> of_interest x ->
  In x (List.concat ess).
Proof.
  intros E1 IS E2 Hx OI. rewrite E1 in E2. apply app_inv_head in E2. subst es. destruct Hx as [<-|Hx]; [destruct (sun_plain sun IS OI)|exact Hx].
Qed.
Lemma world_entities fuel e hue vecs tm size n ctf rooms m g tm' w m2 st g' es : true_vectors vecs -> manager tm -> mirror_factor n -> good_env e ->
  generate fuel e hue vecs tm size (Some n) false ctf rooms m g = (tm', Ok (w, m2, st), g') -> m_ents m2 = m_ents m ++ es ->
  forall x, In x es -> of_interest x ->
  exists ob0 d0, In ob0 (u_rooms st) /\ (first_of n ctf (snd ob0) \/ is_gate (snd ob0)) /\ In d0 (doorways (snd ob0)) /\
    way_to (world_air w (u_rooms st)) d0 x.
Proof.
  intros TV M Hn G EG EE x Hx OI. destruct (generate_lays _ _ _ _ _ _ _ _ _ _ _ _ _ _ _ _ _ EG) as (g1 & E).
  destruct (generate_ok fuel e hue vecs tm size n ctf rooms m g st g1 TV M Hn G E)
    as (tm2 & w2 & m3 & g3 & sun & ess & EG2 & L & _ & IS & _ & (ME & _) & FA & _ & _ & _ & _ & _ & _ & B).
  assert (tm2 = tm' /\ w2 = w /\ m3 = m2) as (-> & -> & ->) by (split; [|split]; congruence).
  pose proof (added_entity sun ess m m2 es x ME IS EE Hx OI) as Hc.
  destruct (reach_entity n ctf fuel e rooms g st g1 hue ess Hn G E FA x Hc OI) as (ob0 & d0 & H1 & H2 & H3 & H4).
  exists ob0, d0. do 3 (split; [assumption|]). revert H4. apply way_mono. intros [[i j] k] [I1 N]. split; [exact I1|]. cbn [at_voxel].
  destruct (get_point w (I i) (I j) (I k)) as [tex|] eqn:GP; [|reflexivity]. apply B in GP as (ob & Hob & HB). exfalso. exact (N ob Hob (block_built _ _ _ _ HB)).
Qed.

(** ** The entities of the file *)
Lemma feq_scale s m e s' m' e' k : feq (PF s m e) (PF s' m' e') -> k <= e -> k <= e' -> m * 2 ^ (e - k) = m' * 2 ^ (e' - k).
Proof.
  intros [_ E] H H'. replace (e - k) with ((e - Z.min e e') + (Z.min e e' - k)) by lia. replace (e' - k) with ((e' - Z.min e e') + (Z.min e e' - k)) by lia.
  rewrite !Z.pow_add_r by lia. rewrite !Z.mul_assoc, E. reflexivity.
Qed.
Lemma feq_join a b c : feq a b -> feq a c -> feq b c.
Proof.
  destruct a as [s m e| |], b as [s' m' e'| |], c as [s2 m2 e2| |]; intros E E'; try (destruct E; fail); try (destruct E'; fail); try (cbn [feq] in *; congruence).
  pose proof E as [-> _]. pose proof E' as [-> _]. split; [reflexivity|]. set (k := Z.min e (Z.min e' e2)).
  apply (feq_scale _ _ _ _ _ _ k) in E; [|lia|lia]. apply (feq_scale _ _ _ _ _ _ k) in E'; [|lia|lia]. rewrite E in E'.
  apply (Z.mul_cancel_r _ _ (2 ^ (Z.min e' e2 - k))); [apply Z.pow_nonzero; lia|]. rewrite <- !Z.mul_assoc, <- !Z.pow_add_r by lia.
  replace (e' - Z.min e' e2 + (Z.min e' e2 - k)) with (e' - k) by lia. replace (e2 - Z.min e' e2 + (Z.min e' e2 - k)) with (e2 - k) by lia. exact E'.
Qed.
Lemma stands_same a b p k : same_entity a b -> stands a p k -> stands b p k.
Proof.
  intros (X & Y & Z & _). destruct p as [[x y] z]. intros (H1 & H2 & H3). split; [|split]; unfold coord_is in *; eapply feq_join; eassumption.
Qed.
Lemma meets_same a b c : same_entity a b -> meets c a -> meets c b.
Proof.
  intros S (x & y & z & St & H). exists x, y, z. split; [exact (stands_same a b _ _ S St)|]. destruct S as (_ & _ & _ & -> & _). exact H.
Qed.
Lemma file_entities k fuel fuelo e hue vecs tm n ctf rooms m ws g tm' w m2 st g' bs m' :
  true_vectors vecs -> byte_hues hue -> manager tm -> mirror_factor n -> good_env e ->
  (7 <= k)%nat -> (S k < fuelo)%nat -> wf_map m -> header_size m = Some ws -> 2 ^ Z.of_nat (S k) <= ws <= 8192 ->
  Z.of_nat (List.length (tm_atlas tm)) <= 57000 -> len (m_ents m) <= 2 ^ 30 ->
  generate fuel e hue vecs tm (2 ^ Z.of_nat (S k)) (Some n) false ctf rooms m g = (tm', Ok (w, m2, st), g') ->
  output_map fuelo w m2 = Ok bs -> read_rest bs = Ok (m', []) ->
  (forall ob c, In ob (u_rooms st) -> In c (positions (snd ob)) -> in_world (2 ^ Z.of_nat (S k) / 8) c) ->
  forall i x, (List.length (m_ents m) <= i)%nat -> nth_error (m_ents m') i = Some x -> of_interest x ->
  exists ob0 d0, In ob0 (u_rooms st) /\ (first_of n ctf (snd ob0) \/ is_gate (snd ob0)) /\ In d0 (doorways (snd ob0)) /\
    way_to (file_air (S k) m' (u_rooms st)) d0 x.
Proof.
  intros TV BH M Hn G Hk Hf WM HS Hws HA HE EG EO ER Hin i x Hi Hx OI.
  destruct (generate_lays _ _ _ _ _ _ _ _ _ _ _ _ _ _ _ _ _ EG) as (g1 & E).
  destruct (generated k fuel fuelo e hue vecs tm n ctf rooms m ws g st g1 TV BH M Hn G Hk Hf WM HS Hws HA HE E)
    as (tm2 & w2 & m3 & g3 & sun & ess & bs2 & m4 & EG2 & EO2 & ER2 & _ & _ & _ & B & EE & IS & FA & _ & SE).
  assert (tm2 = tm' /\ w2 = w /\ m3 = m2) as (-> & -> & ->) by (split; [|split]; congruence). assert (bs2 = bs) as -> by congruence. assert (m4 = m') as -> by congruence.
  assert (exists y, nth_error (m_ents m2) i = Some y /\ same_entity y x) as (y & Hy & SY).
  { clear - SE Hx. revert i Hx. induction SE as [|a b la lb H F IH]; intros [|i] Hx; try discriminate; cbn [nth_error] in *; [exists a; split; congruence|exact (IH i Hx)]. }
  assert (of_interest y) as OIy by (destruct SY as (_ & _ & _ & Ty & _); unfold of_interest in *; rewrite Ty in OI; exact OI).
  rewrite EE, nth_error_app2 in Hy by exact Hi. apply nth_error_In in Hy. destruct Hy as [<-|Hy]; [destruct (sun_plain sun IS OIy)|].
  destruct (reach_entity n ctf fuel e rooms g st g1 hue ess Hn G E FA y Hy OIy) as (ob0 & d0 & H1 & H2 & H3 & H4).
  exists ob0, d0. do 3 (split; [assumption|]). destruct H4 as (a & b & A1 & A2 & A3).
  apply (way_mono (rooms_air (u_rooms st))); [|exists a, b; split; [exact A1|]; split; [exact (meets_same _ _ _ SY A2)|exact A3]].
  intros [[u v] z] [I1 N]. split; [exact I1|].
  destruct I1 as (ob & Hob & [[p q] h] & Hc & Hv). specialize (Hin ob _ Hob Hc). cbn [in_world voxel_in_cell] in *.
  assert (2 ^ Z.of_nat (S k) = 8 * (2 ^ Z.of_nat (S k) / 8)) as E8.
  { replace (Z.of_nat (S k)) with (3 + (Z.of_nat k - 2)) by lia. rewrite Z.pow_add_r by lia. change (2 ^ 3) with 8.
    rewrite Z.mul_comm, Z.div_mul by lia. ring. }
  destruct (world_lookup (S k) m' u v z) as [tex|] eqn:GP; [|reflexivity]. apply B in GP as (ob' & Hob' & HB); try lia.
  exfalso. exact (N ob' Hob' (block_built _ _ _ _ HB)).
Qed.

(** ** Parts of a map nothing leads out of *)
Definition in_part (P : list cell) (v : cell) : Prop := exists c, In c P /\ voxel_in_cell v c.
Definition memb (c : cell) (l : list cell) : bool := existsb (cell_eqb c) l.
Lemma memb_in c l : memb c l = true <-> In c l.
Proof.
  unfold memb. rewrite existsb_exists. split; [intros (x & Hx & E); apply cell_eqb_eq in E; subst x; exact Hx|].
  intros H. exists c. split; [exact H|apply cell_eqb_refl].
Qed.
Lemma part_walk (air : cell -> Prop) P : (forall v v', air v -> air v' -> beside v v' -> in_part P v -> in_part P v') ->
  forall u u', walk air u u' -> in_part P u -> in_part P u'.
Proof.
  intros C u u'. induction 1 as [|u u1 u2 A Be W IH]; [auto|]. intros X. apply IH. exact (C u u1 A (proj1 (walk_ends _ _ _ W)) Be X).
Qed.
Definition cells_of (st : upm) : list cell := flat_map (fun ob => positions (snd ob)) (u_rooms st).
Lemma air_cell st v : rooms_air (u_rooms st) v -> exists c, In c (cells_of st) /\ voxel_in_cell v c.
Proof. intros [(ob & Hob & c & Hc & Hv) _]. exists c. split; [|exact Hv]. apply in_flat_map. exists ob. auto. Qed.
Lemma part_voxel P v c : in_part P v -> voxel_in_cell v c -> In c P.
Proof. intros (d & Hd & Hv) Hc. rewrite (same_cell v _ _ Hc Hv). exact Hd. Qed.
Lemma back_air tm n ctf st w : laid_out n ctf st ->
  (forall ob s v q a, In ob (u_rooms st) -> In s shipped_rooms -> s_class s = r_cls (snd ob) -> read_file (s_file s) = Ok v -> voxel_colour (vf_voxels v) q = Some a ->
     exists tex, has_block tm (snd ob) (frame (r_pos (snd ob)) (facing (r_turn (snd ob))) q) tex) ->
  (forall x y z tex, get_point w (I x) (I y) (I z) = Some tex <-> exists ob, In ob (u_rooms st) /\ has_block tm (snd ob) (x, y, z) tex) ->
  forall v, world_air w (u_rooms st) v -> rooms_air (u_rooms st) v.
Proof.
  intros L NB B [[x y] z] [I1 N]. split; [exact I1|]. intros ob Hob (s & f & q & a & H1 & H2 & H3 & H4 & H5). cbn [at_voxel] in N.
  destruct (NB ob s f q a Hob H1 H2 H3 H4) as (tex & HB). rewrite H5 in HB.
  assert (get_point w (I x) (I y) (I z) = Some tex) by (apply B; exists ob; auto). congruence.
Qed.

(** ** A spawn point behind a gate *)
Definition high_part : list cell := [(7, 7, 4); (7, 8, 4); (7, 9, 4); (7, 10, 4); (7, 11, 4)].
Definition gate_sealed (cells P : list cell) (p : cell) (t : turn) : bool :=
  let at_ c := cadd p (crot t c) in
  forallb (fun c => forallb (fun c' => memb c' P || negb (memb c' cells) || memb c' [at_ (0, 0, 0); at_ (2, 0, 0)] ||
    (cell_eqb c (at_ (1, 0, 1)) && cell_eqb c' (at_ (1, 0, 0)))) (ring c)) P.
Lemma gate_closed st og P p t : In og (u_rooms st) -> r_cls (snd og) = s_class castle_gate_simple -> r_pos (snd og) = p -> r_turn (snd og) = t ->
  gate_sealed (cells_of st) P p t = true ->
  forall v v', rooms_air (u_rooms st) v -> rooms_air (u_rooms st) v' -> beside v v' -> in_part P v -> in_part P v'.
Proof.
  intros Hog Ec Hp Ht GS v v' Av Av' B (c & Hc & Hv). destruct (air_cell st v' Av') as (c' & Hc' & Hv').
  destruct (next_cell v v' c c' Hv Hv' B) as [->|R]; [exists c; auto|].
  unfold gate_sealed in GS. rewrite forallb_forall in GS. specialize (GS c Hc). rewrite forallb_forall in GS. specialize (GS c' R). rewrite !Bool.orb_true_iff in GS.
  assert (forall v, built (room_of castle_gate_simple p t) v -> ~ rooms_air (u_rooms st) v) as NB.
  { intros u (s & f & q & k & H1 & H2 & H3 & H4 & H5) [_ NN]. apply (NN og Hog). exists s, f, q, k. rewrite (room_of_eq _ _ _ gate_shipped) in *.
    cbn [r_cls r_pos r_turn] in *. rewrite Hp, Ht, Ec. auto 6. }
  destruct GS as [[[GS|GS]|GS]|GS].
  - exists c'. split; [apply memb_in; exact GS|exact Hv'].
  - exfalso. apply Bool.negb_true_iff in GS. apply memb_in in Hc'. congruence.
  - exfalso. apply (NB v'); [|exact Av']. destruct gate_full as [G0 G2]. apply memb_in in GS as [GS|[GS|[]]]; rewrite <- GS in Hv'.
    + exact (full_built _ _ _ (0, 0, 0) v' gate_shipped G0 Hv').
    + exact (full_built _ _ _ (2, 0, 0) v' gate_shipped G2 Hv').
  - exfalso. apply Bool.andb_true_iff in GS as [G1 G2]. apply cell_eqb_eq in G1, G2. subst c c'. apply (NB v); [|exact Av].
    destruct v as [[x y] z], v' as [[x' y'] z'].
    assert (z = 8 * snd p + 8) as -> by (destruct p as [[i j] k], t; cbn [crot cadd snd voxel_in_cell beside] in *; lia).
    apply gate_blocked. exists (cadd p (crot t (1, 0, 1))). split; [|exact Hv]. rewrite (room_of_eq _ _ _ gate_shipped). unfold positions. cbn [r_cls r_pos r_turn r_flags].
    rewrite gate_cells. apply in_map_iff. exists (1, 0, 1). split; [reflexivity|]. cbn. auto 10.
Qed.
Definition lcg (s : Z) : rng := fun i => (((Z.of_nat i + 1) * (Z.of_nat i + s) * 7919 + s * 104729) mod 65537) / 7.
Definition is_turn (t t' : turn) : bool := match t, t' with T0, T0 | T1, T1 | T2, T2 | T3, T3 => true | _, _ => false end.
Lemma is_turn_eq t t' : is_turn t t' = true -> t = t'.
Proof. destruct t, t'; cbn; congruence. Qed.
Definition room_at (id : Z) (p : cell) (t : turn) (ob : obj) : bool := (rc_id (r_cls (snd ob)) =? id) && cell_eqb (r_pos (snd ob)) p && is_turn (r_turn (snd ob)) t.
Lemma room_at_ok id p t l : existsb (room_at id p t) l = true -> exists ob, In ob l /\ rc_id (r_cls (snd ob)) = id /\ r_pos (snd ob) = p /\ r_turn (snd ob) = t.
Proof.
  intros H. apply existsb_exists in H as (ob & Hob & H). unfold room_at in H. rewrite !Bool.andb_true_iff in H. destruct H as [[H1 H2] H3].
  apply Z.eqb_eq in H1. apply cell_eqb_eq in H2. apply is_turn_eq in H3. eauto.
Qed.
Definition lost_spawn (st : upm) : bool :=
  existsb (room_at 102 (7, 8, 3) T1) (u_rooms st) && existsb (room_at 128 (7, 7, 4) T1) (u_rooms st) &&
  gate_sealed (cells_of st) high_part (7, 8, 3) T1 &&
  forallb (fun d => negb (memb (sill d) high_part)) (doorways (mirror_room T0 (start_room false))).
Lemma lost_run : match lay_out 400 sample_env (Some 1) false false 6 (lcg 3) with (st, None, _) => lost_spawn st | _ => false end = true.
Proof. vm_compute. reflexivity. Qed.
Lemma spawn_id ctf : Forall (fun s => rc_id (s_class s) =? 128 = false \/ s = spawn_room) (in_use ctf).
Proof.
  destruct ctf; unfold in_use, first_room, possible_rooms, possible_endcaps; cbn [app];
    repeat (apply Forall_cons; [first [left; reflexivity | right; exact eq_refl]|]); apply Forall_nil.
Qed.
Lemma spawn_extras : s_extra spawn_room = [XLight (Unturned []) (I 1); XSpawn].
Proof. reflexivity. Qed.
Lemma lost_map hue vecs tm m : true_vectors vecs -> manager tm ->
  exists fuel e rooms g tm' w m2 st g' es, good_env e /\ generate fuel e hue vecs tm 256 (Some 1) false false rooms m g = (tm', Ok (w, m2, st), g') /\
    m_ents m2 = m_ents m ++ es /\ exists x, In x es /\ e_type x = 3 /\
    forall ob0 d0, In ob0 (u_rooms st) -> first_of 1 false (snd ob0) -> In d0 (doorways (snd ob0)) -> unreached (world_air w (u_rooms st)) d0 x.
Proof.
  intros TV M. pose proof lost_run as P. destruct (lay_out 400 sample_env (Some 1) false false 6 (lcg 3)) as [[st [x|]] g1] eqn:E; [discriminate|].
  destruct (generate_ok 400 sample_env hue vecs tm 256 1 false 6 m (lcg 3) st g1 TV M)
    as (tm' & w & m2 & g' & sun & ess & EG & L & _ & IS & _ & (ME & _) & FA & _ & _ & _ & _ & _ & [_ NB] & B); [left; reflexivity|exact sample_good|exact E|].
  exists 400%nat, sample_env, 6, (lcg 3), tm', w, m2, st, g', (sun :: List.concat ess). split; [exact sample_good|]. split; [exact EG|]. split; [exact ME|]. clear E EG.
  unfold lost_spawn in P. rewrite !Bool.andb_true_iff in P. destruct P as [[[P1 P2] P3] P4].
  apply room_at_ok in P1 as (og & Hog & Ig & Pg & Tg). apply room_at_ok in P2 as (os & Hos & Is & Ps & Ts).
  destruct (room_bounds 1 false st og L Hog) as (s & Hs & Ec & _). pose proof (gate_id false) as GI. rewrite Forall_forall in GI. destruct (GI s Hs) as [X|X].
  { rewrite Ec in Ig. rewrite Ig in X. discriminate. } subst s.
  destruct (room_bounds 1 false st os L Hos) as (s & Hs' & Ec' & _). pose proof (spawn_id false) as SI. rewrite Forall_forall in SI. destruct (SI s Hs') as [X|X].
  { rewrite Ec' in Is. rewrite Is in X. discriminate. } subst s.
  destruct (ess_in hue _ _ os FA Hos) as (es & (s & Es & A & St) & Sub). rewrite Ec', (shipped_of_self _ (in_use_shipped false _ Hs')) in Es.
  assert (s = spawn_room) as -> by congruence. rewrite spawn_extras in A, St.
  inversion A as [|? e1 ? es1 _ A1]; subst. inversion A1 as [|? e2 ? es2 Ae A2]; subst. inversion A2; subst.
  inversion St as [|? ? ? ? _ St1]; subst. inversion St1 as [|? ? ? ? Se St2]; subst. destruct Ae as (_ & _ & Ty & _), Se as (q & Hq & Sq).
  exists e2. split; [right; apply Sub; right; left; reflexivity|]. split; [exact Ty|].
  intros ob0 d0 _ (t & Ht & E0) Hd0. cbn in Ht. destruct Ht as [<-|[]]. rewrite E0 in Hd0. rewrite forallb_forall in P4. specialize (P4 d0 Hd0). apply Bool.negb_true_iff in P4.
  exists (t3add (corner (7, 7, 4)) (8, 8, 2)). rewrite Ps in Sq. destruct Hq as [<-|[]]. split; [exact Sq|]. intros a a' Ha Ha' W.
  apply walk_sym in W. apply (walk_mono _ _ _ _ (back_air tm' 1 false st w L NB B)) in W.
  apply (part_walk _ high_part (gate_closed st og high_part _ _ Hog Ec Pg Tg P3)) in W.
  - pose proof (part_voxel _ _ _ W Ha) as H. apply memb_in in H. congruence.
  - exists (7, 7, 4). split; [left; reflexivity|]. destruct a' as [[i j] k]. cbn [corner t3add around voxel_in_cell] in *. lia.
Qed.

(** ** Flags that are apart *)
Definition near (c d : cell) : bool :=
  let '(x, y, z) := c in let '(i, j, k) := d in (Z.abs (i - x) <=? 1) && (Z.abs (j - y) <=? 1) && (Z.abs (k - z) <=? 1).
Fixpoint flood (fuel : nat) (cells front acc : list cell) : list cell :=
  match fuel with
  | O => acc
  | S n => let '(a, b) := partition (fun c => existsb (near c) front) cells in match a with [] => acc | _ => flood n b a (a ++ acc) end
  end.
Definition part_of (st : upm) (r : room) : list cell :=
  match positions r with [] => [] | c :: _ => flood 1000 (filter (fun d => negb (cell_eqb c d)) (cells_of st)) [c] [c] end.
(** The parts around the bases: closed, with the base inside and the other bases outside. *)
Definition islands (st : upm) (bases : list room) : bool :=
  forallb (fun r => let P := part_of st r in
    forallb (fun c => memb c P) (positions r) && forallb (fun c => forallb (fun c' => if near c c' then memb c' P else true) (cells_of st)) P &&
    forallb (fun r' => is_turn (r_turn r) (r_turn r') || forallb (fun c => negb (memb c P)) (positions r')) bases) bases.
Definition split_run (n : Z) (s : Z) : bool :=
  match lay_out 3000 sample_env (Some n) false true 2 (lcg s) with
  | (st, None, _) => islands st (map (fun t => mirror_room t (start_room true)) (turns_of n))
  | _ => false
  end.
Lemma split_runs : split_run 2 5 = true /\ split_run 4 5 = true.
Proof. split; vm_compute; reflexivity. Qed.
Lemma near_sym c c' : near c c' = near c' c.
Proof. destruct c as [[a b] h], c' as [[a' b'] h']. cbn [near]. f_equal; [f_equal|]; lia. Qed.
Lemma near_in P st v' c : forallb (fun c => forallb (fun c' => if near c c' then memb c' P else true) (cells_of st)) P = true -> In c P -> 
  rooms_air (u_rooms st) v' -> (forall c', voxel_in_cell v' c' -> near c c' = true) -> in_part P v'.
Proof.
  intros F Hc A N. destruct (air_cell st v' A) as (c' & Hc' & Hv'). exists c'. split; [|exact Hv']. rewrite forallb_forall in F. specialize (F c Hc).
  rewrite forallb_forall in F. specialize (F c' Hc'). rewrite (N c' Hv') in F. apply memb_in. exact F.
Qed.
Lemma near_touch p c v c' : point_in_cell p c -> around p v -> voxel_in_cell v c' -> near c c' = true.
Proof.
  destruct p as [[x y] z], c as [[a b] h], v as [[i j] k], c' as [[a' b'] h']. cbn [point_in_cell around voxel_in_cell near].
  intros H1 H2 H3. rewrite !Bool.andb_true_iff. lia.
Qed.
Lemma near_beside v v' c c' : voxel_in_cell v c -> beside v v' -> voxel_in_cell v' c' -> near c c' = true.
Proof.
  destruct c as [[a b] h], v as [[i j] k], v' as [[i' j'] k'], c' as [[a' b'] h']. cbn [voxel_in_cell beside near].
  intros H1 H2 H3. rewrite !Bool.andb_true_iff. lia.
Qed.
Lemma islands_apart st bases r r' f f' : islands st bases = true -> (forall r, In r bases -> exists i, In (i, r) (u_rooms st)) ->
  In r bases -> In r' bases -> r_turn r <> r_turn r' -> flag_in r f -> flag_in r' f' -> apart (rooms_air (u_rooms st)) f f'.
Proof.
  intros IL BI Hr Hr' Ne (_ & p & d & Sp & Hd & Pd) (_ & p' & d' & Sp' & Hd' & Pd'). unfold islands in IL. rewrite forallb_forall in IL. specialize (IL r Hr).
  cbv zeta in IL. rewrite !Bool.andb_true_iff in IL. destruct IL as [[I1 I2] I3]. set (P := part_of st r) in *.
  rewrite forallb_forall in I1, I3. specialize (I1 d Hd). apply memb_in in I1. specialize (I3 r' Hr').
  apply Bool.orb_true_iff in I3 as [I3|I3]; [apply is_turn_eq in I3; congruence|]. rewrite forallb_forall in I3. specialize (I3 d' Hd'). apply Bool.negb_true_iff in I3.
  exists p, p'. split; [exact Sp|]. split; [exact Sp'|]. intros a a' Ha Ha' W. pose proof (proj1 (walk_ends _ _ _ W)) as A.
  assert (in_part P a) as Ia by (apply (near_in P st a d I2 I1 A); intros c'; exact (near_touch p d a c' Pd Ha)).
  apply (part_walk _ P) in W as (c & Hc & Hv); [| |exact Ia].
  - assert (In d' P) as X; [|apply memb_in in X; congruence]. rewrite forallb_forall in I2. specialize (I2 c Hc). rewrite forallb_forall in I2.
    assert (In d' (cells_of st)) as Hc' by (destruct (BI r' Hr') as (i & Hi); apply in_flat_map; exists (i, r'); auto).
    specialize (I2 d' Hc'). rewrite (near_sym c d'), (near_touch p' d' a' c Pd' Ha' Hv) in I2. apply memb_in. exact I2.
  - intros v v' _ Av B (c & Hc & Hv). apply (near_in P st v' c I2 Hc Av). intros c'. exact (near_beside v v' c c' Hv B).
Qed.
Lemma turns_differ n : mirror_factor n -> forall i j t t', nth_error (turns_of n) i = Some t -> nth_error (turns_of n) j = Some t' -> i <> j ->
  r_turn (mirror_room t (start_room true)) <> r_turn (mirror_room t' (start_room true)).
Proof.
  intros Hn i j t t' Hi Hj Ne X.
  assert (NoDup (map (fun t => r_turn (mirror_room t (start_room true))) (turns_of n))) as ND
    by (destruct Hn as [-> | [-> | ->]]; vm_compute; repeat (constructor; [cbn; intuition discriminate|]); constructor).
  apply Ne. apply (proj1 (NoDup_nth_error _) ND).
  - rewrite map_length. apply nth_error_Some. congruence.
  - rewrite (map_nth_error _ _ _ Hi), (map_nth_error _ _ _ Hj), X. reflexivity.
Qed.
Lemma F2_nth {A B} (R : A -> B -> Prop) l l' : Forall2 R l l' -> forall i b, nth_error l' i = Some b -> exists a, nth_error l i = Some a /\ R a b.
Proof. induction 1 as [|a b l l' H F IH]; intros [|i] x Hx; try discriminate; cbn [nth_error] in *; [exists a; split; congruence|exact (IH i x Hx)]. Qed.
Lemma F2_len {A B} (R : A -> B -> Prop) l l' : Forall2 R l l' -> List.length l = List.length l'.
Proof. induction 1 as [|a b l l' H F IH]; [reflexivity|]. cbn [List.length]. rewrite IH. reflexivity. Qed.
Lemma apart_mono (f g : cell -> Prop) e e' : (forall v, f v -> g v) -> apart g e e' -> apart f e e'.
Proof. intros F (p & p' & H1 & H2 & H). exists p, p'. split; [exact H1|]. split; [exact H2|]. intros a a' Ha Ha' W. apply (H a a' Ha Ha'). revert W. apply walk_mono. exact F. Qed.
Lemma apart_map hue vecs tm m n : true_vectors vecs -> manager tm -> n = 2 \/ n = 4 ->
  exists fuel e rooms g tm' w m2 st g' fs, good_env e /\ generate fuel e hue vecs tm 256 (Some n) false true rooms m g = (tm', Ok (w, m2, st), g') /\
    flags_of (m_ents m2) = flags_of (m_ents m) ++ fs /\ Z.of_nat (List.length fs) = n /\
    forall i j f f', nth_error fs i = Some f -> nth_error fs j = Some f' -> i <> j -> apart (world_air w (u_rooms st)) f f'.
Proof.
  intros TV M Hn. assert (mirror_factor n) as Hm by (destruct Hn as [-> | ->]; unfold mirror_factor; auto).
  assert (exists s, split_run n s = true) as (s & P) by (destruct split_runs as [S1 S2], Hn as [-> | ->]; [exists 5; exact S1|exists 5; exact S2]). unfold split_run in P.
  destruct (lay_out 3000 sample_env (Some n) false true 2 (lcg s)) as [[st [x|]] g1] eqn:E; [discriminate|].
  destruct (generate_ok 3000 sample_env hue vecs tm 256 n true 2 m (lcg s) st g1 TV M Hm sample_good E)
    as (tm' & w & m2 & g' & sun & ess & EG & L & _ & _ & _ & _ & _ & _ & _ & _ & _ & _ & [_ NB] & B).
  destruct (ctf_flags _ _ _ _ _ _ _ _ _ _ _ _ _ _ _ _ TV M Hm sample_good EG) as (bases & fs & BI & EB & EF & FF & _).
  exists 3000%nat, sample_env, 2, (lcg s), tm', w, m2, st, g', fs. split; [exact sample_good|]. split; [exact EG|]. split; [exact EF|]. clear E EG EF. split.
  { rewrite <- (F2_len _ _ _ FF), EB, map_length. destruct Hn as [-> | ->]; reflexivity. }
  intros i j f f' Hf Hf' Ne. apply (apart_mono _ _ _ _ (back_air tm' n true st w L NB B)).
  destruct (F2_nth _ _ _ FF i f Hf) as (r & Hr & Fr). destruct (F2_nth _ _ _ FF j f' Hf') as (r' & Hr' & Fr'). rewrite <- EB in P.
  refine (islands_apart st bases r r' f f' P BI (nth_error_In _ _ Hr) (nth_error_In _ _ Hr') _ Fr Fr').
  rewrite EB in Hr, Hr'. rewrite nth_error_map in Hr, Hr'.
  destruct (nth_error (turns_of n) i) as [t|] eqn:Ei; [|discriminate]. destruct (nth_error (turns_of n) j) as [t'|] eqn:Ej; [|discriminate].
  cbn [option_map] in Hr, Hr'. assert (r = mirror_room t (start_room true) /\ r' = mirror_room t' (start_room true)) as [-> ->] by (split; congruence).
  exact (turns_differ n Hm i j t t' Ei Ej Ne).
Qed.

(** ** From the flags to the doorways *)
Lemma flag_ways fuel e hue vecs tm size n rooms m g tm' w m2 st g' : true_vectors vecs -> manager tm -> mirror_factor n -> good_env e ->
  generate fuel e hue vecs tm size (Some n) false true rooms m g = (tm', Ok (w, m2, st), g') ->
  (forall ob, In ob (u_rooms st) -> ~ is_gate (snd ob)) ->
  exists fs, flags_of (m_ents m2) = flags_of (m_ents m) ++ fs /\
    forall ob d, In ob (u_rooms st) -> In d (doorways (snd ob)) -> exists f, In f fs /\ way_to (world_air w (u_rooms st)) d f.
Proof.
  intros TV M Hn G EG NG. destruct (generate_lays _ _ _ _ _ _ _ _ _ _ _ _ _ _ _ _ _ EG) as (g1 & E).
  destruct (generate_ok fuel e hue vecs tm size n true rooms m g st g1 TV M Hn G E)
    as (tm2 & w2 & m3 & g3 & sun & ess & EG2 & L & D & IS & _ & (ME & _) & FA & FF & _ & _ & _ & _ & _ & B).
  assert (tm2 = tm' /\ w2 = w /\ m3 = m2) as (-> & -> & ->) by (split; [|split]; congruence).
  exists (flags_of (List.concat ess)). rewrite ME. split.
  { unfold flags_of. rewrite filter_app. cbn [filter]. destruct IS as [-> _]. reflexivity. }
  intros ob d Hob Hd. destruct (world_reach fuel e hue vecs tm size n true rooms m g tm' w m2 st g' TV M Hn G EG ob d Hob Hd) as (ob0 & d0 & H1 & [H2|H2] & H3 & a0 & a & H4 & H5 & W); [|destruct (NG ob0 H1 H2)].
  destruct H2 as (t & Ht & E0). pose proof (first_shipped true) as Hi. change (first_room true) with station_flagroom in Hi.
  assert (r_cls (snd ob0) = s_class station_flagroom) as Ec by (rewrite E0; unfold start_room; rewrite (room_of_eq _ _ _ Hi); reflexivity).
  destruct (ess_in hue _ _ ob0 FA H1) as (es & (s & Es & A & St) & Sub). rewrite Ec, (shipped_of_self _ Hi) in Es. assert (s = station_flagroom) as -> by congruence.
  assert (exists x off, In x es /\ In (XFlag off) (s_extra station_flagroom) /\ asked_for hue (r_turn (snd ob0)) (XFlag off) x /\ stands_off (r_pos (snd ob0)) (r_turn (snd ob0)) (XFlag off) x) as (x & off & Hx & Hex & Ax & Sx).
  { assert (exists l off, s_extra station_flagroom = l ++ [XFlag off]) as (l & off & EX) by (eexists (firstn 4 (s_extra station_flagroom)), _; reflexivity). rewrite EX in A, St |- *.
    apply Forall2_app_inv_l in A as (e1 & e2 & A1 & A2 & ->). apply Forall2_app_inv_l in St as (e3 & e4 & S1 & S2 & EE).
    inversion A2 as [|? x ? es2 Ax A3]; subst. inversion A3; subst. inversion S2 as [|? x' ? es4 Sx S3]; subst. inversion S3; subst.
    apply app_inj_tail in EE as [_ <-]. exists x, off. split; [apply in_or_app; right; left; reflexivity|]. split; [apply in_or_app; right; left; reflexivity|]. split; assumption. }
  assert (e_type x = 14) as Ty by exact (proj1 (proj2 (proj2 Ax))).
  assert (of_interest x) as OI by (unfold of_interest; auto).
  pose proof classes_found as CF. rewrite Forall_forall in CF. specialize (CF _ Hi). rewrite (same_doorways _ _ Hi Ec) in H3.
  destruct (found_walk station_flagroom _ _ (XFlag off) x hue d0 a0 Hi CF Hex Ax Sx OI H3 H4) as (b & Mb & Wb).
  exists x. split; [unfold flags_of; apply filter_In; split; [exact (Sub x Hx)|rewrite Ty; reflexivity]|].
  exists a, b. split; [exact H5|]. split; [exact Mb|]. apply walk_sym. eapply walk_trans; [|exact W].
  revert Wb. apply walk_mono. intros c. apply fits_mono. intros v Hv. apply (air_same _ _ v Hi Ec) in Hv.
  assert (rooms_air (u_rooms st) v) as RA.
  { apply (rooms_air_of _ ob0); [exact D| |exact H1|exact Hv]. intros ob' Hob'. destruct (room_bounds n true st ob' L Hob') as (s2 & Hs2 & Ec2 & _).
    exists s2. split; [exact (in_use_shipped true s2 Hs2)|exact Ec2]. }
  destruct v as [[i j] k], RA as [I1 N]. split; [exact I1|]. cbn [at_voxel].
  destruct (get_point w (I i) (I j) (I k)) as [tex|] eqn:GP; [|reflexivity]. apply B in GP as (ob' & Hob' & HB). exfalso. exact (N ob' Hob' (block_built _ _ _ _ HB)).
Qed.

(** ** Spawn points *)
Definition spawnless (s : shipped) : bool := forallb (fun x => match x with XSpawn | XArms => false | _ => true end) (s_extra s).
Lemma use_spawns ctf : Forall (fun s => s = spawn_room \/ spawnless s = true /\ rc_id (s_class s) =? rc_id (s_class spawn_room) = false) (in_use ctf).
Proof.
  destruct ctf; unfold in_use, first_room, possible_rooms, possible_endcaps; cbn [app];
    repeat (apply Forall_cons; [first [left; exact eq_refl | right; split; vm_compute; reflexivity]|]); apply Forall_nil.
Qed.
Lemma spawns_app a b : spawns_of (a ++ b) = spawns_of a ++ spawns_of b.
Proof. apply filter_app. Qed.
Lemma no_spawns hue t l es : forallb (fun x => match x with XSpawn | XArms => false | _ => true end) l = true -> Forall2 (asked_for hue t) l es -> spawns_of es = [].
Proof.
  intros H F. induction F as [|x e l es A F IH]; [reflexivity|]. cbn [forallb] in H. apply Bool.andb_true_iff in H as [H1 H2]. unfold spawns_of. cbn [filter].
  destruct A as (_ & _ & A). replace (e_type e =? 3) with false; [exact (IH H2)|]. symmetry. apply Z.eqb_neq. destruct x; try discriminate H1; destruct A as [-> _]; lia.
Qed.
Lemma spawn_one hue ob es : r_cls (snd ob) = s_class spawn_room -> furnished_at hue ob es -> exists e, spawns_of es = [e] /\ inside_room (snd ob) e.
Proof.
  intros Ec (s & Es & A & St). assert (In spawn_room shipped_rooms) as Hi by (unfold shipped_rooms; member).
  rewrite Ec, (shipped_of_self _ Hi) in Es. assert (s = spawn_room) as -> by congruence. rewrite spawn_extras in A, St.
  inversion A as [|? e1 ? es1 A0 A1]; subst. inversion A1 as [|? e2 ? es2 Ae A2]; subst. inversion A2; subst.
  inversion St as [|? ? ? ? _ St1]; subst. inversion St1 as [|? ? ? ? Se St2]; subst. destruct A0 as (_ & _ & T1 & _), Ae as (_ & _ & Ty & _), Se as (q & Hq & Sq).
  exists e2. split; [unfold spawns_of; cbn [filter]; rewrite T1, Ty; reflexivity|]. destruct Hq as [<-|[]].
  exists (t3add (corner (r_pos (snd ob))) (8, 8, 2)), (r_pos (snd ob)). split; [exact Sq|]. split.
  - rewrite (same_positions _ _ Hi Ec), (room_of_eq _ _ _ Hi). unfold positions. cbn [r_cls r_pos r_turn r_flags]. apply in_map_iff. exists (0, 0, 0).
    split; [destruct (r_pos (snd ob)) as [[i j] k], (r_turn (snd ob)); cbn [crot cadd]; apply t3_eq; lia|]. vm_compute. auto.
  - destruct (r_pos (snd ob)) as [[i j] k]. cbn [corner t3add point_in_cell]. lia.
Qed.
Lemma spawn_count hue ctf : forall obs ess, (forall ob, In ob obs -> exists s, In s (in_use ctf) /\ r_cls (snd ob) = s_class s) -> Forall2 (furnished_at hue) obs ess ->
  Forall2 (fun ob x => inside_room (snd ob) x) (filter is_spawn_room obs) (spawns_of (List.concat ess)).
Proof.
  intros obs ess US F. induction F as [|ob es obs ess H F IH]; [constructor|]. cbn [List.concat]. rewrite spawns_app.
  specialize (IH (fun ob' Ho => US ob' (or_intror Ho))). destruct (US ob (or_introl eq_refl)) as (s & Hs & Ec).
  pose proof (use_spawns ctf) as FU. rewrite Forall_forall in FU. cbn [filter]. destruct (FU s Hs) as [->|[SL Id]].
  - replace (is_spawn_room ob) with true by (unfold is_spawn_room; rewrite Ec; symmetry; apply Z.eqb_refl).
    destruct (spawn_one hue ob es Ec H) as (e & -> & Ie). cbn [app]. constructor; [exact Ie|exact IH].
  - replace (is_spawn_room ob) with false by (unfold is_spawn_room; rewrite Ec; symmetry; exact Id).
    destruct H as (s' & Es & A & _). rewrite Ec, (shipped_of_self _ (in_use_shipped ctf s Hs)) in Es. assert (s' = s) as -> by congruence.
    rewrite (no_spawns hue _ _ es SL A). exact IH.
Qed.
Lemma spawn_rooms fuel e hue vecs tm size n ctf rooms m g tm' w m2 st g' : true_vectors vecs -> manager tm -> mirror_factor n -> good_env e ->
  generate fuel e hue vecs tm size (Some n) false ctf rooms m g = (tm', Ok (w, m2, st), g') ->
  exists ss, spawns_of (m_ents m2) = spawns_of (m_ents m) ++ ss /\ Forall2 (fun ob x => inside_room (snd ob) x) (filter is_spawn_room (u_rooms st)) ss.
Proof.
  intros TV M Hn G EG. destruct (generate_lays _ _ _ _ _ _ _ _ _ _ _ _ _ _ _ _ _ EG) as (g1 & E).
  destruct (generate_ok fuel e hue vecs tm size n ctf rooms m g st g1 TV M Hn G E)
    as (tm2 & w2 & m3 & g3 & sun & ess & EG2 & L & _ & IS & _ & (ME & _) & FA & _).
  assert (m3 = m2) as -> by congruence. exists (spawns_of (List.concat ess)). rewrite ME, spawns_app. split.
  - f_equal. unfold spawns_of. cbn [filter]. destruct IS as [-> _]. reflexivity.
  - apply (spawn_count hue ctf); [|exact FA]. intros ob Hob. destruct (room_bounds n ctf st ob L Hob) as (s & Hs & Ec & _). eauto.
Qed.
Definition empty_run (n : Z) : bool :=
  match lay_out 3000 sample_env (Some n) false true 40 two with
  | (st, None, _) => forallb (fun ob => negb (is_spawn_room ob)) (u_rooms st) && (100 <? List.length (u_rooms st))%nat
  | _ => false
  end.
Lemma empty_runs : empty_run 2 = true /\ empty_run 4 = true.
Proof. split; vm_compute; reflexivity. Qed.
Lemma filter_none {A} (f : A -> bool) l : forallb (fun a => negb (f a)) l = true -> filter f l = [].
Proof. induction l as [|a l IH]; [reflexivity|]. cbn [forallb filter]. intros H. apply Bool.andb_true_iff in H as [H1 H2]. destruct (f a); [discriminate|auto]. Qed.
Lemma empty_map hue vecs tm m n : true_vectors vecs -> manager tm -> n = 2 \/ n = 4 ->
  exists fuel e g tm' w m2 st g', good_env e /\ generate fuel e hue vecs tm 256 (Some n) false true 40 m g = (tm', Ok (w, m2, st), g') /\
    (100 < List.length (u_rooms st))%nat /\ spawns_of (m_ents m2) = spawns_of (m_ents m).
Proof.
  intros TV M Hn. assert (mirror_factor n) as Hm by (destruct Hn as [-> | ->]; unfold mirror_factor; auto).
  assert (empty_run n = true) as P by (destruct empty_runs as [S1 S2], Hn as [-> | ->]; [exact S1|exact S2]). unfold empty_run in P.
  destruct (lay_out 3000 sample_env (Some n) false true 40 two) as [[st [x|]] g1] eqn:E; [discriminate|].
  destruct (generate_ok 3000 sample_env hue vecs tm 256 n true 40 m two st g1 TV M Hm sample_good E) as (tm' & w & m2 & g' & sun & ess & EG & _).
  exists 3000%nat, sample_env, two, tm', w, m2, st, g'. split; [exact sample_good|]. split; [exact EG|].
  apply Bool.andb_true_iff in P as [P1 P2]. split; [apply Nat.ltb_lt; exact P2|].
  destruct (spawn_rooms _ _ _ _ _ _ _ _ _ _ _ _ _ _ _ _ TV M Hm sample_good EG) as (ss & -> & F). rewrite (filter_none _ _ P1) in F. inversion F. apply app_nil_r.
Qed.
