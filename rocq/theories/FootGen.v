(** Proofs about crossing generated maps on foot. *)
From Verif Require Import Py VecModel VecSpec VecProofs VoxelModel VoxelSpec CodecModel CodecSpec OutModel OutSpec
  UpmModel UpmSpec UpmProofs UpmTrace UpmInv UpmMore UpmMore2 UpmFinal KitModel KitSpec KitProofs KitTile RoomModel MagicaModel RoomSpec RoomProofs MagicaProofs
  TexModel TexSpec LightModel LightSpec VoxFileModel ShippedModel ShippedSpec ShippedProofs ShippedDraw GenModel GenSpec GenLayout GenDraw GenProofs
  PassSpec PassCheck PassProofs PassGen FootSpec FootCheck FootProofs FootRooms.
Local Open Scope Z_scope.

(** ** Doorways that face each other *)
Definition firm (air block : cell -> Prop) (a : cell) : Prop := fits air a /\ forall v, under a v -> block v.
Lemma firm_stands air block a : firm air block a -> stands air block a.
Proof. intros [F U]. split; [exact F|]. destruct a as [[x y] z]. exists (x, y, z - 1). split; [cbn [under]; lia|]. apply U. cbn [under]. lia. Qed.
Lemma firm_mono (air air' block block' : cell -> Prop) a : (forall v, air v -> air' v) -> (forall v, block v -> block' v) -> firm air block a -> firm air' block' a.
Proof. intros A B [F U]. split; [exact (fits_mono _ _ _ A F)|]. intros v Hv. auto. Qed.
Lemma flat_hop air block x y z i j : Z.abs (i - x) + Z.abs (j - y) = 1 -> fits air (x, y, z) -> stands air block (i, j, z) ->
  hop air block 0 (x, y, z) (i, j, z).
Proof.
  intros D F S. split; [exact S|]. split; [exact D|]. exists z. split; [lia|]. split; [lia|]. split; intros u Hu; replace u with z by lia; [exact F|exact (proj1 S)].
Qed.
Lemma cross_foot air block d o e : side (d, o) = true ->
  firm air block (threshold (d, o) e 1) -> firm air block (threshold (csub d o, opposite o) (- e) 1) ->
  hike air block 0 (threshold (d, o) e 1) (threshold (csub d o, opposite o) (- e) 1).
Proof.
  intros S A B. destruct d as [[x y] z], o as [[a b] h].
  assert ((a = 1 \/ a = -1) /\ b = 0 /\ h = 0 \/ a = 0 /\ (b = 1 \/ b = -1) /\ h = 0) as C
    by (unfold side in S; cbn [snd] in S; apply Bool.andb_true_iff in S; lia).
  set (m1 := 8 * x + 3 - 4 * a - e * b). set (m2 := 8 * y + 3 - 4 * b + e * a).
  match goal with |- hike _ _ _ ?p _ => assert (p = (8 * (x - a) + 3 + 3 * a - e * b, 8 * (y - b) + 3 + 3 * b + e * a, 8 * z + 1)) as EA end.
  { unfold threshold, doorstep, sill. cbn [fst snd csub cadd]. apply t3_eq; lia. }
  match goal with |- hike _ _ _ _ ?p => assert (p = (8 * x + 3 - 3 * a - e * b, 8 * y + 3 - 3 * b + e * a, 8 * z + 1)) as EB end.
  { unfold threshold, doorstep, sill. cbn [fst snd csub cadd opposite]. apply t3_eq; lia. }
  rewrite EA, EB. rewrite EA in A. rewrite EB in B. clear EA EB.
  assert (firm air block (m1, m2, 8 * z + 1)) as M.
  { destruct A as [FA UA], B as [FB UB]. split.
    - intros [[i j] k] Hv.
      assert (in_body (8 * (x - a) + 3 + 3 * a - e * b, 8 * (y - b) + 3 + 3 * b + e * a, 8 * z + 1) (i, j, k) \/
              in_body (8 * x + 3 - 3 * a - e * b, 8 * y + 3 - 3 * b + e * a, 8 * z + 1) (i, j, k)) as [H|H]
        by (subst m1 m2; cbn [in_body] in *; lia); [exact (FA _ H)|exact (FB _ H)].
    - intros [[i j] k] Hv.
      assert (under (8 * (x - a) + 3 + 3 * a - e * b, 8 * (y - b) + 3 + 3 * b + e * a, 8 * z + 1) (i, j, k) \/
              under (8 * x + 3 - 3 * a - e * b, 8 * y + 3 - 3 * b + e * a, 8 * z + 1) (i, j, k)) as [H|H]
        by (subst m1 m2; cbn [under] in *; lia); [exact (UA _ H)|exact (UB _ H)]. }
  eapply HHop; [apply firm_stands; exact A|apply flat_hop; [|exact (proj1 A)|apply firm_stands; exact M]; subst m1 m2; lia|].
  eapply HHop; [apply firm_stands; exact M|apply flat_hop; [|exact (proj1 M)|apply firm_stands; exact B]; subst m1 m2; lia|].
  constructor. apply firm_stands. exact B.
Qed.

(** ** Rooms of a map *)
Definition rooms_block (l : list obj) (v : cell) : Prop := exists ob, In ob l /\ built (snd ob) v.
Lemma built_same s r v : In s shipped_rooms -> r_cls r = s_class s -> built (room_of s (r_pos r) (r_turn r)) v -> built r v.
Proof.
  intros Hs Ec (s' & f & q & a & H1 & H2 & H3 & H4 & H5). rewrite (room_of_eq s _ _ Hs) in *. cbn [r_cls r_pos r_turn] in *.
  exists s', f, q, a. rewrite Ec. auto 6.
Qed.
Lemma use_foot ctf : Forall (fun s => s = castle_gate_simple \/ crossed s 11 (hikes_of s) = true /\ all_near (ground_of s) = true /\ even_doors s = true) (in_use ctf).
Proof.
  destruct ctf; unfold in_use, first_room, possible_rooms, possible_endcaps; cbn [app];
    repeat (apply Forall_cons; [first [left; exact eq_refl | right; split; [vm_compute; reflexivity|split; vm_compute; reflexivity]]|]); apply Forall_nil.
Qed.
Definition steps_one (s : shipped) : bool :=
  let g := ground_of s in let st := sets g in
  if all_near g then forallb (fun d => if room_for st (threshold d 1 1) then forallb (fun o => has (snd st) (cadd (threshold d 1 1) o)) soles else false) (doors_of s)
  else false.
Lemma steps_firm s p t d : In s shipped_rooms -> steps_one s = true -> In d (doorways (room_of s p t)) ->
  firm (room_air (room_of s p t)) (built (room_of s p t)) (threshold d 1 1).
Proof.
  intros Hs G Hd. rewrite (doorways_move _ p t Hs) in Hd. apply in_map_iff in Hd as (d0 & <- & Hd). fold (doors_of s) in Hd.
  unfold steps_one in G. cbv zeta in G. destruct (all_near (ground_of s)) eqn:N; [|discriminate].
  pose proof (class_ground _ Hs N) as GR. rewrite forallb_forall in G. specialize (G d0 Hd).
  destruct (room_for (sets (ground_of s)) (threshold d0 1 1)) eqn:F; [|discriminate]. apply (room_for_iff _ _ _ _ N GR) in F.
  rewrite carry_threshold. split; [apply (fits_iff _ p t _ Hs); exact F|]. intros v Hv. apply carry_under in Hv as (q & Hq & <-). apply (built_iff _ p t q Hs).
  apply soles_iff in Hq as (o & Ho & ->). rewrite forallb_forall in G. apply (has_block_iff _ _ _ _ N GR). exact (G o Ho).
Qed.
Lemma gate_steps : steps_one castle_gate_simple = true.
Proof. vm_compute. reflexivity. Qed.
Lemma gate_firm p t d : In d (doorways (room_of castle_gate_simple p t)) ->
  firm (room_air (room_of castle_gate_simple p t)) (built (room_of castle_gate_simple p t)) (threshold d 1 1).
Proof. exact (steps_firm castle_gate_simple p t d gate_shipped gate_steps). Qed.
Lemma level_firm s p t d e : In s shipped_rooms -> all_near (ground_of s) = true -> even_doors s = true -> In d (doorways (room_of s p t)) -> In e [0; 1; -1] ->
  firm (room_air (room_of s p t)) (built (room_of s p t)) (threshold d e 1).
Proof.
  intros Hs N E Hd He. rewrite (doorways_move s p t Hs) in Hd. apply in_map_iff in Hd as (d0 & <- & Hd).
  assert (level_doorway (room_of s (0, 0, 0) T0) d0) as L.
  { apply (even_iff s d0 Hs N). unfold even_doors in E. cbv zeta in E. rewrite forallb_forall in E. exact (E d0 Hd). }
  apply (level_iff s p t d0 Hs) in L. exact (L e He).
Qed.

Lemma foot_lemma n ctf fuel e rooms g st g' : mirror_factor n -> good_env e -> lay_out fuel e (Some n) false ctf rooms g = (st, None, g') ->
  forall ob d, In ob (u_rooms st) -> In d (doorways (snd ob)) ->
  exists ob0 d0, In ob0 (u_rooms st) /\ (first_of n ctf (snd ob0) \/ is_gate (snd ob0)) /\ In d0 (doorways (snd ob0)) /\
    hike (rooms_air (u_rooms st)) (rooms_block (u_rooms st)) 11 (threshold d0 1 1) (threshold d 1 1).
Proof.
  intros Hn G E. destruct (lay_out_run n ctf fuel e rooms g st g' Hn G E) as (g1 & U & L). destruct (rooms_disjoint_lemma _ _ _ U) as [D _].
  destruct (lay_out_joined n ctf fuel e rooms g st g' Hn G E) as (old & caps & ER & J1 & J2).
  assert (forall ob, In ob (u_rooms st) -> exists s, In s (in_use ctf) /\ r_cls (snd ob) = s_class s) as US.
  { intros ob Hob. destruct (room_bounds n ctf st ob L Hob) as (s & Hs & Ec & _). eauto. }
  assert (forall ob, In ob (u_rooms st) -> exists s, In s shipped_rooms /\ r_cls (snd ob) = s_class s) as SH.
  { intros ob Hob. destruct (US ob Hob) as (s & Hs & Ec). exists s. split; [exact (in_use_shipped ctf s Hs)|exact Ec]. }
  set (air := rooms_air (u_rooms st)). set (block := rooms_block (u_rooms st)).
  (* what the rooms contribute *)
  assert (forall ob s, In ob (u_rooms st) -> In s shipped_rooms -> r_cls (snd ob) = s_class s ->
    (forall v, room_air (room_of s (r_pos (snd ob)) (r_turn (snd ob))) v -> air v) /\ (forall v, built (room_of s (r_pos (snd ob)) (r_turn (snd ob))) v -> block v)) as UP.
  { intros ob s Hob Hs Ec. split; intros v Hv.
    - apply (rooms_air_of (u_rooms st) ob v D SH Hob). exact (air_same s _ v Hs Ec Hv).
    - exists ob. split; [exact Hob|]. exact (built_same s _ v Hs Ec Hv). }
  assert (forall ob, In ob (u_rooms st) -> (is_gate (snd ob) /\ forall d, In d (doorways (snd ob)) -> firm air block (threshold d 1 1)) \/
    ~ is_gate (snd ob) /\ (forall d e, In d (doorways (snd ob)) -> In e [0; 1; -1] -> firm air block (threshold d e 1)) /\
    forall d d' e e', In d (doorways (snd ob)) -> In d' (doorways (snd ob)) -> In e [0; 1; -1] -> In e' [0; 1; -1] ->
      hike air block 11 (threshold d e 1) (threshold d' e' 1)) as KIND.
  { intros ob Hob. destruct (US ob Hob) as (s & Hs & Ec). pose proof (in_use_shipped ctf s Hs) as Hi. destruct (UP ob s Hob Hi Ec) as [UA UB].
    pose proof (use_foot ctf) as F. rewrite Forall_forall in F. destruct (F s Hs) as [->|(C & N & Ev)].
    - left. split; [exact Ec|]. intros d Hd. rewrite (same_doorways _ _ Hi Ec) in Hd. exact (firm_mono _ _ _ _ _ UA UB (gate_firm _ _ d Hd)).
    - right. split.
      { intros X. unfold is_gate in X. assert (s = castle_gate_simple) as -> by (apply same_shipped; [exact Hi|exact gate_shipped|congruence]).
        vm_compute in C. discriminate. }
      rewrite (same_doorways s _ Hi Ec). set (r := room_of s (r_pos (snd ob)) (r_turn (snd ob))) in *.
      assert (forall d e, In d (doorways r) -> In e [0; 1; -1] -> firm (room_air r) (built r) (threshold d e 1)) as FI.
      { intros d e' Hd He. exact (level_firm s _ _ d e' Hi N Ev Hd He). }
      split; [intros d e' Hd He; exact (firm_mono _ _ _ _ _ UA UB (FI d e' Hd He))|].
      intros d d' e1 e2 Hd Hd' He He'. apply (hike_mono _ _ _ _ 11 11 _ _ UA UB); [lia|].
      apply (crossed_ok s 11 _ Hi) in C as [C _]. apply (on_foot_iff s (r_pos (snd ob)) (r_turn (snd ob)) 11 Hi) in C. destruct C as [_ C].
      apply (C d d' 1 1); try assumption; try lia; [exists e1|exists e2]; (split; [assumption|]); (split; [reflexivity|]); apply firm_stands; apply FI; assumption. }
  set (goal := fun d : door => exists ob0 d0, In ob0 (u_rooms st) /\ (first_of n ctf (snd ob0) \/ is_gate (snd ob0)) /\ In d0 (doorways (snd ob0)) /\
    hike air block 11 (threshold d0 1 1) (threshold d 1 1)).
  (* a gate is reached from itself *)
  assert (forall ob d, In ob (u_rooms st) -> is_gate (snd ob) \/ first_of n ctf (snd ob) -> In d (doorways (snd ob)) -> goal d) as SELF.
  { intros ob d Hob K Hd. exists ob, d. split; [exact Hob|]. split; [tauto|]. split; [exact Hd|]. constructor. apply firm_stands.
    destruct (KIND ob Hob) as [[_ F]|(_ & F & _)]; [exact (F d Hd)|]. apply F; [exact Hd|cbn; auto]. }
  (* a room whose neighbour is reached *)
  assert (forall ob ob', In ob (u_rooms st) -> In ob' (u_rooms st) -> faces (snd ob) (snd ob') ->
    (forall d, In d (doorways (snd ob')) -> goal d) -> forall d, In d (doorways (snd ob)) -> goal d) as NEXT.
  { intros ob ob' Hob Hob' (d1 & o1 & F1 & F2) IH d Hd.
    destruct (KIND ob Hob) as [[Gt _]|(_ & FI & WK)]; [apply (SELF ob d Hob); [left; exact Gt|exact Hd]|].
    destruct (IH _ F1) as (ob0 & d0 & H1 & H2 & H3 & H4). exists ob0, d0. do 3 (split; [assumption|]). eapply hike_trans; [exact H4|].
    destruct (US ob' Hob') as (s' & Hs' & Ec'). destruct (use_side ctf s' _ _ Hs' Ec' F1) as [SD _].
    eapply hike_trans; [|exact (WK _ d (- (1)) 1 F2 Hd ltac:(cbn; auto) ltac:(cbn; auto))].
    apply (hike_mono air air block block 0 11); [auto|auto|lia|]. apply cross_foot; [exact SD| |apply FI; [exact F2|cbn; auto]].
    destruct (KIND ob' Hob') as [[_ F]|(_ & F & _)]; [exact (F _ F1)|]. apply F; [exact F1|cbn; auto]. }
  assert (forall k ob, (fst ob < k)%nat -> In ob old -> forall d, In d (doorways (snd ob)) -> goal d) as OLD.
  { induction k as [|k IH]; intros ob Lk Hob d Hd; [lia|].
    assert (In ob (u_rooms st)) as Hob' by (rewrite ER; apply in_or_app; left; exact Hob).
    destruct (J1 ob Hob) as [Fi|(ob' & Ho & Lt & Fa)]; [apply (SELF ob d Hob'); [right; exact Fi|exact Hd]|].
    refine (NEXT ob ob' Hob' _ Fa _ d Hd); [rewrite ER; apply in_or_app; left; exact Ho|]. intros d1. apply (IH ob'); [lia|exact Ho]. }
  intros ob d Hob Hd. fold (goal d). pose proof Hob as Hob'. rewrite ER in Hob. apply in_app_or in Hob as [Ho|Ho].
  - exact (OLD (S (fst ob)) ob (Nat.lt_succ_diag_r _) Ho d Hd).
  - destruct (J2 ob Ho) as (ob' & Ho' & Fa). refine (NEXT ob ob' Hob' _ Fa _ d Hd); [rewrite ER; apply in_or_app; left; exact Ho'|].
    intros d1. exact (OLD (S (fst ob')) ob' (Nat.lt_succ_diag_r _) Ho' d1).
Qed.

(** ** The generated world and its file *)
Lemma foot_from n ctf fuel e rooms g st g' (air block : cell -> Prop) : mirror_factor n -> good_env e -> lay_out fuel e (Some n) false ctf rooms g = (st, None, g') ->
  (forall v, rooms_air (u_rooms st) v -> air v) -> (forall v, rooms_block (u_rooms st) v -> block v) ->
  forall ob d, In ob (u_rooms st) -> In d (doorways (snd ob)) ->
  exists ob0 d0, In ob0 (u_rooms st) /\ (first_of n ctf (snd ob0) \/ is_gate (snd ob0)) /\ In d0 (doorways (snd ob0)) /\ hikes air block 11 d0 d.
Proof.
  intros Hn G E A B ob d Hob Hd. destruct (foot_lemma n ctf fuel e rooms g st g' Hn G E ob d Hob Hd) as (ob0 & d0 & H1 & H2 & H3 & H4).
  exists ob0, d0. do 3 (split; [assumption|]). exists 1, 1, 1, 1. split; [cbn; auto|]. split; [cbn; auto|]. split; [lia|]. split; [lia|].
  exact (hike_mono _ _ _ _ 11 11 _ _ A B (Z.le_refl 11) H4).
Qed.
Lemma world_foot fuel e hue vecs tm size n ctf rooms m g tm' w m2 st g' : true_vectors vecs -> manager tm -> mirror_factor n -> good_env e ->
  generate fuel e hue vecs tm size (Some n) false ctf rooms m g = (tm', Ok (w, m2, st), g') ->
  forall ob d, In ob (u_rooms st) -> In d (doorways (snd ob)) ->
  exists ob0 d0, In ob0 (u_rooms st) /\ (first_of n ctf (snd ob0) \/ is_gate (snd ob0)) /\ In d0 (doorways (snd ob0)) /\
    hikes (world_air w (u_rooms st)) (world_block w) 11 d0 d.
Proof.
  intros TV M Hn G EG. destruct (generate_lays _ _ _ _ _ _ _ _ _ _ _ _ _ _ _ _ _ EG) as (g1 & E).
  destruct (generate_ok fuel e hue vecs tm size n ctf rooms m g st g1 TV M Hn G E)
    as (tm2 & w2 & m3 & g3 & sun & ess & EG2 & L & _ & _ & _ & _ & _ & _ & _ & _ & _ & _ & [_ NB] & B).
  assert (tm2 = tm' /\ w2 = w) as (-> & ->) by (split; congruence).
  apply (foot_from n ctf fuel e rooms g st g1 _ _ Hn G E).
  - intros [[x y] z] [I1 N]. split; [exact I1|]. cbn [at_voxel].
    destruct (get_point w (I x) (I y) (I z)) as [tex|] eqn:GP; [|reflexivity]. apply B in GP as (ob & Hob & HB). exfalso. exact (N ob Hob (block_built _ _ _ _ HB)).
  - intros [[x y] z] (ob & Hob & s & f & q & a & H1 & H2 & H3 & H4 & H5). destruct (NB ob s f q a Hob H1 H2 H3 H4) as (tex & HB). rewrite H5 in HB.
    unfold world_block. cbn [at_voxel]. assert (get_point w (I x) (I y) (I z) = Some tex) as -> by (apply B; exists ob; auto). discriminate.
Qed.
Lemma file_foot k fuel fuelo e hue vecs tm n ctf rooms m ws g tm' w m2 st g' bs m' :
  true_vectors vecs -> byte_hues hue -> manager tm -> mirror_factor n -> good_env e ->
  (7 <= k)%nat -> (S k < fuelo)%nat -> wf_map m -> header_size m = Some ws -> 2 ^ Z.of_nat (S k) <= ws <= 8192 ->
  Z.of_nat (List.length (tm_atlas tm)) <= 57000 -> len (m_ents m) <= 2 ^ 30 ->
  generate fuel e hue vecs tm (2 ^ Z.of_nat (S k)) (Some n) false ctf rooms m g = (tm', Ok (w, m2, st), g') ->
  output_map fuelo w m2 = Ok bs -> read_rest bs = Ok (m', []) ->
  (forall ob c, In ob (u_rooms st) -> In c (positions (snd ob)) -> in_world (2 ^ Z.of_nat (S k) / 8) c) ->
  forall ob d, In ob (u_rooms st) -> In d (doorways (snd ob)) ->
  exists ob0 d0, In ob0 (u_rooms st) /\ (first_of n ctf (snd ob0) \/ is_gate (snd ob0)) /\ In d0 (doorways (snd ob0)) /\
    hikes (file_air (S k) m' (u_rooms st)) (file_block (S k) m') 11 d0 d.
Proof.
  intros TV BH M Hn G Hk Hf WM HS Hws HA HE EG EO ER Hin.
  destruct (generate_lays _ _ _ _ _ _ _ _ _ _ _ _ _ _ _ _ _ EG) as (g1 & E).
  destruct (generate_ok fuel e hue vecs tm (2 ^ Z.of_nat (S k)) n ctf rooms m g st g1 TV M Hn G E)
    as (tm0 & w0 & m0 & g0 & sun0 & ess0 & EG0 & L & _ & _ & _ & _ & _ & _ & _ & _ & _ & _ & [_ NB] & _).
  assert (tm0 = tm') as -> by congruence.
  destruct (generated k fuel fuelo e hue vecs tm n ctf rooms m ws g st g1 TV BH M Hn G Hk Hf WM HS Hws HA HE E)
    as (tm2 & w2 & m3 & g3 & sun & ess & bs2 & m4 & EG2 & EO2 & ER2 & _ & _ & _ & B & _).
  assert (tm2 = tm' /\ w2 = w /\ m3 = m2) as (-> & -> & ->) by (split; [|split]; congruence). assert (bs2 = bs) as -> by congruence. assert (m4 = m') as -> by congruence.
  assert (2 ^ Z.of_nat (S k) = 8 * (2 ^ Z.of_nat (S k) / 8)) as E8.
  { replace (Z.of_nat (S k)) with (3 + (Z.of_nat k - 2)) by lia. rewrite Z.pow_add_r by lia. change (2 ^ 3) with 8.
    rewrite Z.mul_comm, Z.div_mul by lia. ring. }
  apply (foot_from n ctf fuel e rooms g st g1 _ _ Hn G E).
  - intros [[x y] z] [I1 N]. split; [exact I1|].
    destruct I1 as (ob & Hob & [[a b] h] & Hc & Hv). specialize (Hin ob _ Hob Hc). cbn [in_world voxel_in_cell] in *.
    destruct (world_lookup (S k) m' x y z) as [tex|] eqn:GP; [|reflexivity]. apply B in GP as (ob' & Hob' & HB); try lia.
    exfalso. exact (N ob' Hob' (block_built _ _ _ _ HB)).
  - intros [[x y] z] (ob & Hob & Hb). pose proof Hb as (s & f & q & a & H1 & H2 & H3 & H4 & H5). destruct (NB ob s f q a Hob H1 H2 H3 H4) as (tex & HB). rewrite H5 in HB.
    destruct (room_bounds n ctf st ob L Hob) as (s0 & Hs0 & Ec0 & _).
    destruct (built_in _ s0 (x, y, z) (in_use_shipped ctf s0 Hs0) Ec0 Hb) as ([[c1 c2] c3] & Hc & Hv). specialize (Hin ob _ Hob Hc). cbn [in_world voxel_in_cell] in *.
    unfold file_block. assert (world_lookup (S k) m' x y z = Some tex) as -> by (apply B; [lia|lia|lia|exists ob; auto]). discriminate.
Qed.

(** ** A map that needs high steps *)
Definition room_voxels (r : room) : list cell :=
  match shipped_of (r_cls r) with
  | Some s => map (frame (r_pos r) (facing (r_turn r))) (snd (ground_of s))
  | None => []
  end.
Definition map_ground (l : list obj) : list cell * list cell := (flat_map (fun ob => positions (snd ob)) l, flat_map (fun ob => room_voxels (snd ob)) l).
Definition foot_parted (h : nat) (l : list obj) (starts : list door) : bool :=
  let g := map_ground l in
  if all_near g then
    let st := sets g in let next := hops (room_for st) (rests st) h in
    match flat_map (places (rests st)) starts with
    | a :: ps =>
        let reached := reach next a in let s := set_of reached in
        if forallb (has s) (a :: ps) then
          if closed next reached then existsb (fun ob => existsb (fun d => forallb (fun b => negb (has s b)) (places (rests st) d)) (doorways (snd ob))) l else false
        else false
    | [] => false
    end
  else false.
Definition ones : rng := fun _ => 1.
Lemma foot_run : match lay_out 100 sample_env (Some 1) false false 1 ones with
  | (st, None, _) => if foot_parted 10 (u_rooms st) (doorways (mirror_room T0 (start_room false))) then
                       forallb (fun ob => negb (rc_id (r_cls (snd ob)) =? rc_id (s_class castle_gate_simple))) (u_rooms st) else false
  | _ => false end = true.
Proof. vm_compute. reflexivity. Qed.
Lemma shipped_file s r v : In s shipped_rooms -> r_cls r = s_class s -> In v (room_voxels r) <-> built r v.
Proof.
  intros Hs Ec. unfold room_voxels. rewrite Ec, (shipped_of_self s Hs). unfold ground_of. cbn [snd]. rewrite in_map_iff. split.
  - intros (q & E & Hq). destruct (read_file (s_file s)) as [f|] eqn:EF; [|destruct Hq]. apply colour_of in Hq as (c & Hq). exists s, f, q, c. auto 6.
  - intros (s' & f & q & a & H1 & H2 & H3 & H4 & H5). rewrite Ec in H2. apply same_shipped in H2; [|exact H1|exact Hs]. subst s'. rewrite H3.
    exists q. split; [exact H5|]. apply colour_of. eauto.
Qed.
Lemma map_grounded l (air block : cell -> Prop) : (forall ob, In ob l -> exists s, In s shipped_rooms /\ r_cls (snd ob) = s_class s) ->
  (forall v, block v <-> rooms_block l v) -> (forall v, air v <-> rooms_air l v) -> ground (map_ground l) air block.
Proof.
  intros SH B A. assert (forall v, rooms_block l v <-> In v (snd (map_ground l))) as RB.
  { intros v. unfold map_ground, rooms_block. cbn [snd]. rewrite in_flat_map. split; intros (ob & Hob & H); exists ob; (split; [exact Hob|]);
      destruct (SH ob Hob) as (s & Hs & Ec); apply (shipped_file s _ v Hs Ec); exact H. }
  split; intros v; [rewrite B; apply RB|]. rewrite A, <- RB. unfold rooms_air, rooms_block, map_ground. cbn [fst]. split.
  - intros [(ob & Hob & c & Hc & Hv) N]. split; [exists c; split; [apply in_flat_map; eauto|exact Hv]|]. intros (ob' & Hob' & H). exact (N ob' Hob' H).
  - intros [(c & Hc & Hv) N]. apply in_flat_map in Hc as (ob & Hob & Hc). split; [exists ob; split; [exact Hob|exists c; auto]|].
    intros ob' Hob' H. apply N. exists ob'. auto.
Qed.
Lemma foot_cut h l starts (air block : cell -> Prop) : ground (map_ground l) air block -> foot_parted h l starts = true ->
  exists ob d, In ob l /\ In d (doorways (snd ob)) /\ forall d0, In d0 starts -> ~ hikes air block (Z.of_nat h) d0 d.
Proof.
  intros G H. unfold foot_parted in H. cbv zeta in H. destruct (all_near (map_ground l)) eqn:N; [|discriminate].
  pose proof (ground_goes _ _ _ N G) as GO. set (st := sets (map_ground l)) in *.
  assert (forall v, air v -> ~ block v) as AB by (intros v Ha Hb; apply (proj2 G) in Ha as [_ Ha]; apply (proj1 G) in Hb; contradiction).
  assert (forall v, fits air v -> near v = true) as NE by (intros v; apply (fit_near _ _ _ v N G)).
  destruct (flat_map (places (rests st)) starts) as [|a ps] eqn:EP; [discriminate|]. set (next := hops (room_for st) (rests st) h) in *.
  destruct (forallb (has (set_of (reach next a))) (a :: ps)) eqn:FA; [|discriminate]. destruct (closed next (reach next a)) eqn:C; [|discriminate].
  assert (stands air block a) as S.
  { assert (In a (flat_map (places (rests st)) starts)) as Ha by (rewrite EP; left; reflexivity). apply in_flat_map in Ha as (d & _ & Ha).
    apply places_iff in Ha as [Ha _]. apply (rests_iff _ _ _ _ N G). exact Ha. }
  assert (forall c, In c (reach next a) -> stands air block c) as SR.
  { intros c Hc. exact (proj2 (hike_ends _ _ _ _ _ (reach_sound _ _ _ _ h a c GO AB NE S Hc))). }
  assert (forall c, has (set_of (reach next a)) c = true <-> In c (reach next a)) as HS.
  { intros c. apply has_set. intros b Hb. apply NE. exact (proj1 (SR b Hb)). }
  apply existsb_exists in H as (ob & Hob & H). apply existsb_exists in H as (d & Hd & H). exists ob, d. split; [exact Hob|]. split; [exact Hd|].
  intros d0 Hd0 (e & e' & j & j' & He & He' & Hj & Hj' & W). destruct (hike_ends _ _ _ _ _ W) as [S0 S1]. rewrite forallb_forall in FA, H.
  assert (In (threshold d0 e j) (a :: ps)) as I0.
  { rewrite <- EP. apply in_flat_map. exists d0. split; [exact Hd0|]. apply places_iff. split; [apply (rests_iff _ _ _ _ N G); exact S0|]. exists e, j. auto. }
  specialize (FA _ I0). apply HS in FA. pose proof (closed_stays _ _ _ _ h _ _ _ GO AB NE SR C FA W) as R. apply HS in R.
  assert (In (threshold d e' j') (places (rests st) d)) as I1.
  { apply places_iff. split; [apply (rests_iff _ _ _ _ N G); exact S1|]. exists e', j'. auto. }
  specialize (H _ I1). rewrite R in H. discriminate H.
Qed.
Lemma high_map hue vecs tm m : true_vectors vecs -> manager tm ->
  exists fuel e rooms g tm' w m2 st g', good_env e /\ generate fuel e hue vecs tm 256 (Some 1) false false rooms m g = (tm', Ok (w, m2, st), g') /\
    (forall ob, In ob (u_rooms st) -> ~ is_gate (snd ob)) /\
    exists ob d, In ob (u_rooms st) /\ In d (doorways (snd ob)) /\
    forall ob0 d0, In ob0 (u_rooms st) -> first_of 1 false (snd ob0) -> In d0 (doorways (snd ob0)) -> ~ hikes (world_air w (u_rooms st)) (world_block w) 10 d0 d.
Proof.
  intros TV M. pose proof foot_run as P. destruct (lay_out 100 sample_env (Some 1) false false 1 ones) as [[st [x|]] g1] eqn:E; [discriminate|].
  destruct (generate_ok 100 sample_env hue vecs tm 256 1 false 1 m ones st g1 TV M)
    as (tm' & w & m2 & g' & sun & ess & EG & L & _ & _ & _ & _ & _ & _ & _ & _ & _ & _ & [_ NB] & B); [left; reflexivity|exact sample_good|exact E|].
  exists 100%nat, sample_env, 1, ones, tm', w, m2, st, g'. split; [exact sample_good|]. split; [exact EG|]. clear E EG.
  destruct (foot_parted 10 (u_rooms st) (doorways (mirror_room T0 (start_room false)))) eqn:FP; [|discriminate]. rewrite forallb_forall in P. split.
  { intros ob Hob X. specialize (P ob Hob). unfold is_gate in X. rewrite X, Z.eqb_refl in P. discriminate P. }
  assert (forall ob, In ob (u_rooms st) -> exists s, In s shipped_rooms /\ r_cls (snd ob) = s_class s) as SH.
  { intros ob Hob. destruct (room_bounds 1 false st ob L Hob) as (s & Hs & Ec & _). exists s. split; [exact (in_use_shipped false s Hs)|exact Ec]. }
  assert (forall x y z, get_point w (I x) (I y) (I z) <> None <-> rooms_block (u_rooms st) (x, y, z)) as WB.
  { intros x y z. split.
    - intros Q. destruct (get_point w (I x) (I y) (I z)) as [tex|] eqn:GP; [|congruence]. apply B in GP as (ob & Hob & HB). exists ob. split; [exact Hob|].
      exact (block_built _ _ _ _ HB).
    - intros (ob & Hob & s & f & q & a & H1 & H2 & H3 & H4 & H5). destruct (NB ob s f q a Hob H1 H2 H3 H4) as (tex & HB). rewrite H5 in HB.
      assert (get_point w (I x) (I y) (I z) = Some tex) as -> by (apply B; exists ob; auto). discriminate. }
  assert (ground (map_ground (u_rooms st)) (world_air w (u_rooms st)) (world_block w)) as G.
  { apply map_grounded; [exact SH|intros [[x y] z]; apply WB|]. intros [[x y] z]. unfold world_air, rooms_air. cbn [at_voxel].
    assert (get_point w (I x) (I y) (I z) = None <-> forall ob, In ob (u_rooms st) -> ~ built (snd ob) (x, y, z)) as Q; [|rewrite Q; reflexivity].
    specialize (WB x y z). split.
    - intros GP ob Hob HB. apply (proj2 WB); [exists ob; auto|exact GP].
    - intros Nb. destruct (get_point w (I x) (I y) (I z)) as [tex|]; [|reflexivity]. exfalso. destruct (proj1 WB) as (ob & Hob & HB); [discriminate|]. exact (Nb ob Hob HB). }
  destruct (foot_cut 10 _ _ _ _ G FP) as (ob & d & Hob & Hd & C). exists ob, d. split; [exact Hob|]. split; [exact Hd|].
  intros ob0 d0 _ (t & Ht & E0) Hd0. cbn in Ht. destruct Ht as [<-|[]]. rewrite E0 in Hd0. exact (C d0 Hd0).
Qed.

(** ** Level doorways that face each other *)
Lemma level_passes r r' d o (air block : cell -> Prop) : side (d, o) = true -> level_doorway r (d, o) -> level_doorway r' (csub d o, opposite o) ->
  (forall v, room_air r v \/ room_air r' v -> air v) -> (forall v, built r v \/ built r' v -> block v) ->
  forall e, In e [0; 1; -1] -> hike air block 0 (threshold (d, o) e 1) (threshold (csub d o, opposite o) (- e) 1).
Proof.
  intros S L L' A B e He. assert (In (- e) [0; 1; -1]) as He' by (cbn [In] in *; lia).
  apply cross_foot; [exact S| |]; [apply (firm_mono (room_air r) _ (built r))|apply (firm_mono (room_air r') _ (built r'))]; auto; [exact (L e He)|exact (L' _ He')].
Qed.
