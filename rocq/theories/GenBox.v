(** Proofs about where the rooms of generated maps are. *)
From Verif Require Import Py VecModel VecSpec VecProofs VoxelModel VoxelSpec CodecModel CodecSpec OutModel OutSpec
  UpmModel UpmSpec UpmProofs UpmTrace UpmInv UpmMore UpmMore2 UpmFinal KitModel KitSpec KitProofs KitTile RoomModel MagicaModel RoomSpec RoomProofs MagicaProofs
  TexModel TexSpec LightModel LightSpec VoxFileModel ShippedModel ShippedSpec ShippedProofs ShippedDraw GenModel GenSpec GenLayout GenDraw GenProofs
  PassSpec PassCheck PassProofs PassGen.
Local Open Scope Z_scope.

Lemma lay_out_old n ctf fuel e rooms g st g' : mirror_factor n -> good_env e -> lay_out fuel e (Some n) false ctf rooms g = (st, None, g') ->
  exists old caps, u_rooms st = old ++ caps /\
    (forall ob, In ob old -> first_of n ctf (snd ob) \/
       ((exists s, In s possible_rooms /\ r_cls (snd ob) = s_class s) /\ (forall d, In d (doorways (snd ob)) -> legal_cell (fst d)) /\
        exists ob', In ob' old /\ faces (snd ob) (snd ob'))) /\
    (forall ob, In ob caps -> forall c, In c (positions (snd ob)) -> legal_cell c).
Proof.
  intros Hn G E. unfold lay_out in E. rewrite start_is in E.
  destruct (start_registers n ctf Hn) as (st0 & E0 & M0 & _ & _ & R0). rewrite E0 in E.
  destruct (place_rooms fuel e st0 (map s_class possible_rooms) rooms g) as [[st1 [k|x]] g1] eqn:E1; [|discriminate].
  destruct (endcap_ok_lemma _ _ _ _ _ _ E) as (_ & _ & caps & E3 & _ & C2 & _).
  exists (u_rooms st1), caps. split; [exact E3|]. split; [|intros ob Hob c Hc; apply (C2 ob c Hob Hc)].
  pose proof E1 as E1'. unfold place_rooms in E1'. destruct (place_loop_trace _ _ _ G opts_coherent _ _ _ _ _ _ _ E1') as (rs & T).
  destruct (trace_new _ _ _ _ T) as (placed & E2 & P).
  set (ops := [ORegister (start_room ctf); OPlace fuel e (map s_class possible_rooms) rooms g]).
  assert (urun ops (upm_init (Some n) false) = Some st1) as U by (subst ops; cbn [urun ustep]; rewrite E0, E1; reflexivity).
  intros ob Hob. destruct (join_lemma ops (Some n) false st1 eq_refl U) with (ob := ob) as [(r & ts & t & HT & Ht & (Hr & Er))|(ob' & Ho & L & J)].
  - intros c (f & e' & os & n' & g0 & I1 & I2). subst ops. destruct I1 as [I1|[I1|[]]]; [discriminate|]. assert (os = map s_class possible_rooms) as -> by congruence. clear I1.
    apply in_map_iff in I2 as (s & <- & Hs). apply (use_doors_on ctf). unfold in_use. right. apply in_or_app. left. exact Hs.
  - intros r Hr. subst ops. destruct Hr as [Hr|[Hr|[]]]; [|discriminate]. injection Hr as <-.
    assert (r_cls (start_room ctf) = s_class (first_room ctf)) as -> by (destruct ctf; reflexivity).
    apply (use_doors_on ctf). unfold in_use. left. reflexivity.
  - exact Hob.
  - left. subst ops. destruct Hr as [Hr|[Hr|[]]]; [|discriminate]. injection Hr as <-.
    exists t. split; [|exact Er]. destruct (noclip_history _ _ _ _ U) as [_ MM]. rewrite (rotations_of n st1 Hn MM) in HT. injection HT as <-. exact Ht.
  - rewrite E2 in Hob. apply in_app_or in Hob as [Hob|Hob].
    + left. rewrite R0 in Hob. destruct ob as [i r]. apply in_combine_r in Hob. apply in_map_iff in Hob as (t & <- & Ht). exists t. auto.
    + right. destruct (P ob Hob) as [Hc D]. apply in_map_iff in Hc as (s & Es & Hs). split; [exists s; auto|]. split; [exact D|].
      exists ob'. split; [exact Ho|]. destruct J as (d & o & J1 & _ & _ & J4). exists d, o. auto.
Qed.

(** ** Cells *)
(** The cells of the rooms: those of the legal region, and one layer below and above it. *)
Definition near (c : cell) : Prop := let '(x, y, z) := c in 0 <= x <= 32 /\ 0 <= y <= 32 /\ -1 <= z <= 33.
Lemma first_near n ctf r : first_of n ctf r -> (forall c, In c (positions r) -> near c) /\ (forall d, In d (doorways r) -> legal_cell (fst d)).
Proof.
  intros (t & _ & ->). split.
  - assert (forallb (fun c : cell => let '(x, y, z) := c in (0 <=? x) && (x <=? 32) && (0 <=? y) && (y <=? 32) && (-1 <=? z) && (z <=? 33)) (positions (mirror_room t (start_room ctf))) = true) as F
      by (destruct t, ctf; vm_compute; reflexivity).
    rewrite forallb_forall in F. intros [[x y] z] Hc. specialize (F _ Hc). rewrite !Bool.andb_true_iff, !Z.leb_le in F. unfold near. lia.
  - assert (forallb (fun d : door => is_legal (fst d)) (doorways (mirror_room t (start_room ctf))) = true) as F by (destruct t, ctf; vm_compute; reflexivity).
    rewrite forallb_forall in F. intros [[[x y] z] o] Hd. specialize (F _ Hd). cbn [fst is_legal] in F. rewrite !Bool.andb_true_iff, !Z.leb_le in F. cbn [fst legal_cell]. lia.
Qed.
(** For every cell of the class there are doors on all sides of it, or almost. *)
Definition fenced (s : shipped) : bool :=
  forallb (fun t => forallb (fun c => let '(x, y, z) := crot t c in
    let some f := existsb (fun d : door => f (crot t (fst d))) (rc_doors (s_class s) []) in
    some (fun d => fst (fst d) <=? x) && some (fun d => x <=? fst (fst d)) && some (fun d => snd (fst d) <=? y) && some (fun d => y <=? snd (fst d)) &&
    some (fun d => snd d - 1 <=? z) && some (fun d => z <=? snd d + 1)) (rc_cells (s_class s) [])) CARD.
Lemma fenced_near s r : In s shipped_rooms -> fenced s = true -> r_cls r = s_class s -> (forall d, In d (doorways r) -> legal_cell (fst d)) ->
  forall c, In c (positions r) -> near c.
Proof.
  intros Hi F Ec L c Hc. rewrite (same_positions s r Hi Ec), (room_of_eq s _ _ Hi) in Hc. unfold positions in Hc. cbn [r_cls r_pos r_turn r_flags] in Hc.
  apply in_map_iff in Hc as (c0 & <- & Hc). rewrite (same_doorways s r Hi Ec), (doorways_move s _ _ Hi) in L.
  unfold fenced in F. rewrite forallb_forall in F. specialize (F (r_turn r)). rewrite forallb_forall in F.
  specialize (F ltac:(destruct (r_turn r); cbn; tauto) c0 Hc). destruct (crot (r_turn r) c0) as [[x y] z]. cbv zeta in F.
  rewrite !Bool.andb_true_iff in F. destruct F as (((((F1 & F2) & F3) & F4) & F5) & F6).
  assert (forall f : cell -> bool, existsb (fun d : door => f (crot (r_turn r) (fst d))) (rc_doors (s_class s) []) = true -> exists d, f d = true /\ legal_cell (cadd (r_pos r) d)) as K.
  { intros f Hf. apply existsb_exists in Hf as (d & Hd & Hf). exists (crot (r_turn r) (fst d)). split; [exact Hf|]. apply (in_map (move (r_pos r) (r_turn r))) in Hd. exact (L _ Hd). }
  apply (K (fun d => fst (fst d) <=? x)) in F1. apply (K (fun d => x <=? fst (fst d))) in F2. apply (K (fun d => snd (fst d) <=? y)) in F3.
  apply (K (fun d => y <=? snd (fst d))) in F4. apply (K (fun d => snd d - 1 <=? z)) in F5. apply (K (fun d => z <=? snd d + 1)) in F6.
  destruct (r_pos r) as [[a b] h].
  destruct F1 as ([[x1 y1] z1] & F1 & L1), F2 as ([[x2 y2] z2] & F2 & L2), F3 as ([[x3 y3] z3] & F3 & L3), F4 as ([[x4 y4] z4] & F4 & L4),
    F5 as ([[x5 y5] z5] & F5 & L5), F6 as ([[x6 y6] z6] & F6 & L6).
  cbn [fst snd] in F1, F2, F3, F4, F5, F6. rewrite Z.leb_le in F1, F2, F3, F4, F5, F6. unfold legal_cell, cadd, near in *. lia.
Qed.
Lemma use_fenced : Forall (fun s => s = spawn_room \/ fenced s = true) possible_rooms.
Proof. unfold possible_rooms. repeat (apply Forall_cons; [first [right; vm_compute; reflexivity | left; reflexivity]|]). apply Forall_nil. Qed.
Lemma spawn_shipped : In spawn_room shipped_rooms. Proof. unfold shipped_rooms. member. Qed.
Lemma cells_near n ctf fuel e rooms g st g' : mirror_factor n -> good_env e -> lay_out fuel e (Some n) false ctf rooms g = (st, None, g') ->
  forall ob c, In ob (u_rooms st) -> In c (positions (snd ob)) -> near c.
Proof.
  intros Hn G E. destruct (lay_out_old n ctf fuel e rooms g st g' Hn G E) as (old & caps & ER & O & C). intros ob c Hob Hc. rewrite ER in Hob.
  apply in_app_or in Hob as [Hob|Hob].
  2:{ specialize (C ob Hob c Hc). destruct c as [[x y] z]. unfold legal_cell, near in *. lia. }
  destruct (O ob Hob) as [F|((s & Hs & Ec) & L & ob' & Ho' & FA)]; [exact (proj1 (first_near _ _ _ F) c Hc)|].
  pose proof use_fenced as UF. rewrite Forall_forall in UF. destruct (UF s Hs) as [->|F]; [|exact (fenced_near s _ (rooms_shipped s Hs) F Ec L c Hc)].
  assert (forall d, In d (doorways (snd ob')) -> legal_cell (fst d)) as L'.
  { destruct (O ob' Ho') as [F|(_ & L' & _)]; [exact (proj2 (first_near _ _ _ F))|exact L']. }
  destruct FA as (d & o & D1 & D2). specialize (L' _ D1). cbn [fst] in L'.
  rewrite (same_positions _ _ spawn_shipped Ec), (room_of_eq _ _ _ spawn_shipped) in Hc. rewrite (same_doorways _ _ spawn_shipped Ec), (doorways_move _ _ _ spawn_shipped) in D2.
  assert (c = d) as ->; [|destruct d as [[x y] z]; unfold legal_cell, near in *; lia].
  clear - Hc D2. destruct (r_pos (snd ob)) as [[a b] h], d as [[x y] z], o as [[u v] w]. unfold positions in Hc. cbn [r_cls r_pos r_turn r_flags] in Hc.
  assert (rc_cells (s_class spawn_room) [] = [(0, 0, 0)]) as EC by (vm_compute; reflexivity). assert (rc_doors (s_class spawn_room) [] = [((1, 0, 0), (1, 0, 0))]) as ED by (vm_compute; reflexivity).
  rewrite EC in Hc. rewrite ED in D2. destruct Hc as [<-|[]]. destruct D2 as [D2|[]]. unfold move in D2. cbn [fst snd] in D2.
  destruct (r_turn (snd ob)); cbn [crot cadd csub opposite] in *; injection D2; intros; repeat f_equal; lia.
Qed.

(** ** Blocks *)
Lemma blocks_near n ctf fuel e hue vecs tm size rooms m g tm' w m2 st g' : true_vectors vecs -> mirror_factor n -> good_env e ->
  generate fuel e hue vecs tm size (Some n) false ctf rooms m g = (tm', Ok (w, m2, st), g') ->
  forall ob x y z tex, In ob (u_rooms st) -> has_block tm' (snd ob) (x, y, z) tex -> 0 <= x < 264 /\ 0 <= y < 264 /\ -8 <= z < 272.
Proof.
  intros TV Hn G EG ob x y z tex Hob HB. destruct (generate_lays _ _ _ _ _ _ _ _ _ _ _ _ _ _ _ _ _ EG) as (g1 & E).
  destruct (block_cell vecs tm' (snd ob) (x, y, z) tex TV HB) as ([[a b] h] & Hd & Hv).
  pose proof (cells_near n ctf fuel e rooms g st g1 Hn G E ob _ Hob Hd) as N. unfold near, voxel_in_cell in *. lia.
Qed.
Lemma large_kept k fuel fuelo e hue vecs tm n ctf rooms m ws g tm' w m2 st g' bs m' :
  true_vectors vecs -> byte_hues hue -> manager tm -> mirror_factor n -> good_env e ->
  (8 <= k)%nat -> (S k < fuelo)%nat -> wf_map m -> header_size m = Some ws -> 2 ^ Z.of_nat (S k) <= ws <= 8192 ->
  Z.of_nat (List.length (tm_atlas tm)) <= 57000 -> len (m_ents m) <= 2 ^ 30 ->
  generate fuel e hue vecs tm (2 ^ Z.of_nat (S k)) (Some n) false ctf rooms m g = (tm', Ok (w, m2, st), g') ->
  output_map fuelo w m2 = Ok bs -> read_rest bs = Ok (m', []) ->
  forall ob x y z tex, In ob (u_rooms st) -> has_block tm' (snd ob) (x, y, z) tex -> 0 <= z -> world_lookup (S k) m' x y z = Some tex.
Proof.
  intros TV BH M Hn G Hk Hf WM HS Hws HA HE EG EO ER ob x y z tex Hob HB Hz.
  pose proof (blocks_near n ctf fuel e hue vecs tm _ rooms m g tm' w m2 st g' TV Hn G EG ob x y z tex Hob HB) as N.
  destruct (generate_lays _ _ _ _ _ _ _ _ _ _ _ _ _ _ _ _ _ EG) as (g1 & E).
  destruct (generated k fuel fuelo e hue vecs tm n ctf rooms m ws g st g1 TV BH M Hn G ltac:(lia) Hf WM HS Hws HA HE E)
    as (tm2 & w2 & m3 & g3 & sun & ess & bs2 & m4 & EG2 & EO2 & ER2 & _ & _ & _ & B & _).
  assert (tm2 = tm' /\ w2 = w /\ m3 = m2) as (-> & -> & ->) by (split; [|split]; congruence). assert (bs2 = bs) as -> by congruence. assert (m4 = m') as -> by congruence.
  assert (2 ^ 9 <= 2 ^ Z.of_nat (S k)) as P by (apply Z.pow_le_mono_r; lia). change (2 ^ 9) with 512 in P.
  apply B; try lia. exists ob. auto.
Qed.
(** A run that ends below the ground: the open doors are closed by spawn rooms until only those
    at the bottom are left. *)
Definition diving : rng := fun i => nth i
 [3377699720527872; 0; 24; 36; 48; 60; 72; 84; 96; 4503599627370496; 0; 24; 36; 48; 60; 72; 84; 96;
  6755399441055744; 0; 24; 36; 48; 60; 72; 84; 96; 4503599627370496; 1; 24; 36; 48; 60; 72; 84; 96;
  3564738467267200; 0; 24; 36; 48; 60; 72; 84; 96; 6755399441055744; 0; 24; 36; 48; 60; 72; 84; 96;
  4503599627370496; 1; 25; 37; 49; 61; 73; 85; 97; 4238682002231055; 0; 24; 36; 48; 60; 72; 84; 96;
  6755399441055744; 0; 24; 36; 48; 60; 72; 84; 96; 4503599627370496; 1; 24; 36; 48; 60; 72; 84; 96;
  4503599627370496; 0; 24; 36; 48; 60; 72; 84; 96; 0; 3; 24; 36; 48; 60; 72; 84; 96] 0.
Definition sunk (r : upm * option exn * rng) : bool :=
  match r with (st, None, _) => existsb (fun ob : obj => existsb (fun c : cell => snd c <? 0) (positions (snd ob))) (u_rooms st) | _ => false end.
Lemma diving_sunk : sunk (lay_out 50 sample_env (Some 1) false false 12 diving) = true.
Proof. vm_compute. reflexivity. Qed.
Lemma sunk_blocks hue vecs tm m size : true_vectors vecs -> manager tm ->
  exists fuel e rooms g tm' w m2 st g', good_env e /\ generate fuel e hue vecs tm size (Some 1) false false rooms m g = (tm', Ok (w, m2, st), g') /\
    exists ob p tex, In ob (u_rooms st) /\ has_block tm' (snd ob) p tex /\ snd p < 0.
Proof.
  intros TV M. pose proof diving_sunk as S. unfold sunk in S.
  destruct (lay_out 50 sample_env (Some 1) false false 12 diving) as [[st [x|]] g1] eqn:E; [discriminate|].
  destruct (generate_ok 50 sample_env hue vecs tm size 1 false 12 m diving st g1 TV M) as (tm' & w & m2 & g' & sun & ess & EG & L & _ & _ & _ & _ & _ & _ & _ & _ & _ & _ & [NE _] & _);
    [left; reflexivity|exact sample_good|exact E|].
  exists 50%nat, sample_env, 12, diving, tm', w, m2, st, g'. split; [exact sample_good|]. split; [exact EG|].
  apply existsb_exists in S as (ob & Hob & S). apply existsb_exists in S as (d & Hd & S). destruct (NE ob d Hob Hd) as (p & tex & Hp & HB).
  exists ob, p, tex. split; [exact Hob|]. split; [exact HB|]. destruct p as [[x y] z], d as [[a b] h]. cbn [voxel_in_cell snd] in *.
  rewrite Z.ltb_lt in S. lia.
Qed.
