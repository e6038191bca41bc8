(** Lemmas about edits, entity constructors and the output step. *)
From Verif Require Import Py VecModel VoxelModel VoxelSpec VoxelProofs CodecModel CodecSpec CodecFloat
  CodecParse CodecProofs CodecRead CodecMap OutModel OutSpec.
Ltac Zify.zify_post_hook ::= Z.div_mod_to_equations.

(** ** Header counts (C20) *)
Definition skymeta (h : header) ne nv (sky : option mval) : list (string * mval) :=
  header_meta h ne nv ++ match sky with None => [] | Some v => [("skybox"%string, v)] end.

Lemma skymeta_set h ne nv sky v :
  dset String.eqb (skymeta h ne nv sky) "skybox"%string v = skymeta h ne nv (Some v).
Proof. destruct sky; reflexivity. Qed.
Lemma skymeta_numents h ne nv sky k :
  dset String.eqb (skymeta h ne nv sky) "numents"%string (MInt k) = skymeta h k nv sky.
Proof. destruct sky; reflexivity. Qed.

Lemma edited_shape l : forall m h ne nv sky,
  m_meta m = skymeta h ne nv sky ->
  m_magic (edited m l) = m_magic m /\ exists sky', m_meta (edited m l) = skymeta h ne nv sky'.
Proof.
  induction l as [|d l IH]; intros m h ne nv sky Hm; [split; [reflexivity|exists sky; exact Hm]|].
  unfold edited. cbn [fold_left]. fold (edited (apply_edit m d) l).
  assert (E : m_magic (apply_edit m d) = m_magic m /\ exists sky', m_meta (apply_edit m d) = skymeta h ne nv sky').
  { destruct d; cbn [apply_edit m_magic m_meta]; split; try reflexivity; try (exists sky; exact Hm).
    exists (Some (MStr path)). rewrite Hm. apply skymeta_set. }
  destruct E as (E1 & sky' & E2). destruct (IH _ _ _ _ _ E2) as (F1 & F2). split; [congruence|exact F2].
Qed.

Lemma wcat_app {A} (w : A -> res (list Z)) l m bs :
  wcat w (l ++ m) = Ok bs -> exists b1 b2, wcat w l = Ok b1 /\ wcat w m = Ok b2 /\ bs = b1 ++ b2.
Proof.
  revert bs. induction l as [|x l IH]; intros bs H; cbn [app] in H.
  - exists [], bs. split; [reflexivity|]. auto.
  - apply wcat_cons in H. destruct H as (b1 & b2 & E1 & E2 & ->).
    destruct (IH _ E2) as (c1 & c2 & F1 & F2 & ->). exists (b1 ++ c1), c2.
    split; [apply wcat_cons; eauto|]. rewrite <- app_assoc. auto.
Qed.

Lemma i32_at_app pre b post off :
  List.length pre = off -> List.length b = 4%nat -> i32_at (pre ++ b ++ post) off = signed32 (unle b).
Proof.
  intros <- Hb. unfold i32_at. rewrite skipn_app, skipn_all, Nat.sub_diag. cbn [skipn app].
  rewrite firstn_app_le by lia. rewrite <- Hb, firstn_all. reflexivity.
Qed.

Lemma w_i32_signed z b : w_i32 z = Ok b -> signed32 (unle b) = z.
Proof.
  intros E. destruct (rt_i32 _ _ E) as (R & L & _). specialize (R []). rewrite app_nil_r in R.
  unfold p_i32, pbind in R. pose proof (rt_bytes b 4) as Rb. unfold len in Rb. rewrite L in Rb.
  specialize (Rb eq_refl []). rewrite app_nil_r in Rb. rewrite Rb in R. unfold pret in R.
  congruence.
Qed.

Lemma header_counts_lemma m h ne nv sky bs :
  List.length (m_magic m) = 4%nat -> m_meta m = skymeta h ne nv sky ->
  List.length (h_gameident h) = 3%nat ->
  write_map m = Ok bs ->
  i32_at bs 16 = len (m_ents m) /\ i32_at bs 48 = nv.
Proof.
  intros Hmag Hmeta Hgi Hw. unfold write_map in Hw. cbv zeta in Hw.
  assert (E0 : m_meta (set_numents m) = skymeta h (len (m_ents m)) nv sky).
  { unfold set_numents. cbn [m_meta]. rewrite Hmeta. apply skymeta_numents. }
  rewrite E0 in Hw. cbn [set_numents m_magic m_version m_headersize] in Hw.
  do 9 binv Hw. injection Hw as <-.
  unfold skymeta in E2. apply wcat_app in E2. destruct E2 as (mb & sb & E2 & _ & ->).
  destruct (header_write _ _ _ _ E2) as (b1 & b2 & b3 & b4 & b5 & b6 & b7 & b8 & b10 & W1 & W2 & W3 & W4 & W5 & W6 & W7 & W8 & W10 & ->).
  destruct (rt_i32 _ _ E) as (_ & L0 & _). destruct (rt_i32 _ _ E1) as (_ & L0' & _).
  destruct (rt_i32 _ _ W1) as (_ & L1 & _). destruct (rt_i32 _ _ W2) as (_ & L2 & _).
  destruct (rt_i32 _ _ W3) as (_ & L3 & _). destruct (rt_i32 _ _ W4) as (_ & L4 & _).
  destruct (rt_i32 _ _ W5) as (_ & L5 & _). destruct (rt_i32 _ _ W6) as (_ & L6 & _).
  destruct (rt_i32 _ _ W7) as (_ & L7 & _). destruct (rt_i32 _ _ W8) as (_ & L8 & _).
  destruct (rt_i32 _ _ W10) as (_ & L10 & _).
  split.
  - rewrite <- (w_i32_signed _ _ W2). rewrite <- !app_assoc.
    match goal with |- i32_at ?x _ = _ => 
      replace x with ((m_magic m ++ v ++ v0 ++ b1) ++ b2 ++ (b3 ++ b4 ++ b5 ++ b6 ++ b7 ++ b8 ++ w_str (h_gameident h) true ++ b10 ++ sb ++ v2 ++ v3 ++ v4 ++ v5 ++ v6 ++ v7))
        by (unfold w_str; rewrite <- !app_assoc; reflexivity) end.
    apply i32_at_app; [rewrite !app_length; lia|exact L2].
  - rewrite <- (w_i32_signed _ _ W10). rewrite <- !app_assoc.
    match goal with |- i32_at ?x _ = _ => 
      replace x with ((m_magic m ++ v ++ v0 ++ b1 ++ b2 ++ b3 ++ b4 ++ b5 ++ b6 ++ b7 ++ b8 ++ w_str (h_gameident h) true) ++ b10 ++ (sb ++ v2 ++ v3 ++ v4 ++ v5 ++ v6 ++ v7))
        by (unfold w_str; rewrite <- !app_assoc; reflexivity) end.
    apply i32_at_app; [unfold w_str; rewrite !app_length; cbn [List.length]; lia|exact L10].
Qed.

Lemma edited_counts_lemma m edits h ne nv bs :
  List.length (m_magic m) = 4%nat -> m_meta m = header_meta h ne nv ->
  List.length (h_gameident h) = 3%nat ->
  write_map (edited m edits) = Ok bs ->
  i32_at bs 16 = len (m_ents (edited m edits)) /\ i32_at bs 48 = nv.
Proof.
  intros Hmag Hmeta Hgi Hw.
  destruct (edited_shape edits m h ne nv None) as (E1 & sky & E2).
  { rewrite Hmeta. unfold skymeta. rewrite app_nil_r. reflexivity. }
  eapply header_counts_lemma; [rewrite E1; exact Hmag|exact E2|exact Hgi|exact Hw].
Qed.

Lemma bytes_eqb_sym a b : bytes_eqb a b = bytes_eqb b a.
Proof.
  destruct (bytes_eqb a b) eqn:E, (bytes_eqb b a) eqn:F; try reflexivity.
  - apply bytes_eqb_spec in E. subst. rewrite bytes_eqb_refl in F. discriminate.
  - apply bytes_eqb_spec in F. subst. rewrite bytes_eqb_refl in E. discriminate.
Qed.
Lemma bytes_eqb_trans a b c : bytes_eqb a b = true -> bytes_eqb b c = bytes_eqb a c.
Proof. intros E. apply bytes_eqb_spec in E. subst. reflexivity. Qed.
Lemma nodup_keys {V} (d : list (list Z * V)) : NoDup (map fst d) -> keys_nodup bytes_eqb d.
Proof.
  induction d as [|[k v] d IH]; cbn [map fst keys_nodup]; intros H; [exact Logic.I|].
  inversion H as [|? ? Hn Hd]; subst. split; [|auto].
  clear - Hn. induction d as [|[k' v'] d IH]; [reflexivity|]. cbn [dget map fst In] in *.
  destruct (bytes_eqb k' k) eqn:E; [apply bytes_eqb_spec in E; tauto|tauto].
Qed.

Lemma edited_snoc m l d : edited m (l ++ [d]) = apply_edit (edited m l) d.
Proof. unfold edited. rewrite fold_left_app. reflexivity. Qed.

Lemma edited_contents m edits :
  m_ents (edited m edits) = m_ents m ++ added edits /\
  (NoDup (map fst (m_vars m)) -> forall k,
     dget bytes_eqb (m_vars (edited m edits)) k =
     match last_var (rev edits) k with Some v => v | None => dget bytes_eqb (m_vars m) k end).
Proof.
  split.
  - induction edits as [|d l IH] using rev_ind; [cbn; rewrite app_nil_r; reflexivity|].
    rewrite edited_snoc. unfold added in *. rewrite flat_map_app, app_assoc, <- IH.
    destruct d; cbn [apply_edit m_ents flat_map]; rewrite ?app_nil_r; reflexivity.
  - intros Hnd.
    enough (G : keys_nodup bytes_eqb (m_vars (edited m edits)) /\ forall k,
       dget bytes_eqb (m_vars (edited m edits)) k =
       match last_var (rev edits) k with Some v => v | None => dget bytes_eqb (m_vars m) k end) by apply G.
    induction edits as [|d l [IH1 IH2]] using rev_ind.
    + split; [apply nodup_keys; exact Hnd|reflexivity].
    + rewrite edited_snoc, rev_app_distr. cbn [rev app].
      destruct d; cbn [apply_edit m_vars last_var]; try (split; assumption).
      * split; [apply keys_nodup_dset; auto using bytes_eqb_refl, bytes_eqb_sym, bytes_eqb_trans|].
        intros k'. rewrite dget_dset by auto using bytes_eqb_refl, bytes_eqb_sym, bytes_eqb_trans.
        destruct (bytes_eqb k k'); [reflexivity|apply IH2].
      * split; [apply keys_nodup_ddel; auto using bytes_eqb_refl, bytes_eqb_sym, bytes_eqb_trans|].
        intros k'. rewrite dget_ddel by auto using bytes_eqb_refl, bytes_eqb_sym, bytes_eqb_trans.
        destruct (bytes_eqb k k'); [reflexivity|apply IH2].
Qed.

(** ** Float positions (C22) *)
Lemma small_is_f32 s m : 0 <= m < 2 ^ 24 -> (m = 0 -> s = false) -> is_f32 (PF s m (-1)).
Proof.
  intros Hm Hs. destruct (Z.eqb_spec m 0) as [->|Hne].
  - rewrite Hs by reflexivity. exists 0. split; [lia|]. split; reflexivity.
  - pose proof (Z.log2_spec m ltac:(lia)) as HL. set (e := Z.log2 m) in *.
    assert (He : 0 <= e < 24).
    { split; [apply Z.log2_nonneg|]. apply Z.log2_lt_pow2; lia. }
    set (f := m * 2 ^ (23 - e) - 2 ^ 23).
    assert (P : 2 ^ e * 2 ^ (23 - e) = 2 ^ 23) by (rewrite <- Z.pow_add_r by lia; f_equal; lia).
    assert (Hp : 0 < 2 ^ (23 - e)) by (apply Z.pow_pos_nonneg; lia).
    rewrite Z.pow_succ_r in HL by lia.
    assert (Hf : 0 <= f < 2 ^ 23) by (unfold f; nia).
    set (sb := if s then 2 ^ 31 else 0).
    exists (sb + (126 + e) * 2 ^ 23 + f).
    change (2 ^ 23) with 8388608 in *. change (2 ^ 24) with 16777216 in *.
    assert (Hsb : sb = (if s then 1 else 0) * 2147483648) by (unfold sb; destruct s; reflexivity).
    change (2 ^ 32) with 4294967296.
    split; [rewrite Hsb; destruct s; lia|].
    unfold f32_decode. change (2 ^ 31) with 2147483648. change (2 ^ 23) with 8388608.
    assert (D1 : (sb + (126 + e) * 8388608 + f) / 2147483648 = if s then 1 else 0) by (rewrite Hsb; destruct s; lia).
    assert (D2 : ((sb + (126 + e) * 8388608 + f) / 8388608) mod 256 = 126 + e) by (rewrite Hsb; destruct s; lia).
    assert (D3 : (sb + (126 + e) * 8388608 + f) mod 8388608 = f) by (rewrite Hsb; destruct s; lia).
    rewrite D1, D2, D3. replace (126 + e =? 255) with false by lia. replace (126 + e =? 0) with false by lia.
    cbn [feq]. split; [destruct s; reflexivity|].
    replace (126 + e - 150) with (e - 24) by lia. rewrite Z.min_r by lia.
    replace (-1 - (e - 24)) with (23 - e) by lia. replace (e - 24 - (e - 24)) with 0 by lia.
    change (2 ^ 0) with 1. unfold f. lia.
Qed.

Lemma num_is_f32 n : - 2 ^ 24 < halves n < 2 ^ 24 -> is_f32 (pf_of_num n).
Proof.
  intros Hn. unfold pf_of_num. apply small_is_f32; [lia|]. intros E. lia.
Qed.

Lemma halves_mul n m : halves (nmulz n m) = halves n * m.
Proof. destruct n; unfold nmulz, halves; lia. Qed.

Lemma ent_at_wf p ty attrs :
  is_f32 (pf_of_num (vx p)) -> is_f32 (pf_of_num (vy p)) -> is_f32 (pf_of_num (vz p)) ->
  attr_count ty = Some (List.length attrs) -> Forall int_attr attrs ->
  (weapon_typed ty -> exists z r, attrs = AInt z :: r /\ is_weapon z = true) ->
  wf_entity (ent_at p ty attrs).
Proof.
  intros X Y Z0 Hc Ha Hw. unfold wf_entity, ent_at. cbn [e_x e_y e_z e_type e_attrs e_links e_reserved].
  do 4 (split; [assumption|]). split; [eapply Forall_impl; [|exact Ha]; intros a (z & -> & Hz); eauto|].
  split; [intros W; destruct (Hw W) as (z & r & -> & Hz); eauto|].
  split; [constructor|]. split; [reflexivity|]. split; [reflexivity|].
  repeat constructor; unfold is_char; lia.
Qed.

Lemma feq_refl p : feq p p.
Proof. destruct p; cbn; auto. Qed.

Lemma made_at p ty attrs m v :
  vx p = nmulz (vx v) m -> vy p = nmulz (vy v) m -> vz p = nmulz (vz v) m ->
  exact_pos m v -> attr_count ty = Some (List.length attrs) -> Forall int_attr attrs ->
  (weapon_typed ty -> exists z r, attrs = AInt z :: r /\ is_weapon z = true) ->
  made (Ok (ent_at p ty attrs)) ty attrs m v.
Proof.
  intros X Y Z0 (Ex & Ey & Ez) Hc Ha Hw. exists (ent_at p ty attrs). split; [reflexivity|].
  assert (F : forall n, exact_coord m n -> is_f32 (pf_of_num (nmulz n m))).
  { intros n. unfold exact_coord. intros Hn. apply num_is_f32. rewrite halves_mul. lia. }
  split; [apply ent_at_wf; rewrite ?X, ?Y, ?Z0; auto|]. split; [reflexivity|]. split; [reflexivity|].
  unfold placed_at. cbn [ent_at e_x e_y e_z]. rewrite X, Y, Z0. auto using feq_refl.
Qed.

Lemma nmulz_mul n a b : nmulz (nmulz n a) b = nmulz n (a * b).
Proof. destruct n; unfold nmulz; f_equal; ring. Qed.

Lemma fine4 v : vc v <> Base -> exists p, vfine v = Ok p /\
  vx (vmul p 4) = nmulz (vx v) (units v) /\ vy (vmul p 4) = nmulz (vy v) (units v) /\
  vz (vmul p 4) = nmulz (vz v) (units v).
Proof.
  intros Hv. unfold vfine, units. destruct (vc v) eqn:E; [congruence| |];
    (eexists; split; [reflexivity|]); unfold vmul; cbn [vx vy vz]; rewrite ?nmulz_mul; auto.
Qed.

Ltac not_weapon := intros [?|?]; discriminate.
Lemma constructors_scaled_lemma v :
  vc v <> Base -> exact_pos (units v) v ->
  forall a b c d e f, Forall int_attr [a; b; c; d; e; f] ->
  made (mk_light v a b c d e f) 1 [a; b; c; d; e; f] (units v) v /\
  made (mk_pusher v a b c d e f) 13 [a; b; c; d; e; f] (units v) v /\
  made (mk_teamflag v a b c d e f) 14 [a; b; c; d; e; f] (units v) v.
Proof.
  intros Hv He a b c d e f Ha. destruct (fine4 v Hv) as (p & Ep & X & Y & Z0).
  unfold mk_light, mk_pusher, mk_teamflag. rewrite Ep. cbn [bind].
  split; [|split]; apply made_at; auto; not_weapon.
Qed.

Lemma constructors_raw_lemma v :
  exact_pos 4 v ->
  (forall z b c d e f, is_weapon z = true -> Forall int_attr [b; c; d; e; f] ->
     made (mk_playerspawn v (AInt z) b c d e f) 3 [AInt z; b; c; d; e; f] 4 v) /\
  (forall z b c d e, is_weapon z = true -> Forall int_attr [b; c; d; e] ->
     made (mk_weapon v (AInt z) b c d e) 9 [AInt z; b; c; d; e] 4 v) /\
  (forall l, List.length l = 13%nat -> Forall int_attr l -> made (mk_mapmodel v l) 2 l 4 v).
Proof.
  intros He.
  assert (Hz : forall z, is_weapon z = true -> int_attr (AInt z)).
  { intros z Hz. exists z. split; [reflexivity|]. unfold is_weapon in Hz. unfold is_i32. change (2 ^ 31) with 2147483648. lia. }
  split; [|split].
  - intros. apply made_at; auto. intros _. eauto.
  - intros. apply made_at; auto. intros _. eauto.
  - intros l L Hl. unfold mk_mapmodel. rewrite L. cbn [Nat.eqb]. apply made_at; auto; [|not_weapon]. rewrite L. reflexivity.
Qed.

Lemma sunlight_lemma v a b c d e f g h :
  exact_pos 1 v -> Forall int_attr [a; b; c; d; e; f; g; h] ->
  made (mk_sunlight v a b c d e f g h) 8 [a; b; c; d; e; f; g; h] 1 v.
Proof.
  intros He Ha. assert (M : forall n, n = nmulz n 1) by (intros []; unfold nmulz; f_equal; ring).
  apply made_at; auto; not_weapon.
Qed.

Lemma ent_roundtrip_lemma e : wf_entity e ->
  exists bs e', w_ent e = Ok bs /\ same_entity e e' /\ w_ent e' = Ok bs /\
    forall rest, p_ent (S (List.length (bs ++ rest))) (bs ++ rest) = Ok (e', rest).
Proof.
  intros Hwf. destruct (wf_entity_rd e Hwf) as [Hrd Hr].
  destruct (proj2 (w_ent_ok e Hrd) Hr) as (bs & Hw). exists bs.
  destruct (rt_ent e bs (List.length bs) (proj1 Hrd) Hw (le_n _)) as (e' & HR & HS & HW).
  exists e'. split; [exact Hw|]. split; [exact HS|]. split; [exact HW|].
  intros rest. specialize (HR []). rewrite app_nil_r in HR.
  refine (ext_ent (List.length bs) _ _ _ _ _ rest HR). rewrite app_length. lia.
Qed.

(** ** The output step (C21) *)
Lemma tree_induct (Q : tree (list Z) -> Prop) :
  Q TEmpty -> (forall a, Q (TVox a)) -> (forall l, Forall Q l -> Q (TNode l)) -> forall t, Q t.
Proof.
  intros H1 H2 H3. fix IH 1. intros [|a|l]; [exact H1|apply H2|]. apply H3.
  induction l as [|x l IHl]; constructor; [apply IH|exact IHl].
Qed.

(** All texture lists in a tree are in range. *)
Fixpoint tree_ok (t : tree (list Z)) : Prop :=
  match t with
  | TEmpty => True
  | TVox tex => tex_ok tex
  | TNode l => (fix all l := match l with [] => True | t' :: l' => tree_ok t' /\ all l' end) l
  end.
Lemma tree_ok_node l : tree_ok (TNode l) <-> Forall tree_ok l.
Proof.
  cbn [tree_ok]. induction l as [|t l IH]; [split; auto|]. rewrite IH. split.
  - intros [A B]. constructor; assumption.
  - intros H. inversion H; auto.
Qed.

Lemma newcube_wf size : size <= 4096 -> wf_cube size (newcube F_EMPTY).
Proof.
  intros Hs. apply wf_leaf_c; [unfold is_char; cbn; lia|cbn; lia|exact Hs|].
  unfold wf_leaf. cbn. split; [discriminate|]. split; [reflexivity|].
  split; [repeat constructor; unfold is_u16; change (2 ^ 16) with 65536; lia|]. split; discriminate.
Qed.
Lemma newtexcube_wf size tex : size <= 4096 -> tex_ok tex -> wf_cube size (newtexcube tex).
Proof.
  intros Hs [Lt Ht]. apply wf_leaf_c; [unfold is_char; cbn; lia|cbn; lia|exact Hs|].
  unfold wf_leaf. cbn [newtexcube c_edges c_texture]. 
  split; [intros _; split; [reflexivity|repeat constructor; unfold is_byte; lia]|].
  split; [exact Lt|]. split; [exact Ht|]. split; [discriminate|]. intros _. cbn [c_surfmask c_totalverts newtexcube].
  unfold is_char. split; [lia|]. split; [lia|]. intros i Hi _.
  exists (Surf 2 0 0 32). split.
  - unfold surface. cbn [newtexcube c_ext]. destruct i as [|[|[|[|[|[|]]]]]]; cbn; auto; lia.
  - unfold wf_surf, is_byte. cbn. lia.
Qed.

Lemma pow_half k ws : 2 ^ Z.of_nat (S k) <= ws -> 2 ^ Z.of_nat k <= ws / 2 /\ 1 < ws.
Proof. rewrite pow_S. pose proof (pow_pos k). lia. Qed.

Lemma tree_wf t : forall k size,
  shaped k t -> tree_ok t -> 2 ^ Z.of_nat k <= size <= 4096 -> wf_cube size (tree_cube t).
Proof.
  induction t as [|tex|l IH] using tree_induct; intros k size Hs Ht Hz; cbn [tree_cube].
  - apply newcube_wf. lia.
  - apply newtexcube_wf; [lia|exact Ht].
  - destruct k as [|k]; [destruct Hs|]. apply shaped_node in Hs. destruct Hs as (L8 & _ & Hall).
    apply tree_ok_node in Ht. destruct (pow_half k size) as [P1 P2]; [lia|].
    apply (wf_node_c size _ (map tree_cube l)).
    + unfold is_char; cbn; lia.
    + reflexivity.
    + reflexivity.
    + rewrite map_length. exact L8.
    + exact P2.
    + apply Forall_forall. intros c Hc. apply in_map_iff in Hc. destruct Hc as (t & <- & Hin).
      rewrite Forall_forall in IH, Ht. apply (IH t Hin k); auto. lia.
Qed.

Lemma clookup_same c : forall d k x y z, same_cube c d -> clookup k d x y z = clookup k c x y z.
Proof.
  induction c as [c IH] using cube_rect'. intros d k x y z Hs.
  inversion Hs as [c0 d0 l l' Hk Ho Hc Hd HF|c0 d0 Hk Ho He Ht Hm Hg Hsf]; subst.
  - unfold kids in IH. rewrite Hc in IH.
    assert (Kd : kind d = 0) by (unfold kind in *; rewrite Ho; exact Hk).
    destruct k as [|k]; cbn [clookup]; rewrite Hk, Kd; cbn [Z.eqb]; [reflexivity|].
    rewrite Hc, Hd. cbv zeta.
    set (n := (_ + _ + _)%nat). clearbody n.
    destruct (nth_error l n) as [c'|] eqn:En.
    + destruct (Forall2_nth _ _ _ n c' HF En) as (d' & -> & Hcd).
      rewrite Forall_forall in IH. apply IH; [eapply nth_error_In; exact En|exact Hcd].
    + apply nth_error_None in En. rewrite (forall2_length _ _ _ HF) in En.
      apply nth_error_None in En. rewrite En. reflexivity.
  - assert (Kd : kind d = kind c) by (unfold kind; rewrite Ho; reflexivity).
    destruct k as [|k]; cbn [clookup]; rewrite Kd; replace (kind c =? 0) with false by lia;
      destruct (Z.eqb_spec (kind c) 3) as [K|K]; [rewrite (He K), Ht|rewrite Ht|rewrite (He K), Ht|rewrite Ht]; reflexivity.
Qed.

Lemma clookup_tree t : forall k x y z, clookup k (tree_cube t) x y z = tlookup k t x y z.
Proof.
  induction t as [|tex|l IH] using tree_induct; intros k x y z.
  - destruct k; reflexivity.
  - destruct k; reflexivity.
  - destruct k as [|k]; [reflexivity|]. cbn [tree_cube clookup tlookup nodecube c_children].
    change (kind (nodecube (map tree_cube l)) =? 0) with true. cbn iota. cbv zeta.
    rewrite nth_error_map. destruct (nth_error l _) as [t'|] eqn:E; [|reflexivity].
    cbn [option_map]. rewrite Forall_forall in IH. apply IH. eapply nth_error_In. exact E.
Qed.

Lemma low_bit b c k i : (i < k)%nat ->
  ((b * 2 ^ Z.of_nat k + c) / 2 ^ Z.of_nat i) mod 2 = (c / 2 ^ Z.of_nat i) mod 2.
Proof.
  intros Hi. replace (Z.of_nat k) with (Z.of_nat (k - i - 1) + 1 + Z.of_nat i) by lia.
  rewrite !Z.pow_add_r by lia. change (2 ^ 1) with 2. pose proof (pow_pos i) as Hp.
  rewrite Z.mul_assoc, Z.div_add_l by lia. rewrite Z.mul_assoc.
  rewrite Z.add_comm. apply Z.mod_add. lia.
Qed.

(** Every texture list found by a lookup is in range if all stored ones are. *)
Lemma shaped_tree_ok k : forall (t : tree (list Z)),
  shaped k t ->
  (forall x y z tex, 0 <= x < 2 ^ Z.of_nat k -> 0 <= y < 2 ^ Z.of_nat k -> 0 <= z < 2 ^ Z.of_nat k ->
     tlookup k t x y z = Some tex -> tex_ok tex) -> tree_ok t.
Proof.
  induction k as [|k IH]; intros t Hs Hl.
  - destruct t as [|tex|l]; [exact Logic.I| |destruct Hs]. apply (Hl 0 0 0 tex); reflexivity || (cbn; lia).
  - destruct t as [|tex|l]; [exact Logic.I|discriminate Hs|].
    apply shaped_node in Hs. destruct Hs as (L8 & _ & Hall). apply tree_ok_node. apply Forall_forall.
    intros t Hin. apply IH; [apply Hall; exact Hin|]. intros x y z tex Hx Hy Hz Et.
    apply In_nth_error in Hin. destruct Hin as (n & En).
    assert (Hn : (n < 8)%nat) by (rewrite <- L8; apply nth_error_Some; congruence).
    pose proof (pow_pos k) as Hp. rewrite pow_S in Hl.
    set (bx := Z.of_nat n mod 2). set (by_ := (Z.of_nat n / 2) mod 2). set (bz := Z.of_nat n / 4).
    assert (B : 0 <= bx < 2 /\ 0 <= by_ < 2 /\ 0 <= bz < 2 /\ Z.of_nat n = bx + 2 * by_ + 4 * bz) by (unfold bx, by_, bz; lia).
    clearbody bx by_ bz. destruct B as (Bx & By & Bz & Bn).
    apply (Hl (bx * 2 ^ Z.of_nat k + x) (by_ * 2 ^ Z.of_nat k + y) (bz * 2 ^ Z.of_nat k + z)); try nia.
    cbn [tlookup]. cbv zeta.
    assert (D : forall b c, 0 <= b < 2 -> 0 <= c < 2 ^ Z.of_nat k ->
       Z.to_nat (((b * 2 ^ Z.of_nat k + c) / 2 ^ Z.of_nat k) mod 2) = Z.to_nat b).
    { intros b c Hb Hc. rewrite Z.div_add_l, (Z.div_small c), Z.add_0_r by lia. rewrite Z.mod_small by lia. reflexivity. }
    rewrite !D by assumption.
    replace (Z.to_nat bx + 2 * Z.to_nat by_ + 4 * Z.to_nat bz)%nat with n by lia.
    rewrite En.
    (* the lookup below only depends on the low bits *)
    assert (Low : forall j (t0 : tree (list Z)) a b c a' b' c',
       (forall i, (i < j)%nat -> (a / 2 ^ Z.of_nat i) mod 2 = (a' / 2 ^ Z.of_nat i) mod 2) ->
       (forall i, (i < j)%nat -> (b / 2 ^ Z.of_nat i) mod 2 = (b' / 2 ^ Z.of_nat i) mod 2) ->
       (forall i, (i < j)%nat -> (c / 2 ^ Z.of_nat i) mod 2 = (c' / 2 ^ Z.of_nat i) mod 2) ->
       tlookup j t0 a b c = tlookup j t0 a' b' c').
    { clear. induction j as [|j IHj]; intros t0 a b c a' b' c' Ha Hb Hc; destruct t0 as [|q|l0]; try reflexivity.
      cbn [tlookup]. cbv zeta. rewrite Ha, Hb, Hc by lia. destruct (nth_error l0 _); [|reflexivity].
      apply IHj; intros; auto. }
    rewrite <- Et. apply Low; intros i Hi; apply low_bit; exact Hi.
Qed.

Lemma wf_set_world m ws w :
  wf_map m -> header_size m = Some ws -> Forall (wf_cube (ws / 2)) w -> List.length w = 8%nat ->
  wf_map (apply_edit m (SetWorld w)).
Proof.
  intros (H1 & H2 & H3 & (h & Hh & Hmeta & Hsl & Hwd) & L1 & L2 & Hnd & Hv & Lt & Ht & He & Hvs & H8) Hws Hw L8.
  assert (E : h_worldsize h = ws).
  { unfold header_size in Hws. rewrite Hmeta in Hws. cbn in Hws. congruence. }
  unfold wf_map. cbn [apply_edit m_magic m_version m_headersize m_meta m_vars m_texmru m_ents m_vslots m_chg m_world].
  do 3 (split; [assumption|]). split; [exists h; rewrite E; auto|]. auto 20.
Qed.

Lemma octree_wf k fuel (v : world (list Z)) ws :
  (S k < fuel)%nat -> w_size v = 2 ^ Z.of_nat (S k) -> 2 ^ Z.of_nat (S k) <= ws <= 8192 ->
  (forall x y z tex, get_point v (I x) (I y) (I z) = Some tex -> tex_ok tex) ->
  exists l, to_octree fuel v = Ok (OList l) /\ List.length l = 8%nat /\
    (forall t, In t l -> shaped k t) /\ Forall (fun t => wf_cube (ws / 2) (tree_cube t)) l /\
    (forall x y z, 0 <= x < w_size v -> 0 <= y < w_size v -> 0 <= z < w_size v ->
       tlookup (S k) (TNode l) x y z = get_point v (I x) (I y) (I z)).
Proof.
  intros Hf Hs Hws Htex. destruct (octree_root k fuel v Hf Hs) as (l & E & L8 & Hsh & Hl).
  exists l. do 3 (split; [assumption|]). split; [|exact Hl].
  assert (Hok : Forall tree_ok l).
  { destruct (forallb (fun t => match t with TEmpty => true | _ => false end) l) eqn:Ea.
    - rewrite forallb_forall in Ea. apply Forall_forall. intros t Ht. specialize (Ea t Ht). destruct t; try discriminate. exact Logic.I.
    - apply tree_ok_node, (shaped_tree_ok (S k)).
      + apply shaped_node. split; [exact L8|]. split; [|exact Hsh].
        clear - Ea. induction l as [|t l IH]; [discriminate|]. cbn [forallb] in Ea.
        destruct t; [destruct (IH Ea) as (t' & A & B); exists t'; split; [right; exact A|exact B]| |];
          eexists; (split; [left; reflexivity|discriminate]).
      + intros x y z tex Hx Hy Hz Et. rewrite <- Hs in *. rewrite Hl in Et by assumption. eapply Htex; exact Et. }
  destruct (pow_half k ws) as [P1 _]; [lia|].
  rewrite Forall_forall in *. intros t Ht. apply (tree_wf t k); auto. lia.
Qed.

(** C21 *)
Lemma output_lemma k fuel (v : world (list Z)) m ws :
  (1 <= k)%nat -> (S k < fuel)%nat -> w_size v = 2 ^ Z.of_nat (S k) ->
  wf_map m -> header_size m = Some ws -> 2 ^ Z.of_nat (S k) <= ws <= 8192 ->
  (forall x y z tex, get_point v (I x) (I y) (I z) = Some tex -> tex_ok tex) ->
  (exists x y z, (0 <= x < 2 ^ Z.of_nat k /\ 0 <= y < 2 ^ Z.of_nat k /\ 0 <= z < 2 ^ Z.of_nat k) /\
                 get_point v (I x) (I y) (I z) <> None) ->
  exists bs m', output_map fuel v m = Ok bs /\ read_rest bs = Ok (m', []) /\ same_rest m m' /\
    forall x y z, 0 <= x < w_size v -> 0 <= y < w_size v -> 0 <= z < w_size v ->
      world_lookup (S k) m' x y z = get_point v (I x) (I y) (I z).
Proof.
  intros Hk Hf Hs Hwf Hh Hws Htex (x0 & y0 & z0 & (Hx0 & Hy0 & Hz0) & Hne).
  destruct (octree_wf k fuel v ws Hf Hs Hws Htex) as (l & E & L8 & Hsh & Hwfc & Hl).
  destruct l as [|t0 l]; [discriminate|].
  assert (Ht0 : exists l0, t0 = TNode l0).
  { destruct t0 as [|tex|l0]; [| |eauto].
    - exfalso. apply Hne. pose proof (pow_S k). rewrite <- Hl by (rewrite ?Hs; lia). cbn [tlookup]. cbv zeta.
      rewrite !Z.div_small by lia. cbn. destruct k; reflexivity.
    - specialize (Hsh _ (or_introl eq_refl)). destruct k; [lia|discriminate Hsh]. }
  destruct Ht0 as (l0 & ->).
  set (w := map tree_cube (TNode l0 :: l)).
  assert (Hw : wf_map (apply_edit m (SetWorld w))).
  { eapply wf_set_world; [exact Hwf|exact Hh| |unfold w; rewrite map_length; exact L8].
    unfold w. apply Forall_forall. intros c Hc. apply in_map_iff in Hc. destruct Hc as (t & <- & Ht).
    rewrite Forall_forall in Hwfc. apply Hwfc. exact Ht. }
  destruct (write_read_lemma _ Hw) as (bs & m' & W & R & S).
  exists bs, m'. split; [unfold output_map; rewrite E; exact W|]. split; [exact R|].
  destruct S as (S1 & S2 & S3 & S4 & S5 & S6 & S7 & S8 & S9 & S10).
  cbn [apply_edit m_magic m_version m_headersize m_meta m_vars m_texmru m_ents m_vslots m_chg m_world] in *.
  split; [unfold same_rest; auto 10|].
  intros x y z Hx Hy Hz. rewrite <- Hl by assumption. rewrite <- clookup_tree. unfold world_lookup.
  apply (clookup_same (tree_cube (TNode (TNode l0 :: l)))).
  apply (same_node _ _ w (m_world m')); try reflexivity. exact S10.
Qed.

Lemma short_kids size l : forall bs fuel j,
  Forall (fits_cube size) l -> wcat savec l = Ok bs -> (List.length bs <= fuel)%nat -> (0 < fuel)%nat ->
  p_kids (p_loadc fuel) (List.length l + S j) bs = Err StructError.
Proof.
  induction l as [|c l IH]; intros bs fuel j Hall Hw Hf H0.
  - apply wcat_nil in Hw. subst. destruct fuel; [lia|]. reflexivity.
  - apply wcat_cons in Hw. destruct Hw as (b1 & b2 & E1 & E2 & ->). rewrite app_length in Hf.
    inversion Hall as [|? ? Hc Hr]; subst.
    destruct (load_save c _ _ Hc E1) as (d & Rd & _ & _).
    cbn [List.length Nat.add p_kids]. rewrite (pbind_rt _ _ _ _ _ (Rd fuel ltac:(lia))). cbn [fst snd].
    unfold pbind. rewrite IH by (try assumption; lia). reflexivity.
Qed.

Lemma wf_fits_head m : wf_map m -> exists h nv, fits_head m h nv.
Proof.
  intros Hwf. destruct (wf_map_fits m Hwf) as [(Hmag & (h & ne & nv & Hgi & Hmeta & Hnv & Hsl & Hwd) & Hnd & Hfv & Hfe & Hvs & H8) _].
  exists h, nv. unfold fits_head. do 2 (split; [assumption|]). split; [exists ne; exact Hmeta|]. auto 10.
Qed.

Lemma output_unreadable_lemma k fuel (v : world (list Z)) m ws :
  (S k < fuel)%nat -> w_size v = 2 ^ Z.of_nat (S k) ->
  wf_map m -> header_size m = Some ws -> 2 ^ Z.of_nat (S k) <= ws <= 8192 ->
  (forall x y z tex, get_point v (I x) (I y) (I z) = Some tex -> tex_ok tex) ->
  (k = 0%nat \/ forall x y z, 0 <= x < 2 ^ Z.of_nat k -> 0 <= y < 2 ^ Z.of_nat k -> 0 <= z < 2 ^ Z.of_nat k ->
                              get_point v (I x) (I y) (I z) = None) ->
  exists bs, output_map fuel v m = Ok bs /\ read_map bs = Err StructError.
Proof.
  intros Hf Hs Hwf Hh Hws Htex Hempty.
  destruct (octree_wf k fuel v ws Hf Hs Hws Htex) as (l & E & L8 & Hsh & Hwfc & Hl).
  destruct l as [|t0 l]; [discriminate|].
  assert (Ht0 : c_children (tree_cube t0) = None).
  { specialize (Hsh _ (or_introl eq_refl)). destruct t0 as [|tex|l0]; try reflexivity. exfalso.
    destruct Hempty as [->|He]; [exact Hsh|].
    destruct (shaped_inhabited k (TNode l0) Hsh ltac:(discriminate)) as (x & y & z & a & Hx & Hy & Hz & Ha).
    specialize (He x y z Hx Hy Hz). pose proof (pow_S k). rewrite <- Hl in He by (rewrite ?Hs; lia).
    remember (TNode l0) as t0. cbn [tlookup] in He. cbv zeta in He.
    rewrite !Z.div_small in He by lia. cbn in He. congruence. }
  destruct (wf_write m Hwf) as (bs0 & W0). destruct (wf_fits_head m Hwf) as (h & nv & Hfh).
  destruct (map_head m h nv bs0 Hfh W0) as (hb & wb & vars & ents & _ & _ & _ & _ & Hp & _ & Hw).
  inversion Hwfc as [|? ? _ Hwfr]; subst.
  assert (Hr : Forall (wf_cube (ws / 2)) (map tree_cube l)).
  { apply Forall_forall. intros c Hc. apply in_map_iff in Hc. destruct Hc as (t & <- & Ht).
    rewrite Forall_forall in Hwfr. apply Hwfr. exact Ht. }
  destruct (wcat_ok_all savec _ _ Hr) as (rb & Erb); [intros c; apply wf_savec|].
  assert (Es : savechildren (with_octsav (tree_cube t0) 0 :: map tree_cube l) = Ok ([0] ++ rb)).
  { unfold savechildren. apply wcat_cons. exists [0], rb. split; [|auto].
    rewrite savec_eq. cbn [with_octsav c_octsav c_children]. rewrite Ht0. reflexivity. }
  exists (hb ++ [0] ++ rb). split.
  - unfold output_map. rewrite E. cbn [bind map]. apply Hw. exact Es.
  - unfold read_map, read_rest. rewrite Hp by (rewrite app_length; lia).
    assert (G : p_loadchildren (S (List.length (hb ++ [0] ++ rb))) ([0] ++ rb) = Err StructError).
    { unfold p_loadchildren. cbn [p_kids]. unfold pbind at 1.
      assert (G : p_loadc (S (List.length (hb ++ [0] ++ rb))) ([0] ++ rb) = Err StructError); [|rewrite G; reflexivity].
      cbn [p_loadc]. rewrite (pbind_rt p_u8 _ [0] 0) by (apply (rt_u8 0 [0]); reflexivity).
      change (Z.land 0 7 =? 0) with true. cbv zeta iota. unfold pbind at 1.
      assert (L7 : List.length (map tree_cube l) = 7%nat) by (rewrite map_length; cbn in L8; lia).
      pose proof (short_kids (ws / 2) (map tree_cube l) rb (List.length (hb ++ [0] ++ rb)) 0) as SK.
      rewrite L7 in SK. cbn [Nat.add] in SK. rewrite SK; [reflexivity| |exact Erb| |].
      - eapply Forall_impl; [|exact Hr]. intros c. apply wf_fits.
      - rewrite !app_length. lia.
      - rewrite !app_length. cbn [List.length]. lia. }
    unfold pbind. rewrite G. reflexivity.
Qed.
