(** Proofs about the voxel file exported from a generated map. *)
From Coq Require Import QArith.
From Verif Require Import Py VecModel VecSpec VecProofs VoxelModel VoxelSpec VoxelProofs CodecModel CodecSpec CodecProofs OutModel OutSpec
  UpmModel UpmSpec UpmProofs UpmBridge UpmTrace UpmFinal KitModel KitSpec KitProofs RoomModel MagicaModel RoomSpec MagicaProofs TexModel TexSpec TexProofs
  LightModel LightSpec VoxFileModel VoxFileSpec VoxFileProofs ShippedModel ShippedSpec ShippedProofs ShippedDraw GenModel GenSpec GenLayout GenDraw GenProofs
  DebugSpec DebugProofs ExportSpec.
Local Open Scope Z_scope.

(** ** The world that is drawn *)
Definition near (v : Z * Z * Z) : Prop := let '(x, y, z) := v in -336 <= x <= 343 /\ -336 <= y <= 343 /\ -336 <= z <= 343.
Lemma near_cell v d : voxel_in_cell v d -> GenLayout.within 42 d -> near v.
Proof. destruct v as [[x y] z], d as [[a b] c]. cbn [voxel_in_cell near]. unfold GenLayout.within. lia. Qed.

(** ** The number of entries *)
Definition cube_list : list cell := list_prod (list_prod (zrange (-336) 344) (zrange (-336) 344)) (zrange (-336) 344).
Lemma cube_length : Z.of_nat (List.length cube_list) = 314432000.
Proof. unfold cube_list, cell. rewrite !prod_length, !Nat2Z.inj_mul, !zrange_length by lia. reflexivity. Qed.
Lemma entries_few {A} (l : list (key * A)) : NoDup (map (fun e => kpos (fst e)) l) ->
  (forall e, In e l -> exists v, near v /\ kpos (fst e) = doubled v) -> Z.of_nat (List.length l) <= 314432000.
Proof.
  intros ND H. rewrite <- cube_length. rewrite <- (map_length (fun e => kpos (fst e)) l). rewrite <- (map_length doubled cube_list).
  apply Nat2Z.inj_le. apply NoDup_incl_length; [exact ND|]. intros p Hp. apply in_map_iff in Hp as (e & <- & He).
  destruct (H e He) as ([[x y] z] & N & ->). apply in_map. unfold cube_list. cbn [near] in N. apply in_prod; [apply in_prod|]; apply in_zrange; lia.
Qed.

(** ** Few colours *)
Definition byte_comp (c : comp) : bool := match n255 c with Ok z => (0 <=? z) && (z <? 256) | Err _ => false end.
Definition fits (l : list (comp * comp * comp)) : Prop :=
  exists fw, (List.length fw <= 50)%nat /\ (forall c, In c l -> In (cname c) fw) /\
    forall r g b, In (r, g, b) l -> byte_comp r = true /\ byte_comp g = true /\ byte_comp b = true.
Fixpoint distinct (l : list cell) : list cell :=
  match l with [] => [] | a :: l' => let r := distinct l' in if existsb (cell_eqb a) r then r else a :: r end.
Definition seen_colours (s : shipped) : list (comp * comp * comp) :=
  match read_file (s_file s) with
  | Ok v => own_colours (s_paint s) ++ flat_map (fun t => map (intended (s_paint s) t) (distinct (vm_palette (model_of v)))) CARD
  | Err _ => []
  end.
Definition fits_all (l : list (comp * comp * comp)) : bool :=
  forallb (fun c : comp * comp * comp => let '(r, g, b) := c in byte_comp r && byte_comp g && byte_comp b) l &&
  Nat.leb (List.length (firsts [] (map cname l))) 50.
Lemma seen_fit : fits_all (red :: flat_map seen_colours shipped_rooms) = true.
Proof. vm_compute. reflexivity. Qed.
Lemma distinct_in a l : In a l -> In a (distinct l).
Proof.
  induction l as [|b l IH]; intros H; [exact H|]. cbn [distinct]. destruct (existsb (cell_eqb b) (distinct l)) eqn:E.
  - destruct H as [->|H]; [apply existsb_cell; exact E|exact (IH H)].
  - destruct H as [->|H]; [left; reflexivity|right; exact (IH H)].
Qed.
Lemma seen_in s : incl (file_colours s) (seen_colours s).
Proof.
  intros c Hc. unfold file_colours, seen_colours in *. destruct (read_file (s_file s)) as [v|]; [|exact Hc]. apply in_flat_map in Hc as (t & Ht & Hc).
  unfold colours in Hc. apply in_or_app. apply in_app_or in Hc as [Hc|Hc]; [left; exact Hc|right]. apply in_flat_map. exists t. split; [exact Ht|].
  apply in_map_iff in Hc as (rgb & <- & Hr). apply in_map, distinct_in, Hr.
Qed.
Lemma firsts_keep n l : forall seen, In n l -> In n seen \/ In n (firsts seen l).
Proof.
  induction l as [|a l IH]; intros seen H; [destruct H|]. cbn [firsts]. destruct (existsb (tname_eqb a) seen) eqn:E.
  - destruct H as [->|H]; [left; apply existsb_in; exact E|exact (IH _ H)].
  - destruct H as [->|H]; [right; left; reflexivity|]. destruct (IH (a :: seen) H) as [[->|Q]|Q]; [right; left; reflexivity|left; exact Q|right; right; exact Q].
Qed.
Lemma fits_ok l : fits_all l = true -> fits l.
Proof.
  unfold fits_all. rewrite Bool.andb_true_iff, forallb_forall, Nat.leb_le. intros [F L]. exists (firsts [] (map cname l)). split; [exact L|]. split.
  - intros c Hc. destruct (firsts_keep (cname c) (map cname l) []) as [[]|Q]; [apply in_map; exact Hc|exact Q].
  - intros r g b Hc. specialize (F _ Hc). cbn beta iota in F. rewrite !Bool.andb_true_iff in F. tauto.
Qed.
Lemma fits_incl l l' : fits l' -> incl l l' -> fits l.
Proof. intros (fw & L & A & B) I. exists fw. split; [exact L|]. split; [intros c Hc; exact (A c (I c Hc))|intros r g b Hc; exact (B r g b (I _ Hc))]. Qed.
Lemma flat_map_incl {A B} (f g : A -> list B) (l l' : list A) : incl l l' -> (forall a, incl (f a) (g a)) -> incl (flat_map f l) (flat_map g l').
Proof. intros L I c Hc. apply in_flat_map in Hc as (a & Ha & Hc). apply in_flat_map. exists a. split; [exact (L a Ha)|exact (I a c Hc)]. Qed.
Lemma files_fit cs : incl cs shipped_rooms -> fits (red :: flat_map file_colours cs).
Proof. intros L. exact (fits_incl _ _ (fits_ok _ seen_fit) (incl_both red _ _ (flat_map_incl _ _ _ _ L seen_in))). Qed.
Lemma comp_byte c : byte_comp c = true -> exists z, n255 c = Ok z /\ 0 <= z < 256.
Proof. unfold byte_comp. destruct (n255 c) as [z|]; [|discriminate]. rewrite Bool.andb_true_iff, Z.leb_le, Z.ltb_lt. intros H. exists z. auto. Qed.
Lemma u8_fits z : 0 <= z < 256 -> w_u8 z = Ok [z].
Proof. intros H. unfold w_u8. rewrite (proj2 (Z.leb_le 0 z)), (proj2 (Z.ltb_lt z 256)) by lia. reflexivity. Qed.
Lemma i32_fits z : 0 <= z < 2 ^ 31 -> exists b, w_i32 z = Ok b.
Proof. intros H. unfold w_i32. destruct (_ && _) eqn:E; [eauto|]. exfalso. rewrite Bool.andb_false_iff, Z.leb_gt, Z.ltb_ge in E. lia. Qed.
(** The textures after the run. *)
Lemma slots_snd ts : forall s, map snd (slots ts s) = ts.
Proof.
  induction ts as [|t ts IH]; intros s; [reflexivity|]. unfold slots, idx in *. cbn [List.length seq map combine snd]. f_equal. apply IH.
Qed.
Lemma colour_written k r g b : (exists z, n255 r = Ok z /\ 0 <= z < 256) -> (exists z, n255 g = Ok z /\ 0 <= z < 256) -> (exists z, n255 b = Ok z /\ 0 <= z < 256) ->
  exists bs, w_colour (Colour k r g b) = Ok bs.
Proof.
  intros (x & Ex & Bx) (y & Ey & By) (z & Ez & Bz). unfold w_colour. cbn [tex_rgb bind]. rewrite Ex, Ey, Ez. cbn [bind].
  rewrite (u8_fits x Bx), (u8_fits y By), (u8_fits z Bz). cbn [bind]. eauto.
Qed.
Lemma sky_written : exists bs, w_colour Sky = Ok bs. Proof. eexists. vm_compute. reflexivity. Qed.
Lemma default_written : exists bs, w_colour Default = Ok bs. Proof. eexists. vm_compute. reflexivity. Qed.
Lemma atlas_any tm tm' l fw : manager tm -> exportable tm -> stems tm tm' l -> (List.length fw <= 50)%nat ->
  (forall c, In c l -> In (cname c) fw) ->
  (forall r g b, In (r, g, b) l -> byte_comp r = true /\ byte_comp g = true /\ byte_comp b = true) ->
  exists known names ts, inv known names tm' /\ tm_atlas tm' = slots ts 0 /\ Forall2 (fun n t => texture_of known n = Some t) names ts /\
    (List.length ts <= 250)%nat /\ Forall (fun t => exists bs, w_colour t = Ok bs) ts.
Proof.
  intros M [L X] S LF FA FB. destruct (manager_live tm M) as (known & names & V). destruct (stems_inv known tm tm' _ S names V) as (extra & V' & Ix).
  destruct V as (_ & _ & (ts0 & A0 & F0) & _). pose proof V' as (ND & _ & (ts & A & F) & _). exists known, (names ++ extra), ts.
  split; [exact V'|]. split; [exact A|]. split; [exact F|].
  rewrite A0, slots_snd in X. rewrite A0, slots_length in L. pose proof (F2_len _ _ _ F0) as L0. pose proof (F2_len _ _ _ F) as L1. rewrite app_length in L1. split.
  - assert (List.length extra <= List.length fw)%nat; [|lia].
    apply NoDup_incl_length.
    + clear - ND. induction names as [|a names IH]; [exact ND|]. inversion ND. auto.
    + intros x Hx. apply Ix in Hx. apply in_map_iff in Hx as (c & <- & Hc). exact (FA c Hc).
  - apply Forall2_app_inv_l in F as (t1 & t2 & F1 & F2 & ->). apply Forall_app. split.
    + assert (t1 = ts0) as -> by (clear - F0 F1; revert t1 F1; induction F0 as [|n t names ts0 E F0 IH]; intros t1 F1; inversion F1; subst; [reflexivity|]; f_equal; [congruence|auto]).
      apply (Forall_impl _) with (2 := X). intros t Ht. destruct t; try contradiction; [exact sky_written|exact default_written|].
      inversion Ht as [|? ? H1 Ht1]; subst. inversion Ht1 as [|? ? H2 Ht2]; subst. inversion Ht2 as [|? ? H3 _]; subst. apply colour_written; assumption.
    + rewrite Forall_forall. intros t Ht. destruct (Forall2_in_r _ _ _ F2 t Ht) as (n & Hn & E). apply Ix in Hn. apply in_map_iff in Hn as ([[r g] b] & <- & Hc).
      cbn [cname texture_of] in E. injection E as <-. destruct (FB r g b Hc) as (B1 & B2 & B3). apply colour_written; apply comp_byte; assumption.
Qed.
Lemma few_fit : fits all_colours.
Proof.
  refine (fits_incl _ _ (files_fit (station_flagroom :: in_use false) _) _).
  - intros s [<-|Hs]; [exact (first_shipped true)|exact (in_use_shipped false s Hs)].
  - apply incl_tl. apply incl_refl.
Qed.

(** ** Writing *)
Lemma wcat_fits {A} (f : A -> res (list Z)) l : (forall a, In a l -> exists b, f a = Ok b) -> exists bs, wcat f l = Ok bs.
Proof.
  intros H. unfold wcat. assert (exists bs, mapM f l = Ok bs) as [bs ->]; [|cbn [bind]; eauto].
  induction l as [|a l IH]; [exists []; reflexivity|]. cbn [mapM]. destruct (H a (or_introl eq_refl)) as [b ->]. cbn [bind].
  destruct IH as [bs ->]; [intros x Hx; apply H; right; exact Hx|]. cbn [bind]. eauto.
Qed.
Definition block_entry (e : key * list Z) : Prop :=
  exists v n r, near v /\ kpos (fst e) = doubled v /\ snd e = n :: r /\ 0 <= n < 250.
Lemma voxel_fits e : block_entry e -> exists b, w_voxel e = Ok b.
Proof.
  intros ([[x y] z] & n & r & _ & K & Es & Bn). unfold w_voxel. destruct e as [[[kx ky] kz] ts]. cbn [fst snd kpos doubled] in *. subst ts.
  assert (halves kx = 2 * x /\ halves ky = 2 * y /\ halves kz = 2 * z) as (Hx & Hy & Hz) by (injection K; auto).
  destruct (skipped (kx, ky, kz)) eqn:S; [eauto|]. apply skipped_in in S. cbn [in_bytes] in S.
  rewrite !int_whole by lia. unfold whole. rewrite Hx, Hy, Hz.
  replace (2 * x / 2) with x by (Z.div_mod_to_equations; lia). replace (2 * y / 2) with y by (Z.div_mod_to_equations; lia). replace (2 * z / 2) with z by (Z.div_mod_to_equations; lia).
  rewrite !u8_fits by lia. cbn [bind]. eauto.
Qed.
Lemma write_fits w atlas : Forall block_entry (w_map w) -> Z.of_nat (List.length (w_map w)) <= 314432000 ->
  0 <= halves (w_xmax w) <= 686 -> 0 <= halves (w_ymax w) <= 686 -> 0 <= halves (w_zmax w) <= 686 ->
  Forall (fun t => exists bs, w_colour t = Ok bs) (map snd atlas) -> exists bs, vox_write w atlas = Ok bs.
Proof.
  intros F L X Y Z0 C. unfold vox_write. rewrite !int_whole by lia. unfold whole.
  set (n := Z.of_nat (List.length (w_map w))) in *. assert (0 <= n) by lia.
  assert (forall z, 0 <= z <= 686 -> 0 <= z / 2 <= 343) as D by (intros z Hz; Z.div_mod_to_equations; lia).
  destruct (i32_fits 150) as [b1 ->]; [lia|]. destruct (i32_fits 0) as [b2 ->]; [lia|]. destruct (i32_fits (4 * (1 + n) + 36 + 1024)) as [b3 ->]; [lia|].
  destruct (i32_fits 12) as [b4 ->]; [lia|].
  destruct (i32_fits (halves (w_xmax w) / 2)) as [b5 ->]; [specialize (D _ X); lia|]. destruct (i32_fits (halves (w_ymax w) / 2)) as [b6 ->]; [specialize (D _ Y); lia|].
  destruct (i32_fits (halves (w_zmax w) / 2)) as [b7 ->]; [specialize (D _ Z0); lia|].
  destruct (i32_fits (4 * (1 + n))) as [b8 ->]; [lia|]. destruct (i32_fits n) as [b9 ->]; [lia|]. destruct (i32_fits 1024) as [b10 ->]; [lia|].
  destruct (wcat_fits w_voxel (w_map w)) as [b11 ->]; [rewrite Forall_forall in F; intros e He; apply voxel_fits; auto|].
  destruct (wcat_fits w_colour (map snd atlas)) as [b12 ->]; [rewrite Forall_forall in C; exact C|]. cbn [bind]. eauto.
Qed.

(** ** Colours *)
Lemma byte_shade j k : 0 <= j < 256 -> shade (CFl (int_div j 255)) k -> k = j.
Proof. intros Hj (_ & Hs & _). apply Hs; [lia|reflexivity]. Qed.
Lemma tenth_shade j k : 0 <= j <= 10 -> shade (tenths j) k -> k = 255 * j / 10.
Proof. intros Hj (_ & _ & Hs). apply Hs; [lia|reflexivity]. Qed.
Lemma shown_ok p t rgb cr cg cb x y z : bytes3 rgb -> intended p t rgb = (cr, cg, cb) -> shade cr x -> shade cg y -> shade cb z -> shown p t rgb = (x, y, z).
Proof.
  destruct rgb as [[r g] b]. intros (Br & Bg & Bb) E Sx Sy Sz.
  assert (forall c k, c = CFl (int_div r 255) -> shade c k -> k = r) as PR by (intros c k -> S; exact (byte_shade r k Br S)).
  assert (forall c k, c = CFl (int_div g 255) -> shade c k -> k = g) as PG by (intros c k -> S; exact (byte_shade g k Bg S)).
  assert (forall c k, c = CFl (int_div b 255) -> shade c k -> k = b) as PB by (intros c k -> S; exact (byte_shade b k Bb S)).
  assert (forall j c k, c = CInt j -> shade c k -> k = 255 * j) as PI by (intros j c k -> (_ & S); exact S).
  destruct p; cbn [intended shown] in *.
  - unfold components in E. rewrite (PR cr x), (PG cg y), (PB cb z) by congruence. reflexivity.
  - cbn [pos_eqb]. destruct ((r =? 255) && (g =? 0) && (b =? 0)) eqn:ER.
    + rewrite !Bool.andb_true_iff, !Z.eqb_eq in ER. destruct ER as [[-> ->] ->].
      destruct t; unfold components in E.
      * rewrite (PI 1 cr x ltac:(congruence) Sx), (PI 1 cg y ltac:(congruence) Sy), (PI 0 cb z ltac:(congruence) Sz). reflexivity.
      * rewrite (PI 0 cr x ltac:(congruence) Sx), (PI 0 cg y ltac:(congruence) Sy), (PI 1 cb z ltac:(congruence) Sz). reflexivity.
      * rewrite (PI 0 cr x ltac:(congruence) Sx), (PI 1 cg y ltac:(congruence) Sy), (PI 0 cb z ltac:(congruence) Sz). reflexivity.
      * rewrite (PR cr x), (PG cg y), (PB cb z) by congruence. reflexivity.
    + unfold components in E. rewrite (PR cr x), (PG cg y), (PB cb z) by congruence. reflexivity.
  - cbn [pos_eqb].
    assert (forall j c k, 0 <= j <= 10 -> c = tenths j -> shade c k -> k = 255 * j / 10) as PT by (intros j c k Hj -> S; exact (tenth_shade j k Hj S)).
    destruct ((r =? 50) && (g =? 50) && (b =? 50)); [|destruct ((r =? 255) && (g =? 255) && (b =? 0))].
    + rewrite (PT 9 cr x ltac:(lia) ltac:(congruence) Sx), (PT 9 cg y ltac:(lia) ltac:(congruence) Sy), (PT 9 cb z ltac:(lia) ltac:(congruence) Sz). reflexivity.
    + rewrite (PI 1 cr x ltac:(congruence) Sx), (PI 0 cg y ltac:(congruence) Sy), (PI 0 cb z ltac:(congruence) Sz). reflexivity.
    + rewrite (PT 1 cr x ltac:(lia) ltac:(congruence) Sx), (PT 1 cg y ltac:(lia) ltac:(congruence) Sy), (PT 1 cb z ltac:(lia) ltac:(congruence) Sz). reflexivity.
Qed.

(** ** The run *)
Lemma latest_op {A} (l : list (@wop A)) p a : latest l p = Some a -> exists o, In o l /\ op_pos o = p.
Proof.
  induction l as [|o l IH]; [discriminate|]. cbn [latest]. destruct (pos_eqb (op_pos o) p) eqn:E.
  - intros _. exists o. split; [left; reflexivity|]. apply pos_eqb_eq. exact E.
  - intros H. destruct (IH H) as (o' & Ho & P). exists o'. split; [right; exact Ho|exact P].
Qed.
(** A world of blocks that can be exported. *)
Definition good_world (tm' : texman) (w : world (list Z)) size (blk : Z * Z * Z -> list Z -> Prop) : Prop :=
  exists ops known names ts bs, w = wrun ops (new_world size) /\ inv known names tm' /\ tm_atlas tm' = slots ts 0 /\
    Forall2 (fun n t => texture_of known n = Some t) names ts /\ (List.length ts <= 250)%nat /\ vox_write w (tm_atlas tm') = Ok bs /\
    (forall e, In e (w_map w) -> block_entry e) /\
    (forall xyz tex, (exists k, In (k, tex) (w_map w) /\ kpos k = doubled xyz) <-> blk xyz tex).
(** The colours of the blocks. *)
Definition shades (c : comp * comp * comp) (rgb : Z * Z * Z) : Prop :=
  let '(r, g, b) := c in let '(x, y, z) := rgb in shade r x /\ shade g y /\ shade b z.
Definition painted (tm' : texman) (blk : Z * Z * Z -> list Z -> Prop) (col : Z * Z * Z -> Z * Z * Z -> Prop) : Prop :=
  (forall xyz tex, blk xyz tex -> exists c n, numbered tm' c n /\ tex = repeat n 6 /\ (exists rgb, col xyz rgb) /\ forall rgb, shades c rgb -> col xyz rgb) /\
  (forall xyz rgb, col xyz rgb -> exists c n, numbered tm' c n /\ blk xyz (repeat n 6) /\ forall rgb', shades c rgb' -> rgb' = rgb).
Lemma drawn_good tm tm' w size ops l blk : manager tm -> exportable tm -> stems tm tm' l -> 
  fits l -> w = wrun ops (new_world size) -> (forall o, In o ops -> exists v, near v /\ op_pos o = doubled v) -> 0 <= size ->
  (forall x y z tex, get_point w (I x) (I y) (I z) = Some tex <-> blk (x, y, z) tex) ->
  (forall xyz tex, blk xyz tex -> exists c n, numbered tm' c n /\ tex = repeat n 6) -> good_world tm' w size blk.
Proof.
  intros M X ST (fw & F1 & F2 & F3) Ew NE Hs B BN.
  destruct (atlas_any tm tm' l fw M X ST F1 F2 F3) as (known & names & ts & V & A & FT & LT & FC).
  destruct (world_entries_lemma size ops) as [ND LA]. rewrite <- Ew in ND, LA.
  assert (forall xyz tex, (exists k, In (k, tex) (w_map w) /\ kpos k = doubled xyz) <-> blk xyz tex) as EB.
  { intros [[x y] z] tex. rewrite <- LA, <- B, Ew, world_history_lemma. cbn [halves doubled]. reflexivity. }
  assert (forall e0, In e0 (w_map w) -> exists v, near v /\ kpos (fst e0) = doubled v) as PV.
  { intros [k tex] He. assert (latest (rev ops) (kpos k) = Some tex) as LT' by (apply LA; exists k; auto).
    destruct (latest_op _ _ _ LT') as (o & Ho & P). apply in_rev in Ho. destruct (NE o Ho) as (v & Nv & Q). exists v. cbn [fst]. split; [exact Nv|congruence]. }
  assert (forall e0, In e0 (w_map w) -> block_entry e0) as BE.
  { intros [k tex] He. destruct (PV _ He) as (v & Nv & P). cbn [fst] in P.
    destruct (BN v tex (proj1 (EB v tex) (ex_intro _ k (conj He P)))) as (c & nn & NU & Et).
    apply (numbered_iff known names tm' _ _ V) in NU as [N0 N1]. exists v, nn, (repeat nn 5). split; [exact Nv|]. split; [exact P|]. split; [exact Et|].
    assert (Z.to_nat nn < List.length names)%nat as Q by (apply nth_error_Some; congruence). pose proof (F2_len _ _ _ FT). lia. }
  assert (exists bs, vox_write w (tm_atlas tm') = Ok bs) as [bs WR].
  { destruct (boundaries_lemma size ops) as (TX & TY & TZ). rewrite <- Ew in TX, TY, TZ.
    assert (forall p, In p (set_positions ops) -> exists v, near v /\ p = doubled v) as SP.
    { intros p Hp. unfold set_positions in Hp. apply in_map_iff in Hp as (o & <- & Ho). apply filter_In in Ho as [Ho _]. exact (NE o Ho). }
    assert (forall b lo (pr : Z * Z * Z -> Z), tight b lo 0 (map pr (set_positions ops)) -> (forall v, near v -> pr (doubled v) <= 686) -> 0 <= snd b <= 686) as TT.
    { intros b lo pr (_ & T1 & _ & T2 & _) HP. split; [lia|]. destruct T1 as [->|T1]; [lia|]. apply in_map_iff in T1 as (p & <- & Hp).
      destruct (SP p Hp) as (v & Nv & ->). exact (HP v Nv). }
    apply write_fits.
    - rewrite Forall_forall. exact BE.
    - apply entries_few; [exact ND|exact PV].
    - apply (TT _ _ _ TX). intros [[x y] z]. unfold p1; cbn [near doubled fst snd]. lia.
    - apply (TT _ _ _ TY). intros [[x y] z]. unfold p2; cbn [near doubled fst snd]. lia.
    - apply (TT _ _ _ TZ). intros [[x y] z]. unfold p3; cbn [near doubled fst snd]. lia.
    - rewrite A, slots_snd. exact FC. }
  exists ops, known, names, ts, bs. split; [exact Ew|]. split; [exact V|]. split; [exact A|]. split; [exact FT|]. split; [exact LT|]. split; [exact WR|].
  split; [exact BE|exact EB].
Qed.

(** ** What it shows *)
Lemma key_bytes k xyz : kpos k = doubled xyz -> in_bytes k <-> in_world 256 xyz.
Proof. destruct k as [[x y] z], xyz as [[a b] c]. cbn [kpos doubled in_bytes in_world]. intros E. assert (halves x = 2 * a /\ halves y = 2 * b /\ halves z = 2 * c) as (-> & -> & ->) by (injection E; auto). lia. Qed.
Lemma key_whole x y z a b c : kpos (x, y, z) = doubled (a, b, c) -> whole x = a /\ whole y = b /\ whole z = c.
Proof.
  cbn [kpos doubled]. intros E. assert (halves x = 2 * a /\ halves y = 2 * b /\ halves z = 2 * c) as (H1 & H2 & H3) by (injection E; auto).
  unfold whole. rewrite H1, H2, H3. repeat split; Z.div_mod_to_equations; lia.
Qed.
Lemma voxels_distinct l vs : Forall2 voxel_is l vs -> (forall e, In e l -> block_entry e) -> map doubled (map fst vs) = map (fun e => kpos (fst e)) l.
Proof.
  induction 1 as [|e q l vs H F IH]; [reflexivity|]. intros B. cbn [map]. f_equal; [|apply IH; intros e' He; apply B; right; exact He].
  destruct (B e (or_introl eq_refl)) as ([[a b] c] & _ & _ & _ & K & _). destruct e as [[[x y] z] ts]. unfold voxel_is in H. cbn [fst snd] in *. destruct H as (t & r & _ & _ & ->).
  cbn [fst]. destruct (key_whole _ _ _ _ _ _ K) as (-> & -> & ->). symmetry. exact K.
Qed.
Lemma world_rejected tm' w size blk bs : good_world tm' w size blk -> vox_write w (tm_atlas tm') = Ok bs -> exists x, vox_read 256 bs = Err x.
Proof.
  intros (ops & known & names & ts & bs' & Ew & _ & A & _ & LT & _) WR. rewrite Ew in WR. apply (reader_rejects size ops _ bs WR). rewrite A, slots_length. lia.
Qed.
Lemma world_lost tm' w size blk bs xyz tex : good_world tm' w size blk -> vox_write w (tm_atlas tm') = Ok bs ->
  blk xyz tex -> ~ in_world 256 xyz -> forall n, exists x, vox_read n bs = Err x.
Proof.
  intros (ops & known & names & ts & bs' & Ew & V & A & _ & LT & _ & _ & EB) WR HB NI. rewrite Ew in WR. apply (outside_lost size ops _ bs WR).
  destruct (proj2 (EB xyz tex) HB) as (k & Hk & P).
  exists (k, tex). rewrite <- Ew. split; [exact Hk|]. intros IB. apply (key_bytes k xyz P) in IB. contradiction.
Qed.
(** No place has two voxels, and there is a voxel, coloured by the entry of the palette one below its
    index, exactly where there is a block of that colour. *)
Definition shows (f : voxfile) (col : Z * Z * Z -> Z * Z * Z -> Prop) : Prop :=
  NoDup (map fst (vf_voxels f)) /\
  forall xyz r g b, (exists c, In (xyz, c) (vf_voxels f) /\ 1 <= c /\ nth_error (vf_palette f) (Z.to_nat (c - 1)) = Some (r, g, b, 255)) <-> col xyz (r, g, b).
Lemma world_shows tm' w size blk col bs : good_world tm' w size blk -> painted tm' blk col -> vox_write w (tm_atlas tm') = Ok bs ->
  (forall xyz rgb, col xyz rgb -> in_world 256 xyz) -> exists f, info_read bs = Ok f /\ shows f col.
Proof.
  intros (ops & known & names & ts & bs' & Ew & V & A & FT & LT & _ & BE & EB) [PA PB] WR AI.
  assert (forall e, In e (w_map w) -> in_bytes (fst e)) as IB.
  { intros [k tex] He. destruct (BE _ He) as (v & _ & _ & _ & P & _). cbn [fst] in *.
    destruct (PA v tex (proj1 (EB v tex) (ex_intro _ k (conj He P)))) as (_ & _ & _ & _ & (rgb & HC) & _). apply (key_bytes k v P). exact (AI v rgb HC). }
  destruct (world_entries_lemma size ops) as [ND _].
  destruct (info_reads size ops (tm_atlas tm') bs) as (vs & cols & FV & FC & IR); [rewrite <- Ew; exact WR|rewrite <- Ew; exact IB|rewrite A, slots_length; lia|].
  rewrite <- Ew in FV, IR, ND. rewrite A, slots_snd in FC. eexists. split; [exact IR|]. split; cbn [vf_voxels vf_palette].
  { apply (NoDup_map_inv doubled). rewrite (voxels_distinct _ _ FV BE). exact ND. }
  assert (forall t col, (Z.to_nat t < List.length ts)%nat -> nth_error (cols ++ repeat black (255 - List.length (tm_atlas tm'))) (Z.to_nat t) = Some col ->
    nth_error cols (Z.to_nat t) = Some col) as PC.
  { intros t c Ht Hc. rewrite nth_error_app1 in Hc; [exact Hc|]. rewrite <- (F2_len _ _ _ FC). exact Ht. }
  (* the entry of the palette for a number *)
  assert (forall c n, numbered tm' c n -> 0 <= n /\ (Z.to_nat n < List.length ts)%nat /\
    exists x y z, nth_error cols (Z.to_nat n) = Some (x, y, z, 255) /\ shades c (x, y, z)) as NC.
  { intros [[cr cg] cb] n NU. apply (numbered_iff known names tm' _ _ V) in NU as [N0 N1]. destruct (F2_nth _ _ _ FT _ _ N1) as (t & Ht & Tx). cbn [cname texture_of] in Tx. injection Tx as <-.
    destruct (F2_nth _ _ _ FC _ _ Ht) as (c' & Hc' & CI). cbn [colour_is] in CI. destruct CI as (x & y & z & Sx & Sy & Sz & ->).
    split; [exact N0|]. split; [apply nth_error_Some; congruence|]. exists x, y, z. cbn [shades]. auto. }
  intros xyz r g b. split.
  - intros (c & Hc & C1 & Hn). destruct (F2_in _ _ _ FV _ Hc) as ([k tex] & He & VI). destruct (BE _ He) as (v & n & rr & _ & P & Et & Bn). cbn [fst snd] in P, Et.
    assert (v = xyz /\ c = n + 1) as [-> ->].
    { unfold voxel_is in VI. destruct k as [[kx ky] kz], v as [[x y] z]. cbn [fst snd] in VI. destruct VI as (t & r' & Es & _ & Q).
      destruct (key_whole _ _ _ _ _ _ P) as (Q1 & Q2 & Q3). rewrite Q1, Q2, Q3 in Q. assert (t = n) as -> by congruence. split; congruence. }
    destruct (PA xyz tex (proj1 (EB xyz tex) (ex_intro _ k (conj He P)))) as (c & nn & NU & Et' & _ & HC).
    assert (nn = n) as -> by (rewrite Et' in Et; cbn [repeat] in Et; congruence).
    replace (n + 1 - 1) with n in Hn by lia. destruct (NC c n NU) as (N0 & NL & x & y & z & Hx & SH). apply (PC n _ NL) in Hn.
    assert ((x, y, z) = (r, g, b)) as E by congruence. rewrite <- E. apply HC. exact SH.
  - intros HC. destruct (PB xyz _ HC) as (c & n & NU & HB & U). destruct (proj2 (EB xyz (repeat n 6)) HB) as (k & Hk & P).
    destruct (NC c n NU) as (N0 & NL & x & y & z & Hx & SH). apply U in SH.
    exists (n + 1). replace (n + 1 - 1) with n by lia. split; [|split; [lia|]].
    + destruct (In_nth_error _ _ Hk) as (i & Ei). destruct (F2_nth _ _ _ FV i _ Ei) as (vq & Hvq & VI). apply nth_error_In in Hvq.
      unfold voxel_is in VI. destruct k as [[kx ky] kz], xyz as [[x' y'] z']. cbn [fst snd] in VI. destruct VI as (t' & r' & Es & _ & ->).
      destruct (key_whole _ _ _ _ _ _ P) as (Q1 & Q2 & Q3). rewrite Q1, Q2, Q3 in Hvq. assert (t' = n) as -> by (cbn [repeat] in Es; congruence). exact Hvq.
    + rewrite nth_error_app1 by (apply nth_error_Some; congruence). congruence.
Qed.

(** ** The rooms of a generated map *)
Lemma rooms_painted (rooms : list obj) tm' :
  (forall ob s v q a rgb, In ob rooms -> In s shipped_rooms -> s_class s = r_cls (snd ob) -> read_file (s_file s) = Ok v ->
      voxel_colour (vf_voxels v) q = Some a -> nth_error (vm_palette (model_of v)) (Z.to_nat a) = Some rgb ->
      exists n, numbered tm' (intended (s_paint s) (r_turn (snd ob)) rgb) n) ->
  painted tm' (fun xyz tex => exists ob, In ob rooms /\ has_block tm' (snd ob) xyz tex) (fun xyz rgb => exists ob, In ob rooms /\ coloured_block (snd ob) xyz rgb).
Proof.
  intros RN. split.
  - intros xyz tex (ob & Hob & (s & v & q & a & cr & cg & cb & al & n & Hi & Ec & Ev & Col & Fq & Hp & NU & Et)).
    destruct (class_palette s v q a Hi Ev Col) as (_ & rgb & Hn & BY). cbn [model_of vm_palette] in Hn. rewrite nth_error_map, Hp in Hn. cbn [option_map] in Hn.
    assert (rgb = (cr, cg, cb)) as -> by congruence.
    exists (intended (s_paint s) (r_turn (snd ob)) (cr, cg, cb)), n. split; [exact NU|]. split; [exact Et|].
    assert (forall rgb, rgb = shown (s_paint s) (r_turn (snd ob)) (cr, cg, cb) -> coloured_block (snd ob) xyz rgb) as CB
      by (intros rgb E; exists s, v, q, a, cr, cg, cb, al; repeat (split; [assumption|]); exact E).
    split; [eexists; exists ob; split; [exact Hob|apply CB; reflexivity]|].
    intros [[x y] z] SH. exists ob. split; [exact Hob|]. apply CB.
    destruct (intended (s_paint s) (r_turn (snd ob)) (cr, cg, cb)) as [[ir ig] ib] eqn:EI. destruct SH as (Sx & Sy & Sz). symmetry. exact (shown_ok _ _ _ _ _ _ _ _ _ BY EI Sx Sy Sz).
  - intros xyz rgb (ob & Hob & (s & v & q & a & cr & cg & cb & al & Hi & Ec & Ev & Col & Fq & Hp & Er)).
    destruct (class_palette s v q a Hi Ev Col) as (_ & rgb0 & Hn & BY). pose proof Hn as Hn'. cbn [model_of vm_palette] in Hn. rewrite nth_error_map, Hp in Hn. cbn [option_map] in Hn.
    assert (rgb0 = (cr, cg, cb)) as -> by congruence. destruct (RN ob s v q a _ Hob Hi Ec Ev Col Hn') as (n & NU).
    exists (intended (s_paint s) (r_turn (snd ob)) (cr, cg, cb)), n. split; [exact NU|].
    split; [exists ob; split; [exact Hob|exists s, v, q, a, cr, cg, cb, al, n; auto 12]|].
    intros [[x y] z] SH. destruct (intended (s_paint s) (r_turn (snd ob)) (cr, cg, cb)) as [[ir ig] ib] eqn:EI. destruct SH as (Sx & Sy & Sz). rewrite Er. symmetry. exact (shown_ok _ _ _ _ _ _ _ _ _ BY EI Sx Sy Sz).
Qed.
Lemma block_some tm' r xyz tex : has_block tm' r xyz tex -> exists rgb, coloured_block r xyz rgb.
Proof.
  intros (s & v & q & a & cr & cg & cb & al & n' & Hi & Ec & Ev & Col & Fq & Hp & _). eexists. exists s, v, q, a, cr, cg, cb, al. repeat (split; [eassumption|]). reflexivity.
Qed.
Definition good_run (tm' : texman) (w : world (list Z)) (rooms : list obj) size : Prop :=
  good_world tm' w size (fun xyz tex => exists ob, In ob rooms /\ has_block tm' (snd ob) xyz tex) /\
  painted tm' (fun xyz tex => exists ob, In ob rooms /\ has_block tm' (snd ob) xyz tex) (fun xyz rgb => exists ob, In ob rooms /\ coloured_block (snd ob) xyz rgb).
Lemma generate_draws fuel e hue vecs tm size n ctf rooms m g tm' w m2 st g' : generate fuel e hue vecs tm size n false ctf rooms m g = (tm', Ok (w, m2, st), g') ->
  exists m1 g1, render_rooms hue vecs (u_rooms st) tm (new_world size) m1 g1 = (tm', Ok (w, m2), g').
Proof.
  unfold generate. destruct (lay_out fuel e n false ctf rooms g) as [[st1 [x|]] g1]; [discriminate|].
  destruct (add_entity m sunlight) as [m1|]; [|discriminate].
  destruct (render_rooms hue vecs (u_rooms st1) tm (new_world size) m1 g1) as [[tm1 [[w1 m3]|x]] g2] eqn:R; [|discriminate].
  intros E. assert (st1 = st) as <- by congruence. exists m1, g1. rewrite R. congruence.
Qed.
Lemma run_good fuel e hue vecs tm size n ctf rooms m g tm' w m2 st g' : true_vectors vecs -> manager tm -> exportable tm -> mirror_factor n -> good_env e ->
  0 <= size -> generate fuel e hue vecs tm size (Some n) false ctf rooms m g = (tm', Ok (w, m2, st), g') -> good_run tm' w (u_rooms st) size.
Proof.
  intros TV M X Hn G Hs EG. destruct (generate_lays _ _ _ _ _ _ _ _ _ _ _ _ _ _ _ _ _ EG) as (g1 & E).
  destruct (generate_ok fuel e hue vecs tm size n ctf rooms m g st g1 TV M Hn G E)
    as (tm2 & w2 & m3 & g3 & sun & ess & EG2 & L & D & _ & _ & _ & _ & _ & M' & _ & ST & _ & _ & B).
  assert (tm2 = tm') as -> by congruence. assert (w2 = w) as -> by congruence. clear EG2.
  destruct (generate_draws _ _ _ _ _ _ _ _ _ _ _ _ _ _ _ _ EG) as (m1 & g2 & R).
  assert (Forall (of_use ctf) (u_rooms st)) as F.
  { rewrite Forall_forall. intros ob Hob. destruct (room_bounds n ctf st ob L Hob) as (s & Hs' & Ec & _). exists s. auto. }
  destruct (rooms_ops_in (in_use ctf) (in_use_shipped ctf) hue vecs (u_rooms st) tm size m1 g2 TV F M) as (ops & tm3 & m4 & g4 & R2 & OPS).
  assert (w = wrun ops (new_world size)) as Ew by congruence. clear R2.
  assert (forall o, In o ops -> exists v, near v /\ op_pos o = doubled v) as NE.
  { intros o Ho. destruct (OPS o Ho) as (ob & d & v & Hob & Hd & Hv & P). exists v. split; [|exact P].
    destruct (room_cells n ctf st ob L Hob) as [_ W]. exact (near_cell v d Hv (W d Hd)). }
  split; [|exact (rooms_painted _ _ (rooms_numbers ctf hue vecs (u_rooms st) tm size m1 g2 tm' w m2 g' TV F M R))].
  apply (drawn_good tm tm' w size ops all_colours _ M X ST few_fit Ew NE Hs B).
  intros xyz tex (ob & Hob & s & vf & q & a & r0 & g0 & b0 & al & nn & _ & _ & _ & _ & _ & _ & NU & Et). eauto.
Qed.
Lemma good_written tm' w rooms size : good_run tm' w rooms size -> exists bs, vox_write w (tm_atlas tm') = Ok bs.
Proof. intros [(ops & known & names & ts & bs & _ & _ & _ & _ & _ & WR & _) _]. exists bs. exact WR. Qed.
Lemma good_rejected tm' w rooms size bs : good_run tm' w rooms size -> vox_write w (tm_atlas tm') = Ok bs -> exists x, vox_read 256 bs = Err x.
Proof. intros [GW _]. exact (world_rejected _ _ _ _ _ GW). Qed.
Lemma good_lost tm' w rooms size bs (ob : obj) xyz rgb : good_run tm' w rooms size -> vox_write w (tm_atlas tm') = Ok bs ->
  In ob rooms -> coloured_block (snd ob) xyz rgb -> ~ in_world 256 xyz -> forall n, exists x, vox_read n bs = Err x.
Proof.
  intros [GW [_ PB]] WR Hob HC NI. destruct (PB xyz rgb (ex_intro _ ob (conj Hob HC))) as (c & n & _ & HB & _). exact (world_lost _ _ _ _ _ _ _ GW WR HB NI).
Qed.
Lemma good_depicts tm' w rooms size bs : good_run tm' w rooms size -> vox_write w (tm_atlas tm') = Ok bs -> all_inside rooms ->
  exists f, info_read bs = Ok f /\ depicts f rooms.
Proof.
  intros [GW PT] WR AI. apply (world_shows _ _ _ _ _ _ GW PT WR). intros xyz rgb (ob & Hob & HC). exact (AI ob xyz rgb Hob HC).
Qed.
Lemma fresh_exportable known : has_base known -> exportable (tm_init known).
Proof.
  intros [H1 H2]. unfold tm_init, get, dmem. cbn. rewrite H1. cbn. rewrite H2. cbn. split; [apply Nat.leb_le; reflexivity|repeat constructor].
Qed.
Lemma inside_cells vecs (rooms : list obj) : true_vectors vecs ->
  forallb (fun ob => forallb (fun d : cell => let '(a, b, c) := d in (0 <=? a) && (a <? 32) && (0 <=? b) && (b <? 32) && (0 <=? c) && (c <? 32)) (positions (snd ob))) rooms = true ->
  all_inside rooms.
Proof.
  intros TV F ob xyz rgb Hob (s & v & q & a & cr & cg & cb & al & Hi & Ec & Ev & Col & Fq & _). rewrite forallb_forall in F. specialize (F ob Hob). rewrite forallb_forall in F.
  destruct (TV (O, snd ob)) as [HP HO]. cbn [snd] in HP, HO.
  destruct (reserved s (r_pos (snd ob)) (r_turn (snd ob)) (fst (vecs (O, snd ob))) (snd (vecs (O, snd ob))) Hi) as (v' & ps & Ev' & _ & _ & _ & RS).
  { rewrite (room_of_eq s _ _ Hi). split; assumption. }
  assert (v' = v) as -> by congruence. destruct xyz as [[x y] z].
  assert (In (x / 8, y / 8, z / 8) (positions (snd ob))) as Hd.
  { rewrite (same_positions s (snd ob) Hi (eq_sym Ec)). apply RS. exists q, a. split; [exact Col|]. rewrite Fq. apply cell_of. }
  specialize (F _ Hd). cbn beta iota in F. rewrite !Bool.andb_true_iff, !Z.leb_le, !Z.ltb_lt in F. cbn [in_world]. Z.div_mod_to_equations. lia.
Qed.
Lemma export_lemma fuel e hue vecs tm size n ctf rooms m g tm' w m2 st g' : true_vectors vecs -> manager tm -> exportable tm -> mirror_factor n -> good_env e ->
  0 <= size -> generate fuel e hue vecs tm size (Some n) false ctf rooms m g = (tm', Ok (w, m2, st), g') ->
  exists bs, vox_write w (tm_atlas tm') = Ok bs /\ (all_inside (u_rooms st) -> exists f, info_read bs = Ok f /\ depicts f (u_rooms st)).
Proof.
  intros TV M X Hn G Hs EG. pose proof (run_good fuel e hue vecs tm size n ctf rooms m g tm' w m2 st g' TV M X Hn G Hs EG) as GR.
  destruct (good_written _ _ _ _ GR) as (bs & WR). exists bs. split; [exact WR|]. exact (good_depicts _ _ _ _ _ GR WR).
Qed.
Lemma export_rejected fuel e hue vecs tm size n ctf rooms m g tm' w m2 st g' bs : true_vectors vecs -> manager tm -> exportable tm -> mirror_factor n -> good_env e ->
  0 <= size -> generate fuel e hue vecs tm size (Some n) false ctf rooms m g = (tm', Ok (w, m2, st), g') ->
  vox_write w (tm_atlas tm') = Ok bs -> exists x, vox_read 256 bs = Err x.
Proof.
  intros TV M X Hn G Hs EG. pose proof (run_good fuel e hue vecs tm size n ctf rooms m g tm' w m2 st g' TV M X Hn G Hs EG) as GR. exact (good_rejected _ _ _ _ _ GR).
Qed.
Lemma export_lost fuel e hue vecs tm size n ctf rooms m g tm' w m2 st g' bs : true_vectors vecs -> manager tm -> exportable tm -> mirror_factor n -> good_env e ->
  0 <= size -> generate fuel e hue vecs tm size (Some n) false ctf rooms m g = (tm', Ok (w, m2, st), g') ->
  vox_write w (tm_atlas tm') = Ok bs -> (exists ob xyz rgb, In ob (u_rooms st) /\ coloured_block (snd ob) xyz rgb /\ ~ in_world 256 xyz) ->
  forall c, exists x, vox_read c bs = Err x.
Proof.
  intros TV M X Hn G Hs EG WR (ob & xyz & rgb & Hob & HC & NI). pose proof (run_good fuel e hue vecs tm size n ctf rooms m g tm' w m2 st g' TV M X Hn G Hs EG) as GR.
  exact (good_lost _ _ _ _ _ ob xyz rgb GR WR Hob HC NI).
Qed.
Lemma export_unreadable hue vecs tm m : true_vectors vecs -> manager tm -> exportable tm ->
  exists fuel e rooms g tm' w m2 st g' bs, good_env e /\ generate fuel e hue vecs tm 256 (Some 2) false false rooms m g = (tm', Ok (w, m2, st), g') /\
    vox_write w (tm_atlas tm') = Ok bs /\ forall c, exists x, vox_read c bs = Err x.
Proof.
  intros TV M X. destruct (lost_blocks hue vecs tm m TV M) as (fuel & e & rooms & g & tm' & w & m2 & st & g' & G & EG & ob & p & tex & Hob & HB & NI).
  assert (mirror_factor 2) as H2 by (right; left; reflexivity).
  destruct (export_lemma fuel e hue vecs tm 256 2 false rooms m g tm' w m2 st g' TV M X H2 G ltac:(lia) EG) as (bs & WR & _).
  exists fuel, e, rooms, g, tm', w, m2, st, g', bs. split; [exact G|]. split; [exact EG|]. split; [exact WR|].
  destruct (block_some _ _ _ _ HB) as (rgb & HC).
  apply (export_lost fuel e hue vecs tm 256 2 false rooms m g tm' w m2 st g' bs TV M X H2 G ltac:(lia) EG WR). exists ob, p, rgb. auto.
Qed.
