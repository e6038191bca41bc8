(** Proofs about the terrain programs and their files. *)
From Coq Require Import QArith Qabs Lqa.
From Verif Require Import Py VecModel VoxelModel VoxelSpec VoxelProofs UpmModel KitProofs CodecModel CodecSpec CodecProofs CodecRead CodecMap OutModel OutSpec OutProofs TerrainModel TerrainSpec TerrainProofs JsonModel JsonSpec JsonProofs
  DiscModel DiscSpec DiscWriter DiscLoss DiscProofs TerrainDiscModel.
Local Open Scope Z_scope.

Lemma wcat_ents_ok l : Forall rd_ent l -> Forall (fun e => Forall (fun r => r < 128) (e_reserved e)) l -> exists b, wcat w_ent l = Ok b.
Proof. rewrite !Forall_forall. intros A B. apply wcat_ok. intros e He. apply w_ent_ok; auto. Qed.
Lemma write_world m w : savechildren w = savechildren (m_world m) -> write_map (apply_edit m (SetWorld w)) = write_map m.
Proof. intros E. unfold write_map. cbv zeta. cbn [apply_edit set_numents m_magic m_version m_headersize m_meta m_vars m_texmru m_ents m_vslots m_chg m_world]. rewrite E. reflexivity. Qed.

Lemma rebuilt_rd k fuel (v : world (list Z)) m ws :
  (1 <= k)%nat -> (S k < fuel)%nat -> w_size v = 2 ^ Z.of_nat (S k) -> rd_map m -> counted m ->
  header_size m = Some ws -> 2 ^ Z.of_nat (S k) <= ws <= 8192 ->
  (forall x y z tex, get_point v (I x) (I y) (I z) = Some tex -> tex_ok tex) ->
  (exists x y z, (0 <= x < 2 ^ Z.of_nat k /\ 0 <= y < 2 ^ Z.of_nat k /\ 0 <= z < 2 ^ Z.of_nat k) /\ get_point v (I x) (I y) (I z) <> None) ->
  exists w, (forall m0, with_world fuel v m0 = Ok (apply_edit m0 (SetWorld w))) /\
    (plain_rest m -> exists bs m', write_map (apply_edit m (SetWorld w)) = Ok bs /\ read_rest bs = Ok (m', []) /\ same_rest (set_numents m) m' /\
       write_map (apply_edit m' (SetWorld w)) = Ok bs /\
       forall x y z, 0 <= x < w_size v -> 0 <= y < w_size v -> 0 <= z < w_size v -> world_lookup (S k) m' x y z = get_point v (I x) (I y) (I z)) /\
    (~ plain_rest m -> exists q x e, write_out (apply_edit m (SetWorld w)) = (q, Some x) /\ read_map q = Err e).
Proof.
  intros Hk Hf Hs Rd Hn Hh Hws Htex (x0 & y0 & z0 & (Hx0 & Hy0 & Hz0) & Hne).
  destruct (octree_wf k fuel v ws Hf Hs Hws Htex) as (l & E & L8 & Hsh & Hwfc & Hl).
  destruct l as [|t0 l]; [discriminate|].
  assert (Ht0 : exists l0, t0 = TNode l0).
  { destruct t0 as [|tex|l0]; [| |eauto].
    - exfalso. apply Hne. pose proof (pow_S k). rewrite <- Hl by (rewrite ?Hs; lia). cbn [tlookup]. cbv zeta.
      rewrite !Z.div_small by lia. cbn. destruct k; reflexivity.
    - specialize (Hsh _ (or_introl eq_refl)). destruct k; [lia|discriminate Hsh]. }
  destruct Ht0 as (l0 & ->).
  set (w := map tree_cube (TNode l0 :: l)). exists w.
  assert (Hw : Forall (wf_cube (ws / 2)) w).
  { unfold w. apply Forall_forall. intros c Hc. apply in_map_iff in Hc. destruct Hc as (t & <- & Ht). rewrite Forall_forall in Hwfc. apply Hwfc. exact Ht. }
  assert (W8 : List.length w = 8%nat) by (unfold w; rewrite map_length; exact L8).
  split; [intros m0; unfold with_world; rewrite E; reflexivity|].
  pose proof (rd_map_fits m Rd Hn) as Ft.
  destruct (map_front m Rd Hn) as (fb & hh & Hsl & _ & Ew & Hp).
  destruct Rd as (Hmag & Hver & Hhs & (h & ne & nv & G1 & G2 & G3 & G4 & G5 & G6 & G7 & G8) & K1 & K2 & K3 & K4 & K5 & K6 & K7 & K8).
  assert (EW : h_worldsize h = ws) by (unfold header_size in Hh; rewrite G4 in Hh; cbn in Hh; congruence).
  assert (Hsav : exists bw, each s_cube w = (bw, None) /\ savechildren w = Ok bw).
  { destruct (wcat_ok_all savec _ _ Hw) as (bw & EB); [intros c; apply wf_savec|]. exists bw. split; [|exact EB]. exact (each_ok _ savec _ _ tracks_cube EB). }
  destruct Hsav as (bw & Sw & Sv).
  pose (m1 := apply_edit m (SetWorld w)). specialize (Ew w).
  change (Map (m_magic m) (m_version m) (m_headersize m) (m_meta m) (m_vars m) (m_texmru m) (m_ents m) (m_vslots m) (m_chg m) w) with (apply_edit m (SetWorld w)) in Ew.
  fold m1 in Ew |- *. split.
  - intros (P1 & P2).
    destruct (wcat_ents_ok _ K5 P1) as (be & We).
    assert (exists bc, wcat w_chg (m_chg m) = Ok bc) as (bc & Wc).
    { rewrite Forall_forall in P2, K7. apply wcat_ok. intros c Hc. unfold w_chg. rewrite w_i32_ok by auto. cbn [bind]. specialize (P2 c Hc).
      replace (c <? 0) with true by lia. eauto. }
    assert (exists bs, write_map m1 = Ok bs) as (bs & W1).
    { pose proof (tracks_map m1) as T. rewrite (each_ok _ w_ent _ _ (fun x => tracks_ent x) We), (each_ok _ w_chg _ _ tracks_chg Wc), Sw in Ew. cbn [andthen] in Ew. rewrite Ew in T.
      destruct (write_map m1) as [bs|x]; [eauto|discriminate T]. }
    assert (F1 : fits_map m1).
    { destruct Ft as (A1 & A2 & A3 & A4 & A5 & A6 & _). unfold fits_map, m1. cbn [apply_edit m_magic m_version m_headersize m_meta m_vars m_texmru m_ents m_vslots m_chg m_world].
      split; [exact A1|]. split; [|auto 10]. exists h, ne, nv. split; [apply G1|]. split; [exact G4|].
      split; [apply Hn; unfold header_vars; rewrite G4; reflexivity|]. split; [exact G7|]. rewrite EW. eapply Forall_impl; [|exact Hw]. intros c. apply wf_fits. }
    destruct (rt_map m1 bs F1 W1) as (m' & HR & HS & HW).
    exists bs, m'. split; [exact W1|]. split.
    { unfold read_rest. specialize (HR (S (List.length bs)) (le_S _ _ (le_n _)) []). rewrite app_nil_r in HR. exact HR. }
    destruct HS as (S1 & S2 & S3 & S4 & S5 & S6 & S7 & S8 & S9 & S10).
    change (m_meta (set_numents m1)) with (m_meta (set_numents m)) in S4.
    unfold m1 in S1, S2, S3, S5, S6, S7, S8, S9, S10.
    cbn [set_numents apply_edit m_magic m_version m_headersize m_vars m_texmru m_ents m_vslots m_chg m_world] in S1, S2, S3, S5, S6, S7, S8, S9, S10.
    split; [unfold same_rest; cbn [set_numents m_magic m_version m_headersize m_vars m_texmru m_ents m_vslots m_chg]; auto 10|]. split.
    { rewrite write_world; [exact HW|]. rewrite Sv. symmetry. unfold savechildren in *. eapply (wcat_same savec savec); [exact S10| |exact Sv]. intros x y b0 Hxy. apply savec_same. exact Hxy. }
    intros x y z Hx Hy Hz. rewrite <- Hl by assumption. rewrite <- clookup_tree. unfold world_lookup.
    apply (clookup_same (tree_cube (TNode (TNode l0 :: l)))).
    apply (same_node _ _ w (m_world m')); try reflexivity. exact S10.
  - intros NP. destruct (each s_ent (m_ents m)) as [be [x|]] eqn:Ee; [|destruct (each s_chg (m_chg m)) as [bc [x|]] eqn:Ec].
    + exists (fb ++ be), x. rewrite Ew. cbn [andthen]. unfold read_map, read_rest.
      destruct (Hp (S (List.length (fb ++ be)))) as (K & HK); [rewrite app_length; lia|]. rewrite HK.
      match goal with |- context [bind (?p be) _] => assert (S : stuck p be) end.
      { apply stuck_bind. eapply ents_stuck; [exact K5|exact Ee|rewrite app_length; lia]. }
      destruct S as (e & ->). exists e. auto.
    + exists (fb ++ be ++ bc), x. rewrite Ew. cbn [andthen]. unfold read_map, read_rest.
      destruct (Hp (S (List.length (fb ++ be ++ bc)))) as (K & HK); [rewrite app_length; lia|]. rewrite HK.
      match goal with |- context [bind (?p (be ++ bc)) _] => assert (S : stuck p (be ++ bc)) end.
      { assert (We : wcat w_ent (m_ents m) = Ok be) by (eapply tracks_ok; [|exact Ee]; apply tracks_each; intros; apply tracks_ent).
        destruct (rt_ents (m_ents m)) with (bs := be) as (ents & Re); [eapply Forall_impl; [|exact K5]; intros e He; apply He|exact We|].
        eapply stuck_after; [apply Re; rewrite !app_length; lia|]. apply stuck_bind. eapply chg_stuck; [exact K7|exact Hsl|exact Ec]. }
      destruct S as (e & ->). exists e. auto.
    + exfalso. apply NP. split.
      * assert (We : wcat w_ent (m_ents m) = Ok be) by (eapply tracks_ok; [|exact Ee]; apply tracks_each; intros; apply tracks_ent).
        rewrite Forall_forall in K5 |- *. intros e He. apply (w_ent_ok e (K5 e He)). eapply wcat_in; eassumption.
      * assert (Wc : wcat w_chg (m_chg m) = Ok bc) by (eapply tracks_ok; [|exact Ec]; apply tracks_each; intros; apply tracks_chg).
        apply Forall_forall. intros c Hc. destruct (wcat_in _ _ _ _ Wc Hc) as (b0 & Eb). unfold w_chg in Eb.
        destruct (w_i32 c); [|discriminate]. cbn [bind] in Eb. destruct (Z.ltb_spec c 0); [assumption|discriminate].
Qed.

Lemma rebuilt k fuel (v : world (list Z)) b m ws :
  (1 <= k)%nat -> (S k < fuel)%nat -> w_size v = 2 ^ Z.of_nat (S k) -> Forall is_byte b -> read_map b = Ok m -> counted m ->
  header_size m = Some ws -> 2 ^ Z.of_nat (S k) <= ws <= 8192 ->
  (forall x y z tex, get_point v (I x) (I y) (I z) = Some tex -> tex_ok tex) ->
  (exists x y z, (0 <= x < 2 ^ Z.of_nat k /\ 0 <= y < 2 ^ Z.of_nat k /\ 0 <= z < 2 ^ Z.of_nat k) /\ get_point v (I x) (I y) (I z) <> None) ->
  exists w, (forall m0, with_world fuel v m0 = Ok (apply_edit m0 (SetWorld w))) /\
    (plain_rest m -> exists bs m', write_map (apply_edit m (SetWorld w)) = Ok bs /\ read_rest bs = Ok (m', []) /\ same_rest (set_numents m) m' /\
       write_map (apply_edit m' (SetWorld w)) = Ok bs /\
       forall x y z, 0 <= x < w_size v -> 0 <= y < w_size v -> 0 <= z < w_size v -> world_lookup (S k) m' x y z = get_point v (I x) (I y) (I z)) /\
    (~ plain_rest m -> exists q x e, write_out (apply_edit m (SetWorld w)) = (q, Some x) /\ read_map q = Err e).
Proof. intros Hk Hf Hs Hb Hr. apply (rebuilt_rd k fuel v m ws Hk Hf Hs (read_rd b m Hb Hr)). Qed.

(** A world of a terrain program in a file. *)
Lemma rebuild_writes k fuel (v : world (list Z)) d i o b m ws :
  (1 <= k)%nat -> (S k < fuel)%nat -> w_size v = 2 ^ Z.of_nat (S k) -> d i = Some (Gz b) -> Forall is_byte b -> read_map b = Ok m -> counted m ->
  header_size m = Some ws -> 2 ^ Z.of_nat (S k) <= ws <= 8192 ->
  (forall x y z tex, get_point v (I x) (I y) (I z) = Some tex -> tex_ok tex) ->
  (exists x y z, (0 <= x < 2 ^ Z.of_nat k /\ 0 <= y < 2 ^ Z.of_nat k /\ 0 <= z < 2 ^ Z.of_nat k) /\ get_point v (I x) (I y) (I z) <> None) ->
  plain_rest m ->
  exists d' m', rebuild fuel v d i o = (d', None) /\ same_but [o] d d' /\ parse d' o = Ok m' /\ same_rest (set_numents m) m' /\
    (forall o2, exists d2, rebuild fuel v d' o o2 = (d2, None) /\ d2 o2 = d' o) /\
    forall x y z, 0 <= x < w_size v -> 0 <= y < w_size v -> 0 <= z < w_size v -> world_lookup (S k) m' x y z = get_point v (I x) (I y) (I z).
Proof.
  intros Hk Hf Hs E Hb Hr Hn Hh Hws Htex Hne P.
  destruct (rebuilt k fuel v b m ws Hk Hf Hs Hb Hr Hn Hh Hws Htex Hne) as (w & W & G & _).
  destruct (G P) as (bs & m' & W1 & R & S & W2 & L).
  assert (Rm : read_map bs = Ok m') by (unfold read_map; rewrite R; reflexivity).
  assert (Pm : parse (store d o (Gz bs)) o = Ok m') by (rewrite (parse_gz _ _ bs) by apply store_same; exact Rm).
  exists (store d o (Gz bs)), m'. split; [unfold rebuild; rewrite (parse_gz _ _ _ E), Hr, W; apply save_ok; exact W1|].
  split; [apply store_but|]. split; [exact Pm|]. split; [exact S|]. split; [|exact L].
  intros o2. exists (store (store d o (Gz bs)) o2 (Gz bs)). split; [|rewrite !store_same; reflexivity].
  unfold rebuild. rewrite Pm, W. apply save_ok. exact W2.
Qed.
Lemma rebuild_lost k fuel (v : world (list Z)) d i o b m ws :
  (1 <= k)%nat -> (S k < fuel)%nat -> w_size v = 2 ^ Z.of_nat (S k) -> d i = Some (Gz b) -> Forall is_byte b -> read_map b = Ok m -> counted m ->
  header_size m = Some ws -> 2 ^ Z.of_nat (S k) <= ws <= 8192 ->
  (forall x y z tex, get_point v (I x) (I y) (I z) = Some tex -> tex_ok tex) ->
  (exists x y z, (0 <= x < 2 ^ Z.of_nat k /\ 0 <= y < 2 ^ Z.of_nat k /\ 0 <= z < 2 ^ Z.of_nat k) /\ get_point v (I x) (I y) (I z) <> None) ->
  ~ plain_rest m -> exists d' x e, rebuild fuel v d i o = (d', Some x) /\ same_but [o] d d' /\ parse d' o = Err e.
Proof.
  intros Hk Hf Hs E Hb Hr Hn Hh Hws Htex Hne P.
  destruct (rebuilt k fuel v b m ws Hk Hf Hs Hb Hr Hn Hh Hws Htex Hne) as (w & W & _ & G).
  destruct (G P) as (q & x & e & W1 & R). exists (store d o (Gz q)), x, e.
  split; [unfold rebuild, save; rewrite (parse_gz _ _ _ E), Hr, W, W1; reflexivity|]. split; [apply store_but|].
  rewrite (parse_gz _ _ q) by apply store_same. exact R.
Qed.

(** ** perlin *)
Lemma perlin_tex noise g x y z tex : get_point (perlin_world noise g) (I x) (I y) (I z) = Some tex -> tex_ok tex.
Proof.
  intros E. destruct (perlin_world_ok noise g) as (_ & G). pose proof (G x y z) as Gp. unfold at_pos in Gp. rewrite E in Gp.
  destruct (((0 <=? x) && (x <? 128)) && ((0 <=? y) && (y <? 128)) && ((0 <=? z) && (z <? 50))); [|discriminate].
  unfold point in Gp. destruct (dmem peqb (fst (tree_density noise g)) (x, y)); [|destruct (_ && _ && _); [|destruct (Qltb _ _); [|discriminate]]];
  (assert (tex = _) as -> by (symmetry in Gp; injection Gp as Gp; symmetry; exact Gp)); (split; [reflexivity|]); repeat (constructor; [unfold is_u16; lia|]); constructor.
Qed.
Lemma perlin_ground noise g : bounded noise ->
  exists x y z, (0 <= x < 2 ^ Z.of_nat 6 /\ 0 <= y < 2 ^ Z.of_nat 6 /\ 0 <= z < 2 ^ Z.of_nat 6) /\ get_point (perlin_world noise g) (I x) (I y) (I z) <> None.
Proof.
  intros Bd. destruct (perlin_world_ok noise g) as (_ & G). exists 0, 0, 0. split; [cbn; lia|]. pose proof (G 0 0 0) as Gp. unfold at_pos in Gp. rewrite Gp, box_in by lia.
  apply point_some. apply Qlt_le_trans with (inject_Z 25); [rewrite <- Zlt_Qlt; reflexivity|apply ground_range; exact Bd].
Qed.
Lemma perlin_column noise g i j k : bounded noise -> 0 <= i < 128 -> 0 <= j < 128 -> 0 <= k < 128 -> column noise g i j k (get_point (perlin_world noise g) (I i) (I j) (I k)).
Proof.
  intros Bd Hi Hj Hk. destruct (perlin_world_ok noise g) as (_ & G). pose proof (G i j k) as Gp. unfold at_pos in Gp. rewrite Gp. clear Gp. unfold column. split.
  - intros H. rewrite box_in by (assumption || apply Hk). apply Z.ltb_ge in H. rewrite H. reflexivity.
  - intros H. rewrite box_in by (assumption || apply Hk). apply Z.ltb_lt in H. rewrite H. apply point_ok; assumption.
Qed.
Lemma perlin_file fuel noise g d i o b m ws : bounded noise -> (8 <= fuel)%nat -> d i = Some (Gz b) -> Forall is_byte b -> read_map b = Ok m -> counted m ->
  header_size m = Some ws -> 128 <= ws <= 8192 -> plain_rest m ->
  exists d' m', perlin_py fuel noise g d i o = (d', None) /\ same_but [o] d d' /\ parse d' o = Ok m' /\ same_rest (set_numents m) m' /\
    (forall o2, exists d2, perlin_py fuel noise g d' o o2 = (d2, None) /\ d2 o2 = d' o) /\
    forall x y z, 0 <= x < 128 -> 0 <= y < 128 -> 0 <= z < 128 -> column noise g x y z (world_lookup 7 m' x y z).
Proof.
  intros Bd Hf E Hb Hr Hn Hh Hws P. destruct (perlin_world_ok noise g) as (Sz & _).
  destruct (rebuild_writes 6 fuel (perlin_world noise g) d i o b m ws) as (d' & m' & A & B & C & D & F & L); try assumption; try lia.
  - exact (perlin_tex noise g).
  - exact (perlin_ground noise g Bd).
  - exists d', m'. do 5 (split; [assumption|]). intros x y z Hx Hy Hz. rewrite L by (rewrite Sz; assumption). apply perlin_column; assumption.
Qed.
Lemma perlin_lost fuel noise g d i o b m ws : bounded noise -> (8 <= fuel)%nat -> d i = Some (Gz b) -> Forall is_byte b -> read_map b = Ok m -> counted m ->
  header_size m = Some ws -> 128 <= ws <= 8192 -> ~ plain_rest m ->
  exists d' x e, perlin_py fuel noise g d i o = (d', Some x) /\ same_but [o] d d' /\ parse d' o = Err e.
Proof.
  intros Bd Hf E Hb Hr Hn Hh Hws P. destruct (perlin_world_ok noise g) as (Sz & _).
  apply (rebuild_lost 6 fuel (perlin_world noise g) d i o b m ws); try assumption; try lia; [exact (perlin_tex noise g)|exact (perlin_ground noise g Bd)].
Qed.

(** ** snow_forest *)
Lemma snow_untouched fuel noise d i o m : parse d i = Ok m ->
  (exists i j, (0 <= i < 256) /\ (0 <= j < 256) /\ (has_tree noise i j \/ has_spawn noise i j \/ has_rock noise i j)) -> snow_py fuel noise d i o = (d, Some TypeError).
Proof. intros P F. apply feature_spec in F. unfold snow_py. rewrite P, entities_ok, F. reflexivity. Qed.

Lemma snow_tex noise x y z tex : get_point (snow_world noise) (I x) (I y) (I z) = Some tex -> tex_ok tex.
Proof.
  destruct (snow_world_ok noise) as (_ & G). revert G. generalize (snow_world noise). intros v G E. pose proof (G x y z) as Gp. unfold at_pos in Gp. rewrite E in Gp. destruct (_ && _) in Gp; [|discriminate].
  assert (tex = repeat (if point_snow noise x y then 13 else 11) 6) as -> by congruence. split; [apply repeat_length|].
  rewrite Forall_forall. intros u Hu. apply repeat_spec in Hu. subst u. unfold is_u16. destruct (point_snow noise x y); lia.
Qed.
Lemma snow_floor noise : bounded noise ->
  exists x y z, (0 <= x < 2 ^ Z.of_nat 7 /\ 0 <= y < 2 ^ Z.of_nat 7 /\ 0 <= z < 2 ^ Z.of_nat 7) /\ get_point (snow_world noise) (I x) (I y) (I z) <> None.
Proof.
  intros Bd. destruct (snow_world_ok noise) as (_ & G). revert G. generalize (snow_world noise). intros v G. destruct (level_exists noise 0 0 Bd) as (h & L & Hh). exists 0, 0, (h - 2). split; [cbn; lia|].
  pose proof (G 0 0 (h - 2)) as Gp. unfold at_pos in Gp. rewrite Gp. cbv zeta. rewrite (level_ok _ _ _ _ Bd L). replace (_ && _) with true by lia. discriminate.
Qed.
Lemma snow_ground noise i j z h : bounded noise -> 0 <= i < 256 -> 0 <= j < 256 -> 0 <= z < 256 -> snow_level noise i j h ->
  (snow_block i j h z -> (snowy noise i j -> get_point (snow_world noise) (I i) (I j) (I z) = Some (repeat 13 6)) /\ (~ snowy noise i j -> get_point (snow_world noise) (I i) (I j) (I z) = Some (repeat 11 6))) /\
  (~ snow_block i j h z -> get_point (snow_world noise) (I i) (I j) (I z) = None).
Proof.
  intros Bd Hi Hj Hz L. destruct (snow_world_ok noise) as (_ & G). revert G. generalize (snow_world noise). intros v G.
  pose proof (G i j z) as Gp. unfold at_pos in Gp. rewrite Gp. cbv zeta. rewrite (level_ok _ _ _ _ Bd L). clear - Hi Hj Hz.
  pose proof (border_ok i j) as BO. unfold snow_block. rewrite <- BO. clear BO. unfold snowy. rewrite <- Qltb_spec. fold (point_snow noise i j).
  replace ((0 <=? i) && (i <? 256) && ((0 <=? j) && (j <? 256))) with true by lia. cbn [andb]. split.
  + intros H. replace ((h - 2 <=? z) && (z <? h) || borderb i j && ((h - 2 <=? z) && (z <? h + 9))) with true by (destruct (borderb i j); lia).
    destruct (point_snow noise i j); split; intros; congruence.
  + intros H. replace ((h - 2 <=? z) && (z <? h) || borderb i j && ((h - 2 <=? z) && (z <? h + 9))) with false by (destruct (borderb i j); lia). reflexivity.
Qed.
Lemma no_features noise : (forall i j, 0 <= i < 256 -> 0 <= j < 256 -> ~ has_tree noise i j /\ ~ has_spawn noise i j /\ ~ has_rock noise i j) -> snow_entities noise = Ok tt.
Proof.
  intros NF. rewrite entities_ok. destruct (existsb (fun c => feature noise (fst c) (snd c)) (square 256)) eqn:EF; [|reflexivity].
  apply feature_spec in EF as (i & j & Hi & Hj & F). destruct (NF i j Hi Hj) as (N1 & N2 & N3). tauto.
Qed.
Lemma snow_runs fuel noise d i o m : parse d i = Ok m ->
  (forall i j, 0 <= i < 256 -> 0 <= j < 256 -> ~ has_tree noise i j /\ ~ has_spawn noise i j /\ ~ has_rock noise i j) ->
  snow_py fuel noise d i o = rebuild fuel (snow_world noise) d i o.
Proof. intros P NF. unfold snow_py. rewrite P, (no_features noise NF). reflexivity. Qed.
Lemma snow_file fuel noise d i o b m ws : bounded noise -> (9 <= fuel)%nat -> d i = Some (Gz b) -> Forall is_byte b -> read_map b = Ok m -> counted m ->
  header_size m = Some ws -> 256 <= ws <= 8192 -> plain_rest m ->
  (forall i j, 0 <= i < 256 -> 0 <= j < 256 -> ~ has_tree noise i j /\ ~ has_spawn noise i j /\ ~ has_rock noise i j) ->
  exists d' m', snow_py fuel noise d i o = (d', None) /\ same_but [o] d d' /\ parse d' o = Ok m' /\ same_rest (set_numents m) m' /\
    (forall o2, exists d2, snow_py fuel noise d' o o2 = (d2, None) /\ d2 o2 = d' o) /\
    forall i j z h, 0 <= i < 256 -> 0 <= j < 256 -> 0 <= z < 256 -> snow_level noise i j h ->
      (snow_block i j h z -> (snowy noise i j -> world_lookup 8 m' i j z = Some (repeat 13 6)) /\ (~ snowy noise i j -> world_lookup 8 m' i j z = Some (repeat 11 6))) /\
      (~ snow_block i j h z -> world_lookup 8 m' i j z = None).
Proof.
  intros Bd Hf E Hb Hr Hn Hh Hws P NF. pose proof (proj1 (snow_world_ok noise)) as Sz. pose proof (snow_tex noise) as TX. pose proof (snow_floor noise Bd) as FL.
  pose proof (fun i j z h => snow_ground noise i j z h Bd) as GR.
  assert (Pm : parse d i = Ok m) by (rewrite (parse_gz _ _ _ E); exact Hr).
  pose proof (fun d i m o (Pm : parse d i = Ok m) => snow_runs fuel noise d i o m Pm NF) as RU.
  revert Sz TX FL GR RU. generalize (snow_world noise). intros v Sz TX FL GR RU.
  destruct (rebuild_writes 7 fuel v d i o b m ws) as (d' & m' & A & B & C & D & F & L); try assumption; try lia.
  - exists d', m'. split; [rewrite (RU d i m o Pm); exact A|]. do 3 (split; [assumption|]).
    split; [intros o2; rewrite (RU d' o m' o2 C); apply F|].
    intros x y z h Hx Hy Hz Hl. rewrite !L by (rewrite Sz; assumption). apply GR; assumption.
Qed.

(** ** Files that are no maps *)
Lemma terrain_not_a_map fuel noise g d i o x : (d i = None /\ x = FileNotFoundError) \/ (exists b, d i = Some (Gz b) /\ read_map b = Err x) ->
  perlin_py fuel noise g d i o = (d, Some x) /\ snow_py fuel noise d i o = (d, Some x).
Proof.
  intros E. assert (P : parse d i = Err x).
  { unfold parse. destruct E as [[-> ->]|(b & -> & R)]; [reflexivity|exact R]. }
  unfold perlin_py, rebuild, snow_py. rewrite P. split; reflexivity.
Qed.

(** ** from_json *)
Lemma json_leaves m j d o : wf_map m -> to_json m = Ok j ->
  (m_ents m <> [] -> exists x, from_json_py j d o = (d, Some x)) /\
  (m_ents m = [] -> exists d' x, from_json_py j d o = (d', None) /\ same_but [o] d d' /\ parse d' o = Err x).
Proof.
  intros Hw Hj. split.
  - intros N. destruct (json_entities_lemma m j N Hj) as (e & E). exists e. unfold from_json_py. rewrite E. reflexivity.
  - intros N. destruct (json_file_lemma m j Hw Hj N) as (bs & w & e & _ & _ & F & R). unfold from_json_main in F. unfold from_json_py.
    destruct (from_dict j) as [m'|]; [|discriminate]. cbn [bind] in F. exists (store d o (Gz bs)), e. split; [apply save_ok; exact F|]. split; [apply store_but|].
    rewrite (parse_gz _ _ bs) by apply store_same. exact R.
Qed.
