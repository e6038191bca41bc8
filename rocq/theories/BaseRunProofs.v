(** Proofs about the map generator on every map that can be read, and about every run that fails. *)
From Verif Require Import Py VecModel VoxelModel VoxelSpec VoxelProofs CodecModel CodecSpec CodecProofs CodecParse CodecRead CodecMap OutModel OutSpec OutProofs UpmModel UpmSpec UpmFinal KitModel RoomClasses RoomModel
  MagicaModel RoomSpec TexModel TexSpec TexProofs LightModel LightSpec ShippedModel ShippedSpec ShippedProofs ShippedDraw DistModel DistSpec GenModel GenSpec GenLayout GenDraw GenProofs DebugModel DebugProofs
  ConfModel ConfSpec ConfProofs CopyModel CopySpec CopyProofs DiscModel DiscSpec DiscWriter DiscLoss DiscProofs TerrainDiscProofs.
Local Open Scope Z_scope.

(** ** Runs that fail *)
Lemma text_unread d f t : d f = Some (Txt t) -> exists e, parse d f = Err e.
Proof.
  intros E. unfold parse. rewrite E. unfold payload. destruct (String.eqb t ""); cbn [bind]; [|eauto].
  destruct (read_map []) eqn:R; [vm_compute in R; discriminate R|eauto].
Qed.
Lemma never_kept show tree decl fuelo fuel e hue vecs tm size mirror debug ctf rooms fl g d i o d' x :
  magica_rooms show tree decl fuelo fuel e hue vecs tm size mirror debug ctf rooms fl g d i o = (d', Some x) -> d i <> None ->
  same_but [o; cfg_name o] d d' /\
  ((exists y, parse d' o = Err y) \/ exists m q, write_out m = (q, Some x) /\ d' o = Some (Gz q)).
Proof.
  intros R Hi. unfold magica_rooms, command_line in R. destruct (d i) as [c|]; [|congruence].
  assert (forall dd, (dd, Some x) = (d', Some x) -> dd = store d o (Txt "") -> same_but [o; cfg_name o] d d' /\
    ((exists y, parse d' o = Err y) \/ exists m q, write_out m = (q, Some x) /\ d' o = Some (Gz q))) as Z0.
  { intros dd E ->. assert (d' = store d o (Txt "")) as -> by congruence. split.
    - intros f Hf. apply store_other. intros ->. apply Hf. left. reflexivity.
    - left. apply (text_unread _ _ ""). apply store_same. }
  destruct (parse _ i) as [m|y]; [|apply (Z0 (store d o (Txt ""))); [congruence|reflexivity]].
  destruct (update [] fl) as [extra|y]; [|apply (Z0 (store d o (Txt ""))); [congruence|reflexivity]].
  destruct (generate_any fuel e hue vecs tm size mirror debug ctf rooms m g) as [[tm1 [[[w m2] st]|y]] g1]; [|apply (Z0 (store d o (Txt ""))); [congruence|reflexivity]].
  clear Z0. unfold output_files in R.
  assert (forall t, (store (store d o (Txt "")) (cfg_name o) (Txt t) = d') -> same_but [o; cfg_name o] d d' /\
    ((exists y, parse d' o = Err y) \/ exists m q, write_out m = (q, Some x) /\ d' o = Some (Gz q))) as Z1.
  { intros t <-. split.
    - intros f Hf. rewrite !store_other; [reflexivity| |]; intros ->; apply Hf; cbn; auto.
    - left. destruct (String.eqb (cfg_name o) o) eqn:Q.
      + apply String.eqb_eq in Q. rewrite Q. apply (text_unread _ _ t). apply store_same.
      + apply String.eqb_neq in Q. apply (text_unread _ _ ""). rewrite store_other by congruence. apply store_same. }
  destruct (copy_data tree decl tm1) as [cp [y|]]; [exact (Z1 _ (f_equal fst R))|].
  destruct (with_world fuelo w m2) as [m3|y]; [|exact (Z1 _ (f_equal fst R))].
  unfold save in R. destruct (write_out m3) as [q y] eqn:W. assert (y = Some x) as -> by congruence.
  match type of R with (?dd, _) = _ => assert (d' = dd) as -> by congruence end. split.
  - intros f Hf. rewrite !store_other; [reflexivity| | |]; intros ->; apply Hf; cbn; auto.
  - right. exists m3, q. split; [exact W|apply store_same].
Qed.

(** ** Every map that can be read *)
Lemma s_ent_norm e : s_ent (norm_ent e) = s_ent e.
Proof.
  unfold s_ent, norm_ent. cbn [e_x e_y e_z e_type e_attrs e_links e_reserved]. rewrite map_length. f_equal. f_equal. f_equal.
  induction (e_attrs e) as [|a l IH]; [reflexivity|]. cbn [map each]. rewrite IH. destruct a; reflexivity.
Qed.
Lemma out_norm m : write_out (norm_map (set_numents m)) = write_out m.
Proof.
  unfold write_out. unfold norm_map, set_numents. cbn [m_magic m_version m_headersize m_meta m_vars m_texmru m_ents m_vslots m_chg m_world].
  rewrite map_length.
  assert (each s_ent (map norm_ent (m_ents m)) = each s_ent (m_ents m)) as ->.
  { induction (m_ents m) as [|e l IH]; [reflexivity|]. cbn [map each]. rewrite IH, s_ent_norm. reflexivity. }
  assert (forall d k v, dset String.eqb (dset String.eqb d k v) k v = dset String.eqb d k (v : mval)) as D.
  { induction d as [|[k' v'] d IH]; intros k v; cbn [dset]; [rewrite String.eqb_refl; reflexivity|].
    destruct (String.eqb k' k) eqn:E; cbn [dset]; rewrite ?E; [reflexivity|]. f_equal. apply IH. }
  rewrite D. reflexivity.
Qed.
Lemma norm_rd e : rd_ent e -> norm_ent e = e.
Proof.
  intros ((_ & _ & _ & _ & F & _) & _). destruct e as [x y z ty at_ l r]. unfold norm_ent. cbn [e_x e_y e_z e_type e_attrs e_links e_reserved] in *. f_equal.
  induction F as [|a at_ (v & [-> | ->]) F IH]; [reflexivity| |]; cbn [map norm_attr]; rewrite IH; reflexivity.
Qed.
Lemma wf_rd e : wf_entity e -> rd_ent e /\ Forall (fun r => r < 128) (e_reserved e).
Proof.
  intros (X & Y & Z0 & C & A & W & L1 & L2 & R3 & R). split.
  - split; [split; [exact X|]; split; [exact Y|]; split; [exact Z0|]; split; [exact C|]; split; [|exact W]|].
    + eapply Forall_impl; [|exact A]. intros a (z & H1 & _). exists z. exact H1.
    + split; [exact R3|]. split; [eapply Forall_impl; [|exact R]; intros r Hr; unfold is_char, is_byte in *; lia|]. split; [|auto].
      eapply Forall_impl; [|exact A]. intros a (z & [-> | ->] & H1); exact H1.
  - eapply Forall_impl; [|exact R]. intros r Hr. unfold is_char in Hr. lia.
Qed.

Lemma any_map k fuelo e hue vecs tm n ctf rooms m ws g fuel st g1 :
  true_vectors vecs -> byte_hues hue -> manager tm -> mirror_factor n -> good_env e ->
  (7 <= k)%nat -> (S k < fuelo)%nat -> rd_map m -> counted m -> header_size m = Some ws -> 2 ^ Z.of_nat (S k) <= ws <= 8192 ->
  Z.of_nat (List.length (tm_atlas tm)) <= 57000 -> len (m_ents m) <= 2 ^ 30 ->
  lay_out fuel e (Some n) false ctf rooms g = (st, None, g1) ->
  exists tm' w m2 g' sun ess m3, generate fuel e hue vecs tm (2 ^ Z.of_nat (S k)) (Some n) false ctf rooms m g = (tm', Ok (w, m2, st), g') /\
    stems tm tm' all_colours /\ with_world fuelo w m2 = Ok m3 /\ m_ents m2 = m_ents m ++ sun :: List.concat ess /\ is_sun sun /\ Forall2 (furniture hue) (u_rooms st) ess /\
    (plain_rest m -> exists bs m', write_map m3 = Ok bs /\ read_map bs = Ok m' /\ same_settings m m' /\ Forall2 same_entity (m_ents m2) (m_ents m') /\
       forall x y z tex, in_world (2 ^ Z.of_nat (S k)) (x, y, z) ->
         (world_lookup (S k) m' x y z = Some tex <-> exists ob, In ob (u_rooms st) /\ has_block tm' (snd ob) (x, y, z) tex)) /\
    (~ plain_rest m -> exists q x y, write_out m3 = (q, Some x) /\ read_map q = Err y).
Proof.
  intros TV BH M Hn G Hk Hf Rd Hc HS Hws HA HE E.
  destruct (generate_ok fuel e hue vecs tm (2 ^ Z.of_nat (S k)) n ctf rooms m g st g1 TV M Hn G E)
    as (tm' & w & m2 & g' & sun & ess & EG & L & D & IS & WS & ME & FA & FF & M' & K & S0 & SZ & [NE _] & B).
  assert (Forall (fun ob => of_use ctf ob /\ within 37 (r_pos (snd ob))) (u_rooms st)) as FU.
  { rewrite Forall_forall. intros ob Hob. destruct (room_bounds n ctf st ob L Hob) as (s & Hs & Ec & W). split; [exists s; auto|exact W]. }
  destruct (rooms_wf ctf hue (u_rooms st) ess BH FU FA) as [WE LE]. pose proof (room_count n ctf st L D) as RC.
  pose proof ME as (Ee & E1 & E2 & E3 & E4 & E5 & E6 & E7 & E8 & E9).
  pose proof Rd as (Hmag & Hver & Hhs & (h & ne & nv & G1 & G2 & G3 & G4 & G5 & G6 & G7 & G8) & K1 & K2 & K3 & K4 & K5 & K6 & K7 & K8).
  assert (Forall (fun e0 => wf_entity (norm_ent e0) /\ map attr_value (e_attrs (norm_ent e0)) = map attr_value (e_attrs e0)) (sun :: List.concat ess)) as WN.
  { constructor; [|exact WE]. rewrite (norm_wf sun WS). auto. }
  assert (map norm_ent (m_ents m) = m_ents m) as NM.
  { clear - K5. induction K5 as [|e0 l He F IH]; [reflexivity|]. cbn [map]. rewrite (norm_rd e0 He), IH. reflexivity. }
  assert (forall e0, In e0 (m_ents m2) -> rd_ent (norm_ent e0) /\ map attr_value (e_attrs (norm_ent e0)) = map attr_value (e_attrs e0)) as WA.
  { intros e0 He. rewrite Ee in He. rewrite Forall_forall in WN, K5. apply in_app_or in He as [He|He].
    - rewrite (norm_rd e0 (K5 e0 He)). auto.
    - destruct (WN e0 He) as [W V]. split; [apply wf_rd; exact W|exact V]. }
  set (mn := norm_map (set_numents m2)).
  assert (len (m_ents m2) < 2 ^ 31) as LE2.
  { unfold len in *. rewrite Ee, app_length. cbn [List.length]. lia. }
  assert (m_meta mn = header_meta h (len (m_ents m2)) nv) as Mm.
  { unfold mn, norm_map, set_numents. cbn [m_meta]. rewrite E4, G4. apply set_numents_meta. }
  assert (rd_map mn) as RN.
  { unfold rd_map. rewrite Mm. unfold mn, norm_map, set_numents.
    cbn [m_magic m_version m_headersize m_vars m_texmru m_ents m_vslots m_chg m_world]. rewrite E1, E2, E3, E5, E6, E7, E8, E9.
    do 3 (split; [assumption|]). split.
    { exists h, (len (m_ents m2)), nv. split; [exact G1|]. split; [unfold is_i32, len in *; change (2 ^ 31) with 2147483648 in *; lia|]. split; [exact G3|]. split; [reflexivity|]. split; [exact G5|].
      split; [unfold len; rewrite map_length; lia|]. auto. }
    do 4 (split; [assumption|]). split; [|auto]. rewrite Forall_map, Forall_forall. intros e0 He. apply WA, He. }
  assert (counted mn) as CN.
  { intros v Hv. assert (m_vars mn = m_vars m) as -> by (unfold mn, norm_map, set_numents; cbn [m_vars]; exact E5). apply Hc.
    unfold header_vars in *. rewrite G4. rewrite Mm in Hv. exact Hv. }
  assert (header_size mn = Some ws) as HSn by (unfold header_size in *; rewrite Mm; rewrite G4 in HS; exact HS).
  assert (plain_rest mn <-> plain_rest m) as PR.
  { unfold plain_rest, mn, norm_map, set_numents. cbn [m_ents m_chg]. rewrite E8, Ee, map_app, NM. rewrite Forall_app.
    assert (Forall (fun e0 => Forall (fun r => r < 128) (e_reserved e0)) (map norm_ent (sun :: List.concat ess))) as Q.
    { rewrite Forall_map. eapply Forall_impl; [|exact WN]. intros e0 [W _]. apply wf_rd in W. apply W. }
    tauto. }
  destruct (rebuilt_rd k fuelo w mn ws) as (wd & W & GP & GN); try assumption.
  - lia.
  - intros x y z tex Hg. apply B in Hg as (ob & _ & s & v & q & a & r & g0 & b & al & num & _ & _ & _ & _ & _ & _ & N & ->).
    split; [apply repeat_length|]. pose proof (numbered_small tm tm' all_colours _ _ M S0 N) as NS. pose proof count_colours as CC.
    rewrite Forall_forall. intros u Hu. apply repeat_spec in Hu. subst u. unfold is_u16. lia.
  - destruct (start_cell n ctf st Hn L) as (ob & d & Hob & Hd & Bd). destruct (NE ob d Hob Hd) as ([[x y] z] & tex & Hv & HB).
    exists x, y, z. assert (2 ^ 7 <= 2 ^ Z.of_nat k) as P by (apply Z.pow_le_mono_r; lia). change (2 ^ 7) with 128 in P.
    destruct d as [[a b] hh]. cbn [voxel_in_cell] in Hv. split; [lia|]. rewrite (proj2 (B x y z tex)) by eauto. discriminate.
  - exists tm', w, m2, g', sun, ess, (apply_edit m2 (SetWorld wd)). split; [exact EG|]. split; [exact S0|]. split; [apply W|]. split; [exact Ee|]. split; [exact IS|]. split; [exact FF|].
    change (apply_edit mn (SetWorld wd)) with (norm_map (set_numents (apply_edit m2 (SetWorld wd)))) in GP, GN. rewrite out_norm in GN. rewrite write_norm in GP. split.
    + intros P. apply PR in P. destruct (GP P) as (bs & m' & W1 & R & SR & _ & WL). exists bs, m'. split; [exact W1|]. split; [unfold read_map; rewrite R; reflexivity|].
      destruct SR as (R1 & R2 & R3 & R4 & R5 & R6 & R7 & R8 & R9).
      assert (m_meta (set_numents mn) = header_meta h (len (m_ents m2)) nv) as Mn.
      { unfold set_numents at 1. cbn [m_meta]. rewrite Mm. rewrite set_numents_meta. unfold mn, norm_map, set_numents. cbn [m_ents]. rewrite map_length. reflexivity. }
      rewrite Mn in R4. unfold mn, norm_map, set_numents in R1, R2, R3, R5, R6, R7, R8, R9.
      cbn [m_magic m_version m_headersize m_vars m_texmru m_ents m_vslots m_chg m_world] in R1, R2, R3, R5, R6, R7, R8, R9.
      assert (List.length (m_ents m') = List.length (m_ents m2)) as EL by (rewrite <- (F2_length _ _ _ R7), map_length; reflexivity).
      split.
      { unfold same_settings. rewrite R1, R2, R3, R4, R6, R8, R9, EL, E1, E2, E3, E6, E7, E8. rewrite <- E5. rewrite G4, set_numents_meta.
        do 4 (split; [reflexivity|]). split; [exact R5|]. auto. }
      split.
      { assert (forall l l', Forall2 same_entity (map norm_ent l) l' -> (forall e0, In e0 l -> map attr_value (e_attrs (norm_ent e0)) = map attr_value (e_attrs e0)) -> Forall2 same_entity l l') as Q.
        { clear. induction l as [|a l IH]; intros l' F Hl; inversion F as [|? b ? l2 Hab F2]; subst; constructor.
          - destruct Hab as (X & Y & Z0 & T & V & Lk & Rs). unfold same_entity. unfold norm_ent in X, Y, Z0, T, Lk, Rs. cbn [e_x e_y e_z e_type e_links e_reserved] in *.
            rewrite V, (Hl a (or_introl eq_refl)). auto 12.
          - apply IH; [exact F2|]. intros e0 He. apply Hl. right. exact He. }
        apply Q; [exact R7|]. intros e0 He. apply WA, He. }
      intros x y z tex (Hx & Hy & Hz). rewrite WL by (rewrite SZ; assumption). apply B.
    + intros NP. apply GN. intros P. apply NP, PR, P.
Qed.

(** The whole run on such a map. *)
Lemma run_any_map show tree k fuelo e hue vecs l fl n ctf rooms g d i o b m ws : In "data/hxr/empty.png"%string tree -> (forall c, one_line (show c)) -> incl fl choices ->
  true_vectors vecs -> byte_hues hue -> mirror_factor n -> good_env e ->
  (7 <= k)%nat -> (S k < fuelo)%nat -> d i = Some (Gz b) -> Forall is_byte b -> read_map b = Ok m -> counted m -> header_size m = Some ws -> 2 ^ Z.of_nat (S k) <= ws <= 8192 ->
  Z.of_nat (List.length (tm_atlas (asked (tm_init only_colours) l))) <= 57000 -> len (m_ents m) <= 2 ^ 30 -> i <> o ->
  exists fuel0, forall fuel, (fuel0 <= fuel)%nat -> exists d' res tm' w m2 st g' sun ess,
    magica_rooms show tree colour_files fuelo fuel e hue vecs (asked (tm_init only_colours) l) (2 ^ Z.of_nat (S k)) (Some n) false ctf rooms (Some fl) g d i o = (d', res) /\
    generate fuel e hue vecs (asked (tm_init only_colours) l) (2 ^ Z.of_nat (S k)) (Some n) false ctf rooms m g = (tm', Ok (w, m2, st), g') /\
    same_but [o; cfg_name o] d d' /\
    (plain_rest m -> res = None /\ exists m', parse d' o = Ok m' /\ same_settings m m' /\ Forall2 same_entity (m_ents m ++ sun :: List.concat ess) (m_ents m') /\ is_sun sun /\
       Forall2 (furniture hue) (u_rooms st) ess /\
       forall x y z tex, in_world (2 ^ Z.of_nat (S k)) (x, y, z) ->
         (world_lookup (S k) m' x y z = Some tex <-> exists ob, In ob (u_rooms st) /\ has_block tm' (snd ob) (x, y, z) tex)) /\
    (~ plain_rest m -> res <> None /\ exists y, parse d' o = Err y).
Proof.
  intros TR SH FL TV BH Hn G Hk Hf Ed Hb Hr Hc HS Hws HA HE N.
  assert (manager (asked (tm_init only_colours) l)) as M by (exists only_colours, l; split; [exact only_base|reflexivity]).
  destruct (lay_out_total n ctf e rooms g Hn G) as (fuel0 & T). exists fuel0. intros fuel Hl. destruct (T fuel Hl) as (st & g1 & E).
  destruct (any_map k fuelo e hue vecs _ n ctf rooms m ws g fuel st g1 TV BH M Hn G Hk Hf (read_rd b m Hb Hr) Hc HS Hws HA HE E)
    as (tm' & w & m2 & g' & sun & ess & m3 & EG & (reqs & ST & _) & EW & EE & IS & FF & GP & GN).
  assert (tm' = asked (tm_init only_colours) (l ++ reqs)) as Et by (rewrite ST; unfold asked; rewrite fold_left_app; reflexivity).
  assert (safe_table only_colours) as SK by (unfold safe_table; repeat constructor).
  destruct (flavours_text only_colours (l ++ reqs) show fl only_base SK FL) as (EU & _ & _).
  destruct (colours_installed tree (l ++ reqs) show SH TR) as (c & EC & _). rewrite <- Et in EC.
  assert (parse d i = Ok m) as P by (rewrite (parse_gz _ _ _ Ed); exact Hr).
  set (d2 := store (store d o (Txt "")) (cfg_name o) (Txt (config_text show tm' (List.concat (map setting_lines fl))))).
  destruct (write_out m3) as [q r] eqn:W. exists (store d2 o (Gz q)), r, tm', w, m2, st, g', sun, ess. split.
  { unfold magica_rooms, command_line. destruct (parse_there _ _ _ P) as (c0 & ->). rewrite parse_store, P, EU by exact N.
    rewrite (plain_same fuel e hue vecs _ (2 ^ Z.of_nat (S k)) n ctf rooms m g TV M Hn G), EG. unfold output_files. rewrite EC, EW. unfold save. rewrite W. reflexivity. }
  split; [exact EG|]. split.
  { intros f Hnf. unfold d2. rewrite !store_other; [reflexivity| | |]; intros ->; apply Hnf; cbn; auto. }
  rewrite (parse_gz (store d2 o (Gz q)) o q (store_same _ _ _)). split.
  - intros PR. destruct (GP PR) as (bs & m' & W1 & R & SS & SE & WL). pose proof (tracks_map m3) as TM. rewrite W1 in TM. unfold tracks in TM. rewrite W in TM.
    assert (q = bs) as -> by congruence. assert (r = None) as -> by congruence. split; [reflexivity|].
    exists m'. split; [exact R|]. split; [exact SS|]. split; [rewrite <- EE; exact SE|]. auto.
  - intros NP. destruct (GN NP) as (q' & x & y & W1 & R). assert (q' = q) as -> by congruence. split; [congruence|]. eauto.
Qed.
Lemma base_lost show tree k fuelo e hue vecs l fl n ctf rooms g d i o b m ws : In "data/hxr/empty.png"%string tree -> (forall c, one_line (show c)) -> incl fl choices ->
  true_vectors vecs -> byte_hues hue -> mirror_factor n -> good_env e ->
  (7 <= k)%nat -> (S k < fuelo)%nat -> d i = Some (Gz b) -> Forall is_byte b -> read_map b = Ok m -> counted m -> header_size m = Some ws -> 2 ^ Z.of_nat (S k) <= ws <= 8192 ->
  Z.of_nat (List.length (tm_atlas (asked (tm_init only_colours) l))) <= 57000 -> len (m_ents m) <= 2 ^ 30 -> i <> o -> ~ plain_rest m ->
  exists fuel0, forall fuel, (fuel0 <= fuel)%nat -> exists d' x y,
    magica_rooms show tree colour_files fuelo fuel e hue vecs (asked (tm_init only_colours) l) (2 ^ Z.of_nat (S k)) (Some n) false ctf rooms (Some fl) g d i o = (d', Some x) /\
    same_but [o; cfg_name o] d d' /\ parse d' o = Err y.
Proof.
  intros TR SH FL TV BH Hn G Hk Hf Ed Hb Hr Hc HS Hws HA HE N NP.
  destruct (run_any_map show tree k fuelo e hue vecs l fl n ctf rooms g d i o b m ws TR SH FL TV BH Hn G Hk Hf Ed Hb Hr Hc HS Hws HA HE N) as (fuel0 & T).
  exists fuel0. intros fuel Hl. destruct (T fuel Hl) as (d' & r & _ & _ & _ & _ & _ & _ & _ & E & _ & SB & _ & L). destruct (L NP) as (Hx & y & Y).
  destruct r as [x|]; [|congruence]. exists d', x, y. auto.
Qed.
Lemma base_written show tree k fuelo e hue vecs l fl n ctf rooms g d i o b m ws : In "data/hxr/empty.png"%string tree -> (forall c, one_line (show c)) -> incl fl choices ->
  true_vectors vecs -> byte_hues hue -> mirror_factor n -> good_env e ->
  (7 <= k)%nat -> (S k < fuelo)%nat -> d i = Some (Gz b) -> Forall is_byte b -> read_map b = Ok m -> counted m -> header_size m = Some ws -> 2 ^ Z.of_nat (S k) <= ws <= 8192 ->
  Z.of_nat (List.length (tm_atlas (asked (tm_init only_colours) l))) <= 57000 -> len (m_ents m) <= 2 ^ 30 -> i <> o -> plain_rest m ->
  exists fuel0, forall fuel, (fuel0 <= fuel)%nat -> exists d' tm' w m2 st g' sun ess m',
    magica_rooms show tree colour_files fuelo fuel e hue vecs (asked (tm_init only_colours) l) (2 ^ Z.of_nat (S k)) (Some n) false ctf rooms (Some fl) g d i o = (d', None) /\
    generate fuel e hue vecs (asked (tm_init only_colours) l) (2 ^ Z.of_nat (S k)) (Some n) false ctf rooms m g = (tm', Ok (w, m2, st), g') /\
    same_but [o; cfg_name o] d d' /\ parse d' o = Ok m' /\ same_settings m m' /\
    Forall2 same_entity (m_ents m ++ sun :: List.concat ess) (m_ents m') /\ is_sun sun /\ Forall2 (furniture hue) (u_rooms st) ess /\
    forall x y z tex, in_world (2 ^ Z.of_nat (S k)) (x, y, z) ->
      (world_lookup (S k) m' x y z = Some tex <-> exists ob, In ob (u_rooms st) /\ has_block tm' (snd ob) (x, y, z) tex).
Proof.
  intros TR SH FL TV BH Hn G Hk Hf Ed Hb Hr Hc HS Hws HA HE N NP.
  destruct (run_any_map show tree k fuelo e hue vecs l fl n ctf rooms g d i o b m ws TR SH FL TV BH Hn G Hk Hf Ed Hb Hr Hc HS Hws HA HE N) as (fuel0 & T).
  exists fuel0. intros fuel Hl. destruct (T fuel Hl) as (d' & r & tm' & w & m2 & st & g' & sun & ess & E & EG & SB & L & _). destruct (L NP) as (-> & m' & Y).
  exists d', tm', w, m2, st, g', sun, ess, m'. tauto.
Qed.
