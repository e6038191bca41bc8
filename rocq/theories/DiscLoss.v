(** Proofs that what the map writer leaves when it raises cannot be read. *)
From Verif Require Import Py VecModel CodecModel CodecSpec CodecProofs CodecParse CodecRead CodecMap DiscModel DiscSpec DiscWriter.
Local Open Scope Z_scope.

Definition stuck {A} (p : P A) (b : list Z) : Prop := exists x, p b = Err x.

Lemma stuck_bind {A B} (p : P A) (k : A -> P B) b : stuck p b -> stuck (pbind p k) b.
Proof. intros (x & E). exists x. unfold pbind. rewrite E. reflexivity. Qed.
Lemma stuck_after {A B} (p : P A) (k : A -> P B) b a r : RT p b a -> stuck (k a) r -> stuck (pbind p k) (b ++ r).
Proof. intros R S. unfold stuck. rewrite (pbind_rt _ _ _ _ _ R). exact S. Qed.
Lemma stuck_u8 : stuck p_u8 [].
Proof. eexists. reflexivity. Qed.
Lemma stuck_i32 : stuck p_i32 [].
Proof. eexists. reflexivity. Qed.
Lemma stuck_f32 : stuck p_f32 [].
Proof. eexists. reflexivity. Qed.

Lemma andthen_inv a b q x : a >> b = (q, Some x) ->
  a = (q, Some x) \/ exists p r, a = (p, None) /\ b = (r, Some x) /\ q = p ++ r.
Proof.
  destruct a as [p [y|]]; cbn [andthen].
  - left. congruence.
  - destruct b as [r z]. intros E. right. exists p, r. split; [reflexivity|]. split; congruence.
Qed.
Lemma put_all_inv r q x : put_all r = (q, Some x) -> q = [] /\ r = Err x.
Proof. destruct r; cbn; intros E; [discriminate|]. split; congruence. Qed.
Lemma put_all_ok r q : put_all r = (q, None) -> r = Ok q.
Proof. destruct r; cbn; congruence. Qed.
Lemma tracks_ok o r b : tracks o r -> o = (b, None) -> r = Ok b.
Proof. intros T ->. destruct r; cbn in T; congruence. Qed.
Lemma tracks_not o r b q x : tracks o r -> r = Ok b -> o = (q, Some x) -> False.
Proof. intros T -> ->. cbn in T. congruence. Qed.

(** ** Entities *)
Lemma rt_ents l : Forall fits_ent l -> forall bs, wcat w_ent l = Ok bs ->
  exists ents, forall F fuel, (List.length bs <= fuel)%nat -> (List.length bs <= F)%nat -> RT (p_times fuel (p_ent F) (len l)) bs ents.
Proof.
  induction l as [|x l IH]; intros Hf bs Hw.
  - apply wcat_nil in Hw. subst. exists []. intros F fuel _ _ rest. destruct fuel; reflexivity.
  - apply wcat_cons in Hw. destruct Hw as (c1 & c2 & W1 & W2 & ->). inversion Hf as [|? ? Hx Hl]; subst.
    destruct (rt_ent x c1 (List.length c1) Hx W1 (le_n _)) as (y & Ry & _ & _).
    destruct (IH Hl c2 W2) as (ys & Rys). exists (y :: ys). intros F fuel Hfu HF. rewrite app_length in *.
    pose proof (ent_nonempty _ _ W1). destruct fuel as [|fuel]; [lia|]. cbn [p_times].
    replace (len (x :: l) <=? 0) with false by (unfold len; cbn [List.length]; lia).
    eapply rt_bind.
    + intros rest. specialize (Ry []). rewrite app_nil_r in Ry. assert (L1 : (List.length c1 <= F)%nat) by lia. exact (ext_ent (List.length c1) F L1 _ _ _ rest Ry).
    + replace (len (x :: l) - 1) with (len l) by (unfold len; cbn [List.length]; lia).
      apply (rt_bind_ret (p_times fuel (p_ent F) (len l)) (fun z => y :: z)). apply Rys; lia.
Qed.
Lemma ent_stops e q x : rd_ent e -> s_ent e = (q, Some x) -> q = [].
Proof.
  intros ((Fx & Fy & Fz & Fc & _) & L3 & Hb & Hi & Hl & Ll) E. unfold s_ent in E.
  apply andthen_inv in E. destruct E as [E|(p & r & _ & E & _)]; [apply put_all_inv in E; tauto|]. exfalso.
  destruct (attr_count_type _ _ Fc) as [Hty Hn].
  apply andthen_inv in E. destruct E as [E|(p1 & r1 & _ & E & _)].
  { rewrite w_i32_ok in E by (unfold is_i32; change (2 ^ 31) with 2147483648; lia). discriminate. }
  apply andthen_inv in E. destruct E as [E|(p2 & r2 & _ & E & _)].
  { destruct (wcat_ok_all w_attr _ _ Hi) as (ba & Ea); [intros a Ha; rewrite w_attr_int; eexists; apply w_i32_ok; exact Ha|].
    eapply tracks_not; [|exact Ea|exact E]. apply tracks_each. intros. apply tracks_put. }
  apply andthen_inv in E. destruct E as [E|(p3 & r3 & _ & E & _)].
  { rewrite w_i32_ok in E by (unfold is_i32, len in *; lia). discriminate. }
  destruct (wcat_ok_all w_i32 _ _ Hl) as (bl & El); [intros; eexists; apply w_i32_ok; assumption|].
  eapply tracks_not; [|exact El|exact E]. apply tracks_each. intros. apply tracks_put.
Qed.
Lemma ents_stuck l : Forall rd_ent l -> forall q x, each s_ent l = (q, Some x) ->
  forall F fuel, (List.length q <= F)%nat -> stuck (p_times fuel (p_ent F) (len l)) q.
Proof.
  induction l as [|e l IH]; intros Hr q x E F fuel HF; [discriminate|]. inversion Hr as [|? ? He Hl]; subst.
  destruct fuel as [|fuel]; cbn [p_times]; replace (len (e :: l) <=? 0) with false by (unfold len; cbn [List.length]; lia); [eexists; reflexivity|].
  cbn [each] in E. apply andthen_inv in E. destruct E as [E|(b & r & E1 & E2 & ->)].
  - rewrite (ent_stops _ _ _ He E). apply stuck_bind. unfold p_ent. apply stuck_bind, stuck_f32.
  - apply (tracks_ok _ _ _ (tracks_ent e)) in E1. rewrite app_length in HF.
    destruct (rt_ent e b F (proj1 He) E1) as (y & Ry & _); [lia|]. eapply stuck_after; [exact Ry|].
    replace (len (e :: l) - 1) with (len l) by (unfold len; cbn [List.length]; lia). apply stuck_bind. eapply IH; [exact Hl|exact E2|lia].
Qed.

(** ** Texture slots *)
Lemma chg_stuck l : Forall is_i32 l -> forall n q x fuel, slots_fit n l -> each s_chg l = (q, Some x) -> stuck (p_vslots fuel n) q.
Proof.
  induction l as [|c l IH]; intros Hi n q x fuel Hs E; [discriminate|]. inversion Hi as [|? ? Hc Hl]; subst.
  cbn [slots_fit] in Hs. destruct Hs as [Hn Hs].
  destruct fuel as [|fuel]; cbn [p_vslots]; replace (n <=? 0) with false by lia; [eexists; reflexivity|].
  cbn [each] in E. apply andthen_inv in E. destruct E as [E|(b & r & E1 & E2 & ->)].
  - unfold s_chg in E. rewrite w_i32_ok in E by exact Hc. cbn [put_all] in E. destruct (c <? 0) eqn:C; [discriminate|].
    cbn [andthen raises] in E. rewrite app_nil_r in E.
    assert (Q : q = le 4 (c mod 2 ^ 32)) by congruence. rewrite Q, <- (app_nil_r (le 4 _)).
    eapply stuck_after; [apply rt_i32, w_i32_ok; exact Hc|]. rewrite C. apply stuck_bind, stuck_i32.
  - apply (tracks_ok _ _ _ (tracks_chg c)) in E1. unfold w_chg in E1. rewrite w_i32_ok in E1 by exact Hc. cbn [bind] in E1.
    destruct (c <? 0) eqn:C; [|discriminate]. assert (B : b = le 4 (c mod 2 ^ 32)) by congruence. rewrite B.
    eapply stuck_after; [apply rt_i32, w_i32_ok; exact Hc|]. rewrite C. apply stuck_bind. eapply IH; [exact Hl|exact Hs|exact E2].
Qed.

(** ** Cubes *)
Lemma tail_stuck c q x edges faces : rd_leaf c -> 1 <= kind c <= 4 -> Z.testbit (c_octsav c) 7 = false ->
  s_tail c = (q, Some x) -> stuck (p_tail (c_octsav c) edges faces) q.
Proof.
  intros (L1 & L2 & L3 & L4 & L5 & L6 & L7 & L8) K T7 E. unfold s_tail in E. rewrite T7 in E. unfold p_tail. rewrite T7.
  destruct (wcat_ok_all w_u16 _ _ L2) as (bt & Et); [intros; eexists; apply w_u16_ok; assumption|].
  assert (Rt : RT (p_repeat 6 p_u16) bt (c_texture c)) by (rewrite <- L1; apply (rt_wcat_eq w_u16 p_u16 _ _ rt_u16_1 Et)).
  apply andthen_inv in E. destruct E as [E|(b1 & r1 & E1 & E & ->)].
  { exfalso. eapply tracks_not; [|exact Et|exact E]. apply tracks_each. intros. apply tracks_put. }
  assert (B1 : b1 = bt).
  { assert (X : wcat w_u16 (c_texture c) = Ok b1) by (eapply tracks_ok; [|exact E1]; apply tracks_each; intros; apply tracks_put). congruence. }
  subst b1. eapply stuck_after; [exact Rt|].
  apply andthen_inv in E. destruct E as [E|(b2 & r2 & E2 & E & ->)].
  { exfalso. destruct (Z.testbit (c_octsav c) 6) eqn:T6; [|discriminate].
    destruct (L4 (proj2 K) T6) as (mt & Em & Hm). rewrite Em, w_u16_ok in E by exact Hm. discriminate. }
  eapply (stuck_after _ _ b2 (if Z.testbit (c_octsav c) 6 then c_material c else None)).
  { destruct (Z.testbit (c_octsav c) 6) eqn:T6.
    - destruct (L4 (proj2 K) T6) as (mt & Em & Hm). rewrite Em in *. apply put_all_ok in E2.
      apply (rt_bind_ret p_u16 (fun z => Some z)). apply rt_u16. exact E2.
    - assert (b2 = []) by (unfold nothing in E2; congruence). subst. apply rt_ret. }
  cbn [andthen nothing] in E. rewrite <- (app_nil_l r2).
  eapply (stuck_after _ _ [] 0); [apply rt_ret|].
  destruct (Z.testbit (c_octsav c) 5) eqn:T5; [|discriminate].
  assert (E' : put_all (w_chr (c_surfmask c)) >> put_all (w_chr (c_totalverts c)) >> each (s_surf (c_ext c) (c_surfmask c)) (seq 0 6) = (r2, Some x)).
  { destruct (put_all (w_chr (c_surfmask c)) >> put_all (w_chr (c_totalverts c)) >> each (s_surf (c_ext c) (c_surfmask c)) (seq 0 6)) as [qq xx]. exact E. }
  clear E. apply andthen_inv in E'. destruct E' as [E|(b3 & r3 & E3 & E & ->)].
  { apply put_all_inv in E. destruct E as [-> _]. apply stuck_bind, stuck_u8. }
  apply put_all_ok, rt_chr in E3. destruct E3 as (R3 & _ & _). eapply stuck_after; [exact R3|].
  apply andthen_inv in E. destruct E as [E|(b4 & r4 & E4 & E & ->)].
  { apply put_all_inv in E. destruct E as [-> _]. apply stuck_bind, stuck_u8. }
  exfalso. destruct (wcat_ok (w_surf (c_ext c) (c_surfmask c)) (seq 0 6)) as (bs & Es).
  - intros i Hi. apply in_seq in Hi. unfold w_surf. destruct (Z.testbit (c_surfmask c) (Z.of_nat i)) eqn:Ti; [|eexists; reflexivity].
    destruct (L7 (proj2 K) T5 i ltac:(lia) Ti) as (s & Ess & Hs). unfold surface in Ess. destruct (c_ext c) as [l|]; [|discriminate].
    destruct (nth_error l i) as [[s'|]|]; try discriminate. assert (s' = s) by congruence. subst s'.
    destruct Hs as (A & B & C & D & _). rewrite C. rewrite !w_u8_ok by (first [assumption|unfold is_byte; lia]). eexists. reflexivity.
  - eapply tracks_not; [|exact Es|exact E]. apply tracks_each. intros. apply tracks_surf.
Qed.

Definition cube_stuck (c : cube) : Prop := forall size q x fuel, rd_cube size c -> known_kinds c -> s_cube c = (q, Some x) ->
  (List.length q <= fuel)%nat -> stuck (p_loadc fuel) q.
Lemma kids_stuck l size : Forall cube_stuck l -> Forall (rd_cube size) l -> Forall known_kinds l -> forall q x fuel, each s_cube l = (q, Some x) ->
  (List.length q <= fuel)%nat -> stuck (p_kids (p_loadc fuel) (List.length l)) q.
Proof.
  induction l as [|c l IH]; intros Hc Hr Hk q x fuel E Hf; [discriminate|].
  inversion Hc as [|? ? Hc1 Hc2]; inversion Hr as [|? ? Hr1 Hr2]; inversion Hk as [|? ? Hk1 Hk2]; subst.
  cbn [List.length p_kids each] in *. apply andthen_inv in E. destruct E as [E|(b & r & E1 & E2 & ->)].
  - apply stuck_bind. eapply Hc1; eassumption.
  - apply (tracks_ok _ _ _ (tracks_cube c)) in E1. rewrite app_length in Hf.
    destruct (load_save c size b (rd_fits _ _ Hr1) E1) as (d & Rd & _). eapply stuck_after; [apply Rd; lia|]. cbn [fst snd].
    apply stuck_bind. eapply IH; try eassumption. lia.
Qed.
Lemma all_cubes_stuck c : cube_stuck c.
Proof.
  induction c as [c IH] using cube_rect'. intros size q x fuel Hr Hk E Hf. rewrite s_cube_eq in E.
  destruct fuel as [|fuel]; [eexists; reflexivity|]. cbn [p_loadc].
  apply andthen_inv in E. destruct E as [E|(b & r & E1 & E & ->)].
  { apply put_all_inv in E. destruct E as [-> _]. apply stuck_bind, stuck_u8. }
  apply put_all_ok, rt_chr in E1. destruct E1 as (Rb & Lb & Hch). rewrite app_length in Hf. eapply stuck_after; [exact Rb|]. cbv zeta in *.
  assert (T7 : Z.testbit (c_octsav c) 7 = false).
  { unfold is_char in Hch. destruct (Z.eq_dec (c_octsav c) 0) as [->|N]; [reflexivity|]. apply Z.bits_above_log2; [lia|]. apply Z.log2_lt_pow2; [lia|]. change (2 ^ 7) with 128. lia. }
  inversion Hr as [sz c0 l Ho Hk0 Hc Hl Hs Hall|sz c0 Ho Hk0 Hs Hleaf]; subst.
  - unfold kind in Hk0. rewrite Hk0 in *. cbn [Z.eqb] in *. rewrite Hc in E. unfold kids in IH. rewrite Hc in IH.
    apply stuck_bind. rewrite <- Hl. eapply kids_stuck; [exact IH|exact Hall| |exact E|lia].
    inversion Hk as [c1 l1 _ Hc1 Hl1|c1 Hc1]; subst; [congruence|unfold kind in Hc1; lia].
  - inversion Hk as [c1 l1 Hk1 _ _|c1 Hk1]; subst; [congruence|].
    unfold kind in Hk0, Hk1. replace (Z.land (c_octsav c) 7 =? 0) with false in * by lia.
    destruct (Z.eqb_spec (Z.land (c_octsav c) 7) 1) as [K1|K1]; cbn [orb] in *.
    { apply stuck_bind. eapply tail_stuck; eassumption. }
    destruct (Z.eqb_spec (Z.land (c_octsav c) 7) 4) as [K4|K4].
    { rewrite Bool.orb_true_r in E. apply stuck_bind. eapply tail_stuck; eassumption. }
    rewrite Bool.orb_false_r in E.
    destruct (Z.eqb_spec (Z.land (c_octsav c) 7) 2) as [K2|K2].
    { apply stuck_bind. eapply tail_stuck; eassumption. }
    destruct (Z.eqb_spec (Z.land (c_octsav c) 7) 3) as [K3|K3]; [|lia].
    destruct (proj1 (proj2 (proj2 Hleaf)) K3) as [L12 Hb].
    destruct (wcat_ok_all w_u8 _ _ Hb) as (be & Ebe); [intros; eexists; apply w_u8_ok; assumption|].
    apply andthen_inv in E. destruct E as [E|(b3 & r3 & E3 & E & ->)].
    { exfalso. apply put_all_inv in E. destruct E as [_ E]. unfold w_edges in E. rewrite L12 in E. cbn [Nat.eqb] in E. congruence. }
    apply put_all_ok in E3. unfold w_edges in E3. rewrite L12 in E3. cbn [Nat.eqb] in E3.
    eapply stuck_after.
    + rewrite <- L12. apply (rt_wcat_eq w_u8 p_u8 _ b3); [|exact E3]. intros z b0 E0. destruct (rt_u8 _ _ E0) as (R0 & L0 & _). split; [lia|exact R0].
    + apply stuck_bind. eapply tail_stuck; eassumption.
Qed.

(** ** Maps *)
Lemma andthen_ok b c o : (b, None) >> ((c, None) >> o) = (b ++ c, None) >> o.
Proof. destruct o as [q x]. cbn. rewrite app_assoc. reflexivity. Qed.
Lemma each_ok {A} (w : A -> out) (r : A -> res (list Z)) l b : (forall x, tracks (w x) (r x)) -> wcat r l = Ok b -> each w l = (b, None).
Proof. intros T E. pose proof (tracks_each w r l (fun x _ => T x)) as X. rewrite E in X. exact X. Qed.

(** Everything before the entities. *)
Lemma map_front m : rd_map m -> counted m ->
  exists fb h, slots_fit (h_numvslots h) (m_chg m) /\ Forall (rd_cube (h_worldsize h / 2)) (m_world m) /\
    (forall w, write_out (Map (m_magic m) (m_version m) (m_headersize m) (m_meta m) (m_vars m) (m_texmru m) (m_ents m) (m_vslots m) (m_chg m) w) =
       (fb, None) >> (each s_ent (m_ents m) >> each s_chg (m_chg m) >> each s_cube w)) /\
    forall fuel, (List.length fb <= fuel)%nat -> exists K, forall r,
      p_map fuel (fb ++ r) = pbind (p_times fuel (p_ent fuel) (len (m_ents m)))
        (fun ents => pbind (p_vslots fuel (h_numvslots h)) (fun sl => pbind (p_loadchildren fuel) (K ents sl))) r.
Proof.
  intros (Hmag & Hver & Hhs & (h & ne & nv & G1 & G2 & G3 & G4 & G5 & G6 & G7 & G8) & K1 & K2 & K3 & K4 & K5 & K6 & K7 & K8) Hn.
  assert (Hnv : Z.max 0 nv = len (m_vars m)) by (apply Hn; unfold header_vars; rewrite G4; reflexivity).
  assert (Hmeta2 : m_meta (set_numents m) = header_meta h (len (m_ents m)) nv).
  { unfold set_numents. cbn [m_meta]. rewrite G4. apply set_numents_meta. }
  assert (Hne : is_i32 (len (m_ents m))) by (rewrite G6; unfold is_i32 in *; change (2 ^ 31) with 2147483648 in *; lia).
  destruct (header_write_ok h _ nv G1 Hne G3) as (bm & Em).
  destruct (wcat_ok_all w_var _ _ K2 w_var_ok) as (bv & Ev).
  destruct (wcat_ok_all w_u16 _ _ K4) as (bt & Et); [intros; eexists; apply w_u16_ok; assumption|].
  assert (Emru : w_u16 (Z.of_nat (List.length (m_texmru m))) = Ok (le 2 (Z.of_nat (List.length (m_texmru m))))) by (apply w_u16_ok; unfold is_u16, len in *; lia).
  exists (((((((w_str (m_magic m) false) ++ le 4 (m_version m mod 2 ^ 32)) ++ le 4 (m_headersize m mod 2 ^ 32)) ++ bm) ++ bv) ++ le 2 (Z.of_nat (List.length (m_texmru m)))) ++ bt), h.
  split; [exact G7|]. split; [exact G8|]. split.
  { intros w. unfold write_out. cbv zeta. change (m_meta (set_numents (Map (m_magic m) (m_version m) (m_headersize m) (m_meta m) (m_vars m) (m_texmru m) (m_ents m) (m_vslots m) (m_chg m) w))) with (m_meta (set_numents m)). rewrite Hmeta2.
    cbn [set_numents m_magic m_version m_headersize m_vars m_texmru m_ents m_chg m_world].
    rewrite (w_i32_ok _ Hver), (w_i32_ok _ Hhs), Emru.
    rewrite (each_ok _ w_meta _ _ (fun x => tracks_put _) Em), (each_ok _ w_var _ _ tracks_var Ev), (each_ok _ w_u16 _ _ (fun x => tracks_put _) Et).
    cbn [put_all]. rewrite !andthen_ok. reflexivity. }
  destruct (header_write _ _ _ _ Em) as (b1 & b2 & b3 & b4 & b5 & b6 & b7 & b8 & b10 & W1 & W2 & W3 & W4 & W5 & W6 & W7 & W8 & W10 & ->).
  destruct (rt_i32 _ _ (w_i32_ok _ Hver)) as (Rv & _ & _). destruct (rt_i32 _ _ (w_i32_ok _ Hhs)) as (Rh & _ & _).
  destruct (rt_i32 _ _ W1) as (R1 & _ & _). destruct (rt_i32 _ _ W2) as (R2 & _ & _).
  destruct (rt_i32 _ _ W3) as (R3 & _ & _). destruct (rt_i32 _ _ W4) as (R4 & _ & _).
  destruct (rt_i32 _ _ W5) as (R5 & _ & _). destruct (rt_i32 _ _ W6) as (R6 & _ & _).
  destruct (rt_i32 _ _ W7) as (R7 & _ & _). destruct (rt_i32 _ _ W8) as (R8 & _ & _).
  destruct (rt_i32 _ _ W10) as (R10 & _ & _).
  destruct (rt_wcat w_var p_var (fun _ _ => True) (List.length bv) (m_vars m) bv Ev (le_n _)) as (vars & _ & Rvars & _).
  { intros x b Hin Hx _. rewrite Forall_forall in K2. destruct (rt_var x b) as (L & y & Ry & _); [|exact Hx|].
    - specialize (K2 x Hin). destruct x as [k v]. unfold rd_var, fits_var in *. cbn [fst snd] in *. destruct v; tauto.
    - split; [exact L|]. exists y. auto. }
  destruct (rt_u16 _ _ Emru) as (Rnm & _ & _).
  destruct (rt_wcat_eq w_u16 p_u16 _ _ rt_u16_1 Et) as [Rmru _].
  assert (Hgi : List.length (h_gameident h) = 3%nat) by apply G1.
  intros fuel Hf. repeat rewrite app_length in Hf. eexists. intros r. unfold p_map. rewrite <- !app_assoc.
  rewrite (pbind_rt (p_str 4 false) _ (w_str (m_magic m) false) (m_magic m)).
  2: { unfold p_str, w_str. apply rt_bytes. destruct Hmag as [-> | ->]; reflexivity. }
  replace (negb (bytes_eqb (m_magic m) MAPZ || bytes_eqb (m_magic m) BFGZ)) with false
    by (destruct Hmag as [-> | ->]; reflexivity).
  rewrite (pbind_rt _ _ _ _ _ Rv), (pbind_rt _ _ _ _ _ Rh), (pbind_rt _ _ _ _ _ R1), (pbind_rt _ _ _ _ _ R2).
  rewrite (pbind_rt _ _ _ _ _ R3), (pbind_rt _ _ _ _ _ R4), (pbind_rt _ _ _ _ _ R5), (pbind_rt _ _ _ _ _ R6).
  rewrite (pbind_rt _ _ _ _ _ R7), (pbind_rt _ _ _ _ _ R8).
  rewrite (pbind_rt (p_str 3 true) _ (w_str (h_gameident h) true) (h_gameident h))
    by (apply rt_str; unfold len; rewrite Hgi; reflexivity).
  rewrite (pbind_rt _ _ _ _ _ R10).
  rewrite (pbind_rt (p_times fuel p_var nv) _ bv vars) by (rewrite p_times_max, Hnv; apply Rvars; lia).
  rewrite (pbind_rt _ _ _ _ _ Rnm).
  rewrite (pbind_rt _ _ _ _ _ (Rmru fuel ltac:(unfold len in *; lia))). reflexivity.
Qed.

(** What a failed write leaves behind cannot be read. *)
Lemma failed_write_lost b m q x : Forall is_byte b -> read_map b = Ok m -> counted m -> Forall known_kinds (m_world m) ->
  write_out m = (q, Some x) -> exists e, read_map q = Err e.
Proof.
  intros Hb Hr Hn Hk E. pose proof (read_rd b m Hb Hr) as Rd.
  destruct (map_front m Rd Hn) as (fb & h & Hsl & Hwd & Ew & Hp).
  destruct Rd as (_ & _ & _ & _ & _ & _ & _ & _ & K5 & K6 & K7 & K8).
  assert (Em : Map (m_magic m) (m_version m) (m_headersize m) (m_meta m) (m_vars m) (m_texmru m) (m_ents m) (m_vslots m) (m_chg m) (m_world m) = m) by (destruct m; reflexivity).
  specialize (Ew (m_world m)). rewrite Em, E in Ew. symmetry in Ew. clear Em. apply andthen_inv in Ew. destruct Ew as [Ew|(b0 & r & E0 & Er & ->)]; [discriminate|].
  assert (b0 = fb) by congruence. subst b0. clear E0.
  unfold read_map, read_rest. destruct (Hp (S (List.length (fb ++ r)))) as (K & HK); [rewrite app_length; lia|].
  rewrite HK. set (F := S (List.length (fb ++ r))).
  assert (HF : (List.length r <= F)%nat) by (unfold F; rewrite app_length; lia). clearbody F.
  match goal with |- context [bind (?p r) _] => assert (S : stuck p r) end.
  2: { destruct S as (e & ->). exists e. reflexivity. }
  apply andthen_inv in Er. destruct Er as [Ee|(be & r1 & Ee & Er & ->)].
  { apply stuck_bind. eapply ents_stuck; [exact K5|exact Ee|exact HF]. }
  rewrite app_length in HF.
  assert (We : wcat w_ent (m_ents m) = Ok be) by (eapply tracks_ok; [|exact Ee]; apply tracks_each; intros; apply tracks_ent).
  destruct (rt_ents (m_ents m)) with (bs := be) as (ents & Re); [eapply Forall_impl; [|exact K5]; intros e He; apply He|exact We|].
  eapply stuck_after; [apply Re; lia|].
  apply andthen_inv in Er. destruct Er as [Ec|(bc & r2 & Ec & Er & ->)].
  { apply stuck_bind. eapply chg_stuck; [exact K7|exact Hsl|exact Ec]. }
  rewrite app_length in HF.
  assert (Wc : wcat w_chg (m_chg m) = Ok bc) by (eapply tracks_ok; [|exact Ec]; apply tracks_each; intros; apply tracks_chg).
  eapply stuck_after; [apply (rt_vslots _ _ _ F Hsl Wc); lia|].
  apply stuck_bind. unfold p_loadchildren. rewrite <- K8. eapply kids_stuck; [|exact Hwd|exact Hk|exact Er|lia].
  apply Forall_forall. intros c _. apply all_cubes_stuck.
Qed.
