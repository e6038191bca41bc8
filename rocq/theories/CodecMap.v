(** Lemmas: whole maps read back; which maps can be written. *)
From Verif Require Import Py VecModel CodecModel CodecSpec CodecFloat CodecParse CodecProofs CodecRead.
Ltac Zify.zify_post_hook ::= Z.div_mod_to_equations.

Lemma bytes_eqb_spec a b : bytes_eqb a b = true <-> a = b.
Proof.
  revert b. induction a as [|x a IH]; intros [|y b]; cbn [bytes_eqb]; try (split; congruence).
  rewrite andb_true_iff, Z.eqb_eq, IH. split; [intros [-> ->]; reflexivity|intros [= -> ->]; auto].
Qed.
Lemma bytes_eqb_refl a : bytes_eqb a a = true.
Proof. apply bytes_eqb_spec. reflexivity. Qed.
Lemma bytes_eqb_false a b : bytes_eqb a b = false <-> a <> b.
Proof. rewrite <- not_true_iff_false, bytes_eqb_spec. reflexivity. Qed.

(** ** Variables *)
Definition fits_var (e : list Z * vval) : Prop := match snd e with VFloat f => is_f32 f | _ => True end.

Lemma rt_var e bs :
  fits_var e -> w_var e = Ok bs ->
  (1 <= List.length bs)%nat /\
  exists e', RT p_var bs e' /\ fst e = fst e' /\ same_vval (snd e) (snd e') /\ w_var e' = Ok bs.
Proof.
  destruct e as [name v]. unfold fits_var, w_var. cbn [fst snd]. intros Hf Hw. binv Hw.
  destruct (rt_i32 _ _ E) as (Rn & Ln & _). pose proof (rt_str name (len name) eq_refl) as Rs.
  assert (G : forall t x v', RT (if t =? 2 then do l <- p_i32;; do s <- p_str l true;; pret (name, VBytes s)
       else if t =? 1 then do f <- p_f32;; pret (name, VFloat f)
       else if t =? 0 then do z <- p_i32;; pret (name, VInt z) else perr UserExn) x (name, v') ->
     forall tb, w_i32 t = Ok tb -> RT p_var (v0 ++ w_str name true ++ tb ++ x) (name, v')).
  { intros t x v' HR tb Et. destruct (rt_i32 _ _ Et) as (Rt & _ & _). unfold p_var.
    eapply rt_bind; [exact Rn|]. eapply rt_bind; [exact Rs|]. eapply rt_bind; [exact Rt|]. exact HR. }
  destruct v as [z|f|s|s].
  - binv Hw. binv Hw. injection Hw as <-. split; [rewrite app_length; lia|].
    exists (name, VInt z). destruct (rt_i32 _ _ E1) as (Rz & _ & _).
    split; [|split; [reflexivity|split; [reflexivity|rewrite E; cbn [bind]; rewrite E0; cbn [bind]; rewrite E1; reflexivity]]].
    apply (G 0); [|exact E0]. cbn [Z.eqb].
    apply (rt_bind_ret p_i32 (fun z0 => (name, VInt z0))). exact Rz.
  - binv Hw. binv Hw. injection Hw as <-. split; [rewrite app_length; lia|].
    destruct (rt_f32' _ _ Hf E1) as (f' & Rf & _ & Qf & Wf).
    exists (name, VFloat f').
    split; [|split; [reflexivity|split; [exact Qf|rewrite E; cbn [bind]; rewrite E0; cbn [bind]; rewrite Wf; reflexivity]]].
    apply (G 1); [|exact E0]. cbn [Z.eqb Pos.eqb].
    apply (rt_bind_ret p_f32 (fun z0 => (name, VFloat z0))). exact Rf.
  - binv Hw. binv Hw. injection Hw as <-. split; [rewrite app_length; lia|].
    exists (name, VBytes s). destruct (rt_i32 _ _ E1) as (Rz & _ & _).
    split; [|split; [reflexivity|split; [reflexivity|rewrite E; cbn [bind]; rewrite E0; cbn [bind]; rewrite E1; reflexivity]]].
    apply (G 2); [|exact E0]. cbn [Z.eqb Pos.eqb].
    eapply rt_bind; [exact Rz|]. apply (rt_bind_ret (p_str (len s) true) (fun z0 => (name, VBytes z0))).
    apply rt_str. reflexivity.
  - discriminate.
Qed.

(** The dictionary of a list of variables. *)
Lemma dset_new {V} (d : list (list Z * V)) k v :
  ~ In k (map fst d) -> dset bytes_eqb d k v = d ++ [(k, v)].
Proof.
  induction d as [|[k' v'] d IH]; intros Hn; [reflexivity|]. cbn [dset map fst app] in *.
  destruct (bytes_eqb k' k) eqn:E.
  - apply bytes_eqb_spec in E. subst. exfalso. apply Hn. left. reflexivity.
  - rewrite IH; [reflexivity|]. intros Hin. apply Hn. right. exact Hin.
Qed.
Lemma vars_dict_nodup l : NoDup (map fst l) -> vars_dict l = l.
Proof.
  unfold vars_dict. intros H.
  assert (G : forall d, NoDup (map fst (d ++ l)) ->
     fold_left (fun d e => dset bytes_eqb d (fst e) (snd e)) l d = d ++ l).
  { clear H. induction l as [|[k v] l IH]; intros d Hd; [rewrite app_nil_r; reflexivity|].
    cbn [fold_left fst snd]. rewrite dset_new.
    - rewrite IH; rewrite <- app_assoc; [reflexivity|exact Hd].
    - rewrite map_app in Hd. cbn [map fst] in Hd. apply NoDup_remove_2 in Hd.
      intros Hin. apply Hd. apply in_app_iff. left. exact Hin. }
  apply (G []). exact H.
Qed.
Lemma dset_fst {V} (d : list (list Z * V)) k v x :
  In x (map fst (dset bytes_eqb d k v)) -> x = k \/ In x (map fst d).
Proof.
  induction d as [|[k' v'] d IH]; cbn [dset map fst In]; [intros [->|[]]; auto|].
  destruct (bytes_eqb k' k) eqn:E; cbn [map fst In].
  - apply bytes_eqb_spec in E. subst. intros [->|H]; auto.
  - intros [->|H]; auto. destruct (IH H); auto.
Qed.
Lemma dset_nodup {V} (d : list (list Z * V)) k v :
  NoDup (map fst d) -> NoDup (map fst (dset bytes_eqb d k v)).
Proof.
  induction d as [|[k' v'] d IH]; cbn [dset map fst]; intros H; [repeat constructor; intros []|].
  inversion H; subst. destruct (bytes_eqb k' k) eqn:E; cbn [map fst].
  - apply bytes_eqb_spec in E. subst. constructor; assumption.
  - constructor; [|auto]. intros Hin. apply dset_fst in Hin. destruct Hin as [->|Hin]; [|contradiction].
    rewrite bytes_eqb_refl in E. discriminate.
Qed.
Lemma vars_dict_keys l : NoDup (map fst (vars_dict l)).
Proof.
  unfold vars_dict. assert (G : forall d, NoDup (map fst d) ->
     NoDup (map fst (fold_left (fun d e => dset bytes_eqb d (fst e) (snd e)) l d))).
  { induction l as [|e l IH]; intros d Hd; [exact Hd|]. cbn [fold_left]. apply IH, dset_nodup, Hd. }
  apply G. constructor.
Qed.
Lemma dset_forall {V} (Q : list Z * V -> Prop) d k v :
  Forall Q d -> (forall k', Q (k', v) <-> Q (k, v)) \/ True -> Q (k, v) -> Forall Q (dset bytes_eqb d k v).
Proof.
  intros Hd _ Hk. induction Hd as [|[k' v'] d Hx Hd IH]; cbn [dset]; [constructor; [exact Hk|constructor]|].
  destruct (bytes_eqb k' k) eqn:E; constructor; auto. apply bytes_eqb_spec in E. subst. exact Hk.
Qed.
Lemma vars_dict_forall Q l : Forall Q l -> Forall Q (vars_dict l).
Proof.
  unfold vars_dict. intros H. assert (G : forall d, Forall Q d ->
     Forall Q (fold_left (fun d e => dset bytes_eqb d (fst e) (snd e)) l d)).
  { induction H as [|e l He _ IH]; intros d Hd; [exact Hd|]. cbn [fold_left]. apply IH.
    apply dset_forall; auto. destruct e; exact He. }
  apply G. constructor.
Qed.
Lemma dset_length_le {V} (d : list (list Z * V)) k v :
  (List.length (dset bytes_eqb d k v) <= S (List.length d))%nat.
Proof.
  induction d as [|[k' v'] d IH]; cbn [dset List.length]; [lia|].
  destruct (bytes_eqb k' k); cbn [List.length]; lia.
Qed.
Lemma vars_dict_length l : (List.length (vars_dict l) <= List.length l)%nat.
Proof.
  unfold vars_dict. assert (G : forall d,
     (List.length (fold_left (fun d e => dset bytes_eqb d (fst e) (snd e)) l d) <= List.length d + List.length l)%nat).
  { induction l as [|e l IH]; intros d; cbn [fold_left List.length]; [lia|].
    specialize (IH (dset bytes_eqb d (fst e) (snd e))). pose proof (dset_length_le d (fst e) (snd e)). lia. }
  apply (G []).
Qed.

(** ** Texture slots *)
Fixpoint slots_fit (n : Z) (chg : list Z) : Prop :=
  match chg with
  | [] => n <= 0
  | c :: r => 0 < n /\ slots_fit (if c <? 0 then n + c else n - 1) r
  end.
Fixpoint slots_total (chg : list Z) : Z :=
  match chg with [] => 0 | c :: r => (if c <? 0 then - c else 0) + slots_total r end.

Lemma rt_vslots chg : forall n bs fuel,
  slots_fit n chg -> wcat w_chg chg = Ok bs -> (List.length bs <= fuel)%nat ->
  RT (p_vslots fuel n) bs (slots_total chg, chg).
Proof.
  induction chg as [|c chg IH]; intros n bs fuel Hs Hw Hf; cbn [slots_fit slots_total] in *.
  - apply wcat_nil in Hw. subst. intros rest. destruct fuel; cbn [p_vslots]; replace (n <=? 0) with true by lia; reflexivity.
  - apply wcat_cons in Hw. destruct Hw as (b1 & b2 & E1 & E2 & ->). unfold w_chg in E1. binv E1.
    destruct (c <? 0) eqn:C; [|discriminate]. injection E1 as <-.
    destruct (rt_i32 _ _ E) as (Rc & Lc & _). rewrite app_length in Hf.
    destruct fuel as [|fuel]; [lia|]. cbn [p_vslots]. replace (n <=? 0) with false by lia.
    eapply rt_bind; [exact Rc|]. rewrite C.
    apply (rt_bind_ret (p_vslots fuel (n + c)) (fun r => (- c + fst r, c :: snd r)) b2 (slots_total chg, chg)).
    apply IH; [apply Hs|exact E2|lia].
Qed.

Lemma post_when {A} c (p : P A) Q : post p Q -> post (p_when c p) (fun _ => True).
Proof.
  intros Hp. unfold p_when. apply post_if; intros _; [|apply post_ret; auto].
  eapply post_bind; [exact Hp|]. intros. apply post_ret. auto.
Qed.
Lemma post_shparam fl : post (p_shparam fl) (fun _ => True).
Proof.
  unfold p_shparam. eapply post_bind; [apply post_u16|intros n _].
  apply post_if; intros _; [apply post_err|]. eapply post_bind; [apply post_bytes|intros _ _].
  eapply post_bind; [apply post_repeat, post_f32|intros _ _].
  apply post_if; intros _; [|apply post_ret; auto].
  eapply post_bind; [apply post_repeat, post_i32|intros _ _]. apply post_ret; auto.
Qed.
Lemma post_vslot fuel ch : post (p_vslot fuel ch) (fun _ => True).
Proof.
  unfold p_vslot.
  eapply post_bind; [eapply post_when; eapply post_bind with (R := fun _ => True); [apply post_u16|intros; eapply post_weaken; [apply post_times, post_shparam|auto]]|intros _ _].
  repeat (eapply post_bind; [eapply post_when; first [apply post_f32|apply post_i32|apply post_repeat, post_f32|apply post_repeat, post_i32]|intros _ _]).
  eapply post_when. apply post_f32.
Qed.
Definition slots_post (n : Z) (r : Z * list Z) : Prop :=
  fst r = slots_total (snd r) /\ slots_fit n (snd r) /\ Forall is_i32 (snd r).
Lemma post_vslots fuel : forall n, post (p_vslots fuel n) (slots_post n).
Proof.
  unfold slots_post.
  induction fuel as [|f IH]; intros n; cbn [p_vslots].
  - apply post_if; intros E; [|apply post_err]. apply post_ret. cbn. split; [reflexivity|split; [lia|constructor]].
  - apply post_if; intros E; [apply post_ret; cbn; split; [reflexivity|split; [lia|constructor]]|].
    eapply post_bind; [apply post_i32|intros ch Hch]. apply post_if; intros C.
    + eapply post_bind; [apply IH|intros [k l] (H1 & H2 & H3)]. apply post_ret. cbn [fst snd slots_total slots_fit] in *.
      rewrite C. split; [lia|]. split; [split; [lia|exact H2]|constructor; assumption].
    + eapply post_bind; [apply post_i32|intros _ _]. eapply post_bind; [apply post_vslot|intros _ _].
      eapply post_bind; [apply IH|intros [k l] (H1 & H2 & H3)]. apply post_ret. cbn [fst snd slots_total slots_fit] in *.
      rewrite C. split; [lia|]. split; [split; [lia|exact H2]|constructor; assumption].
Qed.

(** ** Maps *)
Definition fits_map (m : rmap) : Prop :=
  (m_magic m = MAPZ \/ m_magic m = BFGZ) /\
  (exists h ne nv, List.length (h_gameident h) = 3%nat /\ m_meta m = header_meta h ne nv /\
     Z.max 0 nv = len (m_vars m) /\ slots_fit (h_numvslots h) (m_chg m) /\
     Forall (fits_cube (h_worldsize h / 2)) (m_world m)) /\
  NoDup (map fst (m_vars m)) /\ Forall fits_var (m_vars m) /\
  Forall fits_ent (m_ents m) /\ m_vslots m = slots_total (m_chg m) /\
  List.length (m_world m) = 8%nat.

Lemma set_numents_meta h ne nv k :
  dset String.eqb (header_meta h ne nv) "numents"%string (MInt k) = header_meta h k nv.
Proof. reflexivity. Qed.

Lemma p_times_max {A} fuel (p : P A) n : p_times fuel p n = p_times fuel p (Z.max 0 n).
Proof.
  destruct (Z_le_gt_dec 0 n); [rewrite Z.max_r by lia; reflexivity|].
  rewrite Z.max_l by lia. destruct fuel; cbn [p_times]; replace (n <=? 0) with true by lia; reflexivity.
Qed.

Lemma rt_world world size : forall bs,
  Forall (fits_cube size) world -> wcat savec world = Ok bs ->
  exists ys, (forall fuel, (List.length bs <= fuel)%nat -> RT (p_kids (p_loadc fuel) (List.length world)) bs ys) /\
    Forall2 same_cube world ys /\ validatec size ys = Ok ys.
Proof.
  induction world as [|x l IHl]; intros bs Hall Hw.
  - apply wcat_nil in Hw. subst. exists []. split; [intros; apply rt_ret|]. split; [constructor|reflexivity].
  - apply wcat_cons in Hw. destruct Hw as (b1 & b2 & E1 & E2 & ->).
    inversion Hall as [|? ? Hx Hr]; subst.
    destruct (load_save x _ _ Hx E1) as (y & Ry & Sy & Vy).
    destruct (IHl _ Hr E2) as (ys & Rys & Sys & Vys).
    exists (y :: ys). split; [|split; [constructor; auto|]].
    + intros fuel Hf. rewrite app_length in Hf.
      cbn [List.length p_kids]. eapply rt_bind; [apply Ry; lia|]. cbn [fst snd].
      apply (rt_bind_ret (p_kids (p_loadc fuel) (List.length l)) (fun z => y :: z)). apply Rys. lia.
    + unfold validatec in *. cbn [mapM]. rewrite Vy. cbn [bind]. rewrite Vys. reflexivity.
Qed.

Lemma rt_u16_1 x b : w_u16 x = Ok b -> (1 <= List.length b)%nat /\ RT p_u16 b x.
Proof. intros E. destruct (rt_u16 _ _ E) as (R & L & _). split; [lia|exact R]. Qed.

Lemma header_write h ne nv bs :
  wcat w_meta (header_meta h ne nv) = Ok bs ->
  exists b1 b2 b3 b4 b5 b6 b7 b8 b10,
    w_i32 (h_worldsize h) = Ok b1 /\ w_i32 ne = Ok b2 /\ w_i32 (h_numpvs h) = Ok b3 /\
    w_i32 (h_lightmaps h) = Ok b4 /\ w_i32 (h_blendmap h) = Ok b5 /\ w_i32 (h_numvslots h) = Ok b6 /\
    w_i32 (h_gamever h) = Ok b7 /\ w_i32 (h_revision h) = Ok b8 /\ w_i32 nv = Ok b10 /\
    bs = b1 ++ b2 ++ b3 ++ b4 ++ b5 ++ b6 ++ b7 ++ b8 ++ w_str (h_gameident h) true ++ b10.
Proof.
  unfold header_meta. intros Hw.
  apply wcat_cons in Hw. destruct Hw as (b1 & r1 & E1 & Hw & ->).
  apply wcat_cons in Hw. destruct Hw as (b2 & r2 & E2 & Hw & ->).
  apply wcat_cons in Hw. destruct Hw as (b3 & r3 & E3 & Hw & ->).
  apply wcat_cons in Hw. destruct Hw as (b4 & r4 & E4 & Hw & ->).
  apply wcat_cons in Hw. destruct Hw as (b5 & r5 & E5 & Hw & ->).
  apply wcat_cons in Hw. destruct Hw as (b6 & r6 & E6 & Hw & ->).
  apply wcat_cons in Hw. destruct Hw as (b7 & r7 & E7 & Hw & ->).
  apply wcat_cons in Hw. destruct Hw as (b8 & r8 & E8 & Hw & ->).
  apply wcat_cons in Hw. destruct Hw as (b9 & r9 & E9 & Hw & ->).
  apply wcat_cons in Hw. destruct Hw as (b10 & r10 & E10 & Hw & ->).
  apply wcat_nil in Hw. subst r10. rewrite app_nil_r.
  assert (E9' : b9 = w_str (h_gameident h) true) by (unfold w_meta in E9; cbn in E9; unfold w_str; injection E9 as <-; reflexivity).
  subst b9. exists b1, b2, b3, b4, b5, b6, b7, b8, b10.
  repeat (split; [assumption|]). reflexivity.
Qed.

Lemma fst_forall2 (l m : list (list Z * vval)) :
  Forall2 (fun x y => fst x = fst y /\ same_vval (snd x) (snd y)) l m -> map fst m = map fst l.
Proof. induction 1 as [|x y l m [E _] _ IH]; cbn [map]; congruence. Qed.

Lemma pbind_rt {A B} (p : P A) (k : A -> P B) b a rest :
  RT p b a -> pbind p k (b ++ rest) = k a rest.
Proof. intros R. unfold pbind. rewrite (R rest). reflexivity. Qed.

(** Everything of a map but its octree. *)
Definition fits_head (m : rmap) (h : header) (nv : Z) : Prop :=
  (m_magic m = MAPZ \/ m_magic m = BFGZ) /\
  List.length (h_gameident h) = 3%nat /\ (exists ne, m_meta m = header_meta h ne nv) /\
  Z.max 0 nv = len (m_vars m) /\ slots_fit (h_numvslots h) (m_chg m) /\
  NoDup (map fst (m_vars m)) /\ Forall fits_var (m_vars m) /\ Forall fits_ent (m_ents m).

Definition finish_map (m : rmap) h nv vars ents : list cube -> P rmap := fun root b =>
  match validatec (Z.shiftr (h_worldsize h) 1) root with
  | Err e => Err e
  | Ok world => Ok (Map (m_magic m) (m_version m) (m_headersize m) (header_meta h (len (m_ents m)) nv)
                        vars (m_texmru m) ents (slots_total (m_chg m)) (m_chg m) world, b)
  end.

(** What writing a map means for its parts and for the reader. *)
Lemma map_head m h nv bs :
  fits_head m h nv -> write_map m = Ok bs ->
  exists hb wb vars ents, bs = hb ++ wb /\ savechildren (m_world m) = Ok wb /\
    Forall2 (fun x y => fst x = fst y /\ same_vval (snd x) (snd y)) (m_vars m) vars /\
    Forall2 same_entity (m_ents m) ents /\
    (forall fuel r, (List.length hb <= fuel)%nat ->
       p_map fuel (hb ++ r) = pbind (p_loadchildren fuel) (finish_map m h nv vars ents) r) /\
    (forall vs w b, savechildren w = Ok b ->
       write_map (Map (m_magic m) (m_version m) (m_headersize m) (header_meta h (len (m_ents m)) nv)
                      vars (m_texmru m) ents vs (m_chg m) w) = Ok (hb ++ b)) /\
    (forall w b, savechildren w = Ok b ->
       write_map (Map (m_magic m) (m_version m) (m_headersize m) (m_meta m) (m_vars m) (m_texmru m)
                      (m_ents m) (m_vslots m) (m_chg m) w) = Ok (hb ++ b)).
Proof.
  intros (Hmag & Hgi & (ne & Hmeta) & Hnv & Hsl & Hnd & Hfv & Hfe) Hw.
  assert (Hmeta2 : m_meta (set_numents m) = header_meta h (len (m_ents m)) nv).
  { unfold set_numents. cbn [m_meta]. rewrite Hmeta. apply set_numents_meta. }
  unfold write_map in Hw. cbv zeta in Hw. rewrite Hmeta2 in Hw.
  cbn [set_numents m_magic m_version m_headersize m_vars m_texmru m_ents m_chg m_world] in Hw.
  do 9 binv Hw. injection Hw as <-.
  destruct (header_write _ _ _ _ E1) as (b1 & b2 & b3 & b4 & b5 & b6 & b7 & b8 & b10 & W1 & W2 & W3 & W4 & W5 & W6 & W7 & W8 & W10 & ->).
  destruct (rt_i32 _ _ E) as (Rv & _ & _). destruct (rt_i32 _ _ E0) as (Rh & _ & _).
  destruct (rt_i32 _ _ W1) as (R1 & _ & _). destruct (rt_i32 _ _ W2) as (R2 & _ & _).
  destruct (rt_i32 _ _ W3) as (R3 & _ & _). destruct (rt_i32 _ _ W4) as (R4 & _ & _).
  destruct (rt_i32 _ _ W5) as (R5 & _ & _). destruct (rt_i32 _ _ W6) as (R6 & _ & _).
  destruct (rt_i32 _ _ W7) as (R7 & _ & _). destruct (rt_i32 _ _ W8) as (R8 & _ & _).
  destruct (rt_i32 _ _ W10) as (R10 & _ & _).
  (* variables *)
  destruct (rt_wcat w_var p_var (fun x y => (fst x = fst y /\ same_vval (snd x) (snd y)) /\ (forall b, w_var x = Ok b -> w_var y = Ok b)) (List.length v2) (m_vars m) v2 E2 (le_n _))
    as (vars & Svars & Rvars & _).
  { intros x b Hin Hx _. rewrite Forall_forall in Hfv. destruct (rt_var x b (Hfv x Hin) Hx) as (L & y & Ry & Ey & Sy & Wy).
    split; [exact L|]. exists y. split; [exact Ry|]. split; [auto|]. intros b' Hb'. congruence. }
  assert (Svars1 : Forall2 (fun x y => fst x = fst y /\ same_vval (snd x) (snd y)) (m_vars m) vars)
    by (eapply Forall2_impl; [|exact Svars]; tauto).
  assert (Wvars : wcat w_var vars = Ok v2).
  { eapply (wcat_same w_var w_var); [exact Svars| |exact E2]. cbn. intros x y b [_ Hxy]. apply Hxy. }
  assert (Dvars : vars_dict vars = vars).
  { apply vars_dict_nodup. rewrite (fst_forall2 _ _ Svars1). exact Hnd. }
  (* texture history *)
  destruct (rt_u16 _ _ E3) as (Rnm & _ & _).
  destruct (rt_wcat_eq w_u16 p_u16 _ _ rt_u16_1 E4) as [Rmru _].
  (* entities *)
  assert (Gents : exists ents, Forall2 (fun x y => same_entity x y /\ (forall b, w_ent x = Ok b -> w_ent y = Ok b)) (m_ents m) ents /\
     forall fuel, (List.length v5 <= fuel)%nat -> RT (p_times fuel (p_ent fuel) (len (m_ents m))) v5 ents).
  { assert (Gx : forall x b, In x (m_ents m) -> w_ent x = Ok b -> exists y,
        (forall fuel, (List.length b <= fuel)%nat -> RT (p_ent fuel) b y) /\ same_entity x y /\ (forall b, w_ent x = Ok b -> w_ent y = Ok b)).
    { intros x b Hin Hx. rewrite Forall_forall in Hfe.
      destruct (rt_ent x b (List.length b) (Hfe x Hin) Hx (le_n _)) as (y & Ry & Sy & Wy).
      exists y. split; [|split; [exact Sy|intros; congruence]].
      intros fuel Hf rest. specialize (Ry []). rewrite app_nil_r in Ry.
      exact (ext_ent (List.length b) fuel Hf _ _ _ rest Ry). }
    clear - Gx E5.
    assert (G2 : forall l bs, wcat w_ent l = Ok bs -> (forall x, In x l -> In x (m_ents m)) ->
      exists ents, Forall2 (fun x y => same_entity x y /\ (forall b, w_ent x = Ok b -> w_ent y = Ok b)) l ents /\
        forall F fuel, (List.length bs <= fuel)%nat -> (List.length bs <= F)%nat -> RT (p_times fuel (p_ent F) (len l)) bs ents).
    { induction l as [|x l IH]; intros bs Hw Hin.
      - apply wcat_nil in Hw. subst. exists []. split; [constructor|]. intros F fuel _ _ rest. destruct fuel; reflexivity.
      - apply wcat_cons in Hw. destruct Hw as (c1 & c2 & W1 & W2 & ->).
        destruct (Gx x c1 (Hin x (or_introl eq_refl)) W1) as (y & Ry & Sy & Wy).
        destruct (IH c2 W2) as (ys & Sys & Rys); [intros z Hz; apply Hin; right; exact Hz|].
        exists (y :: ys). split; [constructor; auto|]. intros F fuel Hf HF. rewrite app_length in *.
        pose proof (ent_nonempty _ _ W1). destruct fuel as [|fuel]; [lia|]. cbn [p_times].
        replace (len (x :: l) <=? 0) with false by (unfold len; cbn [List.length]; lia).
        eapply rt_bind; [apply Ry; lia|].
        replace (len (x :: l) - 1) with (len l) by (unfold len; cbn [List.length]; lia).
        apply (rt_bind_ret (p_times fuel (p_ent F) (len l)) (fun z => y :: z)). apply Rys; lia. }
    destruct (G2 _ _ E5 (fun x Hx => Hx)) as (ents & S & R). exists ents. split; [exact S|]. intros; apply R; assumption. }
  destruct Gents as (ents & Sents & Rents).
  assert (Sents1 : Forall2 same_entity (m_ents m) ents) by (eapply Forall2_impl; [|exact Sents]; tauto).
  assert (Wents : wcat w_ent ents = Ok v5).
  { eapply (wcat_same w_ent w_ent); [exact Sents| |exact E5]. cbn. intros x y b [_ Hxy]. apply Hxy. }
  exists (w_str (m_magic m) false ++ v ++ v0 ++ (b1 ++ b2 ++ b3 ++ b4 ++ b5 ++ b6 ++ b7 ++ b8 ++ w_str (h_gameident h) true ++ b10) ++ v2 ++ v3 ++ v4 ++ v5 ++ v6), v7, vars, ents.
  split; [rewrite <- !app_assoc; reflexivity|]. split; [exact E7|]. split; [exact Svars1|]. split; [exact Sents1|].
  split; [|split].
  - intros fuel r Hf. repeat rewrite app_length in Hf. unfold p_map. rewrite <- !app_assoc.
    rewrite (pbind_rt (p_str 4 false) _ (w_str (m_magic m) false) (m_magic m)).
    2: { unfold p_str, w_str. apply rt_bytes. destruct Hmag as [-> | ->]; reflexivity. }
    replace (negb (bytes_eqb (m_magic m) MAPZ || bytes_eqb (m_magic m) BFGZ)) with false
      by (destruct Hmag as [-> | ->]; reflexivity).
    rewrite (pbind_rt _ _ _ _ _ Rv), (pbind_rt _ _ _ _ _ Rh), (pbind_rt _ _ _ _ _ R1), (pbind_rt _ _ _ _ _ R2).
    rewrite (pbind_rt _ _ _ _ _ R3), (pbind_rt _ _ _ _ _ R4), (pbind_rt _ _ _ _ _ R5), (pbind_rt _ _ _ _ _ R6).
    rewrite (pbind_rt _ _ _ _ _ R7), (pbind_rt _ _ _ _ _ R8).
    rewrite (pbind_rt (p_str 3 true) _ (w_str (h_gameident h) true) (h_gameident h))
      by (apply rt_str; unfold len; rewrite Hgi; reflexivity).
    rewrite (pbind_rt _ _ _ _ _ R10).
    rewrite (pbind_rt (p_times fuel p_var nv) _ v2 vars) by (rewrite p_times_max, Hnv; apply Rvars; lia).
    rewrite (pbind_rt _ _ _ _ _ Rnm). 
    rewrite (pbind_rt _ _ _ _ _ (Rmru fuel ltac:(lia))), (pbind_rt _ _ _ _ _ (Rents fuel ltac:(lia))).
    rewrite (pbind_rt _ _ v6 _ _ (rt_vslots _ _ _ fuel Hsl E6 ltac:(lia))).
    cbn [fst snd]. rewrite Dvars. reflexivity.
  - intros vs w b Hb. unfold write_map. cbv zeta. unfold set_numents.
    cbn [m_magic m_version m_headersize m_meta m_vars m_texmru m_ents m_vslots m_chg m_world].
    rewrite set_numents_meta. rewrite <- (forall2_length _ _ _ Sents1).
    change (Z.of_nat (List.length (m_ents m))) with (len (m_ents m)).
    rewrite E. cbn [bind]. rewrite E0. cbn [bind]. rewrite E1. cbn [bind]. rewrite Wvars. cbn [bind].
    rewrite E3. cbn [bind]. rewrite E4. cbn [bind]. rewrite Wents. cbn [bind]. rewrite E6. cbn [bind].
    rewrite Hb. cbn [bind]. rewrite <- !app_assoc. reflexivity.
  - intros w b Hb. unfold write_map. cbv zeta. unfold set_numents.
    cbn [m_magic m_version m_headersize m_meta m_vars m_texmru m_ents m_vslots m_chg m_world].
    rewrite Hmeta, set_numents_meta.
    change (Z.of_nat (List.length (m_ents m))) with (len (m_ents m)).
    rewrite E. cbn [bind]. rewrite E0. cbn [bind]. rewrite E1. cbn [bind]. rewrite E2. cbn [bind].
    rewrite E3. cbn [bind]. rewrite E4. cbn [bind]. rewrite E5. cbn [bind]. rewrite E6. cbn [bind].
    rewrite Hb. cbn [bind]. rewrite <- !app_assoc. reflexivity.
Qed.

Lemma rt_map m bs :
  fits_map m -> write_map m = Ok bs ->
  exists m', (forall fuel, (List.length bs <= fuel)%nat -> RT (p_map fuel) bs m') /\
             same_map (set_numents m) m' /\ write_map m' = Ok bs.
Proof.
  intros (Hmag & (h & ne & nv & Hgi & Hmeta & Hnv & Hsl & Hwd) & Hnd & Hfv & Hfe & Hvs & H8) Hw.
  destruct (map_head m h nv bs) as (hb & wb & vars & ents & -> & Ewb & Sv & Se & Hp & Hw2 & _).
  { unfold fits_head. do 2 (split; [assumption|]). split; [exists ne; exact Hmeta|]. auto 10. }
  { exact Hw. }
  destruct (rt_world _ _ _ Hwd Ewb) as (world & Rw & Sw & Vw). rewrite H8 in Rw.
  assert (Ww : wcat savec world = Ok wb).
  { eapply (wcat_same savec savec); [exact Sw| |exact Ewb]. intros x y b Hxy. apply savec_same. exact Hxy. }
  exists (Map (m_magic m) (m_version m) (m_headersize m) (header_meta h (len (m_ents m)) nv) vars (m_texmru m) ents (slots_total (m_chg m)) (m_chg m) world).
  split; [|split].
  - intros fuel Hf rest. rewrite app_length in Hf. rewrite <- app_assoc, Hp by lia.
    unfold p_loadchildren. rewrite (pbind_rt _ _ _ _ _ (Rw fuel ltac:(lia))).
    unfold finish_map. rewrite shiftr1, Vw. reflexivity.
  - unfold same_map, set_numents. cbn [m_magic m_version m_headersize m_meta m_vars m_texmru m_ents m_vslots m_chg m_world].
    rewrite Hmeta, set_numents_meta. repeat (split; [solve [auto]|]). auto.
  - apply Hw2. exact Ww.
Qed.

(** ** Maps as the reader returns them *)
Definition rd_var (e : list Z * vval) : Prop :=
  Forall is_byte (fst e) /\ len (fst e) < 2 ^ 31 /\
  match snd e with
  | VInt z => is_i32 z
  | VFloat f => is_f32 f
  | VBytes s => Forall is_byte s /\ len s < 2 ^ 31
  | VStr _ => False
  end.

Lemma post_var : post p_var rd_var.
Proof.
  unfold p_var. eapply post_bind; [apply post_i32|intros n Hn].
  eapply post_bind; [apply post_str_bytes|intros name [Hb Lb]].
  assert (Ln : len name < 2 ^ 31) by (unfold is_i32 in Hn; lia).
  eapply post_bind; [apply post_i32|intros t _].
  apply post_if; intros _.
  - eapply post_bind; [apply post_i32|intros l Hl]. eapply post_bind; [apply post_str_bytes|intros s [Hs Ls]].
    apply post_ret. unfold rd_var; cbn [fst snd]. unfold is_i32 in Hl. repeat split; auto; lia.
  - apply post_if; intros _.
    + eapply post_bind; [apply post_f32|intros f Hf]. apply post_ret. unfold rd_var; cbn [fst snd].
      split; [exact Hb|]. split; [exact Ln|]. apply from_f32_is. exact Hf.
    + apply post_if; intros _; [|apply post_err].
      eapply post_bind; [apply post_i32|intros z Hz]. apply post_ret. unfold rd_var; cbn [fst snd]. auto.
Qed.

Definition rd_map (m : rmap) : Prop :=
  (m_magic m = MAPZ \/ m_magic m = BFGZ) /\ is_i32 (m_version m) /\ is_i32 (m_headersize m) /\
  (exists h ne nv, wf_header h /\ is_i32 ne /\ is_i32 nv /\ m_meta m = header_meta h ne nv /\
     len (m_vars m) <= Z.max 0 nv /\ len (m_ents m) = Z.max 0 ne /\
     slots_fit (h_numvslots h) (m_chg m) /\ Forall (rd_cube (h_worldsize h / 2)) (m_world m)) /\
  NoDup (map fst (m_vars m)) /\ Forall rd_var (m_vars m) /\
  len (m_texmru m) < 2 ^ 16 /\ Forall is_u16 (m_texmru m) /\
  Forall rd_ent (m_ents m) /\ m_vslots m = slots_total (m_chg m) /\ Forall is_i32 (m_chg m) /\
  List.length (m_world m) = 8%nat.

Lemma post_map fuel : post (p_map fuel) rd_map.
Proof.
  unfold p_map.
  eapply post_bind with (Q := fun _ => True).
  { unfold p_str. eapply post_weaken; [apply post_bytes|auto]. }
  intros magic _. destruct (bytes_eqb magic MAPZ || bytes_eqb magic BFGZ) eqn:Em; cbn [negb]; [|apply post_err].
  assert (Hmag : magic = MAPZ \/ magic = BFGZ).
  { apply orb_true_iff in Em. destruct Em as [Em|Em]; apply bytes_eqb_spec in Em; auto. }
  eapply post_bind; [apply post_i32|intros version Hver]. eapply post_bind; [apply post_i32|intros hs Hhs].
  eapply post_bind; [apply post_i32|intros ws Hws]. eapply post_bind; [apply post_i32|intros ne Hne].
  eapply post_bind; [apply post_i32|intros np Hnp]. eapply post_bind; [apply post_i32|intros lm Hlm].
  eapply post_bind; [apply post_i32|intros bm Hbm]. eapply post_bind; [apply post_i32|intros vs Hvs].
  eapply post_bind; [apply post_i32|intros gv Hgv]. eapply post_bind; [apply post_i32|intros rv Hrv].
  eapply post_bind with (Q := fun s => Forall is_byte s /\ List.length s = 3%nat).
  { unfold p_str. eapply post_bind; [apply post_bytes|intros l [L Hl]]. apply post_ret.
    split; [apply Forall_removelast; exact Hl|]. rewrite length_removelast. unfold len in L. lia. }
  intros gi [Hgi Lgi]. eapply post_bind; [apply post_i32|intros nv Hnv].
  eapply post_bind; [apply post_times, post_var|intros vars [Hvars Lvars]].
  eapply post_bind; [apply post_u16|intros nm Hnm].
  eapply post_bind; [apply post_times, post_u16|intros mru [Hmru Lmru]].
  eapply post_bind; [apply post_times, post_ent|intros ents [Hents Lents]].
  eapply post_bind; [apply post_vslots|intros sl (Hs1 & Hs2 & Hs3)].
  eapply post_bind; [apply post_kids, post_loadc|intros root [Hroot Lroot]].
  intros b m r Hb. destruct (validatec (Z.shiftr ws 1) root) as [world|] eqn:Ev; [|discriminate].
  intros [= <- <-]. split; [|exact Hb]. unfold rd_map.
  cbn [m_magic m_version m_headersize m_meta m_vars m_texmru m_ents m_vslots m_chg m_world].
  split; [exact Hmag|]. split; [exact Hver|]. split; [exact Hhs|]. split.
  { exists (Hdr ws np lm bm vs gv rv gi), ne, nv. unfold wf_header. cbn [h_worldsize h_numpvs h_lightmaps h_blendmap h_numvslots h_gamever h_revision h_gameident].
    split; [auto 20|]. split; [exact Hne|]. split; [exact Hnv|]. split; [reflexivity|].
    split; [pose proof (vars_dict_length vars); unfold len in *; lia|]. split; [exact Lents|]. split; [exact Hs2|].
    unfold validatec in Ev. apply mapM_forall2 in Ev. rewrite <- shiftr1.
    clear - Ev Hroot. revert Hroot. induction Ev as [|x y l m Hxy _ IH]; intros Hr; constructor; inversion Hr; subst; auto.
    eapply validate_rd; eassumption. }
  split; [apply vars_dict_keys|]. split; [apply vars_dict_forall; exact Hvars|].
  split; [rewrite Lmru; unfold is_u16 in Hnm; lia|]. split; [exact Hmru|]. split; [exact Hents|].
  split; [exact Hs1|]. split; [exact Hs3|].
  unfold validatec in Ev. apply mapM_forall2 in Ev. rewrite <- (forall2_length _ _ _ Ev). exact Lroot.
Qed.

Lemma read_rd b m : Forall is_byte b -> read_map b = Ok m -> rd_map m.
Proof.
  intros Hb Hr. unfold read_map, read_rest in Hr. binv Hr. destruct v as [m1 r1]. injection Hr as <-.
  apply (post_map _ _ _ _ Hb E).
Qed.

Lemma rd_map_fits m : rd_map m -> (forall n, header_vars m = Some n -> Z.max 0 n = len (m_vars m)) -> fits_map m.
Proof.
  intros (H1 & H2 & H3 & (h & ne & nv & G1 & G2 & G3 & G4 & G5 & G6 & G7 & G8) & K1 & K2 & K3 & K4 & K5 & K6 & K7 & K8) Hn.
  unfold fits_map. split; [exact H1|]. split.
  { exists h, ne, nv. split; [apply G1|]. split; [exact G4|]. split.
    - apply Hn. unfold header_vars. rewrite G4. reflexivity.
    - split; [exact G7|]. eapply Forall_impl; [|exact G8]. intros c. apply rd_fits. }
  split; [exact K1|]. split; [eapply Forall_impl; [|exact K2]; intros [k v]; unfold rd_var, fits_var; cbn; destruct v; tauto|].
  split; [eapply Forall_impl; [|exact K5]; intros e He; apply He|]. auto.
Qed.

Lemma w_var_ok e : rd_var e -> exists b, w_var e = Ok b.
Proof.
  destruct e as [k v]. unfold rd_var, w_var. cbn [fst snd]. intros (_ & Lk & Hv).
  assert (Hi : forall {A} (l : list A), len l < 2 ^ 31 -> is_i32 (Z.of_nat (List.length l))).
  { intros A l. unfold is_i32, len. change (2 ^ 31) with 2147483648. lia. }
  rewrite w_i32_ok by (apply Hi; exact Lk). cbn [bind].
  assert (H0 : is_i32 0 /\ is_i32 1 /\ is_i32 2) by (unfold is_i32; change (2 ^ 31) with 2147483648; lia).
  destruct v as [z|f|s|s]; [| | |contradiction]; rewrite w_i32_ok by apply H0; cbn [bind].
  - rewrite w_i32_ok by exact Hv. eexists; reflexivity.
  - destruct (w_f32_ok _ Hv) as (n & _ & -> & _). eexists; reflexivity.
  - rewrite w_i32_ok by (apply Hi; apply Hv). eexists; reflexivity.
Qed.

Lemma header_write_ok h ne nv : wf_header h -> is_i32 ne -> is_i32 nv ->
  exists bs, wcat w_meta (header_meta h ne nv) = Ok bs.
Proof.
  intros (H1 & H2 & H3 & H4 & H5 & H6 & H7 & _) Hne Hnv. apply wcat_ok.
  unfold header_meta. intros x Hx. cbn [In] in Hx.
  repeat (destruct Hx as [<-|Hx]; [unfold w_meta; cbn; first [eexists; reflexivity|eexists; apply w_i32_ok; assumption]|]).
  destruct Hx.
Qed.

Lemma rd_write m : rd_map m -> (exists bs, write_map m = Ok bs) <-> writable_map m.
Proof.
  intros (H1 & H2 & H3 & (h & ne & nv & G1 & G2 & G3 & G4 & G5 & G6 & G7 & G8) & K1 & K2 & K3 & K4 & K5 & K6 & K7 & K8).
  assert (Hmeta2 : m_meta (set_numents m) = header_meta h (len (m_ents m)) nv).
  { unfold set_numents. cbn [m_meta]. rewrite G4. apply set_numents_meta. }
  unfold write_map. cbv zeta. rewrite Hmeta2.
  cbn [set_numents m_magic m_version m_headersize m_vars m_texmru m_ents m_chg m_world].
  rewrite !w_i32_ok by assumption. cbn [bind].
  assert (Hne : is_i32 (len (m_ents m))) by (rewrite G6; unfold is_i32 in *; change (2 ^ 31) with 2147483648 in *; lia).
  destruct (header_write_ok h _ nv G1 Hne G3) as (bm & ->). cbn [bind].
  destruct (wcat_ok_all w_var _ _ K2 w_var_ok) as (bv & ->). cbn [bind].
  rewrite w_u16_ok by (unfold is_u16, len in *; lia). cbn [bind].
  destruct (wcat_ok_all w_u16 _ _ K4) as (bt & ->); [intros; eexists; apply w_u16_ok; assumption|]. cbn [bind].
  unfold writable_map, savechildren. rewrite Forall_forall in K5, G8, K7. split.
  - intros (bs & E). binv E. binv E. binv E. split; [|split].
    + apply Forall_forall. intros e He. apply (w_ent_ok e (K5 e He)). eapply wcat_in; eassumption.
    + apply Forall_forall. intros c Hc. destruct (wcat_in _ _ _ _ E1 Hc) as (b & Eb). unfold w_chg in Eb.
      binv Eb. destruct (Z.ltb_spec c 0); [assumption|discriminate].
    + apply Forall_forall. intros c Hc. apply (rd_savec c _ (G8 c Hc)). eapply wcat_in; eassumption.
  - intros (A & B & C). rewrite Forall_forall in A, B, C.
    destruct (wcat_ok w_ent (m_ents m)) as (be & ->); [intros e He; apply w_ent_ok; auto|]. cbn [bind].
    destruct (wcat_ok w_chg (m_chg m)) as (bc & ->).
    { intros c Hc. unfold w_chg. rewrite w_i32_ok by auto. cbn [bind]. specialize (B c Hc).
      replace (c <? 0) with true by lia. eauto. }
    cbn [bind]. destruct (wcat_ok savec (m_world m)) as (bw & ->); [|eexists; reflexivity].
    intros c Hc. apply (rd_savec c _ (G8 c Hc)). auto.
Qed.

(** ** Well-formed maps *)
Lemma slots_ok_fit chg : forall n, slots_ok n chg -> slots_fit n chg /\ slots_total chg = - fold_right Z.add 0 chg /\ Forall (fun c => c < 0 /\ is_i32 c) chg.
Proof.
  induction chg as [|c chg IH]; intros n; cbn [slots_ok slots_fit slots_total fold_right]; [auto|].
  intros (A & B & C & D). replace (c <? 0) with true by lia. destruct (IH _ D) as (X & Y & W).
  split; [auto|]. split; [lia|]. constructor; auto.
Qed.

Lemma wf_map_fits m : wf_map m -> fits_map m /\ set_numents m = m.
Proof.
  intros (H1 & H2 & H3 & (h & Hh & Hmeta & Hsl & Hwd) & L1 & L2 & Hnd & Hv & Lt & Ht & He & Hvs & H8).
  destruct (slots_ok_fit _ _ Hsl) as (S1 & S2 & _). split.
  - unfold fits_map. split; [exact H1|]. split.
    { exists h, (len (m_ents m)), (len (m_vars m)). split; [apply Hh|]. split; [exact Hmeta|].
      split; [unfold len; lia|]. split; [exact S1|]. eapply Forall_impl; [|exact Hwd]. intros c. apply wf_fits. }
    split; [exact Hnd|]. split; [eapply Forall_impl; [|exact Hv]; intros [k v]; unfold wf_var, fits_var; cbn; destruct v; tauto|].
    split; [eapply Forall_impl; [|exact He]; intros e Hwe; apply (wf_entity_rd e Hwe)|]. split; [congruence|exact H8].
  - unfold set_numents. destruct m as [a b c d e f g i j k]. cbn in *. rewrite Hmeta. rewrite set_numents_meta. reflexivity.
Qed.

Lemma wf_write m : wf_map m -> exists bs, write_map m = Ok bs.
Proof.
  intros Hwf. destruct (wf_map_fits m Hwf) as [_ Hset].
  destruct Hwf as (H1 & H2 & H3 & (h & Hh & Hmeta & Hsl & Hwd) & L1 & L2 & Hnd & Hv & Lt & Ht & He & Hvs & H8).
  unfold write_map. cbv zeta. rewrite Hset, Hmeta.
  rewrite !w_i32_ok by assumption. cbn [bind].
  destruct (header_write_ok h (len (m_ents m)) (len (m_vars m)) Hh) as (bm & ->).
  { unfold is_i32, len in *. change (2 ^ 31) with 2147483648 in *. lia. }
  { unfold is_i32, len in *. change (2 ^ 31) with 2147483648 in *. lia. }
  cbn [bind]. destruct (wcat_ok_all w_var _ _ Hv w_var_ok) as (bv & ->). cbn [bind].
  rewrite w_u16_ok by (unfold is_u16, len in *; lia). cbn [bind].
  destruct (wcat_ok_all w_u16 _ _ Ht) as (bt & ->); [intros; eexists; apply w_u16_ok; assumption|]. cbn [bind].
  destruct (wcat_ok_all w_ent _ _ He) as (be & ->).
  { intros e Hwe. destruct (wf_entity_rd e Hwe) as [A B]. apply w_ent_ok; assumption. }
  cbn [bind]. destruct (slots_ok_fit _ _ Hsl) as (_ & _ & Hneg).
  destruct (wcat_ok_all w_chg _ _ Hneg) as (bc & ->).
  { intros c (C & Ci). unfold w_chg. rewrite w_i32_ok by exact Ci. cbn [bind]. replace (c <? 0) with true by lia. eauto. }
  cbn [bind]. unfold savechildren. destruct (wcat_ok_all savec _ _ Hwd) as (bw & ->); [intros c; apply wf_savec|].
  eexists; reflexivity.
Qed.

(** C15 *)
Lemma write_read_lemma m : wf_map m ->
  exists bs m', write_map m = Ok bs /\ read_rest bs = Ok (m', []) /\ same_map m m'.
Proof.
  intros Hwf. destruct (wf_write m Hwf) as (bs & Hw). destruct (wf_map_fits m Hwf) as [Hf Hset].
  destruct (rt_map m bs Hf Hw) as (m' & HR & HS & _). rewrite Hset in HS.
  exists bs, m'. split; [exact Hw|]. split; [|exact HS]. unfold read_rest.
  specialize (HR (S (List.length bs)) (le_S _ _ (le_n _)) []). rewrite app_nil_r in HR. exact HR.
Qed.

(** C16 *)
Lemma rewrite_lemma b m bs :
  Forall is_byte b -> read_map b = Ok m ->
  (forall n, header_vars m = Some n -> Z.max 0 n = len (m_vars m)) ->
  write_map m = Ok bs ->
  exists m', read_rest bs = Ok (m', []) /\ same_map (set_numents m) m' /\ write_map m' = Ok bs.
Proof.
  intros Hb Hr Hn Hw. pose proof (rd_map_fits m (read_rd b m Hb Hr) Hn) as Hf.
  destruct (rt_map m bs Hf Hw) as (m' & HR & HS & HW). exists m'. split; [|auto].
  unfold read_rest. specialize (HR (S (List.length bs)) (le_S _ _ (le_n _)) []). rewrite app_nil_r in HR. exact HR.
Qed.

(** C17 *)
Lemma writable_lemma b m :
  Forall is_byte b -> read_map b = Ok m -> (exists bs, write_map m = Ok bs) <-> writable_map m.
Proof. intros Hb Hr. apply rd_write. eapply read_rd; eassumption. Qed.

(** C18 *)
Lemma truncated_lemma m bs p s :
  wf_map m -> write_map m = Ok bs -> bs = p ++ s -> s <> [] -> exists e, read_map p = Err e.
Proof.
  intros Hwf Hw Hp Hs. destruct (write_read_lemma m Hwf) as (bs' & m' & Hw' & Hr & _).
  rewrite Hw in Hw'. injection Hw' as <-.
  destruct (read_prefix_lemma _ _ p s Hr Hp Hs) as (e & He & _). exists e. unfold read_map. rewrite He. reflexivity.
Qed.
