(** Proofs about skies. *)
From Verif Require Import Py CodecModel CodecSpec CodecProofs CodecMap CodecSamples OutModel OutProofs JsonModel SkyModel SkySpec.
Local Open Scope Z_scope.

(** ** The images *)
Lemma app_assoc_s (a b c : string) : ((a ++ b) ++ c)%string = (a ++ (b ++ c))%string.
Proof. induction a as [|x a IH]; cbn [String.append]; congruence. Qed.

Lemma get_files_sides b f : In f (get_files b) <-> exists s, In s sides /\ f = (b ++ s)%string.
Proof.
  unfold get_files, sides, back_ext, down_ext, front_ext, left_ext, right_ext, up_ext. cbn [In]. split.
  - intros H0. repeat (destruct H0 as [<- | H0]; [eexists; split; [|reflexivity]; tauto|]). contradiction.
  - intros (s & H0 & ->). repeat (destruct H0 as [<- | H0]; [tauto|]). contradiction.
Qed.

Lemma existsb_name f l : existsb (String.eqb f) l = true <-> In f l.
Proof.
  rewrite existsb_exists. split.
  - intros (x & Hx & E). apply String.eqb_eq in E. congruence.
  - intros Hf. exists f. split; [exact Hf|apply String.eqb_refl].
Qed.

Lemma copy_images_none module fs : forall game,
  snd (copy_images module fs game) = None <-> incl fs module.
Proof.
  induction fs as [|f r IH]; intros game; cbn [copy_images].
  - split; [intros _ x []|reflexivity].
  - destruct (existsb (String.eqb f) module) eqn:E.
    + apply existsb_name in E. rewrite IH. split.
      * intros Hr x [<- | Hx]; [exact E|apply Hr, Hx].
      * intros Hi x Hx. apply Hi. right. exact Hx.
    + cbn [snd]. split; [discriminate|]. intros Hi. assert (In f module) by (apply Hi; left; reflexivity).
      apply existsb_name in H. congruence.
Qed.

Lemma copy_images_exn module fs : forall game e,
  snd (copy_images module fs game) = Some e -> e = FileNotFoundError.
Proof.
  induction fs as [|f r IH]; intros game e; cbn [copy_images]; [discriminate|].
  destruct (existsb _ _); [apply IH|]. cbn [snd]. congruence.
Qed.

Lemma copy_images_some module fs : forall game f,
  In f (fst (copy_images module fs game)) ->
  In f game \/ exists x, In x fs /\ In x module /\ f = ("data/hxr/skybox/" ++ x)%string.
Proof.
  induction fs as [|x r IH]; intros game f; cbn [copy_images]; [auto|].
  destruct (existsb (String.eqb x) module) eqn:E; [|auto].
  intros H0. apply existsb_name in E. destruct (IH _ _ H0) as [H1 | (y & Y1 & Y2 & Y3)].
  - apply in_app_or in H1. destruct H1 as [H1 | [<- | []]]; [auto|]. right. exists x. cbn [In]. auto.
  - right. exists y. cbn [In]. auto.
Qed.

Lemma copy_images_keep module fs : forall game f, In f game -> In f (fst (copy_images module fs game)).
Proof.
  induction fs as [|x r IH]; intros game f Hf; cbn [copy_images]; [exact Hf|].
  destruct (existsb _ _); [|exact Hf]. apply IH, in_or_app. auto.
Qed.

Lemma copy_images_all module fs : forall game x,
  snd (copy_images module fs game) = None -> In x fs ->
  In ("data/hxr/skybox/" ++ x)%string (fst (copy_images module fs game)).
Proof.
  induction fs as [|y r IH]; intros game x Hn Hx; [contradiction|]. cbn [copy_images] in *.
  destruct (existsb (String.eqb y) module); [|discriminate].
  destruct Hx as [<- | Hx]; [|apply IH; assumption].
  apply copy_images_keep, in_or_app. right. left. reflexivity.
Qed.

Lemma target b s : ("data/hxr/skybox/" ++ (b ++ s))%string = ("data/" ++ get_short_path b ++ s)%string.
Proof. unfold get_short_path. rewrite app_assoc_s. reflexivity. Qed.

Lemma new_sky_some module b game f :
  In f (fst (new_sky module b game)) -> In f game \/ sky_image (get_short_path b) f.
Proof.
  intros H0. destruct (copy_images_some _ _ _ _ H0) as [H1 | (x & X1 & _ & ->)]; [auto|].
  right. apply get_files_sides in X1. destruct X1 as (s & S1 & ->). exists s. split; [exact S1|]. apply target.
Qed.

Lemma sky_installed module b game :
  snd (new_sky module b game) = None ->
  forall f, In f (fst (new_sky module b game)) <-> In f game \/ sky_image (get_short_path b) f.
Proof.
  intros Hn f. split; [apply new_sky_some|]. intros [Hf | (s & S1 & ->)].
  - apply copy_images_keep, Hf.
  - rewrite <- target. apply copy_images_all; [exact Hn|]. apply get_files_sides. exists s. auto.
Qed.

Lemma sky_complete module b game :
  (snd (new_sky module b game) = None <-> forall s, In s sides -> In (b ++ s)%string module) /\
  (forall e, snd (new_sky module b game) = Some e -> e = FileNotFoundError) /\
  (forall f, In f game -> In f (fst (new_sky module b game))) /\
  (forall f, In f (fst (new_sky module b game)) -> In f game \/ sky_image (get_short_path b) f).
Proof.
  split; [|split; [apply copy_images_exn|split; [apply copy_images_keep|apply new_sky_some]]].
  unfold new_sky. rewrite copy_images_none. split.
  - intros Hi s Hs. apply Hi, get_files_sides. eauto.
  - intros Ha f Hf. apply get_files_sides in Hf. destruct Hf as (s & Hs & ->). auto.
Qed.

(** ** The file *)
Lemma i32_len z b : w_i32 z = Ok b -> List.length b = 4%nat.
Proof. intros E. destruct (rt_i32 _ _ E) as (_ & L & _). exact L. Qed.

Lemma wcat_app_ok {A} (w : A -> res (list Z)) l m a b :
  wcat w l = Ok a -> wcat w m = Ok b -> wcat w (l ++ m) = Ok (a ++ b).
Proof.
  revert a. induction l as [|x l IH]; intros a Ha Hb.
  - apply wcat_nil in Ha. subst a. exact Hb.
  - apply wcat_cons in Ha. destruct Ha as (a1 & a2 & E1 & E2 & ->). cbn [app].
    apply wcat_cons. exists a1, (a2 ++ b). rewrite app_assoc. auto.
Qed.

Lemma attach_meta m h ne nv s :
  m_meta m = header_meta h ne nv ->
  m_meta (attach_sky m s) = header_meta h ne nv ++ [("skybox"%string, MStr (codes (get_short_path s)))].
Proof. intros E. unfold attach_sky. cbn [apply_edit m_meta]. rewrite E. reflexivity. Qed.

(** The writer, cut after the header. *)
Lemma sky_write m h ne nv s bs :
  (m_magic m = MAPZ \/ m_magic m = BFGZ) -> List.length (h_gameident h) = 3%nat ->
  m_meta m = header_meta h ne nv -> write_map m = Ok bs ->
  exists pre post, bs = pre ++ post /\ List.length pre = 52%nat /\
    write_map (attach_sky m s) = Ok (pre ++ (codes (get_short_path s) ++ [0]) ++ post) /\
    (forall fuel r, p_map fuel (pre ++ r) =
       pbind (p_times fuel p_var nv) (fun vars =>
         do nmru <- p_u16;; do texmru <- p_times fuel p_u16 nmru;;
         do ents <- p_times fuel (p_ent fuel) (len (m_ents m));;
         do sl <- p_vslots fuel (h_numvslots h);;
         do root <- p_loadchildren fuel;;
         fun b => match validatec (Z.shiftr (h_worldsize h) 1) root with
         | Err e => Err e
         | Ok world => Ok (Map (m_magic m) (m_version m) (m_headersize m)
                             (header_meta h (len (m_ents m)) nv)
                             (vars_dict vars) texmru ents (fst sl) (snd sl) world, b)
         end) r).
Proof.
  intros Hmag Hgi Hmeta Hw.
  assert (Hmeta2 : m_meta (set_numents m) = header_meta h (len (m_ents m)) nv).
  { unfold set_numents. cbn [m_meta]. rewrite Hmeta. apply set_numents_meta. }
  unfold write_map in Hw. cbv zeta in Hw. rewrite Hmeta2 in Hw.
  cbn [set_numents m_magic m_version m_headersize m_vars m_texmru m_ents m_chg m_world] in Hw.
  do 9 binv Hw. injection Hw as <-.
  destruct (header_write _ _ _ _ E1) as (b1 & b2 & b3 & b4 & b5 & b6 & b7 & b8 & b10 & W1 & W2 & W3 & W4 & W5 & W6 & W7 & W8 & W10 & Eh).
  destruct (rt_i32 _ _ E) as (Rv & Lv & _). destruct (rt_i32 _ _ E0) as (Rh & Lh & _).
  destruct (rt_i32 _ _ W1) as (R1 & L1 & _). destruct (rt_i32 _ _ W2) as (R2 & L2 & _).
  destruct (rt_i32 _ _ W3) as (R3 & L3 & _). destruct (rt_i32 _ _ W4) as (R4 & L4 & _).
  destruct (rt_i32 _ _ W5) as (R5 & L5 & _). destruct (rt_i32 _ _ W6) as (R6 & L6 & _).
  destruct (rt_i32 _ _ W7) as (R7 & L7 & _). destruct (rt_i32 _ _ W8) as (R8 & L8 & _).
  destruct (rt_i32 _ _ W10) as (R10 & L10 & _).
  exists (w_str (m_magic m) false ++ v ++ v0 ++ v1), (v2 ++ v3 ++ v4 ++ v5 ++ v6 ++ v7).
  split; [rewrite <- !app_assoc; reflexivity|]. split; [|split].
  - subst v1. unfold w_str. rewrite !app_length. cbn [List.length].
    rewrite Lv, Lh, L1, L2, L3, L4, L5, L6, L7, L8, L10, Hgi. destruct Hmag as [-> | ->]; reflexivity.
  - unfold write_map. cbv zeta.
    assert (Em : m_meta (set_numents (attach_sky m s)) =
      header_meta h (len (m_ents m)) nv ++ [("skybox"%string, MStr (codes (get_short_path s)))]).
    { unfold set_numents. cbn [m_meta]. rewrite (attach_meta _ _ _ _ s Hmeta). reflexivity. }
    rewrite Em. unfold attach_sky.
    cbn [set_numents apply_edit m_magic m_version m_headersize m_vars m_texmru m_ents m_chg m_world].
    rewrite (wcat_app_ok _ _ [("skybox"%string, MStr (codes (get_short_path s)))] _ (codes (get_short_path s) ++ [0]) E1).
    2: { apply wcat_cons. exists (codes (get_short_path s) ++ [0]), []. rewrite app_nil_r. cbn [w_meta].
         split; [reflexivity|]. split; reflexivity. }
    rewrite E. cbn [bind]. rewrite E0. cbn [bind]. rewrite E2. cbn [bind].
    rewrite E3. cbn [bind]. rewrite E4. cbn [bind]. rewrite E5. cbn [bind]. rewrite E6. cbn [bind].
    rewrite E7. cbn [bind]. rewrite <- !app_assoc. reflexivity.
  - intros fuel r. subst v1. unfold p_map. rewrite <- !app_assoc.
    rewrite (pbind_rt (p_str 4 false) _ (w_str (m_magic m) false) (m_magic m)).
    2: { unfold p_str, w_str. apply rt_bytes. destruct Hmag as [-> | ->]; reflexivity. }
    replace (negb (bytes_eqb (m_magic m) MAPZ || bytes_eqb (m_magic m) BFGZ)) with false
      by (destruct Hmag as [-> | ->]; reflexivity).
    rewrite (pbind_rt _ _ _ _ _ Rv), (pbind_rt _ _ _ _ _ Rh), (pbind_rt _ _ _ _ _ R1), (pbind_rt _ _ _ _ _ R2).
    rewrite (pbind_rt _ _ _ _ _ R3), (pbind_rt _ _ _ _ _ R4), (pbind_rt _ _ _ _ _ R5), (pbind_rt _ _ _ _ _ R6).
    rewrite (pbind_rt _ _ _ _ _ R7), (pbind_rt _ _ _ _ _ R8).
    rewrite (pbind_rt (p_str 3 true) _ (w_str (h_gameident h) true) (h_gameident h))
      by (apply rt_str; unfold len; rewrite Hgi; reflexivity).
    rewrite (pbind_rt _ _ _ _ _ R10). reflexivity.
Qed.

(** C106: the file with a sky. *)
Lemma sky_inserted m s : wf_map m ->
  exists bs sb, write_map m = Ok bs /\ write_map (attach_sky m s) = Ok sb /\
    inserted 52 (codes (get_short_path s) ++ [0]) bs sb.
Proof.
  intros Hwf. destruct (wf_write m Hwf) as (bs & Hw).
  destruct Hwf as (H1 & _ & _ & (h & Hh & Hmeta & _) & _).
  destruct (sky_write m h (len (m_ents m)) (len (m_vars m)) s bs H1) as (pre & post & -> & L & Ws & _); [apply Hh|exact Hmeta|exact Hw|].
  exists (pre ++ post), (pre ++ (codes (get_short_path s) ++ [0]) ++ post). split; [exact Hw|]. split; [exact Ws|].
  split; [rewrite app_length; lia|]. rewrite <- L.
  rewrite firstn_app, skipn_app, firstn_all, skipn_all, Nat.sub_diag. cbn [firstn skipn app]. rewrite app_nil_r. reflexivity.
Qed.

Lemma codes_sky s : codes (get_short_path s) = [104; 120; 114; 47] ++ [115; 107; 121; 98; 111; 120; 47] ++ codes s.
Proof. reflexivity. Qed.

Lemma sky_unread m s sb : wf_map m -> m_vars m <> [] -> write_map (attach_sky m s) = Ok sb ->
  len sb < 796031080 -> read_rest sb = Err StructError.
Proof.
  intros Hwf Hv Hs Hlen. destruct (wf_write m Hwf) as (bs & Hw).
  destruct Hwf as (H1 & _ & _ & (h & Hh & Hmeta & _) & _).
  destruct (sky_write m h (len (m_ents m)) (len (m_vars m)) s bs H1) as (pre & post & -> & L & Ws & Hp); [apply Hh|exact Hmeta|exact Hw|].
  assert (Esb : sb = pre ++ (codes (get_short_path s) ++ [0]) ++ post) by congruence. subst sb. unfold read_rest. rewrite Hp.
  assert (Hn : 0 < len (m_vars m)) by (unfold len; destruct (m_vars m); [congruence|cbn [List.length]; lia]).
  unfold pbind at 1. cbn [p_times]. replace (len (m_vars m) <=? 0) with false by lia.
  rewrite codes_sky, <- !app_assoc in Hlen. rewrite codes_sky, <- !app_assoc. unfold pbind at 1. unfold p_var. unfold pbind at 1.
  unfold p_i32 at 1. unfold pbind at 1.
  rewrite (rt_bytes [104; 120; 114; 47] 4 eq_refl). unfold pret at 1.
  change (signed32 (unle [104; 120; 114; 47])) with 796031080. unfold p_str, pbind at 1.
  unfold pbind at 1. unfold p_bytes at 1. change (796031080 + 1 <? 0) with false.
  unfold len in Hlen. rewrite app_length in Hlen. cbv beta iota.
  match goal with |- context [?a <? ?b] => replace (a <? b) with true end; [reflexivity|].
  symmetry. apply Z.ltb_lt. rewrite app_length in Hlen. lia.
Qed.

Lemma p_times_len {A} (p : P A) fuel : forall n b l r,
  p_times fuel p n b = Ok (l, r) -> Z.of_nat (List.length l) = Z.max 0 n.
Proof.
  induction fuel as [|f IH]; intros n b l r; cbn [p_times]; destruct (Z.leb_spec n 0).
  1,3: intros E; injection E as <- _; cbn [List.length]; lia.
  - discriminate.
  - unfold pbind. destruct (p b) as [[x b']|]; [|discriminate].
    destruct (p_times f p (n - 1) b') as [[l' r']|] eqn:E; [|discriminate].
    intros E'. injection E' as <- _. apply IH in E. cbn [List.length]. lia.
Qed.

Lemma pbind_inv {A B} (p : P A) (k : A -> P B) b r :
  pbind p k b = Ok r -> exists a b', p b = Ok (a, b') /\ k a b' = Ok r.
Proof. unfold pbind. destruct (p b) as [[a b']|]; [|discriminate]. eauto. Qed.

Lemma sky_history m s sb m' rest : wf_map m -> m_vars m = [] -> write_map (attach_sky m s) = Ok sb ->
  read_rest sb = Ok (m', rest) -> len (m_texmru m') = 30824.
Proof.
  intros Hwf Hv Hs Hr. destruct (wf_write m Hwf) as (bs & Hw).
  destruct Hwf as (H1 & _ & _ & (h & Hh & Hmeta & _) & _).
  destruct (sky_write m h (len (m_ents m)) (len (m_vars m)) s bs H1) as (pre & post & -> & L & Ws & Hp); [apply Hh|exact Hmeta|exact Hw|].
  assert (Esb : sb = pre ++ (codes (get_short_path s) ++ [0]) ++ post) by congruence. subst sb.
  unfold read_rest in Hr. rewrite Hp in Hr. replace (len (m_vars m)) with 0 in Hr by (rewrite Hv; reflexivity).
  apply pbind_inv in Hr. destruct Hr as (vars & b0 & E0 & Hr).
  assert (Eb : b0 = (codes (get_short_path s) ++ [0]) ++ post).
  { cbn [p_times] in E0. change (0 <=? 0) with true in E0. unfold pret in E0. congruence. }
  subst b0. clear E0. apply pbind_inv in Hr. destruct Hr as (n & b1 & E1 & Hr).
  assert (En : n = 30824).
  { rewrite codes_sky in E1. change [104; 120; 114; 47] with ([104; 120] ++ [114; 47]) in E1.
    rewrite <- !app_assoc in E1. apply pbind_inv in E1. destruct E1 as (l & b2 & E1 & E2).
    rewrite (rt_bytes [104; 120] 2 eq_refl) in E1. unfold pret in E2.
    assert (l = [104; 120]) by congruence. subst l. change (unle [104; 120]) with 30824 in E2. congruence. }
  subst n. apply pbind_inv in Hr. destruct Hr as (tm & b2 & E2 & Hr). apply p_times_len in E2.
  apply pbind_inv in Hr. destruct Hr as (es & b3 & _ & Hr).
  apply pbind_inv in Hr. destruct Hr as (sl & b4 & _ & Hr).
  apply pbind_inv in Hr. destruct Hr as (root & b5 & _ & Hr).
  destruct (validatec _ _); [|discriminate].
  assert (Em : m_texmru m' = tm) by (injection Hr as <- _; reflexivity).
  rewrite Em. unfold len. rewrite E2. reflexivity.
Qed.

Lemma sky_refuted m s : wf_map m -> m_vars m <> [] ->
  exists bs sb, write_map m = Ok bs /\ write_map (attach_sky m s) = Ok sb /\
    (len sb < 796031080 -> read_rest sb = Err StructError).
Proof.
  intros Hwf Hv. destruct (sky_inserted m s Hwf) as (bs & sb & W1 & W2 & _).
  exists bs, sb. split; [exact W1|]. split; [exact W2|]. apply sky_unread with m s; assumption.
Qed.
Lemma sky_inserted_at m s : wf_map m ->
  exists bs sb, write_map m = Ok bs /\ write_map (attach_sky m s) = Ok sb /\
    inserted 52 (codes "hxr/skybox/" ++ codes s ++ [0]) bs sb.
Proof.
  intros Hwf. destruct (sky_inserted m s Hwf) as (bs & sb & W1 & W2 & W3).
  exists bs, sb. split; [exact W1|]. split; [exact W2|]. rewrite codes_sky, <- !app_assoc in W3. exact W3.
Qed.
Lemma sky_shipped game :
  snd (new_sky sky_images "desert" game) = None /\ snd (new_sky sky_images "minecraft" game) = None /\
  new_sky sky_images "base" game = (game, Some FileNotFoundError).
Proof. repeat split; reflexivity. Qed.

(** ** A map without variables whose file with a sky can be read *)
Definition odd_count : Z := 30867.
Definition odd_map : rmap :=
  Map MAPZ 43 52 (header_meta (Hdr 16 0 0 0 0 226 1 [102; 112; 115]) 0 0) [] (repeat 257 (Z.to_nat odd_count)) [] 0 []
      (repeat (newcube F_EMPTY) 8).
Definition ones (n : nat) : list Z := repeat 1 n.

Lemma odd_wf : wf_map odd_map.
Proof.
  unfold wf_map, odd_map. cbn [m_magic m_version m_headersize m_meta m_vars m_texmru m_ents m_vslots m_chg m_world].
  unfold is_i32. change (2 ^ 31) with 2147483648. change (2 ^ 16) with 65536.
  split; [left; reflexivity|]. do 2 (split; [lia|]). split.
  { exists (Hdr 16 0 0 0 0 226 1 [102; 112; 115]). split.
    - unfold wf_header, is_i32. change (2 ^ 31) with 2147483648. cbn [h_worldsize h_numpvs h_lightmaps h_blendmap h_numvslots h_gamever h_revision h_gameident].
      do 7 (split; [lia|]). split; [reflexivity|]. repeat constructor; unfold is_byte; lia.
    - split; [reflexivity|]. split; [cbn; lia|].
      apply Forall_forall. intros x Hx. apply repeat_spec in Hx. subst x. apply newcube_wf. cbn. lia. }
  do 2 (split; [reflexivity|]). split; [constructor|]. split; [constructor|].
  split; [unfold len; rewrite repeat_length; unfold odd_count; lia|].
  split; [apply Forall_forall; intros x Hx; apply repeat_spec in Hx; subst x; unfold is_u16; change (2 ^ 16) with 65536; lia|].
  split; [constructor|]. split; reflexivity.
Qed.

Lemma mru_ones n : wcat w_u16 (repeat 257 n) = Ok (ones (n + n)).
Proof.
  induction n as [|n IH]; [reflexivity|]. cbn [repeat]. apply wcat_cons. exists [1; 1], (ones (n + n)).
  split; [reflexivity|]. split; [exact IH|]. rewrite Nat.add_succ_r. reflexivity.
Qed.

Lemma split_at {A} (a b c d : list A) : List.length a = List.length b -> a ++ c = b ++ d -> a = b /\ c = d.
Proof.
  revert b. induction a as [|x a IH]; intros [|y b] L E; try discriminate; [auto|].
  cbn [app] in E. injection E as -> E. injection L as L. destruct (IH _ L E) as [-> ->]. auto.
Qed.

Definition odd_world : list Z := Eval vm_compute in
  match savechildren (repeat (newcube F_EMPTY) 8) with Ok b => b | Err _ => [] end.
Definition odd_head : list Z := Eval vm_compute in
  MAPZ ++ match (let! a := w_i32 43 in let! b := w_i32 52 in
                 let! c := wcat w_meta (header_meta (Hdr 16 0 0 0 0 226 1 [102; 112; 115]) 0 0) in Ok (a ++ b ++ c))
          with Ok b => b | Err _ => [] end.
Lemma odd_written : write_map odd_map =
  Ok (odd_head ++ [147; 120] ++ ones (Z.to_nat odd_count + Z.to_nat odd_count) ++ odd_world).
Proof.
  unfold write_map. cbv zeta. unfold odd_map, set_numents.
  cbn [m_magic m_version m_headersize m_meta m_vars m_texmru m_ents m_chg m_world].
  rewrite repeat_length, mru_ones, Z2Nat.id by (unfold odd_count; lia). reflexivity.
Qed.

Lemma odd_read : exists sb m' rest,
  write_map (attach_sky odd_map "desert") = Ok sb /\ read_rest sb = Ok (m', rest).
Proof.
  destruct (sky_write odd_map (Hdr 16 0 0 0 0 226 1 [102; 112; 115]) 0 0 "desert" _
    (or_introl eq_refl) eq_refl eq_refl odd_written) as (pre & post & E & L & Ws & Hp).
  apply split_at in E; [|rewrite L; reflexivity]. destruct E as [<- <-].
  set (l := [12146; 27507; 25209; 30831; 25647; 29541; 29285; 116] ++ [odd_count] ++ repeat 257 (Z.to_nat 30815)).
  set (B := [114; 47; 115; 107; 121; 98; 111; 120; 47; 100; 101; 115; 101; 114; 116; 0] ++ [147; 120] ++
            ones (Z.to_nat 30815 + Z.to_nat 30815)).
  assert (Wl : wcat w_u16 l = Ok B).
  { unfold l, B. apply wcat_app_ok; [reflexivity|]. apply wcat_app_ok; [reflexivity|]. apply mru_ones. }
  assert (Ll : len l = 30824).
  { unfold len, l. rewrite !app_length, repeat_length. cbn [List.length]. lia. }
  destruct (rt_wcat_eq w_u16 p_u16 _ _ rt_u16_1 Wl) as [Rl _].
  set (sb := odd_head ++ (codes (get_short_path "desert") ++ [0]) ++ [147; 120] ++
             ones (Z.to_nat odd_count + Z.to_nat odd_count) ++ odd_world) in *.
  assert (Eb : (codes (get_short_path "desert") ++ [0]) ++ [147; 120] ++
               ones (Z.to_nat odd_count + Z.to_nat odd_count) ++ odd_world =
               [104; 120] ++ B ++ (ones 104 ++ odd_world)).
  { unfold B. rewrite <- !app_assoc. rewrite (app_assoc _ (ones 104) odd_world).
    unfold ones. rewrite <- repeat_app. replace (Z.to_nat 30815 + Z.to_nat 30815 + 104)%nat with (Z.to_nat odd_count + Z.to_nat odd_count)%nat.
    - reflexivity.
    - unfold odd_count. lia. }
  assert (Hf : (List.length B <= S (List.length sb))%nat).
  { unfold sb. rewrite Eb. rewrite (app_length odd_head), (app_length [104; 120]), (app_length B). lia. }
  remember (List.length sb) as f eqn:Ef.
  exists sb. unfold read_rest. rewrite <- Ef.
  assert (Hr : exists m' rest, p_map (S f) sb = Ok (m', rest)).
  { unfold sb. rewrite Hp, Eb. unfold pbind at 1. cbn [p_times]. change (0 <=? 0) with true. unfold pret at 1.
    assert (Rn : RT p_u16 [104; 120] 30824) by (apply (rt_u16 30824); reflexivity).
    rewrite (pbind_rt _ _ _ _ _ Rn). specialize (Rl _ Hf). rewrite Ll in Rl. rewrite (pbind_rt _ _ _ _ _ Rl).
    generalize l. intros l'. clear. do 2 eexists. vm_compute. reflexivity. }
  destruct Hr as (m' & rest & Hr). exists m', rest. split; [exact Ws|exact Hr].
Qed.
