(** Lemmas: what the reader returns is in range, and entities and maps read back. *)
From Verif Require Import Py VecModel CodecModel CodecSpec CodecFloat CodecParse CodecProofs.
Ltac Zify.zify_post_hook ::= Z.div_mod_to_equations.

(** [post p Q]: on bytes, every result of p satisfies Q. *)
Definition post {A} (p : P A) (Q : A -> Prop) : Prop :=
  forall b a r, Forall is_byte b -> p b = Ok (a, r) -> Q a /\ Forall is_byte r.

Lemma post_ret {A} (a : A) (Q : A -> Prop) : Q a -> post (pret a) Q.
Proof. intros H b x r Hb [= <- <-]. auto. Qed.
Lemma post_err {A} e (Q : A -> Prop) : post (perr e) Q.
Proof. intros b x r _ [=]. Qed.
Lemma post_bind {A B} (p : P A) (k : A -> P B) Q R :
  post p Q -> (forall a, Q a -> post (k a) R) -> post (pbind p k) R.
Proof.
  intros Hp Hk b x r Hb. unfold pbind. destruct (p b) as [[a b']|e] eqn:E; [|discriminate].
  destruct (Hp _ _ _ Hb E) as [Ha Hb']. apply (Hk a Ha); assumption.
Qed.
Lemma post_weaken {A} (p : P A) (Q R : A -> Prop) : post p Q -> (forall a, Q a -> R a) -> post p R.
Proof. intros Hp Hq b a r Hb E. destruct (Hp _ _ _ Hb E). auto. Qed.
Lemma post_if {A} (t : bool) (p q : P A) Q :
  (t = true -> post p Q) -> (t = false -> post q Q) -> post (if t then p else q) Q.
Proof. destruct t; auto. Qed.

Lemma Forall_firstn {A} (Q : A -> Prop) n l : Forall Q l -> Forall Q (firstn n l).
Proof. intros H. revert n. induction H; intros [|n]; cbn; constructor; auto. Qed.
Lemma Forall_skipn {A} (Q : A -> Prop) n l : Forall Q l -> Forall Q (skipn n l).
Proof. intros H. revert n. induction H; intros [|n]; cbn; auto. Qed.

Lemma post_bytes n : post (p_bytes n) (fun l => len l = n /\ Forall is_byte l).
Proof.
  intros b a r Hb. unfold p_bytes. destruct (Z.ltb_spec n 0); [discriminate|].
  destruct (Z.ltb_spec (Z.of_nat (List.length b)) n); [discriminate|].
  intros [= <- <-]. split; [split; [|apply Forall_firstn; exact Hb]|apply Forall_skipn; exact Hb].
  unfold len. rewrite firstn_length. lia.
Qed.
Lemma post_u8 : post p_u8 is_byte.
Proof.
  eapply post_bind; [apply post_bytes|]. intros l [L Hl]. apply post_ret.
  pose proof (unle_range l Hl) as Hr. rewrite L in Hr. exact Hr.
Qed.
Lemma post_u16 : post p_u16 is_u16.
Proof.
  eapply post_bind; [apply post_bytes|]. intros l [L Hl]. apply post_ret.
  pose proof (unle_range l Hl) as Hr. rewrite L in Hr. exact Hr.
Qed.
Lemma post_i32 : post p_i32 is_i32.
Proof.
  eapply post_bind; [apply post_bytes|]. intros l [L Hl]. apply post_ret.
  pose proof (unle_range l Hl) as Hr. rewrite L in Hr. change (256 ^ 4) with 4294967296 in Hr.
  unfold signed32, is_i32. change (2 ^ 31) with 2147483648. change (2 ^ 32) with 4294967296.
  destruct (Z.ltb_spec (unle l) 2147483648); lia.
Qed.
Definition from_f32 (v : pfloat) : Prop := exists n, 0 <= n < 2 ^ 32 /\ v = f32_decode n.
Lemma post_f32 : post p_f32 from_f32.
Proof.
  eapply post_bind; [apply post_bytes|]. intros l [L Hl]. apply post_ret.
  pose proof (unle_range l Hl) as Hr. rewrite L in Hr. exists (unle l). split; [exact Hr|reflexivity].
Qed.
Lemma from_f32_is v : from_f32 v -> is_f32 v.
Proof. intros (n & Hn & ->). apply decode_is_f32. exact Hn. Qed.

Lemma Forall_removelast {A} (Q : A -> Prop) l : Forall Q l -> Forall Q (removelast l).
Proof. induction 1 as [|x l Hx Hl IH]; [constructor|]. cbn [removelast]. destruct l; constructor; auto. Qed.
Lemma length_removelast {A} (l : list A) : List.length (removelast l) = (List.length l - 1)%nat.
Proof.
  induction l as [|x l IH]; [reflexivity|]. cbn [removelast]. destruct l as [|y l]; [reflexivity|].
  cbn [List.length] in *. lia.
Qed.
Lemma post_str n : post (p_str n true) (fun s => len s = n /\ 0 <= n \/ n = -1 /\ s = []).
Proof.
  unfold p_str. eapply post_bind; [apply post_bytes|]. intros l [L Hl]. apply post_ret.
  unfold len in *. rewrite length_removelast. destruct l as [|x l]; [right|left]; cbn [List.length] in *; [split; [lia|reflexivity]|lia].
Qed.
Lemma post_str_bytes n : post (p_str n true) (fun s => Forall is_byte s /\ len s <= Z.max 0 n).
Proof.
  unfold p_str. eapply post_bind; [apply post_bytes|]. intros l [L Hl]. apply post_ret.
  split; [apply Forall_removelast; exact Hl|]. unfold len in *. rewrite length_removelast. lia.
Qed.

Lemma post_times {A} (p : P A) Q fuel n :
  post p Q -> post (p_times fuel p n) (fun l => Forall Q l /\ len l = Z.max 0 n).
Proof.
  intros Hp. revert n. induction fuel as [|f IH]; intros n; cbn [p_times].
  - apply post_if; intros E; [|apply post_err]. apply post_ret. split; [constructor|]. unfold len; cbn. lia.
  - apply post_if; intros E; [apply post_ret; split; [constructor|unfold len; cbn; lia]|].
    eapply post_bind; [exact Hp|]. intros x Hx. eapply post_bind; [apply IH|]. intros l [Hl Ll].
    apply post_ret. split; [constructor; assumption|]. unfold len in *. cbn [List.length]. lia.
Qed.
Lemma post_repeat {A} (p : P A) Q n :
  post p Q -> post (p_repeat n p) (fun l => Forall Q l /\ List.length l = n).
Proof.
  intros Hp. induction n as [|n IH]; cbn [p_repeat]; [apply post_ret; auto|].
  eapply post_bind; [exact Hp|]. intros x Hx. eapply post_bind; [apply IH|]. intros l [Hl Ll].
  apply post_ret. split; [constructor; assumption|]. cbn [List.length]. congruence.
Qed.

(** ** Cubes *)
Definition surf_post (mask : Z) (i : nat) (o : option surf) : Prop :=
  Z.testbit mask (Z.of_nat i) = true -> exists s, o = Some s /\ wf_surf s.
Lemma post_surf mask i : post (p_surf mask i) (surf_post mask i).
Proof.
  unfold p_surf, surf_post. apply post_if; intros T; [|apply post_ret; congruence].
  eapply post_bind; [apply post_u8|]. intros a Ha. eapply post_bind; [apply post_u8|]. intros b Hb.
  eapply post_bind; [apply post_u8|]. intros v Hv. eapply post_bind; [apply post_u8|]. intros n Hn.
  apply post_if; intros E; [|apply post_err]. apply post_ret. intros _. eexists. split; [reflexivity|].
  apply Z.eqb_eq, totalverts_zero in E. cbn [s_numverts] in E.
  unfold wf_surf. cbn [s_lmid0 s_lmid1 s_verts s_numverts]. auto.
Qed.
Lemma post_surfs mask l :
  post (p_surfs mask l) (fun ys => Forall2 (surf_post mask) l ys).
Proof.
  induction l as [|i l IH]; cbn [p_surfs]; [apply post_ret; constructor|].
  eapply post_bind; [apply post_surf|]. intros y Hy. eapply post_bind; [apply IH|]. intros ys Hys.
  apply post_ret. constructor; assumption.
Qed.
Lemma Forall2_nth {A B} (R : A -> B -> Prop) l m k x :
  Forall2 R l m -> nth_error l k = Some x -> exists y, nth_error m k = Some y /\ R x y.
Proof.
  intros H. revert k. induction H as [|a b l m Hab _ IH]; intros [|k] E; cbn in *; try discriminate.
  - injection E as <-. eauto.
  - auto.
Qed.

Lemma post_tail o edges faces :
  is_byte o -> Z.land o 7 <> 0 -> Z.land o 7 <= 4 ->
  (Z.land o 7 = 3 -> List.length edges = 12%nat /\ Forall is_byte edges) ->
  post (p_tail o edges faces) (fun c => rd_leaf c /\ c_octsav c = o /\ c_children c = None).
Proof.
  intros Ho Hk Hk4 He. unfold p_tail.
  eapply post_bind; [apply post_repeat, post_u16|]. intros tx [Htx Ltx].
  eapply post_bind with (Q := fun m => Z.testbit o 6 = true -> exists x, m = Some x /\ is_u16 x).
  { apply post_if; intros T; [|apply post_ret; congruence].
    eapply post_bind; [apply post_u16|]. intros x Hx. apply post_ret. eauto. }
  intros mat Hmat. eapply post_bind with (Q := fun _ => True).
  { apply post_if; intros T; [eapply post_weaken; [apply post_u8|auto]|apply post_ret; auto]. }
  intros mer _. apply post_if; intros T5.
  - eapply post_bind; [apply post_u8|]. intros mask Hm. eapply post_bind; [apply post_u8|]. intros tv Htv.
    eapply post_bind; [apply post_surfs|]. intros ss Hss. apply post_ret.
    split; [|split; reflexivity]. unfold rd_leaf, kind, has_material, has_surfaces, surface.
    cbn [c_texture c_octsav c_edges c_material c_surfmask c_totalverts c_ext].
    do 6 (split; [solve [auto]|]). split; [|lia].
    intros _ _ i Hi Ti. destruct (Forall2_nth _ _ _ i i Hss) as (y & Ey & Hy); [rewrite nth_error_seq by lia; reflexivity|].
    destruct (Hy Ti) as (s & -> & Hs). rewrite Ey. eauto.
  - apply post_ret. split; [|split; reflexivity]. unfold rd_leaf, kind, has_material, has_surfaces, surface.
    cbn [c_texture c_octsav c_edges c_material c_surfmask c_totalverts c_ext].
    do 4 (split; [solve [auto]|]). rewrite T5. unfold is_byte. split; [lia|]. split; [lia|]. split; [discriminate|auto].
Qed.

(** Cubes before validation. *)
Inductive rd0_cube : cube -> Prop :=
| rd0_node : forall c l,
    is_byte (c_octsav c) -> kind c = 0 -> c_children c = Some l -> List.length l = 8%nat ->
    Forall rd0_cube l -> rd0_cube c
| rd0_leaf : forall c,
    is_byte (c_octsav c) -> kind c <> 0 -> c_children c = None -> rd_leaf c -> rd0_cube c.

Lemma newcube_rd0 f : rd0_cube (newcube f).
Proof.
  apply rd0_leaf.
  - unfold is_byte; cbn; lia.
  - discriminate.
  - reflexivity.
  - unfold rd_leaf, newcube, is_byte, kind, has_material, has_surfaces. cbn.
    split; [reflexivity|]. split; [repeat constructor; unfold is_u16; change (2^16) with 65536; lia|].
    split; [discriminate|]. split; [discriminate|]. split; [lia|]. split; [lia|]. split; [discriminate|lia].
Qed.

Lemma post_kids (p : P (bool * cube)) n :
  post p (fun r => rd0_cube (snd r)) ->
  post (p_kids p n) (fun l => Forall rd0_cube l /\ List.length l = n).
Proof.
  intros Hp. induction n as [|n IH]; cbn [p_kids]; [apply post_ret; auto|].
  eapply post_bind; [exact Hp|]. intros r Hr. apply post_if; intros _.
  - apply post_ret. split; [constructor; [exact Hr|]|cbn [List.length]; rewrite repeat_length; reflexivity].
    apply Forall_forall. intros x Hx. apply repeat_spec in Hx. subst. apply newcube_rd0.
  - eapply post_bind; [apply IH|]. intros l [Hl Ll]. apply post_ret.
    split; [constructor; assumption|cbn [List.length]; congruence].
Qed.

Lemma post_loadc fuel : post (p_loadc fuel) (fun r => rd0_cube (snd r)).
Proof.
  induction fuel as [|f IH]; cbn [p_loadc]; [apply post_err|].
  eapply post_bind; [apply post_u8|]. intros o Ho. cbv zeta. pose proof (kind_range o) as Hkr.
  apply post_if; intros K0.
  - eapply post_bind; [apply post_kids, IH|]. intros l [Hl Ll]. apply post_ret. cbn [snd].
    apply (rd0_node _ l); auto. unfold kind. cbn [c_octsav]. lia.
  - assert (T : forall e fs, Z.land o 7 <= 4 -> (Z.land o 7 = 3 -> List.length e = 12%nat /\ Forall is_byte e) ->
       post (do c <- p_tail o e fs;; pret (false, c)) (fun r => rd0_cube (snd r))).
    { intros e fs K4 He. eapply post_bind; [apply post_tail; auto; lia|].
      intros c (Hc & Oc & Cc). apply post_ret. cbn [snd]. apply rd0_leaf; auto; [rewrite Oc; exact Ho|].
      unfold kind. rewrite Oc. lia. }
    apply post_if; intros K1; [apply T; lia|].
    apply post_if; intros K2; [apply T; lia|].
    apply post_if; intros K3.
    + eapply post_bind; [apply post_repeat, post_u8|]. intros e [He Le]. apply T; [lia|auto].
    + apply post_ret. cbn [snd]. apply rd0_leaf; auto; [unfold kind; cbn [c_octsav]; lia|].
      unfold rd_leaf, kind. cbn [c_texture c_octsav c_edges c_material c_surfmask c_totalverts c_ext].
      split; [reflexivity|]. split; [repeat constructor; unfold is_u16; change (2^16) with 65536; lia|].
      unfold is_byte. split; [lia|]. split; [lia|]. split; [lia|]. split; [lia|]. split; [lia|auto].
Qed.

Lemma mapM_forall2 {A B} (f : A -> res B) l ys : mapM f l = Ok ys -> Forall2 (fun x y => f x = Ok y) l ys.
Proof.
  revert ys. induction l as [|x l IH]; intros ys E; cbn [mapM] in E; [injection E as <-; constructor|].
  binv E. binv E. injection E as <-. constructor; auto.
Qed.

Lemma validate_rd c : forall size c', rd0_cube c -> validate1 size c = Ok c' -> rd_cube size c'.
Proof.
  induction c as [c IH] using cube_rect'. intros size c' H0 Hv. rewrite validate1_eq in Hv.
  inversion H0 as [c0 l Ho Hk Hc Hl Hall|c0 Ho Hk Hc Hleaf]; subst.
  - unfold kids in IH. rewrite Hc in *. destruct l as [|x l]; [discriminate|].
    destruct (Z.leb_spec size 1); [discriminate|]. binv Hv. injection Hv as <-.
    apply mapM_forall2 in E. apply (rd_node_c size _ v); auto.
    + rewrite <- (forall2_length _ _ _ E). exact Hl.
    + rewrite <- shiftr1. clear - IH E Hall. revert IH Hall. induction E as [|a b l0 m Hab _ IHE]; intros IH Hall; constructor.
      * inversion IH; inversion Hall; subst. eauto.
      * inversion IH; inversion Hall; subst. auto.
  - rewrite Hc in Hv. destruct (Z.ltb_spec 4096 size); [discriminate|]. injection Hv as <-.
    assert (E : c_octsav (fix_faces c) = c_octsav c /\ rd_leaf (fix_faces c)).
    { unfold fix_faces. destruct (existsb _ _); auto. }
    destruct E as [Eo El]. apply rd_leaf_c; auto; [rewrite Eo; exact Ho|]. unfold kind in *. rewrite Eo. exact Hk.
Qed.

(** ** Entities *)
Definition plain_attr (a : attr) : Prop := exists z, a = AInt z \/ a = AWeap z.
Definition fits_ent (e : entity) : Prop :=
  is_f32 (e_x e) /\ is_f32 (e_y e) /\ is_f32 (e_z e) /\
  attr_count (e_type e) = Some (List.length (e_attrs e)) /\
  Forall plain_attr (e_attrs e) /\
  (weapon_typed (e_type e) ->
     exists z r, (e_attrs e = AInt z :: r \/ e_attrs e = AWeap z :: r) /\ is_weapon z = true).

Definition attr_int (a : attr) : Z := match a with AInt z | AWeap z => z | AHalf h => Z.quot h 2 end.
Lemma w_attr_int a : w_attr a = w_i32 (attr_int a).
Proof. destruct a; reflexivity. Qed.
Lemma plain_value a : plain_attr a -> attr_value (AInt (attr_int a)) = attr_value a.
Proof. intros (z & [-> | ->]); reflexivity. Qed.

Lemma wcat_map {A B} (f : A -> B) (w : A -> res (list Z)) (w' : B -> res (list Z)) l :
  (forall x, w x = w' (f x)) -> wcat w l = wcat w' (map f l).
Proof.
  intros H. unfold wcat. assert (E : mapM w l = mapM w' (map f l)); [|rewrite E; reflexivity].
  induction l as [|x l IH]; [reflexivity|]. cbn [mapM map]. rewrite H, IH. reflexivity.
Qed.

Lemma attr_count_type ty n : attr_count ty = Some n -> 0 <= ty <= 17 /\ (n <= 13)%nat.
Proof.
  unfold attr_count. repeat (match goal with |- context [?a =? ?b] => destruct (Z.eqb_spec a b) end; [intros [= <-]; lia|]). discriminate.
Qed.

Lemma mk_entity_ok e x y z :
  fits_ent e -> feq (e_x e) x -> feq (e_y e) y -> feq (e_z e) z ->
  exists e', mk_entity x y z (e_type e) (map attr_int (e_attrs e)) (e_links e) (e_reserved e) = Ok e' /\
    same_entity e e' /\ e_x e' = x /\ e_y e' = y /\ e_z e' = z /\ map attr_int (e_attrs e') = map attr_int (e_attrs e).
Proof.
  intros (_ & _ & _ & Hc & Hp & Hw) Hx Hy Hz. unfold mk_entity.
  destruct (attr_count_type _ _ Hc) as [Hty _].
  replace ((e_type e <? 0) || (17 <? e_type e)) with false by lia.
  assert (V : forall l, Forall plain_attr l -> map attr_value (map AInt (map attr_int l)) = map attr_value l).
  { induction 1 as [|a l Ha _ IH]; [reflexivity|]. cbn [map]. rewrite IH. f_equal. apply plain_value. exact Ha. }
  assert (V2 : forall l, map attr_int (map AInt (map attr_int l)) = map attr_int l).
  { induction l as [|a l IH]; [reflexivity|]. cbn [map]. rewrite IH. reflexivity. }
  cbv zeta. rewrite !mul4_div4.
  destruct ((e_type e =? 9) || (e_type e =? 3)) eqn:T.
  - destruct Hw as (w & r & Ha & Hw); [unfold weapon_typed; lia|].
    assert (E : map attr_int (e_attrs e) = w :: map attr_int r) by (destruct Ha as [-> | ->]; reflexivity).
    rewrite E, Hw. cbn [bind]. rewrite Hc.
    assert (L : List.length (AWeap w :: map AInt (map attr_int r)) = List.length (e_attrs e)).
    { rewrite <- (map_length attr_int (e_attrs e)), E. cbn [List.length]. rewrite map_length. reflexivity. }
    rewrite L, Nat.eqb_refl. eexists. split; [reflexivity|]. unfold same_entity.
    cbn [e_x e_y e_z e_type e_attrs e_links e_reserved].
    assert (Hpr : Forall plain_attr r) by (destruct Ha as [Ha|Ha]; rewrite Ha in Hp; inversion Hp; assumption).
    split; [do 4 (split; [solve [auto]|]); split; [|auto]|do 3 (split; [reflexivity|])].
    + cbn [map]. rewrite V by exact Hpr. destruct Ha as [-> | ->]; reflexivity.
    + cbn [map]. rewrite V2. reflexivity.
  - cbn [bind]. rewrite Hc, !map_length, Nat.eqb_refl. eexists. split; [reflexivity|]. unfold same_entity.
    cbn [e_x e_y e_z e_type e_attrs e_links e_reserved]. rewrite V by exact Hp. rewrite V2. auto 20.
Qed.

Lemma w_f32_from v v' b : w_f32 v = Ok b -> feq v v' -> from_f32 v' -> w_f32 v' = Ok b.
Proof.
  intros Hw Hf (n & Hn & ->). unfold w_f32 in *.
  rewrite <- (encode_feq v (f32_decode n)); [exact Hw|apply decode_nonneg; lia|exact Hf].
Qed.

Lemma rt_f32' v b : is_f32 v -> w_f32 v = Ok b ->
  exists v', RT p_f32 b v' /\ List.length b = 4%nat /\ feq v v' /\ w_f32 v' = Ok b.
Proof.
  intros Hv Hw. destruct (w_f32_ok v Hv) as (n & Hn & E & Hf). 
  exists (f32_decode n). assert (b = le 4 n) by congruence. subst b.
  split; [|split; [reflexivity|split; [exact Hf|]]].
  - intros rest. unfold p_f32, pbind. rewrite (rt_bytes (le 4 n) 4 eq_refl). unfold pret.
    rewrite unle_le. change (256 ^ Z.of_nat 4) with (2 ^ 32). rewrite Z.mod_small by lia. reflexivity.
  - eapply w_f32_from; [exact Hw|exact Hf|]. exists n. auto.
Qed.

Lemma list3 {A} (l : list A) : List.length l = 3%nat -> exists a b c, l = [a; b; c].
Proof. destruct l as [|a [|b [|c [|]]]]; try discriminate. eauto. Qed.

Lemma rt_i32_1 x b : w_i32 x = Ok b -> (1 <= List.length b)%nat /\ RT p_i32 b x.
Proof. intros E. destruct (rt_i32 _ _ E) as (R & L & _). split; [lia|exact R]. Qed.

Lemma ent_nonempty e bs : w_ent e = Ok bs -> (1 <= List.length bs)%nat.
Proof.
  unfold w_ent. destruct (negb _); [discriminate|]. intros Hw. do 3 binv Hw. binv Hw.
  destruct (rt_chr _ _ E2) as (_ & L & _). do 5 binv Hw. injection Hw as <-. rewrite !app_length. lia.
Qed.

Lemma rt_ent e bs fuel :
  fits_ent e -> w_ent e = Ok bs -> (List.length bs <= fuel)%nat ->
  exists e', RT (p_ent fuel) bs e' /\ same_entity e e' /\ w_ent e' = Ok bs.
Proof.
  intros Hfit Hw Hfuel. unfold w_ent in Hw.
  destruct (Nat.eqb_spec (List.length (e_reserved e)) 3) as [L3|]; [|discriminate]. cbn [negb] in Hw.
  do 9 binv Hw. injection Hw as <-.
  destruct Hfit as (Fx & Fy & Fz & Frest). pose proof (conj Fx (conj Fy (conj Fz Frest))) as Hfit.
  destruct (rt_f32' _ _ Fx E) as (x & Rx & Lx & Qx & Wx).
  destruct (rt_f32' _ _ Fy E0) as (y & Ry & Ly & Qy & Wy).
  destruct (rt_f32' _ _ Fz E1) as (z & Rz & Lz & Qz & Wz).
  destruct (rt_chr _ _ E2) as (Rt & Lt & _).
  destruct (list3 _ L3) as (r1 & r2 & r3 & Er).
  pose proof E3 as E3'. rewrite Er in E3'. apply wcat_cons in E3'. destruct E3' as (c1 & c2 & W1 & W2 & ->).
  apply wcat_cons in W2. destruct W2 as (c3 & c4 & W2 & W3 & ->).
  apply wcat_cons in W3. destruct W3 as (c5 & c6 & W3 & W4 & ->). apply wcat_nil in W4. subst c6.
  destruct (rt_chr _ _ W1) as (R1 & _ & _), (rt_chr _ _ W2) as (R2 & _ & _), (rt_chr _ _ W3) as (R3 & _ & _).
  destruct (rt_i32 _ _ E4) as (Rna & _ & _). destruct (rt_i32 _ _ E6) as (Rnl & _ & _).
  rewrite (wcat_map attr_int w_attr w_i32) in E5 by apply w_attr_int.
  destruct (rt_wcat_eq w_i32 p_i32 _ _ rt_i32_1 E5) as [Ra _].
  destruct (rt_wcat_eq w_i32 p_i32 _ _ rt_i32_1 E7) as [Rl _].
  destruct (mk_entity_ok e x y z Hfit Qx Qy Qz) as (e' & Em & Sm & Ex & Ey & Ez & Ea).
  rewrite !app_length in Hfuel.
  exists e'. split; [|split; [exact Sm|]].
  - unfold p_ent.
    replace ((c1 ++ c3 ++ c5 ++ []) ++ v4 ++ v5 ++ v6 ++ v7) with (c1 ++ c3 ++ c5 ++ v4 ++ v5 ++ v6 ++ v7)
      by (rewrite app_nil_r, <- !app_assoc; reflexivity).
    eapply rt_bind; [exact Rx|]. eapply rt_bind; [exact Ry|]. eapply rt_bind; [exact Rz|].
    eapply rt_bind; [exact Rt|]. eapply rt_bind; [exact R1|]. eapply rt_bind; [exact R2|].
    eapply rt_bind; [exact R3|]. eapply rt_bind; [exact Rna|].
    replace (Z.of_nat (List.length (e_attrs e))) with (len (map attr_int (e_attrs e)))
      by (unfold len; rewrite map_length; reflexivity).
    eapply rt_bind; [apply Ra; lia|]. eapply rt_bind; [exact Rnl|].
    rewrite <- (app_nil_r v7). eapply rt_bind; [apply Rl; lia|].
    intros rest. cbn [app]. rewrite <- Er, Em. reflexivity.
  - destruct Sm as (_ & _ & _ & St & _ & Sl & Sr). unfold w_ent.
    rewrite St, Sl, Sr, L3, Ex, Ey, Ez, Wx, Wy, Wz, E2, E3. cbn [Nat.eqb negb bind].
    replace (List.length (e_attrs e')) with (List.length (e_attrs e))
      by (rewrite <- (map_length attr_int (e_attrs e)), <- Ea, map_length; reflexivity).
    rewrite E4. cbn [bind]. rewrite (wcat_map attr_int w_attr w_i32) by apply w_attr_int.
    rewrite Ea, E5. cbn [bind]. rewrite E6. cbn [bind]. rewrite E7. reflexivity.
Qed.

(** Entities as the reader returns them. *)
Definition rd_ent (e : entity) : Prop :=
  fits_ent e /\ List.length (e_reserved e) = 3%nat /\ Forall is_byte (e_reserved e) /\
  Forall (fun a => is_i32 (attr_int a)) (e_attrs e) /\ Forall is_i32 (e_links e) /\ len (e_links e) < 2 ^ 31.

Lemma plain_ints l : Forall plain_attr (map AInt l).
Proof. induction l; constructor; [eexists; left; reflexivity|assumption]. Qed.

Lemma post_ent fuel : post (p_ent fuel) rd_ent.
Proof.
  unfold p_ent.
  eapply post_bind; [apply post_f32|intros x Hx]. eapply post_bind; [apply post_f32|intros y Hy].
  eapply post_bind; [apply post_f32|intros z Hz]. eapply post_bind; [apply post_u8|intros t Ht].
  eapply post_bind; [apply post_u8|intros r1 H1]. eapply post_bind; [apply post_u8|intros r2 H2].
  eapply post_bind; [apply post_u8|intros r3 H3]. eapply post_bind; [apply post_i32|intros na Hna].
  eapply post_bind; [apply post_times, post_i32|intros attrs [Hat Lat]].
  eapply post_bind; [apply post_i32|intros nl Hnl].
  eapply post_bind; [apply post_times, post_i32|intros links [Hli Lli]].
  intros b a r Hb. destruct (mk_entity x y z t attrs links [r1; r2; r3]) as [e|] eqn:E; [|discriminate].
  intros [= <- <-]. split; [|exact Hb]. unfold mk_entity in E.
  destruct ((t <? 0) || (17 <? t)) eqn:Ht2; [discriminate|]. cbv zeta in E. binv E. rewrite !mul4_div4 in E.
  assert (N : List.length v = List.length attrs /\ Forall plain_attr v /\ Forall (fun a => is_i32 (attr_int a)) v /\
    (weapon_typed t -> exists w q, v = AWeap w :: q /\ is_weapon w = true)).
  { assert (M : forall l, Forall is_i32 l -> Forall (fun a => is_i32 (attr_int a)) (map AInt l)).
    { induction 1; constructor; auto. }
    destruct ((t =? 9) || (t =? 3)) eqn:T.
    - destruct attrs as [|a0 at']; [discriminate|]. destruct (is_weapon a0) eqn:W; [|discriminate].
      injection E0 as <-. inversion Hat; subst. cbn [List.length]. rewrite map_length.
      split; [reflexivity|]. split; [constructor; [eexists; right; reflexivity|apply plain_ints]|].
      split; [constructor; auto|]. eauto.
    - injection E0 as <-. rewrite map_length. split; [reflexivity|]. split; [apply plain_ints|].
      split; [auto|]. unfold weapon_typed. lia. }
  destruct N as (N1 & N2 & N3 & N4).
  destruct (attr_count t) as [n|] eqn:C; [|discriminate].
  destruct (Nat.eqb_spec (List.length v) n) as [L|]; [|discriminate]. injection E as <-.
  unfold rd_ent, fits_ent. cbn [e_x e_y e_z e_type e_attrs e_links e_reserved].
  split; [split; [apply from_f32_is; exact Hx|split; [apply from_f32_is; exact Hy|split; [apply from_f32_is; exact Hz|]]]|].
  - split; [rewrite C; f_equal; auto|]. split; [exact N2|]. intros W. destruct (N4 W) as (w & q & -> & Hw). eauto.
  - split; [reflexivity|]. split; [auto|]. split; [exact N3|]. split; [exact Hli|]. rewrite Lli. unfold is_i32 in Hnl. lia.
Qed.

(** Writing an entity. *)
Lemma w_ent_ok e :
  rd_ent e -> (exists bs, w_ent e = Ok bs) <-> Forall (fun r => r < 128) (e_reserved e).
Proof.
  intros ((Fx & Fy & Fz & Fc & _) & L3 & Hb & Hi & Hl & Ll). unfold w_ent. rewrite L3. cbn [Nat.eqb negb].
  destruct (w_f32_ok _ Fx) as (bx & _ & -> & _). destruct (w_f32_ok _ Fy) as (by_ & _ & -> & _).
  destruct (w_f32_ok _ Fz) as (bz & _ & -> & _). cbn [bind].
  destruct (attr_count_type _ _ Fc) as [Hty Hn].
  rewrite w_chr_ok by (unfold is_char; lia). cbn [bind]. split.
  - intros (bs & E). binv E.
    assert (G : forall l b, wcat w_chr l = Ok b -> Forall (fun r => r < 128) l).
    { induction l as [|r l IH]; intros b Eb; constructor; apply wcat_cons in Eb; destruct Eb as (b1 & b2 & W1 & W2 & _).
      - destruct (rt_chr _ _ W1) as (_ & _ & C). apply C.
      - eapply IH. exact W2. }
    eapply G. exact E0.
  - intros Hr. destruct (wcat_ok w_chr (e_reserved e)) as (br & ->).
    { intros r Hin. rewrite Forall_forall in Hr, Hb. eexists. apply w_chr_ok. 
      specialize (Hr r Hin). specialize (Hb r Hin). unfold is_char, is_byte in *. lia. }
    cbn [bind]. rewrite w_i32_ok by (unfold is_i32; change (2 ^ 31) with 2147483648; lia). cbn [bind].
    destruct (wcat_ok_all w_attr _ _ Hi) as (ba & ->); [intros a Ha; rewrite w_attr_int; eexists; apply w_i32_ok; exact Ha|].
    cbn [bind]. rewrite w_i32_ok by (unfold is_i32, len in *; lia). cbn [bind].
    destruct (wcat_ok_all w_i32 _ _ Hl) as (bl & ->); [intros; eexists; apply w_i32_ok; assumption|].
    eexists; reflexivity.
Qed.

Lemma wf_entity_rd e : wf_entity e -> rd_ent e /\ Forall (fun r => r < 128) (e_reserved e).
Proof.
  intros (Fx & Fy & Fz & Hc & Ha & Hw & Hl & Ll & L3 & Hr). split.
  - split; [unfold fits_ent; do 4 (split; [assumption|]); split; [|exact Hw]|].
    + eapply Forall_impl; [|exact Ha]. intros a (z & Hz & _). exists z. exact Hz.
    + split; [exact L3|]. split; [eapply Forall_impl; [|exact Hr]; unfold is_char, is_byte; lia|].
      split; [|auto]. eapply Forall_impl; [|exact Ha]. intros a (z & [-> | ->] & Hz); exact Hz.
  - eapply Forall_impl; [|exact Hr]. unfold is_char. lia.
Qed.
