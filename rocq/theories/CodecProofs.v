(** Lemmas: what is written is read back. *)
From Verif Require Import Py VecModel CodecModel CodecSpec CodecFloat CodecParse.
Ltac Zify.zify_post_hook ::= Z.div_mod_to_equations.

(** Inverting the result monad. *)
Lemma bind_ok {A B} (x : res A) (f : A -> res B) r :
  bind x f = Ok r -> exists a, x = Ok a /\ f a = Ok r.
Proof. destruct x as [a|e]; cbn [bind]; [eauto|discriminate]. Qed.
Ltac binv H :=
  let a := fresh "v" in let E := fresh "E" in
  apply bind_ok in H; destruct H as (a & E & H).

Lemma mapM_cons {A B} (f : A -> res B) x l :
  mapM f (x :: l) = let! y := f x in let! ys := mapM f l in Ok (y :: ys).
Proof. reflexivity. Qed.

Lemma wcat_cons {A} (w : A -> res (list Z)) x l bs :
  wcat w (x :: l) = Ok bs <->
  exists b1 b2, w x = Ok b1 /\ wcat w l = Ok b2 /\ bs = b1 ++ b2.
Proof.
  unfold wcat. rewrite mapM_cons. split.
  - intros Hb. binv Hb. binv E. binv E. injection E as <-. injection Hb as <-.
    exists v0, (List.concat v1). rewrite E1. cbn [bind List.concat]. auto.
  - intros (b1 & b2 & -> & H2 & ->). cbn [bind].
    apply bind_ok in H2. destruct H2 as (v & -> & [= <-]). reflexivity.
Qed.
Lemma wcat_nil {A} (w : A -> res (list Z)) bs : wcat w [] = Ok bs <-> bs = [].
Proof. unfold wcat. cbn. split; [intros [= <-]; reflexivity|intros ->; reflexivity]. Qed.

(** [RT p bs a]: p reads a from bs and stops there, whatever follows. *)
Definition RT {A} (p : P A) (bs : list Z) (a : A) : Prop := forall rest, p (bs ++ rest) = Ok (a, rest).

Lemma rt_ret {A} (a : A) : RT (pret a) [] a.
Proof. intros rest. reflexivity. Qed.
Lemma rt_bind {A B} (p : P A) (k : A -> P B) b1 b2 a r :
  RT p b1 a -> RT (k a) b2 r -> RT (pbind p k) (b1 ++ b2) r.
Proof. intros H1 H2 rest. unfold pbind. rewrite <- app_assoc, H1. apply H2. Qed.
Lemma rt_bind_ret {A B} (p : P A) (g : A -> B) b a :
  RT p b a -> RT (pbind p (fun x => pret (g x))) b (g a).
Proof. intros H1 rest. unfold pbind. rewrite H1. reflexivity. Qed.

Lemma rt_bytes l n : n = len l -> RT (p_bytes n) l l.
Proof.
  intros -> rest. unfold p_bytes, len. rewrite app_length.
  destruct (Z.ltb_spec (Z.of_nat (List.length l)) 0); [lia|].
  destruct (Z.ltb_spec (Z.of_nat (List.length l + List.length rest)) (Z.of_nat (List.length l))); [lia|].
  rewrite Nat2Z.id, firstn_app_le, skipn_app_le, firstn_all, skipn_all by lia. reflexivity.
Qed.

(** ** Primitive values *)
Lemma rt_u8 z b : w_u8 z = Ok b -> RT p_u8 b z /\ List.length b = 1%nat /\ is_byte z.
Proof.
  unfold w_u8. destruct (Z.leb_spec 0 z), (Z.ltb_spec z 256); cbn [andb]; intros [= <-].
  split; [|split; [reflexivity|unfold is_byte; lia]].
  intros rest. unfold p_u8, pbind. rewrite (rt_bytes [z] 1 eq_refl). unfold pret, unle.
  do 2 f_equal. lia.
Qed.
Lemma rt_chr z b : w_chr z = Ok b -> RT p_u8 b z /\ List.length b = 1%nat /\ is_char z.
Proof.
  unfold w_chr. destruct (_ || _) eqn:E1; [discriminate|]. destruct (_ && _); [discriminate|].
  destruct (Z.ltb_spec z 128); [|discriminate]. intros [= <-].
  split; [|split; [reflexivity|unfold is_char; lia]].
  intros rest. unfold p_u8, pbind. rewrite (rt_bytes [z] 1 eq_refl). unfold pret, unle.
  do 2 f_equal. lia.
Qed.
Lemma rt_u16 z b : w_u16 z = Ok b -> RT p_u16 b z /\ List.length b = 2%nat /\ is_u16 z.
Proof.
  unfold w_u16. change (2 ^ 16) with 65536.
  destruct (Z.leb_spec 0 z), (Z.ltb_spec z 65536); cbn [andb]; intros [= <-].
  split; [|split; [reflexivity|unfold is_u16; change (2 ^ 16) with 65536; lia]].
  intros rest. unfold p_u16, pbind. rewrite (rt_bytes (le 2 z) 2 eq_refl). unfold pret.
  rewrite unle_le. change (256 ^ Z.of_nat 2) with 65536. rewrite Z.mod_small by lia. reflexivity.
Qed.
Lemma rt_i32 z b : w_i32 z = Ok b -> RT p_i32 b z /\ List.length b = 4%nat /\ is_i32 z.
Proof.
  unfold w_i32. change (2 ^ 31) with 2147483648. change (2 ^ 32) with 4294967296.
  destruct (Z.leb_spec (- (2147483648)) z), (Z.ltb_spec z 2147483648); cbn [andb]; try discriminate.
  injection 1 as <-.
  split; [|split; [reflexivity|unfold is_i32; change (2 ^ 31) with 2147483648; lia]].
  intros rest. unfold p_i32, pbind.
  rewrite (rt_bytes (le 4 (z mod 4294967296)) 4 eq_refl). unfold pret.
  rewrite unle_le. change (256 ^ Z.of_nat 4) with 4294967296. rewrite Z.mod_mod by lia.
  do 2 f_equal. unfold signed32. change (2 ^ 31) with 2147483648. change (2 ^ 32) with 4294967296.
  destruct (Z.ltb_spec (z mod 4294967296) 2147483648); lia.
Qed.
Lemma rt_f32 v b : is_f32 v -> w_f32 v = Ok b ->
  exists v', RT p_f32 b v' /\ List.length b = 4%nat /\ feq v v' /\ is_f32 v'.
Proof.
  intros Hv Hw. destruct (w_f32_ok v Hv) as (n & Hn & E & Hf). rewrite E in Hw. injection Hw as <-.
  exists (f32_decode n). split; [|split; [reflexivity|split; [exact Hf|apply decode_is_f32; exact Hn]]].
  intros rest. unfold p_f32, pbind. rewrite (rt_bytes (le 4 n) 4 eq_refl). unfold pret.
  rewrite unle_le. change (256 ^ Z.of_nat 4) with (2 ^ 32). rewrite Z.mod_small by lia. reflexivity.
Qed.
Lemma removelast_snoc {A} (l : list A) x : removelast (l ++ [x]) = l.
Proof. rewrite removelast_app by discriminate. cbn. apply app_nil_r. Qed.
Lemma rt_str s n : n = len s -> RT (p_str n true) (w_str s true) s.
Proof.
  intros -> rest. unfold p_str, w_str, pbind.
  rewrite (rt_bytes (s ++ [0])) by (unfold len; rewrite app_length; cbn [List.length]; lia).
  unfold pret. rewrite removelast_snoc. reflexivity.
Qed.

(** ** Loops *)
Lemma rt_wcat {A B} (w : A -> res (list Z)) (p : P B) (R : A -> B -> Prop) F xs bs :
  wcat w xs = Ok bs -> (List.length bs <= F)%nat ->
  (forall x b, In x xs -> w x = Ok b -> (List.length b <= F)%nat ->
     (1 <= List.length b)%nat /\ exists y, RT p b y /\ R x y) ->
  exists ys, Forall2 R xs ys /\
    (forall fuel, (List.length bs <= fuel)%nat -> RT (p_times fuel p (len xs)) bs ys) /\
    RT (p_repeat (List.length xs) p) bs ys.
Proof.
  revert bs. induction xs as [|x xs IH]; intros bs Hw HF Hp.
  - apply wcat_nil in Hw. subst bs. exists []. split; [constructor|]. split.
    + intros fuel _ rest. destruct fuel; reflexivity.
    + intros rest. reflexivity.
  - apply wcat_cons in Hw. destruct Hw as (b1 & b2 & E1 & E2 & ->). rewrite app_length in *.
    destruct (Hp x b1) as (Hl & y & Hy & HR); [left; reflexivity|exact E1|lia|].
    destruct (IH b2 E2) as (ys & HRs & Ht & Hr); [lia|intros; apply Hp; auto; right; assumption|].
    exists (y :: ys). split; [constructor; assumption|]. split.
    + intros fuel Hf. destruct fuel as [|fuel]; [lia|]. cbn [p_times].
      replace (len (x :: xs) <=? 0) with false by (unfold len; cbn [List.length]; lia).
      eapply rt_bind; [exact Hy|].
      replace (len (x :: xs) - 1) with (len xs) by (unfold len; cbn [List.length]; lia).
      apply (rt_bind_ret (p_times fuel p (len xs)) (fun l => y :: l)). apply Ht. lia.
    + cbn [List.length p_repeat]. eapply rt_bind; [exact Hy|].
      apply (rt_bind_ret (p_repeat (List.length xs) p) (fun l => y :: l)). exact Hr.
Qed.

Lemma Forall2_eq {A} (l m : list A) : Forall2 eq l m -> l = m.
Proof. induction 1; congruence. Qed.

Lemma rt_wcat_eq {A} (w : A -> res (list Z)) (p : P A) xs bs :
  (forall x b, w x = Ok b -> (1 <= List.length b)%nat /\ RT p b x) ->
  wcat w xs = Ok bs ->
  (forall fuel, (List.length bs <= fuel)%nat -> RT (p_times fuel p (len xs)) bs xs) /\
  RT (p_repeat (List.length xs) p) bs xs.
Proof.
  intros Hp Hw.
  destruct (rt_wcat w p eq (List.length bs) xs bs Hw (le_n _)) as (ys & HE & H1 & H2).
  - intros x b _ Hx _. destruct (Hp x b Hx) as [Hl Hr]. eauto.
  - apply Forall2_eq in HE. subst ys. auto.
Qed.

(** ** Surfaces and leaves *)
Lemma land15 n : Z.land n 15 = n mod 16.
Proof. change 15 with (Z.ones 4). rewrite Z.land_ones by lia. reflexivity. Qed.

Lemma totalverts_zero s : surf_totalverts s = 0 <-> s_numverts s mod 16 = 0.
Proof.
  unfold surf_totalverts. rewrite land15. destruct (Z.testbit _ _); lia.
Qed.

(** What reading back needs of a leaf beyond being writable. *)
Definition fits_leaf (c : cube) : Prop :=
  List.length (c_texture c) = 6%nat /\
  (has_surfaces c = true -> forall i s, (i < 6)%nat ->
     Z.testbit (c_surfmask c) (Z.of_nat i) = true -> surface c i = Some s ->
     s_numverts s mod 16 = 0).

Lemma rt_surf c i b :
  (i < 6)%nat ->
  (forall s, Z.testbit (c_surfmask c) (Z.of_nat i) = true -> surface c i = Some s ->
             s_numverts s mod 16 = 0) ->
  w_surf (c_ext c) (c_surfmask c) i = Ok b ->
  exists y, RT (p_surf (c_surfmask c) i) b y /\
    (Z.testbit (c_surfmask c) (Z.of_nat i) = true -> y = surface c i /\ y <> None).
Proof.
  intros Hi Hn. unfold w_surf, p_surf.
  destruct (Z.testbit (c_surfmask c) (Z.of_nat i)) eqn:T.
  2:{ intros [= <-]. exists None. split; [apply rt_ret|discriminate]. }
  unfold surface in *. destruct (c_ext c) as [l|]; [|discriminate].
  destruct (nth_error l i) as [[s|]|]; try discriminate.
  intros Hw. binv Hw. binv Hw. binv Hw. binv Hw.
  destruct (Z.eqb_spec (s_verts s) 0) as [V|]; [|discriminate]. injection Hw as <-.
  destruct (rt_u8 _ _ E) as (R1 & _ & _), (rt_u8 _ _ E0) as (R2 & _ & _),
           (rt_u8 _ _ E1) as (R3 & _ & _), (rt_u8 _ _ E2) as (R4 & _ & _).
  exists (Some s). split; [|split; [reflexivity|discriminate]].
  eapply rt_bind; [exact R1|]. eapply rt_bind; [exact R2|]. eapply rt_bind; [exact R3|].
  rewrite <- (app_nil_r v2). eapply rt_bind; [exact R4|].
  assert (S0 : surf_totalverts (Surf (s_lmid0 s) (s_lmid1 s) (s_verts s) (s_numverts s)) = 0).
  { apply totalverts_zero. cbn [s_numverts]. apply Hn; reflexivity. }
  rewrite S0. cbn [Z.eqb]. destruct s as [a b0 v0' n]; cbn in V |- *. subst v0'. apply rt_ret.
Qed.

Lemma nth_error_seq i s n : (i < n)%nat -> nth_error (seq s n) i = Some (s + i)%nat.
Proof.
  revert s i. induction n as [|n IH]; intros s i Hi; [lia|].
  destruct i as [|i]; cbn [seq nth_error]; [f_equal; lia|]. rewrite IH by lia. f_equal. lia.
Qed.

Lemma rt_surfs c bs : forall l,
  (forall i, In i l -> (i < 6)%nat) ->
  (forall i s, (i < 6)%nat -> Z.testbit (c_surfmask c) (Z.of_nat i) = true ->
               surface c i = Some s -> s_numverts s mod 16 = 0) ->
  wcat (w_surf (c_ext c) (c_surfmask c)) l = Ok bs ->
  exists ys, RT (p_surfs (c_surfmask c) l) bs ys /\ List.length ys = List.length l /\
    forall k i, nth_error l k = Some i -> Z.testbit (c_surfmask c) (Z.of_nat i) = true ->
                nth_error ys k = Some (surface c i) /\ surface c i <> None.
Proof.
  intros l. revert bs. induction l as [|i l IH]; intros bs Hl Hn Hw.
  - apply wcat_nil in Hw. subst. exists []. split; [apply rt_ret|]. split; [reflexivity|].
    intros k i Hk. destruct k; discriminate.
  - apply wcat_cons in Hw. destruct Hw as (b1 & b2 & E1 & E2 & ->).
    assert (Hi : (i < 6)%nat) by (apply Hl; left; reflexivity).
    destruct (rt_surf c i b1 Hi (fun s => Hn i s Hi) E1) as (y & Hy & Hs).
    destruct (IH b2 (fun j Hj => Hl j (or_intror Hj)) Hn E2) as (ys & Hr & Hlen & Hnth).
    exists (y :: ys). split; [|split].
    + cbn [p_surfs]. eapply rt_bind; [exact Hy|].
      apply (rt_bind_ret (p_surfs (c_surfmask c) l) (fun z => y :: z)). exact Hr.
    + cbn [List.length]. congruence.
    + intros [|k] j Hk T; cbn [nth_error] in *.
      * injection Hk as ->. destruct (Hs T) as [-> Hne]. auto.
      * apply Hnth; assumption.
Qed.

Lemma chr_not7 z : is_char z -> Z.testbit z 7 = false.
Proof.
  unfold is_char. intros Hz. destruct (Z.eqb_spec z 0) as [->|]; [apply Z.bits_0|].
  apply Z.bits_above_log2; [lia|]. assert (Z.log2 z < 7); [|lia]. apply Z.log2_lt_pow2; lia.
Qed.

(** Leaf equality, the part of same_cube about leaves. *)
Definition same_leaf_data (c d : cube) : Prop :=
  c_octsav d = c_octsav c /\ c_texture d = c_texture c /\
  (has_material c = true -> c_material d = c_material c) /\
  (has_merged c = true -> c_merged d = c_merged c) /\
  (has_surfaces c = true ->
     c_surfmask d = c_surfmask c /\ c_totalverts d = c_totalverts c /\
     forall i, (i < 6)%nat -> Z.testbit (c_surfmask c) (Z.of_nat i) = true ->
               surface d i = surface c i).

Lemma rt_tail c bs edges faces :
  fits_leaf c -> w_tail c = Ok bs -> is_char (c_octsav c) ->
  exists d, RT (p_tail (c_octsav c) edges faces) bs d /\ same_leaf_data c d /\
            c_edges d = edges /\ c_faces d = faces /\ c_children d = None.
Proof.
  intros [Htx Hsf] Hw Ho. unfold w_tail in Hw. binv Hw. binv Hw. binv Hw. binv Hw.
  injection Hw as <-.
  destruct (rt_wcat_eq w_u16 p_u16 _ _ (fun x b Hb => conj (eq_ind_r (fun n => (1 <= n)%nat) (le_S _ _ (le_n 1)) (proj1 (proj2 (rt_u16 x b Hb)))) (proj1 (rt_u16 x b Hb))) E) as [_ Rtx].
  rewrite Htx in Rtx.
  unfold has_surfaces in Hsf.
  assert (Rm : exists m, RT (if Z.testbit (c_octsav c) 6 then do m <- p_u16;; pret (Some m) else pret None) v0 m /\
                 (has_material c = true -> m = c_material c)).
  { unfold has_material. destruct (Z.testbit (c_octsav c) 6).
    - destruct (c_material c) as [m|]; [|discriminate]. destruct (rt_u16 _ _ E0) as (R & _ & _).
      exists (Some m). split; [|reflexivity]. apply (rt_bind_ret p_u16 Some). exact R.
    - injection E0 as <-. exists None. split; [apply rt_ret|discriminate]. }
  destruct Rm as (m & Rm & Em).
  rewrite chr_not7 in E1 by exact Ho. injection E1 as <-.
  unfold p_tail. rewrite (chr_not7 _ Ho).
  destruct (Z.testbit (c_octsav c) 5) eqn:T5.
  - binv E2. binv E2. binv E2. injection E2 as <-.
    destruct (rt_chr _ _ E1) as (R1 & _ & _). destruct (rt_chr _ _ E3) as (R2 & _ & _).
    destruct (rt_surfs c v4 (seq 0 6)) as (ys & Rs & Hlen & Hnth).
    { intros i Hi. apply in_seq in Hi. lia. }
    { intros i s Hi. apply Hsf; [reflexivity|exact Hi]. }
    { exact E4. }
    eexists. split; [|split; [|split; [|split]]].
    + eapply rt_bind; [exact Rtx|]. eapply rt_bind; [exact Rm|]. eapply rt_bind; [apply rt_ret|].
      eapply rt_bind; [exact R1|]. eapply rt_bind; [exact R2|].
      rewrite <- (app_nil_r v4). eapply rt_bind; [exact Rs|]. apply rt_ret.
    + unfold same_leaf_data, has_merged, has_surfaces.
      cbn [c_octsav c_texture c_material c_merged c_surfmask c_totalverts].
      rewrite (chr_not7 _ Ho).
      split; [reflexivity|]. split; [reflexivity|]. split; [exact Em|]. split; [discriminate|].
      intros _. split; [reflexivity|]. split; [reflexivity|].
      intros i Hi Ti. unfold surface at 1. cbn [c_ext].
      destruct (Hnth i i) as [-> _]; [rewrite nth_error_seq by exact Hi; reflexivity|exact Ti|reflexivity].
    + reflexivity.
    + reflexivity.
    + reflexivity.
  - injection E2 as <-.
    eexists. split; [|split; [|split; [|split]]].
    + eapply rt_bind; [exact Rtx|]. eapply rt_bind; [exact Rm|]. eapply rt_bind; [apply rt_ret|].
      apply rt_ret.
    + unfold same_leaf_data, has_merged, has_surfaces.
      cbn [c_octsav c_texture c_material c_merged c_surfmask c_totalverts].
      rewrite (chr_not7 _ Ho), T5.
      split; [reflexivity|]. split; [reflexivity|]. split; [exact Em|]. split; discriminate.
    + reflexivity.
    + reflexivity.
    + reflexivity.
Qed.

(** ** Cubes *)
Lemma savec_eq c :
  savec c =
  (let! h := w_chr (c_octsav c) in
   let k := Z.land (c_octsav c) 7 in
   if k =? 0 then
     match c_children c with
     | None => Ok h
     | Some l => let! bs := wcat savec l in Ok (h ++ bs)
     end
   else if (k =? 1) || (k =? 2) || (k =? 4) then let! t := w_tail c in Ok (h ++ t)
   else if k =? 3 then let! e := w_edges (c_edges c) in let! t := w_tail c in Ok (h ++ e ++ t)
   else Err (SystemExit 42)).
Proof.
  destruct c as [[l|] ext0 ed fa tx ma me sm tv os]; [|reflexivity].
  cbn [savec c_octsav c_children]. destruct (w_chr os); [|reflexivity]. cbn [bind]. cbv zeta.
  destruct (Z.land os 7 =? 0); [|reflexivity]. unfold wcat.
  destruct (mapM savec l); reflexivity.
Qed.

(** Cubes that can be read back if they can be written. *)
Inductive fits_cube : Z -> cube -> Prop :=
| fits_node : forall size c l,
    kind c = 0 -> c_children c = Some l -> List.length l = 8%nat -> 1 < size ->
    Forall (fits_cube (Z.shiftr size 1)) l -> fits_cube size c
| fits_leaf_c : forall size c, kind c <> 0 -> size <= 4096 -> fits_leaf c -> fits_cube size c.

Lemma fix_faces_id c : c_faces c = [F_EMPTY; F_EMPTY; F_EMPTY] \/ c_faces c = [F_SOLID; F_SOLID; F_SOLID] ->
  fix_faces c = c.
Proof.
  unfold fix_faces. destruct c as [ch ext0 ed fa tx ma me sm tv os]. cbn [c_faces].
  intros [-> | ->].
  - reflexivity.
  - replace (existsb bad_face [F_SOLID; F_SOLID; F_SOLID]) with false by (vm_compute; reflexivity). reflexivity.
Qed.

Lemma forall2_length {A B} (R : A -> B -> Prop) l m : Forall2 R l m -> List.length l = List.length m.
Proof. induction 1; cbn; congruence. Qed.

Lemma Forall2_impl {A B} (R S : A -> B -> Prop) l m :
  (forall x y, R x y -> S x y) -> Forall2 R l m -> Forall2 S l m.
Proof. intros Hi. induction 1; constructor; auto. Qed.

Lemma mapM_ok {A B} (f : A -> res B) l (R : A -> B -> Prop) :
  Forall (fun x => exists y, f x = Ok y /\ R x y) l -> exists ys, mapM f l = Ok ys /\ Forall2 R l ys.
Proof.
  induction 1 as [|x l (y & E & Hy) _ (ys & IH & HF)]; [exists []; split; [reflexivity|constructor]|].
  exists (y :: ys). cbn [mapM]. rewrite E. cbn [bind]. rewrite IH. split; [reflexivity|constructor; assumption].
Qed.

Lemma kind_range o : 0 <= Z.land o 7 < 8.
Proof. change 7 with (Z.ones 3). rewrite Z.land_ones by lia. change (2 ^ 3) with 8. lia. Qed.

Lemma savec_nonempty c bs : savec c = Ok bs -> (1 <= List.length bs)%nat.
Proof.
  rewrite savec_eq. intros Hw. binv Hw. destruct (rt_chr _ _ E) as (_ & Hl & _).
  cbv zeta in Hw. destruct (_ =? 0).
  - destruct (c_children c); [binv Hw|]; injection Hw as <-; rewrite ?app_length; lia.
  - destruct (_ || _); [binv Hw; injection Hw as <-; rewrite app_length; lia|].
    destruct (_ =? 3); [|discriminate]. binv Hw. binv Hw. injection Hw as <-. rewrite app_length. lia.
Qed.

(** Reading back the children list. *)
Lemma rt_kids (p : P (bool * cube)) (R : cube -> cube -> Prop) F : forall l bs,
  wcat savec l = Ok bs -> (List.length bs <= F)%nat ->
  (forall x b, In x l -> savec x = Ok b -> (List.length b <= F)%nat ->
     exists y, RT p b (false, y) /\ R x y) ->
  exists ys, RT (p_kids p (List.length l)) bs ys /\ Forall2 R l ys.
Proof.
  intros l. induction l as [|x l IH]; intros bs Hw HF Hp.
  - apply wcat_nil in Hw. subst. exists []. split; [apply rt_ret|constructor].
  - apply wcat_cons in Hw. destruct Hw as (b1 & b2 & E1 & E2 & ->). rewrite app_length in HF.
    destruct (Hp x b1) as (y & Hy & HR); [left; reflexivity|exact E1|lia|].
    destruct (IH b2 E2) as (ys & Hr & HRs); [lia|intros; apply Hp; auto; right; assumption|].
    exists (y :: ys). split; [|constructor; assumption].
    cbn [List.length p_kids]. eapply rt_bind; [exact Hy|]. cbn [fst snd].
    apply (rt_bind_ret (p_kids p (List.length l)) (fun z => y :: z)). exact Hr.
Qed.

Lemma wcat_in {A} (w : A -> res (list Z)) l bs x :
  wcat w l = Ok bs -> In x l -> exists b, w x = Ok b.
Proof.
  revert bs. induction l as [|y l IH]; intros bs Hw Hin; [destruct Hin|].
  apply wcat_cons in Hw. destruct Hw as (b1 & b2 & E1 & E2 & ->).
  destruct Hin as [->|Hin]; eauto.
Qed.

Lemma same_leaf_build c d :
  kind c <> 0 -> (kind c = 3 -> c_edges d = c_edges c) -> same_leaf_data c d -> same_cube c d.
Proof.
  intros Hk He (H1 & H2 & H3 & H4 & H5). apply same_leaf; assumption.
Qed.

(** The cube that reading produces: same data, passes validation unchanged. *)
Lemma load_save c : forall size bs,
  fits_cube size c -> savec c = Ok bs ->
  exists d, (forall fuel, (List.length bs <= fuel)%nat -> RT (p_loadc fuel) bs (false, d)) /\
            same_cube c d /\ validate1 size d = Ok d.
Proof.
  induction c as [c IH] using cube_rect'. intros size bs Hfit Hw.
  rewrite savec_eq in Hw. binv Hw. destruct (rt_chr _ _ E) as (Rh & Hlh & Ho).
  cbv zeta in Hw. inversion Hfit as [sz c0 l Hk Hc Hlen Hsz Hall|sz c0 Hk Hsz Hleaf]; subst.
  - unfold kind in Hk. rewrite Hk in Hw. cbn [Z.eqb] in Hw. rewrite Hc in Hw. binv Hw.
    injection Hw as <-. unfold kids in IH. rewrite Hc in IH.
    assert (G : exists ys, (forall fuel, (List.length v0 <= fuel)%nat -> RT (p_kids (p_loadc fuel) 8) v0 ys) /\
       Forall2 (fun x y => same_cube x y /\ validate1 (Z.shiftr size 1) y = Ok y) l ys).
    { rewrite <- Hlen.
      clear - IH Hall E0. revert v0 E0. induction l as [|x l IHl]; intros bs Hw.
      - apply wcat_nil in Hw. subst. exists []. split; [intros; apply rt_ret|constructor].
      - apply wcat_cons in Hw. destruct Hw as (b1 & b2 & E1 & E2 & ->).
        inversion IH as [|? ? IHx IHr]; subst. inversion Hall as [|? ? Hx Hr]; subst.
        destruct (IHx _ _ Hx E1) as (y & Ry & Sy & Vy).
        destruct (IHl IHr Hr _ E2) as (ys & Rys & Sys).
        exists (y :: ys). split; [|constructor; auto].
        intros fuel Hf. rewrite app_length in Hf.
        cbn [List.length p_kids]. eapply rt_bind; [apply Ry; lia|]. cbn [fst snd].
        apply (rt_bind_ret (p_kids (p_loadc fuel) (List.length l)) (fun z => y :: z)). apply Rys. lia. }
    destruct G as (ys & Rys & Sys).
    eexists. split; [|split].
    + intros fuel Hf. rewrite app_length in Hf. destruct fuel as [|fuel]; [lia|].
      cbn [p_loadc]. eapply rt_bind; [exact Rh|]. cbv zeta. rewrite Hk. cbn [Z.eqb].
      apply (rt_bind_ret (p_kids (p_loadc fuel) 8)
               (fun l0 => (false, Cube (Some l0) None (repeat 128 12) [F_EMPTY; F_EMPTY; F_EMPTY] (repeat 1 6) None 0 0 0 (c_octsav c)))).
      apply Rys. lia.
    + apply (same_node c _ l ys); [exact Hk|reflexivity|exact Hc|reflexivity|].
      eapply Forall2_impl; [|exact Sys]. cbn. tauto.
    + rewrite validate1_eq. cbn [c_children].
      assert (Hly : List.length ys = 8%nat) by (rewrite <- (forall2_length _ _ _ Sys); exact Hlen).
      destruct ys as [|y0 ys]; [discriminate|].
      replace (size <=? 1) with false by lia.
      assert (Em : mapM (validate1 (Z.shiftr size 1)) (y0 :: ys) = Ok (y0 :: ys)).
      { assert (Hv : Forall (fun y => validate1 (Z.shiftr size 1) y = Ok y) (y0 :: ys)).
        { clear - Sys. induction Sys as [|? ? ? ? Hh _ IHs]; constructor; [apply Hh|exact IHs]. }
        clear - Hv. induction Hv as [|y l Hy _ IHl]; [reflexivity|]. cbn [mapM]. rewrite Hy. cbn [bind].
        rewrite IHl. reflexivity. }
      rewrite Em. reflexivity.
  - unfold kind in Hk. pose proof (kind_range (c_octsav c)) as Hkr.
    assert (V : forall d, c_children d = None ->
       (c_faces d = [F_EMPTY; F_EMPTY; F_EMPTY] \/ c_faces d = [F_SOLID; F_SOLID; F_SOLID]) ->
       validate1 size d = Ok d).
    { intros d Hd Hf. rewrite validate1_eq, Hd. replace (4096 <? size) with false by lia.
      rewrite fix_faces_id by exact Hf. reflexivity. }
    replace (Z.land (c_octsav c) 7 =? 0) with false in Hw by lia.
    destruct (Z.eqb_spec (Z.land (c_octsav c) 7) 3) as [K3|K3].
    + rewrite K3 in Hw. cbn [Z.eqb Pos.eqb orb] in Hw. binv Hw. binv Hw. injection Hw as <-.
      unfold w_edges in E0. destruct (Nat.eqb_spec (List.length (c_edges c)) 12) as [L12|]; [|discriminate].
      destruct (rt_wcat_eq w_u8 p_u8 _ _ (fun x b Hb => conj (eq_ind_r (fun n => (1 <= n)%nat) (le_n 1) (proj1 (proj2 (rt_u8 x b Hb)))) (proj1 (rt_u8 x b Hb))) E0) as [_ Re].
      rewrite L12 in Re.
      destruct (rt_tail c v1 (c_edges c) [F_EMPTY; F_EMPTY; F_EMPTY] Hleaf E1 Ho) as (d & Rd & Sd & Ed & Fd & Cd).
      exists d. split; [|split; [apply same_leaf_build; auto; unfold kind; lia|apply V; auto]].
      intros fuel Hf. rewrite app_length in Hf. destruct fuel as [|fuel]; [lia|].
      cbn [p_loadc]. eapply rt_bind; [exact Rh|]. cbv zeta. rewrite K3. cbn [Z.eqb Pos.eqb orb].
      eapply rt_bind; [exact Re|].
      apply (rt_bind_ret (p_tail (c_octsav c) (c_edges c) [F_EMPTY; F_EMPTY; F_EMPTY]) (fun c0 => (false, c0))). exact Rd.
    + destruct ((Z.land (c_octsav c) 7 =? 1) || (Z.land (c_octsav c) 7 =? 2) || (Z.land (c_octsav c) 7 =? 4)) eqn:K124;
        [|discriminate].
      binv Hw. injection Hw as <-.
      set (fs := if Z.land (c_octsav c) 7 =? 2 then [F_SOLID; F_SOLID; F_SOLID] else [F_EMPTY; F_EMPTY; F_EMPTY]).
      destruct (rt_tail c v0 (repeat 128 12) fs Hleaf E0 Ho) as (d & Rd & Sd & Ed & Fd & Cd).
      exists d. split; [|split; [apply same_leaf_build; auto; unfold kind; lia|apply V; auto]].
      2:{ rewrite Fd. unfold fs. destruct (_ =? 2); auto. }
      intros fuel Hf. rewrite app_length in Hf. destruct fuel as [|fuel]; [lia|].
      cbn [p_loadc]. eapply rt_bind; [exact Rh|]. cbv zeta.
      replace (Z.land (c_octsav c) 7 =? 0) with false by lia.
      destruct (Z.eqb_spec (Z.land (c_octsav c) 7) 2) as [K2|K2].
      * rewrite K2 in *. cbn [Z.eqb Pos.eqb orb] in *.
        apply (rt_bind_ret (p_tail (c_octsav c) (repeat 128 12) [F_SOLID; F_SOLID; F_SOLID]) (fun c0 => (false, c0))). exact Rd.
      * replace ((Z.land (c_octsav c) 7 =? 1) || (Z.land (c_octsav c) 7 =? 4)) with true by lia.
        apply (rt_bind_ret (p_tail (c_octsav c) (repeat 128 12) [F_EMPTY; F_EMPTY; F_EMPTY]) (fun c0 => (false, c0))). exact Rd.
Qed.

Lemma shiftr1 size : Z.shiftr size 1 = size / 2.
Proof. rewrite Z.shiftr_div_pow2 by lia. reflexivity. Qed.

Lemma wcat_same {A B} (w : A -> res (list Z)) (w' : B -> res (list Z)) (R : A -> B -> Prop) l m :
  Forall2 R l m -> (forall x y b, R x y -> w x = Ok b -> w' y = Ok b) ->
  forall bs, wcat w l = Ok bs -> wcat w' m = Ok bs.
Proof.
  intros HF Hw. induction HF as [|x y l m Hxy _ IH]; intros bs Hb.
  - apply wcat_nil in Hb. apply wcat_nil. exact Hb.
  - apply wcat_cons in Hb. destruct Hb as (b1 & b2 & E1 & E2 & ->).
    apply wcat_cons. exists b1, b2. split; [eapply Hw; eassumption|]. split; [apply IH; exact E2|reflexivity].
Qed.

(** Cubes with the same data are written the same way. *)
Lemma w_tail_same c d bs :
  same_leaf_data c d -> w_tail c = Ok bs -> is_char (c_octsav c) -> w_tail d = Ok bs.
Proof.
  intros (H1 & H2 & H3 & H4 & H5) Hw Ho. unfold w_tail in *. rewrite H1, H2.
  unfold has_material, has_merged, has_surfaces in *.
  destruct (wcat w_u16 (c_texture c)) as [tx|]; [|discriminate]. cbn [bind] in *.
  destruct (Z.testbit (c_octsav c) 6) eqn:T6.
  - rewrite H3 by reflexivity.
    destruct (match c_material c with Some m => w_u16 m | None => Err StructError end) as [ma|]; [|discriminate].
    cbn [bind] in *. destruct (Z.testbit (c_octsav c) 7).
    + rewrite H4 by reflexivity. destruct (w_chr (c_merged c)) as [me|]; [|discriminate]. cbn [bind] in *.
      destruct (Z.testbit (c_octsav c) 5); [|exact Hw].
      destruct (H5 eq_refl) as (S1 & S2 & S3). rewrite S1, S2.
      binv Hw. binv E. rewrite E0. cbn [bind]. binv E. rewrite E1. cbn [bind]. binv E.
      erewrite (wcat_same (w_surf (c_ext c) (c_surfmask c)) (w_surf (c_ext d) (c_surfmask c)) (fun i j => i = j /\ (i < 6)%nat)); [|..|exact E2].
      * cbn [bind]. injection E as <-. exact Hw.
      * clear. assert (forall s n, (s + n <= 6)%nat -> Forall2 (fun i j => i = j /\ (i < 6)%nat) (seq s n) (seq s n)).
        { intros s n. revert s. induction n; intros; cbn [seq]; constructor; [lia|apply IHn; lia]. }
        apply H. lia.
      * intros i j b [<- Hi]. unfold w_surf. destruct (Z.testbit (c_surfmask c) (Z.of_nat i)) eqn:T; [|auto].
        specialize (S3 i Hi T). unfold surface in S3.
        destruct (c_ext c) as [l|]; [|discriminate]. destruct (nth_error l i) as [[s|]|]; try discriminate.
        destruct (c_ext d) as [l'|]; [|discriminate]. destruct (nth_error l' i) as [[s'|]|]; try discriminate.
        injection S3 as ->. auto.
    + cbn [bind] in *. destruct (Z.testbit (c_octsav c) 5); [|exact Hw].
      destruct (H5 eq_refl) as (S1 & S2 & S3). rewrite S1, S2.
      binv Hw. binv E. rewrite E0. cbn [bind]. binv E. rewrite E1. cbn [bind]. binv E.
      erewrite (wcat_same (w_surf (c_ext c) (c_surfmask c)) (w_surf (c_ext d) (c_surfmask c)) (fun i j => i = j /\ (i < 6)%nat)); [|..|exact E2].
      * cbn [bind]. injection E as <-. exact Hw.
      * clear. assert (forall s n, (s + n <= 6)%nat -> Forall2 (fun i j => i = j /\ (i < 6)%nat) (seq s n) (seq s n)).
        { intros s n. revert s. induction n; intros; cbn [seq]; constructor; [lia|apply IHn; lia]. }
        apply H. lia.
      * intros i j b [<- Hi]. unfold w_surf. destruct (Z.testbit (c_surfmask c) (Z.of_nat i)) eqn:T; [|auto].
        specialize (S3 i Hi T). unfold surface in S3.
        destruct (c_ext c) as [l|]; [|discriminate]. destruct (nth_error l i) as [[s|]|]; try discriminate.
        destruct (c_ext d) as [l'|]; [|discriminate]. destruct (nth_error l' i) as [[s'|]|]; try discriminate.
        injection S3 as ->. auto.
  - cbn [bind] in *. rewrite (chr_not7 _ Ho) in *. cbn [bind] in *.
    destruct (Z.testbit (c_octsav c) 5); [|exact Hw].
      destruct (H5 eq_refl) as (S1 & S2 & S3). rewrite S1, S2.
      binv Hw. binv E. rewrite E0. cbn [bind]. binv E. rewrite E1. cbn [bind]. binv E.
      erewrite (wcat_same (w_surf (c_ext c) (c_surfmask c)) (w_surf (c_ext d) (c_surfmask c)) (fun i j => i = j /\ (i < 6)%nat)); [|..|exact E2].
      * cbn [bind]. injection E as <-. exact Hw.
      * clear. assert (forall s n, (s + n <= 6)%nat -> Forall2 (fun i j => i = j /\ (i < 6)%nat) (seq s n) (seq s n)).
        { intros s n. revert s. induction n; intros; cbn [seq]; constructor; [lia|apply IHn; lia]. }
        apply H. lia.
      * intros i j b [<- Hi]. unfold w_surf. destruct (Z.testbit (c_surfmask c) (Z.of_nat i)) eqn:T; [|auto].
        specialize (S3 i Hi T). unfold surface in S3.
        destruct (c_ext c) as [l|]; [|discriminate]. destruct (nth_error l i) as [[s|]|]; try discriminate.
        destruct (c_ext d) as [l'|]; [|discriminate]. destruct (nth_error l' i) as [[s'|]|]; try discriminate.
        injection S3 as ->. auto.
Qed.

Lemma savec_same c : forall d bs, same_cube c d -> savec c = Ok bs -> savec d = Ok bs.
Proof.
  induction c as [c IH] using cube_rect'. intros d bs Hs Hw.
  inversion Hs as [c0 d0 l l' Hk Ho Hc Hd HF|c0 d0 Hk Ho He Ht Hm Hg Hsf]; subst.
  - rewrite savec_eq in *. rewrite Ho. binv Hw. rewrite E. cbn [bind] in *. cbv zeta in *.
    unfold kind in Hk. rewrite Hk in *. cbn [Z.eqb] in *. rewrite Hc in Hw. rewrite Hd.
    binv Hw. injection Hw as <-.
    erewrite (wcat_same savec savec (fun x y => same_cube x y /\ In x l)); [reflexivity|..|exact E0].
    + clear - HF. assert (forall l0, (forall x, In x l -> In x l0) -> Forall2 (fun x y => same_cube x y /\ In x l0) l l').
      { induction HF; intros l0 Hl; constructor; [split; [assumption|apply Hl; left; reflexivity]|].
        apply IHHF. intros z Hz. apply Hl. right. exact Hz. }
      apply H. auto.
    + intros x y b [Hxy Hin]. unfold kids in IH. rewrite Hc in IH. rewrite Forall_forall in IH.
      apply IH; assumption.
  - rewrite savec_eq in *. rewrite Ho. binv Hw. rewrite E. cbn [bind] in *. cbv zeta in *.
    destruct (rt_chr _ _ E) as (_ & _ & Hch).
    unfold kind in Hk. replace (Z.land (c_octsav c) 7 =? 0) with false in * by lia.
    assert (W : forall t, w_tail c = Ok t -> w_tail d = Ok t).
    { intros t Et. eapply w_tail_same; [|exact Et|exact Hch]. unfold same_leaf_data. tauto. }
    destruct (_ || _).
    + binv Hw. rewrite (W _ E0). exact Hw.
    + destruct (Z.eqb_spec (Z.land (c_octsav c) 7) 3) as [K|]; [|discriminate].
      rewrite (He K). binv Hw. rewrite E0. cbn [bind]. binv Hw. rewrite (W _ E1). exact Hw.
Qed.

(** ** Cubes as the reader returns them *)
Definition rd_leaf (c : cube) : Prop :=
  List.length (c_texture c) = 6%nat /\ Forall is_u16 (c_texture c) /\
  (kind c = 3 -> List.length (c_edges c) = 12%nat /\ Forall is_byte (c_edges c)) /\
  (kind c <= 4 -> has_material c = true -> exists m, c_material c = Some m /\ is_u16 m) /\
  is_byte (c_surfmask c) /\ is_byte (c_totalverts c) /\
  (kind c <= 4 -> has_surfaces c = true ->
     forall i, (i < 6)%nat -> Z.testbit (c_surfmask c) (Z.of_nat i) = true ->
               exists s, surface c i = Some s /\ wf_surf s) /\
  (4 < kind c -> c_ext c = None).

Inductive rd_cube : Z -> cube -> Prop :=
| rd_node_c : forall size c l,
    is_byte (c_octsav c) -> kind c = 0 -> c_children c = Some l -> List.length l = 8%nat ->
    1 < size -> Forall (rd_cube (size / 2)) l -> rd_cube size c
| rd_leaf_c : forall size c,
    is_byte (c_octsav c) -> kind c <> 0 -> size <= 4096 -> rd_leaf c -> rd_cube size c.

Lemma wf_kind_range c : 0 <= kind c < 8.
Proof. apply kind_range. Qed.

Lemma wf_cube_rd c : forall size, wf_cube size c -> writable_cube c.
Proof.
  induction c as [c IH] using cube_rect'. intros size Hw.
  inversion Hw as [sz c0 l Ho Hk Hc Hl Hs Hall|sz c0 Ho Hk Hs (L1 & L2 & L3 & L4 & L5)]; subst.
  - apply (writable_node c l); auto; [apply Ho|]. unfold kids in IH. rewrite Hc in IH.
    rewrite Forall_forall in *. intros x Hx. eapply IH; eauto.
  - apply writable_leaf; [apply Ho|exact Hk|]. intros Hf. destruct (L5 Hf) as (A & B & _).
    unfold is_char in *. lia.
Qed.

Lemma rd_fits c : forall size, rd_cube size c -> fits_cube size c.
Proof.
  induction c as [c IH] using cube_rect'. intros size Hw.
  inversion Hw as [sz c0 l Ho Hk Hc Hl Hs Hall|sz c0 Ho Hk Hs (L1 & L2 & L3 & L4 & L5 & L6 & L7 & L8)]; subst.
  - apply (fits_node size c l); auto. unfold kids in IH. rewrite Hc in IH.
    rewrite shiftr1. rewrite Forall_forall in *. intros x Hx. apply IH; auto.
  - apply fits_leaf_c; auto. split; [exact L1|]. intros Hf i s Hi Ti Es.
    destruct (Z_le_gt_dec (kind c) 4) as [K|K].
    + destruct (L7 K Hf i Hi Ti) as (s' & Es' & Hs'). rewrite Es in Es'. injection Es' as <-. apply Hs'.
    + unfold surface in Es. rewrite L8 in Es by lia. discriminate.
Qed.

Lemma wf_fits c : forall size, wf_cube size c -> fits_cube size c.
Proof.
  induction c as [c IH] using cube_rect'. intros size Hw.
  inversion Hw as [sz c0 l Ho Hk Hc Hl Hs Hall|sz c0 Ho Hk Hs (L1 & L2 & L3 & L4 & L5)]; subst.
  - apply (fits_node size c l); auto. unfold kids in IH. rewrite Hc in IH.
    rewrite shiftr1. rewrite Forall_forall in *. intros x Hx. apply IH; auto.
  - apply fits_leaf_c; auto; [lia|]. split; [exact L2|]. intros Hf i s Hi Ti Es.
    destruct (L5 Hf) as (_ & _ & HS). destruct (HS i Hi Ti) as (s' & Es' & Hs').
    rewrite Es in Es'. injection Es' as <-. apply Hs'.
Qed.

(** Writability. *)
Lemma w_u8_ok z : is_byte z -> w_u8 z = Ok [z].
Proof. unfold is_byte, w_u8. intros Hz. replace ((0 <=? z) && (z <? 256)) with true by lia. reflexivity. Qed.
Lemma w_chr_ok z : is_char z -> w_chr z = Ok [z].
Proof.
  unfold is_char, w_chr. intros Hz. replace ((z <? 0) || (1114112 <=? z)) with false by lia.
  replace ((55296 <=? z) && (z <? 57344)) with false by lia. replace (z <? 128) with true by lia. reflexivity.
Qed.
Lemma w_u16_ok z : is_u16 z -> w_u16 z = Ok (le 2 z).
Proof. unfold is_u16, w_u16. change (2 ^ 16) with 65536. intros Hz. replace ((0 <=? z) && (z <? 65536)) with true by lia. reflexivity. Qed.
Lemma w_i32_ok z : is_i32 z -> w_i32 z = Ok (le 4 (z mod 2 ^ 32)).
Proof.
  unfold is_i32, w_i32. change (2 ^ 31) with 2147483648. intros Hz.
  replace ((- (2147483648) <=? z) && (z <? 2147483648)) with true by lia. reflexivity.
Qed.

Lemma wcat_ok {A} (w : A -> res (list Z)) l :
  (forall x, In x l -> exists b, w x = Ok b) -> exists bs, wcat w l = Ok bs.
Proof.
  induction l as [|x l IH]; intros H; [exists []; reflexivity|].
  destruct (H x (or_introl eq_refl)) as (b1 & E1).
  destruct IH as (b2 & E2); [intros y Hy; apply H; right; exact Hy|].
  exists (b1 ++ b2). apply wcat_cons. eauto.
Qed.
Lemma wcat_ok_all {A} (w : A -> res (list Z)) l (Q : A -> Prop) :
  Forall Q l -> (forall x, Q x -> exists b, w x = Ok b) -> exists bs, wcat w l = Ok bs.
Proof. intros HF Hw. apply wcat_ok. rewrite Forall_forall in HF. intros x Hx. auto. Qed.

(** A readable leaf of kind 1 to 4 with small flag and surface bytes has a tail. *)
Lemma w_tail_ok c :
  kind c <= 4 -> is_char (c_octsav c) ->
  (has_surfaces c = true -> is_char (c_surfmask c) /\ is_char (c_totalverts c)) ->
  Forall is_u16 (c_texture c) ->
  (has_material c = true -> exists m, c_material c = Some m /\ is_u16 m) ->
  (has_surfaces c = true ->
     forall i, (i < 6)%nat -> Z.testbit (c_surfmask c) (Z.of_nat i) = true ->
               exists s, surface c i = Some s /\ wf_surf s) ->
  exists bs, w_tail c = Ok bs.
Proof.
  intros Hk Ho Hsm Htx Hmat Hsf. unfold w_tail, has_material, has_surfaces in *.
  destruct (wcat_ok_all w_u16 (c_texture c) is_u16 Htx) as (tx & ->); [intros; eexists; apply w_u16_ok; assumption|].
  cbn [bind].
  assert (M : exists ma, (if Z.testbit (c_octsav c) 6 then match c_material c with Some m => w_u16 m | None => Err StructError end else Ok []) = Ok ma).
  { destruct (Z.testbit _ 6); [|eauto]. destruct (Hmat eq_refl) as (m & -> & Hm). eexists. apply w_u16_ok. exact Hm. }
  destruct M as (ma & ->). cbn [bind]. rewrite (chr_not7 _ Ho). cbn [bind].
  destruct (Z.testbit (c_octsav c) 5); [|eexists; reflexivity].
  destruct (Hsm eq_refl) as (S1 & S2). rewrite !w_chr_ok by assumption. cbn [bind].
  destruct (wcat_ok (w_surf (c_ext c) (c_surfmask c)) (seq 0 6)) as (ss & Es); [|rewrite Es; cbn [bind]; eexists; reflexivity].
  intros i Hi. apply in_seq in Hi. unfold w_surf. destruct (Z.testbit (c_surfmask c) (Z.of_nat i)) eqn:T; [|eauto].
  destruct (Hsf eq_refl i) as (s & Es & (W1 & W2 & W3 & W4 & W5)); [lia|exact T|].
  unfold surface in Es. destruct (c_ext c) as [l|]; [|discriminate].
  destruct (nth_error l i) as [[s'|]|]; try discriminate. injection Es as ->.
  rewrite !w_u8_ok by (try assumption; rewrite W3; unfold is_byte; lia). rewrite W3. cbn [bind Z.eqb]. eauto.
Qed.

Lemma savec_ok_leaf c :
  1 <= kind c <= 4 -> is_char (c_octsav c) ->
  (has_surfaces c = true -> is_char (c_surfmask c) /\ is_char (c_totalverts c)) ->
  Forall is_u16 (c_texture c) ->
  (has_material c = true -> exists m, c_material c = Some m /\ is_u16 m) ->
  (has_surfaces c = true ->
     forall i, (i < 6)%nat -> Z.testbit (c_surfmask c) (Z.of_nat i) = true ->
               exists s, surface c i = Some s /\ wf_surf s) ->
  (kind c = 3 -> List.length (c_edges c) = 12%nat /\ Forall is_byte (c_edges c)) ->
  exists bs, savec c = Ok bs.
Proof.
  intros Hk Ho Hsm Htx Hmat Hsf He. rewrite savec_eq. rewrite w_chr_ok by exact Ho. cbn [bind]. cbv zeta.
  destruct (w_tail_ok c) as (t & Et); auto; [lia|]. rewrite Et. unfold kind in *.
  replace (Z.land (c_octsav c) 7 =? 0) with false by lia.
  destruct (_ || _) eqn:K; [eexists; reflexivity|].
  assert (K3 : Z.land (c_octsav c) 7 = 3) by lia. rewrite K3. cbn [Z.eqb Pos.eqb].
  destruct (He K3) as (L & Hb). unfold w_edges. rewrite L. cbn [Nat.eqb].
  destruct (wcat_ok_all w_u8 (c_edges c) is_byte Hb) as (e & ->); [intros; eexists; apply w_u8_ok; assumption|].
  eexists; reflexivity.
Qed.

Lemma wf_savec c : forall size, wf_cube size c -> exists bs, savec c = Ok bs.
Proof.
  induction c as [c IH] using cube_rect'. intros size Hw.
  inversion Hw as [sz c0 l Ho Hk Hc Hl Hs Hall|sz c0 Ho Hk Hs (L1 & L2 & L3 & L4 & L5)]; subst.
  - rewrite savec_eq, w_chr_ok by exact Ho. cbn [bind]. cbv zeta. unfold kind in Hk. rewrite Hk, Hc.
    cbn [Z.eqb]. unfold kids in IH. rewrite Hc in IH. rewrite Forall_forall in IH, Hall.
    destruct (wcat_ok savec l) as (bs & ->); [intros x Hx; eapply IH; eauto|]. eexists; reflexivity.
  - apply savec_ok_leaf; auto.
    + intros Hf. destruct (L5 Hf) as (A & B & _). auto.
    + intros Hf. apply (L5 Hf).
Qed.

Lemma rd_savec c : forall size, rd_cube size c -> (exists bs, savec c = Ok bs) <-> writable_cube c.
Proof.
  induction c as [c IH] using cube_rect'. intros size Hw.
  inversion Hw as [sz c0 l Ho Hk Hc Hl Hs Hall|sz c0 Ho Hk Hs (L1 & L2 & L3 & L4 & L5 & L6 & L7 & L8)]; subst.
  - unfold kids in IH. rewrite Hc in IH. rewrite Forall_forall in IH, Hall. split.
    + intros (bs & E). rewrite savec_eq in E. binv E. destruct (rt_chr _ _ E0) as (_ & _ & Hch).
      cbv zeta in E. unfold kind in Hk. rewrite Hk, Hc in E. cbn [Z.eqb] in E. binv E.
      apply (writable_node c l); auto; [apply Hch|]. apply Forall_forall. intros x Hx.
      apply (IH x Hx (size / 2) (Hall x Hx)). eapply wcat_in; eauto.
    + intros Hwr. inversion Hwr as [c1 l1 Ho1 Hk1 Hc1 Hall1|c1 Ho1 Hk1 _]; subst; [|lia].
      rewrite savec_eq, w_chr_ok by (unfold is_char, is_byte in *; lia).
      cbn [bind]. cbv zeta. unfold kind in Hk. rewrite Hk, Hc.
      cbn [Z.eqb]. rewrite Hc in Hc1. injection Hc1 as <-. rewrite Forall_forall in Hall1.
      destruct (wcat_ok savec l) as (bs & ->); [|eexists; reflexivity].
      intros x Hx. apply (IH x Hx (size / 2) (Hall x Hx)). auto.
  - pose proof (wf_kind_range c) as Hkr. split.
    + intros (bs & E). rewrite savec_eq in E. binv E. destruct (rt_chr _ _ E0) as (_ & _ & Hch).
      cbv zeta in E. unfold kind in *. replace (Z.land (c_octsav c) 7 =? 0) with false in E by lia.
      assert (T : (1 <= Z.land (c_octsav c) 7 <= 4) /\ exists t, w_tail c = Ok t).
      { destruct (_ || _) eqn:K.
        - binv E. split; [lia|eauto].
        - destruct (Z.eqb_spec (Z.land (c_octsav c) 7) 3) as [K3|]; [|discriminate].
          binv E. binv E. split; [lia|eauto]. }
      destruct T as (K & t & Et). apply writable_leaf; [apply Hch|exact K|].
      intros Hf. unfold has_surfaces in Hf. unfold w_tail in Et. rewrite Hf in Et.
      binv Et. binv Et. binv Et. binv Et. binv E4. binv E4. binv E4.
      destruct (rt_chr _ _ E5) as (_ & _ & A). destruct (rt_chr _ _ E6) as (_ & _ & B).
      unfold is_char in *. lia.
    + intros Hwr. inversion Hwr as [c1 l1 Ho1 Hk1 Hc1 Hall1|c1 Ho1 Hk1 Hsf1]; subst; [lia|].
      apply savec_ok_leaf; auto.
      * unfold is_char, is_byte in *; lia.
      * intros Hf. specialize (Hsf1 Hf). unfold is_char, is_byte in *. lia.
      * apply L4. lia.
      * apply L7. lia.
Qed.
