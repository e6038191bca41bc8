(** Lemmas about the readers in isolation: reading only looks at the bytes it
    consumes, and the fuel always suffices. *)
From Verif Require Import Py VecModel CodecModel CodecSpec CodecFloat.
Ltac Zify.zify_post_hook ::= Z.div_mod_to_equations.

(** [ext p q]: whatever p reads, q reads in the presence of further bytes. *)
Definition ext {A} (p q : P A) : Prop :=
  forall b a r c, p b = Ok (a, r) -> q (b ++ c) = Ok (a, r ++ c).
(** [eats n p]: a successful read consumes a prefix of at least n bytes. *)
Definition eats {A} (n : nat) (p : P A) : Prop :=
  forall b a r, p b = Ok (a, r) -> exists pre, b = pre ++ r /\ (n <= List.length pre)%nat.
(** [safe n p]: on fewer than n bytes p does not run out of fuel. *)
Definition safe {A} (n : nat) (p : P A) : Prop :=
  forall b, (List.length b < n)%nat -> p b <> Err OutOfFuel.

Section Comb.
Context {A B : Type}.

Lemma ext_ret (a : A) : ext (pret a) (pret a).
Proof. intros b x r c [= -> ->]. reflexivity. Qed.
Lemma ext_err e : ext (@perr A e) (@perr A e).
Proof. intros b x r c [=]. Qed.
Lemma ext_bind (p q : P A) (k k' : A -> P B) :
  ext p q -> (forall a, ext (k a) (k' a)) -> ext (pbind p k) (pbind q k').
Proof.
  intros Hp Hk b x r c. unfold pbind. destruct (p b) as [[a b']|e] eqn:E; [|discriminate].
  rewrite (Hp _ _ _ c E). apply Hk.
Qed.
Lemma ext_if (t : bool) (p q p' q' : P A) :
  ext p q -> ext p' q' -> ext (if t then p else p') (if t then q else q').
Proof. destruct t; auto. Qed.
Lemma ext_lift (x : res A) :
  ext (fun b => match x with Ok e => Ok (e, b) | Err e => Err e end)
      (fun b => match x with Ok e => Ok (e, b) | Err e => Err e end).
Proof. intros b a r c. destruct x; [|discriminate]. intros [= -> ->]. reflexivity. Qed.

Lemma eats_le n m (p : P A) : (m <= n)%nat -> eats n p -> eats m p.
Proof. intros Hm Hp b a r E. destruct (Hp _ _ _ E) as (pre & -> & Hl). exists pre. split; [reflexivity|lia]. Qed.
Lemma eats_ret (a : A) : eats 0 (pret a).
Proof. intros b x r [= -> ->]. exists []. split; [reflexivity|cbn; lia]. Qed.
Lemma eats_err n e : eats n (@perr A e).
Proof. intros b x r [=]. Qed.
Lemma eats_lift (x : res A) :
  eats 0 (fun b => match x with Ok e => Ok (e, b) | Err e => Err e end).
Proof. intros b a r. destruct x; [|discriminate]. intros [= -> ->]. exists []. auto. Qed.
Lemma eats_bind n m (p : P A) (k : A -> P B) :
  eats n p -> (forall a, eats m (k a)) -> eats (n + m) (pbind p k).
Proof.
  intros Hp Hk b x r. unfold pbind. destruct (p b) as [[a b']|e] eqn:E; [|discriminate].
  intros E2. destruct (Hp _ _ _ E) as (u & -> & Hu). destruct (Hk _ _ _ _ E2) as (v & -> & Hv).
  exists (u ++ v). rewrite app_assoc, app_length. split; [reflexivity|lia].
Qed.
Lemma eats_bind0 n (p : P A) (k : A -> P B) :
  eats n p -> (forall a, eats 0 (k a)) -> eats n (pbind p k).
Proof. intros Hp Hk. rewrite <- (Nat.add_0_r n). apply eats_bind; assumption. Qed.
Lemma eats_if n (t : bool) (p q : P A) : eats n p -> eats n q -> eats n (if t then p else q).
Proof. destruct t; auto. Qed.

Lemma safe_ret n (a : A) : safe n (pret a). Proof. intros b _. discriminate. Qed.
Lemma safe_err n e : e <> OutOfFuel -> safe n (@perr A e).
Proof. intros He b _ [=]. contradiction. Qed.
Lemma safe_lift n (x : res A) : x <> Err OutOfFuel ->
  safe n (fun b => match x with Ok e => Ok (e, b) | Err e => Err e end).
Proof. intros Hx b _. destruct x; [discriminate|]. congruence. Qed.
Lemma safe_bind n (p : P A) (k : A -> P B) :
  safe n p -> eats 0 p -> (forall a, safe n (k a)) -> safe n (pbind p k).
Proof.
  intros Hp He Hk b Hb. unfold pbind. destruct (p b) as [[a b']|e] eqn:E.
  - apply Hk. destruct (He _ _ _ E) as (u & -> & _). rewrite app_length in Hb. lia.
  - intros [=]. subst. apply (Hp b Hb E).
Qed.
Lemma safe_bind1 n (p : P A) (k : A -> P B) :
  safe (S n) p -> eats 1 p -> (forall a, safe n (k a)) -> safe (S n) (pbind p k).
Proof.
  intros Hp He Hk b Hb. unfold pbind. destruct (p b) as [[a b']|e] eqn:E.
  - apply Hk. destruct (He _ _ _ E) as (u & -> & Hu). rewrite app_length in Hb. lia.
  - intros [=]. subst. apply (Hp b Hb E).
Qed.
Lemma safe_if n (t : bool) (p q : P A) : safe n p -> safe n q -> safe n (if t then p else q).
Proof. destruct t; auto. Qed.
End Comb.

(** ** Primitive readers *)
Lemma firstn_app_le {A} n (l m : list A) : (n <= List.length l)%nat -> firstn n (l ++ m) = firstn n l.
Proof. intros Hn. rewrite firstn_app. replace (n - _)%nat with 0%nat by lia. cbn. apply app_nil_r. Qed.
Lemma skipn_app_le {A} n (l m : list A) : (n <= List.length l)%nat -> skipn n (l ++ m) = skipn n l ++ m.
Proof. intros Hn. rewrite skipn_app. replace (n - _)%nat with 0%nat by lia. reflexivity. Qed.

Lemma ext_bytes n : ext (p_bytes n) (p_bytes n).
Proof.
  intros b a r c. unfold p_bytes. destruct (Z.ltb_spec n 0); [discriminate|].
  destruct (Z.ltb_spec (Z.of_nat (List.length b)) n); [discriminate|].
  intros [= <- <-]. rewrite app_length.
  destruct (Z.ltb_spec (Z.of_nat (List.length b + List.length c)) n); [lia|].
  rewrite firstn_app_le, skipn_app_le by lia. reflexivity.
Qed.
Lemma eats_bytes n : eats (Z.to_nat n) (p_bytes n).
Proof.
  intros b a r. unfold p_bytes. destruct (Z.ltb_spec n 0); [discriminate|].
  destruct (Z.ltb_spec (Z.of_nat (List.length b)) n); [discriminate|].
  intros [= <- <-]. exists (firstn (Z.to_nat n) b). rewrite firstn_skipn.
  split; [reflexivity|]. rewrite firstn_length. lia.
Qed.
Lemma safe_bytes k n : safe k (p_bytes n).
Proof. intros b _. unfold p_bytes. destruct (_ <? _); [|destruct (_ <? _)]; discriminate. Qed.

(** Proof search over the combinators. *)
Ltac estep :=
  match goal with
  | |- ext (pbind _ _) _ => apply ext_bind; [|intros ?]
  | |- ext (pret _) _ => apply ext_ret
  | |- ext (perr _) _ => apply ext_err
  | |- ext (if _ then _ else _) _ => apply ext_if
  | |- ext (p_bytes _) _ => apply ext_bytes
  | |- eats _ (pbind _ _) => eapply eats_bind0; [|intros ?]
  | |- eats _ (pret _) => apply eats_ret
  | |- eats _ (perr _) => apply eats_err
  | |- eats _ (if _ then _ else _) => apply eats_if
  | |- eats _ (p_bytes _) => eapply eats_le; [|apply eats_bytes]; lia
  | |- safe _ (pbind _ _) => apply safe_bind; [| |intros ?]
  | |- safe _ (pret _) => apply safe_ret
  | |- safe _ (perr _) => apply safe_err; discriminate
  | |- safe _ (if _ then _ else _) => apply safe_if
  | |- safe _ (p_bytes _) => apply safe_bytes
  end.

Lemma ext_u8 : ext p_u8 p_u8. Proof. unfold p_u8; repeat estep. Qed.
Lemma ext_u16 : ext p_u16 p_u16. Proof. unfold p_u16; repeat estep. Qed.
Lemma ext_i32 : ext p_i32 p_i32. Proof. unfold p_i32; repeat estep. Qed.
Lemma ext_f32 : ext p_f32 p_f32. Proof. unfold p_f32; repeat estep. Qed.
Lemma ext_str n t : ext (p_str n t) (p_str n t). Proof. unfold p_str; repeat estep. Qed.
Lemma eats_u8 : eats 1 p_u8. Proof. unfold p_u8; repeat estep. Qed.
Lemma eats_u16 : eats 2 p_u16. Proof. unfold p_u16; repeat estep. Qed.
Lemma eats_i32 : eats 4 p_i32. Proof. unfold p_i32; repeat estep. Qed.
Lemma eats_f32 : eats 4 p_f32. Proof. unfold p_f32; repeat estep. Qed.
Lemma eats_str n t : eats 0 (p_str n t). Proof. unfold p_str; repeat estep. Qed.
Lemma safe_u8 k : safe k p_u8. Proof. unfold p_u8; repeat estep. Qed.
Lemma safe_u16 k : safe k p_u16. Proof. unfold p_u16; repeat estep. Qed.
Lemma safe_i32 k : safe k p_i32. Proof. unfold p_i32; repeat estep. Qed.
Lemma safe_f32 k : safe k p_f32. Proof. unfold p_f32; repeat estep. Qed.
Lemma safe_str k n t : safe k (p_str n t). Proof. unfold p_str; repeat estep. Qed.

Ltac prim :=
  first
    [ apply ext_u8 | apply ext_u16 | apply ext_i32 | apply ext_f32 | apply ext_str
    | apply safe_u8 | apply safe_u16 | apply safe_i32 | apply safe_f32 | apply safe_str
    | apply eats_u8 | apply eats_u16 | apply eats_i32 | apply eats_f32
    | eapply eats_le; [|apply eats_u8]; lia | eapply eats_le; [|apply eats_u16]; lia
    | eapply eats_le; [|apply eats_i32]; lia | eapply eats_le; [|apply eats_f32]; lia
    | eapply eats_le; [|apply eats_str]; lia | apply ext_lift | apply eats_lift ].
Ltac pars := repeat first [estep | prim].

(** ** Loops *)
Lemma ext_times {A} (p q : P A) f f' n : (f <= f')%nat -> ext p q -> ext (p_times f p n) (p_times f' q n).
Proof.
  intros Hf Hp. revert f' n Hf. induction f as [|f IH]; intros f' n Hf; cbn [p_times].
  - destruct f'; cbn [p_times]; destruct (n <=? 0); first [apply ext_ret|intros ? ? ? ? [=]].
  - destruct f' as [|f']; [lia|]. cbn [p_times]. apply ext_if; [apply ext_ret|].
    apply ext_bind; [exact Hp|]. intros a. apply ext_bind; [apply IH; lia|]. intros l. apply ext_ret.
Qed.
Lemma eats_times {A} (p : P A) f n : eats 0 p -> eats 0 (p_times f p n).
Proof.
  intros Hp. revert n. induction f as [|f IH]; intros n; cbn [p_times]; pars; auto.
Qed.
Lemma safe_times {A} (p : P A) N f n : (f <= N)%nat -> eats 1 p -> safe N p -> safe f (p_times f p n).
Proof.
  intros Hf He Hs. revert n Hf. induction f as [|f IH]; intros n Hf; cbn [p_times].
  - intros b Hb. lia.
  - apply safe_if; [apply safe_ret|]. apply safe_bind1; [|exact He|].
    + intros b Hb. apply Hs. lia.
    + intros a. apply safe_bind; [apply IH; lia| |intros; apply safe_ret].
      apply eats_times. eapply eats_le; [|exact He]. lia.
Qed.

Lemma ext_repeat {A} (p q : P A) n : ext p q -> ext (p_repeat n p) (p_repeat n q).
Proof. intros Hp. induction n as [|n IH]; cbn [p_repeat]; pars; auto. Qed.
Lemma eats_repeat {A} (p : P A) n : eats 0 p -> eats 0 (p_repeat n p).
Proof. intros Hp. induction n as [|n IH]; cbn [p_repeat]; pars; auto. Qed.
Lemma safe_repeat {A} (p : P A) n k : eats 0 p -> safe k p -> safe k (p_repeat n p).
Proof. intros He Hs. induction n as [|n IH]; cbn [p_repeat]; pars; auto using @eats_repeat. Qed.

Lemma ext_surfs m l : ext (p_surfs m l) (p_surfs m l).
Proof. induction l as [|i l IH]; cbn [p_surfs]; unfold p_surf; pars; auto. Qed.
Lemma eats_surfs m l : eats 0 (p_surfs m l).
Proof. induction l as [|i l IH]; cbn [p_surfs]; unfold p_surf; pars; auto. Qed.
Lemma safe_surfs m l k : safe k (p_surfs m l).
Proof. induction l as [|i l IH]; cbn [p_surfs]; unfold p_surf; pars; auto using eats_surfs. Qed.

Lemma ext_tail o e f : ext (p_tail o e f) (p_tail o e f).
Proof. unfold p_tail. pars; first [apply ext_repeat; pars|apply ext_surfs]. Qed.
Lemma eats_tail o e f : eats 0 (p_tail o e f).
Proof. unfold p_tail. pars; first [apply eats_repeat; pars|apply eats_surfs]. Qed.
Lemma safe_tail o e f k : safe k (p_tail o e f).
Proof.
  unfold p_tail. pars; first [apply safe_repeat; pars|apply eats_repeat; pars|apply safe_surfs|apply eats_surfs].
Qed.

Lemma ext_kids (p q : P (bool * cube)) n : ext p q -> ext (p_kids p n) (p_kids q n).
Proof. intros Hp. induction n as [|n IH]; cbn [p_kids]; pars; auto. Qed.
Lemma eats_kids (p : P (bool * cube)) n : eats 0 p -> eats 0 (p_kids p n).
Proof. intros Hp. induction n as [|n IH]; cbn [p_kids]; pars; auto. Qed.
Lemma safe_kids (p : P (bool * cube)) n k : eats 0 p -> safe k p -> safe k (p_kids p n).
Proof. intros He Hs. induction n as [|n IH]; cbn [p_kids]; pars; auto using eats_kids. Qed.

Lemma eats_loadc f : eats 1 (p_loadc f).
Proof.
  induction f as [|f IH]; cbn [p_loadc]; [apply eats_err|].
  apply eats_bind0; [apply eats_u8|]. intros o. cbv zeta.
  pars; first [apply eats_kids; eapply eats_le; [|exact IH]; lia | apply eats_tail
              | apply eats_repeat; pars].
Qed.
Lemma ext_loadc f f' : (f <= f')%nat -> ext (p_loadc f) (p_loadc f').
Proof.
  revert f'. induction f as [|f IH]; intros f' Hf; cbn [p_loadc]; [intros ? ? ? ? [=]|].
  destruct f' as [|f']; [lia|]. cbn [p_loadc]. apply ext_bind; [apply ext_u8|]. intros o. cbv zeta.
  pars; first [apply ext_kids; apply IH; lia | apply ext_tail | apply ext_repeat; pars].
Qed.
Lemma safe_loadc f : safe f (p_loadc f).
Proof.
  induction f as [|f IH]; [intros b Hb; lia|]. cbn [p_loadc].
  apply safe_bind1; [apply safe_u8|apply eats_u8|]. intros o. cbv zeta.
  pars; first [apply safe_kids; [eapply eats_le; [|apply eats_loadc]; lia|exact IH]
              | apply eats_kids; eapply eats_le; [|apply eats_loadc]; lia
              | apply safe_tail | apply eats_tail | apply safe_repeat; pars | apply eats_repeat; pars].
Qed.

Lemma mk_entity_nofuel x y z t a l r : mk_entity x y z t a l r <> Err OutOfFuel.
Proof.
  unfold mk_entity. destruct (_ || _); [discriminate|].
  destruct ((t =? 9) || (t =? 3)).
  - destruct a as [|a0 a]; [discriminate|]. destruct (is_weapon a0); [|discriminate].
    cbn [bind]. destruct (attr_count t); [|discriminate]. destruct (Nat.eqb _ _); discriminate.
  - cbn [bind]. destruct (attr_count t); [|discriminate]. destruct (Nat.eqb _ _); discriminate.
Qed.

Lemma ext_ent f f' : (f <= f')%nat -> ext (p_ent f) (p_ent f').
Proof. intros Hf. unfold p_ent. pars; apply ext_times; auto; prim. Qed.
Lemma eats_ent f : eats 1 (p_ent f).
Proof.
  unfold p_ent. apply eats_bind0; [prim|]. intros. 
  repeat (apply eats_bind0; [first [prim|apply eats_times; prim]|intros]). apply eats_lift.
Qed.
Lemma safe_ent f : safe f (p_ent f).
Proof.
  unfold p_ent.
  repeat (apply safe_bind; [first [prim|eapply safe_times; [apply le_n|prim|prim]]
                           |first [prim|apply eats_times; prim]|intros]).
  apply safe_lift. apply mk_entity_nofuel.
Qed.

Lemma ext_var : ext p_var p_var. Proof. unfold p_var; pars. Qed.
Lemma eats_var : eats 1 p_var. Proof. unfold p_var; pars. Qed.
Lemma safe_var k : safe k p_var. Proof. unfold p_var; pars. Qed.

Lemma ext_when {A} c (p q : P A) : ext p q -> ext (p_when c p) (p_when c q).
Proof. intros Hp. unfold p_when; pars; auto. Qed.
Lemma eats_when {A} c (p : P A) : eats 0 p -> eats 0 (p_when c p).
Proof. intros Hp. unfold p_when; pars; auto. Qed.
Lemma safe_when {A} c (p : P A) k : safe k p -> eats 0 p -> safe k (p_when c p).
Proof. intros Hp He. unfold p_when; pars; auto. Qed.

Lemma ext_shparam fl : ext (p_shparam fl) (p_shparam fl).
Proof. unfold p_shparam; pars; apply ext_repeat; prim. Qed.
Lemma eats_shparam fl : eats 1 (p_shparam fl).
Proof. unfold p_shparam; pars; apply eats_repeat; prim. Qed.
Lemma safe_shparam fl k : safe k (p_shparam fl).
Proof. unfold p_shparam; pars; first [apply safe_repeat; prim|apply eats_repeat; prim]. Qed.

Lemma ext_vslot f f' ch : (f <= f')%nat -> ext (p_vslot f ch) (p_vslot f' ch).
Proof.
  intros Hf. unfold p_vslot.
  pars; apply ext_when; pars; first [apply ext_times; [exact Hf|apply ext_shparam]|apply ext_repeat; prim].
Qed.
Lemma eats_vslot f ch : eats 0 (p_vslot f ch).
Proof.
  unfold p_vslot.
  pars; apply eats_when; pars;
    first [apply eats_times; eapply eats_le; [|apply eats_shparam]; lia|apply eats_repeat; prim].
Qed.
Lemma safe_vslot f ch : safe f (p_vslot f ch).
Proof.
  assert (E : forall fl, eats 0 (p_shparam fl)) by (intros; eapply eats_le; [|apply eats_shparam]; lia).
  unfold p_vslot.
  pars;
    first [apply safe_when|apply eats_when]; pars;
    first [eapply safe_times; [apply le_n|apply eats_shparam|apply safe_shparam]
          |apply eats_times; apply E|apply eats_repeat; prim|apply safe_repeat; prim].
Qed.

Lemma ext_vslots f f' n : (f <= f')%nat -> ext (p_vslots f n) (p_vslots f' n).
Proof.
  revert f' n. induction f as [|f IH]; intros f' n Hf; cbn [p_vslots].
  - destruct f'; cbn [p_vslots]; destruct (n <=? 0); first [apply ext_ret|intros ? ? ? ? [=]].
  - destruct f' as [|f']; [lia|]. cbn [p_vslots].
    pars; first [apply IH; lia|apply ext_vslot; lia].
Qed.
Lemma eats_vslots f n : eats 0 (p_vslots f n).
Proof. revert n. induction f as [|f IH]; intros n; cbn [p_vslots]; pars; auto using eats_vslot. Qed.
Lemma safe_vslots f n : safe f (p_vslots f n).
Proof.
  revert n. induction f as [|f IH]; intros n; [intros b Hb; lia|]. cbn [p_vslots].
  apply safe_if; [apply safe_ret|].
  intros b Hb. unfold pbind at 1. destruct (p_i32 b) as [[ch b1]|e] eqn:E1.
  2:{ intros [=]. subst. exact (safe_i32 _ b Hb E1). }
  destruct (eats_i32 _ _ _ E1) as (u & -> & Hu). rewrite app_length in Hb.
  assert (Hb1 : (List.length b1 < f)%nat) by lia. clear E1 Hb Hu u. revert b1 Hb1.
  change (safe f (if ch <? 0 then do r <- p_vslots f (n + ch);; pret (- ch + fst r, ch :: snd r)
                  else do _ <- p_i32;; do _ <- p_vslot (S f) ch;;
                       do r <- p_vslots f (n - 1);; pret (fst r, ch :: snd r))).
  pars; auto using eats_vslots, eats_vslot.
  intros b Hb. apply (safe_vslot (S f)). lia.
Qed.

(** Induction over cubes through their children. *)
Definition kids (c : cube) : list cube := match c_children c with Some l => l | None => [] end.
Lemma cube_rect' (Q : cube -> Prop) :
  (forall c, Forall Q (kids c) -> Q c) -> forall c, Q c.
Proof.
  intros Hq. fix IH 1. intros [[l|] ext0 ed fa tx ma me sm tv os]; apply Hq; cbn [kids c_children].
  - induction l as [|x l IHl]; constructor; [apply IH|exact IHl].
  - constructor.
Qed.

(** validate1 and savec with the inner loops named. *)
Lemma validate1_eq size c :
  validate1 size c =
  match c_children c with
  | Some ((_ :: _) as l) =>
      if size <=? 1 then Err AttributeError
      else let! l' := mapM (validate1 (Z.shiftr size 1)) l in Ok (with_children c l')
  | _ => if 4096 <? size then Err AttributeError else Ok (fix_faces c)
  end.
Proof.
  destruct c as [[[|x l]|] ext0 ed fa tx ma me sm tv os]; reflexivity.
Qed.

Lemma mapM_nofuel {A B} (f : A -> res B) l :
  Forall (fun x => f x <> Err OutOfFuel) l -> mapM f l <> Err OutOfFuel.
Proof.
  induction 1 as [|x l Hx _ IH]; cbn [mapM]; [discriminate|].
  destruct (f x) eqn:E; cbn [bind]; [|congruence].
  destruct (mapM f l); cbn [bind]; [discriminate|]. congruence.
Qed.

Lemma validate1_nofuel c : forall size, validate1 size c <> Err OutOfFuel.
Proof.
  induction c as [c IH] using cube_rect'. intros size. rewrite validate1_eq. unfold kids in IH.
  destruct (c_children c) as [[|x l]|]; try (destruct (_ <? _); discriminate).
  destruct (size <=? 1); [discriminate|].
  assert (G : mapM (validate1 (Z.shiftr size 1)) (x :: l) <> Err OutOfFuel).
  { apply mapM_nofuel. eapply Forall_impl; [|exact IH]. auto. }
  destruct (mapM (validate1 (Z.shiftr size 1)) (x :: l)) as [l'|e]; cbn [bind]; congruence.
Qed.

(** ** The whole reader *)
Lemma ext_map f f' : (f <= f')%nat -> ext (p_map f) (p_map f').
Proof.
  intros Hf. unfold p_map.
  apply ext_bind; [prim|intros magic]. apply ext_if; [apply ext_err|].
  repeat (apply ext_bind; [first [prim | apply ext_times; [exact Hf|first [prim|apply ext_var|apply ext_ent; exact Hf]]
            | apply ext_vslots; exact Hf | apply ext_kids; apply ext_loadc; exact Hf]|intros ?]).
  intros b m r c. destruct (validatec _ _); [|discriminate]. intros [= <- <-]. reflexivity.
Qed.
Lemma eats_map f : eats 0 (p_map f).
Proof.
  unfold p_map.
  apply eats_bind0; [prim|intros magic]. apply eats_if; [apply eats_err|].
  repeat (apply eats_bind0; [first [prim | apply eats_times; first [prim|eapply eats_le; [|apply eats_var]; lia|eapply eats_le; [|apply eats_ent]; lia]
            | apply eats_vslots | apply eats_kids; eapply eats_le; [|apply eats_loadc]; lia]|intros ?]).
  intros b m r. destruct (validatec _ _); [|discriminate]. intros [= <- <-]. exists []. auto.
Qed.
Lemma safe_map f : safe f (p_map f).
Proof.
  assert (E : forall {A} (p : P A), eats 1 p -> eats 0 p) by (intros A p Hp; eapply eats_le; [|exact Hp]; lia).
  unfold p_map.
  apply safe_bind; [prim|prim|intros magic]. apply safe_if; [apply safe_err; discriminate|].
  repeat (apply safe_bind;
          [ first [prim | eapply safe_times; [apply le_n| |];
                    first [prim|apply eats_var|apply eats_ent|apply safe_var|apply safe_ent]
                  | apply safe_vslots | apply safe_kids; [apply E, eats_loadc|apply safe_loadc]]
          | first [prim | apply eats_times; first [prim|apply E, eats_var|apply E, eats_ent]
                  | apply eats_vslots | apply eats_kids; apply E, eats_loadc]
          | intros ?]).
  intros b Hb. destruct (validatec _ _) eqn:Ev; [discriminate|].
  intros [=]. subst. revert Ev. apply mapM_nofuel.
  apply Forall_forall. intros. apply validate1_nofuel.
Qed.

(** C19 *)
Lemma read_total_lemma b :
  (exists m rest pre, read_rest b = Ok (m, rest) /\ b = pre ++ rest) \/
  (exists e, read_rest b = Err e /\ e <> OutOfFuel).
Proof.
  unfold read_rest. destruct (p_map (S (List.length b)) b) as [[m r]|e] eqn:E.
  - left. destruct (eats_map _ _ _ _ E) as (pre & -> & _). exists m, r, pre. auto.
  - right. exists e. split; [reflexivity|]. intros ->. exact (safe_map _ b (Nat.lt_succ_diag_r _) E).
Qed.

Lemma read_trailing_lemma b m rest extra :
  read_rest b = Ok (m, rest) -> read_rest (b ++ extra) = Ok (m, rest ++ extra).
Proof.
  unfold read_rest. apply ext_map. rewrite app_length. lia.
Qed.

(** Proper prefixes of an exactly consumed file are rejected. *)
Lemma read_prefix_lemma b m p s :
  read_rest b = Ok (m, []) -> b = p ++ s -> s <> [] ->
  exists e, read_rest p = Err e /\ e <> OutOfFuel.
Proof.
  intros Hb -> Hs. destruct (read_total_lemma p) as [(m' & r & pre & Hp & _)|H]; [|exact H].
  apply (read_trailing_lemma _ _ _ s) in Hp. rewrite Hb in Hp. injection Hp as _ Hr.
  symmetry in Hr. apply app_eq_nil in Hr. destruct Hr. contradiction.
Qed.
