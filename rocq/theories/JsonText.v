(** Proofs about what the JSON text of a map says (statements in PropsJson.v). *)
From Verif Require Import Py VecModel VoxelModel VoxelProofs CodecModel CodecSpec CodecProofs CodecRead
  CodecParse CodecMap KitProofs JsonModel JsonSpec JsonProofs.
Fixpoint inb (k : string) (l : list string) : bool :=
  match l with [] => false | x :: r => if string_dec k x then true else inb k r end.
Fixpoint nodupb (l : list string) : bool := match l with [] => true | x :: r => negb (inb x r) && nodupb r end.
Lemma inb_in k l : In k l -> inb k l = true.
Proof.
  induction l as [|x l IH]; [intros []|]. intros [<- |H]; cbn [inb]; destruct (string_dec _ _); auto; congruence.
Qed.
Lemma nodupb_ok l : nodupb l = true -> NoDup l.
Proof.
  induction l as [|x l IH]; [constructor|]. cbn [nodupb]. intros H. apply andb_prop in H. destruct H as [H1 H2].
  constructor; [|auto]. intros Hin. rewrite (inb_in _ _ Hin) in H1. discriminate.
Qed.
Lemma key_at l k x i : nodupb (map fst l) = true -> nth_error l i = Some (k, x) -> key (PDict l) k x.
Proof.
  intros H1 H2. exists l. split; [reflexivity|]. split; [apply nodupb_ok; exact H1|]. eapply nth_error_In. exact H2.
Qed.
Lemma forall2_length {A B} (P : A -> B -> Prop) l r : Forall2 P l r -> List.length l = List.length r.
Proof. induction 1; cbn [List.length]; congruence. Qed.
Lemma attr_table names attrs vals (extra : list (string * pv)) :
  nodupb (names ++ map fst extra) = true ->
  Forall2 attr_text attrs vals -> List.length names = List.length attrs ->
  forall i k x, nth_error names i = Some k -> nth_error attrs i = Some x ->
    exists y, key (PDict (combine names vals ++ extra)) k y /\ attr_text x y.
Proof.
  intros Hn H2 Hl i k x E1 E2.
  assert (L : List.length attrs = List.length vals) by (eapply forall2_length; exact H2).
  assert (G : exists y, nth_error vals i = Some y /\ attr_text x y).
  { clear -H2 E2. revert i E2. induction H2 as [|a v la lv Ha _ IH]; intros i E2; [destruct i; discriminate|].
    destruct i as [|i]; cbn [nth_error] in *; [injection E2 as <-; eauto|eauto]. }
  destruct G as (y & Ey & Hy). exists y. split; [|exact Hy].
  exists (combine names vals ++ extra). split; [reflexivity|]. split.
  - rewrite map_app. replace (map fst (combine names vals)) with names; [apply nodupb_ok; exact Hn|].
    clear -Hl L. revert vals attrs Hl L. induction names as [|n names IH]; intros [|v vals] [|a attrs] Hl L; try discriminate; [reflexivity|].
    cbn [combine map fst]. f_equal. eapply (IH vals attrs); cbn in *; lia.
  - apply in_or_app. left. clear -E1 Ey. revert vals i E1 Ey.
    induction names as [|n names IH]; intros [|v vals] [|i] E1 Ey; try discriminate; cbn [combine nth_error] in *.
    + injection E1 as <-. injection Ey as <-. left. reflexivity.
    + right. eauto.
Qed.

Lemma ints_text l : Forall2 attr_text (map AInt l) (map PInt l).
Proof. induction l; constructor; auto. reflexivity. Qed.

Lemma dget_in {V} (l : list (Z * V)) k v : dget Z.eqb l k = Some v -> In (k, v) l.
Proof.
  induction l as [|[k' v'] l IH]; cbn [dget]; [discriminate|].
  destruct (Z.eqb_spec k' k) as [-> |]; [intros [= ->]; left; reflexivity|right; auto].
Qed.

Lemma ent_dict_shape e n ms vals :
  dget Z.eqb kind_names (e_type e) = Some n -> dget Z.eqb meanings (e_type e) = Some ms ->
  nodupb (ms ++ ["_order"%string]) = true -> Forall2 attr_text (e_attrs e) vals ->
  List.length ms = List.length (e_attrs e) ->
  entity_text e (PDict [("position", PSeq [PFloat (e_x e); PFloat (e_y e); PFloat (e_z e)]); ("type", PStr (codes n));
    ("attr", PDict (combine ms vals ++ [("_order", PSeq (map (fun k => PStr (codes k)) ms))]));
    ("links", PSeq (map PInt (e_links e))); ("reserved", PSeq (map PInt (e_reserved e)))]%string).
Proof.
  intros Hn Hms Hnd H2 Hl.
  split; [eapply (key_at _ _ _ 0); reflexivity|]. split; [eapply (key_at _ _ _ 3); reflexivity|].
  split; [eapply (key_at _ _ _ 4); reflexivity|].
  exists n, ms, (PDict (combine ms vals ++ [("_order"%string, PSeq (map (fun k => PStr (codes k)) ms))])).
  split; [apply dget_in; exact Hn|]. split; [apply dget_in; exact Hms|].
  split; [eapply (key_at _ _ _ 1); reflexivity|].
  split; [eapply (key_at _ _ _ 2); reflexivity|]. split; [exact Hl|]. split.
  - eapply attr_table; [exact Hnd|exact H2|exact Hl].
  - assert (L : List.length (e_attrs e) = List.length vals) by (eapply forall2_length; exact H2).
    eexists. split; [reflexivity|]. split; [|apply in_or_app; right; left; reflexivity].
    rewrite map_app. replace (map fst (combine ms vals)) with ms; [apply nodupb_ok; exact Hnd|].
    clear -Hl L. revert vals Hl L. generalize (e_attrs e) as attrs. induction ms as [|m ms IH]; intros [|a attrs] [|w vals] Hl L; try discriminate; [reflexivity|].
    cbn [combine map fst]. f_equal. eapply (IH attrs vals); cbn in *; lia.
Qed.
Lemma ok_inj {A} (a b : A) : Ok a = Ok b -> a = b.
Proof. congruence. Qed.

Lemma ent_dict_text e v : typed_entity e -> ~ player_start e -> ent_dict e = Ok v -> entity_text e v.
Proof.
  intros Ht Hp. destruct (typed_cases e Ht) as (x & y & z & l & r & El & Er & Ex & Ey & Ez & _ & _ & _ & H).
  destruct e as [x' y' z' ty at_ l' r']. cbn [e_x e_y e_z e_type e_attrs e_links e_reserved] in *. subst x' y' z' l' r'.
  unfold player_start in Hp. cbn [e_type] in Hp.
  assert (G : forall n ms vals, dget Z.eqb kind_names ty = Some n -> dget Z.eqb meanings ty = Some ms ->
    nodupb (ms ++ ["_order"%string]) = true -> Forall2 attr_text at_ vals -> List.length ms = List.length at_ ->
    ent_dict (Ent x y z ty at_ l r) =
      Ok (PDict [("position", PSeq [PFloat x; PFloat y; PFloat z]); ("type", PStr (codes n));
       ("attr", PDict (combine ms vals ++ [("_order", PSeq (map (fun k => PStr (codes k)) ms))]));
       ("links", PSeq (map PInt l)); ("reserved", PSeq (map PInt r))]%string) ->
    ent_dict (Ent x y z ty at_ l r) = Ok v -> entity_text (Ent x y z ty at_ l r) v).
  { intros n ms vals H1 H2 H3 H4 H5 E1 E2. rewrite E1 in E2. apply ok_inj in E2. subst v.
    exact (ent_dict_shape (Ent x y z ty at_ l r) n ms vals H1 H2 H3 H4 H5). }
  clear Ht.
  destruct H as [(-> & w & a & b & c & d & Hw & ->)|[(-> & _)|[(H & a & b & c & d & f & g & ->)|[(-> & a & b & c & d & f & g & h & i & ->)|(-> & a & b & c & d & f & g & h & i & j & k & l0 & m & n & ->)]]]].
  - apply weapon_cases in Hw. cbn [weapons map fst In] in Hw.
    repeat destruct Hw as [<- |Hw]; [..|destruct Hw];
    (eapply (G _ _ (_ :: map PInt [a; b; c; d])); [reflexivity|reflexivity|reflexivity| |reflexivity|reflexivity];
     constructor; [eexists; split; reflexivity|exact (ints_text [a; b; c; d])]).
  - exfalso. apply Hp. reflexivity.
  - destruct H as [-> |[-> | ->]];
    (eapply (G _ _ (map PInt [a; b; c; d; f; g])); [reflexivity|reflexivity|reflexivity|apply ints_text|reflexivity|reflexivity]).
  - eapply (G _ _ (map PInt [a; b; c; d; f; g; h; i])); [reflexivity|reflexivity|reflexivity|apply ints_text|reflexivity|reflexivity].
  - eapply (G _ _ (map PInt [a; b; c; d; f; g; h; i; j; k; l0; m; n])); [reflexivity|reflexivity|reflexivity|apply ints_text|reflexivity|reflexivity].
Qed.

Lemma mapM_forall2 {A B} (f : A -> res B) l ys : mapM f l = Ok ys -> Forall2 (fun x y => f x = Ok y) l ys.
Proof.
  revert ys. induction l as [|a l IH]; intros ys E; cbn [mapM] in E; [injection E as <-; constructor|].
  binv E. binv E. injection E as <-. constructor; auto.
Qed.

Lemma no_player m ents :
  Forall typed_entity (m_ents m) -> mapM ent_dict (m_ents m) = Ok ents -> jsonify (PSeq ents) = Ok (PSeq ents) ->
  Forall (fun e => ~ player_start e) (m_ents m).
Proof.
  intros Ht E1 E2. destruct (Exists_dec player_start (m_ents m)) as [He|Hn]; [intros e; apply Z.eq_dec| |].
  - exfalso. destruct (ents_dict _ Ht) as (vs & Ev & _ & H2). rewrite E1 in Ev. injection Ev as <-.
    specialize (H2 He). change (jsonify (PSeq ents)) with (let! r := mapM jsonify ents in Ok (PSeq r)) in E2.
    rewrite H2 in E2. discriminate.
  - rewrite Forall_forall. intros e He Hp. apply Hn. rewrite Exists_exists. eauto.
Qed.

Lemma face_dict_text f v : member_name face_names f = Ok v -> face_text f v.
Proof.
  unfold member_name, face_text. cbn [dget face_names]. unfold F_EMPTY, F_SOLID.
  destruct (Z.eqb_spec 0 f) as [<- |_]; [intros E; apply ok_inj in E; subst v; left; split; reflexivity|].
  destruct (Z.eqb_spec 2155905152 f) as [<- |_]; [intros E; apply ok_inj in E; subst v; right; split; reflexivity|discriminate].
Qed.
Lemma surf_dict_text s v : surf_dict s = Ok v -> surface_text s v.
Proof.
  destruct s as [s|]; cbn [surf_dict]; [|discriminate]. intros [= <-]. exists s. split; [reflexivity|].
  split; [apply (key_at _ _ _ 0); reflexivity|]. split; [apply (key_at _ _ _ 1); reflexivity|apply (key_at _ _ _ 2); reflexivity].
Qed.
Lemma forall2_imp {A B} (P Q : A -> B -> Prop) l r : (forall x y, P x y -> Q x y) -> Forall2 P l r -> Forall2 Q l r.
Proof. intros H. induction 1; constructor; auto. Qed.
Lemma ext_dict_text x v : ext_dict x = Ok v -> ext_text x v.
Proof.
  destruct x as [l|]; cbn [ext_dict ext_text]; [|congruence]. intros E. binv E. injection E as <-.
  exists v0. split; [apply (key_at _ _ _ 0); reflexivity|].
  apply mapM_forall2 in E0. revert E0. apply forall2_imp, surf_dict_text.
Qed.
Lemma cube_dict_text c : forall v, cube_dict c = Ok v -> cube_text c v.
Proof.
  induction c as [c IH] using cube_rect'. intros v. rewrite cube_dict_eq. intros E. binv E. binv E. binv E. injection E as <-.
  apply cube_text_c with (x := v0) (fs := v1) (ch := v2).
  - apply (key_at _ _ _ 0); reflexivity.
  - apply ext_dict_text. exact E0.
  - apply (key_at _ _ _ 1); reflexivity.
  - apply (key_at _ _ _ 2); reflexivity.
  - apply mapM_forall2 in E1. revert E1. apply forall2_imp, face_dict_text.
  - apply (key_at _ _ _ 3); reflexivity.
  - apply (key_at _ _ _ 4); reflexivity.
  - apply (key_at _ _ _ 5); reflexivity.
  - apply (key_at _ _ _ 7); reflexivity.
  - apply (key_at _ _ _ 8); reflexivity.
  - apply (key_at _ _ _ 6); reflexivity.
  - unfold kids in IH. destruct (c_children c) as [l|]; [|injection E2 as <-; constructor].
    apply mapM_forall2 in E2. induction E2 as [|k w l ws Ek _ IHl]; constructor; inversion IH; subst; auto.
Qed.

Lemma json_text_lemma m j : to_json m = Ok j -> Forall typed_entity (m_ents m) -> map_text m j.
Proof.
  intros E Ht. destruct (to_json_inv _ _ E) as (ents & world & E1 & Ew & E2 & ->).
  pose proof (no_player _ _ Ht E1 E2) as Hn.
  exists (meta_pvs m), (var_pvs m), ents, world, (map slot_dict (zrange 0 (m_vslots m))). unfold json_of.
  split; [apply (key_at _ _ _ 0); reflexivity|]. split; [apply (key_at _ _ _ 1); reflexivity|].
  split; [apply (key_at _ _ _ 2); reflexivity|]. split; [apply (key_at _ _ _ 5); reflexivity|].
  split; [apply (key_at _ _ _ 9); reflexivity|]. split; [apply (key_at _ _ _ 3); reflexivity|].
  split.
  { unfold meta_pvs. induction (m_meta m) as [|e l IH]; constructor; [|exact IH].
    eexists. split; [reflexivity|]. destruct (snd e); reflexivity. }
  split; [apply (key_at _ _ _ 4); reflexivity|]. split.
  { unfold var_pvs. induction (m_vars m) as [|e l IH]; constructor; [|exact IH].
    eexists. split; [reflexivity|]. destruct (snd e); reflexivity. }
  split; [apply (key_at _ _ _ 6); reflexivity|]. split.
  { apply mapM_forall2 in E1. clear E E2. induction E1 as [|e v l vs Ev _ IH]; constructor.
    - inversion Ht; inversion Hn; subst. apply ent_dict_text; assumption.
    - inversion Ht; inversion Hn; subst. auto. }
  split; [apply (key_at _ _ _ 7); reflexivity|]. split.
  { apply mapM_forall2 in Ew. revert Ew. apply forall2_imp. intros c v. apply cube_dict_text. }
  split; [apply (key_at _ _ _ 8); reflexivity|].
  rewrite map_length. unfold zrange. rewrite map_length, seq_length. lia.
Qed.

Lemma json_made_weapon m e z r :
  In e (m_ents m) -> e_type e = 9 -> e_attrs e = AInt z :: r -> exists err, to_json m = Err err.
Proof.
  intros Hin Ety Ea. destruct (to_json m) as [j|err] eqn:E; [|eauto]. exfalso.
  destruct (to_json_inv _ _ E) as (ents & world & E1 & _). destruct (mapM_in _ _ _ _ E1 Hin) as (v & Ev).
  unfold ent_dict in Ev. rewrite Ety, Ea in Ev. cbn in Ev. discriminate.
Qed.
