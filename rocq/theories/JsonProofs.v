(** Proofs about the JSON form of maps. *)
From Coq Require Import Ascii.
From Verif Require Import Py VecModel VoxelModel VoxelProofs CodecModel CodecSpec CodecProofs CodecRead
  CodecParse CodecMap KitProofs JsonModel JsonSpec.
Ltac Zify.zify_post_hook ::= Z.div_mod_to_equations.

(** ** Strings *)
Lemma uncodes_codes s : uncodes (codes s) = s.
Proof.
  unfold uncodes, codes. rewrite map_map.
  rewrite (map_ext _ (fun a => a)); [rewrite map_id; apply string_of_list_ascii_of_string|].
  intros a. rewrite Nat2Z.id. apply ascii_nat_embedding.
Qed.
Lemma codes_inj s t : codes s = codes t -> s = t.
Proof. intros E. rewrite <- (uncodes_codes s), E. apply uncodes_codes. Qed.
Lemma lit_inj s t : lit s = lit t -> s = t.
Proof. unfold lit. intros E. apply codes_inj. congruence. Qed.

(** ** UTF-8 *)
Ltac bt := repeat match goal with
  | |- context [between ?a ?b ?x] => unfold between
  | |- context [cont ?x] => unfold cont, between end.
Lemma utf8_step cp l : code_point cp -> utf8_ok (encoding cp ++ l) = utf8_ok l.
Proof.
  unfold code_point, encoding. intros H.
  destruct (Z.ltb_spec cp 128); [cbn [app utf8_ok]; replace (between 0 127 cp) with true by (bt; lia); reflexivity|].
  destruct (Z.ltb_spec cp 2048).
  { cbn [app utf8_ok]. replace (between 0 127 _) with false by (bt; lia).
    replace (_ && _) with true by (bt; lia). reflexivity. }
  destruct (Z.ltb_spec cp 65536).
  { cbn [app utf8_ok]. replace (between 0 127 _) with false by (bt; lia).
    replace (between 194 223 _) with false by (bt; lia). cbn [andb].
    replace (_ && _) with true by (bt; lia). reflexivity. }
  cbn [app utf8_ok]. replace (between 0 127 _) with false by (bt; lia).
  replace (between 194 223 _) with false by (bt; lia). cbn [andb].
  replace (((_ =? 224) && _ || between 225 236 _ && _ || (_ =? 237) && _ || between 238 239 _ && _) && _)
    with false by (bt; lia).
  replace (_ && _) with true by (bt; lia). reflexivity.
Qed.

Lemma utf8_text s : utf8_ok s = true <-> text s.
Proof.
  split.
  - remember (List.length s) as n eqn:En. assert (L : (List.length s <= n)%nat) by lia. clear En.
    revert s L. induction n as [|n IH]; intros s L Hu.
    { destruct s; [exists []; split; [constructor|reflexivity]|cbn in L; lia]. }
    assert (G : forall cp r, code_point cp -> s = encoding cp ++ r -> (List.length r <= n)%nat ->
                utf8_ok r = true -> text s).
    { intros cp r Hc Es Hl Hr. destruct (IH r Hl Hr) as (cps & Hcps & Er).
      exists (cp :: cps). split; [constructor; assumption|]. cbn [map List.concat]. congruence. }
    destruct s as [|a r]; [exists []; split; [constructor|reflexivity]|].
    cbn [utf8_ok] in Hu. cbn [List.length] in L.
    destruct (between 0 127 a) eqn:B1.
    { apply (G a r); [unfold code_point, between in *; lia| |lia|exact Hu].
      unfold encoding. unfold between in B1. destruct (Z.ltb_spec a 128); [reflexivity|lia]. }
    destruct r as [|b r1]; [discriminate|]. cbn [List.length] in L.
    destruct (between 194 223 a && cont b) eqn:B2.
    { set (cp := (a - 192) * 64 + (b - 128)). unfold cont, between in *.
      apply (G cp r1); [unfold code_point, cp; lia| |lia|exact Hu].
      unfold encoding. destruct (Z.ltb_spec cp 128); [unfold cp in *; lia|].
      destruct (Z.ltb_spec cp 2048); [|unfold cp in *; lia]. cbn [app]. repeat f_equal; unfold cp; lia. }
    destruct r1 as [|c r2]; [discriminate|]. cbn [List.length] in L.
    match type of Hu with (if ?x then _ else _) = _ => destruct x eqn:B3 end.
    { set (cp := (a - 224) * 4096 + (b - 128) * 64 + (c - 128)). unfold cont, between in *.
      apply (G cp r2); [unfold code_point, cp; lia| |lia|exact Hu].
      unfold encoding. destruct (Z.ltb_spec cp 128); [unfold cp in *; lia|].
      destruct (Z.ltb_spec cp 2048); [unfold cp in *; lia|].
      destruct (Z.ltb_spec cp 65536); [|unfold cp in *; lia]. cbn [app].
      assert (E1 : 224 + cp / 4096 = a) by (unfold cp; lia).
      assert (E2 : 128 + cp / 64 mod 64 = b) by (unfold cp; lia).
      assert (E3 : 128 + cp mod 64 = c) by (unfold cp; lia). congruence. }
    destruct r2 as [|d r3]; [discriminate|]. cbn [List.length] in L.
    match type of Hu with (if ?x then _ else _) = _ => destruct x eqn:B4 end; [|discriminate].
    set (cp := (a - 240) * 262144 + (b - 128) * 4096 + (c - 128) * 64 + (d - 128)). unfold cont, between in *.
    apply (G cp r3); [unfold code_point, cp; lia| |lia|exact Hu].
    unfold encoding. destruct (Z.ltb_spec cp 128); [unfold cp in *; lia|].
    destruct (Z.ltb_spec cp 2048); [unfold cp in *; lia|].
    destruct (Z.ltb_spec cp 65536); [unfold cp in *; lia|]. cbn [app].
    assert (E1 : 240 + cp / 262144 = a) by (unfold cp; lia).
    assert (E2 : 128 + cp / 4096 mod 64 = b) by (unfold cp; lia).
    assert (E3 : 128 + cp / 64 mod 64 = c) by (unfold cp; lia).
    assert (E4 : 128 + cp mod 64 = d) by (unfold cp; lia). congruence.
  - intros (cps & Hc & ->). induction Hc as [|cp cps Hcp _ IH]; [reflexivity|].
    cbn [map List.concat]. rewrite utf8_step by exact Hcp. exact IH.
Qed.

(** ** jsonify *)
Section PvInd.
  Variable P : pv -> Prop.
  Hypothesis Hnone : P PNone.
  Hypothesis Hbool : forall b, P (PBool b).
  Hypothesis Hint : forall z, P (PInt z).
  Hypothesis Hfloat : forall f, P (PFloat f).
  Hypothesis Hstr : forall s, P (PStr s).
  Hypothesis Hseq : forall l, Forall P l -> P (PSeq l).
  Hypothesis Hdict : forall l, Forall (fun e => P (snd e)) l -> P (PDict l).
  Hypothesis Hmem : forall z, P (PMember z).
  Fixpoint pv_rect' (v : pv) : P v :=
    match v with
    | PNone => Hnone | PBool b => Hbool b | PInt z => Hint z | PFloat f => Hfloat f
    | PStr s => Hstr s | PMember z => Hmem z
    | PSeq l => Hseq l ((fix go l := match l return Forall P l with
        | [] => Forall_nil _ | x :: r => Forall_cons _ (pv_rect' x) (go r) end) l)
    | PDict l => Hdict l ((fix go l := match l return Forall (fun e => P (snd e)) l with
        | [] => Forall_nil _ | x :: r => Forall_cons _ (pv_rect' (snd x)) (go r) end) l)
    end.
End PvInd.

Lemma jsonify_id v : forall v', jsonify v = Ok v' -> v' = v.
Proof.
  induction v as [| | |f| |l IH|l IH|] using pv_rect'; intros v' E; cbn [jsonify] in E; try congruence.
  - destruct f; congruence.
  - binv E. assert (G : v = l); [|congruence]. clear E. revert v E0.
    induction IH as [|x l Hx _ IHl]; intros v E; cbn [mapM] in E; [congruence|].
    binv E. binv E. assert (v0 = x) by auto. assert (v1 = l) by auto. congruence.
  - binv E. assert (G : v = l); [|congruence]. clear E. revert v E0.
    induction IH as [|[k x] l Hx _ IHl]; intros v E; cbn [mapM] in E; [congruence|].
    binv E. binv E. binv E0. cbn [fst snd] in *. assert (v2 = x) by auto. assert (v1 = l) by auto. congruence.
Qed.

(** Values without members and with finite floats only. *)
Fixpoint plain (v : pv) : bool :=
  match v with
  | PNone | PBool _ | PInt _ | PStr _ => true
  | PFloat f => match f with PF _ _ _ => true | _ => false end
  | PSeq l => forallb plain l
  | PDict l => forallb (fun e => plain (snd e)) l
  | PMember _ => false
  end.
Lemma jsonify_plain v : plain v = true -> jsonify v = Ok v.
Proof.
  induction v as [| | |f| |l IH|l IH|] using pv_rect'; intros E; cbn [jsonify plain] in *; try reflexivity; try discriminate.
  - destruct f; [reflexivity|discriminate|discriminate].
  - assert (G : mapM jsonify l = Ok l); [|rewrite G; reflexivity].
    induction IH as [|x l Hx _ IHl]; cbn [mapM]; [reflexivity|].
    cbn [forallb] in E. rewrite Bool.andb_true_iff in E. destruct E as [E1 E2].
    rewrite Hx by exact E1. cbn [bind]. rewrite IHl by exact E2. reflexivity.
  - match goal with |- bind ?m _ = _ => assert (G : m = Ok l); [|rewrite G; reflexivity] end.
    induction IH as [|[k x] l Hx _ IHl]; cbn [mapM]; [reflexivity|].
    cbn [forallb snd] in E. rewrite Bool.andb_true_iff in E. destruct E as [E1 E2]. cbn [fst snd] in *.
    rewrite Hx by exact E1. cbn [bind]. rewrite IHl by exact E2. reflexivity.
Qed.
Lemma plain_ints l : forallb plain (map PInt l) = true.
Proof. induction l; auto. Qed.

Lemma gen_ok {A} (f : A -> res pv) l r :
  mapM (fun v => let! x := v in jsonify x) (map f l) = Ok r -> mapM f l = Ok r.
Proof.
  revert r. induction l as [|x l IH]; intros r E; cbn [map mapM] in *; [exact E|].
  binv E. binv E. binv E0. apply jsonify_id in E0. rewrite E2. cbn [bind]. rewrite (IH _ E1). cbn [bind]. congruence.
Qed.
Lemma gen_ok' {A} (f : A -> res pv) l r :
  mapM f l = Ok r -> forallb plain r = true -> mapM (fun v => let! x := v in jsonify x) (map f l) = Ok r.
Proof.
  revert r. induction l as [|x l IH]; intros r E Hp; cbn [map mapM] in *; [exact E|].
  binv E. binv E. injection E as <-. cbn [forallb] in Hp. rewrite Bool.andb_true_iff in Hp. destruct Hp.
  rewrite E0. cbn [bind]. rewrite jsonify_plain by assumption. cbn [bind]. rewrite (IH _ E1) by assumption. reflexivity.
Qed.

(** ** The parts *)
Lemma decode_ok s v : decode s = Ok v -> v = PStr s /\ text s.
Proof. unfold decode. destruct (utf8_ok s) eqn:E; [|discriminate]. intros [= <-]. split; [reflexivity|apply utf8_text; exact E]. Qed.
Lemma decode_text s : text s -> decode s = Ok (PStr s).
Proof. intros H. apply utf8_text in H. unfold decode. rewrite H. reflexivity. Qed.

Definition meta_pv (v : mval) : pv := match v with MInt z => PInt z | MBytes s | MStr s => PStr s end.
Definition var_pv (v : vval) : pv := match v with VInt z => PInt z | VFloat f => PFloat f | VBytes s | VStr s => PStr s end.
Lemma meta_pair_ok e v : meta_pair e = Ok v -> v = PSeq [lit (fst e); meta_pv (snd e)].
Proof.
  unfold meta_pair. intros E. binv E. destruct (snd e); cbn [meta_pv]; [|apply decode_ok in E0; destruct E0; congruence|]; congruence.
Qed.
Lemma meta_pair_text e : meta_text e -> meta_pair e = Ok (PSeq [lit (fst e); meta_pv (snd e)]).
Proof.
  unfold meta_text, meta_pair. destruct (snd e); cbn [bind meta_pv]; try reflexivity.
  intros H. rewrite decode_text by exact H. reflexivity.
Qed.
Lemma var_pair_ok e v : var_pair e = Ok v -> v = PSeq [PStr (fst e); var_pv (snd e)].
Proof.
  unfold var_pair. intros E. binv E. binv E. apply decode_ok in E0. destruct E0 as [-> _].
  destruct (snd e); cbn [var_pv]; try congruence. apply decode_ok in E1; destruct E1; congruence.
Qed.
Lemma var_pair_text e : var_text e -> var_pair e = Ok (PSeq [PStr (fst e); var_pv (snd e)]).
Proof.
  unfold var_text, var_pair. intros [H1 H2]. rewrite decode_text by exact H1. cbn [bind].
  destruct (snd e); cbn [bind var_pv]; try reflexivity. rewrite decode_text by exact H2. reflexivity.
Qed.

Lemma mapM_fun {A B} (f : A -> res B) (h : A -> B) l r :
  (forall x v, f x = Ok v -> v = h x) -> mapM f l = Ok r -> r = map h l.
Proof.
  intros Hf. revert r. induction l as [|x l IH]; intros r E; cbn [mapM map] in *; [congruence|].
  binv E. binv E. apply Hf in E0. apply IH in E1. congruence.
Qed.
Lemma mapM_all {A B} (f : A -> res B) (h : A -> B) (Q : A -> Prop) l :
  (forall x, Q x -> f x = Ok (h x)) -> Forall Q l -> mapM f l = Ok (map h l).
Proof.
  intros Hf. induction 1 as [|x l Hx _ IH]; cbn [mapM map]; [reflexivity|].
  rewrite Hf by exact Hx. cbn [bind]. rewrite IH. reflexivity.
Qed.

(** The JSON value of a map. *)
Definition meta_pvs (m : rmap) := map (fun e : string * mval => PSeq [lit (fst e); meta_pv (snd e)]) (m_meta m).
Definition var_pvs (m : rmap) := map (fun e : list Z * vval => PSeq [PStr (fst e); var_pv (snd e)]) (m_vars m).
Definition json_of (m : rmap) (ents world : list pv) : list (string * pv) :=
  [("magic", PStr (m_magic m)); ("version", PInt (m_version m)); ("headersize", PInt (m_headersize m));
   ("meta", PSeq (meta_pvs m)); ("map_vars", PSeq (var_pvs m)); ("texmru", PSeq (map PInt (m_texmru m)));
   ("entities", PSeq ents); ("world", PSeq world); ("vslots", PSeq (map slot_dict (zrange 0 (m_vslots m))));
   ("chg", PSeq (map PInt (m_chg m)))]%string.

Lemma slots_ok l : mapM (fun i => Ok (slot_dict i)) l = Ok (map slot_dict l).
Proof. induction l as [|x l IH]; cbn [mapM map bind]; [reflexivity|]. rewrite IH. reflexivity. Qed.
Lemma plain_slots l : forallb plain (map slot_dict l) = true.
Proof. induction l; [reflexivity|]. cbn [map forallb]. rewrite IHl. reflexivity. Qed.

Lemma dump_val k v r : dump_field (k, Val v) = Ok r -> r = (k, v) /\ jsonify v = Ok v.
Proof.
  unfold dump_field. cbn [fst snd]. intros E. binv E. pose proof (jsonify_id _ _ E0). subst v0.
  split; [congruence|exact E0].
Qed.
Lemma dump_gen {A} k (f : A -> res pv) l r :
  dump_field (k, Gen (map f l)) = Ok r -> exists vs, mapM f l = Ok vs /\ r = (k, PSeq vs).
Proof.
  unfold dump_field. cbn [fst snd]. intros E. binv E. apply gen_ok in E0. exists v. split; [exact E0|congruence].
Qed.

Lemma to_json_inv m j : to_json m = Ok j ->
  exists ents world, mapM ent_dict (m_ents m) = Ok ents /\ mapM cube_dict (m_world m) = Ok world /\
    jsonify (PSeq ents) = Ok (PSeq ents) /\ j = json_of m ents world.
Proof.
  unfold to_json, to_dict. intros E. binv E. do 4 binv E0. injection E0 as <-. rename E into Hj.
  apply decode_ok in E1. destruct E1 as [-> _].
  apply (mapM_fun _ _ _ _ meta_pair_ok) in E2. apply (mapM_fun _ _ _ _ var_pair_ok) in E3.
  cbn [mapM] in Hj.
  repeat match type of Hj with
  | bind (dump_field _) _ = Ok _ => let r := fresh "r" in let D := fresh "D" in
      apply bind_ok in Hj; destruct Hj as (r & D & Hj)
  | bind (bind (dump_field _) _) _ = Ok _ => let t := fresh "t" in let D := fresh "T" in
      apply bind_ok in Hj; destruct Hj as (t & D & Hj)
  end.
  repeat match goal with H : bind _ _ = Ok _ |- _ => binv H end.
  repeat match goal with H : Ok _ = Ok _ |- _ => injection H as <- end.
  repeat match goal with
  | H : dump_field (_, Val _) = Ok _ |- _ => apply dump_val in H; destruct H as [-> ?]
  | H : dump_field (_, Gen _) = Ok _ |- _ => apply dump_gen in H; destruct H as (? & ? & ->)
  end.
  rewrite slots_ok in *.
  repeat match goal with H : Ok (map slot_dict _) = Ok _ |- _ => injection H as <- end.
  eexists _, _. split; [exact E4|]. split; [eassumption|]. split; [eassumption|].
  unfold json_of, meta_pvs, var_pvs. subst. reflexivity.
Qed.

Lemma to_json_ok m ents world :
  texts m -> mapM ent_dict (m_ents m) = Ok ents -> forallb plain ents = true ->
  mapM cube_dict (m_world m) = Ok world -> forallb plain world = true ->
  to_json m = Ok (json_of m ents world).
Proof.
  intros (H1 & H2 & H3) He Hpe Hw Hpw. unfold to_json, to_dict.
  rewrite decode_text by exact H1. cbn [bind].
  rewrite (mapM_all _ _ _ _ meta_pair_text H2). cbn [bind].
  rewrite (mapM_all _ _ _ _ var_pair_text H3). cbn [bind]. rewrite He. cbn [bind mapM].
  assert (DV : forall k v, plain v = true -> dump_field (k, Val v) = Ok (k, v)).
  { intros k v Hp. unfold dump_field. cbn [fst snd]. rewrite jsonify_plain by exact Hp. reflexivity. }
  assert (DG : forall A k (f : A -> res pv) l vs, mapM f l = Ok vs -> forallb plain vs = true ->
     dump_field (k, Gen (map f l)) = Ok (k, PSeq vs)).
  { intros A k f l vs E Hp. unfold dump_field. cbn [fst snd]. rewrite (gen_ok' _ _ _ E Hp). reflexivity. }
  rewrite !DV; cbn [plain]; auto using plain_ints.
  - rewrite (DG _ _ _ _ _ Hw Hpw). rewrite (DG _ _ _ _ _ (slots_ok _) (plain_slots _)). reflexivity.
  - apply forallb_forall. intros x Hx. apply in_map_iff in Hx. destruct Hx as ([k v] & <- & Hin).
    rewrite Forall_forall in H3. destruct (H3 _ Hin) as [_ Hv]. cbn [fst snd plain forallb] in *.
    destruct v as [|f|s|s]; try reflexivity. destruct f; [reflexivity|destruct Hv|destruct Hv].
  - apply forallb_forall. intros x Hx. apply in_map_iff in Hx. destruct Hx as ([k v] & <- & Hin).
    destruct v; reflexivity.
Qed.

(** ** Cubes *)
Lemma cube_dict_eq c : cube_dict c =
  (let! x := ext_dict (c_ext c) in
   let! fs := mapM (member_name face_names) (c_faces c) in
   let! ch := match c_children c with None => Ok [] | Some l => mapM cube_dict l end in
   Ok (PDict [("ext", x); ("edges", PSeq (map PInt (c_edges c))); ("faces", PSeq fs);
             ("texture", PSeq (map PInt (c_texture c)));
             ("material", match c_material c with None => PNone | Some m => PInt m end);
             ("octsav", PInt (c_octsav c)); ("children", PSeq ch);
             ("surfmask", PInt (c_surfmask c)); ("totalverts", PInt (c_totalverts c))]%string)).
Proof. destruct c; reflexivity. Qed.

Lemma mapM_err {A B} (f : A -> res B) l e : mapM f l = Err e -> exists x, In x l /\ f x = Err e.
Proof.
  induction l as [|x l IH]; cbn [mapM]; [discriminate|]. destruct (f x) as [y|e'] eqn:E; cbn [bind].
  - destruct (mapM f l) as [ys|e'] eqn:E2; cbn [bind]; [discriminate|]. intros [= ->].
    destruct IH as (z & Hz & Ez); [reflexivity|]. exists z. split; [right; exact Hz|exact Ez].
  - intros [= ->]. exists x. split; [left; reflexivity|exact E].
Qed.
Lemma mapM_in {A B} (f : A -> res B) l ys x : mapM f l = Ok ys -> In x l -> exists y, f x = Ok y.
Proof.
  revert ys. induction l as [|a l IH]; intros ys E Hin; [destruct Hin|]. cbn [mapM] in E. binv E. binv E.
  destruct Hin as [-> |Hin]; [eauto|]. eauto.
Qed.

Lemma member_err t z e : member_name t z = Err e -> e = AttributeError.
Proof. unfold member_name. destruct (dget _ _ _); congruence. Qed.
Lemma surf_err s e : surf_dict s = Err e -> e = AttributeError.
Proof. destruct s; cbn; congruence. Qed.
Lemma ext_err x e : ext_dict x = Err e -> e = AttributeError.
Proof.
  destruct x as [l|]; cbn [ext_dict]; [|discriminate]. destruct (mapM surf_dict l) as [v|e'] eqn:E; cbn [bind]; [discriminate|].
  intros [= <-]. apply mapM_err in E. destruct E as (s & _ & E). eapply surf_err; eassumption.
Qed.
Lemma cube_err c : forall e, cube_dict c = Err e -> e = AttributeError.
Proof.
  induction c as [c IH] using cube_rect'. intros e. rewrite cube_dict_eq.
  destruct (ext_dict (c_ext c)) as [x|e1] eqn:E1; cbn [bind]; [|intros [= <-]; eapply ext_err; eassumption].
  destruct (mapM (member_name face_names) (c_faces c)) as [fs|e2] eqn:E2; cbn [bind];
    [|intros [= <-]; apply mapM_err in E2; destruct E2 as (f & _ & E2); eapply member_err; eassumption].
  unfold kids in IH. destruct (c_children c) as [l|]; cbn [bind]; [|discriminate].
  destruct (mapM cube_dict l) as [v|e3] eqn:E3; cbn [bind]; [discriminate|]. intros [= <-].
  apply mapM_err in E3. destruct E3 as (k & Hk & E3). rewrite Forall_forall in IH. eauto.
Qed.
Lemma bare_err c : bare_cube c -> cube_dict c = Err AttributeError.
Proof.
  intros Hb. enough (G : forall v, cube_dict c <> Ok v).
  { destruct (cube_dict c) as [v|e] eqn:E; [destruct (G v eq_refl)|]. f_equal. apply (cube_err _ _ E). }
  induction Hb as [c l Hc Hin|c l k Hc Hin _ IH]; intros v E; rewrite cube_dict_eq in E; rewrite Hc in E.
  - binv E. cbn [ext_dict] in E0. binv E0. destruct (mapM_in _ _ _ _ E1 Hin) as (y & Ey). discriminate.
  - binv E. binv E. binv E. destruct (mapM_in _ _ _ _ E2 Hin) as (y & Ey). exact (IH _ Ey).
Qed.
Lemma plain_ext x v : ext_dict x = Ok v -> plain v = true.
Proof.
  destruct x as [l|]; cbn [ext_dict]; [|intros [= <-]; reflexivity]. intros E. binv E. injection E as <-.
  cbn [plain forallb snd]. rewrite Bool.andb_true_r. revert v0 E0.
  induction l as [|s l IH]; intros v E; cbn [mapM] in E; [injection E as <-; reflexivity|].
  binv E. binv E. injection E as <-. cbn [forallb]. rewrite (IH _ E1). destruct s; [|discriminate].
  cbn [surf_dict] in E0. injection E0 as <-. reflexivity.
Qed.
Lemma plain_member t z v : member_name t z = Ok v -> plain v = true.
Proof. unfold member_name. destruct (dget _ _ _); [intros [= <-]; reflexivity|discriminate]. Qed.
Lemma plain_mapM {A} (f : A -> res pv) l vs :
  (forall x v, In x l -> f x = Ok v -> plain v = true) -> mapM f l = Ok vs -> forallb plain vs = true.
Proof.
  revert vs. induction l as [|x l IH]; intros vs Hf E; cbn [mapM] in E; [injection E as <-; reflexivity|].
  binv E. binv E. injection E as <-. cbn [forallb]. rewrite (Hf x _ (or_introl eq_refl) E0).
  apply IH; [|exact E1]. intros y w Hy. apply Hf. right. exact Hy.
Qed.
Lemma plain_cube c : forall v, cube_dict c = Ok v -> plain v = true.
Proof.
  induction c as [c IH] using cube_rect'. intros v E. rewrite cube_dict_eq in E.
  binv E. binv E. binv E. injection E as <-. cbn [plain forallb snd].
  rewrite (plain_ext _ _ E0), !plain_ints. rewrite (plain_mapM _ _ _ (fun f w _ => plain_member face_names f w) E1).
  unfold kids in IH.
  assert (G : forallb plain v2 = true).
  { destruct (c_children c) as [l|]; [|injection E2 as <-; reflexivity].
    eapply plain_mapM; [|exact E2]. rewrite Forall_forall in IH. eauto. }
  rewrite G. destruct (c_material c); reflexivity.
Qed.
Lemma full_dict c : full_cube c -> exists v, cube_dict c = Ok v.
Proof.
  induction c as [c IH] using cube_rect'. intros Hf. inversion Hf as [c' H1 H2 H3]; subst.
  rewrite cube_dict_eq.
  assert (G1 : exists x, ext_dict (c_ext c) = Ok x).
  { destruct (c_ext c) as [l|]; [|eexists; reflexivity]. cbn [ext_dict]. specialize (H1 l eq_refl).
    destruct (mapM surf_dict l) as [v|e] eqn:E; [eexists; reflexivity|]. apply mapM_err in E.
    destruct E as (s & Hs & E). destruct s; [discriminate|]. contradiction. }
  destruct G1 as (x & ->). cbn [bind].
  assert (G2 : exists fs, mapM (member_name face_names) (c_faces c) = Ok fs).
  { destruct (mapM _ _) as [v|e] eqn:E; [eexists; reflexivity|]. apply mapM_err in E. destruct E as (f & Hin & E).
    rewrite Forall_forall in H2. destruct (H2 f Hin) as [-> | ->]; discriminate. }
  destruct G2 as (fs & ->). cbn [bind].
  unfold kids in IH. destruct (c_children c) as [l|]; cbn [bind]; [|eauto].
  specialize (H3 l eq_refl).
  destruct (mapM cube_dict l) as [v|e] eqn:E; cbn [bind]; [eauto|]. exfalso. apply mapM_err in E.
  destruct E as (k & Hin & E). rewrite Forall_forall in IH, H3. destruct (IH k Hin (H3 k Hin)) as (v & Ev). congruence.
Qed.
Lemma full_world l : Forall full_cube l -> exists vs, mapM cube_dict l = Ok vs /\ forallb plain vs = true.
Proof.
  intros H. destruct (mapM cube_dict l) as [v|e] eqn:E.
  - exists v. split; [reflexivity|]. eapply plain_mapM; [|exact E]. intros x w _. apply plain_cube.
  - exfalso. apply mapM_err in E. destruct E as (k & Hin & E). rewrite Forall_forall in H.
    destruct (full_dict k (H k Hin)) as (v & Ev). congruence.
Qed.

(** ** Entities *)
Lemma ent_from_err d : exists e, ent_from d = Err e.
Proof.
  unfold ent_from.
  repeat match goal with |- exists e, bind ?m _ = Err e => destruct m as [?v|?]; cbn [bind]; [|eauto] end.
  eauto.
Qed.

Lemma typed_cases e : typed_entity e ->
  exists x y z l r, e_links e = l /\ e_reserved e = r /\
  e_x e = x /\ e_y e = y /\ e_z e = z /\ finite x /\ finite y /\ finite z /\
  ((e_type e = 9 /\ exists w a b c d, is_weapon w = true /\ e_attrs e = [AWeap w; AInt a; AInt b; AInt c; AInt d]) \/
   (e_type e = 3 /\ exists w a b c d f, is_weapon w = true /\ e_attrs e = [AWeap w; AInt a; AInt b; AInt c; AInt d; AInt f]) \/
   ((e_type e = 13 \/ e_type e = 1 \/ e_type e = 14) /\
      exists a b c d f g, e_attrs e = map AInt [a; b; c; d; f; g]) \/
   (e_type e = 8 /\ exists a b c d f g h i, e_attrs e = map AInt [a; b; c; d; f; g; h; i]) \/
   (e_type e = 2 /\ exists a b c d f g h i j k l m n, e_attrs e = map AInt [a; b; c; d; f; g; h; i; j; k; l; m; n])).
Proof.
  intros (Hc & Hw & Hn & Hx & Hy & Hz). exists (e_x e), (e_y e), (e_z e), (e_links e), (e_reserved e).
  do 5 (split; [reflexivity|]). do 3 (split; [assumption|]).
  unfold attr_count in Hc. unfold weapon_typed in *.
  destruct (Z.eqb_spec (e_type e) 9) as [E9|N9].
  { left. split; [exact E9|]. destruct (Hw (or_introl E9)) as (w & r & Ea & Hwp). rewrite Ea in *.
    destruct r as [|a [|b [|c [|d [|]]]]]; try (cbn in Hc; discriminate). exists w, a, b, c, d. split; [exact Hwp|reflexivity]. }
  destruct (Z.eqb_spec (e_type e) 3) as [E3|N3].
  { right. left. split; [exact E3|]. destruct (Hw (or_intror E3)) as (w & r & Ea & Hwp). rewrite Ea in *.
    destruct r as [|a [|b [|c [|d [|f [|]]]]]]; try (cbn in Hc; discriminate).
    exists w, a, b, c, d, f. split; [exact Hwp|reflexivity]. }
  destruct Hn as (r & Ea); [tauto|]. rewrite Ea in *. rewrite map_length in Hc. right. right.
  destruct (Z.eqb_spec (e_type e) 2) as [E2|N2].
  { right. right. split; [exact E2|].
    do 13 (destruct r as [|?a r]; [cbn in Hc; discriminate|]). destruct r; [|cbn in Hc; discriminate].
    do 13 eexists. reflexivity. }
  destruct (Z.eqb_spec (e_type e) 8) as [E8|N8].
  { right. left. split; [exact E8|].
    do 8 (destruct r as [|?a r]; [cbn in Hc; discriminate|]). destruct r; [|cbn in Hc; discriminate].
    do 8 eexists. reflexivity. }
  left.
  assert (G : (e_type e = 13 \/ e_type e = 1 \/ e_type e = 14) /\ List.length r = 6%nat).
  { destruct (Z.eqb_spec (e_type e) 13); [split; [tauto|congruence]|].
    destruct (Z.eqb_spec (e_type e) 1); [split; [tauto|congruence]|].
    destruct (Z.eqb_spec (e_type e) 14); [split; [tauto|congruence]|]. discriminate. }
  destruct G as [G L]. split; [exact G|].
  do 6 (destruct r as [|?a r]; [cbn in L; discriminate|]). destruct r; [|cbn in L; discriminate].
  do 6 eexists. reflexivity.
Qed.

Lemma weapon_cases w : is_weapon w = true -> In w (map fst weapons).
Proof. unfold is_weapon. cbn [weapons map fst In]. lia. Qed.

Lemma ent_dict_ok e : typed_entity e -> ~ player_start e ->
  exists v, ent_dict e = Ok v /\ plain v = true /\ ent_from v = Err TypeError.
Proof.
  intros Ht Hp. destruct (typed_cases e Ht) as (x & y & z & l & r & El & Er & Ex & Ey & Ez & Fx & Fy & Fz & H).
  destruct e as [x' y' z' ty at_ l' r']. cbn [e_x e_y e_z e_type e_attrs e_links e_reserved] in *. subst x' y' z' l' r'.
  unfold player_start in Hp. cbn [e_type] in Hp.
  destruct x; [|destruct Fx|destruct Fx]. destruct y; [|destruct Fy|destruct Fy]. destruct z; [|destruct Fz|destruct Fz].
  assert (G : forall d ty', forallb (fun e => plain (snd e)) d = true -> plain ty' = true ->
     plain (PDict [("position", PSeq [PFloat (PF neg man exp); PFloat (PF neg0 man0 exp0); PFloat (PF neg1 man1 exp1)]);
             ("type", ty'); ("attr", PDict d); ("links", PSeq (map PInt l));
             ("reserved", PSeq (map PInt r))]%string) = true).
  { intros d ty' Hd Hty. cbn [plain forallb snd]. rewrite Hd, Hty, !plain_ints. reflexivity. }
  destruct H as [(-> & w & a & b & c & d & Hw & ->)|[(-> & _)|[(H & a & b & c & d & f & g & ->)|[(-> & a & b & c & d & f & g & h & i & ->)|(-> & a & b & c & d & f & g & h & i & j & k & l0 & m & n & ->)]]]].
  - apply weapon_cases in Hw. cbn [weapons map fst In] in Hw.
    repeat destruct Hw as [<- |Hw]; [..|destruct Hw];
      (eexists; split; [vm_compute; reflexivity|]; split; [apply G; vm_compute; reflexivity|vm_compute; reflexivity]).
  - exfalso. apply Hp. reflexivity.
  - destruct H as [-> |[-> | ->]];
      (eexists; split; [vm_compute; reflexivity|]; split; [apply G; vm_compute; reflexivity|vm_compute; reflexivity]).
  - eexists; split; [vm_compute; reflexivity|]; split; [apply G; vm_compute; reflexivity|vm_compute; reflexivity].
  - eexists; split; [vm_compute; reflexivity|]; split; [apply G; vm_compute; reflexivity|vm_compute; reflexivity].
Qed.

Lemma ent_dict_player e : typed_entity e -> player_start e ->
  exists v, ent_dict e = Ok v /\ jsonify v = Err TypeError.
Proof.
  intros Ht Hp. destruct (typed_cases e Ht) as (x & y & z & l & r & El & Er & Ex & Ey & Ez & Fx & Fy & Fz & H).
  destruct e as [x' y' z' ty at_ l' r']. cbn [e_x e_y e_z e_type e_attrs e_links e_reserved] in *. subst x' y' z' l' r'.
  unfold player_start in Hp. cbn [e_type] in Hp. subst ty.
  destruct x; [|destruct Fx|destruct Fx]. destruct y; [|destruct Fy|destruct Fy]. destruct z; [|destruct Fz|destruct Fz].
  destruct H as [(H & _)|[(_ & w & a & b & c & d & f & Hw & ->)|[(H & _)|[(H & _)|(H & _)]]]];
    try discriminate; [|destruct H as [H|[H|H]]; discriminate].
  eexists. split; [vm_compute; reflexivity|]. reflexivity.
Qed.

(** ** Back *)
Lemma strdset_new {V} (d : list (string * V)) k v :
  ~ In k (map fst d) -> dset String.eqb d k v = d ++ [(k, v)].
Proof.
  induction d as [|[k' v'] d IH]; intros Hn; [reflexivity|]. cbn [dset map fst app] in *.
  destruct (String.eqb_spec k' k) as [->|N].
  - exfalso. apply Hn. left. reflexivity.
  - rewrite IH; [reflexivity|]. intros Hin. apply Hn. right. exact Hin.
Qed.

Definition meta_back (v : mval) : mval := match v with MBytes s => MStr s | _ => v end.
Definition var_back (v : vval) : vval := match v with VStr s => VBytes s | _ => v end.
Lemma meta_from_ok l : NoDup (map fst l) ->
  meta_from (map (fun e : string * mval => PSeq [lit (fst e); meta_pv (snd e)]) l)
  = Ok (map (fun e => (fst e, meta_back (snd e))) l).
Proof.
  unfold meta_from. intros Hnd.
  enough (G : forall d, NoDup (map fst (d ++ l)) ->
    foldM (fun d e => let! p := pair_of e in let! k := encode (fst p) in
      match snd p with
      | PInt z => Ok (dset String.eqb d (uncodes k) (MInt z))
      | PStr s => Ok (dset String.eqb d (uncodes k) (MStr s))
      | _ => Err OutOfModel end)
      (map (fun e : string * mval => PSeq [lit (fst e); meta_pv (snd e)]) l) d
    = Ok (d ++ map (fun e => (fst e, meta_back (snd e))) l)) by (apply (G []); exact Hnd).
  clear Hnd. induction l as [|[k v] l IH]; intros d Hd; [cbn; rewrite app_nil_r; reflexivity|].
  cbn [map foldM fst snd pair_of bind encode lit]. rewrite uncodes_codes.
  assert (Hk : ~ In k (map fst d)).
  { rewrite map_app in Hd. cbn [map fst] in Hd. apply NoDup_remove_2 in Hd. intros Hin. apply Hd, in_app_iff. left. exact Hin. }
  assert (Hd' : forall v', NoDup (map fst ((d ++ [(k, v')]) ++ l))).
  { intros v'. rewrite <- app_assoc. rewrite !map_app in *. cbn [app map fst] in *. exact Hd. }
  destruct v; cbn [meta_pv meta_back bind]; rewrite strdset_new by exact Hk; rewrite IH by apply Hd';
    rewrite <- app_assoc; reflexivity.
Qed.
Lemma vars_from_ok l : NoDup (map fst l) ->
  vars_from (map (fun e : list Z * vval => PSeq [PStr (fst e); var_pv (snd e)]) l)
  = Ok (map (fun e => (fst e, var_back (snd e))) l).
Proof.
  unfold vars_from. intros Hnd.
  enough (G : forall d, NoDup (map fst (d ++ l)) ->
    foldM (fun d e => let! p := pair_of e in let! k := encode (fst p) in
      match snd p with
      | PStr s => Ok (dset bytes_eqb d k (VBytes s))
      | PInt z => Ok (dset bytes_eqb d k (VInt z))
      | PFloat f => Ok (dset bytes_eqb d k (VFloat f))
      | _ => Err OutOfModel end)
      (map (fun e : list Z * vval => PSeq [PStr (fst e); var_pv (snd e)]) l) d
    = Ok (d ++ map (fun e => (fst e, var_back (snd e))) l)) by (apply (G []); exact Hnd).
  clear Hnd. induction l as [|[k v] l IH]; intros d Hd; [cbn; rewrite app_nil_r; reflexivity|].
  cbn [map foldM fst snd pair_of bind encode].
  assert (Hk : ~ In k (map fst d)).
  { rewrite map_app in Hd. cbn [map fst] in Hd. apply NoDup_remove_2 in Hd. intros Hin. apply Hd, in_app_iff. left. exact Hin. }
  assert (Hd' : forall v', NoDup (map fst ((d ++ [(k, v')]) ++ l))).
  { intros v'. rewrite <- app_assoc. rewrite !map_app in *. cbn [app map fst] in *. exact Hd. }
  destruct v; cbn [var_pv var_back bind]; rewrite dset_new by exact Hk; rewrite IH by apply Hd';
    rewrite <- app_assoc; reflexivity.
Qed.

Lemma ints_back l : mapM int_of (map PInt l) = Ok l.
Proof. induction l as [|x l IH]; [reflexivity|]. cbn [map mapM int_of bind]. rewrite IH. reflexivity. Qed.
Lemma slot_from_ok i : slot_from (slot_dict i) = Ok tt.
Proof. vm_compute. reflexivity. Qed.
Lemma slots_back l : mapM slot_from (map slot_dict l) = Ok (map (fun _ => tt) l).
Proof. induction l as [|x l IH]; [reflexivity|]. cbn [map mapM]. rewrite slot_from_ok. cbn [bind]. rewrite IH. reflexivity. Qed.

Definition back (m : rmap) : rmap :=
  Map (m_magic m) (m_version m) (m_headersize m)
      (map (fun e => (fst e, meta_back (snd e))) (m_meta m))
      (map (fun e => (fst e, var_back (snd e))) (m_vars m))
      (m_texmru m) [] (Z.of_nat (List.length (zrange 0 (m_vslots m)))) (m_chg m) [].

Lemma from_dict_eq m ents world :
  NoDup (map fst (m_meta m)) -> NoDup (map fst (m_vars m)) ->
  from_dict (json_of m ents world) =
  let! es := mapM ent_from ents in
  Ok (Map (m_magic m) (m_version m) (m_headersize m)
      (map (fun e => (fst e, meta_back (snd e))) (m_meta m))
      (map (fun e => (fst e, var_back (snd e))) (m_vars m))
      (m_texmru m) es (Z.of_nat (List.length (zrange 0 (m_vslots m)))) (m_chg m) []).
Proof.
  intros H1 H2. unfold from_dict, json_of, meta_pvs, var_pvs. cbn [item dget String.eqb Ascii.eqb Bool.eqb bind seq_of encode int_of].
  rewrite meta_from_ok by exact H1. cbn [bind]. rewrite vars_from_ok by exact H2. cbn [bind].
  rewrite !ints_back. cbn [bind]. destruct (mapM ent_from ents); cbn [bind]; [|reflexivity].
  rewrite slots_back. cbn [bind]. rewrite map_length. reflexivity.
Qed.

Lemma zrange_len z : 0 <= z -> Z.of_nat (List.length (zrange 0 z)) = z.
Proof. intros H. unfold zrange. rewrite map_length, seq_length. lia. Qed.

Lemma back_same m : 0 <= m_vslots m -> same_head m (back m).
Proof.
  intros Hv. unfold same_head, back. cbn [m_magic m_version m_headersize m_meta m_vars m_texmru m_vslots m_chg].
  do 3 (split; [reflexivity|]). split.
  { induction (m_meta m) as [|[k v] l IH]; constructor; [|exact IH]. split; [reflexivity|]. destruct v; reflexivity. }
  split.
  { induction (m_vars m) as [|[k v] l IH]; constructor; [|exact IH]. split; [reflexivity|]. destruct v; reflexivity. }
  split; [reflexivity|]. split; [apply zrange_len; exact Hv|reflexivity].
Qed.

(** ** C49 *)
Lemma json_roundtrip_lemma m :
  texts m -> Forall full_cube (m_world m) -> m_ents m = [] -> 0 <= m_vslots m ->
  NoDup (map fst (m_meta m)) -> NoDup (map fst (m_vars m)) ->
  exists j m', to_json m = Ok j /\ from_dict j = Ok m' /\ same_head m m' /\ m_ents m' = [] /\ m_world m' = [].
Proof.
  intros Ht Hw He Hv N1 N2. destruct (full_world _ Hw) as (vs & Evs & Pvs).
  exists (json_of m [] vs), (back m). split; [apply to_json_ok; auto; rewrite He; reflexivity|].
  split; [rewrite from_dict_eq by assumption; reflexivity|]. split; [apply back_same; exact Hv|].
  split; reflexivity.
Qed.

Lemma json_entities_lemma m j : m_ents m <> [] -> to_json m = Ok j -> exists e, from_dict j = Err e.
Proof.
  intros Hne Hj. apply to_json_inv in Hj. destruct Hj as (ents & world & He & _ & _ & ->).
  assert (Hents : exists e r, ents = e :: r).
  { destruct (m_ents m) as [|a l]; [congruence|]. cbn [mapM] in He. binv He. binv He. injection He as <-. eauto. }
  destruct Hents as (d & r & ->).
  destruct (from_dict _) as [m'|e] eqn:E; [|eauto]. exfalso.
  unfold from_dict, json_of in E. cbn [item dget String.eqb Ascii.eqb Bool.eqb bind seq_of encode int_of] in E.
  binv E. binv E. rewrite ints_back in E. cbn [bind] in E. binv E.
  cbn [mapM] in E2. binv E2. destruct (ent_from_err d) as (e & Ee). congruence.
Qed.

Lemma mapM_first {A B} (f : A -> res B) l e :
  (forall x, In x l -> (exists y, f x = Ok y) \/ f x = Err e) -> (exists x, In x l /\ f x = Err e) -> mapM f l = Err e.
Proof.
  induction l as [|x l IH]; intros Ha (y & Hy & Ey); [destruct Hy|]. cbn [mapM].
  destruct (Ha x (or_introl eq_refl)) as [(v & Ev)|Ev]; rewrite Ev; cbn [bind]; [|reflexivity].
  rewrite IH; [reflexivity| |].
  - intros z Hz. apply Ha. right. exact Hz.
  - destruct Hy as [-> |Hy]; [congruence|]. eauto.
Qed.

Lemma ents_dict l : Forall typed_entity l -> exists vs, mapM ent_dict l = Ok vs /\
  (Forall (fun e => ~ player_start e) l -> forallb plain vs = true /\ (l <> [] -> mapM ent_from vs = Err TypeError)) /\
  (Exists player_start l -> mapM jsonify vs = Err TypeError).
Proof.
  induction 1 as [|e l Ht _ (vs & Evs & H1 & H2)].
  { exists []. split; [reflexivity|]. split; [intros _; split; [reflexivity|congruence]|]. intros H. inversion H. }
  destruct (Z.eqb_spec (e_type e) 3) as [Ep|Np].
  - destruct (ent_dict_player e Ht Ep) as (v & Ev & Ej). exists (v :: vs). cbn [mapM]. rewrite Ev. cbn [bind].
    rewrite Evs. split; [reflexivity|]. split; [intros H; inversion H; contradiction|]. intros _. rewrite Ej. reflexivity.
  - destruct (ent_dict_ok e Ht Np) as (v & Ev & Pv & Ef). exists (v :: vs). cbn [mapM]. rewrite Ev. cbn [bind].
    rewrite Evs. split; [reflexivity|]. split.
    + intros H. inversion H; subst. destruct (H1 H5) as [P1 _]. split; [cbn [forallb]; rewrite Pv; exact P1|].
      intros _. rewrite Ef. reflexivity.
    + intros H. inversion H; subst; [contradiction|]. rewrite (jsonify_plain _ Pv). cbn [bind]. rewrite H2 by assumption. reflexivity.
Qed.

Lemma json_typeerror_lemma m :
  texts m -> Forall full_cube (m_world m) -> Forall typed_entity (m_ents m) ->
  Forall (fun e => ~ player_start e) (m_ents m) -> m_ents m <> [] ->
  NoDup (map fst (m_meta m)) -> NoDup (map fst (m_vars m)) ->
  exists j, to_json m = Ok j /\ from_dict j = Err TypeError.
Proof.
  intros Ht Hw He Hp Hne N1 N2. destruct (full_world _ Hw) as (ws & Ews & Pws).
  destruct (ents_dict _ He) as (vs & Evs & H1 & _). destruct (H1 Hp) as [Pvs Hf].
  exists (json_of m vs ws). split; [apply to_json_ok; auto|]. rewrite from_dict_eq by assumption.
  rewrite Hf by exact Hne. reflexivity.
Qed.

Lemma to_dict_ok m ents : texts m -> mapM ent_dict (m_ents m) = Ok ents ->
  to_json m =
  let! es := jsonify (PSeq ents) in
  let! w := mapM (fun v => let! x := v in jsonify x) (map cube_dict (m_world m)) in
  Ok ([("magic", PStr (m_magic m)); ("version", PInt (m_version m)); ("headersize", PInt (m_headersize m));
   ("meta", PSeq (meta_pvs m)); ("map_vars", PSeq (var_pvs m)); ("texmru", PSeq (map PInt (m_texmru m)))]%string
   ++ [("entities", es); ("world", PSeq w); ("vslots", PSeq (map slot_dict (zrange 0 (m_vslots m))));
   ("chg", PSeq (map PInt (m_chg m)))]%string).
Proof.
  intros (H1 & H2 & H3) He. unfold to_json, to_dict.
  rewrite decode_text by exact H1. cbn [bind].
  rewrite (mapM_all _ _ _ _ meta_pair_text H2). cbn [bind].
  rewrite (mapM_all _ _ _ _ var_pair_text H3). cbn [bind]. rewrite He. cbn [bind mapM].
  assert (DV : forall k v, plain v = true -> dump_field (k, Val v) = Ok (k, v)).
  { intros k v Hp. unfold dump_field. cbn [fst snd]. rewrite jsonify_plain by exact Hp. reflexivity. }
  rewrite (DV "magic"%string), (DV "version"%string), (DV "headersize"%string), (DV "meta"%string),
    (DV "map_vars"%string), (DV "texmru"%string), (DV "chg"%string); cbn [plain]; auto using plain_ints.
  - cbn [bind]. unfold dump_field at 1. cbn [fst snd]. destruct (jsonify (PSeq ents)); cbn [bind]; [|reflexivity].
    unfold dump_field at 1. cbn [fst snd]. destruct (mapM _ (map cube_dict (m_world m))); cbn [bind]; [|reflexivity].
    unfold dump_field at 1. cbn [fst snd]. rewrite (gen_ok' _ _ _ (slots_ok _) (plain_slots _)). reflexivity.
  - apply forallb_forall. intros x Hx. apply in_map_iff in Hx. destruct Hx as ([k v] & <- & Hin).
    rewrite Forall_forall in H3. destruct (H3 _ Hin) as [_ Hv]. cbn [fst snd plain forallb] in *.
    destruct v as [|f|s|s]; try reflexivity. destruct f; [reflexivity|destruct Hv|destruct Hv].
  - apply forallb_forall. intros x Hx. apply in_map_iff in Hx. destruct Hx as ([k v] & <- & Hin).
    destruct v; reflexivity.
Qed.

Lemma json_player_lemma m :
  texts m -> Forall typed_entity (m_ents m) -> Exists player_start (m_ents m) -> to_json m = Err TypeError.
Proof.
  intros Ht He Hp. destruct (ents_dict _ He) as (vs & Evs & _ & H2).
  rewrite (to_dict_ok _ _ Ht Evs). cbn [jsonify]. rewrite H2 by exact Hp. reflexivity.
Qed.

Lemma json_bare_lemma m :
  texts m -> Forall typed_entity (m_ents m) -> Forall (fun e => ~ player_start e) (m_ents m) ->
  Exists bare_cube (m_world m) -> to_json m = Err AttributeError.
Proof.
  intros Ht He Hp Hb. destruct (ents_dict _ He) as (vs & Evs & H1 & _). destruct (H1 Hp) as [Pvs _].
  rewrite (to_dict_ok _ _ Ht Evs). rewrite jsonify_plain by exact Pvs. cbn [bind].
  rewrite (mapM_first _ _ AttributeError); [reflexivity| |].
  - intros x Hx. apply in_map_iff in Hx. destruct Hx as (c & <- & _).
    destruct (cube_dict c) as [v|e] eqn:E; cbn [bind]; [|right; rewrite (cube_err _ _ E); reflexivity].
    left. exists v. apply jsonify_plain. eapply plain_cube; eassumption.
  - apply Exists_exists in Hb. destruct Hb as (c & Hin & Hb). exists (cube_dict c). split; [apply in_map; exact Hin|].
    rewrite (bare_err _ Hb). reflexivity.
Qed.

(** The file written from the text. *)
Lemma w_meta_back e : w_meta (fst e, meta_back (snd e)) = w_meta e.
Proof. destruct e as [k v]. cbn [fst snd]. unfold w_meta. destruct (_ || _); destruct v; reflexivity. Qed.
Lemma dset_back l k z :
  dset String.eqb (map (fun e => (fst e, meta_back (snd e))) l) k (MInt z)
  = map (fun e => (fst e, meta_back (snd e))) (dset String.eqb l k (MInt z)).
Proof.
  induction l as [|[k' v] l IH]; [reflexivity|]. cbn [map fst snd dset]. destruct (String.eqb k' k); [reflexivity|].
  cbn [map fst snd]. rewrite IH. reflexivity.
Qed.
Lemma wcat_map_ext {A B} (f : A -> res (list Z)) (g : B -> res (list Z)) (h : A -> B) l :
  (forall x, In x l -> g (h x) = f x) -> wcat g (map h l) = wcat f l.
Proof.
  intros E. unfold wcat. assert (G : mapM g (map h l) = mapM f l); [|rewrite G; reflexivity].
  induction l as [|x l IH]; [reflexivity|]. cbn [map mapM]. rewrite E by (left; reflexivity).
  rewrite IH; [reflexivity|]. intros y Hy. apply E. right. exact Hy.
Qed.

Lemma json_file_lemma m j :
  wf_map m -> to_json m = Ok j -> m_ents m = [] ->
  exists bs w e, write_map m = Ok (bs ++ w) /\ w <> [] /\ from_json_main j = Ok bs /\ read_map bs = Err e.
Proof.
  intros Hwf Hj He. destruct (wf_write m Hwf) as (all & Hw). pose proof Hwf as Hwf0.
  destruct Hwf as (_ & _ & _ & (h & Hh & Hmeta & _) & _ & _ & Hnd & Hv & _ & _ & _ & Hvs & H8).
  apply to_json_inv in Hj. destruct Hj as (ents & world & Hents & _ & _ & ->).
  rewrite He in Hents. cbn [mapM] in Hents. injection Hents as <-.
  assert (N1 : NoDup (map fst (m_meta m))).
  { rewrite Hmeta. cbn [map fst header_meta]. repeat (constructor; [cbn [In]; intros HH; repeat destruct HH as [HH|HH]; try discriminate HH; exact HH|]). constructor. }
  pose proof Hw as Hw0. unfold write_map in Hw. cbv zeta in Hw. unfold set_numents in Hw.
  cbn [m_magic m_version m_headersize m_meta m_vars m_texmru m_ents m_vslots m_chg m_world] in Hw.
  binv Hw. binv Hw. binv Hw. binv Hw. binv Hw. binv Hw. binv Hw. binv Hw. binv Hw. injection Hw as Hw.
  rewrite He in *. cbn [List.length] in *.
  set (bs := w_str (m_magic m) false ++ v ++ v0 ++ v1 ++ v2 ++ v3 ++ v4 ++ v5 ++ v6).
  assert (Hall : all = bs ++ v7) by (unfold bs; rewrite <- Hw, <- !app_assoc; reflexivity).
  assert (Hv7 : v7 <> []).
  { destruct (m_world m) as [|c l]; [discriminate|]. unfold savechildren in E7. apply wcat_cons in E7.
    destruct E7 as (b1 & b2 & S1 & _ & ->). pose proof (savec_nonempty _ _ S1). destruct b1; [cbn in *; lia|discriminate]. }
  destruct (truncated_lemma m all bs v7 Hwf0 Hw0 Hall Hv7) as (e & Hr).
  exists bs, v7, e. split; [rewrite <- Hall; exact Hw0|]. split; [exact Hv7|]. split; [|exact Hr].
  unfold from_json_main. rewrite from_dict_eq by assumption. cbn [mapM bind].
  unfold write_map. cbv zeta. unfold set_numents.
  cbn [m_magic m_version m_headersize m_meta m_vars m_texmru m_ents m_vslots m_chg m_world List.length].
  rewrite E, E0. cbn [bind]. rewrite dset_back.
  rewrite (wcat_map_ext w_meta w_meta _ _ (fun x _ => w_meta_back x)), E1. cbn [bind].
  rewrite (wcat_map_ext w_var w_var).
  - rewrite E2. cbn [bind]. rewrite E3. cbn [bind]. rewrite E4. cbn [bind]. rewrite E5. cbn [bind]. rewrite E6. cbn [bind].
    change (savechildren []) with (Ok (@nil Z)). cbn [bind]. rewrite app_nil_r. reflexivity.
  - intros [k x] Hin. rewrite Forall_forall in Hv. specialize (Hv _ Hin). destruct Hv as (_ & _ & Hx).
    cbn [fst snd] in *. destruct x; [reflexivity..|destruct Hx].
Qed.

(** ** The text determines the map *)
Lemma mapM_inj {A} (f : A -> res pv) (R : A -> A -> Prop) l1 : forall l2 r,
  (forall x y v, In x l1 -> In y l2 -> f x = Ok v -> f y = Ok v -> R x y) ->
  mapM f l1 = Ok r -> mapM f l2 = Ok r -> Forall2 R l1 l2.
Proof.
  induction l1 as [|x l1 IH]; intros l2 r Hf E1 E2; cbn [mapM] in E1.
  - injection E1 as <-. destruct l2; [constructor|]. cbn [mapM] in E2. binv E2. binv E2. discriminate.
  - binv E1. binv E1. injection E1 as <-. destruct l2 as [|y l2]; [discriminate|].
    cbn [mapM] in E2. binv E2. binv E2. injection E2 as -> ->. constructor.
    + eapply Hf; eauto; left; reflexivity.
    + eapply IH; eauto. intros a b w Ha Hb. apply Hf; right; assumption.
Qed.
Lemma Forall2_eq {A} (l1 l2 : list A) : Forall2 eq l1 l2 -> l1 = l2.
Proof. induction 1; congruence. Qed.
Lemma pints_inj a b : map PInt a = map PInt b -> a = b.
Proof.
  revert b. induction a as [|x a IH]; intros [|y b] E; cbn [map] in E; try congruence.
  injection E as -> E. f_equal. auto.
Qed.
Lemma dget_name_inj (t : list (Z * string)) a b s :
  NoDup (map snd t) -> dget Z.eqb t a = Some s -> dget Z.eqb t b = Some s -> a = b.
Proof.
  induction t as [|[k n] t IH]; intros Hn Ha Hb; [discriminate|]. cbn [dget map snd] in *. inversion Hn as [|? ? N1 N2]; subst.
  assert (G : forall c, dget Z.eqb t c = Some s -> In s (map snd t)).
  { clear. intros c. induction t as [|[k n] t IH]; [discriminate|]. cbn [dget map snd]. destruct (k =? c); [intros [= ->]; left; reflexivity|]. right. auto. }
  destruct (Z.eqb_spec k a); destruct (Z.eqb_spec k b); subst; try reflexivity.
  - injection Ha as ->. exfalso. apply N1. eapply G; eassumption.
  - injection Hb as ->. exfalso. apply N1. eapply G; eassumption.
  - auto.
Qed.
Lemma member_inj t a b v : NoDup (map snd t) -> member_name t a = Ok v -> member_name t b = Ok v -> a = b.
Proof.
  intros Hn. unfold member_name. destruct (dget Z.eqb t a) as [s|] eqn:Ea; [|discriminate].
  destruct (dget Z.eqb t b) as [s'|] eqn:Eb; [|discriminate]. intros E1 E2.
  assert (lit s = lit s') by congruence. apply lit_inj in H. subst s'. eapply dget_name_inj; eassumption.
Qed.
Ltac nodup_strings := cbn [map fst snd]; repeat (constructor; [cbn [In]; intros HH; repeat destruct HH as [HH|HH]; try discriminate HH; exact HH|]); constructor.
Lemma faces_nodup : NoDup (map snd face_names). Proof. unfold face_names. nodup_strings. Qed.
Lemma types_nodup : NoDup (map snd ent_types). Proof. unfold ent_types. nodup_strings. Qed.

Lemma surf_inj a b v : surf_dict a = Ok v -> surf_dict b = Ok v -> a = b.
Proof.
  destruct a as [[a1 a2 a3 a4]|], b as [[b1 b2 b3 b4]|]; cbn [surf_dict s_lmid0 s_lmid1 s_verts s_numverts]; intros E1 E2; congruence.
Qed.
Lemma ext_inj a b v : ext_dict a = Ok v -> ext_dict b = Ok v -> a = b.
Proof.
  destruct a as [a|], b as [b|]; cbn [ext_dict]; intros E1 E2; [|binv E1; congruence|binv E2; congruence|reflexivity].
  binv E1. binv E2. assert (v1 = v0) by congruence. subst v1. f_equal. apply Forall2_eq.
  eapply mapM_inj; [|eassumption|eassumption]. intros x y w _ _. apply surf_inj.
Qed.
Lemma cube_inj c1 : forall c2 v, cube_dict c1 = Ok v -> cube_dict c2 = Ok v -> same_but_merged c1 c2.
Proof.
  induction c1 as [c1 IH] using cube_rect'. intros c2 v E1 E2. rewrite cube_dict_eq in E1, E2.
  binv E1. binv E1. binv E1. binv E2. binv E2. binv E2. rewrite <- E1 in E2. injection E2 as Q1 Q2 Q3 Q4 Q5 Q6 Q7 Q8 Q9.
  rewrite Q1 in E4. rewrite Q3 in E5. rewrite Q7 in E6.
  constructor; auto using pints_inj.
  - eapply ext_inj; eassumption.
  - apply Forall2_eq. eapply (mapM_inj _ eq); [|exact E5|exact E0].
    intros x y w _ _ Hx Hy. eapply member_inj; [apply faces_nodup|eassumption|eassumption].
  - destruct (c_material c1), (c_material c2); congruence.
  - unfold kids in IH.
    assert (M1 : mapM cube_dict (match c_children c1 with Some l => l | None => [] end) = Ok v2) by (destruct (c_children c1); assumption).
    assert (M2 : mapM cube_dict (match c_children c2 with Some l => l | None => [] end) = Ok v2) by (destruct (c_children c2); assumption).
    eapply mapM_inj; [|exact M1|exact M2]. intros x y w Hx Hy Ex Ey. rewrite Forall_forall in IH. eapply IH; eauto.
Qed.

Lemma map_F2 {A B} (h : A -> B) (R : A -> A -> Prop) l1 : forall l2,
  (forall x y, h x = h y -> R x y) -> map h l1 = map h l2 -> Forall2 R l1 l2.
Proof.
  induction l1 as [|x l1 IH]; intros [|y l2] Hh E; cbn [map] in E; try discriminate; constructor.
  - apply Hh. congruence.
  - apply IH; [exact Hh|congruence].
Qed.

Lemma ent_type_inj a b v : ent_dict a = Ok v -> ent_dict b = Ok v ->
  e_type a = e_type b /\ e_x a = e_x b /\ e_y a = e_y b /\ e_z a = e_z b /\ e_links a = e_links b /\
  e_reserved a = e_reserved b.
Proof.
  unfold ent_dict. intros E1 E2. binv E1. binv E1. binv E2. binv E2. rewrite <- E1 in E2. injection E2 as Q1 Q2 Q3 Q4 Q5 Q6 Q7.
  rewrite Q4 in E3. split; [eapply member_inj; [apply types_nodup|eassumption|eassumption]|].
  repeat split; try congruence; symmetry; apply pints_inj; assumption.
Qed.

Definition attr_values (v : res pv) : list pv := match v with Ok (PDict (_ :: _ :: (_, PDict d) :: _)) => map snd d | _ => [] end.
Lemma weapons_nodup : NoDup (map snd weapons). Proof. unfold weapons. nodup_strings. Qed.
Lemma weapon_dict x y z w a b c d l r v : ent_dict (Ent x y z 9 [AWeap w; AInt a; AInt b; AInt c; AInt d] l r) = Ok v ->
  exists n, member_name weapons w = Ok n /\ attr_values (Ok v) = [n; PInt a; PInt b; PInt c; PInt d; PSeq (map lit (annotations 9))].
Proof.
  intros E. unfold ent_dict in E. cbn [e_type e_attrs] in E. change (9 =? 9) with true in E. cbv iota in E.
  assert (forall X, (let! d := (let! n := member_name weapons w in Ok (("type"%string, n) :: X)) in
    Ok (PDict [("position", PSeq [PFloat x; PFloat y; PFloat z]); ("type", lit "ET_WEAPON"); ("attr", PDict (dset String.eqb d "_order" (PSeq (map lit (annotations 9)))));
      ("links", PSeq (map PInt l)); ("reserved", PSeq (map PInt r))]%string)) = Ok v -> exists n, member_name weapons w = Ok n /\
      attr_values (Ok v) = map snd (dset String.eqb (("type"%string, n) :: X) "_order"%string (PSeq (map lit (annotations 9))))) as G.
  { intros X EX. binv EX. binv E0. exists v1. split; [exact E1|]. rewrite <- EX. injection E0 as <-. reflexivity. }
  destruct (G [("flags", PInt a); ("modes", PInt b); ("muts", PInt c); ("id", PInt d)]%string E) as (n & M & V).
  exists n. split; [exact M|exact V].
Qed.
Lemma other_dict x y z ty at_ l r v : ty <> 9 -> ent_dict (Ent x y z ty at_ l r) = Ok v ->
  attr_values (Ok v) = map snd (dset String.eqb (combine (annotations ty) (map attr_pv at_)) "_order"%string (PSeq (map lit (annotations ty)))).
Proof.
  intros N E. unfold ent_dict in E. cbn [e_type e_attrs e_x e_y e_z e_links e_reserved] in E. rewrite (proj2 (Z.eqb_neq ty 9) N) in E. binv E. cbn [bind] in E.
  injection E as <-. reflexivity.
Qed.
Lemma ent_inj a b v : typed_entity a -> typed_entity b -> ent_dict a = Ok v -> ent_dict b = Ok v -> a = b.
Proof.
  intros Ta Tb Ea Eb. destruct (ent_type_inj a b v Ea Eb) as (Et & Ex & Ey & Ez & El & Er).
  enough (Hat : e_attrs a = e_attrs b) by (destruct a, b; cbn in *; congruence).
  destruct (typed_cases a Ta) as (x & y & z & l & r & _ & _ & _ & _ & _ & _ & _ & _ & Ca).
  destruct (typed_cases b Tb) as (x' & y' & z' & l' & r' & _ & _ & _ & _ & _ & _ & _ & _ & Cb).
  destruct a as [ax ay az ta aa al ar], b as [bx by_ bz tb ba bl br].
  cbn [e_x e_y e_z e_type e_attrs e_links e_reserved] in *. subst tb bx by_ bz bl br.
  destruct Ca as [(-> & w & a1 & a2 & a3 & a4 & Hw & ->)|[(-> & w & a1 & a2 & a3 & a4 & a5 & Hw & ->)|[(H & a1 & a2 & a3 & a4 & a5 & a6 & ->)|[(-> & a1 & a2 & a3 & a4 & a5 & a6 & a7 & a8 & ->)|(-> & a1 & a2 & a3 & a4 & a5 & a6 & a7 & a8 & a9 & a10 & a11 & a12 & a13 & ->)]]]].
  - destruct Cb as [(_ & w' & b1 & b2 & b3 & b4 & Hw' & ->)|[(Q & _)|[(Q & _)|[(Q & _)|(Q & _)]]]]; try discriminate; [|lia].
    apply weapon_dict in Ea as (n & M & Va). apply weapon_dict in Eb as (n' & M' & Vb). rewrite Va in Vb. injection Vb as -> -> -> -> ->.
    rewrite (member_inj weapons w w' n' weapons_nodup M M'). reflexivity.
  - destruct Cb as [(Q & _)|[(_ & w' & b1 & b2 & b3 & b4 & b5 & Hw' & ->)|[(Q & _)|[(Q & _)|(Q & _)]]]]; try discriminate; [|lia].
    apply other_dict in Ea; [|discriminate]. apply other_dict in Eb; [|discriminate]. rewrite Ea in Eb. injection Eb as -> -> -> -> -> ->. reflexivity.
  - destruct Cb as [(Q & _)|[(Q & _)|[(_ & b1 & b2 & b3 & b4 & b5 & b6 & ->)|[(Q & _)|(Q & _)]]]]; try lia.
    apply other_dict in Ea; [|lia]. apply other_dict in Eb; [|lia]. rewrite Ea in Eb. destruct H as [-> |[-> | ->]]; injection Eb as -> -> -> -> -> ->; reflexivity.
  - destruct Cb as [(Q & _)|[(Q & _)|[(Q & _)|[(_ & b1 & b2 & b3 & b4 & b5 & b6 & b7 & b8 & ->)|(Q & _)]]]]; try discriminate; [lia|].
    apply other_dict in Ea; [|discriminate]. apply other_dict in Eb; [|discriminate]. rewrite Ea in Eb. injection Eb as -> -> -> -> -> -> -> ->. reflexivity.
  - destruct Cb as [(Q & _)|[(Q & _)|[(Q & _)|[(Q & _)|(_ & b1 & b2 & b3 & b4 & b5 & b6 & b7 & b8 & b9 & b10 & b11 & b12 & b13 & ->)]]]]; try discriminate; [lia|].
    apply other_dict in Ea; [|discriminate]. apply other_dict in Eb; [|discriminate]. rewrite Ea in Eb. injection Eb as -> -> -> -> -> -> -> -> -> -> -> -> ->. reflexivity.
Qed.

Lemma json_faithful_lemma m1 m2 j :
  to_json m1 = Ok j -> to_json m2 = Ok j ->
  Forall typed_entity (m_ents m1) -> Forall typed_entity (m_ents m2) ->
  0 <= m_vslots m1 -> 0 <= m_vslots m2 ->
  same_head m1 m2 /\ m_ents m1 = m_ents m2 /\ Forall2 same_but_merged (m_world m1) (m_world m2).
Proof.
  intros J1 J2 T1 T2 V1 V2. apply to_json_inv in J1, J2.
  destruct J1 as (e1 & w1 & A1 & B1 & _ & J1). destruct J2 as (e2 & w2 & A2 & B2 & _ & J2).
  rewrite J1 in J2. unfold json_of in J2. injection J2 as Q1 Q2 Q3 Q4 Q5 Q6 Q7 Q8 Q9 Q10. subst e2 w2.
  split; [|split].
  - unfold same_head. do 3 (split; [congruence|]). split.
    { eapply map_F2; [|exact Q4]. intros [k v] [k' v'] E. cbn [fst snd] in E. injection E as E1 E2. apply codes_inj in E1.
      split; [exact E1|]. cbn [snd]. destruct v, v'; cbn [meta_pv] in E2; congruence. }
    split.
    { eapply map_F2; [|exact Q5]. intros [k v] [k' v'] E. cbn [fst snd] in E. injection E as E1 E2.
      split; [exact E1|]. cbn [snd]. destruct v, v'; cbn [var_pv] in E2; congruence. }
    split; [symmetry; apply pints_inj; assumption|]. split; [|symmetry; apply pints_inj; assumption].
    apply (f_equal (@List.length pv)) in Q9. rewrite !map_length in Q9.
    pose proof (zrange_len _ V1). pose proof (zrange_len _ V2). lia.
  - apply Forall2_eq. rewrite Forall_forall in T1, T2. eapply mapM_inj; [|exact A1|exact A2].
    intros x y v Hx Hy. apply ent_inj; auto.
  - eapply mapM_inj; [|exact B1|exact B2]. intros x y v _ _. apply cube_inj.
Qed.

Lemma json_texts_lemma m j : to_json m = Ok j -> texts m.
Proof.
  unfold to_json, to_dict. intros E. binv E. do 4 binv E0. injection E0 as <-. rename E into Hj.
  apply decode_ok in E1. destruct E1 as [-> Hmagic]. split; [exact Hmagic|]. split.
  - apply Forall_forall. intros e He. destruct (mapM_in _ _ _ _ E2 He) as (w & Ew). unfold meta_text.
    unfold meta_pair in Ew. destruct (snd e); [exact Logic.I| |exact Logic.I]. binv Ew. apply decode_ok in E. apply E.
  - apply Forall_forall. intros e He. destruct (mapM_in _ _ _ _ E3 He) as (w & Ew).
    unfold var_pair in Ew. binv Ew. binv Ew. apply decode_ok in E. split; [apply E|].
    destruct (snd e) as [z|f|s|s] eqn:Es; [exact Logic.I| |apply decode_ok in E0; apply E0|exact Logic.I].
    cbn [mapM] in Hj. repeat match goal with H : bind _ _ = Ok _ |- _ => binv H end.
    repeat match goal with H : dump_field (_, Val (PSeq v2)) = Ok _ |- _ => apply dump_val in H; destruct H as [_ Hv] end.
    apply (mapM_fun _ _ _ _ var_pair_ok) in E3. subst v2.
    assert (Hin : In (PSeq [PStr (fst e); PFloat f]) (map (fun e : list Z * vval => PSeq [PStr (fst e); var_pv (snd e)]) (m_vars m))).
    { apply in_map_iff. exists e. rewrite Es. split; [reflexivity|exact He]. }
    cbn [jsonify] in Hv. binv Hv. destruct (mapM_in _ _ _ _ E3 Hin) as (y & Hy). destruct f; [exact Logic.I|discriminate|discriminate].
Qed.
