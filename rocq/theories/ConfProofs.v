(** Proofs about the configuration of a generated map. *)
From Coq Require Import Ascii.
From Verif Require Import Py VecModel VecSpec VoxelModel VoxelSpec CodecModel CodecSpec OutModel OutSpec UpmModel UpmSpec KitModel KitSpec RoomModel MagicaModel RoomSpec
  TexModel TexSpec TexProofs LightModel LightSpec VoxFileModel ShippedModel ShippedSpec ShippedDraw GenModel GenSpec GenLayout GenDraw GenProofs ConfModel ConfSpec.
Local Open Scope Z_scope.
Local Open Scope string_scope.

(** ** Flavours *)
Lemma flavour_ok f : In f choices -> exists x, flavour f = Ok x.
Proof. intros [<-|[<-|[<-|[]]]]; eexists; reflexivity. Qed.
Lemma add_ok l : incl l choices -> forall extra, exists per, Forall2 (fun f x => flavour f = Ok x) l per /\ add_flavours extra l = Ok (extra ++ List.concat per)%list.
Proof.
  induction l as [|f l IH]; intros I extra.
  - exists []. cbn. rewrite app_nil_r. split; [constructor|reflexivity].
  - destruct (flavour_ok f (I f (or_introl eq_refl))) as (x & Ex). destruct (IH (fun a Ha => I a (or_intror Ha)) (extra ++ x)%list) as (per & F & E).
    exists (x :: per). split; [constructor; assumption|]. cbn [add_flavours]. rewrite Ex. cbn [bind]. rewrite E. cbn [List.concat]. rewrite app_assoc. reflexivity.
Qed.
Fixpoint cut (s : string) : string * string :=
  match s with "" => ("", "") | String c r => if Ascii.eqb c " "%char then ("", r) else let (a, b) := cut r in (String c a, b) end.
Definition settingb (s : string) : bool :=
  let (a, b) := cut s in String.eqb s (a ++ " " ++ b) && negb (String.eqb a "") && negb (String.eqb b "") &&
  forallb plain (list_ascii_of_string a) && forallb digit (list_ascii_of_string b).
Lemma settingb_ok s : settingb s = true -> sets_variable s.
Proof.
  unfold settingb. destruct (cut s) as [a b]. rewrite !Bool.andb_true_iff, !Bool.negb_true_iff. intros ((((E & A) & B) & P) & D).
  apply String.eqb_eq in E. apply String.eqb_neq in A, B. exists a, b. auto.
Qed.
Lemma flavour_lines f x : flavour f = Ok x -> Forall sets_variable x.
Proof.
  unfold flavour. destruct (String.eqb f "space_station"); [|destruct (String.eqb f "maliwan"); [|destruct (String.eqb f "crushed_blacks"); [|discriminate]]];
    intros E; rewrite Forall_forall; intros s Hs; apply settingb_ok;
    match type of E with Ok ?l = Ok _ => assert (forallb settingb l = true) as X by (vm_compute; reflexivity) end;
    rewrite forallb_forall in X; apply X; congruence.
Qed.
Lemma digits_one v : forallb digit (list_ascii_of_string v) = true -> one_line v.
Proof.
  induction v as [|c v IH]; intros E; [exact Logic.I|]. cbn [list_ascii_of_string forallb] in E. apply Bool.andb_true_iff in E as [E1 E2].
  split; [|exact (IH E2)]. intros ->. discriminate.
Qed.
Lemma plains_one v : forallb plain (list_ascii_of_string v) = true -> one_line v.
Proof.
  induction v as [|c v IH]; intros E; [exact Logic.I|]. cbn [list_ascii_of_string forallb] in E. apply Bool.andb_true_iff in E as [E1 E2].
  split; [|exact (IH E2)]. intros ->. discriminate.
Qed.
Lemma setting_one s : sets_variable s -> one_line s /\ s <> "".
Proof.
  intros (a & b & -> & NA & NB & P & D). split.
  - rewrite !one_app. split; [exact (plains_one a P)|]. split; [lit|exact (digits_one b D)].
  - destruct a; [congruence|discriminate].
Qed.
Lemma extra_statements extra : Forall sets_variable extra -> statements (fold_right (fun line rest => line ++ nl ++ rest) "" extra) = extra.
Proof.
  induction 1 as [|s extra H F IH]; [reflexivity|]. cbn [fold_right]. destruct (setting_one s H) as [O N].
  rewrite st_split, IH, st_one by exact O. destruct (String.eqb_spec s ""); [contradiction|reflexivity].
Qed.

(** ** Slots *)
Lemma confs_end show l : forall k, Forall (fun kt : Z * tex => untinted (snd kt)) l -> l <> [] -> ends (confs show k l).
Proof.
  induction l as [|[j t] l IH]; intros k F N; [congruence|]. inversion_clear F as [|? ? U F']. cbn [confs]. destruct l as [|kt l].
  - cbn [confs]. rewrite sapp_nil. apply conf_ends. exact U.
  - apply ends_app. apply IH; [exact F'|discriminate].
Qed.
Lemma emit_ends known l show author name : has_base known -> safe_table known -> ends (emit_conf show author name (asked (tm_init known) l)).
Proof.
  intros HB SK. destruct (atlas_in_order known l HB) as (ts & F2 & EA). unfold emit_conf. destruct (tm_atlas (asked (tm_init known) l)) as [|kt at_] eqn:E.
  - cbn [confs]. rewrite sapp_nil. apply header_ends.
  - apply ends_app. apply confs_end; [|discriminate]. pose proof (all_textures known untinted _ ts (fun _ _ _ => Logic.I) SK F2) as U. rewrite EA.
    rewrite Forall_forall in *. intros [k t] Hin. apply in_combine_r in Hin. exact (U _ Hin).
Qed.
Lemma colour_statements show k r g b : (forall c, one_line (show c)) ->
  statements (conf show k (Colour SIMPLE_COLOUR r g b)) =
  ["setshader stdworld"; "texture c " ++ quote ++ "hxr/textures/empty.png" ++ quote ++ " 0 0 0 1 // " ++ decimal k ++ " " ++ SIMPLE_COLOUR;
   "texcolor " ++ show r ++ " " ++ show g ++ " " ++ show b].
Proof.
  intros SH.
  set (B := "texture c " ++ quote ++ "hxr/textures/empty.png" ++ quote ++ " 0 0 0 1 // " ++ decimal k ++ " " ++ SIMPLE_COLOUR).
  set (C := "texcolor " ++ show r ++ " " ++ show g ++ " " ++ show b).
  replace (conf show k (Colour SIMPLE_COLOUR r g b)) with ("" ++ nl ++ "setshader stdworld" ++ nl ++ B ++ nl ++ C ++ nl ++ "").
  2: { unfold conf, texture_line, B, C. rewrite !sapp_assoc. reflexivity. }
  assert (one_line B) as OB by (unfold B; rewrite !one_app; pose proof (one_decimal k); lit).
  assert (one_line C) as OC by (unfold C; rewrite !one_app; pose proof (SH r); pose proof (SH g); pose proof (SH b); lit).
  rewrite !st_split. rewrite (st_one B OB), (st_one C OC). reflexivity.
Qed.
Lemma concat_map_split {A B} (f : A -> list B) l i x : nth_error l i = Some x ->
  List.concat (map f l) = (List.concat (map f (firstn i l)) ++ f x ++ List.concat (map f (skipn (S i) l)))%list.
Proof.
  revert i. induction l as [|a l IH]; intros [|i] H; try discriminate.
  - cbn in H. assert (a = x) as -> by congruence. reflexivity.
  - cbn [firstn map List.concat skipn]. rewrite (IH i H), app_assoc. reflexivity.
Qed.
Lemma numbered_ts (ts : list tex) : forall s i t, nth_error ts i = Some t ->
  nth_error (combine (map Z.of_nat (seq s (List.length ts))) ts) i = Some (Z.of_nat (s + i), t).
Proof.
  induction ts as [|t0 ts IH]; intros s [|i] t H; try discriminate; cbn [List.length seq map combine nth_error] in *.
  - rewrite Nat.add_0_r. congruence.
  - rewrite (IH (S s) i t H). do 2 f_equal. lia.
Qed.
Lemma forall2_nth {A B} (R : A -> B -> Prop) l l' i a : Forall2 R l l' -> nth_error l i = Some a -> exists b, nth_error l' i = Some b /\ R a b.
Proof.
  intros F. revert i. induction F as [|x y l l' H F IH]; intros [|i] E; try discriminate; [|exact (IH i E)].
  exists y. split; [reflexivity|]. cbn in E. assert (x = a) as <- by congruence. exact H.
Qed.
Lemma opens_count show l : (forall c, one_line (show c)) -> Forall (fun kt : Z * tex => tidy (snd kt) /\ untinted (snd kt)) l ->
  List.length (filter opens_slot (List.concat (map (fun kt => statements (conf show (fst kt) (snd kt))) l))) = List.length l.
Proof.
  intros SH. induction 1 as [|[k t] l [T U] F IH]; [reflexivity|]. cbn [map List.concat fst snd List.length]. rewrite filter_app, app_length, IH.
  destruct (conf_opens show k t SH T U) as [x Ex]. unfold opening in Ex. rewrite Ex. reflexivity.
Qed.
Lemma slot_lemma known l show c k after : has_base known -> safe_table known -> tidy_table known -> (forall c, one_line (show c)) ->
  numbered (asked (tm_init known) l) c k -> Forall sets_variable after ->
  slot_has_colour show (config_text show (asked (tm_init known) l) after) k c.
Proof.
  intros HB SK TK SH N FA. destruct c as [[r g] b]. unfold numbered in N.
  destruct (answer_place known l (RColour r g b) HB eq_refl) as (j & Ej & Hj). cbn [ask] in Ej. rewrite N in Ej. cbn [snd] in Ej.
  assert (k = Z.of_nat j) as -> by congruence.
  assert (asked (tm_init known) (l ++ [RColour r g b]) = asked (tm_init known) l) as EQ
    by (unfold asked in *; rewrite fold_left_app; cbn [fold_left ask]; rewrite N; reflexivity).
  destruct (config_statements known (l ++ [RColour r g b]) show "Python" "test" HB SK) as (ts & F2 & E). rewrite EQ in E.
  destruct (forall2_nth _ _ _ j _ F2 Hj) as (t & Ht & Et). cbn [req_name texture_of] in Et. assert (t = Colour SIMPLE_COLOUR r g b) as -> by congruence.
  pose proof (numbered_ts ts 0 j _ Ht) as Hn. cbn [plus] in Hn.
  unfold slot_has_colour, config_text. rewrite st_ends by (apply emit_ends; assumption). rewrite E, (extra_statements _ FA).
  assert (forall ks hd tl f, nth_error ks j = Some (Z.of_nat j, Colour SIMPLE_COLOUR r g b) -> f (Z.of_nat j, Colour SIMPLE_COLOUR r g b) = hd :: tl ->
    forall (H : list string) A, (H ++ List.concat (map f ks)) ++ A = (H ++ List.concat (map f (firstn j ks))) ++ hd :: tl ++ (List.concat (map f (skipn (S j) ks)) ++ A))%list as SPL
    by (intros ks hd tl f K1 K2 H A; rewrite (concat_map_split f ks j _ K1), K2; rewrite <- !app_assoc; reflexivity).
  specialize (SPL _ _ _ (fun kt : Z * tex => statements (conf show (fst kt) (snd kt))) Hn (colour_statements show (Z.of_nat j) r g b SH)).
  rewrite SPL. clear SPL.
  eexists _, _, _. split; [cbn [app]; reflexivity|].
  rewrite filter_app. pose proof (header_opens "Python" "test" ltac:(lit) ltac:(lit)) as HO. unfold opening in HO. rewrite HO. cbn [app].
  assert (Forall tidy ts) as T by (apply (all_textures known tidy _ ts) with (3 := F2); [intros; lit|exact TK]).
  assert (Forall untinted ts) as U by (apply (all_textures known untinted _ ts) with (3 := F2); [intros; lit|exact SK]).
  rewrite opens_count; [|exact SH|].
  - rewrite firstn_length. assert (j < List.length (combine (map Z.of_nat (seq 0 (List.length ts))) ts))%nat by (apply nth_error_Some; congruence). lia.
  - rewrite Forall_forall in *. intros kt Hkt. assert (In kt (combine (map Z.of_nat (seq 0 (List.length ts))) ts)) as Hi
      by (rewrite <- (firstn_skipn j); apply in_or_app; left; exact Hkt). destruct kt as [kk t]. apply in_combine_r in Hi. cbn [snd]. auto.
Qed.
Lemma flavours_lemma known l show extra fl : has_base known -> safe_table known -> incl fl choices -> Forall sets_variable extra ->
  exists per, Forall2 (fun f x => flavour f = Ok x /\ x <> [] /\ Forall sets_variable x) fl per /\ update extra (Some fl) = Ok (extra ++ List.concat per)%list /\
    statements (config_text show (asked (tm_init known) l) (extra ++ List.concat per)) =
    (statements (emit_conf show "Python" "test" (asked (tm_init known) l)) ++ extra ++ List.concat per)%list.
Proof.
  intros HB SK I FE. destruct (add_ok fl I extra) as (per & F & E). exists per.
  assert (Forall2 (fun f x => flavour f = Ok x /\ x <> [] /\ Forall sets_variable x) fl per) as F'.
  { clear - F. induction F as [|f x l l' H F IH]; constructor; [|exact IH]. split; [exact H|]. split; [|exact (flavour_lines f x H)].
    unfold flavour in H. destruct (String.eqb f "space_station"); [|destruct (String.eqb f "maliwan"); [|destruct (String.eqb f "crushed_blacks"); [|discriminate]]];
      intros ->; discriminate. }
  split; [exact F'|]. split; [exact E|]. unfold config_text. rewrite st_ends by (apply emit_ends; assumption). rewrite extra_statements; [reflexivity|].
  apply Forall_app. split; [exact FE|]. clear - F'. induction F' as [|f x l l' (_ & _ & H) F IH]; [constructor|]. cbn [List.concat]. apply Forall_app. split; assumption.
Qed.
Lemma no_flavour extra : update extra None = Ok extra /\ update extra (Some []) = Ok extra.
Proof. split; reflexivity. Qed.
Lemma map_config k fuelo e hue vecs known l show fl n ctf rooms m ws g :
  true_vectors vecs -> byte_hues hue -> has_base known -> safe_table known -> tidy_table known -> (forall c, one_line (show c)) -> incl fl choices ->
  mirror_factor n -> good_env e ->
  (7 <= k)%nat -> (S k < fuelo)%nat -> wf_map m -> header_size m = Some ws -> 2 ^ Z.of_nat (S k) <= ws <= 8192 ->
  Z.of_nat (List.length (tm_atlas (asked (tm_init known) l))) <= 57000 -> len (m_ents m) <= 2 ^ 30 ->
  exists fuel0, forall fuel, (fuel0 <= fuel)%nat -> exists tm' w m2 st g' bs m' extra,
    generate fuel e hue vecs (asked (tm_init known) l) (2 ^ Z.of_nat (S k)) (Some n) false ctf rooms m g = (tm', Ok (w, m2, st), g') /\
    output_map fuelo w m2 = Ok bs /\ read_rest bs = Ok (m', []) /\ update [] (Some fl) = Ok extra /\
    forall x y z tex, in_world (2 ^ Z.of_nat (S k)) (x, y, z) -> world_lookup (S k) m' x y z = Some tex ->
      exists ob c i, In ob (u_rooms st) /\ means_colour (snd ob) (x, y, z) c /\ tex = repeat i 6 /\
        slot_has_colour show (config_text show tm' extra) i c.
Proof.
  intros TV BH HB SK TK SH I Hn G Hk Hf WM HS Hws HA HE.
  assert (manager (asked (tm_init known) l)) as M by (exists known, l; auto).
  destruct (lay_out_total n ctf e rooms g Hn G) as (fuel0 & T). exists fuel0. intros fuel Hl. destruct (T fuel Hl) as (st & g1 & E).
  destruct (generated k fuel fuelo e hue vecs _ n ctf rooms m ws g st g1 TV BH M Hn G Hk Hf WM HS Hws HA HE E)
    as (tm' & w & m2 & g' & sun & ess & bs & m' & EG & EO & ER & _ & _ & _ & B & _).
  destruct (generate_ok fuel e hue vecs _ (2 ^ Z.of_nat (S k)) n ctf rooms m g st g1 TV M Hn G E)
    as (tm2 & w2 & m3 & g3 & sun2 & ess2 & EG2 & _ & _ & _ & _ & _ & _ & _ & _ & _ & (reqs & ST & _) & _).
  assert (tm2 = tm') as -> by congruence.
  destruct (flavours_lemma known l show [] fl HB SK I (Forall_nil _)) as (per & FP & EU & _).
  exists tm', w, m2, st, g', bs, m', (List.concat per). split; [exact EG|]. split; [exact EO|]. split; [exact ER|]. split; [exact EU|].
  intros x y z tex (Hx & Hy & Hz) W. apply B in W; try assumption. destruct W as (ob & Hob & s & v & q & a & r & g0 & b & al & i & Hi & Ec & Ev & Col & Fq & Hp & N & ->).
  exists ob, (intended (s_paint s) (r_turn (snd ob)) (r, g0, b)), i. split; [exact Hob|]. split.
  - exists s, v, q, a, r, g0, b, al. auto 9.
  - split; [reflexivity|]. assert (tm' = asked (tm_init known) (l ++ reqs)) as Et by (rewrite ST; unfold asked; rewrite fold_left_app; reflexivity).
    rewrite Et in N |- *. apply slot_lemma; try assumption.
    clear - FP. induction FP as [|f x l l' (_ & _ & H) F IH]; [constructor|]. cbn [List.concat]. apply Forall_app. split; assumption.
Qed.
Lemma flavour_exact f x : flavour f = Ok x -> x = setting_lines f.
Proof.
  unfold flavour, setting_lines, flavour_sets. destruct (String.eqb f "space_station"); [intros [= <-]; reflexivity|].
  destruct (String.eqb f "maliwan"); [intros [= <-]; reflexivity|]. destruct (String.eqb f "crushed_blacks"); [intros [= <-]; reflexivity|discriminate].
Qed.
Lemma flavours_text known l show fl : has_base known -> safe_table known -> incl fl choices ->
  let added := List.concat (map setting_lines fl) in
  update [] (Some fl) = Ok added /\ Forall sets_variable added /\
  statements (config_text show (asked (tm_init known) l) added) = (statements (emit_conf show "Python" "test" (asked (tm_init known) l)) ++ added)%list.
Proof.
  intros HB SK I added. destruct (flavours_lemma known l show [] fl HB SK I (Forall_nil _)) as (per & F & E & S).
  assert (List.concat per = added) as EA.
  { unfold added. f_equal. clear - F. induction F as [|f x l l' (H & _) F IH]; [reflexivity|]. cbn [map]. rewrite <- IH, <- (flavour_exact _ _ H). reflexivity. }
  cbn [app] in E, S. rewrite EA in E, S. split; [exact E|]. split; [|exact S]. rewrite <- EA. clear - F.
  induction F as [|f x l l' (_ & _ & H) F IH]; [constructor|]. cbn [List.concat]. apply Forall_app. split; assumption.
Qed.
Lemma no_flavours : update [] None = Ok [] /\ forall show tm, config_text show tm [] = emit_conf show "Python" "test" tm.
Proof. split; [reflexivity|]. intros. unfold config_text. cbn [fold_right]. apply sapp_nil. Qed.
