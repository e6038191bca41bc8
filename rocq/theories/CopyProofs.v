(** Proofs about the copying of texture files. *)
From Coq Require Import Ascii.
From Verif Require Import Py VecModel VoxelModel CodecModel CodecSpec OutModel OutSpec UpmModel UpmSpec KitModel RoomModel MagicaModel MagicaProofs RoomSpec TexModel TexSpec TexProofs
  LightModel ShippedModel ShippedSpec DistModel GenModel GenSpec GenLayout GenProofs ConfModel ConfSpec ConfProofs CopyModel CopySpec.
Local Open Scope Z_scope.
Local Open Scope string_scope.

(** ** The textures in use *)
Lemma firsts_in n l : forall seen, In n (firsts seen l) -> In n l.
Proof.
  induction l as [|a l IH]; intros seen H; [exact H|]. cbn [firsts] in H. destruct (existsb (tname_eqb a) seen).
  - right. exact (IH _ H).
  - destruct H as [->|H]; [left; reflexivity|right; exact (IH _ H)].
Qed.
Lemma in_firsts n l : forall seen, In n l -> In n seen \/ In n (firsts seen l).
Proof.
  induction l as [|a l IH]; intros seen H; [destruct H|]. cbn [firsts]. destruct (existsb (tname_eqb a) seen) eqn:E.
  - destruct H as [->|H]; [left; apply existsb_in; exact E|exact (IH _ H)].
  - destruct H as [->|H]; [right; left; reflexivity|]. destruct (IH (a :: seen) H) as [[->|S]|S]; [right; left; reflexivity|left; exact S|right; right; exact S].
Qed.
Lemma in_use known l t : has_base known -> In t (map snd (tm_atlas (asked (tm_init known) l))) <->
  exists n, In n (used known l) /\ texture_of known n = Some t.
Proof.
  intros HB. destruct (atlas_in_order known l HB) as (ts & F2 & EA). rewrite EA.
  assert (forall s, map snd (combine (map Z.of_nat (seq s (List.length ts))) ts) = ts) as ES.
  { clear. induction ts as [|t ts IH]; intros s; [reflexivity|]. cbn. f_equal. apply IH. }
  rewrite ES. split.
  - intros H. destruct (MagicaProofs.Forall2_in_r _ _ _ F2 t H) as (n & Hn & E). exists n. split; [exact (firsts_in _ _ _ Hn)|exact E].
  - intros (n & Hn & E). destruct (in_firsts n _ [] Hn) as [[]|Ho]. fold (in_order known l) in Ho. clear - F2 Ho E.
    induction F2 as [|a b la lb H F IH]; [destruct Ho|]. destruct Ho as [->|Ho]; [left; congruence|right; exact (IH Ho)].
Qed.

(** ** Copying *)
Definition there (tree : list string) (d : string * list string) : Prop :=
  Forall (fun f => f <> "None" /\ In (fst d ++ "/" ++ f) tree) (snd d).
Lemma files_there tree d : there tree d -> copy_files tree (fst d) (snd d) = (snd d, None).
Proof.
  destruct d as [dir fs]. unfold there. cbn [fst snd]. induction 1 as [|f fs (N & T) F IH]; [reflexivity|]. cbn [copy_files].
  destruct (String.eqb_spec f "None") as [E|_]; [contradiction|].
  assert (existsb (String.eqb (dir ++ "/" ++ f)) tree = true) as -> by (apply existsb_exists; exists (dir ++ "/" ++ f); split; [exact T|apply String.eqb_refl]).
  rewrite IH. reflexivity.
Qed.
Lemma all_there tree decl ts : (forall t d, In t ts -> decl t = Some d -> there tree d) ->
  exists c, copy_all tree decl ts = (c, None) /\ forall t d f, In t ts -> decl t = Some d -> In f (snd d) -> In f c.
Proof.
  induction ts as [|t ts IH]; intros H; [exists []; split; [reflexivity|intros t d f []]|].
  destruct IH as (c & E & I); [intros t' d Ht; exact (H t' d (or_intror Ht))|]. cbn [copy_all]. destruct (decl t) as [[dir fs]|] eqn:D.
  - pose proof (files_there tree (dir, fs) (H t _ (or_introl eq_refl) D)) as F. cbn [fst snd] in F. rewrite F, E.
    exists (fs ++ c)%list. split; [reflexivity|]. intros t' d f [->|Ht] Ed Hf; apply in_or_app.
    + left. assert (d = (dir, fs)) as -> by congruence. exact Hf.
    + right. exact (I t' d f Ht Ed Hf).
  - exists c. split; [exact E|]. intros t' d f [->|Ht] Ed Hf; [congruence|exact (I t' d f Ht Ed Hf)].
Qed.
(** The first texture with missing files ends it. *)
Lemma all_missing tree decl ts t : In t ts -> (forall t d, In t ts -> decl t = Some d -> there tree d \/ exists c, copy_files tree (fst d) (snd d) = (c, Some FileNotFoundError)) ->
  (exists d c, decl t = Some d /\ copy_files tree (fst d) (snd d) = (c, Some FileNotFoundError)) -> exists c, copy_all tree decl ts = (c, Some FileNotFoundError).
Proof.
  induction ts as [|a ts IH]; intros Ht H M; [destruct Ht|]. cbn [copy_all]. destruct (decl a) as [[dir fs]|] eqn:D.
  - destruct (H a (dir, fs) (or_introl eq_refl) D) as [T|(c & E)]; [|cbn [fst snd] in E; rewrite E; eauto].
    pose proof (files_there tree _ T) as F. cbn [fst snd] in F. rewrite F.
    destruct IH as (c & E); [| |exact M|].
    + destruct Ht as [->|Ht]; [|exact Ht]. destruct M as (d & c & D' & C). assert (d = (dir, fs)) as -> by congruence. cbn [fst snd] in C. congruence.
    + intros t' d Hd. exact (H t' d (or_intror Hd)).
    + rewrite E. eauto.
  - apply IH; [|intros t' d Hd; exact (H t' d (or_intror Hd))|exact M]. destruct Ht as [->|Ht]; [|exact Ht]. destruct M as (d & c & D' & _). congruence.
Qed.
(** If every declared file is missing nothing is copied. *)
Lemma all_absent tree decl ts t : In t ts -> decl t <> None ->
  (forall t d, In t ts -> decl t = Some d -> copy_files tree (fst d) (snd d) = ([], Some FileNotFoundError)) -> copy_all tree decl ts = ([], Some FileNotFoundError).
Proof.
  induction ts as [|a ts IH]; intros Ht N H; [destruct Ht|]. cbn [copy_all]. destruct (decl a) as [[dir fs]|] eqn:D.
  - pose proof (H a _ (or_introl eq_refl) D) as E. cbn [fst snd] in E. rewrite E. reflexivity.
  - apply IH; [|exact N|intros t' d Hd; exact (H t' d (or_intror Hd))]. destruct Ht as [->|Ht]; [contradiction|exact Ht].
Qed.

(** ** The colours of the generator *)
Lemma colours_absent known l r g b : has_base known -> In (RColour r g b) l ->
  copy_data texture_data colour_files (asked (tm_init known) l) = ([], Some FileNotFoundError).
Proof.
  intros HB H. unfold copy_data. apply all_absent with (t := Colour SIMPLE_COLOUR r g b).
  - apply in_use; [exact HB|]. exists (Coloured r g b). split; [|reflexivity]. right. right. apply in_map_iff. exists (RColour r g b).
    split; [reflexivity|]. apply filter_In. split; [exact H|reflexivity].
  - discriminate.
  - intros t d _ E. destruct t; try discriminate. assert (d = ("data/hxr", ["empty.png"])) as -> by (cbn in E; congruence). vm_compute. reflexivity.
Qed.
(** ** The themes *)
Lemma used_names known names l n : names_among names l -> In n (used known l) -> exists s, n = Named s /\ (s = "sky" \/ s = "default" \/ In s names).
Proof.
  intros F [<-|[<-|H]]; [exists "sky"; auto|exists "default"; auto|]. apply in_map_iff in H as (q & <- & H). apply filter_In in H as [H _].
  unfold names_among in F. rewrite Forall_forall in F. destruct (F q H) as (s & -> & Hs). exists s. auto.
Qed.
Lemma primary_absent l s : names_among (materials primary_theme) l -> In (RGet s) l ->
  copy_data texture_data colour_files (asked (tm_init (discovered primary)) l) = ([], Some FileNotFoundError).
Proof.
  intros F H. unfold names_among in F. rewrite Forall_forall in F. destruct (F _ H) as (s' & E & Hs). assert (s' = s) as -> by congruence.
  assert (exists t, dget tname_eqb (discovered primary) (Named s) = Some t /\ colour_files t <> None) as (t & D & C).
  { assert (forallb (fun s => match dget tname_eqb (discovered primary) (Named s) with Some t => match colour_files t with Some _ => true | None => false end | None => false end)
      (materials primary_theme) = true) as X by (vm_compute; reflexivity).
    rewrite forallb_forall in X. specialize (X s Hs). destruct (dget tname_eqb (discovered primary) (Named s)) as [t|]; [|discriminate]. exists t. split; [reflexivity|].
    destruct (colour_files t); [discriminate|discriminate X]. }
  unfold copy_data. apply all_absent with (t := t).
  - apply in_use; [exact primary_base|]. exists (Named s). split; [|exact D]. right. right. apply in_map_iff. exists (RGet s).
    split; [reflexivity|]. apply filter_In. split; [exact H|]. cbn [servable]. unfold dmem. rewrite D. reflexivity.
  - exact C.
  - intros t' d _ E'. destruct t'; try discriminate. assert (d = ("data/hxr", ["empty.png"])) as -> by (cbn in E'; congruence). vm_compute. reflexivity.
Qed.
Definition thereb (tree : list string) (d : string * list string) : bool :=
  forallb (fun f => negb (String.eqb f "None") && existsb (String.eqb (fst d ++ "/" ++ f)) tree) (snd d).
Lemma thereb_ok tree d : thereb tree d = true -> there tree d.
Proof.
  unfold thereb, there. rewrite forallb_forall, Forall_forall. intros H f Hf. specialize (H f Hf). apply andb_true_iff in H as [A B].
  apply negb_true_iff in A. apply existsb_exists in B as (x & Hx & E). apply String.eqb_eq in E. subst x. split; [|exact Hx].
  intros ->. discriminate A.
Qed.
Lemma paper_absent l s : names_among (materials paper_theme) l -> In (RGet s) l -> s = "paper3" \/ s = "paper4" ->
  exists c, copy_data texture_data paper_files (asked (tm_init (discovered paper)) l) = (c, Some FileNotFoundError).
Proof.
  intros F H Hs.
  assert (exists t, dget tname_eqb (discovered paper) (Named s) = Some t /\ exists d c, paper_files t = Some d /\ copy_files texture_data (fst d) (snd d) = (c, Some FileNotFoundError)) as (t & D & M).
  { destruct Hs as [-> | ->]; (eexists; split; [vm_compute; reflexivity|]; eexists; eexists; split; [cbn [paper_files]; reflexivity|vm_compute; reflexivity]). }
  unfold copy_data. apply all_missing with (t := t); [| |exact M].
  - apply in_use; [exact paper_base|]. exists (Named s). split; [|exact D]. right. right. apply in_map_iff. exists (RGet s).
    split; [reflexivity|]. apply filter_In. split; [exact H|]. cbn [servable]. unfold dmem. rewrite D. reflexivity.
  - intros t' d Hu E. apply in_use in Hu; [|exact paper_base]. destruct Hu as (n & Hn & Et). destruct (used_names _ _ _ _ F Hn) as (s' & -> & Hs').
    cbn [texture_of] in Et.
    assert (In s' ("sky" :: "default" :: materials paper_theme)) as Hi by (cbn [In]; intuition congruence).
    assert (forallb (fun s => match dget tname_eqb (discovered paper) (Named s) with Some t => match paper_files t with Some d =>
        if thereb texture_data d then true else match copy_files texture_data (fst d) (snd d) with (_, Some FileNotFoundError) => true | _ => false end | None => true end | None => true end)
      ("sky" :: "default" :: materials paper_theme) = true) as X by (vm_compute; reflexivity).
    rewrite forallb_forall in X. specialize (X s' Hi). rewrite Et, E in X. destruct (thereb texture_data d) eqn:TB; [left; apply thereb_ok; exact TB|right].
    destruct (copy_files texture_data (fst d) (snd d)) as [c [[]|]]; try discriminate. exists c. reflexivity.
Qed.

(** ** What the statements name *)
Lemma quote_end a : forall b x y, unquoted a -> unquoted b -> a ++ quote ++ x = b ++ quote ++ y -> a = b.
Proof.
  induction a as [|c a IH]; intros [|d b] x y A B E; cbn in E.
  - reflexivity.
  - injection E as E _. destruct B as [B _]. subst d. contradiction B. reflexivity.
  - injection E as E _. destruct A as [A _]. subst c. contradiction A. reflexivity.
  - injection E as -> E. f_equal. exact (IH b x y (proj2 A) (proj2 B) E).
Qed.
Lemma named_file ch file rest f : unquoted file -> names_file ("texture " ++ String ch "" ++ " " ++ quote ++ "hxr/textures/" ++ file ++ quote ++ rest) f -> f = file.
Proof.
  intros U (slot & rest' & E & U'). cbn [append] in E. injection E as _ E. change (file ++ quote ++ rest = f ++ quote ++ rest') in E.
  symmetry. exact (quote_end _ _ _ _ U U' E).
Qed.
Ltac not_named := intros (slot & rest' & E & _); cbn [append] in E; discriminate E.
Lemma st_line s rest : one_line s -> s <> "" -> statements (s ++ nl ++ rest) = s :: statements rest.
Proof. intros O N. rewrite st_split, (st_one s O). destruct (String.eqb_spec s ""); [contradiction|reflexivity]. Qed.
Lemma st_blank rest : statements (nl ++ rest) = statements rest.
Proof. change (nl ++ rest) with ("" ++ nl ++ rest). rewrite st_split. reflexivity. Qed.
(** The files a texture names below the installation directory. *)
Definition named_by (t : tex) : list string :=
  match t with
  | Colour _ _ _ _ => ["empty.png"]
  | Parallax _ _ c n s z _ _ _ => [c; n; s; z]
  | _ => []
  end.
(** The textures of the generator and of the minecraft theme. *)
Definition handled (t : tex) : Prop :=
  match t with
  | Sky | Default => True
  | Colour cls _ _ _ => one_line cls
  | Parallax cls base c n s z spec par tint =>
      base = "hxr/textures" /\ spec = None /\ par = None /\ tint = None /\ one_line cls /\ one_line c /\ one_line n /\ one_line s /\ one_line z /\
      unquoted c /\ unquoted n /\ unquoted s /\ unquoted z
  | _ => False
  end.
Lemma conf_names show k t s f : (forall c, one_line (show c)) -> handled t -> In s (statements (conf show k t)) -> names_file s f -> In f (named_by t).
Proof.
  intros SH H Hs N. destruct t as [| |cls r g b| | |cls base c n s0 z spec par tint|]; cbn [handled] in H; try contradiction.
  - exfalso. unfold conf, texture_line in Hs. change (In s (statements (nl ++ "setshader stdworld" ++ nl ++
      ("texture c " ++ quote ++ "textures/sky.png" ++ quote ++ " 0 0 0 1 // 0 <class 'redeclipse.textures.basetex.Sky'>") ++ nl ++ ""))) in Hs.
    rewrite st_blank, st_line in Hs by (lit || discriminate). rewrite st_line in Hs by (lit || discriminate).
    destruct Hs as [<-|[<-|[]]]; revert N; not_named.
  - exfalso. unfold conf, texture_line in Hs. change (In s (statements (nl ++ "setshader stdworld" ++ nl ++
      ("texture c " ++ quote ++ "textures/default.png" ++ quote ++ " 0 0 0 1 // 1 <class 'redeclipse.textures.basetex.Default'>") ++ nl ++ ""))) in Hs.
    rewrite st_blank, st_line in Hs by (lit || discriminate). rewrite st_line in Hs by (lit || discriminate).
    destruct Hs as [<-|[<-|[]]]; revert N; not_named.
  - set (B := "texture c " ++ quote ++ "hxr/textures/empty.png" ++ quote ++ " 0 0 0 1 // " ++ decimal k ++ " " ++ cls).
    set (C := "texcolor " ++ show r ++ " " ++ show g ++ " " ++ show b).
    replace (conf show k (Colour cls r g b)) with (nl ++ "setshader stdworld" ++ nl ++ B ++ nl ++ C ++ nl ++ "") in Hs
      by (unfold conf, texture_line, B, C; rewrite !sapp_assoc; reflexivity).
    assert (one_line B) as OB by (unfold B; rewrite !one_app; pose proof (one_decimal k); lit).
    assert (one_line C) as OC by (unfold C; rewrite !one_app; pose proof (SH r); pose proof (SH g); pose proof (SH b); lit).
    rewrite st_blank, st_line in Hs by (lit || discriminate). rewrite (st_line B _ OB) in Hs by discriminate. rewrite (st_line C _ OC) in Hs by discriminate.
    destruct Hs as [<-|[<-|[<-|[]]]].
    + exfalso. revert N. not_named.
    + left. symmetry. unfold B in N. apply (named_file "c"%char "empty.png" (" 0 0 0 1 // " ++ decimal k ++ " " ++ cls)); [cbn; repeat split; discriminate|exact N].
    + exfalso. revert N. unfold C. not_named.
  - destruct H as (-> & -> & -> & -> & Ocls & Oc & On & Os & Oz & Uc & Un & Us & Uz).
    set (L0 := "texture c " ++ quote ++ "hxr/textures/" ++ c ++ quote ++ " 0 0 0 0.500000 // " ++ decimal k ++ " " ++ cls).
    set (L := fun ch file => "texture " ++ String ch "" ++ " " ++ quote ++ "hxr/textures/" ++ file ++ quote).
    replace (conf show k (Parallax cls "hxr/textures" c n s0 z None None None)) with
      ("setshader bumpspecmapparallaxworld" ++ nl ++ L0 ++ nl ++ L "n"%char n ++ nl ++ L "s"%char s0 ++ nl ++ L "z"%char z ++ nl ++ "") in Hs
      by (unfold conf, texture_line, optional, L0, L; rewrite !sapp_assoc; reflexivity).
    assert (one_line L0) as O0 by (unfold L0; rewrite !one_app; pose proof (one_decimal k); lit).
    assert (forall ch file, ch <> newline -> one_line file -> one_line (L ch file)) as OL
      by (intros ch file Hc Hf; unfold L; rewrite !one_app; repeat split; (discriminate || exact Hc || assumption || exact Logic.I)).
    rewrite st_line in Hs by (lit || discriminate). rewrite (st_line L0 _ O0) in Hs by discriminate.
    rewrite (st_line (L "n"%char n)) in Hs by (first [discriminate | apply OL; [discriminate|assumption]]).
    rewrite (st_line (L "s"%char s0)) in Hs by (first [discriminate | apply OL; [discriminate|assumption]]).
    rewrite (st_line (L "z"%char z)) in Hs by (first [discriminate | apply OL; [discriminate|assumption]]).
    assert (forall ch file, unquoted file -> names_file (L ch file) f -> file = f) as NL.
    { intros ch file U X. symmetry. apply (named_file ch file ""); [exact U|]. unfold L in X. rewrite ?sapp_assoc in *. exact X. }
    cbn [named_by]. destruct Hs as [<-|[<-|[<-|[<-|[<-|[]]]]]].
    + exfalso. revert N. not_named.
    + left. symmetry. unfold L0 in N. exact (named_file "c"%char c (" 0 0 0 0.500000 // " ++ decimal k ++ " " ++ cls) f Uc N).
    + right. left. exact (NL _ _ Un N).
    + right. right. left. exact (NL _ _ Us N).
    + right. right. right. left. exact (NL _ _ Uz N).
Qed.
Lemma header_names s f : In s (statements (header "Python" "test")) -> ~ names_file s f.
Proof.
  intros H. vm_compute in H. repeat (destruct H as [<-|H]; [not_named|]). destruct H.
Qed.
Lemma install_lemma known l show tree decl : has_base known -> safe_table known -> (forall c, one_line (show c)) ->
  (forall t, In t (map snd (tm_atlas (asked (tm_init known) l))) -> handled t /\
     (forall d, decl t = Some d -> there tree d) /\ (forall f, In f (named_by t) -> exists d, decl t = Some d /\ In f (snd d))) ->
  exists c, copy_data tree decl (asked (tm_init known) l) = (c, None) /\ all_installed (emit_conf show "Python" "test" (asked (tm_init known) l)) c.
Proof.
  intros HB SK SH A. destruct (all_there tree decl (map snd (tm_atlas (asked (tm_init known) l)))) as (c & E & I).
  { intros t d Ht. exact (proj1 (proj2 (A t Ht)) d). }
  exists c. split; [exact E|]. intros s f Hs N. destruct (atlas_in_order known l HB) as (ts & F2 & EA).
  destruct (config_statements known l show "Python" "test" HB SK) as (ts' & F2' & ES). rewrite ES in Hs.
  apply in_app_or in Hs as [Hs|Hs]; [destruct (header_names s f Hs N)|].
  assert (ts' = ts) as ->.
  { clear - F2 F2'. revert ts' F2'. induction F2 as [|a b la lb H F IH]; intros ts' F2'; inversion F2' as [|? y ? ? H' F']; subst; [reflexivity|].
    assert (y = b) as -> by congruence. f_equal. exact (IH _ F'). }
  apply in_concat in Hs as (block & Hb & Hs). apply in_map_iff in Hb as ([k t] & <- & Hk). cbn [fst snd] in Hs.
  assert (In t (map snd (tm_atlas (asked (tm_init known) l)))) as Ht by (rewrite EA; apply in_map_iff; exists (k, t); auto).
  destruct (A t Ht) as (HT & _ & HN). destruct (HN f (conf_names show k t s f SH HT Hs N)) as (d & Ed & Hf). exact (I t d f Ht Ed Hf).
Qed.
Lemma minecraft_installed l show : (forall c, one_line (show c)) -> names_among (materials minecraft_theme) l ->
  exists c, copy_data texture_data minecraft_files (asked (tm_init (discovered minecraft)) l) = (c, None) /\
    all_installed (emit_conf show "Python" "test" (asked (tm_init (discovered minecraft)) l)) c.
Proof.
  intros SH F. apply install_lemma; [exact minecraft_base|unfold safe_table; repeat constructor|exact SH|].
  intros t Hu. apply in_use in Hu; [|exact minecraft_base]. destruct Hu as (n & Hn & Et). destruct (used_names _ _ _ _ F Hn) as (s' & -> & Hs'). cbn [texture_of] in Et.
  assert (In s' ("sky" :: "default" :: materials minecraft_theme)) as Hi by (cbn [In]; intuition congruence).
  assert (forallb (fun s => match dget tname_eqb (discovered minecraft) (Named s) with
     | Some t => match minecraft_files t with Some d => thereb texture_data d | None => true end | None => false end) ("sky" :: "default" :: materials minecraft_theme) = true) as X by (vm_compute; reflexivity).
  rewrite forallb_forall in X. specialize (X s' Hi). rewrite Et in X. split; [|split].
  - clear - Hi Et. assert (Forall (fun s => forall t, dget tname_eqb (discovered minecraft) (Named s) = Some t -> handled t) ("sky" :: "default" :: materials minecraft_theme)) as Y.
    { repeat (constructor; [intros t0 E; vm_compute in E; injection E as <-; cbn; repeat split; discriminate|]). constructor. }
    rewrite Forall_forall in Y. exact (Y s' Hi t Et).
  - intros d Ed. rewrite Ed in X. apply thereb_ok. exact X.
  - intros f Hf. destruct t; cbn [named_by] in Hf; try contradiction.
    + exfalso. clear - Hi Et. assert (forallb (fun s => match dget tname_eqb (discovered minecraft) (Named s) with Some (Colour _ _ _ _) => false | _ => true end) ("sky" :: "default" :: materials minecraft_theme) = true) as Y by (vm_compute; reflexivity).
      rewrite forallb_forall in Y. specialize (Y s' Hi). rewrite Et in Y. discriminate.
    + eexists. split; [reflexivity|]. exact Hf.
Qed.
Definition only_colours : list (tname * tex) := discovered [].
Lemma only_base : has_base only_colours. Proof. split; vm_compute; reflexivity. Qed.
Lemma colours_installed tree l show : (forall c, one_line (show c)) -> In "data/hxr/empty.png" tree ->
  exists c, copy_data tree colour_files (asked (tm_init only_colours) l) = (c, None) /\ all_installed (emit_conf show "Python" "test" (asked (tm_init only_colours) l)) c.
Proof.
  intros SH T. apply install_lemma; [exact only_base|unfold safe_table; repeat constructor|exact SH|].
  intros t Hu. apply in_use in Hu; [|exact only_base]. destruct Hu as (n & Hn & Et).
  assert (t = Sky \/ t = Default \/ exists r g b, t = Colour SIMPLE_COLOUR r g b) as C.
  { apply texture_of_in in Et as [C|(n' & Hi)]; [auto|]. vm_compute in Hi. destruct Hi as [E|[E|[]]]; [left|right; left]; congruence. }
  destruct C as [->|[->|(r & g & b & ->)]]; cbn [handled colour_files named_by].
  - split; [exact Logic.I|]. split; [discriminate|intros f []].
  - split; [exact Logic.I|]. split; [discriminate|intros f []].
  - split; [lit|]. split.
    + intros d E. assert (d = ("data/hxr", ["empty.png"])) as -> by congruence. constructor; [split; [discriminate|exact T]|constructor].
    + intros f Hf. eexists. split; [reflexivity|exact Hf].
Qed.
Lemma dull_none tree tm : copy_data tree dull_files tm = ([], None).
Proof. unfold copy_data. induction (map snd (tm_atlas tm)) as [|t l IH]; [reflexivity|exact IH]. Qed.

(** ** The generator *)
Lemma numbered_in_use known l c k : has_base known -> numbered (asked (tm_init known) l) c k ->
  exists l', asked (tm_init known) l' = asked (tm_init known) l /\ let '(r, g, b) := c in In (RColour r g b) l'.
Proof.
  destruct c as [[r g] b]. intros HB N. exists (l ++ [RColour r g b])%list. split; [|apply in_or_app; right; left; reflexivity].
  unfold asked in *. rewrite fold_left_app. cbn [fold_left ask]. unfold numbered in N. rewrite N. reflexivity.
Qed.
Lemma generator_fails e hue vecs known l size n ctf rooms m g : true_vectors vecs -> has_base known -> mirror_factor n -> good_env e ->
  exists fuel0, forall fuel, (fuel0 <= fuel)%nat -> exists tm' w m2 st g',
    generate fuel e hue vecs (asked (tm_init known) l) size (Some n) false ctf rooms m g = (tm', Ok (w, m2, st), g') /\
    forall show fuelo extra, output_mpz show texture_data colour_files fuelo w m2 tm' extra = (emit_conf show "Python" "test" tm', [], Err FileNotFoundError).
Proof.
  intros TV HB Hn G. assert (manager (asked (tm_init known) l)) as M by (exists known, l; auto).
  destruct (lay_out_total n ctf e rooms g Hn G) as (fuel0 & T). exists fuel0. intros fuel Hl. destruct (T fuel Hl) as (st & g1 & E).
  destruct (generate_ok fuel e hue vecs _ size n ctf rooms m g st g1 TV M Hn G E)
    as (tm' & w & m2 & g' & sun & ess & EG & LO & _ & _ & _ & _ & _ & _ & _ & _ & (reqs & ST & _) & _ & (NB & _) & _).
  exists tm', w, m2, st, g'. split; [exact EG|]. intros show fuelo extra.
  destruct (start_cell n ctf st Hn LO) as (ob & d & Ho & Hd & _). destruct (NB ob d Ho Hd) as (v & tex & _ & s & vf & q & a & r & g0 & b & al & i & _ & _ & _ & _ & _ & _ & N & _).
  assert (tm' = asked (tm_init known) (l ++ reqs)) as Et by (rewrite ST; unfold asked; rewrite fold_left_app; reflexivity).
  rewrite Et in N. destruct (numbered_in_use known _ _ _ HB N) as (l' & EQ & Hi).
  destruct (intended (s_paint s) (r_turn (snd ob)) (r, g0, b)) as [[r1 g2] b1]. unfold output_mpz. rewrite Et, <- EQ.
  rewrite (colours_absent known l' r1 g2 b1 HB Hi). reflexivity.
Qed.
Lemma generator_writes tree k fuelo e hue vecs l show fl n ctf rooms m ws g : In "data/hxr/empty.png" tree -> (forall c, one_line (show c)) -> incl fl choices ->
  true_vectors vecs -> byte_hues hue -> mirror_factor n -> good_env e ->
  (7 <= k)%nat -> (S k < fuelo)%nat -> wf_map m -> header_size m = Some ws -> 2 ^ Z.of_nat (S k) <= ws <= 8192 ->
  Z.of_nat (List.length (tm_atlas (asked (tm_init only_colours) l))) <= 57000 -> len (m_ents m) <= 2 ^ 30 ->
  exists fuel0, forall fuel, (fuel0 <= fuel)%nat -> exists tm' w m2 st g' extra copied bs m',
    generate fuel e hue vecs (asked (tm_init only_colours) l) (2 ^ Z.of_nat (S k)) (Some n) false ctf rooms m g = (tm', Ok (w, m2, st), g') /\
    update [] (Some fl) = Ok extra /\
    output_mpz show tree colour_files fuelo w m2 tm' extra = (config_text show tm' extra, copied, Ok bs) /\
    all_installed (config_text show tm' extra) copied /\ read_rest bs = Ok (m', []) /\
    forall x y z tex, in_world (2 ^ Z.of_nat (S k)) (x, y, z) ->
      (world_lookup (S k) m' x y z = Some tex <-> exists ob, In ob (u_rooms st) /\ has_block tm' (snd ob) (x, y, z) tex).
Proof.
  intros TR SH FL TV BH Hn G Hk Hf WM HS Hws HA HE.
  assert (manager (asked (tm_init only_colours) l)) as M by (exists only_colours, l; split; [exact only_base|reflexivity]).
  destruct (lay_out_total n ctf e rooms g Hn G) as (fuel0 & T). exists fuel0. intros fuel Hl. destruct (T fuel Hl) as (st & g1 & E).
  destruct (generated k fuel fuelo e hue vecs _ n ctf rooms m ws g st g1 TV BH M Hn G Hk Hf WM HS Hws HA HE E)
    as (tm' & w & m2 & g' & sun & ess & bs & m' & EG & EO & ER & _ & _ & _ & B & _).
  destruct (generate_ok fuel e hue vecs _ (2 ^ Z.of_nat (S k)) n ctf rooms m g st g1 TV M Hn G E)
    as (tm2 & w2 & m3 & g3 & sun2 & ess2 & EG2 & _ & _ & _ & _ & _ & _ & _ & _ & _ & (reqs & ST & _) & _).
  assert (tm2 = tm') as -> by congruence.
  assert (tm' = asked (tm_init only_colours) (l ++ reqs)) as Et by (rewrite ST; unfold asked; rewrite fold_left_app; reflexivity).
  assert (safe_table only_colours) as SK by (unfold safe_table; repeat constructor).
  destruct (flavours_text only_colours (l ++ reqs) show fl only_base SK FL) as (EU & FV & ESt).
  destruct (colours_installed tree (l ++ reqs) show SH TR) as (c & EC & IN). rewrite <- Et in *.
  exists tm', w, m2, st, g', (List.concat (map setting_lines fl)), c, bs, m'.
  split; [exact EG|]. split; [exact EU|]. split; [unfold output_mpz; rewrite EC, EO; reflexivity|]. split; [|split; [exact ER|]].
  - intros s f Hs N. rewrite ESt in Hs. apply in_app_or in Hs as [Hs|Hs]; [exact (IN s f Hs N)|].
    rewrite Forall_forall in FV. specialize (FV s Hs). exfalso. clear - FV N Hs.
    apply in_concat in Hs as (b & Hb & Hs). apply in_map_iff in Hb as (nm & <- & _). unfold setting_lines, flavour_sets in Hs.
    destruct (String.eqb nm "space_station"); [|destruct (String.eqb nm "maliwan"); [|destruct (String.eqb nm "crushed_blacks")]]; cbn [map fst snd append] in Hs;
      repeat (destruct Hs as [<-|Hs]; [revert N; not_named|]); destruct Hs.
  - intros x y z tex (Hx & Hy & Hz). apply B; assumption.
Qed.
