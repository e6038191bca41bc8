(** Texture properties C46, C55, C56 and C57. *)
From Coq Require Import Ascii.
From Verif Require Import Py UpmModel TexModel TexSpec TexProofs.
Local Open Scope Z_scope.
Local Open Scope string_scope.

(** ** C46 — texture numbers *)
(** A manager with three named textures; four requests, one of them unknown. *)
Example C46_example :
  let known := discovered paper in
  let l := [RGet "paper3"; RColour (CInt 1) (CInt 0) (CInt 0); RGet "nothing"; RGet "paper3"] in
  has_base known /\ servable known (RGet "paper4") = true /\ servable known (RGet "nothing") = false /\
  snd (ask (asked (tm_init known) l) (RGet "paper4")) = Ok 4 /\
  in_order known l = [Named "sky"; Named "default"; Named "paper3"; Coloured (CInt 1) (CInt 0) (CInt 0)].
Proof. split; [exact paper_base|]. vm_compute. auto. Qed.

(** A request that can be served is answered by the place of its name in the list of names
    in the order of first use, which begins with sky and default. *)
Theorem C46_numbers_in_order : forall known l q, has_base known -> servable known q = true ->
  exists k, snd (ask (asked (tm_init known) l) q) = Ok (Z.of_nat k) /\
            nth_error (in_order known (l ++ [q])) k = Some (req_name q).
Proof. exact answer_place. Qed.
Print Assumptions C46_numbers_in_order.

(** No name has two places. *)
Theorem C46_no_repeats : forall known l, has_base known -> NoDup (in_order known l).
Proof. exact in_order_nodup. Qed.
Print Assumptions C46_no_repeats.

(** Answers never change. *)
Theorem C46_stable : forall known l l' q k, has_base known ->
  snd (ask (asked (tm_init known) l) q) = Ok k -> snd (ask (asked (tm_init known) (l ++ q :: l')) q) = Ok k.
Proof. exact stable. Qed.
Print Assumptions C46_stable.

(** Different names have different numbers. *)
Theorem C46_distinct : forall known l q q' k, has_base known ->
  snd (ask (asked (tm_init known) l) q) = Ok k -> snd (ask (asked (tm_init known) (l ++ [q])) q') = Ok k ->
  req_name q = req_name q'.
Proof. exact distinct. Qed.
Print Assumptions C46_distinct.

(** An unknown name is a KeyError and changes nothing. *)
Theorem C46_unknown_rejected : forall known l q, has_base known -> servable known q = false ->
  ask (asked (tm_init known) l) q = (asked (tm_init known) l, Err KeyError).
Proof. exact unserved. Qed.
Print Assumptions C46_unknown_rejected.

(** The texture stored under number k is the one the k-th name means, and the configuration
    lists the textures in that order, each with its own number. *)
Theorem C46_configuration_matches : forall known l show author name, has_base known ->
  exists ts, Forall2 (fun n t => texture_of known n = Some t) (in_order known l) ts /\
    tm_atlas (asked (tm_init known) l) = combine (map Z.of_nat (seq 0 (List.length ts))) ts /\
    emit_conf show author name (asked (tm_init known) l) = header author name ++
      fold_right append "" (map (fun kt => conf show (fst kt) (snd kt)) (combine (map Z.of_nat (seq 0 (List.length ts))) ts)).
Proof. exact config_full. Qed.
Print Assumptions C46_configuration_matches.

(** In the colour manager every category has one colour, hence one number. *)
Theorem C46_category_fixed : forall known l, has_base known -> forall c, exists k,
  snd (auto_get_c (asked (tm_init known) l) c) = Ok k /\
  fst (auto_get_c (asked (tm_init known) l) c) = asked (tm_init known) (l ++ [category_request c]) /\
  forall l', snd (auto_get_c (asked (tm_init known) (l ++ category_request c :: l')) c) = Ok k.
Proof. exact category_fixed. Qed.
Print Assumptions C46_category_fixed.

(** Equal colours need not have equal numbers: red as 1, 0, 0 and red as 1.0, 0.0, 0.0
    (the category 'accent' and a palette colour 255/255) are numbered apart. *)
Theorem C46_int_and_float_colours_apart : exists known r g b r' g' b', has_base known /\
  r = CInt 1 /\ g = CInt 0 /\ b = CInt 0 /\ r' = CFl (int_div 255 255) /\ g' = CFl (int_div 0 255) /\ b' = CFl (int_div 0 255) /\
  snd (ask (tm_init known) (RColour r g b)) = Ok 2 /\
  snd (ask (asked (tm_init known) [RColour r g b]) (RColour r' g' b')) = Ok 3.
Proof. exact equal_colours_refuted. Qed.
Print Assumptions C46_int_and_float_colours_apart.

(** ** C55 — themes *)
Example C55_example : exists m' g',
  themed_get_c minecraft_theme (tm_init (discovered minecraft)) "accent" (fun _ => 3) = (m', Ok (Number 2), g') /\ In "accent" categories.
Proof. eexists; eexists. split; [vm_compute; reflexivity|]. cbn. tauto. Qed.

(** Every material of three of the four themes exists: asking for any of the five
    categories, in any state and with any draws, gives a number. *)
Theorem C55_minecraft_paper_primary_partial : forall c, In c categories -> forall l g,
  (exists k m' g', themed_get_c minecraft_theme (asked (tm_init (discovered minecraft)) l) c g = (m', Ok (Number k), g')) /\
  (exists k m' g', themed_get_c paper_theme (asked (tm_init (discovered paper)) l) c g = (m', Ok (Number k), g')) /\
  (exists k m' g', themed_get_c primary_theme (asked (tm_init (discovered primary)) l) c g = (m', Ok (Number k), g')).
Proof. exact themes_partial. Qed.
Print Assumptions C55_minecraft_paper_primary_partial.

(** The default theme: three of the five categories. *)
Theorem C55_default_theme_partial : forall l c g, In c ["column"; "wall"; "accent"] -> exists k m' g',
  themed_get_c dull_theme (asked (tm_init (discovered dull)) l) c g = (m', Ok (Number k), g').
Proof. exact dull_partial. Qed.
Print Assumptions C55_default_theme_partial.

(** Refuted for the default theme: its generic and floor materials name textures that do
    not exist (tex8, tex115). *)
Theorem C55_default_theme_refuted : exists l g,
  snd (fst (themed_get_c dull_theme (asked (tm_init (discovered dull)) l) "generic" g)) = Err KeyError /\
  exists g', snd (fst (themed_get_c dull_theme (asked (tm_init (discovered dull)) l) "floor" g')) = Err KeyError.
Proof. exact dull_refuted. Qed.
Print Assumptions C55_default_theme_refuted.

(** Any other category is answered by a name instead of a number. *)
Theorem C55_other_category_refuted : forall th m c g, ~ In c categories -> th_generic th <> [] ->
  exists s g', In s (th_generic th) /\ themed_get_c th m c g = (m, Ok (Text s), g').
Proof. exact unknown_category. Qed.
Print Assumptions C55_other_category_refuted.

(** ** C56 — lines of the configuration *)
Example C56_example : safe_table (discovered primary) /\ tidy_table (discovered primary) /\ has_base (discovered primary) /\
  safe_table (discovered paper) /\ safe_table (discovered minecraft) /\
  List.length (statements (emit_conf (fun _ => "x") "Python" "test" (asked (tm_init (discovered primary)) [RGet "red"; RGet "nothing"; RGet "blue"]))) = 13%nat.
Proof.
  split; [unfold safe_table; repeat constructor|]. split; [unfold tidy_table; repeat (constructor; [lit|]); constructor|].
  split; [exact primary_base|]. split; [unfold safe_table; repeat constructor|]. split; [unfold safe_table; repeat constructor|].
  vm_compute. reflexivity.
Qed.

(** With no coloured bump mapped texture in the table, the statements of the configuration are
    those of the header followed by those of each texture, in order. *)
Theorem C56_statements_partial : forall known l show author name, has_base known -> safe_table known ->
  exists ts, Forall2 (fun n t => texture_of known n = Some t) (in_order known l) ts /\
    statements (emit_conf show author name (asked (tm_init known) l)) = (statements (header author name) ++
      List.concat (map (fun kt => statements (conf show (fst kt) (snd kt))) (combine (map Z.of_nat (seq 0 (List.length ts))) ts)))%list.
Proof. exact config_statements. Qed.
Print Assumptions C56_statements_partial.

(** … and it opens exactly one slot for every number given out. *)
Theorem C56_one_slot_each_partial : forall known l show author name, has_base known -> safe_table known -> tidy_table known ->
  (forall c, one_line (show c)) -> one_line author -> one_line name ->
  List.length (filter opens_slot (statements (emit_conf show author name (asked (tm_init known) l)))) =
  List.length (in_order known l).
Proof. exact config_slots. Qed.
Print Assumptions C56_one_slot_each_partial.

(** Refuted for the default theme: after tex4 the shader statement of the next texture is lost in the
    colour statement of tex4. *)
Theorem C56_statements_refuted : exists l show,
  let text := emit_conf show "Python" "test" (asked (tm_init (discovered dull)) l) in
  in_order (discovered dull) l = [Named "sky"; Named "default"; Named "tex4"; Named "tex92"] /\
  (exists t, texture_of (discovered dull) (Named "tex92") = Some t /\
             In "setshader bumpspecmapparallaxworld" (statements (conf show 3 t))) /\
  ~ In "setshader bumpspecmapparallaxworld" (statements text) /\
  In "texcolor 0.25 0.75 0.125setshader bumpspecmapparallaxworld" (statements text).
Proof. exact lines_refuted. Qed.
Print Assumptions C56_statements_refuted.

(** ** C57 — name of the configuration file *)
Example C57_example : cfg_name "maps/castle.mpz" = "maps/castle.cfg" /\ occurs ".mpz" "maps/castle.mpz" /\ cfg_name "castle" = "castle".
Proof. split; [reflexivity|]. split; [|reflexivity]. exists "maps/castle", "". reflexivity. Qed.

(** The configuration goes to another file than the map exactly when the name of the map contains ".mpz". *)
Theorem C57_separate_files_partial : forall name, cfg_name name <> name <-> occurs ".mpz" name.
Proof. exact separate_files. Qed.
Print Assumptions C57_separate_files_partial.

(** Refuted: any other name is used for both, and the map, written last, replaces the configuration. *)
Theorem C57_separate_files_refuted : exists name, cfg_name name = name.
Proof. exact same_file. Qed.
Print Assumptions C57_separate_files_refuted.
