(** Proofs about drawing the shipped rooms. *)
From Coq Require Import QArith SpecFloat.
From Verif Require Import Py VecModel VecSpec VecProofs VoxelModel VoxelSpec VoxelProofs
  UpmModel UpmSpec UpmProofs UpmBridge RoomClasses KitModel KitSpec KitProofs RoomModel MagicaModel RoomSpec MagicaProofs
  TexModel TexSpec TexProofs CodecModel OutModel LightModel LightSpec VoxFileModel ShippedModel ShippedSpec ShippedCheck ShippedProofs.
Local Open Scope Z_scope.

(** ** Numbers of colours *)
Definition cname (c : comp * comp * comp) : tname := let '(r, g, b) := c in Coloured r g b.
Lemma cname_inj c c' : cname c = cname c' -> c = c'.
Proof. destruct c as [[? ?] ?], c' as [[? ?] ?]. cbn. congruence. Qed.
Lemma numbered_iff known names m c k : inv known names m -> numbered m c k <-> 0 <= k /\ nth_error names (Z.to_nat k) = Some (cname c).
Proof.
  intros V. destruct c as [[r g] b]. pose proof (ask_inv known names m (RColour r g b) V) as A. cbn [servable req_name] in A.
  unfold numbered. change (ask m (RColour r g b)) with (get_colour m r g b) in A. cbn [cname].
  destruct (existsb (tname_eqb (Coloured r g b)) names) eqn:EX.
  - destruct A as (i & E & Hn). rewrite E. split.
    + intros Q. injection Q as <-. split; [lia|]. rewrite Nat2Z.id. exact Hn.
    + intros [H0 Hk]. do 2 f_equal. destruct V as [ND _]. rewrite NoDup_nth_error in ND.
      assert (i = Z.to_nat k) as ->; [|lia]. apply ND; [apply nth_error_Some; congruence|congruence].
  - destruct A as [A1 A2]. split.
    + intros Q. exfalso. rewrite Q in A1. cbn [fst] in A1. destruct A1 as (_ & B1 & _). destruct V as (_ & B2 & _).
      rewrite B2, backs_snoc in B1. apply (f_equal (@List.length _)) in B1. rewrite app_length in B1. cbn in B1. lia.
    + intros [_ Hk]. exfalso. apply nth_error_In, existsb_in in Hk. congruence.
Qed.
Definition live (known : list (tname * tex)) (tm : texman) : Prop := exists names, inv known names tm.
Lemma keeps_refl tm : keeps_numbers tm tm.
Proof. intros c k Hn. exact Hn. Qed.
Lemma keeps_trans a b c : keeps_numbers a b -> keeps_numbers b c -> keeps_numbers a c.
Proof. intros H1 H2 x k Hn. auto. Qed.
Lemma number_colour known tm c : live known tm -> exists tm' k,
  (let '(r, g, b) := c in get_colour tm r g b) = (tm', Ok k) /\ live known tm' /\ keeps_numbers tm tm' /\ numbered tm' c k.
Proof.
  intros [names V]. destruct c as [[r g] b]. pose proof (ask_inv known names tm (RColour r g b) V) as A. cbn [servable req_name ask] in A.
  destruct (existsb (tname_eqb (Coloured r g b)) names) eqn:EX.
  - destruct A as (i & E & Hn). exists tm, (Z.of_nat i). split; [exact E|]. split; [exists names; exact V|]. split; [apply keeps_refl|exact E].
  - destruct (get_colour tm r g b) as [tm' q]. cbn [fst snd] in A. destruct A as [V' ->]. exists tm', (Z.of_nat (List.length names)).
    split; [reflexivity|]. split; [exists (names ++ [Coloured r g b]); exact V'|]. split.
    + intros c k Hn. rewrite (numbered_iff _ _ _ _ _ V) in Hn. rewrite (numbered_iff _ _ _ _ _ V'). destruct Hn as [H0 Hn].
      split; [exact H0|]. rewrite nth_error_app1; [exact Hn|]. apply nth_error_Some. congruence.
    + apply (numbered_iff _ _ _ _ _ V'). split; [lia|]. rewrite Nat2Z.id, nth_error_app2 by lia. rewrite Nat.sub_diag. reflexivity.
Qed.
Lemma numbered_fun tm c k k' : numbered tm c k -> numbered tm c k' -> k = k'.
Proof. destruct c as [[r g] b]. unfold numbered. congruence. Qed.
Lemma numbered_inj known tm c c' k : live known tm -> numbered tm c k -> numbered tm c' k -> c = c'.
Proof.
  intros [names V] H1 H2. rewrite (numbered_iff _ _ _ _ _ V) in H1. rewrite (numbered_iff _ _ _ _ _ V) in H2. apply cname_inj. destruct H1, H2. congruence.
Qed.
Lemma manager_live tm : manager tm -> exists known, live known tm.
Proof. intros (known & l & HB & ->). exists known, (in_order known l). apply run_inv. exact HB. Qed.
(** A manager stays one. *)
Lemma manager_ask tm q : manager tm -> manager (fst (ask tm q)).
Proof. intros (known & l & HB & ->). exists known, (l ++ [q]). split; [exact HB|]. unfold asked. rewrite fold_left_app. reflexivity. Qed.
(** The second manager comes from the first by requests for some of the colours. *)
Definition stems (tm tm' : texman) (l : list (comp * comp * comp)) : Prop :=
  exists reqs, tm' = asked tm reqs /\ incl (map req_name reqs) (map cname l).
Lemma stems_refl tm l : stems tm tm l.
Proof. exists []. split; [reflexivity|intros x []]. Qed.
Lemma stems_trans a b c l : stems a b l -> stems b c l -> stems a c l.
Proof.
  intros (r1 & -> & I1) (r2 & -> & I2). exists (r1 ++ r2). unfold asked. rewrite fold_left_app. split; [reflexivity|].
  rewrite map_app. apply incl_app; assumption.
Qed.
Lemma stems_incl tm tm' l l' : stems tm tm' l -> incl l l' -> stems tm tm' l'.
Proof. intros (r & E & I) L. exists r. split; [exact E|]. intros x Hx. apply I in Hx. apply in_map_iff in Hx as (c & <- & Hc). apply in_map. auto. Qed.
Lemma manager_colour tm c : manager tm -> exists tm' k,
  (let '(r, g, b) := c in get_colour tm r g b) = (tm', Ok k) /\ manager tm' /\ keeps_numbers tm tm' /\ numbered tm' c k /\ stems tm tm' [c].
Proof.
  intros M. destruct (manager_live tm M) as [known L]. destruct (number_colour known tm c L) as (tm' & k & E & _ & K & N).
  exists tm', k. split; [exact E|]. destruct c as [[r g] b]. split; [|split; [exact K|split; [exact N|]]].
  - pose proof (manager_ask tm (RColour r g b) M) as M'. cbn [ask] in M'. rewrite E in M'. exact M'.
  - exists [RColour r g b]. split; [unfold asked; cbn [fold_left ask]; rewrite E; reflexivity|apply incl_refl].
Qed.

(** ** Colours of the painters *)
Definition bytes3 (c : Z * Z * Z) : Prop := let '(r, g, b) := c in 0 <= r < 256 /\ 0 <= g < 256 /\ 0 <= b < 256.
Definition comp_fits (z : Z) : bool :=
  Bool.eqb (comp_is (CFl (int_div z 255)) 1) (z =? 255) && Bool.eqb (comp_is (CFl (int_div z 255)) 0) (z =? 0) &&
  match fl_trunc (fl_mul (int_div z 255) (fl_int 255)) with
  | Ok w => Bool.eqb (w =? 50) (z =? 50) && Bool.eqb (w =? 255) (z =? 255) && Bool.eqb (w =? 0) (z =? 0)
  | Err _ => false
  end.
Lemma comps_fit : forallb comp_fits (zrange 0 256) = true.
Proof. vm_compute. reflexivity. Qed.
Lemma comp_fit z : 0 <= z < 256 -> comp_fits z = true.
Proof. intros Hz. pose proof comps_fit as F. rewrite forallb_forall in F. apply F. apply in_zrange. exact Hz. Qed.
Lemma comp_one z : 0 <= z < 256 -> comp_is (CFl (int_div z 255)) 1 = (z =? 255) /\ comp_is (CFl (int_div z 255)) 0 = (z =? 0) /\
  exists w, fl_trunc (fl_mul (int_div z 255) (fl_int 255)) = Ok w /\ (w =? 50) = (z =? 50) /\ (w =? 255) = (z =? 255) /\ (w =? 0) = (z =? 0).
Proof.
  intros Hz. pose proof (comp_fit z Hz) as F. unfold comp_fits in F.
  destruct (fl_trunc _) as [w|]; [|rewrite Bool.andb_false_r in F; discriminate].
  rewrite !Bool.andb_true_iff, !Bool.eqb_true_iff in F. destruct F as [[F1 F2] [[F3 F4] F5]]. split; [exact F1|]. split; [exact F2|].
  exists w. auto.
Qed.
Definition own_ok (k : painter) (tm : texman) (own : own_textures) : Prop :=
  match k with
  | Mapped => let '(a, b, c) := own in
      numbered tm (tenths 9, tenths 9, tenths 9) a /\ numbered tm (CInt 1, CInt 0, CInt 0) b /\ numbered tm (tenths 1, tenths 1, tenths 1) c
  | _ => True
  end.
Lemma own_keeps k tm tm' own : keeps_numbers tm tm' -> own_ok k tm own -> own_ok k tm' own.
Proof. intros K. destruct k; cbn [own_ok]; auto. destruct own as [[a b] c]. intros (H1 & H2 & H3). auto. Qed.
Definition own_colours (k : painter) : list (comp * comp * comp) :=
  match k with Mapped => [(tenths 9, tenths 9, tenths 9); (CInt 1, CInt 0, CInt 0); (tenths 1, tenths 1, tenths 1)] | _ => [] end.
Lemma init_ok k tm : manager tm -> exists tm' own, init_textures k tm = (tm', Ok own) /\ manager tm' /\ keeps_numbers tm tm' /\ own_ok k tm' own /\
  stems tm tm' (own_colours k).
Proof.
  intros M. destruct k; cbn [init_textures].
  1, 2: exists tm, (0, 0, 0); repeat split; auto using keeps_refl, stems_refl.
  destruct (manager_colour tm (tenths 9, tenths 9, tenths 9) M) as (t1 & a & E1 & M1 & K1 & N1 & S1).
  destruct (manager_colour t1 (CInt 1, CInt 0, CInt 0) M1) as (t2 & b & E2 & M2 & K2 & N2 & S2).
  destruct (manager_colour t2 (tenths 1, tenths 1, tenths 1) M2) as (t3 & c & E3 & M3 & K3 & N3 & S3).
  assert (auto_get_c tm "wall" = (t1, Ok a)) as -> by exact E1.
  assert (auto_get_c t1 "accent" = (t2, Ok b)) as -> by exact E2.
  assert (auto_get_c t2 "floor" = (t3, Ok c)) as -> by exact E3.
  cbn [bind]. exists t3, (a, b, c). split; [reflexivity|]. split; [exact M3|].
  split; [exact (keeps_trans _ _ _ K1 (keeps_trans _ _ _ K2 K3))|]. cbn [own_ok]. split; [auto|].
  apply (stems_trans tm t1); [|apply (stems_trans t1 t2)].
  - apply (stems_incl _ _ _ _ S1). intros x [<-|[]]. cbn. auto.
  - apply (stems_incl _ _ _ _ S2). intros x [<-|[]]. cbn. auto.
  - apply (stems_incl _ _ _ _ S3). intros x [<-|[]]. cbn. auto.
Qed.
Lemma team_colour_ok orient t rgb : cell_at orient (cdir t) -> bytes3 rgb -> team_colour orient (components rgb) = intended Team t rgb.
Proof.
  intros HO HB. destruct rgb as [[r g] b]. destruct HB as (Hr & Hg & Hb). unfold team_colour, components, intended.
  destruct (comp_one r Hr) as (-> & _). destruct (comp_one g Hg) as (_ & -> & _). destruct (comp_one b Hb) as (_ & -> & _).
  destruct dirs as (DE & DN & DW & DS).
  rewrite (cell_dir_veq _ _ _ _ HO DE), (cell_dir_veq _ _ _ _ HO DN), (cell_dir_veq _ _ _ _ HO DW), (cell_dir_veq _ _ _ _ HO DS).
  destruct ((r =? 255) && (g =? 0) && (b =? 0)); destruct t; reflexivity.
Qed.
Lemma texture_ok k orient t own tm rgb : cell_at orient (cdir t) -> bytes3 rgb -> manager tm -> own_ok k tm own ->
  exists tm' n, texture_for k orient own tm (components rgb) = (tm', Ok n) /\ manager tm' /\ keeps_numbers tm tm' /\
    numbered tm' (intended k t rgb) n /\ stems tm tm' [intended k t rgb].
Proof.
  intros HO HB M HW. destruct k; cbn [texture_for].
  - destruct (manager_colour tm (components rgb) M) as (tm' & n & E & M' & K & N & ST). exists tm', n.
    destruct rgb as [[r g] b]. auto.
  - rewrite (team_colour_ok orient t rgb HO HB).
    destruct (manager_colour tm (intended Team t rgb) M) as (tm' & n & E & M' & K & N & ST). exists tm', n. auto.
  - destruct rgb as [[r g] b], own as [[x y] z]. destruct HB as (Hr & Hg & Hb). destruct HW as (W1 & W2 & W3). unfold components, intended. cbn zeta.
    destruct (comp_one r Hr) as (_ & _ & r' & -> & Er1 & Er2 & Er3). destruct (comp_one g Hg) as (_ & _ & g' & -> & Eg1 & Eg2 & Eg3).
    destruct (comp_one b Hb) as (_ & _ & b' & -> & Eb1 & Eb2 & Eb3). cbn [bind]. rewrite Er1, Er2, Eg1, Eg2, Eb1, Eb3.
    do 2 eexists. split; [reflexivity|]. split; [exact M|]. split; [apply keeps_refl|].
    split; [|apply stems_refl].
    destruct ((r =? 50) && (g =? 50) && (b =? 50)); [exact W1|]. destruct ((r =? 255) && (g =? 255) && (b =? 0)); [exact W2|exact W3].
Qed.

(** ** Voxels *)
Lemma draw_ok k m pos orient off own t : cell_at orient (cdir t) ->
  forall es : list (key * Z),
  (forall e, In e es -> 0 <= snd e /\ exists rgb, nth_error (vm_palette m) (Z.to_nat (snd e)) = Some rgb /\ bytes3 rgb) ->
  forall tm, manager tm -> own_ok k tm own ->
  exists tm', manager tm' /\ keeps_numbers tm tm' /\ stems tm tm' (map (intended k t) (vm_palette m)) /\
    (forall e rgb, In e es -> nth_error (vm_palette m) (Z.to_nat (snd e)) = Some rgb -> exists n, numbered tm' (intended k t rgb) n) /\
    forall tx, (forall rgb n, numbered tm' (intended k t rgb) n -> tx rgb = n) ->
    forall cs w g w' g', mapM (voxel_cmd m off tx) es = Ok cs -> x_calls pos orient cs w g = (Ok w', g') ->
      draw_voxels k m pos orient off own es tm w g = (tm', Ok w', g').
Proof.
  intros HO es. induction es as [|e es IH]; intros He tm M W.
  - exists tm. split; [exact M|]. split; [apply keeps_refl|]. split; [apply stems_refl|]. split; [intros e rgb []|].
    intros tx _ cs w g w' g' E X. cbn [mapM] in E. injection E as <-. cbn [x_calls] in X. injection X as <- <-. reflexivity.
  - destruct (He e (or_introl eq_refl)) as (H0 & rgb & Hn & HB).
    destruct (texture_ok k orient t own tm rgb HO HB M W) as (tm1 & n & E1 & M1 & K1 & N1 & S1).
    destruct (IH (fun x Hx => He x (or_intror Hx)) tm1 M1 (own_keeps _ _ _ _ K1 W)) as (tm' & M' & K' & S' & C & D).
    exists tm'. split; [exact M'|]. split; [exact (keeps_trans _ _ _ K1 K')|].
    split; [apply (stems_trans tm tm1); [apply (stems_incl _ _ _ _ S1); intros x [<-|[]]; apply in_map; eapply nth_error_In; exact Hn|exact S']|]. split.
    + intros e' rgb' [<-|Hi] Hr; [|exact (C e' rgb' Hi Hr)]. assert (rgb' = rgb) as -> by congruence. exists n. apply K'. exact N1.
    + intros tx T cs w g w' g' E X. cbn [mapM] in E.
      destruct (voxel_cmd m off tx e) as [c|] eqn:EC; [|discriminate]. cbn [bind] in E.
      destruct (mapM (voxel_cmd m off tx) es) as [cs'|] eqn:EM; [|discriminate]. cbn [bind] in E. injection E as <-.
      cbn [x_calls] in X. destruct (x_call pos orient c w g) as [[w1|] g1] eqn:EX; [|discriminate].
      cbn [draw_voxels]. unfold draw_voxel. unfold voxel_cmd in EC. rewrite (proj2 (Z.ltb_ge (snd e) 0)) in * by exact H0. rewrite Hn in *.
      rewrite E1. destruct (vadd SELF (key_vec (fst e))) as [a|]; [|discriminate]. cbn [bind] in *.
      destruct (vadd a off) as [o|]; [|discriminate]. cbn [bind] in EC. injection EC as <-.
      rewrite (T rgb n (K' _ _ N1)) in EX. rewrite EX. exact (D tx T cs' w1 g1 w' g' EM X).
Qed.
Definition number_of (tm : texman) (k : painter) (t : turn) (rgb : Z * Z * Z) : Z :=
  match (let '(r, g, b) := intended k t rgb in get_colour tm r g b) with (_, Ok n) => n | _ => 0 end.
Lemma number_of_ok tm k t rgb n : numbered tm (intended k t rgb) n -> number_of tm k t rgb = n.
Proof. unfold numbered, number_of. destruct (intended k t rgb) as [[r g] b]. intros ->. reflexivity. Qed.

Lemma class_palette s v q a : In s shipped_rooms -> read_file (s_file s) = Ok v -> voxel_colour (vf_voxels v) q = Some a ->
  0 <= a /\ exists rgb, nth_error (vm_palette (model_of v)) (Z.to_nat a) = Some rgb /\ bytes3 rgb.
Proof.
  intros Hi E C. destruct (class_sound s Hi) as (v' & E' & _ & F). assert (v' = v) as -> by congruence. apply voxel_colour_in in C.
  destruct q as [[x y] z]. destruct (F x y z a C) as (_ & r & g & b & al & Hn & H0 & B). split; [exact H0|]. exists (r, g, b).
  cbn [model_of vm_palette]. rewrite nth_error_map, Hn. split; [reflexivity|].
  inversion B as [|? ? B1 B']; subst. inversion B' as [|? ? B2 B'']; subst. inversion B'' as [|? ? B3 _]; subst. cbn [bytes3]. auto.
Qed.
(** The colours a room may ask for. *)
Definition colours (s : shipped) (v : voxfile) (t : turn) : list (comp * comp * comp) :=
  own_colours (s_paint s) ++ map (intended (s_paint s) t) (vm_palette (model_of v)).
(** The drawing of a room is the drawing of its model with the final numbers. *)
Lemma draw_room_any s p t pos orient tm : In s shipped_rooms -> cell_at pos p -> cell_at orient (cdir t) -> manager tm ->
  exists v tm', read_file (s_file s) = Ok v /\ manager tm' /\ keeps_numbers tm tm' /\ stems tm tm' (colours s v t) /\
    (forall q a rgb, voxel_colour (vf_voxels v) q = Some a -> nth_error (vm_palette (model_of v)) (Z.to_nat a) = Some rgb ->
       exists n, numbered tm' (intended (s_paint s) t rgb) n) /\
    forall tx, (forall rgb n, numbered tm' (intended (s_paint s) t rgb) n -> tx rgb = n) ->
    forall w g w', magica_render (model_of v) 0 0 pos orient tx w g = (Ok w', g) ->
      draw_room s pos orient tm w g = (tm', Ok w', g).
Proof.
  intros Hi HP HO M. destruct (class_model s Hi) as (v & E & EL & VM & _ & _). exists v.
  destruct (init_ok (s_paint s) tm M) as (tm1 & own & EI & M1 & K1 & W & S1).
  destruct (off_ok 0 0 orient (facing t) (facing_points orient t HO)) as (off & EO & _ & _); [right; split; reflexivity|].
  destruct (draw_ok (s_paint s) (model_of v) pos orient off own t HO (w_map (load_world (model_of v)))) with (tm := tm1) as (tm' & M' & K' & S' & C & D).
  - intros [k a] He. destruct (entry_voxel _ _ _ He) as (q & _ & Col). exact (class_palette s v q a Hi E Col).
  - exact M1.
  - exact W.
  - exists tm'. split; [exact E|]. split; [exact M'|]. split; [exact (keeps_trans _ _ _ K1 K')|].
    split; [apply (stems_trans tm tm1); [apply (stems_incl _ _ _ _ S1); apply incl_appl, incl_refl|apply (stems_incl _ _ _ _ S'); apply incl_appr, incl_refl]|]. split.
    + intros q a rgb Col Hn. destruct (voxel_entry (model_of v) q a Col) as (k & Hk & _). exact (C (k, a) rgb Hk Hn).
    + intros tx T w g w' X. unfold draw_room. rewrite EL, EI, EO. unfold magica_render in X. rewrite EO in X. cbn [bind] in X.
      destruct (mapM _ _) as [cs|] eqn:EM; [|discriminate]. apply (D tx) with (cs := cs); assumption.
Qed.
Lemma draw_room_ok s p t pos orient tm : In s shipped_rooms -> cell_at pos p -> cell_at orient (cdir t) -> manager tm ->
  exists v tm', read_file (s_file s) = Ok v /\ manager tm' /\ keeps_numbers tm tm' /\
    (forall q a rgb, voxel_colour (vf_voxels v) q = Some a -> nth_error (vm_palette (model_of v)) (Z.to_nat a) = Some rgb ->
       exists n, numbered tm' (intended (s_paint s) t rgb) n) /\
    forall w g w', magica_render (model_of v) 0 0 pos orient (number_of tm' (s_paint s) t) w g = (Ok w', g) ->
      draw_room s pos orient tm w g = (tm', Ok w', g).
Proof.
  intros Hi HP HO M. destruct (draw_room_any s p t pos orient tm Hi HP HO M) as (v & tm' & E & M' & K & _ & C & D).
  exists v, tm'. split; [exact E|]. split; [exact M'|]. split; [exact K|]. split; [exact C|].
  intros w g w'. apply D. intros rgb n. apply number_of_ok.
Qed.
Lemma drawn s p t pos orient tm size ops g : In s shipped_rooms -> room_vectors (room_of s p t) pos orient -> manager tm ->
  let w := wrun ops (new_world size) in
  exists v tm' w', read_file (s_file s) = Ok v /\ draw_room s pos orient tm w g = (tm', Ok w', g) /\ manager tm' /\ keeps_numbers tm tm' /\
    (forall q a, voxel_colour (vf_voxels v) q = Some a ->
       exists r g b al n, nth_error (vf_palette v) (Z.to_nat a) = Some (r, g, b, al) /\ numbered tm' (intended (s_paint s) t (r, g, b)) n /\
         at_voxel w' (frame p (facing t) q) = Some (repeat n 6)) /\
    (forall x y z, (forall q a, voxel_colour (vf_voxels v) q = Some a -> doubled (frame p (facing t) q) <> (halves x, halves y, halves z)) ->
       get_point w' x y z = get_point w x y z).
Proof.
  intros Hi [HP HO] M w. rewrite (room_of_eq s p t Hi) in HP, HO. cbn [r_pos r_turn] in HP, HO.
  destruct (draw_room_ok s p t pos orient tm Hi HP HO M) as (v & tm' & E & M' & K & C & D). exists v, tm'.
  destruct (class_model s Hi) as (v' & E' & _ & VM & _ & PA). assert (v' = v) as -> by congruence.
  destruct (magica_exact (model_of v) 0 0 pos orient p (facing t) (number_of tm' (s_paint s) t) HP (facing_points orient t HO)) with
    (size := size) (ops := ops) (g := g) as (w' & X & Y & Z0); [right; split; reflexivity|exact VM|].
  assert (forall q, shift q 0 0 0 = q) as SH by (intros [[x y] z]; cbn [shift]; apply t3_eq; lia).
  exists w'. split; [exact E|]. split; [exact (D w g w' X)|]. split; [exact M'|]. split; [exact K|]. split.
  - intros q a Col. destruct (Y q a Col) as (rgb & Hn & At). rewrite SH in At. destruct (C q a rgb Col Hn) as (n & Nn).
    rewrite (number_of_ok _ _ _ _ _ Nn) in At. destruct rgb as [[r g0] b]. destruct (PA _ _ _ _ Hn) as (al & Ha). exists r, g0, b, al, n. auto.
  - intros x y z Hx. apply Z0. intros q a Col. rewrite SH. exact (Hx q a Col).
Qed.

(** ** The classes *)
Ltac member := lazymatch goal with |- In ?a (?a :: _) => left; exact eq_refl | |- In _ (_ :: _) => right; member end.
Lemma classes_doors : Forall (fun s => In s bad_doors \/ doors_fit s = true) shipped_rooms.
Proof. unfold shipped_rooms, bad_doors. repeat (apply Forall_cons; [first [left; member | right; vm_compute; reflexivity]|]). apply Forall_nil. Qed.
Lemma classes_extras : Forall (fun s => In s bad_extras \/ extras_fit s = true) shipped_rooms.
Proof. unfold shipped_rooms, bad_extras. repeat (apply Forall_cons; [first [left; member | right; vm_compute; reflexivity]|]). apply Forall_nil. Qed.
Lemma good_doors s p t : In s shipped_rooms -> ~ In s bad_doors -> forall d, In d (doorways (room_of s p t)) -> usable_door (room_of s p t) d.
Proof.
  intros Hi Hn. pose proof classes_doors as F. rewrite Forall_forall in F. destruct (F s Hi) as [B|G]; [contradiction|].
  exact (doors_usable s p t Hi G).
Qed.
Lemma good_extras s : In s shipped_rooms -> ~ In s bad_extras -> furnished s.
Proof.
  intros Hi Hn. pose proof classes_extras as F. rewrite Forall_forall in F. destruct (F s Hi) as [B|G]; [contradiction|].
  exact (extras_furnish s Hi G).
Qed.
Lemma misplaced_extras s : In s bad_extras -> In s shipped_rooms /\ misplaced s.
Proof.
  intros Hb. assert (In s shipped_rooms) as Hi.
  { unfold bad_extras in Hb. repeat (destruct Hb as [<-|Hb]; [unfold shipped_rooms; member|]). destruct Hb. }
  split; [exact Hi|]. unfold bad_extras in Hb.
  repeat (destruct Hb as [<-|Hb];
    [first [ apply (extras_misplaced _ T0); [exact Hi|vm_compute; reflexivity] | apply (extras_misplaced _ T1); [exact Hi|vm_compute; reflexivity]
           | apply (extras_misplaced _ T2); [exact Hi|vm_compute; reflexivity] ]|]).
  destruct Hb.
Qed.
Lemma unusable_doors s p t : In s bad_doors -> In s shipped_rooms /\ exists d, In d (doorways (room_of s p t)) /\ ~ In (csub (fst d) (snd d)) (positions (room_of s p t)).
Proof.
  intros Hb. assert (In s shipped_rooms) as Hi.
  { unfold bad_doors in Hb. repeat (destruct Hb as [<-|Hb]; [unfold shipped_rooms; member|]). destruct Hb. }
  split; [exact Hi|]. rewrite (room_of_eq s p t Hi).
  assert (existsb (fun d => negb (existsb (cell_eqb (csub (fst d) (snd d))) (rc_cells (s_class s) []))) (rc_doors (s_class s) []) = true) as E.
  { unfold bad_doors in Hb. repeat (destruct Hb as [<-|Hb]; [vm_compute; reflexivity|]). destruct Hb. }
  apply existsb_exists in E as (d & Hd & E). apply Bool.negb_true_iff in E.
  exists (cadd p (crot t (fst d)), crot t (snd d)). unfold doorways, positions. cbn [r_cls r_pos r_turn r_flags fst snd]. split.
  - apply in_map_iff. exists d. split; [reflexivity|exact Hd].
  - rewrite moved_sub, in_map_iff. intros (x & Ex & Hx). apply moved_inj in Ex. subst x. apply existsb_cell in Hx. congruence.
Qed.
(** The reserved cells are those with a voxel. *)
Lemma cells_unique ps : forall ds ds', Forall2 cell_at ps ds -> Forall2 cell_at ps ds' -> ds = ds'.
Proof.
  induction ps as [|v ps IH]; intros ds ds' F F'; inversion F as [|? d ? ? Hd FF]; inversion F' as [|? d' ? ? Hd' FF']; subst; [reflexivity|].
  f_equal; [|apply IH; assumption]. destruct Hd as [_ E], Hd' as [_ E']. rewrite E in E'. destruct d as [[? ?] ?], d' as [[? ?] ?].
  apply t3_inv in E' as (? & ? & ?). apply t3_eq; lia.
Qed.
Lemma reserved s p t pos orient : In s shipped_rooms -> room_vectors (room_of s p t) pos orient ->
  exists v ps, read_file (s_file s) = Ok v /\ magica_get_positions (model_of v) 0 0 pos orient = Ok ps /\
    Forall2 cell_at ps (positions (room_of s p t)) /\ NoDup (positions (room_of s p t)) /\
    forall d, In d (positions (room_of s p t)) <-> exists q a, voxel_colour (vf_voxels v) q = Some a /\ voxel_in_cell (frame p (facing t) q) d.
Proof.
  intros Hi RV. destruct (class_positions s p t pos orient Hi RV) as (v & ps & E & EP & F). exists v, ps.
  destruct RV as [HP HO]. pose proof HP as HP'. pose proof HO as HO'. rewrite (room_of_eq s p t Hi) in HP', HO'. cbn [r_pos r_turn] in HP', HO'.
  destruct (magica_cells (model_of v) 0 0 pos orient p (facing t) HP' (facing_points _ _ HO')) as (ps' & ds & EP' & F' & ND & C).
  assert (ps' = ps) as -> by congruence. rewrite (cells_unique ps _ _ F F') in *. split; [exact E|]. split; [exact EP|]. split; [exact F'|].
  split; [exact ND|]. intros d. rewrite C. assert (forall q, shift q 0 0 0 = q) as SH by (intros [[x y] z]; cbn [shift]; apply t3_eq; lia).
  split; intros (q & a & Col & Hd); exists q, a; rewrite SH in *; auto.
Qed.
Lemma flags_good : Forall (fun s => has_flag s = false \/ (extras_fit s = true /\ s_paint s = Team /\
  List.length (filter (fun x => match x with XFlag _ => true | _ => false end) (s_extra s)) = 1%nat)) shipped_rooms.
Proof.
  unfold shipped_rooms.
  repeat (apply Forall_cons; [first [left; vm_compute; reflexivity | right; split; [vm_compute; reflexivity|split; vm_compute; reflexivity]]|]). apply Forall_nil.
Qed.
Lemma flag_count hue t : forall l es, Forall2 (asked_for hue t) l es ->
  exists fs, filter (fun e => e_type e =? 14) es = fs /\
    Forall2 (asked_for hue t) (filter (fun x => match x with XFlag _ => true | _ => false end) l) fs.
Proof.
  intros l es F. induction F as [|x e l es A F (fs & <- & IH)]; eexists; (split; [reflexivity|]); [constructor|].
  cbn [filter]. pose proof A as (_ & _ & A').
  destruct x; (destruct A' as [Ty _] || destruct A' as [[Ty _]|[Ty _]]); rewrite Ty; cbn [Z.eqb Pos.eqb]; auto.
Qed.
Lemma flag_one s p t pos orient hue m g : In s shipped_rooms -> has_flag s = true -> room_vectors (room_of s p t) pos orient ->
  exists es m' g' e, run_extras (LIGHTMAN hue) pos orient (s_extra s) m g = (Ok m', g') /\ more_ents m es m' /\
    filter (fun e => e_type e =? 14) es = [e] /\ hd_error (e_attrs e) = Some (AInt (team_of t)) /\ inside_room (room_of s p t) e /\
    s_paint s = Team.
Proof.
  intros Hi HF RV. pose proof flags_good as G. rewrite Forall_forall in G. destruct (G s Hi) as [B|(E & P & L)]; [congruence|].
  destruct (extras_furnish s Hi E p t pos orient hue m g RV) as (es & m' & g' & R & M & A & I).
  destruct (flag_count hue t _ _ A) as (fs & Ef & Af).
  destruct (filter _ (s_extra s)) as [|x [|? ?]] eqn:EX; try discriminate. destruct fs as [|e [|? ?]]; [inversion Af| |inversion Af as [|? ? ? ? ? Af2]; inversion Af2].
  assert (asked_for hue t x e) as Ae by (inversion Af; assumption).
  exists es, m', g', e. split; [exact R|]. split; [exact M|]. split; [exact Ef|].
  assert (In x (filter (fun x => match x with XFlag _ => true | _ => false end) (s_extra s))) as Hx by (rewrite EX; left; reflexivity).
  apply filter_In in Hx as [_ Hx]. destruct x; try discriminate. destruct Ae as (_ & _ & _ & At). rewrite At. split; [reflexivity|].
  split; [|exact P]. rewrite Forall_forall in I. apply I.
  assert (In e (filter (fun e => e_type e =? 14) es)) as He by (rewrite Ef; left; reflexivity). apply filter_In in He. tauto.
Qed.

Lemma team_paint_ok t : team_paint (team_of t) = intended Team t (255, 0, 0).
Proof. destruct t; reflexivity. Qed.
Lemma flag_and_walls s p t pos orient hue m tm size ops g : In s shipped_rooms -> has_flag s = true -> room_vectors (room_of s p t) pos orient -> manager tm ->
  let w := wrun ops (new_world size) in
  exists v es m' g1 e tm' w', read_file (s_file s) = Ok v /\
    run_extras (LIGHTMAN hue) pos orient (s_extra s) m g = (Ok m', g1) /\ more_ents m es m' /\
    filter (fun e => e_type e =? 14) es = [e] /\ hd_error (e_attrs e) = Some (AInt (team_of t)) /\ inside_room (room_of s p t) e /\
    draw_room s pos orient tm w g = (tm', Ok w', g) /\
    forall q a al, voxel_colour (vf_voxels v) q = Some a -> nth_error (vf_palette v) (Z.to_nat a) = Some (255, 0, 0, al) ->
      exists n, numbered tm' (team_paint (team_of t)) n /\ at_voxel w' (frame p (facing t) q) = Some (repeat n 6).
Proof.
  intros Hi HF RV M w.
  destruct (flag_one s p t pos orient hue m g Hi HF RV) as (es & m' & g1 & e & R & Me & Fe & Te & Ie & P).
  destruct (drawn s p t pos orient tm size ops g Hi RV M) as (v & tm' & w' & E & D & _ & _ & V & _).
  exists v, es, m', g1, e, tm', w'. split; [exact E|]. split; [exact R|]. split; [exact Me|]. split; [exact Fe|]. split; [exact Te|].
  split; [exact Ie|]. split; [exact D|]. intros q a al Col Hn.
  destruct (V q a Col) as (r & g0 & b & al' & n & Hn' & N & At). rewrite Hn in Hn'. assert ((r, g0, b) = (255, 0, 0)) as Er by congruence.
  exists n. rewrite Er, P in N. rewrite team_paint_ok. auto.
Qed.
Lemma team_of_inj t t' : team_of t = team_of t' -> t = t'.
Proof. destruct t, t'; cbn; intros; congruence. Qed.
Lemma numbers_distinct tm c c' k : manager tm -> numbered tm c k -> numbered tm c' k -> c = c'.
Proof. intros M. destruct (manager_live tm M) as [known L]. exact (numbered_inj known tm c c' k L). Qed.
