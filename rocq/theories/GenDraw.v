(** Proofs about drawing the rooms of a generated map. *)
From Coq Require Import QArith.
From Verif Require Import Py VecModel VecSpec VecProofs VoxelModel VoxelSpec VoxelProofs CodecModel CodecSpec OutModel OutSpec
  UpmModel UpmSpec UpmProofs UpmBridge KitModel KitSpec KitProofs RoomModel MagicaModel RoomSpec MagicaProofs TexModel TexSpec TexProofs
  LightModel LightSpec LightProofs VoxFileModel ShippedModel ShippedSpec ShippedProofs ShippedDraw GenModel GenSpec GenLayout.
Local Open Scope Z_scope.

(** ** The numbers of the colours *)
Lemma stems_inv known tm tm' l : stems tm tm' l -> forall names, inv known names tm ->
  exists extra, inv known (names ++ extra) tm' /\ incl extra (map cname l).
Proof.
  intros (reqs & -> & I). revert tm I. induction reqs as [|q reqs IH]; intros tm I names V.
  - exists []. rewrite app_nil_r. split; [exact V|intros x []].
  - pose proof (ask_inv known names tm q V) as A. assert (incl (map req_name reqs) (map cname l)) as I' by (intros x Hx; apply I; right; exact Hx).
    assert (In (req_name q) (map cname l)) as Hq by (apply I; left; reflexivity).
    destruct q as [s|r g b]; [exfalso; apply in_map_iff in Hq as (c & E & _); destruct c as [[? ?] ?]; discriminate|].
    cbn [servable req_name] in *. unfold asked. cbn [fold_left]. fold (asked (fst (ask tm (RColour r g b))) reqs).
    destruct (existsb (tname_eqb (Coloured r g b)) names).
    + destruct A as (i & E & _). rewrite E. cbn [fst]. exact (IH tm I' names V).
    + destruct A as [A _]. destruct (IH _ I' _ A) as (extra & V' & Ix). exists (Coloured r g b :: extra).
      rewrite <- app_assoc in V'. split; [exact V'|]. intros x [<-|Hx]; auto.
Qed.
Lemma numbered_small tm tm' l c k : manager tm -> stems tm tm' l -> numbered tm' c k ->
  0 <= k < Z.of_nat (List.length (tm_atlas tm)) + Z.of_nat (List.length l).
Proof.
  intros M S N. destruct (manager_live tm M) as (known & names & V). destruct (stems_inv known tm tm' l S names V) as (extra & V' & Ix).
  apply (numbered_iff _ _ _ _ _ V') in N as [H0 N].
  assert (List.length (tm_atlas tm) = List.length names) as ->.
  { destruct V as (_ & _ & (ts & -> & F) & _). rewrite slots_length. symmetry. exact (F2_length _ _ _ F). }
  assert (List.length extra <= List.length l)%nat.
  { rewrite <- (map_length cname l). apply NoDup_incl_length; [|exact Ix]. destruct V' as [ND _].
    clear -ND. induction names as [|a names IH]; [exact ND|]. inversion ND. auto. }
  assert (Z.to_nat k < List.length (names ++ extra))%nat as L by (apply nth_error_Some; congruence). rewrite app_length in L. lia.
Qed.
(** All the colours the rooms in use may ask for. *)
Definition file_colours (s : shipped) : list (comp * comp * comp) :=
  match read_file (s_file s) with Ok v => flat_map (colours s v) CARD | Err _ => [] end.
Definition all_colours : list (comp * comp * comp) := flat_map file_colours (station_flagroom :: station_tubeX :: possible_rooms ++ possible_endcaps).
(** What holds of all results of a parser. *)
Definition gives {A} (p : P A) (Q : A -> Prop) : Prop := forall b a b', p b = Ok (a, b') -> Q a.
Lemma gives_bind {A B} (p : P A) (k : A -> P B) (Q : A -> Prop) R : gives p Q -> (forall a, Q a -> gives (k a) R) -> gives (pbind p k) R.
Proof. intros Hp Hk b c b' E. unfold pbind in E. destruct (p b) as [[a b1]|] eqn:Ep; [|discriminate]. exact (Hk a (Hp _ _ _ Ep) _ _ _ E). Qed.
Lemma gives_ret {A} (a : A) (Q : A -> Prop) : Q a -> gives (pret a) Q.
Proof. intros Ha b a' b' E. injection E as <- _. exact Ha. Qed.
Lemma gives_any {A} (p : P A) : gives p (fun _ => True). Proof. intros ? ? ? _. exact Logic.I. Qed.
Lemma gives_count {A} (p : P A) n : gives (p_repeat n p) (fun l => List.length l = n).
Proof.
  induction n as [|n IH]; cbn [p_repeat]; [apply gives_ret; reflexivity|].
  eapply gives_bind; [apply gives_any|]. intros x _. eapply gives_bind; [exact IH|]. intros l Hl. apply gives_ret. cbn [List.length]. congruence.
Qed.
Lemma palette_count n bs v : vox_read n bs = Ok v -> List.length (vf_palette v) = n.
Proof.
  unfold vox_read. intros E.
  match type of E with bind (?p bs) _ = _ => assert (gives p (fun f => List.length (vf_palette f) = n)) as Y; [|destruct (p bs) as [[f r]|] eqn:Ep; [|discriminate]] end.
  2: { cbn [bind fst] in E. assert (f = v) as -> by congruence. exact (Y _ _ _ Ep). }
  do 20 (eapply gives_bind; [apply gives_any|]; intros ? _). eapply gives_bind; [apply gives_count|]. intros l Hl. apply gives_ret. exact Hl.
Qed.
Lemma own_few k : Z.of_nat (List.length (own_colours k)) <= 3.
Proof. destruct k; cbn; lia. Qed.
Lemma flat_map_length {A B} (f : A -> list B) n l : (forall a, In a l -> Z.of_nat (List.length (f a)) <= n) ->
  Z.of_nat (List.length (flat_map f l)) <= n * Z.of_nat (List.length l).
Proof.
  induction l as [|a l IH]; intros H; [cbn; lia|]. cbn [flat_map List.length]. rewrite app_length, Nat2Z.inj_add, Nat2Z.inj_succ.
  pose proof (H a (or_introl eq_refl)). specialize (IH (fun x Hx => H x (or_intror Hx))). lia.
Qed.
Lemma count_in cs : Z.of_nat (List.length (flat_map file_colours cs)) <= 1036 * Z.of_nat (List.length cs).
Proof.
  apply flat_map_length. intros s _. unfold file_colours. destruct (read_file (s_file s)) as [v|] eqn:E; [|cbn; lia]. change 1036 with (259 * 4).
  refine (Z.le_trans _ _ _ (flat_map_length (colours s v) 259 _ _) _); [|cbn [CARD List.length]; lia].
  intros t _. unfold colours. rewrite app_length, map_length. cbn [model_of vm_palette]. rewrite map_length, Nat2Z.inj_add, (palette_count _ _ _ E).
  pose proof (own_few (s_paint s)). lia.
Qed.
Lemma count_colours : Z.of_nat (List.length all_colours) <= 8288.
Proof. exact (count_in _). Qed.

(** ** The rooms *)
(** What is drawn for a room, with the numbers of a manager. *)
Definition job_of (vecs : obj -> vec * vec) (tm : texman) (ob : obj) : job :=
  match shipped_of (r_cls (snd ob)) with
  | Some s => match read_file (s_file s) with
              | Ok v => J (model_of v) 0 0 (fst (vecs ob)) (snd (vecs ob)) (number_of tm (s_paint s) (r_turn (snd ob)))
              | Err _ => J (VM [] []) 0 0 (fst (vecs ob)) (snd (vecs ob)) (fun _ => 0)
              end
  | None => J (VM [] []) 0 0 (fst (vecs ob)) (snd (vecs ob)) (fun _ => 0)
  end.
(** The room is of one of the classes. *)
Definition one_of (l : list shipped) (ob : obj) : Prop := exists s, In s l /\ r_cls (snd ob) = s_class s.
Definition of_use (ctf : bool) : obj -> Prop := one_of (in_use ctf).
Lemma colours_in l s v t : In s l -> read_file (s_file s) = Ok v -> incl (colours s v t) (flat_map file_colours l).
Proof.
  intros Hs E c Hc. refine (proj2 (in_flat_map file_colours _ c) _). exists s. split; [exact Hs|]. unfold file_colours. rewrite E.
  refine (proj2 (in_flat_map (colours s v) CARD c) _). exists t. split; [destruct t; cbn; tauto|exact Hc].
Qed.
Lemma job_of_eq_in cs (HL : incl cs shipped_rooms) vecs tm ob : one_of cs ob -> exists s v, In s cs /\ r_cls (snd ob) = s_class s /\
  shipped_of (r_cls (snd ob)) = Some s /\ read_file (s_file s) = Ok v /\ valid_model (model_of v) /\
  job_of vecs tm ob = J (model_of v) 0 0 (fst (vecs ob)) (snd (vecs ob)) (number_of tm (s_paint s) (r_turn (snd ob))).
Proof.
  intros (s & Hs & Ec). pose proof (HL s Hs) as Hi. destruct (class_model s Hi) as (v & E & _ & VM & _ & _).
  exists s, v. split; [exact Hs|]. split; [exact Ec|]. assert (shipped_of (r_cls (snd ob)) = Some s) as ES by (rewrite Ec; apply shipped_of_self; exact Hi).
  split; [exact ES|]. split; [exact E|]. split; [exact VM|]. unfold job_of. rewrite ES, E. reflexivity.
Qed.
Lemma job_of_ok_in cs (HL : incl cs shipped_rooms) vecs tm ob : true_vectors vecs -> one_of cs ob -> job_ok (job_of vecs tm ob).
Proof.
  intros TV U. destruct (job_of_eq_in cs HL vecs tm ob U) as (s & v & _ & _ & _ & _ & VM & ->). destruct (TV ob) as [HP HO].
  split; [exact VM|]. cbn [j_pos j_orient j_west j_south]. split; [exists (r_pos (snd ob)); exact HP|].
  exists (facing (r_turn (snd ob))). split; [exact (facing_points _ _ HO)|right; auto].
Qed.
Lemma job_cells_in cs (HL : incl cs shipped_rooms) vecs tm ob d : true_vectors vecs -> one_of cs ob -> job_cell (job_of vecs tm ob) d <-> In d (positions (snd ob)).
Proof.
  intros TV U. destruct (job_of_eq_in cs HL vecs tm ob U) as (s & v & Hs & Ec & _ & E & VM & ->). pose proof (HL s Hs) as Hi.
  destruct (TV ob) as [HP HO]. rewrite (same_positions s _ Hi Ec).
  destruct (reserved s (r_pos (snd ob)) (r_turn (snd ob)) (fst (vecs ob)) (snd (vecs ob)) Hi) as (v' & ps & E' & EP & F & _ & _).
  { rewrite (room_of_eq s _ _ Hi). split; assumption. }
  assert (v' = v) as -> by congruence. unfold job_cell. cbn [j_model j_west j_south j_pos j_orient]. split.
  - intros (ps' & u & EP' & Hu & Hd). assert (ps' = ps) as -> by congruence. destruct (Forall2_in_l _ _ _ F u Hu) as (d' & Hd' & Hc).
    assert (d' = d) as -> by (pose proof (cells_unique [u] [d] [d'] (Forall2_cons _ _ Hd (Forall2_nil _)) (Forall2_cons _ _ Hc (Forall2_nil _))); congruence). exact Hd'.
  - intros Hd. destruct (Forall2_in_r _ _ _ F d Hd) as (u & Hu & Hc). exists ps, u. auto.
Qed.
Lemma jobs_disjoint_in cs (HL : incl cs shipped_rooms) vecs tm l : true_vectors vecs -> Forall (one_of cs) l -> disjoint_rooms l -> cells_disjoint (map (job_of vecs tm) l).
Proof.
  intros TV. unfold cells_disjoint. induction l as [|ob l IH]; intros F D; [constructor|]. inversion F as [|? ? U F']; subst. cbn [map]. constructor.
  - rewrite Forall_forall. intros j Hj. apply in_map_iff in Hj as (ob' & <- & Hob'). intros d H1 H2.
    apply (job_cells_in cs HL vecs tm ob d TV U) in H1. assert (one_of cs ob') as U' by (rewrite Forall_forall in F'; auto).
    apply (job_cells_in cs HL vecs tm ob' d TV U') in H2. apply In_nth_error in Hob' as (i & Hi).
    apply (D O (S i) ob ob' d eq_refl Hi); [discriminate|exact H1|exact H2].
  - apply IH; [exact F'|]. intros i j a b c Ha Hb Hij. apply (D (S i) (S j) a b c Ha Hb). congruence.
Qed.
(** What the rooms ask for. *)
Definition furnished_at (hue : vec -> Z * Z * Z) (ob : obj) (es : list entity) : Prop :=
  exists s, shipped_of (r_cls (snd ob)) = Some s /\ Forall2 (asked_for hue (r_turn (snd ob))) (s_extra s) es /\
    Forall2 (stands_off (r_pos (snd ob)) (r_turn (snd ob))) (s_extra s) es.
Lemma more_app m es m1 es' m2 : more_ents m es m1 -> more_ents m1 es' m2 -> more_ents m (es ++ es') m2.
Proof.
  unfold more_ents. intros (A1 & A2 & A3 & A4 & A5 & A6 & A7 & A8 & A9 & A10) (B1 & B2 & B3 & B4 & B5 & B6 & B7 & B8 & B9 & B10).
  rewrite B1, A1, <- app_assoc. split; [reflexivity|]. repeat split; congruence.
Qed.
Lemma render_rooms_ok_in cs (HL : incl cs shipped_rooms) hue vecs : true_vectors vecs -> forall obs, Forall (one_of cs) obs -> forall tm, manager tm ->
  exists tm', manager tm' /\ keeps_numbers tm tm' /\ stems tm tm' (flat_map file_colours cs) /\
    (forall ob s v q a rgb, In ob obs -> shipped_of (r_cls (snd ob)) = Some s -> read_file (s_file s) = Ok v ->
       voxel_colour (vf_voxels v) q = Some a -> nth_error (vm_palette (model_of v)) (Z.to_nat a) = Some rgb ->
       exists n, numbered tm' (intended (s_paint s) (r_turn (snd ob)) rgb) n) /\
    forall tmF, keeps_numbers tm' tmF -> forall w w' m g, render_jobs (map (job_of vecs tmF) obs) w g = (Ok w', g) ->
      exists m' g' ess, render_rooms hue vecs obs tm w m g = (tm', Ok (w', m'), g') /\ more_ents m (List.concat ess) m' /\
        Forall2 (furnished_at hue) obs ess.
Proof.
  intros TV. induction obs as [|ob obs IH]; intros F tm M.
  - exists tm. split; [exact M|]. split; [apply keeps_refl|]. split; [apply stems_refl|]. split; [intros ob s v q a rgb []|].
    intros tmF _ w w' m g E. cbn [map render_jobs] in E. exists m, g, []. cbn [render_rooms List.concat].
    split; [congruence|]. split; [apply more_nil|constructor].
  - inversion F as [|? ? U F']; subst. destruct (job_of_eq_in cs HL vecs tm ob U) as (s & v & Hs & Ec & ES & E & VM & _).
    pose proof (HL s Hs) as Hi. destruct (TV ob) as [HP HO].
    destruct (draw_room_any s _ _ _ _ tm Hi HP HO M) as (v' & tm1 & E' & M1 & K1 & S1 & C1 & D1). assert (v' = v) as -> by congruence.
    destruct (IH F' tm1 M1) as (tm' & M' & K' & S' & C' & D'). exists tm'. split; [exact M'|]. split; [exact (keeps_trans _ _ _ K1 K')|].
    split; [apply (stems_trans tm tm1); [apply (stems_incl _ _ _ _ S1); exact (colours_in cs s v _ Hs E)|exact S']|]. split.
    + intros ob' s' v'' q a rgb [<-|Hob'] ES' E'' Col Hn; [|exact (C' ob' s' v'' q a rgb Hob' ES' E'' Col Hn)].
      assert (s' = s) as -> by congruence. assert (v'' = v) as -> by congruence. destruct (C1 q a rgb Col Hn) as (n & N). exists n. apply K'. exact N.
    + intros tmF KF w w' m g X. cbn [map render_jobs] in X.
      destruct (job_has_ops _ (job_of_ok_in cs HL vecs tmF ob TV U)) as (ops & [HR _]). rewrite HR in X. specialize (HR w g).
      destruct (job_of_eq_in cs HL vecs tmF ob U) as (s' & v'' & _ & _ & ES' & E'' & _ & EJ). assert (s' = s) as -> by congruence. assert (v'' = v) as -> by congruence.
      rewrite EJ in HR. unfold render_job in HR. cbn [j_model j_west j_south j_pos j_orient j_tex] in HR.
      assert (draw_room s (fst (vecs ob)) (snd (vecs ob)) tm w g = (tm1, Ok (wrun ops w), g)) as DR.
      { apply (D1 _) in HR; [exact HR|]. intros rgb n N. apply number_of_ok, KF, K', N. }
      destruct (class_extras s _ _ _ _ hue m g Hi HP HO) as (es & m1 & g1 & RX & MX & AX & SX).
      cbn [render_rooms]. unfold render_room. rewrite ES. rewrite (surjective_pairing (vecs ob)). rewrite DR, RX.
      assert (render_jobs (map (job_of vecs tmF) obs) (wrun ops w) g1 = (Ok w', g1)) as X1.
      { assert (Forall job_ok (map (job_of vecs tmF) obs)) as JO
          by (rewrite Forall_forall in *; intros j Hj; apply in_map_iff in Hj as (ob' & <- & Hob'); apply (job_of_ok_in cs HL); auto).
        destruct (jobs_have_ops _ JO) as (opss & FO). rewrite (render_jobs_run _ _ FO) in *. congruence. }
      destruct (D' tmF KF _ _ m1 g1 X1) as (m' & g' & ess & R' & MM & FF). rewrite R'. exists m', g', (es :: ess).
      split; [reflexivity|]. split; [cbn [List.concat]; exact (more_app _ _ _ _ _ MX MM)|]. constructor; [|exact FF].
      exists s. auto.
Qed.

(** The classes in use. *)
Lemma job_of_eq ctf vecs tm ob : of_use ctf ob -> exists s v, In s (in_use ctf) /\ r_cls (snd ob) = s_class s /\
  shipped_of (r_cls (snd ob)) = Some s /\ read_file (s_file s) = Ok v /\ valid_model (model_of v) /\
  job_of vecs tm ob = J (model_of v) 0 0 (fst (vecs ob)) (snd (vecs ob)) (number_of tm (s_paint s) (r_turn (snd ob))).
Proof. exact (job_of_eq_in (in_use ctf) (in_use_shipped ctf) vecs tm ob). Qed.
Lemma job_of_ok ctf vecs tm ob : true_vectors vecs -> of_use ctf ob -> job_ok (job_of vecs tm ob).
Proof. exact (job_of_ok_in (in_use ctf) (in_use_shipped ctf) vecs tm ob). Qed.
Lemma job_cells ctf vecs tm ob d : true_vectors vecs -> of_use ctf ob -> job_cell (job_of vecs tm ob) d <-> In d (positions (snd ob)).
Proof. exact (job_cells_in (in_use ctf) (in_use_shipped ctf) vecs tm ob d). Qed.
Lemma jobs_disjoint ctf vecs tm l : true_vectors vecs -> Forall (of_use ctf) l -> disjoint_rooms l -> cells_disjoint (map (job_of vecs tm) l).
Proof. exact (jobs_disjoint_in (in_use ctf) (in_use_shipped ctf) vecs tm l). Qed.
Lemma all_in ctf : incl (flat_map file_colours (in_use ctf)) all_colours.
Proof.
  intros c Hc. apply in_flat_map in Hc as (s & Hs & Hc). refine (proj2 (in_flat_map file_colours _ c) _). exists s. split; [|exact Hc].
  destruct Hs as [<-|Hs]; [unfold first_room; destruct ctf; member|right; right; exact Hs].
Qed.
Lemma render_rooms_ok ctf hue vecs : true_vectors vecs -> forall obs, Forall (of_use ctf) obs -> forall tm, manager tm ->
  exists tm', manager tm' /\ keeps_numbers tm tm' /\ stems tm tm' all_colours /\
    (forall ob s v q a rgb, In ob obs -> shipped_of (r_cls (snd ob)) = Some s -> read_file (s_file s) = Ok v ->
       voxel_colour (vf_voxels v) q = Some a -> nth_error (vm_palette (model_of v)) (Z.to_nat a) = Some rgb ->
       exists n, numbered tm' (intended (s_paint s) (r_turn (snd ob)) rgb) n) /\
    forall tmF, keeps_numbers tm' tmF -> forall w w' m g, render_jobs (map (job_of vecs tmF) obs) w g = (Ok w', g) ->
      exists m' g' ess, render_rooms hue vecs obs tm w m g = (tm', Ok (w', m'), g') /\ more_ents m (List.concat ess) m' /\
        Forall2 (furnished_at hue) obs ess.
Proof.
  intros TV obs F tm M. destruct (render_rooms_ok_in (in_use ctf) (in_use_shipped ctf) hue vecs TV obs F tm M) as (tm' & M' & K & S & C).
  exists tm'. split; [exact M'|]. split; [exact K|]. split; [exact (stems_incl _ _ _ _ S (all_in ctf))|exact C].
Qed.
