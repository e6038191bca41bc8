(** Proofs about the layout the map generator makes. *)
From Coq Require Import QArith.
From Verif Require Import Py VecModel VecSpec VecProofs VoxelModel VoxelSpec CodecModel CodecSpec OutModel OutSpec
  UpmModel UpmSpec UpmProofs UpmRandom UpmTrace UpmInv UpmMore UpmMore2 UpmFinal UpmBridge
  KitModel KitSpec KitProofs RoomModel MagicaModel RoomSpec MagicaProofs TexModel TexSpec LightModel LightSpec VoxFileModel
  ShippedModel ShippedSpec ShippedProofs ShippedDraw GenModel GenSpec.
Local Open Scope Z_scope.

(** ** Classes *)
Lemma shipped_self : Forall (fun s => shipped_of (s_class s) = Some s) shipped_rooms.
Proof.
  unfold shipped_rooms at 1.
  repeat (apply Forall_cons; [lazy [shipped_of find shipped_rooms]; lazy [s_class]; exact eq_refl|]). apply Forall_nil.
Qed.
Lemma shipped_free : Forall (fun s => flag_free (s_class s)) shipped_rooms.
Proof. unfold shipped_rooms at 1. repeat (apply Forall_cons; [intros ? ?; split; exact eq_refl|]). apply Forall_nil. Qed.
Lemma shipped_of_self s : In s shipped_rooms -> shipped_of (s_class s) = Some s.
Proof. pose proof shipped_self as F. rewrite Forall_forall in F. apply F. Qed.
Lemma shipped_of_in c s : shipped_of c = Some s -> In s shipped_rooms.
Proof. intros E. apply find_some in E. tauto. Qed.
Lemma same_positions s r : In s shipped_rooms -> r_cls r = s_class s -> positions r = positions (room_of s (r_pos r) (r_turn r)).
Proof.
  intros Hi E. rewrite (room_of_eq s _ _ Hi). unfold positions. cbn [r_cls r_pos r_turn r_flags]. rewrite E.
  pose proof shipped_free as F. rewrite Forall_forall in F. destruct (F s Hi (r_flags r) []) as [-> _]. reflexivity.
Qed.
Lemma same_doorways s r : In s shipped_rooms -> r_cls r = s_class s -> doorways r = doorways (room_of s (r_pos r) (r_turn r)).
Proof.
  intros Hi E. rewrite (room_of_eq s _ _ Hi). unfold doorways. cbn [r_cls r_pos r_turn r_flags]. rewrite E.
  pose proof shipped_free as F. rewrite Forall_forall in F. destruct (F s Hi (r_flags r) []) as [_ ->]. reflexivity.
Qed.
(** The rooms in use. *)
Definition in_use (ctf : bool) : list shipped := first_room ctf :: possible_rooms ++ possible_endcaps.
Lemma first_shipped ctf : In (first_room ctf) shipped_rooms.
Proof. unfold shipped_rooms, first_room. destruct ctf; member. Qed.
Lemma rooms_shipped s : In s possible_rooms -> In s shipped_rooms.
Proof. intros H. unfold possible_rooms in H. repeat (destruct H as [<-|H]; [unfold shipped_rooms; member|]). destruct H. Qed.
Lemma caps_shipped s : In s possible_endcaps -> In s shipped_rooms.
Proof. intros H. unfold possible_endcaps in H. repeat (destruct H as [<-|H]; [unfold shipped_rooms; member|]). destruct H. Qed.
Lemma in_use_shipped ctf s : In s (in_use ctf) -> In s shipped_rooms.
Proof. intros [<-|H]; [apply first_shipped|]. apply in_app_or in H as [H|H]; [apply rooms_shipped|apply caps_shipped]; exact H. Qed.

(** ** The first room *)
Lemma rotations_of n st : mirror_factor n -> u_mirror st = Some n -> rotations st = Some (turns_of n).
Proof. intros [->|[->| ->]] E; unfold rotations; rewrite E; reflexivity. Qed.
Lemma start_is ctf : mk_room (s_class (first_room ctf)) STARTING_POSITION T0 None = start_room ctf.
Proof. reflexivity. Qed.
Lemma start_registers n ctf : mirror_factor n -> exists st, register_room (upm_init (Some n) false) (start_room ctf) = (st, None) /\
  u_mirror st = Some n /\ u_links st = [] /\ u_noclip st = false /\
  u_rooms st = combine (seq 0 (List.length (turns_of n))) (map (fun t => mirror_room t (start_room ctf)) (turns_of n)).
Proof.
  intros Hn. assert (snd (register_room (upm_init (Some n) false) (start_room ctf)) = None) as E.
  { destruct Hn as [->|[->| ->]], ctf; vm_compute; reflexivity. }
  destruct (register_room (upm_init (Some n) false) (start_room ctf)) as [st x] eqn:ER. cbn [snd] in E. subst x. exists st.
  split; [reflexivity|]. unfold register_room in ER. rewrite (rotations_of n (upm_init (Some n) false) Hn eq_refl) in ER.
  apply register_all_ok in ER as (E1 & E2 & E3 & _ & _ & E6 & _). rewrite map_length in E6. auto.
Qed.
Lemma start_doors n ctf st : mirror_factor n -> register_room (upm_init (Some n) false) (start_room ctf) = (st, None) ->
  forall c ob o, In (c, ob, o) (u_open st) -> legal_cell c.
Proof.
  intros Hn E c ob o Ho. assert (urun [ORegister (start_room ctf)] (upm_init (Some n) false) = Some st) as U by (cbn [urun ustep]; rewrite E; reflexivity).
  apply urun_any_agrees in U. subst st. apply open_doors_any_lemma in Ho. tauto.
Qed.

(** ** Placement *)
Lemma opts_plain c : In c (map s_class possible_rooms) -> rc_flags c = None.
Proof. intros H. apply in_map_iff in H as (s & <- & H). repeat (destruct H as [<-|H]; [reflexivity|]). destruct H. Qed.
Lemma opts_coherent : coherent (map s_class possible_rooms).
Proof.
  intros c c' H H' E. cbn [map possible_rooms] in H, H'.
  repeat (destruct H as [<-|H]; [repeat (destruct H' as [<-|H']; [first [reflexivity | vm_compute in E; discriminate]|]); destruct H'|]). destruct H.
Qed.
Lemma in_combine_snd {A} (l : list A) i x n : In (i, x) (combine (seq n (List.length l)) l) -> In x l.
Proof. apply in_combine_r. Qed.
Lemma rotations_mirror st st' : u_mirror st' = u_mirror st -> rotations st' = rotations st.
Proof. unfold rotations. intros ->. reflexivity. Qed.
Lemma trace_new opts st rs st' : trace opts st rs st' -> exists new, u_rooms st' = u_rooms st ++ new /\
  forall ob, In ob new -> In (r_cls (snd ob)) opts /\ forall d, In d (doorways (snd ob)) -> legal_cell (fst d).
Proof.
  induction 1 as [st|st st1 st2 st' d prev o c pos t fl rs _ Hc _ P R L _ (new & E & IH)|st st1 st' d prev o rs _ _ _ _ R _ _ _ _ _ _ (new & E & IH)].
  - exists []. rewrite app_nil_r. split; [reflexivity|intros ob []].
  - unfold register_room in R. destruct (rotations st) as [ts|] eqn:ET; [|discriminate]. apply register_all_ok in R as (_ & _ & _ & _ & _ & E6 & _).
    unfold register_link in L. destruct (rotations st1); [|discriminate]. injection L as <-. cbn [u_rooms] in E. rewrite E6, <- app_assoc in E.
    eexists. split; [exact E|]. intros ob Hob. apply in_app_or in Hob as [Hob|Hob]; [|exact (IH ob Hob)].
    destruct ob as [i r]. apply in_combine_r in Hob. apply in_map_iff in Hob as (t' & <- & Ht). cbn [snd mirror_room r_cls mk_room].
    split; [exact Hc|]. intros d0 Hd. exact (prereg_doors st _ ts t' d0 ET Ht P Hd).
  - exists new. split; [congruence|exact IH].
Qed.
(** The layout: the start rooms, then the placed ones, then the endcaps. *)
Definition laid_out (n : Z) (ctf : bool) (st : upm) : Prop :=
  exists placed caps,
    u_rooms st = combine (seq 0 (List.length (turns_of n))) (map (fun t => mirror_room t (start_room ctf)) (turns_of n)) ++ placed ++ caps /\
    (forall ob, In ob placed -> exists s, In s possible_rooms /\ r_cls (snd ob) = s_class s /\
       forall d, In d (doorways (snd ob)) -> legal_cell (fst d)) /\
    (forall ob, In ob caps -> exists s, In s possible_endcaps /\ r_cls (snd ob) = s_class s /\
       forall d, In d (positions (snd ob)) -> legal_cell d).

Lemma lay_out_run n ctf fuel e rooms g st g' : mirror_factor n -> good_env e ->
  lay_out fuel e (Some n) false ctf rooms g = (st, None, g') ->
  exists g1, urun [ORegister (start_room ctf); OPlace fuel e (map s_class possible_rooms) rooms g;
                   OEndcap false (map s_class possible_endcaps) g1] (upm_init (Some n) false) = Some st /\
  laid_out n ctf st.
Proof.
  intros Hn G E. unfold lay_out in E. rewrite start_is in E.
  destruct (start_registers n ctf Hn) as (st0 & E0 & M0 & _ & _ & R0). rewrite E0 in E.
  destruct (place_rooms fuel e st0 (map s_class possible_rooms) rooms g) as [[st1 [k|x]] g1] eqn:E1; [|discriminate].
  exists g1. cbn [urun ustep]. rewrite E0, E1, E. split; [reflexivity|].
  unfold place_rooms in E1. destruct (place_loop_trace _ _ _ G opts_coherent _ _ _ _ _ _ _ E1) as (rs & T).
  destruct (trace_new _ _ _ _ T) as (placed & E2 & P).
  destruct (endcap_ok_lemma _ _ _ _ _ _ E) as (_ & _ & caps & E3 & C1 & C2 & _).
  exists placed, caps. rewrite E3, E2, R0, <- app_assoc. split; [reflexivity|]. split.
  - intros ob Hob. destruct (P ob Hob) as [Hc D]. apply in_map_iff in Hc as (s & Es & Hs). exists s. auto.
  - intros ob Hob. destruct (C1 ob Hob) as (d & p & o & c & pos & t & _ & Hc & Eo & _). apply in_map_iff in Hc as (s & Es & Hs). exists s.
    split; [exact Hs|]. split; [rewrite Eo; cbn [mk_room r_cls]; congruence|]. intros c0 Hc0. apply (C2 ob c0 Hob Hc0).
Qed.
Lemma lay_out_total n ctf e rooms g : mirror_factor n -> good_env e ->
  exists fuel0, forall fuel, (fuel0 <= fuel)%nat -> exists st g', lay_out fuel e (Some n) false ctf rooms g = (st, None, g').
Proof.
  intros Hn G. destruct (start_registers n ctf Hn) as (st0 & E0 & M0 & _ & _ & R0).
  destruct (place_total_lemma e (map s_class possible_rooms) rooms st0 n g G) as (fuel0 & T); [discriminate|exact opts_coherent| |exact M0|exact Hn| |].
  - intros c Hc. rewrite (opts_plain c Hc). discriminate.
  - intros c ob o Ho. split; [exact (start_doors n ctf st0 Hn E0 c ob o Ho)|]. intros k Hk _ F. exfalso. apply F. exact (opts_plain k Hk).
  - exists fuel0. intros fuel Hf. destruct (T fuel Hf) as (st1 & k & g1 & E1 & _). unfold lay_out. rewrite start_is, E0, E1.
    destruct (endcap false (map s_class possible_endcaps) st1 g1) as [[st x] g'] eqn:E2.
    destruct (endcap_ok_lemma _ _ _ _ _ _ E2) as (-> & _). eauto.
Qed.

(** ** Where the rooms are *)
Definition within (n : Z) (c : cell) : Prop := let '(x, y, z) := c in - n <= x <= n /\ - n <= y <= n /\ - n <= z <= n.
Definition withinb (n : Z) (c : cell) : bool :=
  let '(x, y, z) := c in (- n <=? x) && (x <=? n) && (- n <=? y) && (y <=? n) && (- n <=? z) && (z <=? n).
Lemma withinb_ok n c : withinb n c = true -> within n c.
Proof. destruct c as [[x y] z]. unfold withinb, within. rewrite !Bool.andb_true_iff, !Z.leb_le. lia. Qed.
Lemma crot_within n t c : within n c -> within n (crot t c).
Proof. destruct c as [[x y] z], t; unfold within, crot; lia. Qed.
Lemma legal_back p t c : legal_cell (cadd p (crot t c)) -> within 5 c -> within 37 p.
Proof.
  intros L W. apply (crot_within 5 t) in W. destruct p as [[x y] z], (crot t c) as [[a b] h]. unfold legal_cell, cadd, within in *. lia.
Qed.
Lemma cells_small : Forall (fun s => rc_cells (s_class s) [] <> [] /\ forallb (withinb 5) (rc_cells (s_class s) []) = true /\
  rc_doors (s_class s) [] <> [] /\ forallb (fun d => withinb 5 (fst d)) (rc_doors (s_class s) []) = true)
  (station_flagroom :: station_tubeX :: possible_rooms ++ possible_endcaps).
Proof.
  unfold possible_rooms, possible_endcaps. cbn [app].
  repeat (apply Forall_cons; [split; [discriminate|split; [vm_compute; reflexivity|split; [discriminate|vm_compute; reflexivity]]]|]). apply Forall_nil.
Qed.
Lemma small_class ctf s : In s (in_use ctf) -> rc_cells (s_class s) [] <> [] /\ (forall c, In c (rc_cells (s_class s) []) -> within 5 c) /\
  rc_doors (s_class s) [] <> [] /\ (forall d, In d (rc_doors (s_class s) []) -> within 5 (fst d)).
Proof.
  intros Hs. pose proof cells_small as F. rewrite Forall_forall in F.
  assert (In s (station_flagroom :: station_tubeX :: possible_rooms ++ possible_endcaps)) as Hs'.
  { destruct Hs as [<-|Hs]; [unfold first_room; destruct ctf; member|right; right; exact Hs]. }
  destruct (F s Hs') as (H1 & H2 & H3 & H4). rewrite forallb_forall in H2, H4.
  split; [exact H1|]. split; [intros c Hc; apply withinb_ok; auto|]. split; [exact H3|]. intros d Hd. apply withinb_ok. auto.
Qed.
(** Every room is of a class in use and near the middle of the coordinates. *)
Lemma room_bounds n ctf st ob : laid_out n ctf st -> In ob (u_rooms st) ->
  exists s, In s (in_use ctf) /\ r_cls (snd ob) = s_class s /\ within 37 (r_pos (snd ob)).
Proof.
  intros (placed & caps & E & P & C) Hob. rewrite E in Hob. apply in_app_or in Hob as [Hob|Hob]; [|apply in_app_or in Hob as [Hob|Hob]].
  - destruct ob as [i r]. apply in_combine_r in Hob. apply in_map_iff in Hob as (t & <- & _). exists (first_room ctf).
    split; [left; reflexivity|]. unfold start_room. rewrite (room_of_eq _ _ _ (first_shipped ctf)). cbn [snd mirror_room r_cls r_pos]. split; [reflexivity|].
    apply withinb_ok. destruct t; reflexivity.
  - destruct (P ob Hob) as (s & Hs & Ec & D). exists s. assert (In s (in_use ctf)) as Hu by (right; apply in_or_app; left; exact Hs).
    split; [exact Hu|]. split; [exact Ec|]. destruct (small_class ctf s Hu) as (_ & _ & N & W).
    rewrite (same_doorways s _ (rooms_shipped s Hs) Ec), (room_of_eq s _ _ (rooms_shipped s Hs)) in D. unfold doorways in D. cbn [r_cls r_pos r_turn r_flags] in D.
    destruct (rc_doors (s_class s) []) as [|d l]; [congruence|]. specialize (D _ (or_introl eq_refl)). cbn [fst] in D.
    exact (legal_back _ _ _ D (W d (or_introl eq_refl))).
  - destruct (C ob Hob) as (s & Hs & Ec & D). exists s. assert (In s (in_use ctf)) as Hu by (right; apply in_or_app; right; exact Hs).
    split; [exact Hu|]. split; [exact Ec|]. destruct (small_class ctf s Hu) as (N & W & _).
    rewrite (same_positions s _ (caps_shipped s Hs) Ec), (room_of_eq s _ _ (caps_shipped s Hs)) in D. unfold positions in D. cbn [r_cls r_pos r_turn r_flags] in D.
    destruct (rc_cells (s_class s) []) as [|d l]; [congruence|]. specialize (D _ (or_introl eq_refl)).
    exact (legal_back _ _ _ D (W d (or_introl eq_refl))).
Qed.
Lemma room_cells n ctf st ob : laid_out n ctf st -> In ob (u_rooms st) ->
  positions (snd ob) <> [] /\ forall c, In c (positions (snd ob)) -> within 42 c.
Proof.
  intros L Hob. destruct (room_bounds n ctf st ob L Hob) as (s & Hs & Ec & W). destruct (small_class ctf s Hs) as (N & WC & _).
  rewrite (same_positions s _ (in_use_shipped ctf s Hs) Ec), (room_of_eq s _ _ (in_use_shipped ctf s Hs)). unfold positions. cbn [r_cls r_pos r_turn r_flags].
  split.
  - destruct (rc_cells (s_class s) []); [congruence|discriminate].
  - intros c Hc. apply in_map_iff in Hc as (c0 & <- & Hc0). apply WC, (crot_within 5 (r_turn (snd ob))) in Hc0.
    destruct (r_pos (snd ob)) as [[x y] z], (crot (r_turn (snd ob)) c0) as [[a b] h]. unfold within, cadd in *. lia.
Qed.
(** The number of rooms: they are disjoint. *)
Definition box (n : Z) : list cell := list_prod (list_prod (zrange (- n) (n + 1)) (zrange (- n) (n + 1))) (zrange (- n) (n + 1)).
Lemma box_in n c : within n c -> In c (box n).
Proof.
  destruct c as [[x y] z]. intros (H1 & H2 & H3). unfold box. apply in_prod; [apply in_prod|]; apply in_zrange; lia.
Qed.
Lemma zrange_length a b : a <= b -> Z.of_nat (List.length (zrange a b)) = b - a.
Proof. intros H. unfold zrange. rewrite map_length, seq_length. lia. Qed.
Lemma box_length n : 0 <= n -> Z.of_nat (List.length (box n)) = (2 * n + 1) * (2 * n + 1) * (2 * n + 1).
Proof. intros H. unfold box, cell. rewrite !prod_length, !Nat2Z.inj_mul, zrange_length by lia. f_equal; [f_equal|]; lia. Qed.
Lemma room_count n ctf st : laid_out n ctf st -> disjoint_rooms (u_rooms st) -> Z.of_nat (List.length (u_rooms st)) <= 614125.
Proof.
  intros L D. set (f := fun ob : obj => hd (0, 0, 0) (positions (snd ob))).
  assert (forall ob, In ob (u_rooms st) -> In (f ob) (positions (snd ob))) as HF.
  { intros ob Hob. destruct (room_cells n ctf st ob L Hob) as [N _]. unfold f. destruct (positions (snd ob)); [congruence|left; reflexivity]. }
  assert (NoDup (map f (u_rooms st))) as ND.
  { apply NoDup_nth_error. intros i j Hi E. rewrite map_length in Hi. rewrite !nth_error_map in E.
    destruct (nth_error (u_rooms st) i) as [a|] eqn:Ea; [|apply nth_error_None in Ea; lia].
    destruct (nth_error (u_rooms st) j) as [b|] eqn:Eb; [|discriminate]. cbn [option_map] in E.
    destruct (Nat.eq_dec i j) as [->|NE]; [reflexivity|]. exfalso.
    apply (D i j a b (f a) Ea Eb NE); [apply HF; eapply nth_error_In; exact Ea|]. assert (f a = f b) as -> by congruence.
    apply HF. eapply nth_error_In. exact Eb. }
  assert (incl (map f (u_rooms st)) (box 42)) as I.
  { intros c Hc. apply in_map_iff in Hc as (ob & <- & Hob). apply box_in. destruct (room_cells n ctf st ob L Hob) as [_ W]. apply W, HF, Hob. }
  pose proof (NoDup_incl_length ND I) as Le. rewrite map_length in Le. apply inj_le in Le. rewrite box_length in Le by lia. lia.
Qed.
