(** Proofs about crossing the shipped rooms on foot: all classes, in all places. *)
From Coq Require Import MSetPositive.
From Verif Require Import Py VecModel VecSpec VoxelModel VoxelSpec CodecModel CodecSpec OutModel OutSpec UpmModel UpmSpec UpmProofs UpmInv UpmMore VecProofs
  KitModel KitSpec KitProofs KitTile RoomModel MagicaModel RoomSpec RoomProofs MagicaProofs VoxFileModel ShippedModel ShippedSpec ShippedProofs ShippedDraw
  GenModel GenSpec GenLayout PassSpec PassCheck PassProofs FootSpec FootCheck FootProofs.
Local Open Scope Z_scope.

(** ** One class *)
Lemma hop_mono (air air' block block' : cell -> Prop) h h' a b : (forall v, air v -> air' v) -> (forall v, block v -> block' v) -> h <= h' ->
  hop air block h a b -> hop air' block' h' a b.
Proof.
  intros A B L. unfold hop. destruct a as [[x y] z], b as [[i j] k]. intros ((F & v & U & V) & D & top & H1 & H2 & C1 & C2).
  split; [split; [exact (fits_mono _ _ _ A F)|exists v; auto]|]. split; [exact D|]. exists top. split; [lia|]. split; [exact H2|].
  split; intros u Hu; apply (fits_mono _ _ _ A); auto.
Qed.
Lemma stands_mono (air air' block block' : cell -> Prop) a : (forall v, air v -> air' v) -> (forall v, block v -> block' v) ->
  stands air block a -> stands air' block' a.
Proof. intros A B (F & v & U & V). split; [exact (fits_mono _ _ _ A F)|exists v; auto]. Qed.
Lemma hike_mono (air air' block block' : cell -> Prop) h h' a b : (forall v, air v -> air' v) -> (forall v, block v -> block' v) -> h <= h' ->
  hike air block h a b -> hike air' block' h' a b.
Proof.
  intros A B L. induction 1 as [a S|a b c S P W IH]; [constructor; exact (stands_mono _ _ _ _ _ A B S)|].
  eapply HHop; [exact (stands_mono _ _ _ _ _ A B S)|exact (hop_mono _ _ _ _ _ _ _ _ A B L P)|exact IH].
Qed.
Lemma hike_still air block h a b : h < 0 -> hike air block h a b -> a = b.
Proof.
  intros L. induction 1 as [|a b c S P W IH]; [reflexivity|]. unfold hop in P. destruct a as [[x y] z], b as [[i j] k]. destruct P as (_ & _ & top & H & _). lia.
Qed.
Lemma on_foot_mono h h' r : h <= h' -> on_foot h r -> on_foot h' r.
Proof.
  intros L [A B]. split; [exact A|]. intros d d' l l' a a' H1 H2 H3 H4 H5 H6. exact (hike_mono _ _ _ _ _ _ _ _ (fun _ X => X) (fun _ X => X) L (B d d' l l' a a' H1 H2 H3 H4 H5 H6)).
Qed.
Lemma place_foothold s d a : In s shipped_rooms -> all_near (ground_of s) = true ->
  In a (places (rests (sets (ground_of s))) d) <-> exists l, 0 <= l <= 4 /\ foothold (room_of s (0, 0, 0) T0) d l a.
Proof.
  intros Hs N. pose proof (class_ground s Hs N) as G. rewrite places_iff, (rests_iff _ _ _ a N G). split.
  - intros (S & e & l & He & Hl & E). exists l. split; [exact Hl|]. exists e. auto.
  - intros (l & Hl & e & He & E & S). split; [exact S|]. exists e, l. auto.
Qed.
Lemma crossed_ok s h ways : In s shipped_rooms -> crossed s h ways = true ->
  on_foot h (room_of s (0, 0, 0) T0) /\ forall h', h' < 0 -> ~ on_foot h' (room_of s (0, 0, 0) T0).
Proof.
  intros Hs H. unfold crossed in H. cbv zeta in H. destruct (all_near (ground_of s)) eqn:N; [|discriminate].
  pose proof (class_ground s Hs N) as G. pose proof (ground_goes _ _ _ N G) as GO. set (st := sets (ground_of s)) in *.
  destruct (map (places (rests st)) (doors_of s)) as [|[|a0 pl0] ps] eqn:EP; [discriminate|discriminate|].
  assert (stands (room_air (room_of s (0, 0, 0) T0)) (built (room_of s (0, 0, 0) T0)) a0) as S0.
  { assert (In (a0 :: pl0) (map (places (rests st)) (doors_of s))) as Hp by (rewrite EP; left; reflexivity).
    apply in_map_iff in Hp as (d & Ed & Hd). assert (In a0 (places (rests st) d)) as Ha by (rewrite Ed; left; reflexivity).
    apply (place_foothold s d a0 Hs N) in Ha as (l & _ & e & _ & _ & S). exact S. }
  pose proof (arrive_ok _ _ _ _ h a0 _ GO S0 _ H) as AR. split.
  - split.
    + rewrite (base_doors s Hs). intros d Hd. destruct (AR (places (rests st) d)) as (_ & m & b & Hm & _); [rewrite <- EP; apply in_map; exact Hd|].
      apply (place_foothold s d m Hs N) in Hm as (l & Hl & F). exists l, m. auto.
    + rewrite (base_doors s Hs). intros d d' l l' a a' Hd Hd' Hl Hl' F F'.
      destruct (AR (places (rests st) d)) as (M & _); [rewrite <- EP; apply in_map; exact Hd|].
      destruct (AR (places (rests st) d')) as (M' & _); [rewrite <- EP; apply in_map; exact Hd'|].
      apply hike_trans with (b := a0); [apply (M a)|apply (M' a')]; apply (place_foothold s _ _ Hs N); eauto.
  - intros h' L [_ B]. destruct (AR (a0 :: pl0)) as (_ & m & b & Hm & Hb & Ne); [left; reflexivity|]. apply Ne.
    assert (In (a0 :: pl0) (map (places (rests st)) (doors_of s))) as Hp by (rewrite EP; left; reflexivity).
    apply in_map_iff in Hp as (d & Ed & Hd). rewrite <- Ed in Hm, Hb.
    apply (place_foothold s d m Hs N) in Hm as (l & Hl & F). apply (place_foothold s d b Hs N) in Hb as (l' & Hl' & F').
    rewrite (base_doors s Hs) in B. exact (hike_still _ _ h' m b L (B d d l l' m b Hd Hd Hl Hl' F F')).
Qed.
Lemma stuck_ok s h n m : In s shipped_rooms -> stuck s h n m = true -> ~ on_foot (Z.of_nat h) (room_of s (0, 0, 0) T0).
Proof.
  intros Hs H [_ B]. rewrite (base_doors s Hs) in B. unfold stuck in H. cbv zeta in H. destruct (all_near (ground_of s)) eqn:N; [|discriminate].
  pose proof (class_ground s Hs N) as G. pose proof (ground_goes _ _ _ N G) as GO. set (st := sets (ground_of s)) in *.
  destruct (nth_error (doors_of s) n) as [d|] eqn:E1; [|discriminate]. destruct (nth_error (doors_of s) m) as [d'|] eqn:E2; [|discriminate].
  apply nth_error_In in E1, E2.
  destruct (places (rests st) d) as [|a la] eqn:P1; [discriminate|]. destruct (places (rests st) d') as [|b lb] eqn:P2; [discriminate|].
  assert (In a (places (rests st) d)) as Ha by (rewrite P1; left; reflexivity). assert (In b (places (rests st) d')) as Hb by (rewrite P2; left; reflexivity).
  apply (place_foothold s d a Hs N) in Ha as (l & Hl & F). apply (place_foothold s d' b Hs N) in Hb as (l' & Hl' & F').
  specialize (B d d' l l' a b E1 E2 Hl Hl' F F'). destruct F as (e & He & Ee & S).
  assert (forall v, room_air (room_of s (0, 0, 0) T0) v -> ~ built (room_of s (0, 0, 0) T0) v) as AB by (intros v; apply air_not_built).
  assert (forall v, fits (room_air (room_of s (0, 0, 0) T0)) v -> near v = true) as NE by (intros v; apply (fit_near _ _ _ v N G)).
  set (next := hops (room_for st) (rests st) h) in *. destruct (closed next (reach next a)) eqn:C; [|discriminate].
  assert (forall c, In c (reach next a) -> stands (room_air (room_of s (0, 0, 0) T0)) (built (room_of s (0, 0, 0) T0)) c) as SR.
  { intros c Hc. exact (proj2 (hike_ends _ _ _ _ _ (reach_sound _ _ _ _ h a c GO AB NE S Hc))). }
  assert (In b (reach next a)) as HR.
  { apply (closed_stays _ _ _ _ h (reach next a) a b GO AB NE SR C); [|exact B]. apply reach_self. }
  apply Bool.negb_true_iff in H. assert (has (set_of (reach next a)) b = true); [|congruence].
  apply has_set; [|exact HR]. intros c Hc. apply NE. exact (proj1 (SR c Hc)).
Qed.

(** ** All classes *)
Lemma rises_crossed : Forall (fun sk => In (fst sk) shipped_rooms /\ crossed (fst sk) (snd sk) (hikes_of (fst sk)) = true) rises.
Proof. unfold rises, shipped_rooms. repeat (apply Forall_cons; [cbn [fst snd]; split; [member|vm_compute; reflexivity]|]). apply Forall_nil. Qed.
Lemma others_crossed : Forall (fun s => In s divided \/ (exists j, In (s, j) rises) \/ crossed s 0 (hikes_of s) = true) shipped_rooms.
Proof.
  unfold shipped_rooms, divided. repeat (apply Forall_cons; [first [left; member | right; right; vm_compute; reflexivity | right; left; unfold rises; first [exists 1; member|exists 3; member|exists 6; member|exists 10; member|exists 11; member|exists 15; member|exists 16; member]]|]).
  apply Forall_nil.
Qed.
Definition stuck_at (sk : shipped * Z) : Prop := 1 <= snd sk /\ exists n m, stuck (fst sk) (Z.to_nat (snd sk - 1)) n m = true.
Ltac stuck_in n m := split; [cbn; lia|exists n, m; vm_compute; reflexivity].
Lemma rises_stuck : Forall stuck_at rises.
Proof.
  unfold rises. do 6 (apply Forall_cons; [first [stuck_in 0%nat 1%nat | stuck_in 2%nat 1%nat]|]).
  apply Forall_cons; [stuck_in 2%nat 1%nat|]. apply Forall_cons; [stuck_in 0%nat 4%nat|]. apply Forall_cons; [stuck_in 0%nat 2%nat|]. apply Forall_nil.
Qed.
Lemma crossing s p t k h : In s shipped_rooms -> ~ In s divided -> needs s k -> on_foot h (room_of s p t) <-> k <= h.
Proof.
  intros Hs ND NE. rewrite (on_foot_iff s p t h Hs). destruct NE as [R|[-> NR]].
  - pose proof rises_crossed as C. rewrite Forall_forall in C. specialize (C _ R). cbn [fst snd] in C. destruct C as [_ C].
    pose proof rises_stuck as S. rewrite Forall_forall in S. specialize (S _ R). destruct S as [L (n & m & S)]. cbn [fst snd] in *.
    apply (stuck_ok s _ n m Hs) in S. rewrite Z2Nat.id in S by lia. apply (crossed_ok s k _ Hs) in C as [C _]. split.
    + intros F. destruct (Z_le_gt_dec k h) as [|G]; [assumption|]. exfalso. apply S. apply (on_foot_mono h); [lia|exact F].
    + intros G. apply (on_foot_mono k); assumption.
  - pose proof others_crossed as C. rewrite Forall_forall in C. destruct (C s Hs) as [D|[(j & J)|D]]; [contradiction|destruct (NR j J)|].
    apply (crossed_ok s 0 _ Hs) in D as [D1 D2]. split.
    + intros F. destruct (Z_le_gt_dec 0 h) as [|G]; [assumption|]. exfalso. apply (D2 h); [lia|exact F].
    + intros G. apply (on_foot_mono 0); assumption.
Qed.

(** ** Classes that cannot be crossed *)
Lemma fits_air (air : cell -> Prop) a : fits air a -> air a.
Proof. intros F. exact (F a (body_self a)). Qed.
Lemma rise_walk (air : cell -> Prop) x y n : forall z, (forall u, z <= u <= z + Z.of_nat n -> air (x, y, u)) -> walk air (x, y, z) (x, y, z + Z.of_nat n).
Proof.
  induction n as [|n IH]; intros z H.
  - rewrite Z.add_0_r. constructor. apply H. lia.
  - apply WStep with (b := (x, y, z + 1)); [apply H; lia|cbn [beside]; lia|].
    replace (z + Z.of_nat (S n)) with (z + 1 + Z.of_nat n) by lia. apply IH. intros u Hu. apply H. lia.
Qed.
Lemma hop_walk air block h a b : hop air block h a b -> walk air a b.
Proof.
  destruct a as [[x y] z], b as [[i j] k]. intros (S & D & top & H1 & H2 & A & B).
  assert (walk air (x, y, z) (x, y, top)) as W1.
  { replace top with (z + Z.of_nat (Z.to_nat (top - z))) by lia. apply rise_walk. intros u Hu. apply fits_air, A. lia. }
  assert (walk air (i, j, top) (i, j, k)) as W2.
  { apply walk_sym. replace top with (k + Z.of_nat (Z.to_nat (top - k))) by lia. apply rise_walk. intros u Hu. apply fits_air, B. lia. }
  eapply walk_trans; [exact W1|]. eapply walk_trans; [|exact W2]. apply walk_step; [apply fits_air, A; lia|apply fits_air, B; lia|cbn [beside]; lia].
Qed.
Lemma hike_walk air block h a b : hike air block h a b -> walk air a b.
Proof.
  induction 1 as [a S|a b c S P W IH]; [constructor; apply fits_air; exact (proj1 S)|]. eapply walk_trans; [exact (hop_walk _ _ _ _ _ P)|exact IH].
Qed.
Lemma threshold_in d e l : side d = true -> In e [0; 1; -1] -> 0 <= l <= 4 -> voxel_in_cell (threshold d e l) (sill d).
Proof.
  unfold threshold, doorstep, side. destruct d as [[[x y] z] [[a b] c]]. unfold sill. cbn [fst snd csub cadd voxel_in_cell]. intros S He Hl.
  assert (e = 0 \/ e = 1 \/ e = -1) as E by (cbn [In] in He; lia). apply Bool.andb_true_iff in S.
  assert ((a = 1 \/ a = -1) /\ b = 0 \/ a = 0 /\ (b = 1 \/ b = -1)) as [[[-> | ->] ->]|[-> [-> | ->]]] by lia; destruct E as [->|[->| ->]]; lia.
Qed.
Lemma divided_sides : Forall (fun s => forallb side (doors_of s) = true) divided.
Proof. unfold divided. repeat (apply Forall_cons; [vm_compute; reflexivity|]). apply Forall_nil. Qed.
Lemma side_move p t d : side d = true -> side (move p t d) = true.
Proof. destruct d as [[[x y] z] [[a b] c]]. unfold side, move. cbn [snd]. rewrite !Bool.andb_true_iff. destruct t; cbn [crot]; lia. Qed.
Lemma divided_stuck s p t h : In s divided -> ~ on_foot h (room_of s p t).
Proof.
  intros D [A B]. destruct (divided_cut s p t D) as (Hs & d & d' & Hd & Hd' & _ & C).
  assert (forall d, In d (doorways (room_of s p t)) -> side d = true) as SD.
  { intros x Hx. rewrite (doorways_move s p t Hs) in Hx. apply in_map_iff in Hx as (x0 & <- & Hx). apply side_move.
    pose proof divided_sides as F. rewrite Forall_forall in F. specialize (F s D). rewrite forallb_forall in F. exact (F x0 Hx). }
  destruct (A d Hd) as (l & a & Hl & F). destruct (A d' Hd') as (l' & a' & Hl' & F'). pose proof (B d d' l l' a a' Hd Hd' Hl Hl' F F') as W.
  destruct F as (e & He & Ea & _). destruct F' as (e' & He' & Ea' & _).
  apply (C a a'); [rewrite Ea; apply threshold_in; auto|rewrite Ea'; apply threshold_in; auto|exact (hike_walk _ _ _ _ _ W)].
Qed.

(** ** Level doorways *)
Lemma level_iff s p t d : In s shipped_rooms -> level_doorway (room_of s p t) (move p t d) <-> level_doorway (room_of s (0, 0, 0) T0) d.
Proof.
  intros Hs. unfold level_doorway. split; intros H e He; destruct (H e He) as [F U]; rewrite carry_threshold in *.
  - apply (fits_iff s p t _ Hs) in F. split; [exact F|]. intros v Hv. apply (built_iff s p t v Hs). apply U. apply carry_under_in. exact Hv.
  - split; [apply (fits_iff s p t _ Hs); exact F|]. intros v Hv. apply carry_under in Hv as (q & Hq & <-). apply (built_iff s p t q Hs). exact (U q Hq).
Qed.
Lemma even_iff s d : In s shipped_rooms -> all_near (ground_of s) = true -> even_on (sets (ground_of s)) d = true <-> level_doorway (room_of s (0, 0, 0) T0) d.
Proof.
  intros Hs N. pose proof (class_ground s Hs N) as G. unfold even_on, level_doorway. rewrite forallb_forall.
  split; intros H e He; specialize (H e He).
  - destruct (room_for (sets (ground_of s)) (threshold d e 1)) eqn:F; [|discriminate]. apply (room_for_iff _ _ _ _ N G) in F. split; [exact F|].
    intros v Hv. apply soles_iff in Hv as (o & Ho & ->). rewrite forallb_forall in H. apply (has_block_iff _ _ _ _ N G). exact (H o Ho).
  - destruct H as [F U]. apply (room_for_iff _ _ _ _ N G) in F. rewrite F. apply forallb_forall. intros o Ho. apply (has_block_iff _ _ _ _ N G).
    apply U. apply soles_iff. eauto.
Qed.
Lemma classes_level : Forall (fun s => all_near (ground_of s) = true /\ (In s uneven \/ even_doors s = true)) shipped_rooms.
Proof.
  unfold shipped_rooms, uneven. repeat (apply Forall_cons; [split; [vm_compute; reflexivity|first [left; member | right; vm_compute; reflexivity]]|]). apply Forall_nil.
Qed.
Lemma uneven_not : Forall (fun s => In s shipped_rooms /\ even_doors s = false) uneven.
Proof. unfold uneven, shipped_rooms. repeat (apply Forall_cons; [split; [member|vm_compute; reflexivity]|]). apply Forall_nil. Qed.
Lemma level_doors s p t d : In s shipped_rooms -> ~ In s uneven -> In d (doorways (room_of s p t)) -> level_doorway (room_of s p t) d.
Proof.
  intros Hs NU Hd. pose proof classes_level as C. rewrite Forall_forall in C. destruct (C s Hs) as [N [U|E]]; [contradiction|].
  rewrite (doorways_move s p t Hs) in Hd. apply in_map_iff in Hd as (d0 & <- & Hd). apply (level_iff s p t d0 Hs). apply (even_iff s d0 Hs N).
  unfold even_doors in E. cbv zeta in E. rewrite forallb_forall in E. exact (E d0 Hd).
Qed.
Lemma uneven_doors s p t : In s uneven -> In s shipped_rooms /\ exists d, In d (doorways (room_of s p t)) /\ ~ level_doorway (room_of s p t) d.
Proof.
  intros U. pose proof uneven_not as F. rewrite Forall_forall in F. destruct (F s U) as [Hs E]. split; [exact Hs|].
  pose proof classes_level as C. rewrite Forall_forall in C. destruct (C s Hs) as [N _].
  assert (exists d, In d (doors_of s) /\ even_on (sets (ground_of s)) d = false) as (d & Hd & Ed).
  { unfold even_doors in E. cbv zeta in E. clear -E. induction (doors_of s) as [|d l IH]; [discriminate|]. cbn [forallb] in E.
    destruct (even_on (sets (ground_of s)) d) eqn:Q; [|exists d; split; [left; reflexivity|exact Q]]. destruct (IH E) as (d' & Hd & H). exists d'. split; [right; exact Hd|exact H]. }
  exists (move p t d). rewrite (doorways_move s p t Hs). split; [apply in_map; exact Hd|]. rewrite (level_iff s p t d Hs), <- (even_iff s d Hs N). congruence.
Qed.
