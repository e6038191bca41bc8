(** Proofs about crossing the rooms on foot. *)
From Coq Require Import MSetPositive.
From Verif Require Import Py VecModel VecSpec VoxelModel VoxelSpec CodecModel CodecSpec OutModel OutSpec UpmModel UpmSpec UpmProofs UpmInv UpmMore VecProofs
  KitModel KitSpec KitProofs KitTile RoomModel MagicaModel RoomSpec RoomProofs MagicaProofs VoxFileModel ShippedModel ShippedSpec ShippedProofs ShippedDraw
  GenModel GenSpec GenLayout PassSpec PassCheck PassProofs FootSpec FootCheck.
Local Open Scope Z_scope.

(** ** Sets of places *)
Lemma near_iff x y z : near (x, y, z) = true <-> 0 <= x < 256 /\ 0 <= y < 256 /\ 0 <= z < 256.
Proof. unfold near. rewrite !Bool.andb_true_iff. lia. Qed.
Lemma vkey_inj a b : near a = true -> near b = true -> vkey a = vkey b -> a = b.
Proof.
  destruct a as [[x y] z], b as [[i j] k]. rewrite !near_iff. unfold vkey. intros A B E. apply Z2Pos.inj in E; [|lia|lia]. apply t3_eq; lia.
Qed.
Lemma put_mem l : forall s k, PositiveSet.mem k (fold_left put l s) = true <-> (exists a, In a l /\ vkey a = k) \/ PositiveSet.mem k s = true.
Proof.
  induction l as [|a l IH]; intros s k; cbn [fold_left In].
  - split; [auto|]. intros [(a & [] & _)|H]; exact H.
  - rewrite IH. unfold put at 1. rewrite PositiveSet.mem_spec, PositiveSet.add_spec, <- PositiveSet.mem_spec. split.
    + intros [(b & Hb & E)|[E|H]]; [left; exists b; auto|left; exists a; auto|auto].
    + intros [(b & [<-|Hb] & E)|H]; [right; left; symmetry; exact E|left; exists b; auto|auto].
Qed.
Lemma has_set l a : (forall b, In b l -> near b = true) -> has (set_of l) a = true <-> In a l.
Proof.
  intros N. unfold has, set_of. split.
  - intros H. destruct (near a) eqn:E; [|discriminate]. apply put_mem in H as [(b & Hb & K)|H]; [|destruct (vkey a); discriminate H].
    rewrite <- (vkey_inj b a (N b Hb) E K). exact Hb.
  - intros H. rewrite (N a H). apply put_mem. left. exists a. auto.
Qed.

(** ** A ground and its sets *)
(** The air and the blocks are those of the cells and the voxels. *)
Definition ground (g : list cell * list cell) (air block : cell -> Prop) : Prop :=
  (forall v, block v <-> In v (snd g)) /\ (forall v, air v <-> (exists c, In c (fst g) /\ voxel_in_cell v c) /\ ~ In v (snd g)).
Lemma near_cells g c v : all_near g = true -> In c (fst g) -> voxel_in_cell v c -> near v = true.
Proof.
  intros N Hc Hv. unfold all_near in N. destruct (forallb near (snd g)); [|discriminate]. rewrite forallb_forall in N. specialize (N c Hc).
  destruct c as [[x y] z], v as [[i j] k]. rewrite !Bool.andb_true_iff in N. apply near_iff. cbn [voxel_in_cell] in Hv. lia.
Qed.
Lemma near_voxels g v : all_near g = true -> In v (snd g) -> near v = true.
Proof. intros N Hv. unfold all_near in N. destruct (forallb near (snd g)) eqn:E; [|discriminate]. rewrite forallb_forall in E. exact (E v Hv). Qed.
Lemma has_block_iff g air block v : all_near g = true -> ground g air block -> has (set_of (snd g)) v = true <-> block v.
Proof. intros N [B _]. rewrite B. apply has_set. intros b. apply near_voxels. exact N. Qed.
Lemma has_cell_iff g v : all_near g = true -> has (fst (sets g)) (cell_at v) = true <-> exists c, In c (fst g) /\ voxel_in_cell v c.
Proof.
  intros N. unfold sets. cbn [fst]. rewrite has_set.
  - destruct v as [[x y] z]. unfold cell_at. rewrite !Z.shiftr_div_pow2 by lia. change (2 ^ 3) with 8. split.
    + intros H. exists (x / 8, y / 8, z / 8). split; [exact H|]. cbn [voxel_in_cell]. Z.div_mod_to_equations. lia.
    + intros ([[a b] h] & Hc & H). cbn [voxel_in_cell] in H. replace (x / 8) with a by (Z.div_mod_to_equations; lia).
      replace (y / 8) with b by (Z.div_mod_to_equations; lia). replace (z / 8) with h by (Z.div_mod_to_equations; lia). exact Hc.
  - intros c Hc. unfold all_near in N. destruct (forallb near (snd g)); [|discriminate]. rewrite forallb_forall in N. specialize (N c Hc).
    destruct c as [[i j] k]. rewrite !Bool.andb_true_iff in N. apply near_iff. lia.
Qed.
Lemma free_iff g air block v : all_near g = true -> ground g air block -> free (sets g) v = true <-> air v.
Proof.
  intros N G. rewrite (proj2 G). unfold free. rewrite <- (has_cell_iff g v N), <- (proj1 G v), <- (has_block_iff g air block v N G). cbn [sets snd].
  destruct (has (fst (sets g)) (cell_at v)); [|split; [discriminate|intros [X _]; discriminate X]].
  rewrite Bool.negb_true_iff, <- Bool.not_true_iff_false. tauto.
Qed.
Lemma room_for_iff g air block a : all_near g = true -> ground g air block -> room_for (sets g) a = true <-> fits air a.
Proof.
  intros N G. unfold room_for. rewrite forallb_forall. destruct a as [[x y] z]. split.
  - intros H [[i j] k] Hv. cbn [in_body] in Hv. apply (free_iff g air block _ N G). specialize (H (i - x, j - y, k - z)). cbn [cadd] in H.
    replace (x + (i - x)) with i in H by lia. replace (y + (j - y)) with j in H by lia. replace (z + (k - z)) with k in H by lia.
    apply H. apply offsets_in; lia.
  - intros F [[i j] k] Ho. apply (free_iff g air block _ N G). apply F. unfold offsets in Ho.
    apply in_prod_iff in Ho as [Ho Hk]. apply in_prod_iff in Ho as [Hi Hj]. cbn [In] in *. cbn [cadd in_body]. lia.
Qed.
Lemma body_self a : in_body a a.
Proof. destruct a as [[x y] z]. cbn. lia. Qed.
Lemma fit_near g air block a : all_near g = true -> ground g air block -> fits air a -> near a = true.
Proof. intros N [_ A] F. specialize (F a (body_self a)). apply A in F as [(c & Hc & Hv) _]. exact (near_cells g c a N Hc Hv). Qed.
Lemma soles_iff a v : (exists o, In o soles /\ v = cadd a o) <-> under a v.
Proof.
  destruct a as [[x y] z], v as [[i j] k]. cbn [under]. split.
  - intros ([[o1 o2] o3] & Ho & E). cbn [cadd] in E. injection E as -> -> ->. cbn in Ho. repeat (destruct Ho as [Ho|Ho]; [injection Ho as <- <- <-; lia|]). destruct Ho.
  - intros H. exists (i - x, j - y, k - z). split; [|cbn [cadd]; apply t3_eq; lia].
    assert (k - z = -1) as -> by lia. assert (i - x = 0 \/ i - x = 1) as [-> | ->] by lia; assert (j - y = 0 \/ j - y = 1) as [-> | ->] by lia; cbn; auto.
Qed.
Lemma rests_iff g air block a : all_near g = true -> ground g air block -> rests (sets g) a = true <-> stands air block a.
Proof.
  intros N G. unfold rests, stands. rewrite <- (room_for_iff g air block a N G).
  assert (existsb (fun o => has (snd (sets g)) (cadd a o)) soles = true <-> exists v, under a v /\ block v) as E.
  { rewrite existsb_exists. split.
    - intros (o & Ho & H). exists (cadd a o). split; [apply soles_iff; eauto|]. apply (has_block_iff g air block _ N G). exact H.
    - intros (v & Hv & H). apply soles_iff in Hv as (o & Ho & ->). exists o. split; [exact Ho|]. apply (has_block_iff g air block _ N G). exact H. }
  rewrite <- E. destruct (existsb _ soles); [tauto|]. split; [discriminate|intros [_ X]; discriminate X].
Qed.

(** ** Steps *)
Definition goes (fit stand : cell -> bool) (air block : cell -> Prop) : Prop :=
  (forall a, fit a = true <-> fits air a) /\ (forall a, stand a = true <-> stands air block a).
Lemma ground_goes g air block : all_near g = true -> ground g air block -> goes (room_for (sets g)) (rests (sets g)) air block.
Proof. intros N G. split; intros a; [apply (room_for_iff g air block a N G)|apply (rests_iff g air block a N G)]. Qed.
Lemma land_sound fit stand n : forall x y z b, In b (land fit stand n (x, y, z)) -> fit (x, y, z) = true ->
  stand b = true /\ exists k, b = (x, y, k) /\ k <= z /\ forall u, k <= u <= z -> fit (x, y, u) = true.
Proof.
  induction n as [|n IH]; intros x y z b H F; [destruct H|]. cbn [land] in H. destruct (stand (x, y, z)) eqn:S.
  - destruct H as [<-|[]]. split; [exact S|]. exists z. split; [reflexivity|]. split; [lia|]. intros u Hu. replace u with z by lia. exact F.
  - cbn [cadd] in H. rewrite !Z.add_0_r in H. destruct (fit (x, y, z + -1)) eqn:E; [|destruct H].
    destruct (IH _ _ _ _ H E) as (S' & k & -> & L & A). split; [exact S'|]. exists k. split; [reflexivity|]. split; [lia|].
    intros u Hu. destruct (Z.eq_dec u z) as [->|]; [exact F|]. apply A. lia.
Qed.
Lemma land_complete fit stand n : forall x y z k, stand (x, y, k) = true -> k <= z < k + Z.of_nat n ->
  (forall u, k < u <= z -> stand (x, y, u) = false) -> (forall u, k <= u <= z -> fit (x, y, u) = true) -> In (x, y, k) (land fit stand n (x, y, z)).
Proof.
  induction n as [|n IH]; intros x y z k S Hz NS F; [lia|]. cbn [land]. destruct (Z.eq_dec z k) as [->|Ne]; [rewrite S; left; reflexivity|].
  rewrite (NS z) by lia. cbn [cadd]. rewrite !Z.add_0_r. rewrite (F (z + -1)) by lia. apply IH; [exact S|lia| |]; intros u Hu; [apply NS|apply F]; lia.
Qed.
Lemma sides_iff x y i j : Z.abs (i - x) + Z.abs (j - y) = 1 <-> exists d, In d sides /\ forall z, cadd (x, y, z) d = (i, j, z).
Proof.
  split.
  - intros H. exists (i - x, j - y, 0). split; [|intros z; cbn [cadd]; apply t3_eq; lia].
    assert (i - x = 1 /\ j - y = 0 \/ i - x = -1 /\ j - y = 0 \/ i - x = 0 /\ j - y = 1 \/ i - x = 0 /\ j - y = -1) as H' by lia.
    destruct H' as [[-> ->]|[[-> ->]|[[-> ->]|[-> ->]]]]; cbn; auto.
  - intros ([[d1 d2] d3] & Hd & E). specialize (E 0). cbn [cadd] in E. injection E as <- <- E.
    cbn in Hd. repeat (destruct Hd as [Hd|Hd]; [injection Hd as <- <- <-; lia|]). destruct Hd.
Qed.
Lemma climbs_iff fit stand h : forall x y z b, In b (climbs fit stand h (x, y, z)) <->
  exists r d, 0 < r <= Z.of_nat h /\ (forall u, z < u <= z + r -> fit (x, y, u) = true) /\ In d sides /\ stand b = true /\ b = cadd (x, y, z + r) d.
Proof.
  induction h as [|h IH]; intros x y z b; cbn [climbs].
  - split; [intros []|]. intros (r & d & Hr & _). lia.
  - change (cadd (x, y, z) (0, 0, 1)) with (x + 0, y + 0, z + 1). rewrite !Z.add_0_r. cbv zeta. split.
    + intros H. destruct (fit (x, y, z + 1)) eqn:F; [|destruct H]. apply in_app_iff in H as [H|H].
      * apply filter_In in H as [H S]. apply in_map_iff in H as (d & E & Hd). exists 1, d. split; [lia|]. split; [|auto].
        intros u Hu. replace u with (z + 1) by lia. exact F.
      * apply IH in H as (r & d & Hr & A & Hd & S & E). exists (r + 1), d. replace (z + (r + 1)) with (z + 1 + r) by lia. split; [lia|]. split; [|auto].
        intros u Hu. destruct (Z.eq_dec u (z + 1)) as [->|]; [exact F|]. apply A. lia.
    + intros (r & d & Hr & A & Hd & S & E). rewrite (A (z + 1)) by lia. apply in_app_iff. destruct (Z.eq_dec r 1) as [->|Ne].
      * left. apply filter_In. split; [|exact S]. apply in_map_iff. exists d. auto.
      * right. apply IH. exists (r - 1), d. replace (z + 1 + (r - 1)) with (z + r) by lia. split; [lia|]. split; [|auto]. intros u Hu. apply A. lia.
Qed.
Lemma stands_once air block x y k u : fits air (x, y, k) -> k < u -> (forall v, air v -> ~ block v) -> (forall u', k <= u' <= u -> fits air (x, y, u')) ->
  ~ stands air block (x, y, u).
Proof.
  intros F L D A [_ ([[i j] n] & Hv & B)]. cbn [under] in Hv. apply (D (i, j, n)); [|exact B]. apply (A (u - 1)); [lia|]. cbn [in_body]. lia.
Qed.
Lemma hop_iff fit stand air block h a b : goes fit stand air block -> (forall v, air v -> ~ block v) -> (forall v, fits air v -> near v = true) ->
  fits air a -> In b (hops fit stand h a) <-> hop air block (Z.of_nat h) a b.
Proof.
  intros [Hf Hs] D N Fa. destruct a as [[x y] z]. unfold hops. rewrite in_app_iff, in_flat_map, climbs_iff. unfold hop. destruct b as [[i j] k].
  assert (forall d, In d sides -> exists d1 d2, d = (d1, d2, 0)) as S0.
  { intros d Hd. cbn in Hd. repeat (destruct Hd as [<-|Hd]; [eauto|]). destruct Hd. }
  assert (forall d1 d2, In (d1, d2, 0) sides -> Z.abs (x + d1 - x) + Z.abs (y + d2 - y) = 1) as S1.
  { intros d1 d2 Hd. apply sides_iff. exists (d1, d2, 0). split; [exact Hd|]. intros w. cbn [cadd]. rewrite Z.add_0_r. reflexivity. }
  split.
  - intros [(d & Hd & H)|(r & d & Hr & A & Hd & S & E)]; destruct (S0 d Hd) as (d1 & d2 & ->); cbn [cadd] in *; rewrite Z.add_0_r in *.
    + cbv zeta in H. destruct (fit (x + d1, y + d2, z)) eqn:F; [|destruct H].
      destruct (land_sound _ _ _ _ _ _ _ H F) as (S & k' & E & L & C). injection E as -> -> ->.
      split; [apply Hs; exact S|]. split; [exact (S1 d1 d2 Hd)|]. exists z. split; [lia|]. split; [lia|]. split; intros u Hu; [replace u with z by lia; exact Fa|apply Hf, C; lia].
    + injection E as -> -> ->. apply Hs in S. split; [exact S|]. split; [exact (S1 d1 d2 Hd)|]. exists (z + r). split; [lia|]. split; [lia|].
      split; intros u Hu; [|replace u with (z + r) by lia; exact (proj1 S)]. destruct (Z.eq_dec u z) as [->|]; [exact Fa|]. apply Hf, A. lia.
  - intros (S & Hd & top & H1 & H2 & A & B). apply sides_iff in Hd as (d & Hd & E). destruct (Z_le_gt_dec k z) as [L|L].
    + left. exists d. split; [exact Hd|]. rewrite (E z). cbv zeta. assert (fit (i, j, z) = true) as F by (apply Hf, B; lia). rewrite F.
      apply land_complete; [apply Hs; exact S| | |].
      * pose proof (N _ (B z ltac:(lia))) as N1. pose proof (N _ (B k ltac:(lia))) as N2. apply near_iff in N1, N2. change (Z.of_nat 256) with 256. lia.
      * intros u Hu. destruct (stand (i, j, u)) eqn:Q; [|reflexivity]. apply Hs in Q. exfalso. revert Q.
        apply (stands_once air block i j k u); [apply (proj1 S)|lia|exact D|]. intros u' Hu'. apply B. lia.
      * intros u Hu. apply Hf, B. lia.
    + right. exists (k - z), d. replace (z + (k - z)) with k by lia. rewrite (E k). split; [lia|]. split; [intros u Hu; apply Hf, A; lia|].
      split; [exact Hd|]. split; [apply Hs; exact S|reflexivity].
Qed.
Lemma hike_ends air block h a b : hike air block h a b -> stands air block a /\ stands air block b.
Proof. induction 1; tauto. Qed.
Lemma hike_trans air block h a b c : hike air block h a b -> hike air block h b c -> hike air block h a c.
Proof. induction 1 as [|a b' b]; [auto|]. intros W. eapply HHop; eauto. Qed.
Lemma hike_hop air block h a b c : hike air block h a b -> hop air block h b c -> hike air block h a c.
Proof.
  intros H P. eapply hike_trans; [exact H|]. eapply HHop; [exact (proj2 (hike_ends _ _ _ _ _ H))|exact P|]. constructor. destruct P as [S _]. exact S.
Qed.
Lemma explore_sound next (P : cell -> Prop) n : (forall a b, P a -> In b (next a) -> P b) -> forall todo seen s,
  Forall P todo -> Forall P seen -> Forall P (explore next n todo seen s).
Proof.
  intros C. induction n as [|n IH]; intros todo seen s A B; cbn [explore]; [exact B|]. destruct todo as [|a todo]; [exact B|].
  inversion A as [|? ? Pa A']; subst. set (f := fold_left _ _ _). assert (Forall P (fst (fst f)) /\ Forall P (snd (fst f))) as F.
  { subst f. specialize (C a). revert C. generalize (next a). intros l C.
    assert (forall l acc, (forall b, In b l -> P b) -> Forall P (fst (fst acc)) /\ Forall P (snd (fst acc)) ->
      let r := fold_left (fun (acc : list cell * list cell * PositiveSet.t) b => let '(t, l, q) := acc in if has q b then acc else (b :: t, b :: l, put q b)) l acc in
      Forall P (fst (fst r)) /\ Forall P (snd (fst r))) as G.
    { clear. induction l as [|b l IH]; intros [[t l0] q] H A; [exact A|]. cbn [fold_left]. apply IH; [intros; apply H; right; assumption|].
      destruct (has q b); [exact A|]. cbn [fst snd] in *. split; constructor; try apply A; apply H; left; reflexivity. }
    apply G; [intros b; exact (C b Pa)|]. split; assumption. }
  destruct f as [[t2 l2] s2]. apply IH; apply F.
Qed.
Lemma reach_sound fit stand air block h a b : goes fit stand air block -> (forall v, air v -> ~ block v) -> (forall v, fits air v -> near v = true) ->
  stands air block a -> In b (reach (hops fit stand h) a) -> hike air block (Z.of_nat h) a b.
Proof.
  intros G D N S H. unfold reach in H.
  assert (Forall (hike air block (Z.of_nat h) a) (explore (hops fit stand h) (2 ^ 12) [a] [a] (put PositiveSet.empty a))) as F.
  { apply explore_sound.
    - intros c d Hc Hd. eapply hike_hop; [exact Hc|]. apply (hop_iff fit stand air block h c d G D N); [|exact Hd]. exact (proj1 (proj2 (hike_ends _ _ _ _ _ Hc))).
    - constructor; [constructor; exact S|constructor].
    - constructor; [constructor; exact S|constructor]. }
  rewrite Forall_forall in F. exact (F b H).
Qed.
Lemma closed_stays fit stand air block h l a b : goes fit stand air block -> (forall v, air v -> ~ block v) -> (forall v, fits air v -> near v = true) ->
  (forall c, In c l -> stands air block c) -> closed (hops fit stand h) l = true -> In a l -> hike air block (Z.of_nat h) a b -> In b l.
Proof.
  intros G D N S C Ha H. induction H as [a _|a b c Sa P W IH]; [exact Ha|]. apply IH. unfold closed in C. rewrite forallb_forall in C. specialize (C a Ha).
  rewrite forallb_forall in C. apply (hop_iff fit stand air block h a b G D N (proj1 Sa)) in P. specialize (C b P).
  apply (has_set l); [|exact C]. intros d Hd. apply N. exact (proj1 (S d Hd)).
Qed.

(** ** Paths in both directions *)
Lemma column_iff fit x y lo hi : column fit x y lo hi = true <-> forall u, lo <= u <= hi -> fit (x, y, u) = true.
Proof.
  unfold column. rewrite forallb_forall. split; intros H u Hu; apply H; [apply in_zrange|apply in_zrange in Hu]; lia.
Qed.
Lemma both_ways_ok fit stand air block h a b : goes fit stand air block -> stands air block a -> both_ways fit stand h a b = true ->
  hike air block h a b /\ hike air block h b a.
Proof.
  intros [Hf Hs] Sa H. destruct a as [[x y] z], b as [[i j] k]. unfold both_ways in H.
  destruct (Z.abs (i - x) + Z.abs (j - y) =? 1) eqn:E1; [|discriminate]. destruct (Z.abs (k - z) <=? h) eqn:E2; [|discriminate]. cbn [andb] in H.
  destruct (stand (i, j, k)) eqn:S; [|discriminate]. cbv zeta in H. destruct (column fit x y z (Z.max z k)) eqn:C1; [|discriminate].
  rewrite column_iff in C1, H. apply Hs in S. apply Z.eqb_eq in E1. apply Z.leb_le in E2.
  split; (eapply HHop; [first [exact Sa|exact S]| |constructor; first [exact Sa|exact S]]); (split; [first [exact Sa|exact S]|]); (split; [lia|]);
    exists (Z.max z k); (split; [lia|]); (split; [lia|]); split; intros u Hu; apply Hf; first [apply C1; lia|apply H; lia].
Qed.
Definition mutual air block h a b : Prop := hike air block h a b /\ hike air block h b a.
Lemma mutual_trans air block h a b c : mutual air block h a b -> mutual air block h b c -> mutual air block h a c.
Proof. intros [A B] [C D]. split; eapply hike_trans; eassumption. Qed.
Lemma mutual_stands air block h a b : mutual air block h a b -> stands air block b.
Proof. intros [A _]. exact (proj2 (hike_ends _ _ _ _ _ A)). Qed.
Lemma trek_ok fit stand air block h n : goes fit stand air block -> forall a d b, stands air block a -> trek (both_ways fit stand h) n a d = Some b ->
  mutual air block h a b.
Proof.
  intros G. induction n as [|n IH]; intros a d b S H; cbn [trek] in H; [injection H as <-; split; constructor; exact S|].
  cbv zeta in H. destruct (both_ways fit stand h a (cadd a d)) eqn:E; [|discriminate]. apply (both_ways_ok fit stand air block h _ _ G S) in E.
  eapply mutual_trans; [exact E|]. apply (IH _ d); [exact (mutual_stands _ _ _ _ _ E)|exact H].
Qed.
Lemma tour_ok fit stand air block h p : goes fit stand air block -> forall a b, stands air block a -> tour (both_ways fit stand h) a p = Some b ->
  mutual air block h a b.
Proof.
  intros G. induction p as [|[d n] p IH]; intros a b S H; cbn [tour] in H; [injection H as <-; split; constructor; exact S|].
  destruct (trek (both_ways fit stand h) n a d) as [c|] eqn:E; [|discriminate]. apply (trek_ok fit stand air block h n G _ _ _ S) in E.
  eapply mutual_trans; [exact E|]. apply IH; [exact (mutual_stands _ _ _ _ _ E)|exact H].
Qed.
Lemma arrives_ok fit stand air block h a pl p : goes fit stand air block -> stands air block a -> arrives (both_ways fit stand h) a pl p = true ->
  (forall b, In b pl -> mutual air block h a b) /\ exists m b, In m pl /\ In b pl /\ m <> b.
Proof.
  intros G S H. destruct pl as [|m [|b l]]; [discriminate|discriminate|]. unfold arrives in H.
  destruct (tour (both_ways fit stand h) a p) as [c|] eqn:E; [|discriminate]. destruct (cell_eqb c m) eqn:Q; [|discriminate]. apply cell_eqb_eq in Q. subst c.
  apply (tour_ok fit stand air block h p G _ _ S) in E. rewrite forallb_forall in H. split.
  - intros q [<-|Hq]; [exact E|]. specialize (H q Hq).
    eapply mutual_trans; [exact E|]. exact (both_ways_ok fit stand air block h m q G (mutual_stands _ _ _ _ _ E) H).
  - exists m, b. split; [left; reflexivity|]. split; [right; left; reflexivity|]. intros ->. specialize (H b (or_introl eq_refl)).
    destruct b as [[x y] z]. unfold both_ways in H. rewrite !Z.sub_diag in H. cbn in H. discriminate H.
Qed.
Lemma arrive_ok fit stand air block h a ps : goes fit stand air block -> stands air block a -> forall ways, arrive (both_ways fit stand h) a ps ways = true ->
  forall pl, In pl ps -> (forall b, In b pl -> mutual air block h a b) /\ exists m b, In m pl /\ In b pl /\ m <> b.
Proof.
  intros G S. induction ps as [|pl ps IH]; intros ways H q Hq; [destruct Hq|]. destruct ways as [|p ways]; [discriminate|]. cbn [arrive] in H.
  destruct (arrives (both_ways fit stand h) a pl p) eqn:E; [|discriminate]. destruct Hq as [<-|Hq]; [exact (arrives_ok fit stand air block h a pl p G S E)|].
  exact (IH ways H q Hq).
Qed.
Lemma places_iff stand d a : In a (places stand d) <-> stand a = true /\ exists e l, In e [0; 1; -1] /\ 0 <= l <= 4 /\ a = threshold d e l.
Proof.
  unfold places. rewrite filter_In, in_flat_map. split.
  - intros [(l & Hl & H) S]. split; [exact S|]. apply in_map_iff in H as (e & <- & He). exists e, l. split; [exact He|]. split; [|reflexivity].
    cbn [In] in Hl. lia.
  - intros (S & e & l & He & Hl & ->). split; [|exact S]. exists l. split; [|apply in_map_iff; exists e; auto].
    assert (l = 0 \/ l = 1 \/ l = 2 \/ l = 3 \/ l = 4) as H by lia. cbn [In]. intuition auto.
Qed.

(** ** The ground of a class *)
Lemma colour_of l q : In q (map place_of l) <-> exists c, voxel_colour l q = Some c.
Proof.
  induction l as [|[[[x y] z] c] l IH]; cbn [map voxel_colour In].
  - split; [intros []|]. intros (c & H). discriminate H.
  - rewrite IH. destruct (voxel_colour l q) as [c'|].
    + split; [intros _; eauto|]. intros _. right. eauto.
    + destruct (cell_eqb (x, y, z) q) eqn:E.
      * apply cell_eqb_eq in E. subst q. split; [eauto|]. intros _. left. reflexivity.
      * split; [|intros (c' & H); discriminate H]. intros [H|(c' & H)]; [|discriminate H]. unfold place_of in H. cbn [fst] in H. subst q.
        rewrite cell_eqb_refl in E. discriminate E.
Qed.
Lemma class_ground s : In s shipped_rooms -> all_near (ground_of s) = true ->
  ground (ground_of s) (room_air (room_of s (0, 0, 0) T0)) (built (room_of s (0, 0, 0) T0)).
Proof.
  intros Hs N. assert (forall v, built (room_of s (0, 0, 0) T0) v <-> In v (snd (ground_of s))) as B.
  { intros v. unfold ground_of. cbn [snd]. rewrite (room_of_eq s _ _ Hs). split.
    - intros (s' & f & q & a & H1 & H2 & H3 & H4 & H5). cbn [r_cls r_pos r_turn facing] in *.
      apply same_shipped in H2; [|exact H1|exact Hs]. subst s'. rewrite frame_origin in H5. subst q. rewrite H3. apply colour_of. eauto.
    - intros H. destruct (read_file (s_file s)) as [f|] eqn:E; [|destruct H]. apply colour_of in H as (c & H). exists s, f, v, c.
      cbn [r_cls r_pos r_turn facing]. rewrite frame_origin. auto 6. }
  split; [exact B|]. intros v. unfold room_air. rewrite <- B. unfold ground_of. cbn [fst].
  assert (in_room (room_of s (0, 0, 0) T0) v <-> exists c, In c (rc_cells (s_class s) []) /\ voxel_in_cell v c) as I; [|tauto].
  rewrite (room_of_eq s _ _ Hs). unfold in_room, positions. cbn [r_cls r_pos r_turn r_flags].
  assert (forall c, cadd (0, 0, 0) (crot T0 c) = c) as I0 by (intros [[x y] z]; reflexivity).
  rewrite (map_ext _ (fun c => c) I0), map_id. reflexivity.
Qed.
Lemma air_not_built r v : room_air r v -> ~ built r v.
Proof. intros [_ N]. exact N. Qed.

(** ** Rooms in any place *)
Lemma uncarry p t b : exists a, carry p t a = b.
Proof.
  destruct p as [[i j] k], b as [[x y] z]. exists (match t with T0 => (x - 8 * i, y - 8 * j, z - 8 * k) | T1 => (y - 8 * j, 6 - (x - 8 * i), z - 8 * k)
    | T2 => (6 - (x - 8 * i), 6 - (y - 8 * j), z - 8 * k) | T3 => (6 - (y - 8 * j), x - 8 * i, z - 8 * k) end).
  destruct t; cbn [carry]; apply t3_eq; lia.
Qed.
Lemma carry_body_in p t a q : in_body a q -> in_body (carry p t a) (frame p (facing t) q).
Proof. destruct p as [[i j] k], a as [[x y] z], q as [[v1 v2] v3], t; cbn [carry in_body facing frame tile_turn]; lia. Qed.
Lemma carry_under p t a v : under (carry p t a) v -> exists q, under a q /\ frame p (facing t) q = v.
Proof.
  intros H. exists (unframe p (facing t) v). split; [|apply frame_unframe].
  destruct p as [[i j] k], a as [[x y] z], v as [[v1 v2] v3], t; cbn [carry under facing unframe untile] in *; lia.
Qed.
Lemma carry_under_in p t a q : under a q -> under (carry p t a) (frame p (facing t) q).
Proof. destruct p as [[i j] k], a as [[x y] z], q as [[v1 v2] v3], t; cbn [carry under facing frame tile_turn]; lia. Qed.
Lemma built_iff s p t q : In s shipped_rooms -> built (room_of s p t) (frame p (facing t) q) <-> built (room_of s (0, 0, 0) T0) q.
Proof.
  intros Hs. split; [apply built_frame; exact Hs|]. intros (s' & f & q' & a & H1 & H2 & H3 & H4 & H5).
  rewrite (room_of_eq s p t Hs). rewrite (room_of_eq s _ T0 Hs) in *. cbn [r_cls r_pos r_turn facing] in *. rewrite frame_origin in H5. subst q'.
  exists s', f, q, a. cbn [r_cls r_pos r_turn]. auto 6.
Qed.
Lemma room_iff s p t q : In s shipped_rooms -> in_room (room_of s p t) (frame p (facing t) q) <-> in_room (room_of s (0, 0, 0) T0) q.
Proof.
  intros Hs. rewrite (room_of_eq s p t Hs), (room_of_eq s (0, 0, 0) T0 Hs). unfold in_room, positions. cbn [r_cls r_pos r_turn r_flags].
  assert (forall c, cadd (0, 0, 0) (crot T0 c) = c) as I0 by (intros [[x y] z]; reflexivity). rewrite (map_ext _ (fun c => c) I0), map_id.
  split; intros (c & Hc & Hv).
  - apply in_map_iff in Hc as (c0 & <- & Hc). exists c0. split; [exact Hc|]. apply voxel_unframe in Hv. rewrite unframe_frame in Hv. exact Hv.
  - exists (cadd p (crot t c)). split; [apply in_map_iff; exists c; auto|]. rewrite <- placed_facing. apply frame_in_cell. exact Hv.
Qed.
Lemma air_iff s p t q : In s shipped_rooms -> room_air (room_of s p t) (frame p (facing t) q) <-> room_air (room_of s (0, 0, 0) T0) q.
Proof. intros Hs. unfold room_air. rewrite (built_iff s p t q Hs), (room_iff s p t q Hs). reflexivity. Qed.
Lemma fits_iff s p t a : In s shipped_rooms -> fits (room_air (room_of s p t)) (carry p t a) <-> fits (room_air (room_of s (0, 0, 0) T0)) a.
Proof.
  intros Hs. split; [|apply fits_carry; exact Hs]. intros F q Hq. apply (air_iff s p t q Hs). apply F. apply carry_body_in. exact Hq.
Qed.
Lemma stands_iff s p t a : In s shipped_rooms -> stands (room_air (room_of s p t)) (built (room_of s p t)) (carry p t a) <->
  stands (room_air (room_of s (0, 0, 0) T0)) (built (room_of s (0, 0, 0) T0)) a.
Proof.
  intros Hs. unfold stands. rewrite (fits_iff s p t a Hs). split; intros [F (v & Hv & B)]; (split; [exact F|]).
  - apply carry_under in Hv as (q & Hq & <-). exists q. split; [exact Hq|]. apply (built_iff s p t q Hs). exact B.
  - exists (frame p (facing t) v). split; [apply carry_under_in; exact Hv|]. apply (built_iff s p t v Hs). exact B.
Qed.
Lemma hop_carry s p t h a b : In s shipped_rooms -> hop (room_air (room_of s p t)) (built (room_of s p t)) h (carry p t a) (carry p t b) <->
  hop (room_air (room_of s (0, 0, 0) T0)) (built (room_of s (0, 0, 0) T0)) h a b.
Proof.
  intros Hs. unfold hop. rewrite (stands_iff s p t b Hs). destruct a as [[x y] z], b as [[i j] k].
  assert (forall x y : Z, exists x1 y1, forall u, carry p t (x, y, u) = (x1, y1, 8 * snd p + u)) as C.
  { intros a b. destruct p as [[p1 p2] p3], t; cbn [carry snd]; do 2 eexists; intros u; reflexivity. }
  destruct (C x y) as (x' & y' & Ca). destruct (C i j) as (i' & j' & Cb).
  assert (Z.abs (i' - x') + Z.abs (j' - y') = Z.abs (i - x) + Z.abs (j - y)) as E.
  { specialize (Ca 0). specialize (Cb 0). pose proof (f_equal (fun c => fst (fst c)) Ca) as Ca1. pose proof (f_equal (fun c => snd (fst c)) Ca) as Ca2.
    pose proof (f_equal (fun c => fst (fst c)) Cb) as Cb1. pose proof (f_equal (fun c => snd (fst c)) Cb) as Cb2.
    clear Ca Cb. destruct p as [[p1 p2] p3], t; cbn [carry fst snd] in *; lia. }
  rewrite (Ca z), (Cb k), E. split; intros (S & D & top & H1 & H2 & A & B); (split; [exact S|]); (split; [exact D|]).
  - exists (top - 8 * snd p). split; [lia|]. split; [lia|]. split; intros u Hu; apply (fits_iff s p t _ Hs); [rewrite Ca; apply A; lia|rewrite Cb; apply B; lia].
  - exists (top + 8 * snd p). split; [lia|]. split; [lia|]. split; intros u Hu.
    + replace u with (8 * snd p + (u - 8 * snd p)) by lia. rewrite <- Ca. apply (fits_iff s p t _ Hs). apply A. lia.
    + replace u with (8 * snd p + (u - 8 * snd p)) by lia. rewrite <- Cb. apply (fits_iff s p t _ Hs). apply B. lia.
Qed.
Lemma carry_inj p t a b : carry p t a = carry p t b -> a = b.
Proof.
  intros H. pose proof (f_equal (fun c => fst (fst c)) H) as H1. pose proof (f_equal (fun c => snd (fst c)) H) as H2. pose proof (f_equal snd H) as H3. clear H.
  destruct p as [[i j] k], a as [[x y] z], b as [[x' y'] z'], t; cbn [carry fst snd] in *; apply t3_eq; lia.
Qed.
Lemma hike_carry s p t h a b : In s shipped_rooms -> hike (room_air (room_of s p t)) (built (room_of s p t)) h (carry p t a) (carry p t b) <->
  hike (room_air (room_of s (0, 0, 0) T0)) (built (room_of s (0, 0, 0) T0)) h a b.
Proof.
  intros Hs. split.
  - intros H. remember (carry p t a) as a' eqn:Ea. remember (carry p t b) as b' eqn:Eb. revert a b Ea Eb.
    induction H as [a' S|a' c' b' S P W IH]; intros a b Ea Eb.
    + assert (a = b) as <- by (apply (carry_inj p t); congruence). subst a'. constructor. apply (stands_iff s p t a Hs). exact S.
    + destruct (uncarry p t c') as (c & <-). subst a' b'. eapply HHop; [apply (stands_iff s p t a Hs); exact S|apply (hop_carry s p t h a c Hs); exact P|].
      apply IH; reflexivity.
  - induction 1 as [a S|a c b S P W IH]; [constructor; apply (stands_iff s p t a Hs); exact S|].
    eapply HHop; [apply (stands_iff s p t a Hs); exact S|apply (hop_carry s p t h a c Hs); exact P|exact IH].
Qed.
Lemma carry_threshold p t d e l : threshold (move p t d) e l = carry p t (threshold d e l).
Proof.
  unfold threshold. rewrite carry_step. destruct (doorstep d e) as [[x y] z]. destruct p as [[i j] k], t; cbn [carry cadd]; apply t3_eq; lia.
Qed.
Lemma foothold_iff s p t d l a : In s shipped_rooms -> foothold (room_of s p t) (move p t d) l (carry p t a) <-> foothold (room_of s (0, 0, 0) T0) d l a.
Proof.
  intros Hs. unfold foothold. split; intros (e & He & E & S); exists e; (split; [exact He|]).
  - rewrite carry_threshold in E. apply carry_inj in E. split; [exact E|]. apply (stands_iff s p t a Hs). exact S.
  - split; [rewrite carry_threshold, E; reflexivity|]. apply (stands_iff s p t a Hs). exact S.
Qed.
Lemma foothold_carry s p t d l a' : foothold (room_of s p t) (move p t d) l a' -> exists a, a' = carry p t a.
Proof. intros (e & _ & E & _). exists (threshold d e l). rewrite E. apply carry_threshold. Qed.
Lemma base_doors s : In s shipped_rooms -> doorways (room_of s (0, 0, 0) T0) = doors_of s.
Proof.
  intros Hs. rewrite (doorways_move s _ _ Hs). unfold doors_of. rewrite (map_ext _ (fun d => d)); [apply map_id|].
  intros [[[x y] z] [[a b] c]]. reflexivity.
Qed.
Lemma on_foot_iff s p t h : In s shipped_rooms -> on_foot h (room_of s p t) <-> on_foot h (room_of s (0, 0, 0) T0).
Proof.
  intros Hs. unfold on_foot. rewrite (base_doors s Hs), (doorways_move s p t Hs). fold (doors_of s). split; intros [A B]; split.
  - intros d Hd. destruct (A (move p t d) (in_map _ _ _ Hd)) as (l & a' & Hl & F). destruct (foothold_carry s p t d l a' F) as (a & ->).
    exists l, a. split; [exact Hl|]. apply (foothold_iff s p t d l a Hs). exact F.
  - intros d d' l l' a a' Hd Hd' Hl Hl' F F'. apply (hike_carry s p t h a a' Hs).
    apply (B (move p t d) (move p t d') l l'); try assumption; try (apply in_map; assumption); apply (foothold_iff s p t _ _ _ Hs); assumption.
  - intros d' Hd. apply in_map_iff in Hd as (d & <- & Hd). destruct (A d Hd) as (l & a & Hl & F). exists l, (carry p t a). split; [exact Hl|].
    apply (foothold_iff s p t d l a Hs). exact F.
  - intros d d' l l' a a' Hd Hd' Hl Hl' F F'. apply in_map_iff in Hd as (d0 & <- & Hd). apply in_map_iff in Hd' as (d1 & <- & Hd').
    destruct (foothold_carry s p t d0 l a F) as (b & ->). destruct (foothold_carry s p t d1 l' a' F') as (b' & ->).
    apply (hike_carry s p t h b b' Hs). apply (foothold_iff s p t _ _ _ Hs) in F, F'. exact (B d0 d1 l l' b b' Hd Hd' Hl Hl' F F').
Qed.
Lemma explore_seen next n : forall todo seen s a, In a seen -> In a (explore next n todo seen s).
Proof.
  induction n as [|n IH]; intros todo seen s a H; cbn [explore]; [exact H|]. destruct todo as [|b todo]; [exact H|].
  set (f := fold_left _ _ _). assert (In a (snd (fst f))) as F.
  { subst f. generalize (next b). intros l.
    assert (forall l acc, In a (snd (fst acc)) ->
      In a (snd (fst (fold_left (fun (acc : list cell * list cell * PositiveSet.t) b => let '(t, l, q) := acc in if has q b then acc else (b :: t, b :: l, put q b)) l acc)))) as G.
    { clear. induction l as [|b l IH]; intros [[t l0] q] A; [exact A|]. cbn [fold_left]. apply IH. destruct (has q b); [exact A|]. right. exact A. }
    apply G. exact H. }
  destruct f as [[t2 l2] s2]. apply IH. exact F.
Qed.
Lemma reach_self next a : In a (reach next a).
Proof. apply explore_seen. left. reflexivity. Qed.
