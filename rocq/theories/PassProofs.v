(** Proofs about moving through the rooms. *)
From Coq Require Import MSetPositive.
From Verif Require Import Py VecModel VecSpec VoxelModel VoxelSpec CodecModel CodecSpec OutModel OutSpec UpmModel UpmSpec UpmProofs UpmInv UpmMore VecProofs
  KitModel KitSpec KitProofs KitTile RoomModel MagicaModel RoomSpec RoomProofs MagicaProofs VoxFileModel ShippedModel ShippedSpec ShippedProofs ShippedDraw
  GenModel GenSpec GenLayout PassSpec PassCheck.
Local Open Scope Z_scope.

(** ** Walks *)
Lemma beside_sym a b : beside a b -> beside b a.
Proof. destruct a as [[x y] z], b as [[i j] k]. cbn. lia. Qed.
Lemma walk_ends (ok : cell -> Prop) a b : walk ok a b -> ok a /\ ok b.
Proof. induction 1; tauto. Qed.
Lemma walk_trans (ok : cell -> Prop) a b c : walk ok a b -> walk ok b c -> walk ok a c.
Proof. induction 1 as [|a b' b]; [auto|]. intros W. eapply WStep; eauto. Qed.
Lemma walk_step (ok : cell -> Prop) a b : ok a -> ok b -> beside a b -> walk ok a b.
Proof. intros A B E. eapply WStep; [exact A|exact E|]. constructor. exact B. Qed.
Lemma walk_sym (ok : cell -> Prop) a b : walk ok a b -> walk ok b a.
Proof.
  induction 1 as [a A|a b c A E W IH]; [constructor; exact A|]. eapply walk_trans; [exact IH|].
  apply walk_step; [exact (proj1 (walk_ends _ _ _ W))|exact A|apply beside_sym; exact E].
Qed.
Lemma walk_map (ok ok' : cell -> Prop) (f : cell -> cell) a b : (forall a, ok a -> ok' (f a)) -> (forall a b, beside a b -> beside (f a) (f b)) ->
  walk ok a b -> walk ok' (f a) (f b).
Proof. intros F G. induction 1; [constructor; auto|]. eapply WStep; eauto. Qed.
Lemma walk_mono (ok ok' : cell -> Prop) a b : (forall a, ok a -> ok' a) -> walk ok a b -> walk ok' a b.
Proof. intros F. exact (walk_map ok ok' (fun a => a) a b F (fun _ _ H => H)). Qed.
Lemma fits_mono (f g : cell -> Prop) a : (forall v, f v -> g v) -> fits f a -> fits g a.
Proof. unfold fits. auto. Qed.

(** ** Rooms in any place *)
Definition carry (p : cell) (t : turn) (a : cell) : cell :=
  let '(x, y, z) := a in let '(i, j, k) := p in
  let '(u, v) := match t with T0 => (x, y) | T1 => (6 - y, x) | T2 => (6 - x, 6 - y) | T3 => (y, 6 - x) end in
  (8 * i + u, 8 * j + v, 8 * k + z).
Lemma carry_body p t a v : in_body (carry p t a) v -> exists q, in_body a q /\ frame p (facing t) q = v.
Proof.
  intros H. exists (unframe p (facing t) v). split; [|apply frame_unframe].
  destruct p as [[i j] k], a as [[x y] z], v as [[v1 v2] v3], t; cbn [carry in_body facing unframe untile] in *; lia.
Qed.
Lemma carry_beside p t a b : beside a b -> beside (carry p t a) (carry p t b).
Proof. destruct p as [[i j] k], a as [[x y] z], b as [[v1 v2] v3], t; cbn [carry beside]; lia. Qed.
Definition move (p : cell) (t : turn) (d : door) : door := (cadd p (crot t (fst d)), crot t (snd d)).
Lemma carry_step p t d e : doorstep (move p t d) e = carry p t (doorstep d e).
Proof.
  destruct p as [[i j] k], d as [[[x y] z] [[a b] c]], t; unfold doorstep, sill, move; cbn [fst snd crot cadd csub carry]; apply t3_eq; lia.
Qed.
Lemma same_shipped s s' : In s shipped_rooms -> In s' shipped_rooms -> s_class s = s_class s' -> s = s'.
Proof. intros H H' E. apply shipped_of_self in H, H'. rewrite E in H. congruence. Qed.
Lemma built_frame s p t q : In s shipped_rooms -> built (room_of s p t) (frame p (facing t) q) -> built (room_of s (0, 0, 0) T0) q.
Proof.
  intros Hs (s' & f & q' & a & H1 & H2 & H3 & H4 & H5). rewrite (room_of_eq s p t Hs) in *. rewrite (room_of_eq s _ T0 Hs).
  cbn [r_cls r_pos r_turn] in *. apply frame_inj in H5. subst q'. exists s', f, q, a. cbn [r_cls r_pos r_turn facing].
  rewrite frame_origin. auto 6.
Qed.
Lemma air_frame s p t q : In s shipped_rooms -> room_air (room_of s (0, 0, 0) T0) q -> room_air (room_of s p t) (frame p (facing t) q).
Proof.
  intros Hs [(c & Hc & Hq) N]. split; [|intros B; exact (N (built_frame s p t q Hs B))].
  rewrite (room_of_eq s p t Hs), (room_of_eq s (0, 0, 0) T0 Hs) in *. unfold in_room, positions in *. cbn [r_cls r_pos r_turn r_flags] in *.
  apply in_map_iff in Hc as (c0 & E & Hc). assert (c0 = c) as -> by (rewrite <- E; destruct c0 as [[? ?] ?]; cbn; apply t3_eq; lia).
  exists (cadd p (crot t c)). split; [apply in_map_iff; exists c; auto|]. rewrite <- placed_facing. apply frame_in_cell. exact Hq.
Qed.
Lemma fits_carry s p t a : In s shipped_rooms -> fits (room_air (room_of s (0, 0, 0) T0)) a -> fits (room_air (room_of s p t)) (carry p t a).
Proof. intros Hs F v Hv. apply carry_body in Hv as (q & Hq & <-). apply air_frame; [exact Hs|]. exact (F q Hq). Qed.
Lemma walk_carry s p t a b : In s shipped_rooms -> walk (fits (room_air (room_of s (0, 0, 0) T0))) a b ->
  walk (fits (room_air (room_of s p t))) (carry p t a) (carry p t b).
Proof. intros Hs. apply walk_map; [intros c; exact (fits_carry s p t c Hs)|exact (carry_beside p t)]. Qed.
Lemma doorways_move s p t : In s shipped_rooms -> doorways (room_of s p t) = map (move p t) (rc_doors (s_class s) []).
Proof. intros Hs. rewrite (room_of_eq s p t Hs). reflexivity. Qed.

(** ** The computed paths *)
Lemma vset_mem l : forall s k, PositiveSet.mem k s = true ->
  PositiveSet.mem k (fold_left vput l s) = true.
Proof.
  induction l as [|[[[x y] z] c] l IH]; intros s k H; [exact H|]. cbn [fold_left vput]. apply IH.
  apply PositiveSet.mem_spec, PositiveSet.add_spec. right. apply PositiveSet.mem_spec. exact H.
Qed.
Lemma vset_in l : forall s x y z c, In (x, y, z, c) l ->
  PositiveSet.mem (vkey (x, y, z)) (fold_left vput l s) = true.
Proof.
  induction l as [|v l IH]; intros s x y z c H; [destruct H|]. destruct H as [->|H]; cbn [fold_left vput].
  - apply vset_mem. apply PositiveSet.mem_spec, PositiveSet.add_spec. left. reflexivity.
  - exact (IH _ x y z c H).
Qed.
Lemma air_at_ok s f v : In s shipped_rooms -> read_file (s_file s) = Ok f ->
  air_at (rc_cells (s_class s) []) (vset (vf_voxels f)) v = true -> room_air (room_of s (0, 0, 0) T0) v.
Proof.
  intros Hs E H. destruct v as [[x y] z]. unfold air_at in H. apply Bool.andb_true_iff in H as [H N]. apply Bool.negb_true_iff in N.
  apply existsb_exists in H as (c & Hc & H). apply cell_eqb_eq in H. subst c. split.
  - rewrite (room_of_eq s _ _ Hs). exists (x / 8, y / 8, z / 8). split.
    + unfold positions. cbn [r_cls r_pos r_turn r_flags]. apply in_map_iff. exists (x / 8, y / 8, z / 8). split; [reflexivity|exact Hc].
    + cbn [voxel_in_cell]. Z.div_mod_to_equations. lia.
  - intros (s' & f' & q & a & H1 & H2 & H3 & H4 & H5). rewrite (room_of_eq s _ _ Hs) in *. cbn [r_cls r_pos r_turn facing] in *.
    apply same_shipped in H2; [|exact H1|exact Hs]. subst s'. assert (f' = f) as -> by congruence.
    rewrite frame_origin in H5. subst q. apply voxel_colour_in in H4. unfold vset in N. rewrite (vset_in _ _ _ _ _ _ H4) in N. discriminate.
Qed.
Lemma offsets_in i j k : 0 <= i < 2 -> 0 <= j < 2 -> 0 <= k < 4 -> In (i, j, k) offsets.
Proof. intros Hi Hj Hk. unfold offsets. apply in_prod; [apply in_prod|]; cbn; lia. Qed.
Lemma fits_at_ok s f a : In s shipped_rooms -> read_file (s_file s) = Ok f ->
  fits_at (rc_cells (s_class s) []) (vset (vf_voxels f)) a = true -> fits (room_air (room_of s (0, 0, 0) T0)) a.
Proof.
  intros Hs E H v Hv. unfold fits_at in H. rewrite forallb_forall in H. apply (air_at_ok s f v Hs E).
  destruct a as [[x y] z], v as [[i j] k]. cbn [in_body] in Hv. specialize (H (i - x, j - y, k - z)). cbn [cadd] in H.
  replace (x + (i - x)) with i in H by lia. replace (y + (j - y)) with j in H by lia. replace (z + (k - z)) with k in H by lia.
  apply H. apply offsets_in; lia.
Qed.
Lemma way_beside a k : beside a (cadd a (way k)).
Proof.
  unfold way. destruct a as [[x y] z]. set (l := [_; _; _; _; _; _]).
  assert (In (nth (Z.to_nat k) l (0, 0, 1)) l) as H.
  { destruct (nth_in_or_default (Z.to_nat k) l (0, 0, 1)) as [H| ->]; [exact H|]. subst l. cbn. auto 10. }
  revert H. generalize (nth (Z.to_nat k) l (0, 0, 1)). subst l. intros c H. repeat (destruct H as [<-|H]; [cbn; lia|]). destruct H.
Qed.
Lemma steps_walk (ok : cell -> bool) (P : cell -> Prop) n : (forall a, ok a = true -> P a) -> forall a k b, P a ->
  steps ok n a (way k) = Some b -> walk P a b.
Proof.
  intros F. induction n as [|n IH]; intros a k b A H; cbn [steps] in H; [injection H as <-; constructor; exact A|].
  destruct (ok (cadd a (way k))) eqn:E; [|discriminate]. eapply WStep; [exact A|apply way_beside|]. eapply IH; [apply F; exact E|exact H].
Qed.
Lemma follow_walk (ok : cell -> bool) (P : cell -> Prop) p : (forall a, ok a = true -> P a) -> forall a b, P a -> follow ok a p = Some b -> walk P a b.
Proof.
  intros F. induction p as [|[k n] p IH]; intros a b A H; cbn [follow] in H; [injection H as <-; constructor; exact A|].
  destruct (steps ok n a (way k)) as [c|] eqn:E; [|discriminate]. apply (steps_walk ok P n F a k c A) in E.
  eapply walk_trans; [exact E|]. apply IH; [exact (proj2 (walk_ends _ _ _ E))|exact H].
Qed.
Lemma side_beside d : side d = true -> beside (doorstep d 0) (doorstep d 1) /\ beside (doorstep d 0) (doorstep d (-1)).
Proof.
  destruct d as [[[x y] z] [[a b] c]]. unfold side, doorstep, sill, beside. cbn [fst snd csub]. rewrite Bool.andb_true_iff. lia.
Qed.
Lemma lead_walk (ok : cell -> bool) (P : cell -> Prop) a l : (forall a, ok a = true -> P a) -> P a ->
  forall ps, lead ok a l ps = true -> forall d b, In d l -> In b (doorsteps d) -> walk P a b.
Proof.
  intros F A. induction l as [|d l IH]; intros ps H d' b Hd Hb; [destruct Hd|]. destruct ps as [|p ps]; [discriminate|].
  cbn [lead] in H. apply Bool.andb_true_iff in H as [H H']. destruct Hd as [<-|Hd]; [|exact (IH ps H' d' b Hd Hb)].
  unfold lead_to in H. rewrite !Bool.andb_true_iff in H. destruct H as [[[S H] H1] H2]. apply side_beside in S as [S1 S2].
  destruct (follow ok a p) as [c|] eqn:E; [|discriminate]. apply cell_eqb_eq in H. subst c. apply (follow_walk ok P p F a _ A) in E.
  pose proof (proj2 (walk_ends _ _ _ E)) as M.
  destruct Hb as [<-|[<-|[<-|[]]]]; [exact E| |]; (eapply walk_trans; [exact E|]; apply walk_step; auto).
Qed.
Lemma leads_walk s l ps : In s shipped_rooms -> leads s l ps = true -> forall d d' a b, In d l -> In d' l -> In a (doorsteps d) -> In b (doorsteps d') ->
  walk (fits (room_air (room_of s (0, 0, 0) T0))) a b.
Proof.
  intros Hs H d d' a b Hd Hd' Ha Hb. unfold leads in H. destruct (read_file (s_file s)) as [f|] eqn:E; [|discriminate].
  destruct l as [|d0 l]; [destruct Hd|]. apply Bool.andb_true_iff in H as [H0 H].
  pose proof (fun a => fits_at_ok s f a Hs E) as F. apply walk_trans with (b := doorstep d0 0).
  - apply walk_sym. exact (lead_walk _ _ _ _ F (F _ H0) _ H d a Hd Ha).
  - exact (lead_walk _ _ _ _ F (F _ H0) _ H d' b Hd' Hb).
Qed.

(** ** Classes *)
Lemma classes_lead : Forall (fun s => In s divided \/ all_lead s = true) shipped_rooms.
Proof. unfold shipped_rooms, divided. repeat (apply Forall_cons; [first [left; member | right; vm_compute; reflexivity]|]). apply Forall_nil. Qed.
Lemma lead_connected s p t : In s shipped_rooms -> all_lead s = true -> connected (room_of s p t).
Proof.
  intros Hs L d d' a a' Hd Hd' Ha Ha'. rewrite (doorways_move s p t Hs) in Hd, Hd'.
  apply in_map_iff in Hd as (d0 & <- & Hd). apply in_map_iff in Hd' as (d1 & <- & Hd').
  unfold doorsteps in Ha, Ha'. apply in_map_iff in Ha as (e & <- & He). apply in_map_iff in Ha' as (e' & <- & He').
  rewrite !carry_step. apply walk_carry; [exact Hs|].
  eapply leads_walk; [exact Hs|exact L|exact Hd|exact Hd'| |]; unfold doorsteps; apply in_map; assumption.
Qed.
Lemma class_connected s p t : In s shipped_rooms -> ~ In s divided -> connected (room_of s p t).
Proof.
  intros Hs N. pose proof classes_lead as F. rewrite Forall_forall in F. destruct (F s Hs) as [D|L]; [contradiction|].
  exact (lead_connected s p t Hs L).
Qed.

(** ** The gate *)
Lemma gate_shipped : In castle_gate_simple shipped_rooms.
Proof. unfold shipped_rooms. member. Qed.
Lemma gate_doors : rc_doors (s_class castle_gate_simple) [] =
  [((-1, 0, 1), (-1, 0, 0)); ((3, 0, 1), (1, 0, 0)); ((1, 1, 0), (0, 1, 0)); ((1, -1, 0), (0, -1, 0))].
Proof. vm_compute. reflexivity. Qed.
Lemma gate_low_ok : links castle_gate_simple ((1, 1, 0), (0, 1, 0)) ((1, -1, 0), (0, -1, 0)) [(3, 4%nat); (0, 2%nat); (3, 2%nat)] = true.
Proof. vm_compute. reflexivity. Qed.
Lemma gate_high_ok : leads castle_gate_simple [((-1, 0, 1), (-1, 0, 0)); ((3, 0, 1), (1, 0, 0))] [[]; [(0, 22%nat)]] = true.
Proof. vm_compute. reflexivity. Qed.
Lemma links_walk s p t d d' ds : In s shipped_rooms -> links s d d' ds = true ->
  walk (fits (room_air (room_of s p t))) (doorstep (move p t d) 1) (doorstep (move p t d') 1).
Proof.
  intros Hs G. rewrite !carry_step. apply walk_carry; [exact Hs|]. unfold links in G.
  destruct (read_file (s_file s)) as [f|] eqn:E; [|discriminate]. cbv zeta in G. apply Bool.andb_true_iff in G as [G0 G].
  pose proof (fun a => fits_at_ok s f a Hs E) as F.
  match type of G with match ?x with _ => _ end = _ => destruct x as [b|] eqn:W; [|discriminate] end. apply cell_eqb_eq in G. subst b.
  exact (follow_walk _ _ _ F _ _ (F _ G0) W).
Qed.
Lemma leads_carry s p t ds ps d d' a a' : In s shipped_rooms -> leads s ds ps = true -> let l := map (move p t) ds in
  In d l -> In d' l -> In a (doorsteps d) -> In a' (doorsteps d') -> walk (fits (room_air (room_of s p t))) a a'.
Proof.
  intros Hs G l Hd Hd' Ha Ha'. subst l.
  apply in_map_iff in Hd as (d0 & <- & Hd). apply in_map_iff in Hd' as (d1 & <- & Hd').
  unfold doorsteps in Ha, Ha'. apply in_map_iff in Ha as (e & <- & He). apply in_map_iff in Ha' as (e' & <- & He').
  rewrite !carry_step. apply walk_carry; [exact Hs|].
  eapply leads_walk; [exact Hs|exact G|exact Hd|exact Hd'| |]; unfold doorsteps; apply in_map; assumption.
Qed.
Lemma gate_walk_low p t : walk (fits (room_air (room_of castle_gate_simple p t)))
  (doorstep (move p t ((1, 1, 0), (0, 1, 0))) 1) (doorstep (move p t ((1, -1, 0), (0, -1, 0))) 1).
Proof. exact (links_walk castle_gate_simple p t _ _ _ gate_shipped gate_low_ok). Qed.
Lemma gate_walk_high p t d d' a a' : let l := map (move p t) [((-1, 0, 1), (-1, 0, 0)); ((3, 0, 1), (1, 0, 0))] in
  In d l -> In d' l -> In a (doorsteps d) -> In a' (doorsteps d') -> walk (fits (room_air (room_of castle_gate_simple p t))) a a'.
Proof. exact (leads_carry castle_gate_simple p t _ _ d d' a a' gate_shipped gate_high_ok). Qed.
Lemma gate_reaches p t d d' : let r := room_of castle_gate_simple p t in
  In d (doorways r) -> In d' (doorways r) -> snd (fst d) = snd (fst d') -> walk (fits (room_air r)) (doorstep d 1) (doorstep d' 1).
Proof.
  intros r Hd Hd' E. subst r. rewrite (doorways_move _ p t gate_shipped), gate_doors in Hd, Hd'.
  assert (forall d, In (doorstep d 1) (doorsteps d)) as St by (intros; unfold doorsteps; apply in_map; cbn; auto).
  pose proof (gate_walk_low p t) as L. pose proof (fun d d' => gate_walk_high p t d d' (doorstep d 1) (doorstep d' 1)) as U. cbn zeta in U.
  cbn [map In] in Hd, Hd', U.
  assert (forall x y, snd (fst (move p t x)) = snd (fst (move p t y)) -> snd (fst x) = snd (fst y)) as Z.
  { intros [[[? ?] ?] ?] [[[? ?] ?] ?]. destruct p as [[? ?] ?], t; cbn; lia. }
  destruct Hd as [<-|[<-|[<-|[<-|[]]]]]; destruct Hd' as [<-|[<-|[<-|[<-|[]]]]]; try (apply Z in E; discriminate E);
    try (apply U; auto; fail).
  - constructor. exact (proj1 (walk_ends _ _ _ L)).
  - exact L.
  - apply walk_sym. exact L.
  - constructor. exact (proj2 (walk_ends _ _ _ L)).
Qed.
Lemma voxel_unframe p t v d : voxel_in_cell v (cadd p (crot t d)) -> voxel_in_cell (unframe p (facing t) v) d.
Proof.
  destruct p as [[i j] k], v as [[x y] z], d as [[a b] c], t; cbn [crot cadd facing unframe untile voxel_in_cell]; lia.
Qed.
Definition floor_full (s : shipped) (n m h : Z) : bool :=
  match read_file (s_file s) with
  | Ok f => forallb (fun q => match voxel_colour (vf_voxels f) (fst q, snd q, h) with Some _ => true | None => false end) (list_prod (zrange 0 n) (zrange 0 m))
  | Err _ => false
  end.
Lemma gate_floor : floor_full castle_gate_simple 24 8 8 = true.
Proof. vm_compute. reflexivity. Qed.
Lemma gate_cells : rc_cells (s_class castle_gate_simple) [] = [(0, 0, 0); (1, 0, 0); (2, 0, 0); (0, 0, 1); (1, 0, 1); (2, 0, 1)].
Proof. vm_compute. reflexivity. Qed.
Lemma floor_blocked s n m h p t x y : In s shipped_rooms -> floor_full s n m h = true ->
  (forall c a b, In c (rc_cells (s_class s) []) -> voxel_in_cell (a, b, h) c -> 0 <= a < n /\ 0 <= b < m) ->
  in_room (room_of s p t) (x, y, 8 * snd p + h) -> built (room_of s p t) (x, y, 8 * snd p + h).
Proof.
  intros Hs G C (c & Hc & Hv). rewrite (room_of_eq _ p t Hs) in *. unfold positions in Hc. cbn [r_cls r_pos r_turn r_flags] in *.
  apply in_map_iff in Hc as (c0 & <- & Hc). apply voxel_unframe in Hv.
  unfold floor_full in G. destruct (read_file (s_file s)) as [f|] eqn:E; [|discriminate].
  rewrite forallb_forall in G. destruct (unframe p (facing t) (x, y, 8 * snd p + h)) as [[a b] h'] eqn:U.
  assert (h' = h) as -> by (destruct p as [[i j] k], t; cbn [unframe facing untile snd] in U; apply (f_equal snd) in U; cbn [snd] in U; lia).
  specialize (G (a, b)). cbn [fst snd] in G. destruct (C _ _ _ Hc Hv) as [A B].
  destruct (voxel_colour (vf_voxels f) (a, b, h)) as [q|] eqn:V.
  2:{ exfalso. apply Bool.diff_false_true. apply G. apply in_prod; apply in_zrange; assumption. }
  exists s, f, (a, b, h), q. cbn [r_cls r_pos r_turn]. split; [exact Hs|]. split; [reflexivity|]. split; [exact E|].
  split; [exact V|]. rewrite <- U. apply frame_unframe.
Qed.
Lemma gate_blocked p t x y : in_room (room_of castle_gate_simple p t) (x, y, 8 * snd p + 8) -> built (room_of castle_gate_simple p t) (x, y, 8 * snd p + 8).
Proof.
  apply (floor_blocked castle_gate_simple 24 8 8 p t x y gate_shipped gate_floor). intros c a b Hc Hv. rewrite gate_cells in Hc.
  repeat (destruct Hc as [<-|Hc]; [cbn [voxel_in_cell] in Hv; lia|]). destruct Hc.
Qed.
Lemma gate_above p t a b : walk (room_air (room_of castle_gate_simple p t)) a b -> 8 * snd p + 8 <= snd a -> 8 * snd p + 8 <= snd b.
Proof.
  assert (forall v, room_air (room_of castle_gate_simple p t) v -> 8 * snd p + 8 <= snd v -> 8 * snd p + 9 <= snd v) as F.
  { intros [[x y] z] [I N] L. cbn [snd] in *. destruct (Z.eq_dec z (8 * snd p + 8)) as [->|]; [|lia]. exfalso. apply N. apply gate_blocked. exact I. }
  induction 1 as [|a b c A E W IH]; [auto|]. intros L. apply IH. specialize (F a A L).
  destruct a as [[x y] z], b as [[x' y'] z']. cbn [beside snd] in *. lia.
Qed.
Lemma same_cell v c d : voxel_in_cell v c -> voxel_in_cell v d -> c = d.
Proof. destruct v as [[x y] z], c as [[a b] h], d as [[a' b'] h']. cbn [voxel_in_cell]. intros. apply t3_eq; lia. Qed.
Lemma outside_cut r d d' : ~ In (sill d) (positions r) -> cut_off (room_air r) d d'.
Proof.
  intros N a a' Ha Ha' W. apply walk_ends in W as [[(c & Hc & Hv) _] _]. apply N. rewrite (same_cell a _ _ Ha Hv). exact Hc.
Qed.
Lemma divided_cut s p t : In s divided -> In s shipped_rooms /\
  exists d d', In d (doorways (room_of s p t)) /\ In d' (doorways (room_of s p t)) /\ d <> d' /\ cut_off (room_air (room_of s p t)) d d'.
Proof.
  intros [<-|H].
  - split; [exact gate_shipped|]. rewrite (doorways_move _ p t gate_shipped), gate_doors.
    exists (move p t ((-1, 0, 1), (-1, 0, 0))), (move p t ((1, 1, 0), (0, 1, 0))). split; [cbn [map In]; auto|]. split; [cbn [map In]; auto|]. split.
    + destruct p as [[i j] k], t; cbn; intros E; injection E; lia.
    + intros a b Ha Hb W. apply gate_above in W.
      * destruct b as [[x y] z], p as [[i j] k], t; cbn [sill move crot cadd csub fst snd voxel_in_cell] in *; lia.
      * destruct a as [[x y] z], p as [[i j] k], t; cbn [sill move crot cadd csub fst snd voxel_in_cell] in *; lia.
  - destruct (unusable_doors s p t) as (Hs & d & Hd & N). { destruct H as [<-|[<-|[]]]; unfold bad_doors; member. }
    split; [exact Hs|]. exists d. rewrite (doorways_move _ p t Hs) in *.
    destruct H as [<-|[<-|[]]]; exists (move p t ((-1, 0, 0), (-1, 0, 0)));
      (split; [exact Hd|]; split; [apply in_map; vm_compute; auto|]; split; [|apply outside_cut; exact N]; intros ->; apply N;
       rewrite (room_of_eq _ p t Hs); unfold positions; cbn [r_cls r_pos r_turn r_flags]; apply in_map_iff; exists (0, 0, 0); split; [|vm_compute; auto];
       destruct p as [[i j] k], t; cbn [move crot cadd csub fst snd]; apply t3_eq; lia).
Qed.
