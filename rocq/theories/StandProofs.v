(** Proofs about the places of entities in the shipped rooms. *)
From Coq Require Import MSetPositive.
From Verif Require Import Py VecModel VecSpec VecProofs VoxelModel VoxelSpec CodecModel CodecSpec OutModel OutSpec UpmModel UpmSpec UpmProofs UpmBridge
  KitModel KitSpec KitProofs KitTile RoomModel MagicaModel RoomSpec RoomProofs MagicaProofs TexModel TexSpec LightModel LightSpec VoxFileModel ShippedModel ShippedSpec ShippedProofs ShippedDraw
  GenModel GenSpec GenLayout PassSpec PassCheck PassProofs StandSpec.
Local Open Scope Z_scope.

(** ** The voxels at a point *)
Definition axis (u : Z) : list Z := if Z.even u then [u / 2 - 1; u / 2] else [u / 2].
Definition touching (q : Z * Z * Z) : list cell := let '(x, y, z) := q in list_prod (list_prod (axis x) (axis y)) (axis z).
Lemma axis_in u i : In i (axis u) <-> 2 * i <= u <= 2 * i + 2.
Proof.
  unfold axis. destruct (Z.even u) eqn:E.
  - apply Z.even_spec in E as [k ->]. rewrite Z.mul_comm, Z.div_mul by lia. cbn [In]. lia.
  - assert (Z.odd u = true) as O by (rewrite <- Z.negb_even, E; reflexivity). apply Z.odd_spec in O as [k ->].
    replace ((2 * k + 1) / 2) with k by (Z.div_mod_to_equations; lia). cbn [In]. lia.
Qed.
Lemma touching_in q v : In v (touching q) <-> around q v.
Proof.
  destruct q as [[x y] z], v as [[i j] k]. unfold touching, around. rewrite <- !axis_in. split.
  - intros H. apply in_prod_iff in H as [H ?]. apply in_prod_iff in H as [? ?]. auto.
  - intros (? & ? & ?). apply in_prod; [apply in_prod|]; assumption.
Qed.
Definition up (p v : cell) : cell := let '(a, b, h) := p in let '(x, y, z) := v in (8 * a + x, 8 * b + y, 8 * h + z).
Lemma around_up p q v : around (t3add (corner p) q) (up p v) <-> around q v.
Proof. destruct p as [[a b] h], q as [[x y] z], v as [[i j] k]. cbn [corner t3add up around]. lia. Qed.
Lemma up_of p v : exists v0, v = up p v0.
Proof. destruct p as [[a b] h], v as [[x y] z]. exists (x - 8 * a, y - 8 * b, z - 8 * h). cbn [up]. apply t3_eq; lia. Qed.
Lemma unframe_up p c v : unframe p c (up p v) = unframe (0, 0, 0) c v.
Proof. destruct p as [[a b] h], v as [[x y] z], c; cbn [up unframe untile]; apply t3_eq; lia. Qed.
Lemma built_at s f p t v : In s shipped_rooms -> read_file (s_file s) = Ok f ->
  (built (room_of s p t) v <-> exists a, voxel_colour (vf_voxels f) (unframe p (facing t) v) = Some a).
Proof.
  intros Hs E. rewrite (room_of_eq s p t Hs). split.
  - intros (s' & f' & q & a & H1 & H2 & H3 & H4 & H5). cbn [r_cls r_pos r_turn] in *. assert (s' = s) as -> by (apply same_shipped; assumption).
    assert (f' = f) as -> by congruence. exists a. rewrite <- H5, unframe_frame. exact H4.
  - intros (a & H). exists s, f, (unframe p (facing t) v), a. cbn [r_cls r_pos r_turn]. split; [exact Hs|]. split; [reflexivity|]. split; [exact E|].
    split; [exact H|]. apply frame_unframe.
Qed.
Definition full_at (f : voxfile) (t : turn) (v : cell) : bool :=
  match voxel_colour (vf_voxels f) (unframe (0, 0, 0) (facing t) v) with Some _ => true | None => false end.
Lemma full_at_ok s f p t v : In s shipped_rooms -> read_file (s_file s) = Ok f -> (built (room_of s p t) (up p v) <-> full_at f t v = true).
Proof.
  intros Hs E. rewrite (built_at s f p t _ Hs E), unframe_up. unfold full_at. destruct (voxel_colour _ _) as [a|]; split; try discriminate; try (intros (? & ?); discriminate); eauto.
Qed.

(** ** Space *)
Definition spacious (s : shipped) : bool :=
  match read_file (s_file s) with
  | Ok f => let vs := vset (vf_voxels f) in
      forallb (fun t => forallb (fun x => forallb (fun q => existsb (fun v => negb (PositiveSet.mem (vkey (unframe (0, 0, 0) (facing t) v)) vs)) (touching q))
        (extra_points t x)) (s_extra s)) CARD
  | Err _ => false
  end.
Definition packed (s : shipped) : bool :=
  match read_file (s_file s) with
  | Ok f => existsb (fun x => forallb (fun t => forallb (fun q => forallb (full_at f t) (touching q)) (extra_points t x)) CARD) (s_extra s)
  | Err _ => false
  end.
Lemma free_full f t v : negb (PositiveSet.mem (vkey (unframe (0, 0, 0) (facing t) v)) (vset (vf_voxels f))) = true -> full_at f t v = false.
Proof.
  intros H. unfold full_at. destruct (unframe (0, 0, 0) (facing t) v) as [[x y] z]. destruct (voxel_colour _ _) as [a|] eqn:E; [|reflexivity].
  apply voxel_colour_in in E. unfold vset in H. rewrite (vset_in _ _ _ _ _ _ E) in H. discriminate.
Qed.
Lemma classes_space : Forall (fun s => In s dark \/ spacious s = true) shipped_rooms.
Proof. unfold shipped_rooms, dark. repeat (apply Forall_cons; [first [left; member | right; vm_compute; reflexivity]|]). apply Forall_nil. Qed.
Lemma dark_shipped s : In s dark -> In s shipped_rooms /\ packed s = true.
Proof.
  intros H. unfold dark in H. repeat (destruct H as [<-|H]; [split; [unfold shipped_rooms; member|vm_compute; reflexivity]|]). destruct H.
Qed.
Lemma card_all t : In t CARD.
Proof. destruct t; cbn; tauto. Qed.
Lemma space_ok s p t pos orient hue m g : In s shipped_rooms -> ~ In s dark -> room_vectors (room_of s p t) pos orient ->
  exists es m' g', run_extras (LIGHTMAN hue) pos orient (s_extra s) m g = (Ok m', g') /\ more_ents m es m' /\ Forall (has_space (room_of s p t)) es.
Proof.
  intros Hs N [HP HO]. rewrite (room_of_eq s p t Hs) in HP, HO. cbn [r_pos r_turn] in HP, HO.
  destruct (class_extras s p t pos orient hue m g Hs HP HO) as (es & m' & g' & E & M & _ & St). exists es, m', g'.
  split; [exact E|]. split; [exact M|]. rewrite Forall_forall. intros e He. destruct (Forall2_in_r _ _ _ St e He) as (x & Hx & q & Hq & Sq).
  pose proof classes_space as F. rewrite Forall_forall in F. destruct (F s Hs) as [D|S]; [contradiction|]. unfold spacious in S.
  destruct (read_file (s_file s)) as [f|] eqn:Ef; [|discriminate]. cbv zeta in S. rewrite forallb_forall in S. specialize (S t (card_all t)).
  rewrite forallb_forall in S. specialize (S x Hx). rewrite forallb_forall in S. specialize (S q Hq). apply existsb_exists in S as (v & Hv & S).
  exists (t3add (corner p) q), (up p v). split; [exact Sq|]. split; [apply around_up, touching_in, Hv|].
  rewrite (full_at_ok s f p t v Hs Ef). apply free_full in S. rewrite S. discriminate.
Qed.
Lemma dark_buried s p t pos orient hue m g : In s dark -> room_vectors (room_of s p t) pos orient -> In s shipped_rooms /\
  exists es m' g' e, run_extras (LIGHTMAN hue) pos orient (s_extra s) m g = (Ok m', g') /\ more_ents m es m' /\ In e es /\ buried (room_of s p t) e.
Proof.
  intros D [HP HO]. destruct (dark_shipped s D) as [Hs P]. split; [exact Hs|]. rewrite (room_of_eq s p t Hs) in HP, HO. cbn [r_pos r_turn] in HP, HO.
  destruct (class_extras s p t pos orient hue m g Hs HP HO) as (es & m' & g' & E & M & _ & St). unfold packed in P.
  destruct (read_file (s_file s)) as [f|] eqn:Ef; [|discriminate]. apply existsb_exists in P as (x & Hx & P). rewrite forallb_forall in P.
  specialize (P t (card_all t)). rewrite forallb_forall in P. destruct (Forall2_in_l _ _ _ St x Hx) as (e & He & q & Hq & Sq). specialize (P q Hq). rewrite forallb_forall in P.
  exists es, m', g', e. split; [exact E|]. split; [exact M|]. split; [exact He|]. exists (t3add (corner p) q). split; [exact Sq|].
  intros v Hv. destruct (up_of p v) as (v0 & ->). apply around_up, touching_in in Hv. apply (full_at_ok s f p t v0 Hs Ef). exact (P v0 Hv).
Qed.

(** ** Ways *)
(** Paths from the first doorway of a class to its entities (directions as in [paths]). *)
Definition finds (id : Z) : list (list (Z * nat)) :=
  if id =? 100 then [[(4, 2%nat); (3, 4%nat); (0, 11%nat); (2, 4%nat)]]
  else if id =? 128 then [[(5, 1%nat); (1, 3%nat)]]
  else if id =? 129 then [[(5, 1%nat); (0, 3%nat)]; [(4, 1%nat); (0, 3%nat)]]
  else if id =? 130 then [[(5, 1%nat); (0, 5%nat); (3, 8%nat); (0, 14%nat); (2, 8%nat)]]
  else [].
Definition meetsb (a : cell) (q : Z * Z * Z) (flag : bool) : bool :=
  let '(i, j, k) := a in let '(x, y, z) := q in
  (x =? 2 * i + 2) && (y =? 2 * j + 2) && (2 * k <=? z) && (z <=? 2 * k + 8) && (flag || (z =? 2 * k)).
Definition found (ok : cell -> bool) (a : cell) (ps : list (list (Z * nat))) (t : turn) (x : extra) : bool :=
  let look flag := forallb (fun q => existsb (fun p => match follow ok a p with Some b => meetsb (carry (0, 0, 0) t b) q flag | None => false end) ps) (extra_points t x) in
  match x with XLight _ _ | XPusher _ => true | XFlag _ => look true | _ => look false end.
Definition all_found (s : shipped) : bool :=
  forallb (fun x => match x with XLight _ _ | XPusher _ => true | _ => false end) (s_extra s) ||
  match read_file (s_file s), rc_doors (s_class s) [] with
  | Ok f, d :: _ => let ok := fits_at (rc_cells (s_class s) []) (vset (vf_voxels f)) in
      ok (doorstep d 0) && all_lead s && forallb (fun t => forallb (found ok (doorstep d 0) (finds (rc_id (s_class s))) t) (s_extra s)) CARD
  | _, _ => false
  end.
Lemma classes_found : Forall (fun s => all_found s = true) shipped_rooms.
Proof. unfold shipped_rooms. repeat (apply Forall_cons; [vm_compute; reflexivity|]). apply Forall_nil. Qed.
Lemma meets_up p t a q e : stands e (t3add (corner p) q) 2 -> forall flag, (flag = true -> e_type e = 14) -> meetsb (carry (0, 0, 0) t a) q flag = true -> meets (carry p t a) e.
Proof.
  intros St flag Fl B. destruct p as [[i j] k], a as [[x y] z], q as [[u v] w]. cbn [corner t3add] in St. eexists _, _, _. split; [exact St|].
  unfold carry in *. destruct (match t with T0 => _ | T1 => _ | T2 => _ | T3 => _ end) as [a b]. unfold meetsb in B.
  rewrite !Bool.andb_true_iff, Bool.orb_true_iff in B. destruct B as [[[[B1 B2] B3] B4] B5].
  split; [lia|]. split; [lia|]. split; [lia|]. intros NF. destruct B5 as [B5|B5]; [|lia]. destruct (NF (Fl B5)).
Qed.
Lemma found_walk s p t x e hue d b : In s shipped_rooms -> all_found s = true -> In x (s_extra s) -> asked_for hue t x e -> stands_off p t x e -> of_interest e ->
  In d (doorways (room_of s p t)) -> In b (doorsteps d) -> exists a, meets a e /\ walk (fits (room_air (room_of s p t))) a b.
Proof.
  intros Hs F Hx (_ & _ & A) (q & Hq & Sq) OI Hd Hb. unfold all_found in F. apply Bool.orb_true_iff in F as [F|F].
  - exfalso. rewrite forallb_forall in F. specialize (F x Hx). unfold of_interest in OI. destruct x; try discriminate F; destruct A as [A _]; rewrite A in OI; lia.
  - destruct (read_file (s_file s)) as [f|] eqn:Ef; [|discriminate]. destruct (rc_doors (s_class s) []) as [|d0 ds] eqn:Ed; [discriminate|].
    rewrite !Bool.andb_true_iff in F. destruct F as [[F0 F1] F2]. rewrite forallb_forall in F2. specialize (F2 t (card_all t)). rewrite forallb_forall in F2. specialize (F2 x Hx).
    assert (exists flag, (flag = true -> e_type e = 14) /\ forallb (fun q => existsb (fun p => match follow (fits_at (rc_cells (s_class s) []) (vset (vf_voxels f))) (doorstep d0 0) p with
      Some b => meetsb (carry (0, 0, 0) t b) q flag | None => false end) (finds (rc_id (s_class s)))) (extra_points t x) = true) as (flag & Fl & L).
    { unfold found in F2. unfold of_interest in OI. destruct x; try (exfalso; destruct A as [A _]; rewrite A in OI; lia); eexists; (split; [|exact F2]); try discriminate.
      intros _. exact (proj1 A). }
    rewrite forallb_forall in L. specialize (L q Hq). apply existsb_exists in L as (pth & _ & L).
    destruct (follow _ _ pth) as [a|] eqn:Fo; [|discriminate]. pose proof (fun a => fits_at_ok s f a Hs Ef) as OK.
    apply (follow_walk _ _ pth OK _ _ (OK _ F0)) in Fo.
    exists (carry p t a). split; [exact (meets_up p t a q e Sq flag Fl L)|].
    apply walk_trans with (b := carry p t (doorstep d0 0)); [apply walk_sym, walk_carry; assumption|].
    rewrite <- carry_step. eapply lead_connected; [exact Hs|exact F1| |exact Hd| |exact Hb].
    + rewrite (doorways_move s p t Hs), Ed. left. reflexivity.
    + left. reflexivity.
Qed.
Lemma both_in hue p t l : forall es, Forall2 (asked_for hue t) l es -> Forall2 (stands_off p t) l es -> forall e, In e es ->
  exists x, In x l /\ asked_for hue t x e /\ stands_off p t x e.
Proof.
  induction l as [|x l IH]; intros es A St e He; inversion A; subst; inversion St; subst; [destruct He|].
  destruct He as [<-|He]; [exists x; split; [left; reflexivity|auto]|].
  edestruct IH as (y' & Hy & Py); [eassumption|eassumption|eassumption|]. exists y'. split; [right; exact Hy|exact Py].
Qed.
Lemma ways_ok s p t pos orient hue m g : In s shipped_rooms -> room_vectors (room_of s p t) pos orient ->
  exists es m' g', run_extras (LIGHTMAN hue) pos orient (s_extra s) m g = (Ok m', g') /\ more_ents m es m' /\
    forall e d b, In e es -> of_interest e -> In d (doorways (room_of s p t)) -> In b (doorsteps d) ->
    exists a, meets a e /\ walk (fits (room_air (room_of s p t))) a b.
Proof.
  intros Hs [HP HO]. rewrite (room_of_eq s p t Hs) in HP, HO. cbn [r_pos r_turn] in HP, HO.
  destruct (class_extras s p t pos orient hue m g Hs HP HO) as (es & m' & g' & E & M & A & St). exists es, m', g'.
  split; [exact E|]. split; [exact M|]. intros e d b He OI Hd Hb. destruct (both_in _ _ _ _ _ A St e He) as (x & Hx & Ax & Sx).
  pose proof classes_found as F. rewrite Forall_forall in F. exact (found_walk s p t x e hue d b Hs (F s Hs) Hx Ax Sx OI Hd Hb).
Qed.
