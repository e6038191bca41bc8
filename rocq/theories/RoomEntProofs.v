(** Proofs about the entities of the built-in rooms. *)
From Verif Require Import Py VecModel VecSpec VecProofs VoxelModel CodecModel OutModel UpmModel UpmSpec RoomClasses KitModel KitSpec KitProofs
  RoomModel RoomSpec LightModel LightSpec LightProofs OutProofs MagicaProofs ShippedModel ShippedSpec ShippedProofs RoomEntModel RoomEntSpec.
Local Open Scope Z_scope.

(** ** Where the entities stand *)
Definition spot_point (p : cell) (t : turn) (s : spot) : Z * Z * Z :=
  match s with
  | Near steps => t3add (corner p) (fold_left t3add (map fpos2 steps) (0, 0, 0))
  | Turn off => t3add (corner p) (turn3 t (fpos2 off))
  | Spun steps => turn3 t (t3add (corner p) (fold_left t3add (map fpos2 steps) (0, 0, 0)))
  | World v => fpos2 v
  end.
Definition spot_sane (s : spot) : bool :=
  match s with Near l | Spun l => forallb positionalb l | Turn v | World v => positionalb v end.
Lemma spot_ok s pos orient p t : spot_sane s = true -> cell_at pos p -> cell_at orient (cdir t) ->
  exists v, spot_vec pos orient s = Ok v /\ vc v <> Base /\ fpos2 v = spot_point p t s.
Proof.
  intros S HP HO. destruct (corner_pos pos p HP) as [N P]. destruct s as [l|off|l|v]; cbn [spot_sane spot_vec spot_point] in *.
  - rewrite <- P. apply steps_ok; assumption.
  - destruct (rotate_ok off orient t HO (positionalb_ok _ S)) as (r & -> & Nr & Pr). cbn [bind].
    destruct (add_ok pos r N Nr) as (v & -> & Nv & Pv). exists v. split; [reflexivity|]. split; [exact Nv|]. rewrite Pv, Pr, P. reflexivity.
  - destruct (steps_ok l S pos N) as (v & -> & Nv & Pv). cbn [bind].
    destruct (rotate_ok v orient t HO Nv) as (r & -> & Nr & Pr). exists r. split; [reflexivity|]. split; [exact Nr|]. rewrite Pr, Pv, P. reflexivity.
  - exists v. split; [reflexivity|]. split; [exact (positionalb_ok _ S)|reflexivity].
Qed.
Lemma near_fine l v pos p t orient : forallb positionalb l = true -> vc v = Fine -> cell_at pos p ->
  exists q, spot_vec pos orient (Near (l ++ [v])) = Ok q /\ vc q = Fine /\ fpos2 q = spot_point p t (Near (l ++ [v])).
Proof.
  intros S Hv HP. destruct (corner_pos pos p HP) as [N P]. cbn [spot_vec spot_point]. rewrite map_app, fold_left_app. cbn [map fold_left].
  destruct (steps_ok l S pos N) as (a & E & Na & Pa).
  assert (forall (l : list vec) x acc, foldM vadd (l ++ [x]) acc = let! a := foldM vadd l acc in vadd a x) as FA.
  { clear. induction l as [|y l IH]; intros x acc; cbn [app foldM bind]; [destruct (vadd acc x); reflexivity|].
    destruct (vadd acc y); [apply IH|reflexivity]. }
  rewrite FA, E. cbn [bind]. destruct (add_fine a v Na Hv) as (q & -> & Nq & Pq). exists q. split; [reflexivity|]. split; [exact Nq|].
  rewrite Pq, Pa, P, t3add_assoc. reflexivity.
Qed.
Lemma turn_fine off pos orient p t : vc off = Fine -> cell_at pos p -> cell_at orient (cdir t) ->
  exists q, spot_vec pos orient (Turn off) = Ok q /\ vc q = Fine /\ fpos2 q = spot_point p t (Turn off).
Proof.
  intros Hv HP HO. destruct (corner_pos pos p HP) as [N P]. cbn [spot_vec spot_point].
  assert (vc off <> Base) as Hv' by congruence.
  destruct (rotate_ok off orient t HO Hv') as (r & E & Nr & Pr).
  assert (vc r = Fine) as Fr.
  { rewrite (vrotate_dir off orient (facing t) (facing_points orient t HO)) in E. injection E as <-. destruct t; cbn [facing rotq vc]; exact Hv. }
  rewrite E. cbn [bind]. destruct (add_fine pos r N Fr) as (q & -> & Nq & Pq). exists q. split; [reflexivity|]. split; [exact Nq|].
  rewrite Pq, Pr, P. reflexivity.
Qed.
Definition fixture_point (p : cell) (t : turn) (f : fixture) : Z * Z * Z :=
  match f with
  | FLamp s => middle (spot_point p t s)
  | FWhite s => spot_point p t s
  | FPusher off _ _ _ _ => spot_point p t (Turn off)
  | FSpawn => spot_point p t (Near [TILE_CENTER; fine 0 0 1])
  | FGrenade => spot_point p t (Near [TILE_CENTER; ABOVE_FINE])
  | FTree => spot_point p t (Turn (fine 4 4 3))
  end.
Definition fixture_sane (f : fixture) : bool :=
  match f with FLamp s | FWhite s => spot_sane s | FPusher off _ _ _ _ => positionalb off | _ => true end.
Definition fixture_sort (t : turn) (f : fixture) : sort :=
  match f with
  | FLamp _ => ColouredLight
  | FWhite _ => WhiteLight
  | FPusher _ yaw pitch force r => Push ((degrees t + yaw) mod 360) pitch force r
  | FSpawn => SpawnPoint
  | FGrenade => GrenadeBox
  | FTree => TreeModel ((degrees t + 270) mod 360)
  end.
Lemma fixture_ok hue f pos orient p t m : fixture_sane f = true -> cell_at pos p -> cell_at orient (cdir t) ->
  exists e m', run_fixture (LIGHTMAN hue) pos orient f m = Ok m' /\ one_more m e m' /\ of_sort hue (fixture_sort t f) e /\
    stands e (fixture_point p t f) 2.
Proof.
  intros S HP HO. destruct f as [s|s|off yaw pitch force r| | |]; cbn [fixture_sane fixture_point fixture_sort run_fixture] in *.
  - destruct (spot_ok s pos orient p t S HP HO) as (v & -> & Nv & Pv). cbn [bind].
    destruct (light_ok (LIGHTMAN hue) m v None (I 1) Nv) as (e & m' & -> & O & St & Ty & (r & g0 & b & At & q & _ & Hq) & L & R).
    exists e, m'. split; [reflexivity|]. split; [exact O|]. split.
    { split; [exact L|]. split; [exact R|]. split; [exact Ty|]. exists q, r, g0, b. split; [exact Hq|exact At]. }
    rewrite <- Pv. exact St.
  - destruct (spot_ok s pos orient p t S HP HO) as (v & -> & Nv & Pv). cbn [bind]. unfold mk_light.
    destruct (fine4 v Nv) as (q & Eq & _). rewrite Eq. cbn [bind add_entity].
    eexists _, _. split; [reflexivity|]. split; [apply one_more_add|]. split; [repeat split|].
    match goal with |- stands (ent_at _ ?ty ?a) _ _ => destruct (made_at v ty a (ent_at (vmul q 4) ty a) Nv) as (_ & _ & _ & _ & St) end.
    { rewrite Eq. reflexivity. }
    rewrite Pv in St. exact St.
  - destruct (spot_ok (Turn off) pos orient p t S HP HO) as (v & -> & Nv & Pv). cbn [bind]. rewrite (rotate_yaw_ok yaw orient t HO). cbn [bind].
    unfold mk_pusher. destruct (fine4 v Nv) as (q & Eq & _). rewrite Eq. cbn [bind add_entity].
    eexists _, _. split; [reflexivity|]. split; [apply one_more_add|]. split; [repeat split|].
    match goal with |- stands (ent_at _ ?ty ?a) _ _ => destruct (made_at v ty a (ent_at (vmul q 4) ty a) Nv) as (_ & _ & _ & _ & St) end.
    { rewrite Eq. reflexivity. }
    rewrite Pv in St. exact St.
  - destruct (near_fine [TILE_CENTER] (fine 0 0 1) pos p t orient eq_refl eq_refl HP) as (v & E & Nv & Pv). cbn [app] in *.
    cbn [spot_vec foldM] in E. unfold spawn_entity. destruct (vadd pos TILE_CENTER) as [a|]; [|discriminate]. cbn [bind] in *.
    destruct (vadd a (fine 0 0 1)) as [b|]; [|discriminate]. cbn [bind] in *. injection E as ->. unfold mk_playerspawn. cbn [add_entity bind].
    eexists _, _. split; [reflexivity|]. split; [apply one_more_add|]. split; [repeat split|]. rewrite <- Pv. apply made_fine. exact Nv.
  - destruct (near_fine [TILE_CENTER] ABOVE_FINE pos p t orient eq_refl eq_refl HP) as (v & E & Nv & Pv). cbn [app] in *. rewrite E.
    unfold mk_weapon. cbn [add_entity bind].
    eexists _, _. split; [reflexivity|]. split; [apply one_more_add|]. split; [repeat split|]. rewrite <- Pv. apply made_fine. exact Nv.
  - destruct (turn_fine (fine 4 4 3) pos orient p t eq_refl HP HO) as (v & E & Nv & Pv). rewrite E. cbn [bind]. rewrite (rotate_yaw_ok 270 orient t HO).
    unfold mk_mapmodel. cbn [add_entity bind repeat List.length Nat.eqb].
    eexists _, _. split; [reflexivity|]. split; [apply one_more_add|]. split; [repeat split|]. rewrite <- Pv. apply made_fine. exact Nv.
Qed.
Definition stands_for (p : cell) (t : turn) (f : fixture) (e : entity) : Prop := stands e (fixture_point p t f) 2.
Lemma fixtures_run hue pos orient p t : cell_at pos p -> cell_at orient (cdir t) -> forall l, forallb fixture_sane l = true -> forall m,
  exists es m', run_fixtures (LIGHTMAN hue) pos orient l m = Ok m' /\ more_ents m es m' /\
    Forall2 (of_sort hue) (map (fixture_sort t) l) es /\ Forall2 (stands_for p t) l es.
Proof.
  intros HP HO. unfold run_fixtures. induction l as [|f l IH]; intros F m; cbn [foldM map].
  - exists [], m. split; [reflexivity|]. split; [apply more_nil|]. split; constructor.
  - cbn [forallb] in F. apply Bool.andb_true_iff in F as [Sf F].
    destruct (fixture_ok hue f pos orient p t m Sf HP HO) as (e & m1 & -> & O & A & St). cbn [bind].
    destruct (IH F m1) as (es & m2 & -> & M & As & Ss). exists (e :: es), m2. split; [reflexivity|].
    split; [exact (more_cons _ _ _ _ _ O M)|]. split; constructor; assumption.
Qed.

(** ** Sane classes *)
Ltac by_flags fl n :=
  lazymatch n with
  | O => idtac
  | S ?m => let b := fresh "b" in let fl' := fresh "fl" in destruct fl as [|b fl']; [|destruct b; by_flags fl' m]
  end.
Ltac each_class Hi := cbn [In builtin_fixtures] in Hi;
  repeat match type of Hi with _ \/ _ => destruct Hi as [Hi|Hi] end; [..|destruct Hi].
Lemma class_sane c fs fl : In (c, fs) builtin_fixtures -> forallb fixture_sane (fs fl) = true.
Proof. intros Hi. each_class Hi; injection Hi as <- <-; by_flags fl 2%nat; reflexivity. Qed.
Lemma class_sorts c fs p t fl : In (c, fs) builtin_fixtures -> map (fixture_sort t) (fs fl) = sorts (R c p t fl).
Proof. intros Hi. each_class Hi; injection Hi as <- <-; by_flags fl 2%nat; reflexivity. Qed.

(** ** Inside *)
Lemma inside_at r e q : stands e q 2 -> (inside_room r e <-> exists d, In d (positions r) /\ point_in_cell q d).
Proof.
  intros St. split.
  - intros (q' & d & S' & Hd & Hp). rewrite (stands_inj _ _ _ _ St S'). exists d. split; assumption.
  - intros (d & Hd & Hp). exists q, d. split; [exact St|]. split; assumption.
Qed.
Definition fits (r : room) (f : fixture) : Prop := exists d, In d (positions r) /\ point_in_cell (fixture_point (r_pos r) (r_turn r) f) d.
Lemma all_fit r l es : Forall2 (stands_for (r_pos r) (r_turn r)) l es -> (Forall (inside_room r) es <-> Forall (fits r) l).
Proof.
  induction 1 as [|f e l es S _ IH]; [split; constructor|]. rewrite !Forall_cons_iff, IH. unfold stands_for in S.
  rewrite (inside_at r e _ S). reflexivity.
Qed.
(** Fixtures that do not depend on where the room is. *)
Definition local_spot (t : turn) (s : spot) : option (Z * Z * Z) :=
  match s with
  | Near steps => Some (fold_left t3add (map fpos2 steps) (0, 0, 0))
  | Turn off => Some (turn3 t (fpos2 off))
  | _ => None
  end.
Definition local_point (t : turn) (f : fixture) : option (Z * Z * Z) :=
  match f with
  | FLamp s => option_map middle (local_spot t s)
  | FWhite s => local_spot t s
  | FPusher off _ _ _ _ => local_spot t (Turn off)
  | FSpawn => local_spot t (Near [TILE_CENTER; fine 0 0 1])
  | FGrenade => local_spot t (Near [TILE_CENTER; ABOVE_FINE])
  | FTree => local_spot t (Turn (fine 4 4 3))
  end.
Lemma local_point_ok p t f q : local_point t f = Some q -> fixture_point p t f = t3add (corner p) q.
Proof.
  destruct f as [s|s|off yaw pitch force r| | |]; cbn [local_point fixture_point].
  1,2: destruct s; cbn [local_spot option_map spot_point]; intros E; try discriminate E.
  all: try (cbn [local_spot] in E).
  all: try (intros E; cbn [local_spot] in E; injection E as <-; reflexivity).
  all: injection E as <-; try rewrite <- middle_add; reflexivity.
Qed.
Definition fitsb (c : rclass) (t : turn) (fl : list bool) (f : fixture) : bool :=
  match local_point t f with Some q => existsb (fun d => in_cellb q (crot t d)) (rc_cells c fl) | None => false end.
Definition localb (t : turn) (f : fixture) : bool := match local_point t f with Some _ => true | None => false end.
Lemma fitsb_ok c p t fl f : localb t f = true -> (fits (R c p t fl) f <-> fitsb c t fl f = true).
Proof.
  unfold localb, fitsb, fits. destruct (local_point t f) as [q|] eqn:E; [|discriminate]. intros _. cbn [r_pos r_turn].
  rewrite (local_point_ok p t f q E). unfold positions. cbn [r_cls r_pos r_turn r_flags]. rewrite existsb_exists. split.
  - intros (d & Hd & Hp). apply in_map_iff in Hd as (x & <- & Hx). exists x. split; [exact Hx|]. apply (in_cellb_moved q _ p). exact Hp.
  - intros (x & Hx & F). exists (cadd p (crot t x)). split; [apply in_map_iff; exists x; split; [reflexivity|exact Hx]|]. apply in_cellb_moved. exact F.
Qed.
Lemma all_fitsb c p t fl l : forallb (localb t) l = true -> (Forall (fits (R c p t fl)) l <-> forallb (fitsb c t fl) l = true).
Proof.
  rewrite Forall_forall, !forallb_forall. intros L. split; intros H f Hf; [apply (fitsb_ok c p t fl f (L f Hf)); auto|].
  apply (fitsb_ok c p t fl f (L f Hf)). auto.
Qed.
Ltac by_check := intros; match goal with |- Forall (fits (R ?c ?p ?t ?fl)) ?l <-> _ =>
  rewrite (all_fitsb c p t fl l) by (vm_compute; reflexivity) end; vm_compute; intuition congruence.
Lemma in_layers h x y z : In (x, y, z) (layers h) <-> -1 <= x <= 1 /\ -1 <= y <= 1 /\ 0 <= z < h.
Proof.
  unfold layers. rewrite in_flat_map. split.
  - intros (k & Hk & Hl). apply in_zrange in Hk. unfold RoomClasses.layer in Hl. cbn [In] in Hl.
    repeat match type of Hl with _ \/ _ => destruct Hl as [Hl|Hl] end; solve [destruct Hl|injection Hl; intros; subst; lia].
  - intros (A & B & D). exists z. split; [apply in_zrange; exact D|].
    assert (x = -1 \/ x = 0 \/ x = 1) as [ -> | [ -> | -> ] ] by lia; assert (y = -1 \/ y = 0 \/ y = 1) as [ -> | [ -> | -> ] ] by lia; cbn [RoomClasses.layer In]; tauto.
Qed.
Lemma in_large c p t fl h d : rc_cells c fl = layers h ->
  (In d (positions (R c p t fl)) <-> let '(x, y, z) := p in let '(a, b, k) := d in x - 1 <= a <= x + 1 /\ y - 1 <= b <= y + 1 /\ z <= k < z + h).
Proof.
  intros E. unfold positions. cbn [r_cls r_pos r_turn r_flags]. rewrite E, in_map_iff. destruct p as [[x y] z], d as [[a b] k]. split.
  - intros ([[u v] w] & F & Hi). apply in_layers in Hi. destruct t; cbn [crot cadd] in F; injection F as <- <- <-; lia.
  - intros H. destruct t.
    + exists (a - x, b - y, k - z). rewrite in_layers. split; [cbn [crot cadd]; apply t3_eq; lia|lia].
    + exists (b - y, x - a, k - z). rewrite in_layers. split; [cbn [crot cadd]; apply t3_eq; lia|lia].
    + exists (x - a, y - b, k - z). rewrite in_layers. split; [cbn [crot cadd]; apply t3_eq; lia|lia].
    + exists (y - b, a - x, k - z). rewrite in_layers. split; [cbn [crot cadd]; apply t3_eq; lia|lia].
Qed.
(** The light of _LargeRoom hangs above the room, wherever the room is. *)
Lemma large_outside c p t fl h : rc_cells c fl = layers h -> h = 1 \/ h = 2 -> ~ fits (R c p t fl) (large_light h).
Proof.
  intros E Hh (d & Hd & Hp). apply (in_large c p t fl h d E) in Hd. cbn [r_pos r_turn] in Hp. destruct p as [[x y] z], d as [[a b] k].
  assert (exists u v, fixture_point (x, y, z) t (large_light h) = (u, v, 16 * z + 16 * h + (if h =? 1 then 4 else 0))) as (u & v & F).
  { destruct Hh as [-> | ->], t; cbn; eexists _, _; apply t3_eq; try reflexivity; lia. }
  rewrite F in Hp. cbn [point_in_cell] in Hp. clear F. destruct Hh as [-> | ->]; cbn [Z.eqb Pos.eqb] in Hp; lia.
Qed.
Lemma crossing_inside p t fl : Forall (fits (R CrossingWalkways p t fl)) (fixtures_CrossingWalkways fl) <->
  let '(x, y, z) := p in -1 <= x <= 1 /\ -1 <= y <= 1 /\ z = 0.
Proof.
  assert (rc_cells CrossingWalkways fl = layers (if flag fl 0 then 3 else 2)) as E by reflexivity.
  unfold fixtures_CrossingWalkways. rewrite Forall_map, Forall_forall. destruct p as [[x y] z].
  assert (forall i, fixture_point (x, y, z) t (FLamp (World (SELF +v vmul ABOVE i))) = (8, 8, 16 * i + 8)) as P.
  { intros i. unfold fixture_point, spot_point, fpos2, coords2. cbn -[Z.mul Z.add]. apply t3_eq; lia. }
  assert (forall i, fits (R CrossingWalkways (x, y, z) t fl) (FLamp (World (SELF +v vmul ABOVE i))) <->
    x - 1 <= 0 <= x + 1 /\ y - 1 <= 0 <= y + 1 /\ z <= i < z + (if flag fl 0 then 3 else 2)) as Fi.
  { intros i. unfold fits. cbn [r_pos r_turn]. rewrite P. split.
    - intros ([[a b] k] & Hd & Hp). apply (in_large _ _ _ _ _ _ E) in Hd. cbn [point_in_cell] in Hp.
      assert (a = 0) as -> by lia. assert (b = 0) as -> by lia. assert (k = i) as -> by lia. exact Hd.
    - intros H. exists (0, 0, i). split; [apply (in_large _ _ _ _ _ _ E); exact H|]. cbn [point_in_cell]. lia. }
  split.
  - intros H. assert (forall i, 0 <= i < (if flag fl 0 then 3 else 2) -> z <= i < z + (if flag fl 0 then 3 else 2) /\ x - 1 <= 0 <= x + 1 /\ y - 1 <= 0 <= y + 1) as H'.
    { intros i Hi. apply in_zrange in Hi. specialize (H i Hi). apply Fi in H. tauto. }
    clear - H'. destruct (flag fl 0); [pose proof (H' 0); pose proof (H' 2)|pose proof (H' 0); pose proof (H' 1)]; lia.
  - intros H i Hi. apply in_zrange in Hi. apply Fi. lia.
Qed.
Lemma class_inside c fs p t fl : In (c, fs) builtin_fixtures -> (Forall (fits (R c p t fl)) (fs fl) <-> well_furnished (R c p t fl)).
Proof.
  intros Hi. each_class Hi; injection Hi as <- <-.
  16: { rewrite crossing_inside. destruct p as [[x y] z]. reflexivity. }
  16,18: (split; [|intros []]; intros F; apply Forall_inv in F; eapply large_outside; [| |exact F]; [reflexivity|tauto]).
  17: { split; [|intros []]. intros F. apply Forall_inv in F. unfold tall in F.
    eapply (large_outside DigitalRoom p t fl (tall fl)); [reflexivity|unfold tall; destruct (flag fl 1); tauto|exact F]. }
  all: try solve [destruct t; by_flags fl 2%nat; by_check].
Qed.
Lemma builtin_entities c fs r pos orient hue m : In (c, fs) builtin_fixtures -> r_cls r = c -> room_vectors r pos orient ->
  exists es m', run_fixtures (LIGHTMAN hue) pos orient (fs (r_flags r)) m = Ok m' /\ more_ents m es m' /\
    Forall2 (of_sort hue) (sorts r) es /\ (Forall (inside_room r) es <-> well_furnished r).
Proof.
  intros Hi Hc [HP HO]. destruct r as [c' p t fl]. cbn [r_cls r_pos r_turn r_flags] in *. subst c'.
  destruct (fixtures_run hue pos orient p t HP HO (fs fl) (class_sane c fs fl Hi) m) as (es & m' & E & M & So & St).
  exists es, m'. split; [exact E|]. split; [exact M|]. rewrite (class_sorts c fs p t fl Hi) in So. split; [exact So|].
  rewrite (all_fit (R c p t fl) (fs fl) es St). apply class_inside. exact Hi.
Qed.
Lemma outside_exists r hue pos orient m c fs : In (c, fs) builtin_fixtures -> r_cls r = c -> room_vectors r pos orient -> ~ well_furnished r ->
  exists es m' e, run_fixtures (LIGHTMAN hue) pos orient (fs (r_flags r)) m = Ok m' /\ more_ents m es m' /\ In e es /\ ~ inside_room r e.
Proof.
  intros Hi Hc HV HW. destruct r as [c' p t fl]. cbn [r_cls r_pos r_turn r_flags] in *. subst c'. destruct HV as [HP HO]. cbn [r_pos r_turn] in HP, HO.
  destruct (fixtures_run hue pos orient p t HP HO (fs fl) (class_sane c fs fl Hi) m) as (es & m' & E & M & So & St).
  exists es, m'.
  assert (forall f, In f (fs fl) -> fits (R c p t fl) f \/ ~ fits (R c p t fl) f) as DEC.
  { intros f _. unfold fits. generalize (fixture_point (r_pos (R c p t fl)) (r_turn (R c p t fl)) f). intros q.
    generalize (positions (R c p t fl)). induction l as [|d l IH]; [right; intros (d & [] & _)|].
    assert (point_in_cell q d \/ ~ point_in_cell q d) as [A|A] by (destruct q as [[? ?] ?], d as [[? ?] ?]; cbn [point_in_cell]; lia).
    - left. exists d. split; [left; reflexivity|exact A].
    - destruct IH as [(d' & Hd & Hp)|IH]; [left; exists d'; split; [right; exact Hd|exact Hp]|].
      right. intros (d' & [<-|Hd] & Hp); [exact (A Hp)|]. apply IH. exists d'. split; assumption. }
  assert (Forall (fits (R c p t fl)) (fs fl) \/ exists f, In f (fs fl) /\ ~ fits (R c p t fl) f) as [A|(f & Hf & Nf)].
  { clear - DEC. induction (fs fl) as [|f l IH]; [left; constructor|].
    destruct (DEC f (or_introl eq_refl)) as [A|A]; [|right; exists f; split; [left; reflexivity|exact A]].
    destruct IH as [B|(f' & Hf & B)]; [intros f' Hf; apply DEC; right; exact Hf|left; constructor; assumption|].
    right. exists f'. split; [right; exact Hf|exact B]. }
  - exfalso. apply HW. apply (class_inside c fs p t fl Hi). exact A.
  - destruct (Forall2_in_l _ _ _ St f Hf) as (e & He & Sf). exists e. split; [exact E|]. split; [exact M|]. split; [exact He|].
    intros I. apply Nf. apply (inside_at (R c p t fl) e _ Sf). exact I.
Qed.
Lemma outside_classes c fs r pos orient hue m : In (c, fs) builtin_fixtures -> r_cls r = c -> room_vectors r pos orient ->
  (In c [ImposingRingRoom; PlusPlatform; FlatSpace; DigitalRoom] \/
   In c [JumpCorridor3; JumpCorridorVertical; JumpCorridorVerticalCenter] /\ r_turn r <> T0 \/
   c = PoleRoom /\ flag (r_flags r) 1 = false \/
   c = CrossingWalkways /\ 1 < fst (fst (r_pos r))) ->
  exists es m' e, run_fixtures (LIGHTMAN hue) pos orient (fs (r_flags r)) m = Ok m' /\ more_ents m es m' /\ In e es /\ ~ inside_room r e.
Proof.
  intros Hi Hc HV HB. apply (outside_exists r hue pos orient m c fs Hi Hc HV). unfold well_furnished. rewrite Hc. clear Hi HV Hc.
  destruct HB as [HB|[[HB Ht]|[[-> HB]|[-> HB]]]].
  - cbn [In] in HB. destruct HB as [<-|[<-|[<-|[<-|[]]]]]; intros [].
  - cbn [In] in HB. destruct HB as [<-|[<-|[<-|[]]]]; exact Ht.
  - cbn -[flag]. rewrite HB. discriminate.
  - destruct (r_pos r) as [[x y] z]. cbn [fst] in HB. cbn -[Z.le]. intros (A & _). lia.
Qed.
Lemma inside_exactly c fs r pos orient hue m : In (c, fs) builtin_fixtures -> r_cls r = c -> room_vectors r pos orient ->
  exists es m', run_fixtures (LIGHTMAN hue) pos orient (fs (r_flags r)) m = Ok m' /\ more_ents m es m' /\
    (Forall (inside_room r) es <-> well_furnished r).
Proof. intros Hi Hc HV. destruct (builtin_entities c fs r pos orient hue m Hi Hc HV) as (es & m' & E & M & _ & I). exists es, m'. auto. Qed.
Lemma entities_made c fs r pos orient hue m : In (c, fs) builtin_fixtures -> r_cls r = c -> room_vectors r pos orient ->
  exists es m', run_fixtures (LIGHTMAN hue) pos orient (fs (r_flags r)) m = Ok m' /\ more_ents m es m' /\ Forall2 (of_sort hue) (sorts r) es.
Proof. intros Hi Hc HV. destruct (builtin_entities c fs r pos orient hue m Hi Hc HV) as (es & m' & E & M & S & _). exists es, m'. auto. Qed.
Lemma fixtures_of_all : map fst builtin_fixtures = builtin_rooms.
Proof. reflexivity. Qed.
Lemma class_places c fs p t fl : In (c, fs) builtin_fixtures -> map (fixture_point p t) (fs fl) = places (R c p t fl).
Proof.
  intros Hi. destruct p as [[i j] k].
  each_class Hi; injection Hi as <- <-; by_flags fl 2%nat; destruct t; try reflexivity;
    cbn -[Z.mul Z.add Z.opp]; repeat (f_equal; try (apply t3_eq; lia)).
Qed.
Lemma entities_placed c fs r pos orient hue m : In (c, fs) builtin_fixtures -> r_cls r = c -> room_vectors r pos orient ->
  exists es m', run_fixtures (LIGHTMAN hue) pos orient (fs (r_flags r)) m = Ok m' /\ more_ents m es m' /\ Forall2 (of_sort hue) (sorts r) es /\
    Forall2 (fun p e => stands e p 2) (places r) es.
Proof.
  intros Hi Hc [HP HO]. destruct r as [c' p t fl]. cbn [r_cls r_pos r_turn r_flags] in *. subst c'.
  destruct (fixtures_run hue pos orient p t HP HO (fs fl) (class_sane c fs fl Hi) m) as (es & m' & E & M & So & St).
  exists es, m'. split; [exact E|]. split; [exact M|]. rewrite (class_sorts c fs p t fl Hi) in So. split; [exact So|].
  rewrite <- (class_places c fs p t fl Hi). clear - St. induction St as [|f e l es S _ IH]; cbn [map]; constructor; [exact S|exact IH].
Qed.
