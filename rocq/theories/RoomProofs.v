(** Rendering of the built-in rooms stays inside their cells. *)
From Coq Require Import QArith.
From Verif Require Import Py VecModel VecSpec VecProofs VoxelModel VoxelSpec VoxelProofs UpmModel UpmSpec UpmProofs
  RoomClasses UpmBridge KitModel KitSpec KitProofs KitShape KitPaint KitTile RoomModel RoomSpec.
Local Open Scope Z_scope.

(** ** A checker for constructions *)
Definition voxelb (o : vec) : bool :=
  match vc o with Base => false | _ =>
    let '(x, y, z) := fpos2 o in (x mod 2 =? 0) && (y mod 2 =? 0) && (z mod 2 =? 0) end.
Definition dirb (o : vec) : bool :=
  match vc o with Base => false | _ =>
    let '(x, y, z) := fpos2 o in (x mod 16 =? 0) && (y mod 16 =? 0) && (z mod 16 =? 0) end.
Definition sizeb (o : vec) : bool :=
  let '(x, y, z) := coords2 o in (x mod 2 =? 0) && (y mod 2 =? 0) && (z mod 2 =? 0).
Definition gridb (k : constr) : bool :=
  match k with
  | KCube o => voxelb o
  | KColumn o d _ => voxelb o && dirb d
  | KDotted o d _ on off => voxelb o && dirb d && (0 <? on + off)%nat
  | KCeiling o _ | KFloor o _ | KLowWall o _ | KWall o _ _ => voxelb o
  | KRing o n => voxelb o && (0 <=? n)
  | KPrism o s => voxelb o && sizeb s
  end.
Definition vcell (v : vec) : cell := let '(x, y, z) := coords2 v in (x / 16, y / 16, z / 16).
Definition containedb (cells : list cell) (k : constr) : bool :=
  gridb k && match points SELF EAST k with
             | Ok pts => forallb (fun v => existsb (cell_eqb (vcell v)) cells) pts
             | Err _ => false
             end.

Lemma voxelb_ok o : voxelb o = true -> exists b, voxel_at o b.
Proof.
  unfold voxelb, voxel_at. destruct (vc o); [discriminate| |]; destruct (fpos2 o) as [[x y] z];
    rewrite !andb_true_iff, !Z.eqb_eq; intros [[A B] D]; exists (x / 2, y / 2, z / 2);
    (split; [discriminate|apply t3_eq; Z.div_mod_to_equations; lia]).
Qed.
Lemma dirb_ok o : dirb o = true -> exists u, voxel_at o (cmul8 u).
Proof.
  unfold dirb, voxel_at. destruct (vc o); [discriminate| |]; destruct (fpos2 o) as [[x y] z];
    rewrite !andb_true_iff, !Z.eqb_eq; intros [[A B] D]; exists (x / 16, y / 16, z / 16); cbn [cmul8];
    (split; [discriminate|apply t3_eq; Z.div_mod_to_equations; lia]).
Qed.
Lemma sizeb_ok o : sizeb o = true -> exists s, size_is o s.
Proof.
  unfold sizeb, size_is. destruct (coords2 o) as [[x y] z].
  rewrite !andb_true_iff, !Z.eqb_eq. intros [[A B] D]. exists (x / 2, y / 2, z / 2).
  apply t3_eq; Z.div_mod_to_equations; lia.
Qed.
Lemma gridb_ok k : gridb k = true -> grid_args k.
Proof.
  destruct k; cbn [gridb grid_args]; rewrite ?andb_true_iff, ?Nat.ltb_lt, ?Z.leb_le;
    intuition auto using voxelb_ok, dirb_ok, sizeb_ok.
Qed.

Lemma frame_origin q : frame (0, 0, 0) CE q = q.
Proof. destruct q as [[x y] z]. cbn [frame tile_turn]. apply t3_eq; lia. Qed.
Lemma origin_ok : cell_at SELF (0, 0, 0) /\ points_to EAST CE.
Proof. repeat split; discriminate. Qed.

Lemma contained_sound cells k : containedb cells k = true ->
  grid_args k /\ forall q, shape k q -> exists d, In d cells /\ voxel_in_cell q d.
Proof.
  unfold containedb. rewrite andb_true_iff. intros [G HP]. apply gridb_ok in G. split; [exact G|].
  destruct origin_ok as [O1 O2].
  destruct (points_shape SELF EAST k _ _ O1 O2 G) as (pts & E & C1 & C2). rewrite E in HP. rewrite forallb_forall in HP.
  intros q Hq. destruct (proj2 (C2 q)) as (v & Hv & Nv & Ev).
  { exists q. split; [exact Hq|]. symmetry. apply frame_origin. }
  specialize (HP v Hv). apply existsb_exists in HP as (d & Hd & Ed). apply cell_eqb_eq in Ed.
  exists d. split; [exact Hd|]. subst d. rewrite (fpos2_fine v (proj1 (C1 v Hv))) in Ev. unfold vcell. rewrite Ev.
  destruct q as [[x y] z]. cbn [voxel_in_cell]. Z.div_mod_to_equations; lia.
Qed.

Lemma frame_in_cell p c q d : voxel_in_cell q d -> voxel_in_cell (frame p c q) (placed p c d).
Proof.
  destruct p as [[a b] h], q as [[x y] z], d as [[u v] w].
  destruct c; cbn [frame tile_turn placed cell_turn voxel_in_cell]; lia.
Qed.

(** ** Executing contained commands *)

Lemma x_calls_contained pos orient p c cells cs :
  cell_at pos p -> points_to orient c -> (forall k, In k cs -> containedb cells (k_con k) = true) ->
  forall size ops g, exists ops' g',
    x_calls pos orient cs (wrun ops (new_world size)) g = (Ok (wrun (ops ++ ops') (new_world size)), g') /\
    (forall o, In o ops' -> exists d v, In d cells /\ voxel_in_cell v (placed p c d) /\ op_pos o = doubled v).
Proof.
  intros HP HO. induction cs as [|k cs IH]; intros HC size ops g; cbn [x_calls].
  - exists [], g. rewrite app_nil_r. split; [reflexivity|intros o []].
  - destruct (contained_sound cells (k_con k) (HC k (or_introl eq_refl))) as [G S].
    destruct k as [k tex sub prob]. cbn [k_con] in *.
    destruct (x_call_ok pos orient p c k tex sub prob size ops g HP HO G) as (ops1 & g1 & -> & E1 & _).
    destruct (IH (fun k' H' => HC k' (or_intror H')) size (ops ++ ops1) g1) as (ops2 & g2 & -> & E2).
    exists (ops1 ++ ops2), g2. rewrite app_assoc. split; [reflexivity|].
    intros o Ho. apply in_app_iff in Ho as [Ho|Ho]; [|apply E2; exact Ho].
    destruct (E1 o Ho) as (q & Hq & Po). destruct (S q Hq) as (d & Hd & Hv).
    exists d, (frame p c q). split; [exact Hd|]. split; [apply frame_in_cell; exact Hv|exact Po].
Qed.

Lemma outside_from_ops (cells : list cell) size ops ops' :
  (forall o, In o ops' -> exists d v, In d cells /\ voxel_in_cell v d /\ op_pos o = doubled v) ->
  unchanged_outside cells (wrun ops (new_world size)) (wrun (ops ++ ops') (new_world size)).
Proof.
  intros HI x y z Hn. rewrite !world_history_lemma, rev_app_distr. apply latest_app.
  intros o Ho. apply in_rev in Ho. destruct (HI o Ho) as (d & v & Hd & Hv & ->). exact (Hn d v Hd Hv).
Qed.

Definition compass_of (t : turn) : compass := match t with T0 => CE | T1 => CN | T2 => CW | T3 => CS end.
Lemma rep_compass o t : rep o (cdir t) -> points_to o (compass_of t).
Proof.
  intros [C E]. split; [congruence|]. unfold fpos2. rewrite C, E. destruct t; reflexivity.
Qed.
Lemma placed_crot p t d : placed p (compass_of t) d = cadd p (crot t d).
Proof. destruct p as [[a b] h], d as [[x y] z]. destruct t; reflexivity. Qed.

Lemma render_contained (r : renderer) fl tx cells pos orient p t :
  (forall g k, In k (fst (r fl tx g)) -> containedb cells (k_con k) = true) ->
  rep pos p -> rep orient (cdir t) ->
  forall size ops g, exists ops' g',
    render r pos orient fl tx (wrun ops (new_world size)) g = (Ok (wrun (ops ++ ops') (new_world size)), g') /\
    (forall o, In o ops' -> exists d v, In d (map (fun d => cadd p (crot t d)) cells) /\ voxel_in_cell v d /\ op_pos o = doubled v).
Proof.
  intros HC HP HO size ops g. unfold render. specialize (HC g). destruct (r fl tx g) as [cs g1]. cbn [fst] in HC.
  destruct (x_calls_contained pos orient p (compass_of t) cells cs HP (rep_compass _ _ HO) HC size ops g1)
    as (ops' & g' & E & A).
  exists ops', g'. split; [exact E|]. intros o Ho. destruct (A o Ho) as (d & v & Hd & Hv & Po).
  exists (placed p (compass_of t) d), v. rewrite placed_crot in *. split; [|auto].
  apply in_map_iff. exists d. auto.
Qed.

(** ** Every class *)
Definition all_contained (cells : list cell) (cs : list cmd) : bool := forallb (fun k => containedb cells (k_con k)) cs.
Lemma containedb_tex cells (cs : list cmd) : all_contained cells cs = true -> forall k, In k cs -> containedb cells (k_con k) = true.
Proof. unfold all_contained. rewrite forallb_forall. auto. Qed.
