(** Floors, ceilings, walls and rings within one tile. *)
From Coq Require Import QArith.
From Verif Require Import Py VecModel VecSpec VecProofs VoxelModel VoxelSpec VoxelProofs UpmModel UpmSpec
  KitModel KitSpec KitProofs KitShape KitPaint.
Local Open Scope Z_scope.

Definition untile (c : compass) (q : cell) : cell :=
  let '(x, y, z) := q in
  match c with
  | CE => (x, y, z) | CN => (y, 7 - x, z) | CW => (7 - x, 7 - y, z) | CS => (7 - y, x, z)
  end.
Definition unframe (p : cell) (c : compass) (v : cell) : cell :=
  let '(a, b, h) := p in let '(x, y, z) := v in untile c (x - 8 * a, y - 8 * b, z - 8 * h).
Lemma frame_unframe p c v : frame p c (unframe p c v) = v.
Proof.
  destruct p as [[a b] h], v as [[x y] z].
  destruct c; cbn [frame unframe tile_turn untile]; apply t3_eq; lia.
Qed.
Lemma unframe_frame p c v : unframe p c (frame p c v) = v.
Proof.
  destruct p as [[a b] h], v as [[x y] z].
  destruct c; cbn [frame unframe tile_turn untile]; apply t3_eq; lia.
Qed.

Lemma draws_unframe pos orient p c k (S : cell -> Prop) : cell_at pos p -> points_to orient c -> grid_args k ->
  (forall v, S v <-> shape k (unframe p c v)) -> draws pos orient k S.
Proof.
  intros HP HO G E. apply (draws_intro _ _ p c); try assumption. intros v. rewrite E. split.
  - intros Hs. exists (unframe p c v). rewrite frame_unframe. auto.
  - intros (q & Hq & ->). rewrite unframe_frame. exact Hq.
Qed.

Ltac tile_solve :=
  repeat match goal with p : cell |- _ => let a := fresh "a" in let b := fresh "b" in let h := fresh "h" in destruct p as [[a b] h] end;
  repeat match goal with c : compass |- _ => destruct c end;
  unfold on_side, rim, layer, voxel_in_cell, in_box, within, placed, cell_turn, turned, unframe, untile, shift, fst, snd in *;
  lia.

Lemma in_tile_voxel off d i : in_tile off d i -> exists b, voxel_at off b.
Proof. destruct d as [[x y] z]. cbn [in_tile]. eauto. Qed.
Lemma in_tile_inj off d i b : in_tile off d i -> voxel_at off b ->
  b = (let '(x, y, z) := d in (8 * x, 8 * y, 8 * z + i)).
Proof. destruct d as [[x y] z]. cbn [in_tile]. intros A B. exact (voxel_at_inj _ _ _ B A). Qed.

Lemma floor_draws pos orient p c off d i n : cell_at pos p -> points_to orient c -> in_tile off d i -> 0 <= i < 8 -> 0 <= n <= 8 ->
  exists S, draws pos orient (KFloor off n) S /\ (forall v, S v -> layer (placed p c d) i v) /\
    (n = 8 -> forall v, layer (placed p c d) i v -> S v).
Proof.
  intros HP HO HT Hi Hn. exists (fun v => shape (KFloor off n) (unframe p c v)). split; [|split].
  - apply draws_unframe with p c; auto; [|reflexivity]. exact (in_tile_voxel _ _ _ HT).
  - intros v (b & Hb & B). rewrite (in_tile_inj _ _ _ _ HT Hb) in B. clear - B Hi Hn. tile_solve.
  - intros -> v L. destruct (in_tile_voxel _ _ _ HT) as [b Hb]. exists b. split; [exact Hb|].
    rewrite (in_tile_inj _ _ _ _ HT Hb). clear - L Hi. tile_solve.
Qed.

Lemma ceiling_draws pos orient p c off d n : cell_at pos p -> points_to orient c -> in_tile off d 0 -> 0 <= n <= 8 ->
  exists S, draws pos orient (KCeiling off n) S /\ (forall v, S v -> layer (placed p c d) 7 v) /\
    (n = 8 -> forall v, layer (placed p c d) 7 v -> S v).
Proof.
  intros HP HO HT Hn. exists (fun v => shape (KCeiling off n) (unframe p c v)). split; [|split].
  - apply draws_unframe with p c; auto; [|reflexivity]. exact (in_tile_voxel _ _ _ HT).
  - intros v (b & Hb & B). rewrite (in_tile_inj _ _ _ _ HT Hb) in B. clear - B Hn. tile_solve.
  - intros -> v L. destruct (in_tile_voxel _ _ _ HT) as [b Hb]. exists b. split; [exact Hb|].
    rewrite (in_tile_inj _ _ _ _ HT Hb). clear - L. tile_solve.
Qed.

Lemma wall_unframe p c off f f' d h v : in_tile off d 0 -> points_to f f' -> 0 <= h <= 8 ->
  on_side (turned c f') (placed p c d) h v <-> wall_shape off f h (unframe p c v).
Proof.
  intros HT Hf Hh. split.
  - intros L. destruct (in_tile_voxel _ _ _ HT) as [b Hb]. exists b, f'. split; [exact Hb|]. split; [exact Hf|].
    rewrite (in_tile_inj _ _ _ _ HT Hb). clear - L. destruct f'; tile_solve.
  - intros (b & f2 & Hb & Hf2 & B). rewrite (in_tile_inj _ _ _ _ HT Hb) in B.
    assert (f2 = f') as -> by (destruct Hf as [_ Hf], Hf2 as [_ Hf2]; rewrite Hf in Hf2; destruct f', f2; congruence).
    clear - B Hh. destruct f'; tile_solve.
Qed.
Lemma wall_draws pos orient p c off f f' d h : cell_at pos p -> points_to orient c -> in_tile off d 0 -> points_to f f' -> 0 <= h <= 8 ->
  draws pos orient (KWall off f h) (on_side (turned c f') (placed p c d) h).
Proof.
  intros HP HO HT Hf Hh. apply draws_unframe with p c; auto; [exact (in_tile_voxel _ _ _ HT)|].
  intros v. apply wall_unframe; assumption.
Qed.
Lemma low_wall_draws pos orient p c off f f' d : cell_at pos p -> points_to orient c -> in_tile off d 0 -> points_to f f' ->
  draws pos orient (KLowWall off f) (on_side (turned c f') (placed p c d) 3).
Proof.
  intros HP HO HT Hf. apply draws_unframe with p c; auto; [exact (in_tile_voxel _ _ _ HT)|].
  intros v. apply wall_unframe; auto. lia.
Qed.
Lemma no_wall_draws pos orient p c off f h d i : cell_at pos p -> points_to orient c -> in_tile off d i -> (forall f', ~ points_to f f') ->
  draws pos orient (KWall off f h) (fun _ => False).
Proof.
  intros HP HO HT Hf. apply draws_unframe with p c; auto; [exact (in_tile_voxel _ _ _ HT)|].
  intros v. split; [intros []|]. intros (b & f2 & Hb & Hf2 & B). exact (Hf _ Hf2).
Qed.

Lemma ring_draws pos orient p c off d i n : cell_at pos p -> points_to orient c -> in_tile off d i -> 0 <= i < 8 -> 0 <= n <= 8 ->
  exists S, draws pos orient (KRing off n) S /\ (forall v, S v -> layer (placed p c d) i v) /\
    (n = 8 -> forall v, S v <-> layer (placed p c d) i v /\ rim (placed p c d) v).
Proof.
  intros HP HO HT Hi Hn. exists (fun v => shape (KRing off n) (unframe p c v)).
  destruct (in_tile_voxel _ _ _ HT) as [b Hb].
  assert (forall v, shape (KRing off n) (unframe p c v) -> layer (placed p c d) i v) as K.
  { intros v [(a & b' & h & x & y & Hb' & E & B)|[-> E]].
    - pose proof (in_tile_inj _ _ _ _ HT Hb') as E'. destruct d as [[d1 d2] d3]. apply t3_inv in E' as (-> & -> & ->).
      destruct (unframe p c v) as [[u1 u2] u3] eqn:Eu. apply t3_inv in E as (-> & -> & ->).
      rewrite <- (frame_unframe p c v), Eu. clear - B Hi Hn. destruct p as [[a b] h]. unfold layer, voxel_in_cell.
      destruct c; cbn [frame placed tile_turn cell_turn fst snd]; lia.
    - pose proof (in_tile_inj _ _ _ _ HT E) as E'. rewrite <- (frame_unframe p c v), E'. clear - Hi.
      destruct d as [[d1 d2] d3]. destruct p as [[a b] h]. unfold layer, voxel_in_cell.
      destruct c; cbn [frame placed tile_turn cell_turn fst snd]; lia. }
  split; [|split; [exact K|]].
  - apply draws_unframe with p c; auto; [split; [eauto|lia]|reflexivity].
  - intros -> v. split.
    + intros Hs. split; [apply K; exact Hs|]. destruct Hs as [(a & b' & h & x & y & Hb' & E & B)|[E _]]; [|lia].
      pose proof (in_tile_inj _ _ _ _ HT Hb') as E'. destruct d as [[d1 d2] d3]. apply t3_inv in E' as (-> & -> & ->).
      destruct (unframe p c v) as [[u1 u2] u3] eqn:Eu. apply t3_inv in E as (-> & -> & ->).
      rewrite <- (frame_unframe p c v), Eu. clear - B Hi. destruct p as [[a b] h]. unfold rim, on_side, voxel_in_cell.
      destruct c; cbn [frame placed tile_turn cell_turn fst snd]; lia.
    + intros [L R]. left. destruct d as [[d1 d2] d3]. cbn [in_tile] in HT.
      destruct (unframe p c v) as [[u1 u2] u3] eqn:Eu. exists (8 * d1), (8 * d2), (8 * d3 + i), u1, u2.
      rewrite <- (frame_unframe p c v), Eu in L, R. clear Eu. split; [exact HT|].
      destruct p as [[a b'] h]. unfold layer, rim, on_side, voxel_in_cell in *.
      destruct c; cbn [frame placed tile_turn cell_turn fst snd] in *; (split; [apply t3_eq; lia|lia]).
Qed.

Lemma frame_isometry p c q q' :
  let '(x, y, z) := frame p c q in let '(x', y', z') := frame p c q' in
  let '(u, v, w) := q in let '(u', v', w') := q' in
  (x - x') ^ 2 + (y - y') ^ 2 + (z - z') ^ 2 = (u - u') ^ 2 + (v - v') ^ 2 + (w - w') ^ 2 /\ z - z' = w - w'.
Proof.
  destruct p as [[a b] h], q as [[u v] w], q' as [[u' v'] w'].
  destruct c; cbn [frame tile_turn]; split; ring.
Qed.
