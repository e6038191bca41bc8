(** The integer cells and turns of UpmModel.v compute exactly what the vector code
    (VecModel.v) computes on coarse vectors: addition, subtraction, rotation by an
    orientation vector or an angle, rotation about the middle of the map, equality
    and hashing of dictionary keys, the legality test, and the cells and doorways of
    a room. *)
From Verif Require Import Py VecModel VecSpec VecProofs UpmModel UpmSpec UpmProofs.

(** The coarse vector [v] (with int or float coordinates) stands for the cell [c]. *)
Definition rep (v : vec) (c : cell) : Prop :=
  vc v = Coarse /\ coords2 v = (let '(x, y, z) := c in (2 * x, 2 * y, 2 * z)).

Definition turn_deg (t : turn) : Z := match t with T0 => 0 | T1 => 90 | T2 => 180 | T3 => 270 end.

Ltac crush_rep :=
  repeat match goal with
  | H : rep ?v ?c |- _ =>
      let k := fresh "k" in let x := fresh "x" in let y := fresh "y" in let z := fresh "z" in
      destruct v as [k x y z], c as [[? ?] ?]; destruct H as [? H];
      cbn [vc coords2 vx vy vz] in *; subst; unfold coords2 in H; cbn [vx vy vz] in H;
      apply t3_inv in H as (? & ? & ?)
  end.

Lemma bridge_add v w c d : rep v c -> rep w d -> exists u, vadd v w = Ok u /\ rep u (cadd c d).
Proof.
  intros. crush_rep. eexists. split; [reflexivity|]. split; [reflexivity|].
  cbn [cadd]. unfold coords2. cbn [vx vy vz raw_add]. rewrite !halves_nadd. apply t3_eq; lia.
Qed.
Lemma bridge_sub v w c d : rep v c -> rep w d -> exists u, vsub v w = Ok u /\ rep u (csub c d).
Proof.
  intros. crush_rep. eexists. split; [reflexivity|]. split; [reflexivity|].
  cbn [csub]. unfold coords2. cbn [vx vy vz raw_sub]. rewrite !halves_nsub. apply t3_eq; lia.
Qed.
Lemma rotq_rep k v c t : rep v c -> k = turn_deg t / 90 -> rep (rotq k v) (crot t c).
Proof.
  intros H ->. crush_rep.
  destruct t; cbn [turn_deg crot]; (split; [reflexivity|]); unfold coords2;
    (match goal with |- context [rotq (?a / 90) _] => let b := eval vm_compute in (a / 90) in
       change (a / 90) with b end); unfold rotq; cbn [vx vy vz]; cbn [halves]; apply t3_eq; lia.
Qed.
Lemma bridge_rotate_deg v c t : rep v c -> exists u, vrotate v (Deg (turn_deg t)) = Ok u /\ rep u (crot t c).
Proof.
  intros H. exists (rotq (turn_deg t / 90) v). split; [|apply rotq_rep; auto].
  destruct t; reflexivity.
Qed.
Lemma bridge_rotate v o c t : rep v c -> rep o (cdir t) ->
  exists u, vrotate v (DVec o) = Ok u /\ rep u (crot t c).
Proof.
  intros H O. exists (rotq (turn_deg t / 90) v). split; [|apply rotq_rep; auto].
  unfold vrotate. replace (quarter (DVec o)) with (Some (turn_deg t / 90)); [reflexivity|].
  destruct O as [_ O]. destruct o as [k x y z]. unfold coords2 in O. cbn [vx vy vz] in O. unfold quarter. cbn [vx vy vz].
  destruct t; cbn in O; apply t3_inv in O as (-> & -> & _); reflexivity.
Qed.
(** Turning an orientation composes turns. *)
Lemma bridge_orientation o t s : rep o (cdir t) ->
  exists u, vrotate o (Deg (turn_deg s)) = Ok u /\ rep u (cdir (tadd t s)).
Proof.
  intros H. destruct (bridge_rotate_deg _ _ s H) as (u & U1 & U2). exists u. split; [exact U1|].
  unfold cdir in *. rewrite crot_crot in U2. exact U2.
Qed.
Lemma bridge_offset_rotate v c t off : rep v c -> rep off (-16, -16, 0) ->
  exists u, voffset_rotate v (Deg (turn_deg t)) off = Ok u /\ rep u (mrot t c).
Proof.
  intros H O. unfold voffset_rotate. destruct (bridge_add _ _ _ _ H O) as (a & -> & Ha). cbn [bind].
  destruct (bridge_rotate_deg _ _ t Ha) as (b & -> & Hb). cbn [bind].
  destruct (bridge_sub _ _ _ _ Hb O) as (u & -> & Hu). eauto.
Qed.
Lemma bridge_eq v w c d : rep v c -> rep w d -> veq v w = cell_eqb c d.
Proof.
  intros. crush_rep. unfold veq, coarse_eq, raw_eqb, neqb. cbn [vc vx vy vz cell_eqb].
  f_equal; [f_equal|]; lia.
Qed.
Lemma bridge_hash v w c : rep v c -> rep w c -> vhash v = vhash w.
Proof.
  intros Hv Hw. apply hash_same_class; [destruct Hv, Hw; congruence|].
  rewrite (bridge_eq _ _ _ _ Hv Hw). apply cell_eqb_refl.
Qed.
(** upm.py:51-53 on the vector. *)
Definition vlegal (v : vec) : bool :=
  nleb (I 0) (vx v) && nleb (vx v) (I 32) && (nleb (I 0) (vy v) && nleb (vy v) (I 32))
  && (nleb (I 0) (vz v) && nleb (vz v) (I 32)).
Lemma bridge_legal v c : rep v c -> vlegal v = is_legal c.
Proof.
  intros. crush_rep. unfold vlegal, is_legal, nleb. cbn [vx vy vz]. cbn [halves].
  repeat match goal with |- context [?a <=? ?b] => destruct (Z.leb_spec a b) end; cbn; try reflexivity; lia.
Qed.

(** prefabs/__init__.py:89-93 — get_positions on vectors. *)
Definition get_positions_v (pos orient : vec) (cells : list vec) : res (list vec) :=
  mapM (fun p => let! r := vrotate p (DVec orient) in vadd pos r) cells.
(** prefabs/__init__.py:71-84 — get_doorways on vectors, as (offset, orientation). *)
Definition get_doorways_v (pos orient : vec) (doors : list (vec * vec)) : res (list (vec * vec)) :=
  mapM (fun q => let! o := vrotate (snd q) (DVec orient) in
                 let! r := vrotate (fst q) (DVec orient) in
                 let! p := vadd pos r in Ok (p, o)) doors.

Lemma bridge_positions pos orient cells r :
  rep pos (r_pos r) -> rep orient (cdir (r_turn r)) ->
  Forall2 rep cells (rc_cells (r_cls r) (r_flags r)) ->
  exists ps, get_positions_v pos orient cells = Ok ps /\ Forall2 rep ps (positions r).
Proof.
  intros HP HO F. unfold positions, get_positions_v. induction F as [|v c l l' Hv F IH]; cbn [mapM map].
  - eauto.
  - destruct (bridge_rotate _ _ _ _ Hv HO) as (u & -> & Hu). cbn [bind].
    destruct (bridge_add _ _ _ _ HP Hu) as (w & -> & Hw). cbn [bind].
    destruct IH as (ps & -> & IH). cbn [bind]. eauto.
Qed.
Lemma bridge_doorways pos orient doors r :
  rep pos (r_pos r) -> rep orient (cdir (r_turn r)) ->
  Forall2 (fun q d => rep (fst q) (fst d) /\ rep (snd q) (snd d)) doors (rc_doors (r_cls r) (r_flags r)) ->
  exists ds, get_doorways_v pos orient doors = Ok ds /\
    Forall2 (fun q d => rep (fst q) (fst d) /\ rep (snd q) (snd d)) ds (doorways r).
Proof.
  intros HP HO F. unfold doorways, get_doorways_v. induction F as [|[v1 v2] [c1 c2] l l' [Hv1 Hv2] F IH]; cbn [mapM map fst snd] in *.
  - eauto.
  - destruct (bridge_rotate _ _ _ _ Hv2 HO) as (u & -> & Hu). cbn [bind].
    destruct (bridge_rotate _ _ _ _ Hv1 HO) as (u' & -> & Hu'). cbn [bind].
    destruct (bridge_add _ _ _ _ HP Hu') as (w & -> & Hw). cbn [bind].
    destruct IH as (ps & -> & IH). cbn [bind]. exists ((w, u) :: ps). split; [reflexivity|].
    constructor; auto.
Qed.
(** prefabs/__init__.py:593 — _LargeRoom: position plus orientation. *)
Lemma bridge_large_room v o c t : rep v c -> rep o (cdir t) ->
  exists u, vadd v o = Ok u /\ rep u (cadd c (cdir t)).
Proof. apply bridge_add. Qed.

Lemma rep_constants :
  rep EAST (cdir T0) /\ rep NORTH (cdir T1) /\ rep WEST (cdir T2) /\ rep SOUTH (cdir T3) /\
  rep SELF (0, 0, 0) /\ rep ABOVE (0, 0, 1) /\ rep (V Coarse (I (-16)) (I (-16)) (I 0)) (-16, -16, 0).
Proof. repeat split. Qed.
