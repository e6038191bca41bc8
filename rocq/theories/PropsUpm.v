(** Property theorems about the position manager (C23-C35).  Statements only; proofs
    are in UpmInv.v, UpmMore.v, UpmMore2.v, UpmRandom.v and UpmFinal.v. *)
From Coq Require Import QArith.
From Verif Require Import Py UpmModel UpmSpec UpmProofs UpmRandom UpmTrace UpmInv UpmMore UpmMore2 RoomClasses
  UpmSamples UpmFinal.
Local Open Scope Z_scope.
Ltac conj := repeat match goal with |- _ /\ _ => split end.

(** C23: after any history in which no call raises, rooms share no cell, and the
    record of occupied cells maps exactly the cells of each room to that room. *)
Theorem C23_rooms_disjoint : forall ops m st,
  urun ops (upm_init m false) = Some st ->
  disjoint_rooms (u_rooms st) /\
  (forall c ob, dget cell_eqb (u_occ st) c = Some ob <->
     In ob (u_rooms st) /\ In c (positions (snd ob))).
Proof. exact rooms_disjoint_lemma. Qed.
Print Assumptions C23_rooms_disjoint.
Example C23_nonvacuous :
  urun ops1 (upm_init (Some 2) false) = Some st1 /\ sizes st1 = (28%nat, 16%nat, 0%nat).
Proof. split; vm_compute; reflexivity. Qed.

(** C24: a positive pre-check means registration succeeds with all images; a negative
    one means an image meets an occupied cell, two images meet, or a door of an image
    leads out of the legal box. *)
Theorem C24_precheck : forall st r m, u_mirror st = Some m -> m = 1 \/ m = 2 \/ m = 4 ->
  exists ts, (m = 1 -> ts = [T0]) /\ (m = 2 -> ts = [T0; T2]) /\ (m = 4 -> ts = [T0; T1; T2; T3]) /\
  (exists b, preregister_room st r = Ok b) /\
  (preregister_room st r = Ok true ->
     exists st', register_room st r = (st', None) /\
       u_rooms st' = u_rooms st ++ combine (seq (u_next st) (List.length ts)) (map (fun t => mirror_room t r) ts)) /\
  (preregister_room st r = Ok false ->
     (exists t c, In t ts /\ In c (positions (mirror_room t r)) /\ taken st c) \/
     (exists i j t t', nth_error ts i = Some t /\ nth_error ts j = Some t' /\ (i < j)%nat /\
        share_cell (positions (mirror_room t r)) (positions (mirror_room t' r))) \/
     (exists t d, In t ts /\ In d (doorways (mirror_room t r)) /\ ~ legal_cell (fst d))).
Proof. exact prereg_no_lemma. Qed.
Print Assumptions C24_precheck.
Example C24_nonvacuous :
  preregister_room st0 (mk_room FlatSpace (4, 20, 3) T1 None) = Ok true /\
  preregister_room st0 (mk_room FlatSpace (10, 9, 5) T1 None) = Ok false /\
  preregister_room st0 (mk_room FlatSpace (1, 20, 3) T1 None) = Ok false /\
  preregister_room st0 (mk_room FlatSpace (15, 15, 3) T1 None) = Ok false.
Proof. conj; vm_compute; reflexivity. Qed.

(** C25 is false: registering a room at the centre of a half-turn symmetric map raises
    and leaves two rooms and an occupied cell behind. *)
Theorem C25_atomic_refuted :
  exists st r st' x c, register_room st r = (st', Some x) /\ st = upm_init (Some 2) false /\
    List.length (u_rooms st') = 2%nat /\ taken st' c /\ ~ taken st c.
Proof. exact register_atomic_refuted_lemma. Qed.
Print Assumptions C25_atomic_refuted.
(** C25: exactly what a failed registration leaves behind: the images before the
    clashing one are fully registered, and the clashing image is listed. *)
Theorem C25_atomic_partial : forall st r st' x ts, rotations st = Some ts ->
  register_room st r = (st', Some x) ->
  x = UserExn /\ u_noclip st = false /\
  exists before t after st1, ts = before ++ t :: after /\
    register_all st (map (fun t => mirror_room t r) before) = (st1, None) /\
    (exists c, In c (positions (mirror_room t r)) /\ occupied (u_occ st1) c = true) /\
    st' = U (u_noclip st1) (u_mirror st1) (u_occ st1) (u_open st1)
            (u_rooms st1 ++ [(u_next st1, mirror_room t r)]) (u_links st1) (S (u_next st1)) (u_gone st1).
Proof. exact register_failure_lemma. Qed.
Print Assumptions C25_atomic_partial.
Example C25_nonvacuous : snd (register_room st0 (mk_room FlatSpace (10, 9, 5) T1 None)) = Some UserExn.
Proof. vm_compute. reflexivity. Qed.

(** C26: open doors lead from a registered room to a legal free cell, after any
    history, also with caught exceptions. *)
Theorem C26_open_doors_usable : forall ops m nc c ob o,
  let st := urun_any ops (upm_init m nc) in
  In (c, ob, o) (u_open st) ->
  legal_cell c /\ dget cell_eqb (u_occ st) c = None /\ In ob (u_rooms st) /\ In (c, o) (doorways (snd ob)).
Proof. exact open_doors_any_lemma. Qed.
Print Assumptions C26_open_doors_usable.
(** C26: conversely, without exceptions, every such door is listed unless it was
    discarded by placement. *)
Theorem C26_open_doors_complete : forall ops m nc st ob c o,
  urun ops (upm_init m nc) = Some st ->
  In ob (u_rooms st) -> In (c, o) (doorways (snd ob)) -> legal_cell c ->
  dget cell_eqb (u_occ st) c = None ->
  In (c, ob, o) (u_open st) \/ In (c, ob, o) (u_gone st).
Proof. exact open_doors_complete_lemma. Qed.
Print Assumptions C26_open_doors_complete.
Example C26_nonvacuous : urun ops0 (upm_init (Some 2) false) = Some st0 /\
  urun opsG (upm_init (Some 1) false) = Some stG /\
  sizes st0 = (12%nat, 18%nat, 0%nat) /\ sizes stG = (1%nat, 0%nat, 4%nat).
Proof. conj; vm_compute; reflexivity. Qed.

(** C27: with mirror 2 the layout is symmetric under the half turn, with mirror 4
    under the quarter turn. *)
Theorem C27_half_turn_symmetry : forall ops nc st, existsb is_endcap ops = false ->
  urun ops (upm_init (Some 2) nc) = Some st ->
  (forall c, taken st (half_turn c) <-> taken st c) /\
  (forall ob, In ob (u_rooms st) -> exists ob', In ob' (u_rooms st) /\
     r_cls (snd ob') = r_cls (snd ob) /\ r_flags (snd ob') = r_flags (snd ob) /\
     positions (snd ob') = map half_turn (positions (snd ob)) /\
     doorways (snd ob') = map (fun d => (half_turn (fst d), opposite (snd d))) (doorways (snd ob))).
Proof. exact symmetry2_lemma. Qed.
Print Assumptions C27_half_turn_symmetry.
Theorem C27_quarter_turn_symmetry : forall ops nc st, existsb is_endcap ops = false ->
  urun ops (upm_init (Some 4) nc) = Some st ->
  (forall c, taken st (quarter_turn c) <-> taken st c) /\
  (forall ob, In ob (u_rooms st) -> exists ob', In ob' (u_rooms st) /\
     r_cls (snd ob') = r_cls (snd ob) /\ r_flags (snd ob') = r_flags (snd ob) /\
     positions (snd ob') = map quarter_turn (positions (snd ob)) /\
     map fst (doorways (snd ob')) = map (fun d => quarter_turn (fst d)) (doorways (snd ob))).
Proof. exact symmetry4_lemma. Qed.
Print Assumptions C27_quarter_turn_symmetry.
Example C27_nonvacuous : existsb is_endcap ops0 = false /\
  urun ops0 (upm_init (Some 2) false) = Some st0 /\
  match urun ops0 (upm_init (Some 4) false) with Some st => sizes st | None => sizes stD end
  = (16%nat, 32%nat, 0%nat).
Proof. conj; vm_compute; reflexivity. Qed.

(** C28 is false in general: a long corridor is positioned by the door of its default
    length and built with another length; here it is placed next to nothing. *)
Theorem C28_joined_refuted : exists ops st start placed,
  ops = [ORegister start; OPlace 9 e0 [NLongCorridor] 1 (fun i => Z.of_nat i * 0)] /\
  urun ops (upm_init (Some 1) false) = Some st /\
  u_rooms st = [(0%nat, start); (1%nat, placed)] /\ ~ faces placed start.
Proof. exact join_refuted_lemma. Qed.
Print Assumptions C28_joined_refuted.
(** C28 for classes whose doors do not depend on the flags: every room is an image of
    a room registered by hand or is joined, door to door and cell to cell, to a room
    registered before it. *)
Theorem C28_joined_partial : forall ops m nc st, existsb is_endcap ops = false ->
  urun ops (upm_init m nc) = Some st ->
  (forall c, offered ops c -> doors_flag_free c /\ doors_on_cells c /\ doors_level c) ->
  (forall r, started ops r -> doors_on_cells (r_cls r) /\ doors_level (r_cls r)) ->
  forall ob, In ob (u_rooms st) ->
    (exists r ts t, rotations st = Some ts /\ In t ts /\ started ops r /\ snd ob = mirror_room t r) \/
    (exists ob', In ob' (u_rooms st) /\ (fst ob' < fst ob)%nat /\ joined (snd ob) (snd ob')).
Proof. exact join_lemma. Qed.
Print Assumptions C28_joined_partial.
Example C28_nonvacuous :
  (forall c, In c opts0 -> doors_flag_free c /\ doors_on_cells c /\ doors_level c) /\
  doors_on_cells (r_cls start4) /\ doors_level (r_cls start4) /\ sizes st0 = (12%nat, 18%nat, 0%nat).
Proof.
  assert (forall c, In c [Corridor2way; Corridor4way; Stair] -> doors_flag_free c /\ doors_on_cells c /\ doors_level c) as K.
  { intros c [<- | [<- | [<- | []]]]; (split; [intros fl fl'; reflexivity|]);
      (split; intros fl d Hd; cbn in Hd;
        repeat match goal with H : _ \/ _ |- _ => destruct H as [H | H] | H : False |- _ => destruct H end;
        subst; vm_compute; auto 10). }
  split; [exact K|]. destruct (K Corridor4way) as (_ & K1 & K2); [right; left; reflexivity|].
  split; [exact K1|]. split; [exact K2|]. vm_compute. reflexivity.
Qed.

(** C29: placement terminates without an exception and has placed k rooms, with
    n <= k < n + m unless no open door is left (or nothing was requested). *)
Theorem C29_placement_total : forall e opts n st m g, good_env e -> opts <> [] -> coherent opts ->
  (forall c, In c opts -> rc_flags c <> Some []) ->
  u_mirror st = Some m -> m = 1 \/ m = 2 \/ m = 4 ->
  (forall c ob o, In (c, ob, o) (u_open st) -> legal_cell c /\
     forall k, In k opts -> rc_id k = rc_id (r_cls (snd ob)) -> rc_flags k <> None -> r_flags (snd ob) <> []) ->
  exists fuel0, forall fuel, (fuel0 <= fuel)%nat -> exists st' k g',
    place_rooms fuel e st opts n g = (st', Ok k, g') /\
    Z.of_nat (List.length (u_rooms st')) = Z.of_nat (List.length (u_rooms st)) + k /\
    ((n <= k /\ (k < n + m \/ k = 0)) \/ u_open st' = []).
Proof. exact place_total_lemma. Qed.
Print Assumptions C29_placement_total.
Example C29_nonvacuous : good_env e0 /\ coherent opts0 /\
  (forall c, In c opts0 -> rc_flags c <> Some []) /\
  u_mirror st0 = Some 2 /\
  forallb (fun x : open_door => is_legal (fst (fst x)) && negb (match r_flags (snd (snd (fst x))) with [] => true | _ => false end))
    (u_open st0) = true /\
  snd (fst (place_rooms 80 e0 st0 opts0 7 g0)) = Ok 8.
Proof.
  split; [exact e0_good|]. split; [apply coherent_nodup; vm_compute; repeat constructor; cbn; intuition discriminate|].
  split; [intros c [<- | [<- | [<- | []]]]; discriminate|]. conj; vm_compute; reflexivity.
Qed.

(** C30: what placement does is a sequence of placements of rooms that passed the
    pre-check and of discards of doors where, for every class, orientation and
    matching door, the room built there failed it. *)
Theorem C30_placement_trace : forall e opts n, good_env e -> coherent opts ->
  forall fuel st k g st' x g', place_loop fuel e st opts n k g = (st', x, g') ->
  exists rs, trace opts st rs st'.
Proof. exact place_loop_trace. Qed.
Print Assumptions C30_placement_trace.
(** C30: judged at the end of the call, a discarded door still cannot be used: every
    way to attach a room of the list there fails the pre-check with the flags that
    were drawn, and with all flags if the layout does not depend on them. *)
Theorem C30_discarded_doors : forall fuel e st opts n g st' x g', good_env e -> coherent opts ->
  place_rooms fuel e st opts n g = (st', x, g') ->
  exists new, u_gone st' = u_gone st ++ new /\
    forall d prev o, In (d, prev, o) new -> forall c pos t, In c opts ->
      attached (mk_room c pos t None) d o ->
      (exists fl, preregister_room st' (mk_room c pos t fl) = Ok false) /\
      (flag_free c -> forall fl, preregister_room st' (mk_room c pos t fl) = Ok false).
Proof. exact discarded_lemma. Qed.
Print Assumptions C30_discarded_doors.
Example C30_nonvacuous : good_env e0 /\ coherent [PlusPlatform] /\ flag_free PlusPlatform /\
  attached (mk_room PlusPlatform (2, 1, 5) T0 None) (2, 1, 5) (1, 0, 0) /\
  List.length (u_gone stG) = 4%nat.
Proof.
  split; [exact e0_good|].
  split; [intros c c' [<- | []] [<- | []] _; reflexivity|].
  split; [intros fl fl'; split; reflexivity|]. split; [right; right; right; left; reflexivity|vm_compute; reflexivity].
Qed.

(** C31 *)
Theorem C31_stream_permutation : forall e prev opts g x g', good_env e -> opts <> [] ->
  NoDup (map rc_id opts) ->
  room_stream e prev opts g = (x, g') -> exists cs, x = Ok cs /\ Permutation cs opts.
Proof. exact room_stream_perm. Qed.
Print Assumptions C31_stream_permutation.
(** C31: without the assumption that the options are distinct, every class is offered,
    exactly once. *)
Theorem C31_stream_each_once : forall e prev opts g x g', good_env e -> opts <> [] ->
  room_stream e prev opts g = (x, g') ->
  exists cs, x = Ok cs /\ NoDup (map rc_id cs) /\ (forall c, In c cs -> In c opts) /\
    (forall c, In c opts -> exists c', In c' cs /\ rc_id c' = rc_id c).
Proof. exact room_stream_lemma. Qed.
Print Assumptions C31_stream_each_once.
Example C31_nonvacuous : good_env e0 /\ NoDup (map rc_id opts0) /\
  match fst (room_stream e0 start4 opts0 g0) with Ok cs => map rc_id cs | Err _ => [] end = [14; 5; 9].
Proof.
  split; [exact e0_good|]. split; [vm_compute; repeat constructor; cbn; intuition discriminate|].
  vm_compute. reflexivity.
Qed.

(** C32 *)
Theorem C32_weighted_choice : forall (A : Type) (l : list (A * Q)) r,
  l <> [] -> (forall cw, In cw l -> (0 <= snd cw)%Q) -> (0 <= r)%Q -> (r <= wsum l (List.length l))%Q ->
  exists i c w, nth_error l i = Some (c, w) /\ wchoice l r = Some c /\
    (wsum l i < r \/ (i = O /\ wsum l i <= r))%Q /\ (r <= wsum l (S i))%Q /\
    (w == 0 -> r == 0)%Q.
Proof. exact @wchoice_lemma. Qed.
Print Assumptions C32_weighted_choice.
(** C32: the draw covers the whole range [0, total], so on a non-empty list something
    is always returned. *)
Theorem C32_always_some : forall (A : Type) (l : list (A * Q)) g x g',
  l <> [] -> (forall cw, In cw l -> (0 <= snd cw)%Q) ->
  weighted_choice l g = (x, g') -> exists c w, x = Some c /\ In (c, w) l.
Proof. exact @weighted_choice_some. Qed.
Print Assumptions C32_always_some.
Example C32_nonvacuous :
  wchoice [(1, 0%Q); (2, (1 # 2)%Q); (3, 2%Q)] (1 # 2)%Q = Some 2 /\
  wchoice [(1, 0%Q); (2, (1 # 2)%Q); (3, 2%Q)] (5 # 8)%Q = Some 3 /\
  wchoice [(1, 0%Q); (2, (1 # 2)%Q); (3, 2%Q)] 0%Q = Some 1.
Proof. conj; reflexivity. Qed.

(** C33: closing doors with endcaps never raises, from any state; the endcaps lie on
    legal, free cells, do not overlap, are hooked up to an open door, and nothing else
    becomes occupied. *)
Theorem C33_endcap : forall caps st g st' x g', endcap false caps st g = (st', x, g') ->
  x = None /\ u_links st' = u_links st /\
  exists new, u_rooms st' = u_rooms st ++ new /\
    (forall ob, In ob new -> exists d p o c pos t, In (d, p, o) (u_open st) /\ In c caps /\
       snd ob = mk_room c pos t None /\ attached (snd ob) d o) /\
    (forall ob c, In ob new -> In c (positions (snd ob)) -> legal_cell c /\ ~ taken st c) /\
    disjoint_rooms new /\
    (forall c, taken st' c <-> taken st c \/ exists ob, In ob new /\ In c (positions (snd ob))).
Proof. exact endcap_ok_lemma. Qed.
Print Assumptions C33_endcap.
(** C33 is false in debug mode: two open doors to one cell make it raise. *)
Theorem C33_endcap_debug_refuted : exists ops st, urun ops (upm_init (Some 1) false) = Some st /\
  snd (fst (endcap true [] st g0)) = Some UserExn.
Proof. exact endcap_debug_refuted_lemma. Qed.
Print Assumptions C33_endcap_debug_refuted.
(** C33: in debug mode it raises exactly in that case. *)
Theorem C33_endcap_debug_partial : forall ops m nc caps g st' x g',
  endcap true caps (urun_any ops (upm_init m nc)) g = (st', x, g') ->
  u_noclip (urun_any ops (upm_init m nc)) = false ->
  (x = None <-> NoDup (map (fun e => fst (fst e)) (u_open (urun_any ops (upm_init m nc))))) /\
  (x = None \/ x = Some UserExn).
Proof. exact endcap_debug_history. Qed.
Print Assumptions C33_endcap_debug_partial.
Example C33_nonvacuous : List.length (u_rooms (fst (fst (endcap false [TestRoom; Corridor2way] st0 g0)))) = 28%nat /\
  u_noclip st0 = false /\
  snd (fst (endcap true [] (urun_any [ORegister start4] (upm_init (Some 2) false)) g0)) = None.
Proof. conj; vm_compute; reflexivity. Qed.

(** C34 is false: a placed room can leave the legal box... *)
Theorem C34_inside_refuted : exists ops st start placed c,
  ops = [ORegister start; OPlace 9 e0 [AltarRoom] 1 g0] /\
  urun ops (upm_init (Some 1) false) = Some st /\
  u_rooms st = [(0%nat, start); (1%nat, placed)] /\
  (forall d, In d (positions start) -> legal_cell d) /\
  In c (positions placed) /\ ~ legal_cell c.
Proof. exact outside_refuted_lemma. Qed.
Print Assumptions C34_inside_refuted.
(** ...and a legal room inside the world can have an image that lies, legally, entirely
    outside of it. *)
Theorem C34_world_refuted : exists ops st r,
  ops = [ORegister r] /\ urun ops (upm_init (Some 2) false) = Some st /\
  (forall c v, In c (positions r) -> voxel_in_cell v c -> voxel_in_world 256 v) /\
  exists ob, In ob (u_rooms st) /\ r_cls (snd ob) = r_cls r /\ positions (snd ob) <> [] /\
    forall c v, In c (positions (snd ob)) -> legal_cell c /\ (voxel_in_cell v c -> ~ voxel_in_world 256 v).
Proof. exact world_refuted_lemma. Qed.
Print Assumptions C34_world_refuted.
(** C34: what holds: doors of placed rooms lead to legal cells, and a room whose cells
    lie between its doors is within the box, away from its vertical sides. *)
Theorem C34_inside_partial : forall ops m nc st ob, existsb is_endcap ops = false ->
  urun ops (upm_init m nc) = Some st -> In ob (u_rooms st) ->
  (exists r t, started ops r /\ snd ob = mirror_room t r) \/
  ((forall d, In d (doorways (snd ob)) -> legal_cell (fst d)) /\
   (enclosed (r_cls (snd ob)) -> forall x y z, In (x, y, z) (positions (snd ob)) ->
      1 <= x <= 31 /\ 1 <= y <= 31 /\ 0 <= z <= 32)).
Proof. exact placed_inside_lemma. Qed.
Print Assumptions C34_inside_partial.
Theorem C34_cells_in_world_partial : forall x y z, (0 <= x <= 31 /\ 0 <= y <= 31 /\ 0 <= z <= 31) <->
  (forall v, voxel_in_cell v (x, y, z) -> voxel_in_world 256 v).
Proof. exact cell_world_lemma. Qed.
Print Assumptions C34_cells_in_world_partial.
Example C34_nonvacuous : enclosed Corridor4way /\ existsb is_endcap ops0 = false /\
  urun ops0 (upm_init (Some 2) false) = Some st0.
Proof.
  split; [|split; vm_compute; reflexivity].
  intros fl p [<- | []]. cbn.
  split; [exists (cW, cW)|split; [exists (cE, cE)|split; [exists (cS, cS)|split; [exists (cN, cN)|split; [exists (cE, cE)|exists (cE, cE)]]]]];
    (split; [cbn; auto 6|]); vm_compute; congruence.
Qed.

(** C35 *)
Theorem C35_links : forall ops m nc st ts, existsb is_endcap ops = false -> existsb is_link ops = false ->
  urun ops (upm_init m nc) = Some st -> rotations st = Some ts ->
  (forall a b, In (a, b) (u_links st) -> exists oa ob, In oa (u_rooms st) /\ In ob (u_rooms st) /\
     r_pos (snd oa) = a /\ r_pos (snd ob) = b) /\
  (forall t a b, In t ts -> In (a, b) (u_links st) -> In (mrot t a, mrot t b) (u_links st)) /\
  (forall ob, In ob (u_rooms st) -> exists r t, started ops r /\ In t ts /\
     linked (u_links st) (r_pos (snd ob)) (mrot t (r_pos r))).
Proof. exact links_lemma. Qed.
Print Assumptions C35_links.
Example C35_nonvacuous : existsb is_endcap ops0 = false /\ existsb is_link ops0 = false /\
  urun ops0 (upm_init (Some 2) false) = Some st0 /\ rotations st0 = Some [T0; T2] /\
  List.length (u_links st0) = 10%nat.
Proof. conj; vm_compute; reflexivity. Qed.
