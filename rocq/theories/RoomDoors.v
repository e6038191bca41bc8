(** The doors of the built-in rooms, and the two classes that draw outside of their cells. *)
From Coq Require Import QArith.
From Verif Require Import Py VecModel VecSpec VecProofs VoxelModel VoxelSpec UpmModel UpmSpec UpmProofs RoomClasses UpmBridge KitModel KitSpec
  RoomModel RoomSpec RoomProofs RoomCheck.
Local Open Scope Z_scope.

Definition door_checked (c : rclass) (fl : list bool) : bool :=
  forallb (fun d => existsb (cell_eqb (csub (fst d) (snd d))) (rc_cells c fl) &&
                    negb (existsb (cell_eqb (fst d)) (rc_cells c fl)) &&
                    existsb (fun t => cell_eqb (snd d) (cdir t)) CARD) (rc_doors c fl).
Lemma doors_all_checked c fl : In c builtin_rooms -> door_checked c fl = true.
Proof.
  unfold builtin_rooms. cbn [In]. intros Hi.
  repeat match type of Hi with _ \/ _ => destruct Hi as [<-|Hi] end; [..|destruct Hi];
    first [vm_compute; reflexivity | by_flags fl 3%nat; vm_compute; reflexivity].
Qed.
Lemma in_cellb d l : existsb (cell_eqb d) l = true <-> In d l.
Proof.
  rewrite existsb_exists. split; [intros (x & Hx & E); apply cell_eqb_eq in E; subst; exact Hx|].
  intros Hd. exists d. split; [exact Hd|apply cell_eqb_refl].
Qed.
Lemma crot_csub t a b : crot t (csub a b) = csub (crot t a) (crot t b).
Proof. destruct a as [[x y] z], b as [[x' y'] z']. destruct t; cbn [crot csub]; apply t3_eq; lia. Qed.
Lemma cadd_csub p a b : csub (cadd p a) b = cadd p (csub a b).
Proof. destruct p as [[u v] w], a as [[x y] z], b as [[x' y'] z']. cbn [cadd csub]. apply t3_eq; lia. Qed.
Lemma doors_usable r : In (r_cls r) builtin_rooms -> forall off dir, In (off, dir) (doorways r) ->
  In (csub off dir) (positions r) /\ ~ In off (positions r) /\ exists t, dir = cdir t.
Proof.
  intros Hc off dir. unfold doorways, positions. rewrite in_map_iff. intros ([o d] & E & Hd).
  injection E as <- <-. cbn [fst snd] in *. pose proof (doors_all_checked _ (r_flags r) Hc) as DC.
  unfold door_checked in DC. rewrite forallb_forall in DC. specialize (DC _ Hd). cbn [fst snd] in DC.
  rewrite !andb_true_iff, negb_true_iff in DC. destruct DC as [[D1 D2] D3]. split; [|split].
  - apply in_cellb in D1. apply in_map_iff. exists (csub o d). split; [|exact D1]. rewrite crot_csub, cadd_csub. reflexivity.
  - intros Hi. apply in_map_iff in Hi as (x & E & Hx).
    assert (x = o) as ->; [|apply in_cellb in Hx; congruence].
    destruct x as [[a b] h], o as [[a' b'] h'], (r_pos r) as [[u v] w].
    destruct (r_turn r); cbn [crot cadd] in E; apply t3_inv in E as (E1 & E2 & E3); apply t3_eq; lia.
  - apply existsb_exists in D3 as (t & _ & E). apply cell_eqb_eq in E. subst d. exists (tadd t (r_turn r)).
    unfold cdir. rewrite crot_crot. reflexivity.
Qed.

Lemma inside_stays r f : inside (r_cls r) f (r_flags r) -> stays_inside r f.
Proof.
  intros HI pos orient tx size ops g [HP HO] w.
  destruct (render_contained f (r_flags r) tx (rc_cells (r_cls r) (r_flags r)) pos orient (r_pos r) (r_turn r) (HI tx) HP HO size ops g)
    as (ops' & g' & E & A).
  exists (wrun (ops ++ ops') (new_world size)), g'. split; [exact E|]. apply outside_from_ops. exact A.
Qed.
Lemma well_drawn_stays r f : In (r_cls r, f) well_drawn -> stays_inside r f.
Proof. intros Hi. apply inside_stays. apply (well_drawn_inside (r_cls r, f)). exact Hi. Qed.
Lemma ring_room_stays r : r_cls r = ImposingRingRoom -> flag (r_flags r) 1 = true -> stays_inside r render_ImposingRingRoom.
Proof. intros E F. apply inside_stays. rewrite E. apply inside_ImposingRingRoom. exact F. Qed.

(** The two exceptions. *)
Lemma known_run {A B} (x : res A * B) (ok : A -> bool) : match x with (Ok a, _) => ok a | _ => false end = true ->
  exists a b, x = (Ok a, b) /\ ok a = true.
Proof. destruct x as [[a|] b]; [eauto|discriminate]. Qed.
Lemma testroom2_outside : let r := R TestRoom2 (4, 4, 4) T0 [] in
  room_vectors r (V Coarse (I 4) (I 4) (I 4)) EAST /\
  exists w' g' v, render render_TestRoom2 (V Coarse (I 4) (I 4) (I 4)) EAST [] (fun _ => 3) (new_world 256) (fun _ => 0) = (Ok w', g') /\
    at_voxel w' v = Some [3; 3; 3; 3; 3; 3] /\ forall d, In d (positions r) -> ~ voxel_in_cell v d.
Proof.
  intros r. split; [repeat split|].
  destruct (known_run (render render_TestRoom2 (V Coarse (I 4) (I 4) (I 4)) EAST [] (fun _ => 3) (new_world 256) (fun _ => 0))
    (fun w => match at_voxel w (40, 32, 32) with Some l => if list_eq_dec Z.eq_dec l [3; 3; 3; 3; 3; 3] then true else false | None => false end)) as (w' & g' & E & K); [vm_compute; reflexivity|].
  exists w', g', (40, 32, 32). split; [exact E|]. split; [destruct (at_voxel w' _) as [l|]; [|discriminate]; destruct (list_eq_dec Z.eq_dec l [3; 3; 3; 3; 3; 3]) as [->|]; [reflexivity|discriminate]|].
  intros d [<-|[]]. cbn. lia.
Qed.
(** A block of the cell above is removed. *)
Lemma ringroom_outside : let r := R ImposingRingRoom (4, 4, 4) T0 [true; false; true; true; true] in
  let w := set_point (new_world 256) (I 28) (I 34) (I 40) [9; 9; 9; 9; 9; 9] in
  room_vectors r (V Coarse (I 4) (I 4) (I 4)) EAST /\
  exists w' g' v, render render_ImposingRingRoom (V Coarse (I 4) (I 4) (I 4)) EAST (r_flags r) (fun _ => 3) w (fun _ => 0) = (Ok w', g') /\
    at_voxel w v = Some [9; 9; 9; 9; 9; 9] /\ at_voxel w' v = None /\ forall d, In d (positions r) -> ~ voxel_in_cell v d.
Proof.
  intros r w. split; [repeat split|]. subst w r. cbn [r_flags].
  destruct (known_run (render render_ImposingRingRoom (V Coarse (I 4) (I 4) (I 4)) EAST [true; false; true; true; true] (fun _ => 3)
    (set_point (new_world 256) (I 28) (I 34) (I 40) [9; 9; 9; 9; 9; 9]) (fun _ => 0))
    (fun w => match at_voxel w (28, 34, 40) with None => true | _ => false end)) as (w' & g' & E & K); [vm_compute; reflexivity|].
  exists w', g', (28, 34, 40). split; [exact E|]. split; [vm_compute; reflexivity|]. split; [destruct (at_voxel w' _); [discriminate|reflexivity]|].
  intros d Hd. vm_compute in Hd. repeat destruct Hd as [<-|Hd]; [..|destruct Hd]; cbn; lia.
Qed.
