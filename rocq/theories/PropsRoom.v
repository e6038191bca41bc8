(** Property theorems about rooms (C38-C41).  Statements only. *)
From Coq Require Import QArith Permutation.
From Verif Require Import Py VecModel VecSpec VoxelModel VoxelSpec UpmModel UpmSpec RoomClasses UpmBridge KitModel KitSpec
  RoomModel RoomProofs RoomCheck MagicaModel RoomSpec MagicaProofs RoomDoors.
Local Open Scope Z_scope.

(** C38: for every list of room cells, position and orientation, the reported cells are the
    turned and translated room cells, in order. *)
Theorem C38_cells_move_rigidly : forall pos orient p c cells ds,
  cell_at pos p -> points_to orient c -> Forall2 cell_at cells ds ->
  exists ps, get_positions_v pos orient cells = Ok ps /\ Forall2 cell_at ps (map (placed p c) ds).
Proof. exact positions_placed. Qed.
Print Assumptions C38_cells_move_rigidly.
(** C38: the same for doorways; their directions turn with the room. *)
Theorem C38_doors_move_rigidly : forall pos orient p c doors ds,
  cell_at pos p -> points_to orient c -> Forall2 door_at doors ds ->
  exists qs, get_doorways_v pos orient doors = Ok qs /\
    Forall2 door_at qs (map (fun d => (placed p c (fst d), cell_turn c (snd d))) ds).
Proof. exact doorways_placed. Qed.
Print Assumptions C38_doors_move_rigidly.
(** C38: the motion keeps distances and keeps distinct cells distinct. *)
Theorem C38_distances_kept : forall p c a b, dist2 (placed p c a) (placed p c b) = dist2 a b.
Proof. exact placed_dist. Qed.
Print Assumptions C38_distances_kept.
Theorem C38_distinct_kept : forall p c ds, NoDup ds -> NoDup (map (placed p c) ds).
Proof. exact placed_NoDup. Qed.
Print Assumptions C38_distinct_kept.
(** C38: a doorway one step from a cell of the room stays one (turned) step from that cell. *)
Theorem C38_doors_stay_adjacent : forall p c a o,
  placed p c (next_to a o) = next_to (placed p c a) (cell_turn c o).
Proof. exact placed_next. Qed.
Print Assumptions C38_doors_stay_adjacent.
Example C38_nonvacuous :
  cell_at (V Coarse (I 3) (I 4) (H 10)) (3, 4, 5) /\ points_to NORTH CN /\
  Forall2 cell_at [SELF; EAST; ABOVE] [(0, 0, 0); (1, 0, 0); (0, 0, 1)] /\
  Forall2 door_at [(EAST, EAST)] [((1, 0, 0), (1, 0, 0))] /\
  map (placed (3, 4, 5) CN) [(0, 0, 0); (1, 0, 0); (0, 0, 1)] = [(3, 4, 5); (3, 5, 5); (3, 4, 6)].
Proof. repeat split; repeat constructor; discriminate. Qed.

(** C39: for every voxel model with valid colours, every position and orientation, every
    texture assignment and world: rendering draws exactly the voxels of the model, in place
    and with the texture of their colour, and nothing else. *)
Theorem C39_draws_exactly_the_model_partial : forall m west south pos orient p c tx,
  cell_at pos p -> points_to orient c -> c = CE \/ (west = 0 /\ south = 0) -> valid_model m ->
  forall size ops g, let w := wrun ops (new_world size) in
  exists w', magica_render m west south pos orient tx w g = (Ok w', g) /\
    (forall q a, voxel_colour (vm_voxels m) q = Some a -> exists rgb, nth_error (vm_palette m) (Z.to_nat a) = Some rgb /\
       at_voxel w' (frame p c (shift q west south 0)) = Some (repeat (tx rgb) 6)) /\
    (forall x y z, (forall q a, voxel_colour (vm_voxels m) q = Some a ->
         doubled (frame p c (shift q west south 0)) <> (halves x, halves y, halves z)) ->
       get_point w' x y z = get_point w x y z).
Proof. exact magica_exact. Qed.
Print Assumptions C39_draws_exactly_the_model_partial.
(** C39: the reported cells are, each once, exactly the cells containing one of these voxels. *)
Theorem C39_cells_of_the_voxels_partial : forall m west south pos orient p c,
  cell_at pos p -> points_to orient c ->
  exists ps ds, magica_get_positions m west south pos orient = Ok ps /\ Forall2 cell_at ps ds /\ NoDup ds /\
    forall d, In d ds <-> exists q a, voxel_colour (vm_voxels m) q = Some a /\ voxel_in_cell (frame p c (shift q west south 0)) d.
Proof. exact magica_cells. Qed.
Print Assumptions C39_cells_of_the_voxels_partial.
(** C39: refuted when the room is shifted inside its tile (boundary_additions) and does not
    face east: the shift is turned twice, and a voxel ends up outside of every reported cell. *)
Theorem C39_shifted_room_refuted : exists j, valid_model (j_model j) /\ cell_at (j_pos j) (0, 0, 0) /\ points_to (j_orient j) CN /\
  exists w' v, render_job j (new_world 16) (fun _ => 0) = (Ok w', fun _ => 0) /\ at_voxel w' v = Some (repeat 5 6) /\
    forall d, job_cell j d -> ~ voxel_in_cell v d.
Proof. exact (ex_intro _ one_voxel one_voxel_outside). Qed.
Print Assumptions C39_shifted_room_refuted.
Definition two_voxels : voxmodel := VM [(1, 2, 0, 1); (9, 2, 0, 0); (1, 2, 0, 0)] [(255, 0, 0); (0, 255, 0)].
Example C39_nonvacuous : valid_model two_voxels /\
  voxel_colour (vm_voxels two_voxels) (1, 2, 0) = Some 0 /\
  magica_get_positions two_voxels 0 0 (V Coarse (I 3) (I 4) (I 5)) NORTH
  = Ok [V Coarse (H 6) (H 8) (I 5); V Coarse (H 6) (H 10) (I 5)].
Proof.
  split; [|split; reflexivity].
  intros x y z c [E|[E|[E|[]]]]; injection E as <- <- <- <-; cbn; lia.
Qed.

(** C40: rooms reporting disjoint cells: rendering in any order gives the same blocks. *)
Theorem C40_order_does_not_matter : forall l l' size ops0 g, Forall job_ok l -> cells_disjoint l -> Permutation l l' ->
  exists w1 w2, render_jobs l (wrun ops0 (new_world size)) g = (Ok w1, g) /\
    render_jobs l' (wrun ops0 (new_world size)) g = (Ok w2, g) /\ same_blocks w1 w2.
Proof. exact jobs_order. Qed.
Print Assumptions C40_order_does_not_matter.
(** C40: in the cells of each room the result is what the room draws on its own; elsewhere the
    world is unchanged. *)
Theorem C40_each_room_as_drawn : forall l size ops0 g, Forall job_ok l -> cells_disjoint l ->
  let w := wrun ops0 (new_world size) in
  exists w1, render_jobs l w g = (Ok w1, g) /\
    (forall j, In j l -> exists wj, render_job j w g = (Ok wj, g) /\
       forall d v, job_cell j d -> voxel_in_cell v d -> at_voxel w1 v = at_voxel wj v) /\
    (forall x y z, (forall j d v, In j l -> job_cell j d -> voxel_in_cell v d -> doubled v <> (halves x, halves y, halves z)) ->
       get_point w1 x y z = get_point w x y z).
Proof. exact jobs_region_world. Qed.
Print Assumptions C40_each_room_as_drawn.
Definition job_a : job := J two_voxels 0 0 SELF EAST (fun _ => 3).
Definition job_b : job := J two_voxels 0 0 (V Coarse (I 3) (I 4) (I 5)) NORTH (fun _ => 4).
Example C40_nonvacuous : Forall job_ok [job_a; job_b] /\ cells_disjoint [job_a; job_b] /\ exists d, job_cell job_a d.
Proof.
  split; [|split].
  - constructor; [|constructor; [|constructor]]; (split; [apply C39_nonvacuous|split]).
    + exists (0, 0, 0). split; reflexivity.
    + exists CE. split; [split; [discriminate|reflexivity]|left; reflexivity].
    + exists (3, 4, 5). split; reflexivity.
    + exists CN. split; [split; [discriminate|reflexivity]|right; split; reflexivity].
  - constructor; [|repeat constructor]. constructor; [|constructor].
    intros [[x y] z] (ps & v & E & Hv & _ & Hc) (ps' & v' & E' & Hv' & _ & Hc').
    vm_compute in E, E'. injection E as <-. injection E' as <-.
    destruct Hv as [<-|[<-|[]]], Hv' as [<-|[<-|[]]]; vm_compute in Hc, Hc'; rewrite <- Hc in Hc'; discriminate Hc'.
  - exists (0, 0, 0). eexists _, _. split; [vm_compute; reflexivity|]. split; [left; reflexivity|]. split; reflexivity.
Qed.

(** C41: every door of every built-in room, whatever its position, orientation and flags, opens
    in a compass direction from a cell of the room to a cell that is not of the room. *)
Theorem C41_doors_usable : forall r, In (r_cls r) builtin_rooms -> forall off dir, In (off, dir) (doorways r) ->
  In (csub off dir) (positions r) /\ ~ In off (positions r) /\ exists t, dir = cdir t.
Proof. exact doors_usable. Qed.
Print Assumptions C41_doors_usable.
(** C41: eighteen of the twenty classes change nothing outside of their cells, whatever the
    position, orientation, flags, textures, random draws and world. *)
Theorem C41_drawing_inside_partial : forall r f, In (r_cls r, f) well_drawn -> stays_inside r f.
Proof. exact well_drawn_stays. Qed.
Print Assumptions C41_drawing_inside_partial.
Theorem C41_tall_ring_room_inside_partial : forall r, r_cls r = ImposingRingRoom -> flag (r_flags r) 1 = true ->
  stays_inside r render_ImposingRingRoom.
Proof. exact ring_room_stays. Qed.
Print Assumptions C41_tall_ring_room_inside_partial.
(** C41: refuted for TestRoom2, which draws a floor in the cell east of it ... *)
Theorem C41_test_room_refuted : let r := R TestRoom2 (4, 4, 4) T0 [] in
  room_vectors r (V Coarse (I 4) (I 4) (I 4)) EAST /\
  exists w' g' v, render render_TestRoom2 (V Coarse (I 4) (I 4) (I 4)) EAST [] (fun _ => 3) (new_world 256) (fun _ => 0) = (Ok w', g') /\
    at_voxel w' v = Some [3; 3; 3; 3; 3; 3] /\ forall d, In d (positions r) -> ~ voxel_in_cell v d.
Proof. exact testroom2_outside. Qed.
Print Assumptions C41_test_room_refuted.
(** ... and for the low ImposingRingRoom, which removes blocks of the cells above it. *)
Theorem C41_ring_room_refuted : let r := R ImposingRingRoom (4, 4, 4) T0 [true; false; true; true; true] in
  let w := set_point (new_world 256) (I 28) (I 34) (I 40) [9; 9; 9; 9; 9; 9] in
  room_vectors r (V Coarse (I 4) (I 4) (I 4)) EAST /\
  exists w' g' v, render render_ImposingRingRoom (V Coarse (I 4) (I 4) (I 4)) EAST (r_flags r) (fun _ => 3) w (fun _ => 0) = (Ok w', g') /\
    at_voxel w v = Some [9; 9; 9; 9; 9; 9] /\ at_voxel w' v = None /\ forall d, In d (positions r) -> ~ voxel_in_cell v d.
Proof. exact ringroom_outside. Qed.
Print Assumptions C41_ring_room_refuted.
Example C41_nonvacuous :
  map (fun cr => rc_id (fst cr)) well_drawn = [0; 1; 3; 4; 5; 6; 7; 8; 9; 10; 11; 12; 14; 15; 16; 17; 18; 19] /\
  map rc_id builtin_rooms = [0; 1; 2; 3; 4; 5; 6; 7; 8; 9; 10; 11; 12; 13; 14; 15; 16; 17; 18; 19] /\
  In (Stair, render_Stair) well_drawn /\ doorways (R SpawnRoom (4, 4, 4) T1 [true]) = [((4, 5, 4), (0, 1, 0)); ((4, 3, 4), (0, -1, 0))].
Proof.
  split; [vm_compute; reflexivity|]. split; [vm_compute; reflexivity|]. split; [|vm_compute; reflexivity].
  unfold well_drawn. apply filter_In. split; [|reflexivity]. unfold builtin_renderers. do 14 right. left. reflexivity.
Qed.
