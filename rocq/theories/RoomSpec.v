(** Vocabulary for the properties of rooms. *)
From Coq Require Import QArith Permutation.
From Verif Require Import Py VecModel VecSpec VoxelModel VoxelSpec UpmModel UpmSpec KitModel KitSpec RoomModel MagicaModel.
Local Open Scope Z_scope.

(** Colour of voxel [q] of a voxel file: the last entry for that position. *)
Fixpoint voxel_colour (l : list (Z * Z * Z * Z)) (q : cell) : option Z :=
  match l with
  | [] => None
  | (x, y, z, c) :: r =>
      match voxel_colour r q with
      | Some c' => Some c'
      | None => if cell_eqb (x, y, z) q then Some c else None
      end
  end.
(** Every colour index is in the palette (a byte is, in the palette of 256 colours). *)
Definition valid_model (m : voxmodel) : Prop :=
  forall x y z c, In (x, y, z, c) (vm_voxels m) -> 0 <= c < Z.of_nat (List.length (vm_palette m)).

(** The squared distance of two cells. *)
Definition dist2 (a b : cell) : Z :=
  let '(x, y, z) := a in let '(x', y', z') := b in (x - x') * (x - x') + (y - y') * (y - y') + (z - z') * (z - z').
(** The cell next to [a] in direction [o]. *)
Definition next_to (a o : cell) : cell := cadd a o.
(** A vector and the cell it stands for, for doors: offset and orientation. *)
Definition door_at (q : vec * vec) (d : cell * cell) : Prop := cell_at (fst q) (fst d) /\ cell_at (snd q) (snd d).

(** A room made from a voxel file. *)
Record job := J { j_model : voxmodel; j_west : Z; j_south : Z; j_pos : vec; j_orient : vec; j_tex : Z * Z * Z -> Z }.
(** It stands on a cell, faces a compass direction, has valid colours, and is either not
    shifted inside its tile or faces east. *)
Definition job_ok (j : job) : Prop :=
  valid_model (j_model j) /\ (exists p, cell_at (j_pos j) p) /\
  exists c, points_to (j_orient j) c /\ (c = CE \/ (j_west j = 0 /\ j_south j = 0)).
(** The cells it reports. *)
Definition job_cell (j : job) (d : cell) : Prop :=
  exists ps v, magica_get_positions (j_model j) (j_west j) (j_south j) (j_pos j) (j_orient j) = Ok ps /\ In v ps /\ cell_at v d.
(** Its rendering, and the rendering of several rooms in order. *)
Definition render_job (j : job) (w : world (list Z)) (g : rng) : res (world (list Z)) * rng :=
  magica_render (j_model j) (j_west j) (j_south j) (j_pos j) (j_orient j) (j_tex j) w g.
Fixpoint render_jobs (l : list job) (w : world (list Z)) (g : rng) : res (world (list Z)) * rng :=
  match l with
  | [] => (Ok w, g)
  | j :: l' => match render_job j w g with
               | (Ok w', g') => render_jobs l' w' g'
               | (Err e, g') => (Err e, g')
               end
  end.
(** No two rooms of the list report the same cell. *)
Definition cells_disjoint (l : list job) : Prop :=
  ForallOrdPairs (fun j j' => forall d, job_cell j d -> ~ job_cell j' d) l.
(** The two worlds hold the same blocks. *)
Definition same_blocks (w w' : world (list Z)) : Prop := forall x y z, get_point w x y z = get_point w' x y z.
(** The worlds agree outside of the cells. *)
Definition unchanged_outside (cells : list cell) (w w' : world (list Z)) : Prop :=
  forall x y z, (forall d v, In d cells -> voxel_in_cell v d -> doubled v <> (halves x, halves y, halves z)) ->
    get_point w' x y z = get_point w x y z.
(** A room object in the world: its position and orientation vectors stand for those of [r]. *)
Definition room_vectors (r : room) (pos orient : vec) : Prop := cell_at pos (r_pos r) /\ cell_at orient (cdir (r_turn r)).
Definition stays_inside (r : room) (f : renderer) : Prop :=
  forall pos orient tx size ops g, room_vectors r pos orient ->
  let w := wrun ops (new_world size) in
  exists w' g', render f pos orient (r_flags r) tx w g = (Ok w', g') /\ unchanged_outside (positions r) w w'.
