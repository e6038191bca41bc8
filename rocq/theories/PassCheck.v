(** Computed facts about the air of the shipped rooms. *)
From Coq Require Import MSetPositive.
From Verif Require Import Py VoxelModel CodecModel UpmModel KitModel VoxFileModel ShippedModel ShippedSpec PassSpec.
Local Open Scope Z_scope.

(** A set of voxels. *)
Definition vkey (q : cell) : positive := let '(x, y, z) := q in Z.to_pos (1 + x + 256 * (y + 256 * z)).
Definition vput (s : PositiveSet.t) (v : Z * Z * Z * Z) : PositiveSet.t := let '(x, y, z, _) := v in PositiveSet.add (vkey (x, y, z)) s.
Definition vset (l : list (Z * Z * Z * Z)) : PositiveSet.t := fold_left vput l PositiveSet.empty.
(** The body at [a] is in the given cells and touches no voxel of the set. *)
Definition offsets : list cell := list_prod (list_prod [0; 1] [0; 1]) [0; 1; 2; 3].
Definition air_at (cells : list cell) (s : PositiveSet.t) (v : cell) : bool :=
  let '(x, y, z) := v in existsb (cell_eqb (x / 8, y / 8, z / 8)) cells && negb (PositiveSet.mem (vkey v) s).
Definition fits_at (cells : list cell) (s : PositiveSet.t) (a : cell) : bool :=
  forallb (fun o => air_at cells s (cadd a o)) offsets.
(** Follow a path, given as directions and numbers of steps. *)
Definition way (k : Z) : cell := nth (Z.to_nat k) [(1, 0, 0); (-1, 0, 0); (0, 1, 0); (0, -1, 0); (0, 0, 1); (0, 0, -1)] (0, 0, 1).
Fixpoint steps (ok : cell -> bool) (n : nat) (a d : cell) : option cell :=
  match n with
  | O => Some a
  | S n' => let b := cadd a d in if ok b then steps ok n' b d else None
  end.
Fixpoint follow (ok : cell -> bool) (a : cell) (p : list (Z * nat)) : option cell :=
  match p with
  | [] => Some a
  | (k, n) :: p' => match steps ok n a (way k) with Some b => follow ok b p' | None => None end
  end.
(** The places of a doorway are free, and a path leads to the middle one. *)
Definition side (d : door) : bool := let '(a, b, h) := snd d in (Z.abs a + Z.abs b =? 1) && (h =? 0).
Definition lead_to (ok : cell -> bool) (a : cell) (d : door) (p : list (Z * nat)) : bool :=
  side d && match follow ok a p with Some b => cell_eqb b (doorstep d 0) | None => false end && ok (doorstep d 1) && ok (doorstep d (-1)).
Fixpoint lead (ok : cell -> bool) (a : cell) (l : list door) (ps : list (list (Z * nat))) : bool :=
  match l, ps with
  | [], _ => true
  | d :: l', p :: ps' => lead_to ok a d p && lead ok a l' ps'
  | _, _ => false
  end.
Definition leads (s : shipped) (l : list door) (ps : list (list (Z * nat))) : bool :=
  match read_file (s_file s) with
  | Ok v => let ok := fits_at (rc_cells (s_class s) []) (vset (vf_voxels v)) in
            match l with [] => true | d :: _ => ok (doorstep d 0) && lead ok (doorstep d 0) l ps end
  | Err _ => false
  end.

(** Paths from the first doorway of each class to all of its doorways: directions (east, west,
    north, south, up, down) and numbers of steps. *)
Definition paths : list (Z * list (list (Z * nat))) := Eval cbv in
  let step (k : Z) (n : Z) := (k, Z.to_nat n) in let path := map (fun kn => step (fst kn) (snd kn)) in
  map (fun ip : Z * list (list (Z * Z)) => (fst ip, map path (snd ip)))
  [(100, [[]; [(0, 3); (3, 5); (0, 18); (2, 5); (0, 1)]; [(0, 3); (2, 10); (0, 8); (2, 1)]; [(0, 3); (3, 10); (0, 8); (3, 1)]]);
   (101, [[]; [(0, 22)]; [(4, 2); (0, 11); (2, 11); (5, 10)]; [(4, 2); (0, 11); (3, 11); (5, 10)]]);
   (102, [[]; [(0, 22)]; []; []]);
   (103, [[]; [(4, 1); (0, 10); (3, 3); (0, 18); (2, 3); (0, 10); (5, 1)]; [(4, 1); (0, 10); (2, 5); (5, 1); (0, 9); (2, 14)]; [(4, 1); (0, 10); (3, 5); (5, 1); (0, 9); (3, 14)]]);
   (104, [[]; [(0, 6)]; [(2, 3); (0, 3)]; [(3, 3); (0, 3)]]);
   (105, [[]; [(3, 3); (0, 3)]]);
   (106, [[]]);
   (107, [[]; [(4, 8); (0, 6)]]);
   (108, [[]; [(0, 6)]]);
   (109, [[]]);
   (110, [[]; [(0, 22)]]);
   (111, [[]; [(0, 22)]]);
   (112, [[]; [(0, 22)]; [(0, 11); (2, 11)]]);
   (113, [[]; [(0, 22)]; [(0, 11); (2, 11)]; [(0, 11); (3, 11)]]);
   (114, [[]; [(0, 6)]; [(0, 3); (2, 3)]; [(0, 3); (3, 3)]]);
   (115, [[]; [(0, 22)]]);
   (116, [[]]);
   (117, [[]; [(0, 1); (3, 16); (1, 1)]; [(0, 22)]; [(0, 21); (3, 16); (0, 1)]; [(0, 11); (2, 3)]; [(0, 11); (3, 19)]]);
   (118, [[]; [(4, 2); (0, 6); (4, 3); (0, 6); (4, 3); (0, 2)]]);
   (119, [[]; [(0, 6)]]);
   (120, [[]; [(0, 22)]]);
   (123, [[]; [(0, 6)]; [(3, 3); (0, 3)]]);
   (124, [[]; [(2, 8)]; [(2, 16)]; [(3, 3); (0, 3)]; [(3, 3); (0, 11)]; [(3, 3); (0, 19)]; [(3, 3); (0, 27)]; [(2, 19); (0, 3)]; [(2, 19); (0, 11)]; [(2, 19); (0, 19)]; [(2, 19); (0, 27)]; [(0, 30)]; [(0, 30); (2, 8)]; [(2, 16); (0, 30)]]);
   (125, [[]]);
   (126, [[]]);
   (127, [[]; [(3, 6)]]);
   (128, [[]]);
   (129, [[]]);
   (130, [[]; [(0, 5); (3, 8); (0, 30); (2, 8); (0, 3)]; [(0, 5); (3, 12); (0, 7); (3, 5); (0, 7); (3, 2)]; [(0, 5); (2, 12); (0, 7); (2, 5); (0, 7); (2, 2)]]);
   (131, [[]; [(0, 3); (3, 3)]]);
   (132, [[]; [(0, 5); (3, 12); (0, 7); (3, 2); (0, 19); (2, 7); (0, 5); (2, 7); (0, 2)]; [(0, 5); (3, 12); (0, 7); (3, 5); (0, 7); (3, 2)]; [(0, 5); (2, 12); (0, 7); (2, 5); (0, 7); (2, 2)]]);
   (133, [[]; [(0, 5); (4, 11); (0, 5); (4, 4); (0, 18); (5, 4); (0, 5); (5, 11); (0, 5)]]);
   (134, [[]; [(0, 5); (3, 6); (0, 8); (2, 6); (0, 1)]]);
   (135, [[]; [(0, 22)]; [(0, 11); (2, 11)]; [(0, 11); (3, 11)]]);
   (136, [[]; [(0, 22)]; [(0, 11); (2, 11)]; [(0, 11); (3, 11)]]);
   (137, [[]; [(0, 2); (4, 2); (0, 4); (4, 2); (0, 4); (4, 2); (0, 4); (4, 2)]]);
   (138, [[]; [(0, 6)]]);
   (139, [[]; [(0, 22)]]);
   (140, [[]; [(0, 22)]; [(0, 9); (4, 16); (1, 9)]; [(0, 13); (4, 16); (0, 9)]]);
   (141, [[]; [(0, 22)]; [(0, 11); (2, 11)]; [(0, 11); (3, 11)]; [(0, 10); (4, 16); (1, 10)]; [(0, 12); (4, 16); (0, 10)]; [(0, 11); (4, 16); (2, 11)]; [(0, 11); (4, 16); (3, 11)]]);
   (142, [[]; [(0, 22)]; [(0, 11); (2, 11)]; [(0, 11); (3, 11)]]);
   (143, [[]; [(0, 22)]; [(0, 11); (2, 11)]; [(0, 11); (3, 11)]]);
   (144, [[]; [(0, 1); (2, 8); (1, 1)]])].
Definition paths_of (s : shipped) : list (list (Z * nat)) :=
  match dget Z.eqb paths (rc_id (s_class s)) with Some ps => ps | None => [] end.
Definition all_lead (s : shipped) : bool := leads s (rc_doors (s_class s) []) (paths_of s).
(** The doorways of the gate at the level of its floor, and a path from one to the other. *)
Definition links (s : shipped) (d d' : door) (ds : list (Z * nat)) : bool :=
  match read_file (s_file s) with
  | Ok v =>
      let ok := fits_at (rc_cells (s_class s) []) (vset (vf_voxels v)) in
      ok (doorstep d 1) && match follow ok (doorstep d 1) ds with Some b => cell_eqb b (doorstep d' 1) | None => false end
  | Err _ => false
  end.
