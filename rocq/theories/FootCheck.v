(** Computed facts about crossing the shipped rooms on foot. *)
From Coq Require Import MSetPositive.
From Verif Require Import Py VoxelModel CodecModel UpmModel KitModel VoxFileModel ShippedModel ShippedSpec PassSpec PassCheck FootSpec.
Local Open Scope Z_scope.

(** Sets of places, all of them between 0 and 255 in each direction. *)
Definition near (a : cell) : bool := let '(x, y, z) := a in (0 <=? x) && (x <? 256) && (0 <=? y) && (y <? 256) && (0 <=? z) && (z <? 256).
Definition has (s : PositiveSet.t) (a : cell) : bool := if near a then PositiveSet.mem (vkey a) s else false.
Definition put (s : PositiveSet.t) (a : cell) : PositiveSet.t := PositiveSet.add (vkey a) s.
Definition set_of (l : list cell) : PositiveSet.t := fold_left put l PositiveSet.empty.
(** The ground: cells, and voxels with a block. *)
Definition sets (g : list cell * list cell) : PositiveSet.t * PositiveSet.t := (set_of (fst g), set_of (snd g)).
Definition cell_at (v : cell) : cell := let '(x, y, z) := v in (Z.shiftr x 3, Z.shiftr y 3, Z.shiftr z 3).
Definition free (s : PositiveSet.t * PositiveSet.t) (v : cell) : bool := if has (fst s) (cell_at v) then negb (has (snd s) v) else false.
(** The places where the body fits, and those where it stands. *)
Definition room_for (s : PositiveSet.t * PositiveSet.t) (a : cell) : bool := forallb (fun o => free s (cadd a o)) offsets.
Definition soles : list cell := [(0, 0, -1); (1, 0, -1); (0, 1, -1); (1, 1, -1)].
Definition rests (s : PositiveSet.t * PositiveSet.t) (a : cell) : bool :=
  if existsb (fun o => has (snd s) (cadd a o)) soles then room_for s a else false.
Definition all_near (g : list cell * list cell) : bool :=
  if forallb near (snd g) then forallb (fun c => let '(x, y, z) := c in (0 <=? x) && (x <? 32) && (0 <=? y) && (y <? 32) && (0 <=? z) && (z <? 32)) (fst g) else false.
(** The landing below a place, and the steps from a place. *)
Fixpoint land (fit stand : cell -> bool) (n : nat) (a : cell) : list cell :=
  match n with
  | O => []
  | S n' => if stand a then [a] else if fit (cadd a (0, 0, -1)) then land fit stand n' (cadd a (0, 0, -1)) else []
  end.
Definition sides : list cell := [(1, 0, 0); (-1, 0, 0); (0, 1, 0); (0, -1, 0)].
Fixpoint climbs (fit stand : cell -> bool) (h : nat) (a : cell) : list cell :=
  match h with
  | O => []
  | S h' => let b := cadd a (0, 0, 1) in if fit b then filter stand (map (cadd b) sides) ++ climbs fit stand h' b else []
  end.
Definition hops (fit stand : cell -> bool) (h : nat) (a : cell) : list cell :=
  flat_map (fun d => let b := cadd a d in if fit b then land fit stand 256 b else []) sides ++ climbs fit stand h a.
(** All places that can be reached, newest first. *)
Fixpoint explore (next : cell -> list cell) (n : nat) (todo seen : list cell) (s : PositiveSet.t) : list cell :=
  match n, todo with
  | S n', a :: todo' =>
      let '(todo2, seen2, s2) := fold_left (fun acc b => let '(t, l, q) := acc in if has q b then acc else (b :: t, b :: l, put q b)) (next a) (todo', seen, s) in
      explore next n' todo2 seen2 s2
  | _, _ => seen
  end.
Definition reach (next : cell -> list cell) (a : cell) : list cell := explore next (2 ^ 12) [a] [a] (put PositiveSet.empty a).
(** Nothing leads out of the set. *)
Definition closed (next : cell -> list cell) (l : list cell) : bool := let s := set_of l in forallb (fun a => forallb (has s) (next a)) l.
(** The places to stand in the doorways of a class. *)
Definition places (stand : cell -> bool) (d : door) : list cell :=
  filter stand (flat_map (fun l => map (fun e => threshold d e l) [0; 1; -1]) [0; 1; 2; 3; 4]).
(** Follow a path: a step is a direction, a change of height and a number of repetitions. *)
Definition column (fit : cell -> bool) (x y lo hi : Z) : bool := forallb (fun u => fit (x, y, u)) (zrange lo (hi + 1)).
Definition both_ways (fit stand : cell -> bool) (h : Z) (a b : cell) : bool :=
  let '(x, y, z) := a in let '(i, j, k) := b in
  if (Z.abs (i - x) + Z.abs (j - y) =? 1) && (Z.abs (k - z) <=? h) then
    if stand b then let top := Z.max z k in if column fit x y z top then column fit i j k top else false else false
  else false.
Fixpoint trek (ok : cell -> cell -> bool) (n : nat) (a d : cell) : option cell :=
  match n with
  | O => Some a
  | S n' => let b := cadd a d in if ok a b then trek ok n' b d else None
  end.
Fixpoint tour (ok : cell -> cell -> bool) (a : cell) (p : list (cell * nat)) : option cell :=
  match p with
  | [] => Some a
  | (d, n) :: p' => match trek ok n a d with Some b => tour ok b p' | None => None end
  end.
(** The places to stand in a doorway: the first is where the path ends, the others are beside it. *)
Definition arrives (ok : cell -> cell -> bool) (a : cell) (pl : list cell) (p : list (cell * nat)) : bool :=
  match pl with
  | m :: b :: l => match tour ok a p with Some c => if cell_eqb c m then forallb (ok m) (b :: l) else false | None => false end
  | _ => false
  end.
Fixpoint arrive (ok : cell -> cell -> bool) (a : cell) (ps : list (list cell)) (ways : list (list (cell * nat))) : bool :=
  match ps, ways with
  | [], _ => true
  | pl :: ps', p :: ways' => if arrives ok a pl p then arrive ok a ps' ways' else false
  | _, _ => false
  end.
(** The ground of a class: its cells and the voxels of its file. *)
Definition place_of (v : Z * Z * Z * Z) : cell := fst v.
Definition ground_of (s : shipped) : list cell * list cell :=
  (rc_cells (s_class s) [], match read_file (s_file s) with Ok f => map place_of (vf_voxels f) | Err _ => [] end).
Definition doors_of (s : shipped) : list door := rc_doors (s_class s) [].
(** With steps of this height all places in doorways can be reached from each. *)
Definition crossed (s : shipped) (h : Z) (ways : list (list (cell * nat))) : bool :=
  let g := ground_of s in
  if all_near g then
    let st := sets g in let ps := map (places (rests st)) (doors_of s) in
    match ps with (a :: _) :: _ => arrive (both_ways (room_for st) (rests st) h) a ps ways | _ => false end
  else false.
(** With steps of this height there are two of which one cannot be reached from the other: they are
    in doorways [n] and [m]. *)
Definition stuck (s : shipped) (h n m : nat) : bool :=
  let g := ground_of s in
  if all_near g then
    let st := sets g in let next := hops (room_for st) (rests st) h in
    match nth_error (doors_of s) n, nth_error (doors_of s) m with
    | Some d, Some d' =>
        match places (rests st) d, places (rests st) d' with
        | a :: _, b :: _ => let l := reach next a in if closed next l then negb (has (set_of l) b) else false
        | _, _ => false
        end
    | _, _ => false
    end
  else false.
(** The doorways are level. *)
Definition even_on (st : PositiveSet.t * PositiveSet.t) (d : door) : bool :=
  forallb (fun e => if room_for st (threshold d e 1) then forallb (fun o => has (snd st) (cadd (threshold d e 1) o)) soles else false) [0; 1; -1].
Definition even_doors (s : shipped) : bool := let st := sets (ground_of s) in forallb (even_on st) (doors_of s).

(** Paths from the first doorway of each class to all of its doorways: directions (east, west,
    north, south), changes of height and numbers of steps. *)
Definition hikes_list : list (Z * list (list (cell * nat))) := Eval cbv in
  let step (s : Z * Z * Z) := let '(k, u, n) := s in (cadd (way k) (0, 0, u), Z.to_nat n) in
  map (fun ip : Z * list (list (Z * Z * Z)) => (fst ip, map (map step) (snd ip)))
  [(100, [[]; [(0, 0, 3); (2, 0, 4); (0, 0, 2); (2, 0, 2); (0, 0, 2); (2, 0, 2); (0, 0, 14); (3, 0, 6); (0, 0, 1); (3, 0, 2)]; [(0, 0, 3); (2, 0, 4); (0, 0, 2); (2, 0, 2); (0, 0, 2); (2, 0, 2); (0, 0, 4); (2, 0, 3)]; [(0, 0, 3); (3, 0, 4); (0, 0, 2); (3, 0, 2); (0, 0, 2); (3, 0, 2); (0, 0, 4); (3, 0, 3)]]);
   (101, [[]; [(0, 0, 22)]; [(0, 0, 11); (2, 0, 5); (2, 3, 1); (2, 0, 1); (2, (-11), 1); (2, 0, 3)]; [(0, 0, 11); (3, 0, 5); (3, 3, 1); (3, 0, 1); (3, (-11), 1); (3, 0, 3)]]);
   (103, [[]; [(0, 0, 8); (0, 1, 8); (0, 0, 6); (0, (-1), 8); (0, 0, 8)]; [(0, 0, 8); (0, 1, 2); (2, 0, 2); (2, (-10), 1); (0, 0, 9); (2, 1, 8); (2, 0, 8)]; [(0, 0, 8); (0, 1, 2); (3, 0, 2); (3, (-10), 1); (0, 0, 9); (3, 0, 1); (3, 1, 8); (3, 0, 7)]]);
   (104, [[]; [(2, 0, 3); (0, 0, 6); (3, 0, 3)]; [(2, 0, 3); (0, 0, 3)]; [(3, 0, 3); (0, 0, 3)]]);
   (105, [[]; [(0, 0, 3); (3, 0, 3)]]);
   (106, [[]]);
   (107, [[]; [(0, 1, 6)]]);
   (108, [[]; [(0, 0, 6)]]);
   (109, [[]]);
   (110, [[]; [(0, 0, 22)]]);
   (111, [[]; [(0, 0, 1); (3, (-3), 1); (0, (-2), 1); (0, 0, 1); (0, (-1), 1); (0, 0, 1); (0, 1, 1); (0, 0, 1); (0, 2, 1); (0, 3, 1); (0, 0, 6); (0, (-1), 1); (0, 0, 1); (0, (-1), 1); (0, 0, 1); (0, 1, 1); (0, 0, 1); (0, 1, 1); (2, 0, 1)]]);
   (112, [[]; [(0, 0, 22)]; [(0, 0, 11); (2, 0, 11)]]);
   (113, [[]; [(0, 0, 22)]; [(0, 0, 11); (2, 0, 11)]; [(0, 0, 11); (3, 0, 11)]]);
   (114, [[]; [(0, 0, 6)]; [(0, 0, 3); (2, 0, 3)]; [(0, 0, 3); (3, 0, 3)]]);
   (115, [[]; [(0, 0, 22)]]);
   (116, [[]]);
   (117, [[]; [(0, 0, 1); (3, 0, 13); (1, 0, 1); (3, 0, 3)]; [(0, 0, 22)]; [(0, 0, 21); (3, 0, 13); (0, 0, 1); (3, 0, 3)]; [(0, 0, 11); (2, 0, 3)]; [(0, 0, 11); (3, 0, 19)]]);
   (118, [[]; [(0, 1, 1); (0, 0, 1); (0, 1, 1); (0, 0, 1); (0, 1, 1); (0, 0, 1); (0, 1, 1); (0, 0, 1); (0, 1, 1); (0, 0, 1); (0, 1, 1); (0, 0, 1); (0, 1, 1); (0, 0, 1)]]);
   (119, [[]; [(0, 0, 6)]]);
   (120, [[]; [(0, 0, 22)]]);
   (123, [[]; [(0, 0, 6)]; [(0, 0, 3); (3, 0, 3)]]);
   (124, [[]; [(2, 0, 8)]; [(2, 0, 16)]; [(0, 0, 3); (3, 0, 3)]; [(0, 0, 11); (3, 0, 3)]; [(0, 0, 19); (3, 0, 3)]; [(0, 0, 27); (3, 0, 3)]; [(0, 0, 3); (2, 0, 19)]; [(0, 0, 7); (2, 0, 13); (0, 0, 4); (2, 0, 6)]; [(0, 0, 7); (2, 0, 13); (0, 0, 12); (2, 0, 6)]; [(0, 0, 27); (2, 0, 19)]; [(0, 0, 30)]; [(0, 0, 30); (2, 0, 8)]; [(0, 0, 30); (2, 0, 16)]]);
   (125, [[]]);
   (126, [[]]);
   (127, [[]; [(3, 0, 6)]]);
   (128, [[]]);
   (129, [[]]);
   (130, [[]; [(0, 0, 5); (2, 0, 5); (0, 0, 1); (2, 0, 2); (0, 0, 1); (2, 0, 1); (0, 0, 28); (3, 0, 1); (0, 0, 1); (3, 0, 5); (0, 0, 1); (3, 0, 1); (0, 0, 1); (3, 0, 1)]; [(0, 0, 5); (3, 0, 5); (0, 0, 1); (3, 0, 2); (0, 0, 1); (3, 0, 1); (0, 0, 4); (3, 0, 4); (0, 0, 1); (3, 0, 1); (0, 0, 2); (3, 0, 1); (0, 0, 5); (3, 0, 5)]; [(0, 0, 5); (2, 0, 5); (0, 0, 1); (2, 0, 2); (0, 0, 1); (2, 0, 1); (0, 0, 4); (2, 0, 4); (0, 0, 1); (2, 0, 1); (0, 0, 2); (2, 0, 1); (0, 0, 5); (2, 0, 5)]]);
   (131, [[]; [(0, 0, 3); (3, 0, 3)]]);
   (132, [[]; [(0, 0, 5); (2, 0, 4); (0, 0, 1); (2, 0, 3); (0, 0, 1); (2, 0, 1); (0, 0, 1); (2, 0, 1); (0, 0, 1); (2, 0, 1); (0, 0, 1); (2, 0, 1); (0, 0, 1); (2, 0, 1); (0, 0, 1); (2, 0, 1); (0, 0, 3); (2, 0, 1); (0, 0, 16); (3, 0, 1); (0, 0, 1); (3, 0, 1); (0, 0, 1); (3, 0, 2); (0, 0, 1); (3, 0, 1); (0, 0, 1); (3, 0, 2); (0, 0, 1); (3, 0, 4); (0, 0, 1); (3, 0, 2); (0, 0, 1); (3, 0, 1)]; [(0, 0, 5); (3, 0, 4); (0, 0, 1); (3, 0, 3); (0, 0, 1); (3, 0, 1); (0, 0, 1); (3, 0, 1); (0, 0, 1); (3, 0, 1); (0, 0, 1); (3, 0, 1); (0, 0, 1); (3, 0, 1); (0, 0, 1); (3, 0, 1); (0, 0, 3); (3, 0, 1); (0, 0, 4); (3, 0, 5)]; [(0, 0, 5); (2, 0, 4); (0, 0, 1); (2, 0, 3); (0, 0, 1); (2, 0, 1); (0, 0, 1); (2, 0, 1); (0, 0, 1); (2, 0, 1); (0, 0, 1); (2, 0, 1); (0, 0, 1); (2, 0, 1); (0, 0, 1); (2, 0, 1); (0, 0, 3); (2, 0, 1); (0, 0, 4); (2, 0, 5)]]);
   (133, [[]; [(0, 0, 5); (0, 6, 1); (0, 3, 1); (0, 1, 6); (0, 0, 2); (0, 1, 1); (0, 0, 6); (0, (-1), 1); (0, 0, 2); (0, (-1), 6); (0, (-3), 1); (0, (-6), 1); (0, 0, 5)]]);
   (134, [[]; [(0, 0, 4); (3, 0, 7); (0, 0, 8); (2, 0, 6); (0, 0, 2); (2, 0, 1)]]);
   (135, [[]; [(0, 0, 22)]; [(0, 0, 11); (2, 0, 11)]; [(0, 0, 11); (3, 0, 11)]]);
   (136, [[]; [(0, 0, 22)]; [(0, 0, 11); (2, 0, 11)]; [(0, 0, 11); (3, 0, 11)]]);
   (137, [[]; [(0, 1, 1); (0, 0, 1); (0, 1, 1); (0, 0, 1); (0, 1, 1); (0, 0, 1); (0, 1, 1); (0, 0, 1); (0, 1, 1); (0, 0, 1); (0, 1, 1); (0, 0, 1); (0, 1, 1); (0, 0, 1)]]);
   (138, [[]; [(0, 0, 6)]]);
   (139, [[]; [(0, 0, 22)]]);
   (140, [[]; [(0, 0, 22)]; [(0, 0, 9); (1, 16, 1); (1, 0, 8)]; [(0, 0, 13); (0, 16, 1); (0, 0, 8)]]);
   (141, [[]; [(0, 0, 22)]; [(0, 0, 11); (2, 0, 11)]; [(0, 0, 11); (3, 0, 11)]; [(0, 0, 10); (1, 15, 1); (1, 1, 1); (1, 0, 8)]; [(0, 0, 12); (0, 15, 1); (0, 1, 1); (0, 0, 8)]; [(0, 0, 11); (2, 0, 1); (2, 15, 1); (2, 1, 1); (2, 0, 8)]; [(0, 0, 11); (3, 0, 1); (3, 15, 1); (3, 1, 1); (3, 0, 8)]]);
   (142, [[]; [(0, 0, 22)]; [(0, 0, 11); (2, 0, 11)]; [(0, 0, 11); (3, 0, 11)]]);
   (143, [[]; [(0, 0, 22)]; [(0, 0, 11); (2, 0, 11)]; [(0, 0, 11); (3, 0, 11)]]);
   (144, [[]; [(0, 0, 2); (2, 0, 7); (1, 0, 2); (2, 0, 1)]])].
Definition hikes_of (s : shipped) : list (list (cell * nat)) :=
  match dget Z.eqb hikes_list (rc_id (s_class s)) with Some ps => ps | None => [] end.
