(** Model of redeclipse/upm.py (UnusedPositionManager) and of the part of
    redeclipse/prefabs/__init__.py it calls (Room.__init__, get_doorways,
    get_positions, randOpts).

    Simplifications.  Coarse vectors are integer cells and the four compass
    orientations are quarter turns; UpmBridge.v proves that the vector operations
    of VecModel.v compute exactly these.  Randomness is an arbitrary infinite
    stream of draws.  Rooms are values; the object identity the code relies on is
    an explicit number.  Progress bars and log lines are not modelled. *)
From Coq Require Import QArith Qround.
From Verif Require Import Py.
Local Open Scope Z_scope.

(** A coarse cell. *)
Definition cell := (Z * Z * Z)%type.
Definition cell_eqb (a b : cell) : bool :=
  let '(x, y, z) := a in let '(x', y', z') := b in (x =? x') && (y =? y') && (z =? z').
Definition cadd (a b : cell) : cell :=
  let '(x, y, z) := a in let '(x', y', z') := b in (x + x', y + y', z + z').
Definition csub (a b : cell) : cell :=
  let '(x, y, z) := a in let '(x', y', z') := b in (x - x', y - y', z - z').

(** Orientations EAST, NORTH, WEST, SOUTH as 0..3 quarter turns (the angle
    [rotate] takes from the orientation vector, vector/__init__.py:123-128). *)
Inductive turn := T0 | T1 | T2 | T3.
Definition turn_eqb (a b : turn) : bool :=
  match a, b with T0, T0 | T1, T1 | T2, T2 | T3, T3 => true | _, _ => false end.
(** Composition of turns: [orientation.rotate(...)]. *)
Definition tnext (a : turn) : turn := match a with T0 => T1 | T1 => T2 | T2 => T3 | T3 => T0 end.
Definition tadd (a b : turn) : turn :=
  match b with
  | T0 => a | T1 => tnext a | T2 => tnext (tnext a) | T3 => tnext (tnext (tnext a))
  end.
(** vector/__init__.py:108-136 — rotate, on cells. *)
Definition crot (t : turn) (c : cell) : cell :=
  let '(x, y, z) := c in
  match t with
  | T0 => (x, y, z) | T1 => (- y, x, z) | T2 => (- x, - y, z) | T3 => (y, - x, z)
  end.
(** vector/orientations.py:9-17 — the orientation vector itself. *)
Definition cdir (t : turn) : cell := crot t (1, 0, 0).
Definition CARD : list turn := [T0; T1; T2; T3].

(** A doorway: the cell behind it and the direction it opens to
    (the dict with keys 'offset' and 'orientation'). *)
Definition door := (cell * cell)%type.

(** A room class, prefabs/__init__.py:41-116 and its subclasses: identity of the
    class object, room_type, the class attribute _randflags (if any), whether the
    constructor stores the randflags it is given (_3X3Room does not, line 135-140),
    whether it adds the orientation to the position (_LargeRoom does, line 593), and
    _get_positions/_get_doorways as functions of the flags of the instance. *)
Record rclass := RC {
  rc_id : Z;
  rc_type : string;
  rc_flags : option (list bool);
  rc_keep : bool;
  rc_shift : bool;
  rc_cells : list bool -> list cell;
  rc_doors : list bool -> list door }.

(** A room instance. *)
Record room := R { r_cls : rclass; r_pos : cell; r_turn : turn; r_flags : list bool }.

Definition default_flags (c : rclass) : list bool :=
  match rc_flags c with Some l => l | None => [] end.

(** prefabs/__init__.py:48-52, 135-140, 177-184, 586-596 — constructors.
    [randflags=None] and [randflags=[]] both keep the class attribute. *)
Definition mk_room (c : rclass) (pos : cell) (t : turn) (flags : option (list bool)) : room :=
  R c (if rc_shift c then cadd pos (cdir t) else pos) t
    (match flags with
     | Some (b :: l) => if rc_keep c then b :: l else default_flags c
     | _ => default_flags c
     end).

(** prefabs/__init__.py:89-93 — get_positions. *)
Definition positions (r : room) : list cell :=
  map (fun p => cadd (r_pos r) (crot (r_turn r) p)) (rc_cells (r_cls r) (r_flags r)).
(** prefabs/__init__.py:71-84 — get_doorways. *)
Definition doorways (r : room) : list door :=
  map (fun d => (cadd (r_pos r) (crot (r_turn r) (fst d)), crot (r_turn r) (snd d)))
    (rc_doors (r_cls r) (r_flags r)).

(** The random number generator: an infinite stream of draws. *)
Definition rng := nat -> Z.
Definition draw (g : rng) : Z * rng := (g O, fun i => g (S i)).

(** [random.sample(l, len(l))]: repeatedly remove an element at a drawn index. *)
Fixpoint remove_at {A} (l : list A) (i : nat) : option (A * list A) :=
  match l with
  | [] => None
  | x :: l' =>
      match i with
      | O => Some (x, l')
      | S j => match remove_at l' j with
               | Some (y, r) => Some (y, x :: r)
               | None => Some (x, l')
               end
      end
  end.
Fixpoint sample_n {A} (n : nat) (l : list A) (g : rng) : list A * rng :=
  match n with
  | O => ([], g)
  | S n' =>
      let (d, g1) := draw g in
      match remove_at l (Z.to_nat (d mod Z.of_nat (List.length l))) with
      | None => ([], g1)
      | Some (x, l') => let (r, g2) := sample_n n' l' g1 in (x :: r, g2)
      end
  end.
Definition sample {A} (l : list A) (g : rng) : list A * rng := sample_n (List.length l) l g.

(** [random.uniform(0, total)]: total times a fraction k/2^53; the upper end is
    included because the product may round up to it. *)
Definition uniform (total : Q) (g : rng) : Q * rng :=
  let (d, g1) := draw g in
  (Qmult total (Qmake (d mod (2 ^ 53 + 1)) (2 ^ 53)), g1).

(** upm.py:230-242 — weighted_choice, for a drawn r.  Simplification: the running
    sum is exact. *)
Fixpoint wchoice_from {A} (choices : list (A * Q)) (r upto : Q) : option A :=
  match choices with
  | [] => None
  | (c, w) :: l => if Qle_bool r (Qplus upto w) then Some c else wchoice_from l r (Qplus upto w)
  end.
Definition wtotal {A} (choices : list (A * Q)) : Q :=
  fold_left (fun s cw => Qplus s (snd cw)) choices 0%Q.
Definition wchoice {A} (choices : list (A * Q)) (r : Q) : option A := wchoice_from choices r 0%Q.
Definition weighted_choice {A} (choices : list (A * Q)) (g : rng) : option A * rng :=
  let (r, g1) := uniform (wtotal choices) g in (wchoice choices r, g1).

(** A registered room object: its identity and its value. *)
Definition obj := (nat * room)%type.
(** An entry of [self.unoccupied]: cell behind the door, room, door orientation. *)
Definition open_door := (cell * obj * cell)%type.

(** upm.py:19-39 — the manager.  [u_gone] is a ghost: the doors discarded by
    place_rooms so far (upm.py:395-398); nothing reads it.  [u_next] supplies
    object identities. *)
Record upm := U {
  u_noclip : bool;
  u_mirror : option Z;
  u_occ : list (cell * obj);
  u_open : list open_door;
  u_rooms : list obj;
  u_links : list (cell * cell);
  u_next : nat;
  u_gone : list open_door }.

Definition upm_init (mirror : option Z) (noclip : bool) : upm :=
  U noclip mirror [] [] [] [] 0 [].

(** upm.py:33-39 — mirror_rotations; the attribute is missing for other values. *)
Definition rotations (st : upm) : option (list turn) :=
  match u_mirror st with
  | Some 1 => Some [T0]
  | Some 2 => Some [T0; T2]
  | Some 4 => Some [T0; T1; T2; T3]
  | _ => None
  end.

(** upm.py:41-53 — is_legal. *)
Definition is_legal (c : cell) : bool :=
  let '(x, y, z) := c in
  (0 <=? x) && (x <=? 32) && (0 <=? y) && (y <=? 32) && (0 <=? z) && (z <=? 32).

(** offset_rotate about the middle of the map, upm.py:59 and 66. *)
Definition mrot (t : turn) (c : cell) : cell := csub (crot t (cadd c (-16, -16, 0))) (-16, -16, 0).
(** upm.py:55-61 — one mirrored copy (deepcopy keeps everything else). *)
Definition mirror_room (t : turn) (r : room) : room :=
  R (r_cls r) (mrot t (r_pos r)) (tadd (r_turn r) t) (r_flags r).

Definition occupied (occ : list (cell * obj)) (c : cell) : bool := dmem cell_eqb occ c.
Definition cmem (c : cell) (l : list cell) : bool := existsb (cell_eqb c) l.

(** upm.py:86-101 — _preregister_room. *)
Fixpoint prereg (occ : list (cell * obj)) (added : list cell) (rooms : list room) : bool :=
  match rooms with
  | [] => true
  | r :: rs =>
      if existsb (fun p => occupied occ p || cmem p added) (positions r) then false
      else if forallb (fun d => is_legal (fst d)) (doorways r)
           then prereg occ (added ++ positions r) rs
           else false
  end.

(** upm.py:70-84 — preregister_room. *)
Definition preregister_room (st : upm) (r : room) : res bool :=
  match rotations st with
  | None => Err AttributeError
  | Some ts => Ok (prereg (u_occ st) [] (map (fun t => mirror_room t r) ts))
  end.

(** upm.py:132 — [self.occupied.update({pos: room for pos in used})]. *)
Definition occ_update (occ : list (cell * obj)) (used : list cell) (o : obj) : list (cell * obj) :=
  fold_left (fun d p => dset cell_eqb d p o) used occ.

(** upm.py:122-147 — _register_room on a fresh object.  Returns the state also
    when it raises: the room has been appended by then. *)
Definition register1 (st : upm) (r : room) : upm * option exn :=
  let used := positions r in
  let o := (u_next st, r) in
  let rooms := u_rooms st ++ [o] in
  if existsb (occupied (u_occ st)) used && negb (u_noclip st)
  then (U (u_noclip st) (u_mirror st) (u_occ st) (u_open st) rooms (u_links st)
          (S (u_next st)) (u_gone st), Some UserExn)
  else
    let occ := occ_update (u_occ st) used o in
    let open0 := filter (fun e => negb (cmem (fst (fst e)) used)) (u_open st) in
    let news := map (fun d => (fst d, o, snd d))
                  (filter (fun d => is_legal (fst d) && negb (occupied occ (fst d))) (doorways r)) in
    (U (u_noclip st) (u_mirror st) occ (open0 ++ news) rooms (u_links st)
       (S (u_next st)) (u_gone st), None).

Fixpoint register_all (st : upm) (rs : list room) : upm * option exn :=
  match rs with
  | [] => (st, None)
  | r :: rs' =>
      match register1 st r with
      | (st', None) => register_all st' rs'
      | (st', Some e) => (st', Some e)
      end
  end.

(** upm.py:110-120 — register_room. *)
Definition register_room (st : upm) (r : room) : upm * option exn :=
  match rotations st with
  | None => (st, Some AttributeError)
  | Some ts => register_all st (map (fun t => mirror_room t r) ts)
  end.

(** upm.py:103-108 — register_link. *)
Definition register_link (st : upm) (a b : room) : upm * option exn :=
  match rotations st with
  | None => (st, Some AttributeError)
  | Some ts =>
      (U (u_noclip st) (u_mirror st) (u_occ st) (u_open st) (u_rooms st)
         (u_links st ++ map (fun t => (mrot t (r_pos a), mrot t (r_pos b))) ts)
         (u_next st) (u_gone st), None)
  end.

(** upm.py:149-158 — random_position: [random.choice] of an empty list raises
    IndexError. *)
Definition random_position (st : upm) (g : rng) : res open_door * rng :=
  match u_occ st with
  | [] => (Err UserExn, g)
  | _ =>
      match u_open st with
      | [] => (Err IndexError, g)
      | e0 :: _ =>
          let (d, g1) := draw g in
          (Ok (nth (Z.to_nat (d mod Z.of_nat (List.length (u_open st)))) (u_open st) e0), g1)
      end
  end.

(** upm.py:180-195 — nrp_flavour_vertical (the float power is exact up to 32^5). *)
Definition flavour_vertical (c : cell) : Q := inject_Z (snd c ^ 5).
(** upm.py:160-178 — nrp_flavour_center_hole. *)
Definition flavour_center_hole (c : cell) : Q :=
  let '(x, y, z) := c in inject_Z (Z.abs (x - 128) ^ 5 + Z.abs (y - 128) ^ 5).
(** upm.py:197-212 — nrp_flavour_plain. *)
Definition flavour_plain (c : cell) : Q := 1%Q.

(** upm.py:214-228 — nonrandom_position. *)
Definition nonrandom_position (fl : cell -> Q) (st : upm) (g : rng) : res open_door * rng :=
  let choices := map (fun ie => (fst ie, fl (fst (fst (snd ie)))))
                   (combine (seq 0 (List.length (u_open st))) (u_open st)) in
  let (wc, g1) := weighted_choice choices g in
  match u_open st with
  | [] => (Err UserExn, g1)
  | _ => (match wc with
          | None => Err TypeError
          | Some i => match nth_error (u_open st) i with
                      | Some e => Ok e
                      | None => Err IndexError
                      end
          end, g1)
  end.

(** Transition probabilities [DISTMAN.for_class] by room_type of the previous and
    of the candidate room, and the rounding of the float quotient at upm.py:271. *)
Record env := E { e_tp : string -> string -> option Q; e_round : Q -> Q }.
(** [probs.get(room.room_type, 0.1)] *)
Definition prob (e : env) (prev : room) (c : rclass) : Q :=
  match e_tp e (rc_type (r_cls prev)) (rc_type c) with Some p => p | None => (1 # 10)%Q end.
(** Python's min: the first smallest element. *)
Fixpoint qmin (m : Q) (l : list Q) : Q :=
  match l with
  | [] => m
  | x :: l' => qmin (if Qle_bool m x then m else x) l'
  end.
(** OrderedDict keys: first occurrences, classes compared by identity. *)
Fixpoint dedupe (seen : list Z) (l : list rclass) : list rclass :=
  match l with
  | [] => []
  | c :: l' => if existsb (Z.eqb (rc_id c)) seen then dedupe seen l'
               else c :: dedupe (rc_id c :: seen) l'
  end.

(** upm.py:258-281 — random_room_stream.  min of an empty list is a ValueError,
    a zero minimum a ZeroDivisionError. *)
Definition frequency (e : env) (p m : Q) : Z := Z.quot (Qnum (e_round e (p / m))) (Zpos (Qden (e_round e (p / m)))).
Definition room_stream (e : env) (prev : room) (opts : list rclass) (g : rng)
  : res (list rclass) * rng :=
  match map (prob e prev) opts with
  | [] => (Err ValueError, g)
  | p0 :: ps =>
      let m := qmin p0 ps in
      if Qeq_bool m 0 then (Err ZeroDivisionError, g)
      else
        let choices := flat_map (fun c => repeat c (Z.to_nat (frequency e (prob e prev c) m))) opts in
        let (s, g1) := sample choices g in
        (Ok (dedupe [] s), g1)
  end.

(** upm.py:244-256 — random_room. *)
Definition random_room (e : env) (prev : room) (opts : list rclass) (g : rng)
  : option rclass * rng :=
  weighted_choice (map (fun c => (c, prob e prev c)) opts) g.

Fixpoint toggle (l : list bool) (i : nat) : list bool :=
  match l with
  | [] => []
  | b :: l' => match i with O => negb b :: l' | S j => b :: toggle l' j end
  end.
Fixpoint draw_bits (n : nat) (g : rng) : list bool * rng :=
  match n with
  | O => ([], g)
  | S n' => let (d, g1) := draw g in
            let (r, g2) := draw_bits n' g1 in (Z.odd d :: r, g2)
  end.
(** prefabs/__init__.py:95-116 — randOpts.  [random.uniform(0,1) > 0.5] is a drawn
    bit; [randint(0, -1)] raises ValueError. *)
Definition rand_opts (c : rclass) (prev : room) (g : rng) : res (option (list bool)) * rng :=
  match rc_flags c with
  | None => (Ok None, g)
  | Some fl =>
      if rc_id c =? rc_id (r_cls prev) then
        match r_flags prev with
        | [] => (Err ValueError, g)
        | _ => let (d, g1) := draw g in
               (Ok (Some (toggle (r_flags prev)
                            (Z.to_nat (d mod Z.of_nat (List.length (r_flags prev)))))), g1)
        end
      else let (bs, g1) := draw_bits (List.length fl) g in (Ok (Some bs), g1)
  end.

(** The arbitrary position used while looking for a door, upm.py:299. *)
Definition P0 : cell := (2, 2, 3).

(** upm.py:304, 335 — the doors facing the previous room. *)
Definition matching (r : room) (o : cell) : list door :=
  filter (fun d => cell_eqb (snd d) (crot T2 o)) (doorways r).

(** upm.py:310-321 — the innermost loop of room_localization, stopped at the first
    room it yields (its only consumer, upm.py:379-391, breaks after one).
    [kwargs] carried over between iterations is overwritten in every iteration, or
    in none. *)
Fixpoint try_doors (st : upm) (c : rclass) (t : turn) (d : cell) (prev : room) (o : cell)
    (ds : list door) (g : rng) : res (option room) * rng :=
  match ds with
  | [] => (Ok None, g)
  | ch :: ds' =>
      let off := cadd (csub (fst ch) d) o in
      match rand_opts c prev g with
      | (Err e, g1) => (Err e, g1)
      | (Ok fl, g1) =>
          let r := mk_room c (csub P0 off) t fl in
          match preregister_room st r with
          | Err e => (Err e, g1)
          | Ok true => (Ok (Some r), g1)
          | Ok false => try_doors st c t d prev o ds' g1
          end
      end
  end.
(** upm.py:296-308 — the loop over orientations. *)
Fixpoint try_turns (st : upm) (c : rclass) (ts : list turn) (d : cell) (prev : room) (o : cell)
    (g : rng) : res (option room) * rng :=
  match ts with
  | [] => (Ok None, g)
  | t :: ts' =>
      match try_doors st c t d prev o (matching (mk_room c P0 t None) o) g with
      | (Ok None, g1) => try_turns st c ts' d prev o g1
      | x => x
      end
  end.
(** upm.py:292-296 — the loop over classes, with a fresh order of orientations for
    each class. *)
Fixpoint try_classes (st : upm) (cs : list rclass) (d : cell) (prev : room) (o : cell)
    (g : rng) : res (option room) * rng :=
  match cs with
  | [] => (Ok None, g)
  | c :: cs' =>
      let (ts, g1) := sample CARD g in
      match try_turns st c ts d prev o g1 with
      | (Ok None, g2) => try_classes st cs' d prev o g2
      | x => x
      end
  end.
(** upm.py:283-321 — room_localization up to its first yield. *)
Definition localize (e : env) (st : upm) (opts : list rclass) (d : cell) (prev : room) (o : cell)
    (g : rng) : res (option room) * rng :=
  match room_stream e prev opts g with
  | (Err x, g1) => (Err x, g1)
  | (Ok cs, g1) => try_classes st cs d prev o g1
  end.

(** upm.py:395-398 — tuple comparison: cell, room identity, orientation. *)
Definition open_eqb (a b : open_door) : bool :=
  let '(c, ob, o) := a in let '(c', ob', o') := b in
  cell_eqb c c' && Nat.eqb (fst ob) (fst ob') && cell_eqb o o'.

(** upm.py:363-399 — place_rooms, with fuel for the [while True].  The result also
    carries the final room_count. *)
Fixpoint place_loop (fuel : nat) (e : env) (st : upm) (opts : list rclass) (rooms count : Z)
    (g : rng) : upm * res Z * rng :=
  match fuel with
  | O => (st, Err OutOfFuel, g)
  | S fuel' =>
      if rooms <=? count then (st, Ok count, g)
      else match u_open st with
      | [] => (st, Ok count, g)
      | _ =>
          match nonrandom_position flavour_vertical st g with
          | (Err x, g1) => (st, Err x, g1)
          | (Ok (d, prev, o), g1) =>
              match localize e st opts d (snd prev) o g1 with
              | (Err x, g2) => (st, Err x, g2)
              | (Ok (Some r), g2) =>
                  match register_room st r with
                  | (st1, Some x) => (st1, Err x, g2)
                  | (st1, None) =>
                      match u_mirror st with
                      | None => (st1, Err TypeError, g2)
                      | Some m =>
                          match register_link st1 (snd prev) r with
                          | (st2, Some x) => (st2, Err x, g2)
                          | (st2, None) => place_loop fuel' e st2 opts rooms (count + m) g2
                          end
                      end
                  end
              | (Ok None, g2) =>
                  let st1 := U (u_noclip st) (u_mirror st) (u_occ st)
                               (filter (fun x => negb (open_eqb x (d, prev, o))) (u_open st))
                               (u_rooms st) (u_links st) (u_next st)
                               (u_gone st ++ [(d, prev, o)]) in
                  place_loop fuel' e st1 opts rooms count g2
              end
          end
      end
  end.
Definition place_rooms (fuel : nat) (e : env) (st : upm) (opts : list rclass) (rooms : Z) (g : rng)
  : upm * res Z * rng := place_loop fuel e st opts rooms 0 g.

(** upm.py:330-349 — _room_cap_real for one class: the orientations in their fixed
    order, the first matching door only. *)
Fixpoint cap_turns (st : upm) (c : rclass) (ts : list turn) (d o : cell) : option room :=
  match ts with
  | [] => None
  | t :: ts' =>
      match matching (mk_room c P0 t None) o with
      | [] => cap_turns st c ts' d o
      | ch :: _ =>
          let off := cadd (csub (fst ch) d) o in
          let r := mk_room c (csub P0 off) t None in
          if forallb is_legal (positions r) then
            if forallb (fun p => negb (occupied (u_occ st) p)) (positions r) then Some r
            else cap_turns st c ts' d o
          else cap_turns st c ts' d o
      end
  end.
Fixpoint cap_classes (st : upm) (cs : list rclass) (d o : cell) : option room :=
  match cs with
  | [] => None
  | c :: cs' => match cap_turns st c CARD d o with
                | Some r => Some r
                | None => cap_classes st cs' d o
                end
  end.
(** upm.py:326-349 — _room_cap_real. *)
Definition cap_real (st : upm) (d o : cell) (caps : list rclass) (g : rng) : option room * rng :=
  let (cs, g1) := sample caps g in (cap_classes st cs d o, g1).

(** prefabs/__init__.py:175-184 — TestRoom: the layout of the base class Room
    (lines 60-69, 86-87). *)
Definition base_doors (fl : list bool) : list door :=
  [((0,1,0), (0,1,0)); ((0,-1,0), (0,-1,0)); ((1,0,0), (1,0,0)); ((-1,0,0), (-1,0,0))].
Definition TestRoom : rclass :=
  RC 1 "oriented" None true false (fun _ => [(0,0,0)]) base_doors.

(** upm.py:351-361 — endcap.  The loop runs over the list object that was current
    when it started: _register_room rebinds [self.unoccupied] to a new list. *)
Fixpoint endcap_loop (debug : bool) (caps : list rclass) (todo : list open_door) (st : upm)
    (g : rng) : upm * option exn * rng :=
  match todo with
  | [] => (st, None, g)
  | (d, _, o) :: todo' =>
      let (cap, g1) := if debug then (Some (mk_room TestRoom d T0 None), g)
                       else cap_real st d o caps g in
      match cap with
      | None => endcap_loop debug caps todo' st g1
      | Some r =>
          match register1 st r with
          | (st1, Some x) => (st1, Some x, g1)
          | (st1, None) => endcap_loop debug caps todo' st1 g1
          end
      end
  end.
Definition endcap (debug : bool) (caps : list rclass) (st : upm) (g : rng)
  : upm * option exn * rng := endcap_loop debug caps (u_open st) st g.
