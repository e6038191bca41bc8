(** Vocabulary for the properties of the position manager. *)
From Coq Require Import QArith.
From Verif Require Import Py UpmModel.
Local Open Scope Z_scope.

(** Calls on a manager. *)
Inductive uop :=
| ORegister (r : room)
| OLink (a b : room)
| OPlace (fuel : nat) (e : env) (opts : list rclass) (rooms : Z) (g : rng)
| OEndcap (debug : bool) (caps : list rclass) (g : rng).

(** Executing one call with the model's methods: state afterwards, exception. *)
Definition ustep (st : upm) (op : uop) : upm * option exn :=
  match op with
  | ORegister r => register_room st r
  | OLink a b => register_link st a b
  | OPlace fuel e opts n g =>
      match place_rooms fuel e st opts n g with
      | (st', Ok _, _) => (st', None)
      | (st', Err x, _) => (st', Some x)
      end
  | OEndcap debug caps g => match endcap debug caps st g with (st', x, _) => (st', x) end
  end.

(** A history in which no call raises. *)
Fixpoint urun (ops : list uop) (st : upm) : option upm :=
  match ops with
  | [] => Some st
  | op :: ops' => match ustep st op with
                  | (st', None) => urun ops' st'
                  | (_, Some _) => None
                  end
  end.
(** A history in which the caller catches every exception and goes on. *)
Definition urun_any (ops : list uop) (st : upm) : upm :=
  fold_left (fun s op => fst (ustep s op)) ops st.

Definition is_endcap (op : uop) : bool := match op with OEndcap _ _ _ => true | _ => false end.
Definition is_link (op : uop) : bool := match op with OLink _ _ => true | _ => false end.

(** Rooms of different entries of a list share no cell. *)
Definition disjoint_rooms (l : list obj) : Prop :=
  forall i j a b c, nth_error l i = Some a -> nth_error l j = Some b -> i <> j ->
    In c (positions (snd a)) -> ~ In c (positions (snd b)).

(** Some cell is in both lists. *)
Definition share_cell (l l' : list cell) : Prop := exists c, In c l /\ In c l'.

(** The legal box. *)
Definition legal_cell (c : cell) : Prop :=
  let '(x, y, z) := c in 0 <= x <= 32 /\ 0 <= y <= 32 /\ 0 <= z <= 32.

(** k quarter turns of the point (x, y) about (16, 16), and the angles used for a
    mirror factor. *)
Definition quarter_turn (c : cell) : cell := let '(x, y, z) := c in (32 - y, x, z).
Definition half_turn (c : cell) : cell := let '(x, y, z) := c in (32 - x, 32 - y, z).

(** Door directions: the direction seen from the other side (for a horizontal
    direction, its negation). *)
Definition opposite (o : cell) : cell := let '(x, y, z) := o in (- x, - y, z).
Definition horizontal (o : cell) : Prop := snd o = 0.

(** The class lays out its rooms independently of the random flags. *)
Definition flag_free (c : rclass) : Prop :=
  forall fl fl', rc_cells c fl = rc_cells c fl' /\ rc_doors c fl = rc_doors c fl'.

(** Every door of the class leaves from a cell of the room. *)
Definition doors_on_cells (c : rclass) : Prop :=
  forall fl d, In d (rc_doors c fl) -> In (csub (fst d) (snd d)) (rc_cells c fl).

(** The room [r] is hooked up at the open door leading to [d] in direction [o]: it has
    a door to the cell the open door leaves from, in the opposite direction. *)
Definition attached (r : room) (d o : cell) : Prop :=
  In (csub d o, opposite o) (doorways r).

(** What place_rooms does, as a sequence of placements and discards. *)
Inductive trace (opts : list rclass) : upm -> list room -> upm -> Prop :=
| TNil st : trace opts st [] st
| TPlace st st1 st2 st' d prev o c pos t fl rs :
    In (d, prev, o) (u_open st) ->
    In c opts ->
    attached (mk_room c pos t None) d o ->
    preregister_room st (mk_room c pos t fl) = Ok true ->
    register_room st (mk_room c pos t fl) = (st1, None) ->
    register_link st1 (snd prev) (mk_room c pos t fl) = (st2, None) ->
    trace opts st2 rs st' ->
    trace opts st (mk_room c pos t fl :: rs) st'
| TDiscard st st1 st' d prev o rs :
    In (d, prev, o) (u_open st) ->
    (forall c pos t, In c opts -> attached (mk_room c pos t None) d o ->
       exists fl, preregister_room st (mk_room c pos t fl) = Ok false) ->
    u_open st1 = filter (fun x => negb (open_eqb x (d, prev, o))) (u_open st) ->
    u_occ st1 = u_occ st -> u_rooms st1 = u_rooms st -> u_links st1 = u_links st ->
    u_mirror st1 = u_mirror st -> u_noclip st1 = u_noclip st -> u_next st1 = u_next st ->
    u_gone st1 = u_gone st ++ [(d, prev, o)] ->
    trace opts st1 rs st' ->
    trace opts st rs st'.

(** Cells connected by links, in either direction. *)
Inductive linked (links : list (cell * cell)) : cell -> cell -> Prop :=
| LRefl c : linked links c c
| LStep a b c : In (a, b) links \/ In (b, a) links -> linked links b c -> linked links a c.

(** Rooms registered by an explicit call in a history. *)
Definition started (ops : list uop) (r : room) : Prop := In (ORegister r) ops.

(** Sum of the weights of the first n elements. *)
Definition wsum {A} (l : list (A * Q)) (n : nat) : Q :=
  fold_right (fun cw s => (snd cw + s)%Q) 0%Q (firstn n l).

(** Distribution environments the placement theorems assume: every looked-up
    probability is positive, and rounding a quotient that is at least one gives at
    least one (true of IEEE rounding, as 1 is a float). *)
Definition good_env (e : env) : Prop :=
  (forall a b p, e_tp e a b = Some p -> (0 < p)%Q) /\
  (forall q, (1 <= q)%Q -> (1 <= e_round e q)%Q).

(** Class identities identify: options with the same identity are the same class. *)
Definition coherent (opts : list rclass) : Prop :=
  forall c c', In c opts -> In c' opts -> rc_id c = rc_id c' -> c = c'.

(** The doors of the class do not depend on the random flags. *)
Definition doors_flag_free (c : rclass) : Prop :=
  forall fl fl', rc_doors c fl = rc_doors c fl'.
(** Doors lead to a neighbouring cell on the same level. *)
Definition doors_level (c : rclass) : Prop :=
  forall fl d, In d (rc_doors c fl) -> horizontal (snd d).

(** [a] is joined to [b]: [b] has a door leading to a cell [d] of [a] from a cell of
    [b] right next to it, and [a] has a door leading straight back. *)
Definition joined (a b : room) : Prop :=
  exists d o, In (d, o) (doorways b) /\ In (csub d o) (positions b) /\
    In d (positions a) /\ In (csub d o, opposite o) (doorways a).

(** Classes placed by a history. *)
Definition offered (ops : list uop) (c : rclass) : Prop :=
  exists fuel e opts n g, In (OPlace fuel e opts n g) ops /\ In c opts.

(** Every cell lies strictly between doors in both horizontal directions, and
    between the lowest and the highest door. *)
Definition enclosed (c : rclass) : Prop :=
  forall fl p, In p (rc_cells c fl) ->
    (exists d, In d (rc_doors c fl) /\ fst (fst (fst d)) < fst (fst p)) /\
    (exists d, In d (rc_doors c fl) /\ fst (fst p) < fst (fst (fst d))) /\
    (exists d, In d (rc_doors c fl) /\ snd (fst (fst d)) < snd (fst p)) /\
    (exists d, In d (rc_doors c fl) /\ snd (fst p) < snd (fst (fst d))) /\
    (exists d, In d (rc_doors c fl) /\ snd (fst d) <= snd p) /\
    (exists d, In d (rc_doors c fl) /\ snd p <= snd (fst d)).

(** A voxel lies in a cell (a tile of 8x8x8 voxels) / in a world of the given size. *)
Definition voxel_in_cell (v c : cell) : Prop :=
  let '(x, y, z) := v in let '(a, b, c) := c in
  8 * a <= x < 8 * a + 8 /\ 8 * b <= y < 8 * b + 8 /\ 8 * c <= z < 8 * c + 8.
Definition voxel_in_world (size : Z) (v : cell) : Prop :=
  let '(x, y, z) := v in 0 <= x < size /\ 0 <= y < size /\ 0 <= z < size.

(** The cell is recorded as occupied. *)
Definition taken (st : upm) (c : cell) : Prop := dget cell_eqb (u_occ st) c <> None.
(** A door of [a] and a door of [b] lead through the same wall from opposite sides. *)
Definition faces (a b : room) : Prop :=
  exists d o, In (d, o) (doorways b) /\ In (csub d o, opposite o) (doorways a).
