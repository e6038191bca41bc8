(** Model of the map generator redeclipse/cli/magica_rooms.py and of what
    redeclipse/cli/__init__.py writes.

    Simplifications.  The random numbers, the transition probabilities' rounding and the hue of the
    lights are arbitrary (UpmModel.v, LightModel.v).  The two vectors of a room object (its
    position and its orientation) are given by a function [vecs]: the properties hold for all
    vectors that stand for the cell and the direction.  A world flavour (worldflavors.py)
    only adds lines to the configuration file; both are in ConfModel.v.  The marker rooms of debug
    mode are not drawn here but in DebugModel.v. *)
From Coq Require Import QArith.
From Verif Require Import Py VecModel VoxelModel CodecModel OutModel UpmModel RoomClasses KitModel RoomModel
  MagicaModel TexModel LightModel ShippedModel.
Local Open Scope Z_scope.

(** magica_rooms.py:31-37 — the rooms in use (the others are commented out). *)
Definition possible_rooms : list shipped := [spawn_room; castle_gate; castle_gate_simple; castle_large].
(** magica_rooms.py:76. *)
Definition possible_endcaps : list shipped := [castle_wall_end_cliff; castle_wall_section_endcap].
(** magica_rooms.py:86-90. *)
Definition first_room (ctf : bool) : shipped := if ctf then station_flagroom else station_tubeX.
(** prefabs/__init__.py:36. *)
Definition STARTING_POSITION : cell := (8, 8, 3).

(** magica_rooms.py:81, 92-93, 105-107 — the layout: the manager, the first room, the placement, the
    endcaps.  (The sunlight, appended in between, is independent of it.) *)
Definition lay_out (fuel : nat) (e : env) (mirror : option Z) (debug ctf : bool) (rooms : Z) (g : rng)
  : upm * option exn * rng :=
  match register_room (upm_init mirror false) (mk_room (s_class (first_room ctf)) STARTING_POSITION T0 None) with
  | (st, Some x) => (st, Some x, g)
  | (st, None) =>
      match place_rooms fuel e st (map s_class possible_rooms) rooms g with
      | (st1, Err x, g1) => (st1, Some x, g1)
      | (st1, Ok _, g1) => endcap debug (map s_class possible_endcaps) st1 g1
      end
  end.

(** magica_rooms.py:97-103 with entities/__init__.py:112-125 — the sunlight. *)
Definition sunlight : res entity :=
  mk_sunlight (V Base (I 0) (I 0) (I 0)) (AInt 0) (AInt 0) (AInt 128) (AInt 128) (AInt 128) (AInt 45) (AInt 0) (AInt 0).

(** The shipped room a class object belongs to. *)
Definition shipped_of (c : rclass) : option shipped := find (fun s => rc_id (s_class s) =? rc_id c) shipped_rooms.
(** magica.py:100-116 — render of one room: drawing, then render_extra. *)
Definition render_room (hue : vec -> Z * Z * Z) (vecs : obj -> vec * vec) (ob : obj)
    (tm : texman) (w : world (list Z)) (m : rmap) (g : rng) : texman * res (world (list Z) * rmap) * rng :=
  match shipped_of (r_cls (snd ob)) with
  | None => (tm, Err OutOfModel, g)
  | Some s =>
      let '(pos, orient) := vecs ob in
      match draw_room s pos orient tm w g with
      | (tm1, Err x, g1) => (tm1, Err x, g1)
      | (tm1, Ok w1, g1) =>
          match run_extras (LIGHTMAN hue) pos orient (s_extra s) m g1 with
          | (Err x, g2) => (tm1, Err x, g2)
          | (Ok m1, g2) => (tm1, Ok (w1, m1), g2)
          end
      end
  end.
(** magica_rooms.py:111-112 — all rooms, in the order of registration. *)
Fixpoint render_rooms (hue : vec -> Z * Z * Z) (vecs : obj -> vec * vec) (obs : list obj)
    (tm : texman) (w : world (list Z)) (m : rmap) (g : rng) : texman * res (world (list Z) * rmap) * rng :=
  match obs with
  | [] => (tm, Ok (w, m), g)
  | ob :: r =>
      match render_room hue vecs ob tm w m g with
      | (tm1, Err x, g1) => (tm1, Err x, g1)
      | (tm1, Ok (w1, m1), g1) => render_rooms hue vecs r tm1 w1 m1 g1
      end
  end.

(** magica_rooms.py:25-119 — main, for the parsed map [m].  The result carries the texture manager. *)
Definition generate (fuel : nat) (e : env) (hue : vec -> Z * Z * Z) (vecs : obj -> vec * vec) (tm : texman)
    (size : Z) (mirror : option Z) (debug ctf : bool) (rooms : Z) (m : rmap) (g : rng)
  : texman * res (world (list Z) * rmap * upm) * rng :=
  match lay_out fuel e mirror debug ctf rooms g with
  | (st, Some x, g1) => (tm, Err x, g1)
  | (st, None, g1) =>
      match add_entity m sunlight with
      | Err x => (tm, Err x, g1)
      | Ok m1 =>
          match render_rooms hue vecs (u_rooms st) tm (new_world size) m1 g1 with
          | (tm1, Err x, g2) => (tm1, Err x, g2)
          | (tm1, Ok (w, m2), g2) => (tm1, Ok (w, m2, st), g2)
          end
      end
  end.
(** magica_rooms.py:135 — the command line option: without it the argument is None. *)
Definition mirror_option (given : option Z) : option Z := given.

(** ** The exported graph, cli/__init__.py:38-63 *)
(** A node: the one made for None, or a room object (by identity). *)
Definition graph_nodes (st : upm) : list (option nat) := None :: map (fun ob => Some (fst ob)) (u_rooms st).
(** The end of a link: the room that occupies the recorded position. *)
Definition link_end (st : upm) (c : cell) : option nat :=
  match dget cell_eqb (u_occ st) c with Some ob => Some (fst ob) | None => None end.
Definition graph_links (st : upm) : list (option nat * option nat) :=
  map (fun ab => (link_end st (fst ab), link_end st (snd ab))) (u_links st).
