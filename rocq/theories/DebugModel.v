(** Model of the map generator redeclipse/cli/magica_rooms.py in either mode: with --debug the doors
    left open are closed with marker rooms (prefabs/__init__.py, class TestRoom), which are drawn and
    furnished by their own [render] method.

    Simplifications: those of GenModel.v and RoomEntModel.v. *)
From Coq Require Import QArith.
From Verif Require Import Py VecModel VoxelModel CodecModel OutModel UpmModel RoomClasses KitModel RoomModel
  MagicaModel TexModel LightModel ShippedModel GenModel RoomEntModel.
Local Open Scope Z_scope.

(** magica_rooms.py:81, 92-93, 105 — the layout before the doors are closed. *)
Definition lay_rooms (fuel : nat) (e : env) (mirror : option Z) (ctf : bool) (rooms : Z) (g : rng) : upm * option exn * rng :=
  match register_room (upm_init mirror false) (mk_room (s_class (first_room ctf)) STARTING_POSITION T0 None) with
  | (st, Some x) => (st, Some x, g)
  | (st, None) =>
      match place_rooms fuel e st (map s_class possible_rooms) rooms g with
      | (st1, Err x, g1) => (st1, Some x, g1)
      | (st1, Ok _, g1) => (st1, None, g1)
      end
  end.

(** prefabs/__init__.py:186-192 — TestRoom.render: the texture is looked up, the plate is drawn, the
    grenade is added. *)
Definition render_marker (hue : vec -> Z * Z * Z) (pos orient : vec) (fl : list bool)
    (tm : texman) (w : world (list Z)) (m : rmap) (g : rng) : texman * res (world (list Z) * rmap) * rng :=
  match auto_get_c tm "accent"%string with
  | (tm1, Err x) => (tm1, Err x, g)
  | (tm1, Ok k) =>
      match render render_TestRoom pos orient fl (fun _ => k) w g with
      | (Err x, g1) => (tm1, Err x, g1)
      | (Ok w1, g1) =>
          match run_fixtures (LIGHTMAN hue) pos orient (fixtures_TestRoom fl) m with
          | Err x => (tm1, Err x, g1)
          | Ok m1 => (tm1, Ok (w1, m1), g1)
          end
      end
  end.
(** Render of one room: of a shipped class, or a marker. *)
Definition render_any (hue : vec -> Z * Z * Z) (vecs : obj -> vec * vec) (ob : obj)
    (tm : texman) (w : world (list Z)) (m : rmap) (g : rng) : texman * res (world (list Z) * rmap) * rng :=
  match shipped_of (r_cls (snd ob)) with
  | Some _ => render_room hue vecs ob tm w m g
  | None => if rc_id (r_cls (snd ob)) =? rc_id TestRoom
            then let '(pos, orient) := vecs ob in render_marker hue pos orient (r_flags (snd ob)) tm w m g
            else (tm, Err OutOfModel, g)
  end.
(** magica_rooms.py:111-112. *)
Fixpoint render_all (hue : vec -> Z * Z * Z) (vecs : obj -> vec * vec) (obs : list obj)
    (tm : texman) (w : world (list Z)) (m : rmap) (g : rng) : texman * res (world (list Z) * rmap) * rng :=
  match obs with
  | [] => (tm, Ok (w, m), g)
  | ob :: r =>
      match render_any hue vecs ob tm w m g with
      | (tm1, Err x, g1) => (tm1, Err x, g1)
      | (tm1, Ok (w1, m1), g1) => render_all hue vecs r tm1 w1 m1 g1
      end
  end.

(** magica_rooms.py:25-119 — main, in either mode. *)
Definition generate_any (fuel : nat) (e : env) (hue : vec -> Z * Z * Z) (vecs : obj -> vec * vec) (tm : texman)
    (size : Z) (mirror : option Z) (debug ctf : bool) (rooms : Z) (m : rmap) (g : rng)
  : texman * res (world (list Z) * rmap * upm) * rng :=
  match lay_out fuel e mirror debug ctf rooms g with
  | (st, Some x, g1) => (tm, Err x, g1)
  | (st, None, g1) =>
      match add_entity m sunlight with
      | Err x => (tm, Err x, g1)
      | Ok m1 =>
          match render_all hue vecs (u_rooms st) tm (new_world size) m1 g1 with
          | (tm1, Err x, g2) => (tm1, Err x, g2)
          | (tm1, Ok (w, m2), g2) => (tm1, Ok (w, m2, st), g2)
          end
      end
  end.
