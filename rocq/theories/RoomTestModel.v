(** Model of redeclipse/cli/magicavoxel_room_test.py, the tool that draws the rooms of a list of classes,
    each on a map of its own.

    Simplifications: those of DebugModel.v.  The configuration file and the copied textures
    (lines 89-90) are in ConfModel.v and CopyModel.v.  Names of files are not modelled: the result is the
    list of the contents. *)
From Coq Require Import QArith.
From Verif Require Import Py VecModel VoxelModel CodecModel OutModel UpmModel RoomClasses KitModel RoomModel
  MagicaModel TexModel LightModel VoxFileModel ShippedModel GenModel DebugModel.
Local Open Scope Z_scope.

(** magicavoxel_room_test.py:24-58 — the classes in use (the others are commented out). *)
Definition test_classes : list shipped := [house_2x2; house_2x2x3; stair; stair_toplatform; gate; statue; statue_cat].
(** Line 68. *)
Definition TEST_POSITION : cell := (8 + 3, 8, 1).

(** Line 67 with prefabs/__init__.py:95-116 — [Room.randOpts(None)]: None is of no room class. *)
Definition first_opts (c : rclass) (g : rng) : option (list bool) * rng :=
  match rc_flags c with
  | None => (None, g)
  | Some fl => let (bs, g1) := draw_bits (List.length fl) g in (Some bs, g1)
  end.

(** Lines 63, 67-70 — the manager, the room, the markers. *)
Definition test_layout (s : shipped) (g : rng) : upm * option exn * rng :=
  let (fl, g1) := first_opts (s_class s) g in
  match register_room (upm_init (Some 4) true) (mk_room (s_class s) TEST_POSITION T0 fl) with
  | (st, Some x) => (st, Some x, g1)
  | (st, None) => endcap true [] st g1
  end.
(** Lines 61-73 — one class, on the parsed map [m]. *)
Definition room_test (hue : vec -> Z * Z * Z) (vecs : obj -> vec * vec) (s : shipped) (tm : texman) (m : rmap) (g : rng)
  : texman * res (world (list Z) * rmap * upm) * rng :=
  match test_layout s g with
  | (st, Some x, g1) => (tm, Err x, g1)
  | (st, None, g1) =>
      match render_all hue vecs (u_rooms st) tm (new_world (2 ^ 8)) m g1 with
      | (tm1, Err x, g2) => (tm1, Err x, g2)
      | (tm1, Ok (w, m2), g2) => (tm1, Ok (w, m2, st), g2)
      end
  end.

(** Lines 75-94 — what is written for one class: the voxel file, the map. *)
Definition test_files (fuel : nat) (magica redeclipse : bool) (tm : texman) (w : world (list Z)) (m : rmap)
  : res (option (list Z) * option (list Z)) :=
  let! vox := (if magica then let! b := vox_write w (tm_atlas tm) in Ok (Some b) else Ok None) in
  let! mpz := (if redeclipse then let! m1 := add_entity m sunlight in let! b := output_map fuel w m1 in Ok (Some b) else Ok None) in
  Ok (vox, mpz).
(** Lines 60-94 — all classes; the texture manager is shared, the map is parsed anew. *)
Fixpoint room_tests (fuel : nat) (magica redeclipse : bool) (hue : vec -> Z * Z * Z) (vecs : obj -> vec * vec) (m : rmap)
    (l : list shipped) (tm : texman) (g : rng) : texman * res (list (option (list Z) * option (list Z))) * rng :=
  match l with
  | [] => (tm, Ok [], g)
  | s :: r =>
      match room_test hue vecs s tm m g with
      | (tm1, Err x, g1) => (tm1, Err x, g1)
      | (tm1, Ok (w, m1, _), g1) =>
          match test_files fuel magica redeclipse tm1 w m1 with
          | Err x => (tm1, Err x, g1)
          | Ok f =>
              match room_tests fuel magica redeclipse hue vecs m r tm1 g1 with
              | (tm2, Err x, g2) => (tm2, Err x, g2)
              | (tm2, Ok fs, g2) => (tm2, Ok (f :: fs), g2)
              end
          end
      end
  end.
