(** Model of the two terrain programs, redeclipse/cli/perlin.py and redeclipse/cli/snow_forest.py.

    Simplifications.  The noise library is an arbitrary function [noise octaves base x y]; random
    numbers are an arbitrary stream.  Floating point arithmetic and decimal literals are exact
    rationals.  The messages and progress bars are left out. *)
From Coq Require Import QArith Qabs.
From Verif Require Import Py VecModel VoxelModel CodecModel OutModel UpmModel.
Local Open Scope string_scope.
Local Open Scope list_scope.
Local Open Scope Z_scope.

(** [noise.pnoise2(x, y, octaves=octaves, base=base)]. *)
Definition noise_fun : Type := Z -> Z -> Q -> Q -> Q.
Definition Qltb (a b : Q) : bool := negb (Qle_bool b a).
(** [random.random()]: a multiple of 2^-53 below 1. *)
Definition random01 (g : rng) : Q * rng := let (z, g') := draw g in (Qmake (z mod 2 ^ 53) (2 ^ 53), g').
(** [for i in range(n): for j in range(n)]. *)
Definition grid (n : Z) : list (Z * Z) := flat_map (fun i => map (fun j => (i, j)) (zrange 0 n)) (zrange 0 n).
Definition peqb (a b : Z * Z) : bool := (fst a =? fst b) && (snd a =? snd b).

(** ** perlin.py *)
(** perlin.py:11-15. *)
Definition PERLIN_IJ : Z := 128.
Definition PERLIN_K : Z := 50.
Definition scaled (a : Z) : Q := Qmake a 32.
(** perlin.py:27-35 — treeDensityMap. *)
Definition tree_density (noise : noise_fun) (g : rng) : list ((Z * Z) * bool) * rng :=
  fold_left (fun (s : list ((Z * Z) * bool) * rng) (c : Z * Z) =>
    let '(d, g) := s in let '(i, j) := c in
    let w := noise 2 128 (scaled j) (scaled i) in
    if Qltb w (Qmake (-1) 10) then
      let (u, g') := random01 g in
      if Qltb u (Qabs w / inject_Z 4) then (dset peqb d (i, j) true, g') else (d, g')
    else (d, g)) (grid PERLIN_IJ) ([], g).
(** perlin.py:37-47 — bldgDensityMap: sixteen columns at a time. *)
Definition bldg_density (noise : noise_fun) (g : rng) : list ((Z * Z) * bool) * rng :=
  fold_left (fun (s : list ((Z * Z) * bool) * rng) (c : Z * Z) =>
    let '(d, g) := s in let '(i, j) := c in
    let w := noise 2 64 (scaled j) (scaled i) in
    if Qltb w (Qmake (-1) 10) then
      let (u, g') := random01 g in
      if Qltb u (Qabs w / inject_Z 3) then
        (fold_left (fun d i2 => fold_left (fun d j2 => dset peqb d (i2, j2) true) (zrange (4 * j) (4 * (j + 1))) d) (zrange (4 * i) (4 * (i + 1))) d, g')
      else (d, g')
    else (d, g)) (grid (PERLIN_IJ / 4)) ([], g).
(** perlin.py:49-66 — point. *)
Definition point (noise : noise_fun) (trees bldgs : list ((Z * Z) * bool)) (i j k : Z) : option (list Z) :=
  let q := (noise 1%Z 0%Z (scaled i) (scaled j) * inject_Z 5 + inject_Z 30)%Q in
  if dmem peqb trees (i, j) then Some [58; 58; 58; 58; 59; 59]
  else if dmem peqb bldgs (i, j) && Qltb (inject_Z k) (q + inject_Z 4) && Qle_bool q (inject_Z k) then Some [57; 57; 57; 57; 57; 57]
  else if Qltb (inject_Z k) q then Some [23; 23; 23; 23; 22; 61]
  else None.
(** perlin.py:68-73 — the world. *)
Definition perlin_world (noise : noise_fun) (g : rng) : world (list Z) :=
  let (trees, g1) := tree_density noise g in
  let (bldgs, _) := bldg_density noise g1 in
  fold_left (fun v (c : Z * Z) => fold_left (fun v k =>
    match point noise trees bldgs (fst c) (snd c) k with
    | Some t => set_point v (I (fst c)) (I (snd c)) (I k) t
    | None => v end) (zrange 0 PERLIN_K) v) (grid PERLIN_IJ) (new_world 128).
(** perlin.py:18-77 — main on the map read from the input. *)
Definition perlin (fuel : nat) (noise : noise_fun) (m : rmap) (g : rng) : res (list Z) :=
  output_map fuel (perlin_world noise g) m.

(** ** snow_forest.py *)
(** snow_forest.py:12-14. *)
Definition SNOW_IJ : Z := 256.
(** snow_forest.py:21-44 — _light_distribution; the decimal arguments are in thousandths. *)
Definition light_distribution (noise : noise_fun) (i j wan ldist seed : Z) : bool :=
  let wide := noise 2 seed (Qmake (2 * 29 * i) 320) (Qmake (2 * 11 * j) 320) in
  let local := noise 2 seed (Qmake (2 * 269 * i) 320) (Qmake (2 * 231 * j) 320) in
  negb (Qltb wide (Qmake wan 1000)) && (Qltb (Qmake 2 10) local && Qltb local (Qmake ldist 1000)).
(** snow_forest.py:47-49. *)
Definition point_spawn (noise : noise_fun) (i j : Z) : bool := light_distribution noise (i + 1) (j + 1) 200 215 0.
(** snow_forest.py:52-53. *)
Definition point_tree (noise : noise_fun) (i j : Z) : bool := light_distribution noise i j 200 215 0.
(** snow_forest.py:56-57. *)
Definition point_rock (noise : noise_fun) (i j : Z) : bool := light_distribution noise i j 275 210 100.
(** snow_forest.py:60-68. *)
Definition point_height (noise : noise_fun) (i j : Z) : Q :=
  (noise 2%Z 0%Z (Qmake (3 * i) 320) (Qmake (7 * j) 320) * inject_Z 15 + inject_Z 60)%Q.
(** snow_forest.py:71-73. *)
Definition point_snow (noise : noise_fun) (i j : Z) : bool := Qltb (noise 2 100 (Qmake (9 * j) 320) (Qmake (7 * i) 320)) 0.
(** [int(q)]: truncation towards zero. *)
Definition int_of (q : Q) : Z := Z.quot (Qnum q) (Zpos (Qden q)).
(** snow_forest.py:85-104 — the ground and the border walls. *)
Definition snow_world (noise : noise_fun) : world (list Z) :=
  fold_left (fun v (c : Z * Z) => let '(i, j) := c in
    let height := int_of (point_height noise i j) in
    let tex := repeat (if point_snow noise i j then 13 else 11) 6 in
    fold_left (fun v k =>
      let v1 := set_point v (I i) (I j) (I k) tex in
      if (i =? 0) || (j =? 0) || (i =? SNOW_IJ - 1) || (j =? SNOW_IJ - 1)
      then fold_left (fun v q => set_point v (I i) (I j) (I (k + q)) tex) (zrange 0 10) v1
      else v1) (zrange (height - 2) height) v) (grid SNOW_IJ) (new_world 256).
(** A call with keyword arguments only: TypeError for a keyword the function does not have and for
    a missing parameter without default. *)
Definition keywords (required optional given : list string) : res unit :=
  if forallb (fun k => existsb (String.eqb k) (required ++ optional)) given && forallb (fun k => existsb (String.eqb k) given) required
  then Ok tt else Err TypeError.
(** entities/model.py:8-10 — the parameters of MapModel. *)
Definition new_mapmodel (given : list string) : res unit :=
  keywords ["xyz"] ["type"; "yaw"; "pitch"; "roll"; "blend"; "scale"; "flags"; "colour"; "palette"; "palindex"; "spinyaw"; "spinpitch"; "spinroll"; "links"; "reserved"] given.
(** entities/__init__.py:102 — the parameters of PlayerSpawn. *)
Definition new_playerspawn (given : list string) : res unit :=
  keywords [] ["xyz"; "team"; "yaw"; "pitch"; "modes"; "muts"; "id"; "links"; "reserved"] given.
(** snow_forest.py:106-141 — the entities.  What a call would return is not modelled, as none
    succeeds (PropsTerrain.v). *)
Definition snow_entities (noise : noise_fun) : res unit :=
  foldM (fun _ (c : Z * Z) => let '(i, j) := c in
    let! _ := if point_tree noise i j then new_mapmodel ["x"; "y"; "z"; "type"; "yaw"; "scale"] else Ok tt in
    let! _ := if point_spawn noise i j then new_playerspawn ["x"; "y"; "z"; "team"; "yaw"] else Ok tt in
    if point_rock noise i j then new_mapmodel ["x"; "y"; "z"; "type"; "yaw"; "roll"; "pitch"; "scale"] else Ok tt) (grid SNOW_IJ) tt.
(** snow_forest.py:76-144 — main on the map read from the input. *)
Definition snow_forest (fuel : nat) (noise : noise_fun) (m : rmap) : res (list Z) :=
  let v := snow_world noise in
  let! _ := snow_entities noise in
  output_map fuel v m.
