(** Model of the terrain programs (redeclipse/cli/perlin.py, redeclipse/cli/snow_forest.py) and of
    redeclipse/cli/from_json.py with the files they leave behind.

    Simplifications: those of DiscModel.v; the JSON file is given by what its reader returns. *)
From Verif Require Import Py VecModel VoxelModel CodecModel OutModel UpmModel TerrainModel JsonModel DiscModel.
Local Open Scope Z_scope.

(** perlin.py:24, 75-77; snow_forest.py:82, 142-144 — the map is read, gets a new world and is written. *)
Definition rebuild (fuel : nat) (v : world (list Z)) (d : disc) (i o : string) : disc * option exn :=
  match parse d i with
  | Err x => (d, Some x)
  | Ok m => match with_world fuel v m with Err x => (d, Some x) | Ok m1 => save d o m1 end
  end.
(** perlin.py:18-77 — main. *)
Definition perlin_py (fuel : nat) (noise : noise_fun) (g : rng) (d : disc) (i o : string) : disc * option exn :=
  rebuild fuel (perlin_world noise g) d i o.
(** snow_forest.py:76-144 — main. *)
Definition snow_py (fuel : nat) (noise : noise_fun) (d : disc) (i o : string) : disc * option exn :=
  match parse d i with
  | Err x => (d, Some x)
  | Ok _ => match snow_entities noise with Err x => (d, Some x) | Ok _ => rebuild fuel (snow_world noise) d i o end
  end.
(** cli/from_json.py:6-15 — main. *)
Definition from_json_py (j : list (string * pv)) (d : disc) (o : string) : disc * option exn :=
  match from_dict j with Err x => (d, Some x) | Ok m => save d o m end.
