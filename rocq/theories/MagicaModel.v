(** Model of redeclipse/prefabs/magica.py.

    Simplifications.  The parsed voxel file is given as the list of its voxels (x, y, z, colour
    index) and its palette; a texture is a function of the palette entry
    ([TEXMAN.get_colour] returns the same number for the same colour, C46).  [render_extra]
    only adds entities.  [initialize_textures] does nothing in this class. *)
From Coq Require Import QArith.
From Verif Require Import Py VecModel VoxelModel UpmModel KitModel UpmBridge.
Local Open Scope Z_scope.

Record voxmodel := VM { vm_voxels : list (Z * Z * Z * Z); vm_palette : list (Z * Z * Z) }.

(** magica.py:32-36 — the voxel world of the model (VoxelWorld() has size 128). *)
Definition load_world (m : voxmodel) : world Z :=
  fold_left (fun w v => let '(x, y, z, c) := v in set_point w (I x) (I y) (I z) c) (vm_voxels m) (new_world (2 ^ 7)).

(** FineVector of the three coordinates, for a key of the world. *)
Definition key_vec (k : key) : vec := let '(x, y, z) := k in V Fine x y z.

(** magica.py:50-61 — the unique coarse positions; [west] and [south] are the entries of
    boundary_additions (0 when missing). *)
Definition magica_positions (west south : Z) (w : world Z) : res (list vec) :=
  foldM (fun acc e =>
           let! s := vadd (key_vec (fst e)) (V Fine (I west) (I south) (I 0)) in
           let! t := vcoarse s in
           Ok (if existsb (fun p => veq t p) acc then acc else acc ++ [t])) (w_map w) [].

(** magica.py:20-21 — self._off. *)
Definition magica_off (west south : Z) (orient : vec) : res vec :=
  vrotate (V Fine (I west) (I south) (I 0)) (DVec orient).

(** magica.py:38-39, 90-98 — render_individual_voxel: [_colours] has the palette indices as
    keys; the drawing call. *)
Definition voxel_cmd (m : voxmodel) (off : vec) (tx : Z * Z * Z -> Z) (e : key * Z) : res cmd :=
  match (if snd e <? 0 then None else nth_error (vm_palette m) (Z.to_nat (snd e))) with
  | None => Err KeyError
  | Some col =>
      let! a := vadd SELF (key_vec (fst e)) in
      let! o := vadd a off in
      Ok (C (KCube o) (tx col) false (11 # 10))
  end.

(** magica.py:100-113 — render.  (The voxels drawn before an exception are not modelled.) *)
Definition magica_render (m : voxmodel) (west south : Z) (pos orient : vec) (tx : Z * Z * Z -> Z)
    (w : world (list Z)) (g : rng) : res (world (list Z)) * rng :=
  match (let! off := magica_off west south orient in mapM (voxel_cmd m off tx) (w_map (load_world m))) with
  | Err e => (Err e, g)
  | Ok cs => x_calls pos orient cs w g
  end.

(** magica.py:72-75 with prefabs/__init__.py:89-93 — get_positions. *)
Definition magica_get_positions (m : voxmodel) (west south : Z) (pos orient : vec) : res (list vec) :=
  let! l := magica_positions west south (load_world m) in get_positions_v pos orient l.
