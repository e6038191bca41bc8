(** Model of vectors read as sequences (redeclipse/vector/__init__.py), of the names of directions
    (redeclipse/vector/orientations.py) and of the extension of a cube (redeclipse/objects.py).

    Simplifications.  A key is an int.  The fields va, ents, surfaceinfo of an extension are None, None and [] in every
    extension the program makes; they are left out. *)
From Verif Require Import Py VecModel CodecModel.
Local Open Scope Z_scope.

(** vector/__init__.py:65-72 — __getitem__. *)
Definition vgetitem (v : vec) (key : Z) : res num :=
  if key =? 0 then Ok (vx v) else if key =? 1 then Ok (vy v) else if key =? 2 then Ok (vz v) else Err UserExn.
(** vector/__init__.py:74-75 — __len__. *)
Definition vlen (v : vec) : Z := 3.
(** vector/__init__.py:77-80 — __iter__. *)
Definition viter (v : vec) : list num := [vx v; vy v; vz v].

(** orientations.py:74-82 — n. *)
Definition direction_name (v : vec) : option string :=
  if veq v NORTH then Some "NORTH"%string else if veq v SOUTH then Some "SOUTH"%string
  else if veq v EAST then Some "EAST"%string else if veq v WEST then Some "WEST"%string else None.

(** objects.py:136-150 — cubext: the surfaces are a list, or the number 0. *)
Inductive surfaces := SList (l : list (option surf)) | SNumber (z : Z).
Record cubext := Ext { x_tjoints : Z; x_surfaces : surfaces; x_verts : Z; x_maxverts : Z }.
(** objects.py:138-150 — __init__; an extension is no dictionary, so its fields cannot be looked up. *)
Definition cubext_init (old : option cubext) (maxverts : Z) : res cubext :=
  match old with Some _ => Err TypeError | None => Ok (Ext (-1) (SList []) 0 maxverts) end.
(** objects.py:301-312 — newcubeext: the extension the cube then has, which is also the result. *)
Definition newcubeext (ext : option cubext) (maxverts : Z) (init : bool) : res cubext :=
  let grown :=
    let! new := cubext_init ext maxverts in
    if init then
      match ext with
      | Some o => Ok (Ext (x_tjoints new) (x_surfaces o) (x_verts o) (x_maxverts new))
      | None => Ok (Ext (x_tjoints new) (SNumber 0) (x_verts new) (x_maxverts new))
      end
    else Ok new in
  match ext with Some o => if maxverts <=? x_maxverts o then Ok o else grown | None => grown end.
(** objects.py:262-271 — the extension of a textured cube. *)
Definition textured_ext : cubext := Ext (-1) (SList (repeat (Some (Surf 2 0 0 32)) 6)) 0 0.
(** redeclipse/__init__.py:252-266 — one surface of an extension, written. *)
Definition write_surface (e : cubext) (mask : Z) (i : nat) : res (list Z) :=
  match x_surfaces e with
  | SList l => w_surf (Some l) mask i
  | SNumber _ => if Z.testbit mask (Z.of_nat i) then Err TypeError else Ok []
  end.
(** redeclipse/__init__.py:497-505 — one surface appended by the reader. *)
Definition append_surface (e : cubext) (s : option surf) : res cubext :=
  match x_surfaces e with
  | SList l => Ok (Ext (x_tjoints e) (SList (l ++ [s])) (x_verts e) (x_maxverts e))
  | SNumber _ => Err AttributeError
  end.
