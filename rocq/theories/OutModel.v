(** Model of what happens to a map between reading and writing: entity
    constructors (redeclipse/entities/), edits, and the output step of the command
    line tools (redeclipse/cli/__init__.py). *)
From Verif Require Import Py VecModel VoxelModel CodecModel.

(** ** Entity constructors *)

(** The entity at vector [p] (already in map units) without links and with
    reserved [0, 0, 0], the defaults used by every constructor. *)
Definition ent_at (p : vec) (ty : Z) (attrs : list attr) : entity :=
  Ent (pf_of_num (vx p)) (pf_of_num (vy p)) (pf_of_num (vz p)) ty attrs [] [0; 0; 0].

(** entities/__init__.py:127-141 — Light. *)
Definition mk_light (xyz : vec) (radius red green blue flare flarescale : attr) : res entity :=
  let! p := vfine xyz in Ok (ent_at (vmul p 4) 1 [radius; red; green; blue; flare; flarescale]).
(** entities/__init__.py:143-157 — Pusher. *)
Definition mk_pusher (xyz : vec) (yaw pitch force maxrad minrad type : attr) : res entity :=
  let! p := vfine xyz in Ok (ent_at (vmul p 4) 13 [yaw; pitch; force; maxrad; minrad; type]).
(** entities/__init__.py:159-173 — TeamFlag. *)
Definition mk_teamflag (xyz : vec) (team yaw pitch modes muts id : attr) : res entity :=
  let! p := vfine xyz in Ok (ent_at (vmul p 4) 14 [team; yaw; pitch; modes; muts; id]).
(** entities/__init__.py:97-110 — PlayerSpawn: multiplies without calling fine(). *)
Definition mk_playerspawn (xyz : vec) (team yaw pitch modes muts id : attr) : res entity :=
  Ok (ent_at (vmul xyz 4) 3 [team; yaw; pitch; modes; muts; id]).
(** entities/__init__.py:112-125 — Sunlight: the position is stored as given. *)
Definition mk_sunlight (xyz : vec) (yaw pitch red green blue offset flare flarescale : attr)
  : res entity :=
  Ok (ent_at xyz 8 [yaw; pitch; red; green; blue; offset; flare; flarescale]).
(** entities/weapon.py:6-20 — Weapon; 23-56 — Grenade (type 9) and Shotgun (type 3). *)
Definition mk_weapon (xyz : vec) (type flags modes muts id : attr) : res entity :=
  Ok (ent_at (vmul xyz 4) 9 [type; flags; modes; muts; id]).
(** entities/model.py:6-20 — MapModel. *)
Definition mk_mapmodel (xyz : vec) (a : list attr) : res entity :=
  if Nat.eqb (List.length a) 13 then Ok (ent_at (vmul xyz 4) 2 a) else Err TypeError.

(** ** Edits of a map between reading and writing *)
Inductive edit :=
| AddEnt (e : entity)                        (* m.ents.append(e) *)
| SetVar (k : list Z) (v : vval)             (* m.map_vars[k] = v *)
| DelVar (k : list Z)                        (* del m.map_vars[k] (if present) *)
| Skybox (path : list Z)                     (* m.skybox(sb), redeclipse/__init__.py:326-331 *)
| SetWorld (w : list cube).                  (* m.world = w *)

Definition apply_edit (m : rmap) (d : edit) : rmap :=
  let mk meta vars ents world :=
    Map (m_magic m) (m_version m) (m_headersize m) meta vars (m_texmru m) ents
        (m_vslots m) (m_chg m) world in
  match d with
  | AddEnt e => mk (m_meta m) (m_vars m) (m_ents m ++ [e]) (m_world m)
  | SetVar k v => mk (m_meta m) (dset bytes_eqb (m_vars m) k v) (m_ents m) (m_world m)
  | DelVar k => mk (m_meta m) (ddel bytes_eqb (m_vars m) k) (m_ents m) (m_world m)
  | Skybox p => mk (dset String.eqb (m_meta m) "skybox"%string (MStr p)) (m_vars m) (m_ents m)
                   (m_world m)
  | SetWorld w => mk (m_meta m) (m_vars m) (m_ents m) w
  end.
Definition edited (m : rmap) (l : list edit) : rmap := fold_left apply_edit l m.

(** ** Output *)

(** Cubes of an octree over texture lists: voxel/__init__.py:139-148,
    objects.py:242-274. *)
Fixpoint tree_cube (t : tree (list Z)) : cube :=
  match t with
  | TEmpty => newcube F_EMPTY
  | TVox tex => newtexcube tex
  | TNode l => nodecube (map tree_cube l)
  end.

Definition with_octsav (c : cube) (o : Z) : cube :=
  Cube (c_children c) (c_ext c) (c_edges c) (c_faces c) (c_texture c) (c_material c) (c_merged c)
       (c_surfmask c) (c_totalverts c) o.

(** cli/__init__.py:34-36 — [mymap.world = v.to_octree(); mymap.world[0].octsav = 0;
    mymap.write(...)].  Without a list the subscript raises TypeError. *)
Definition output_map (fuel : nat) (v : world (list Z)) (m : rmap) : res (list Z) :=
  let! o := to_octree fuel v in
  match o with
  | OList l =>
      match map tree_cube l with
      | [] => Err IndexError
      | c :: r => write_map (apply_edit m (SetWorld (with_octsav c 0 :: r)))
      end
  | _ => Err TypeError
  end.
