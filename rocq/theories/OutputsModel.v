(** Model of a run of the map generator that is asked for several outputs (redeclipse/cli/__init__.py:15-63,
    redeclipse/cli/magica_rooms.py:123-145).

    Simplifications.  The voxel file and the graph file are other files than the input, the map and its configuration.  Of a voxel
    file whose writer raised only that it is not complete is modelled. *)
From Verif Require Import Py VecModel VoxelModel CodecModel OutModel UpmModel TexModel LightModel VoxFileModel ShippedModel DistModel GenModel DebugModel ConfModel CopyModel DiscModel.
Local Open Scope Z_scope.

Definition graph : Type := list (option nat) * list (option nat * option nat).
(** The files, and the voxel and graph file: not asked for, asked for but not complete, or complete. *)
Record outputs := Outs { o_disc : disc; o_vox : option (option (list Z)); o_graph : option (option graph) }.
(** cli/__init__.py:15-18 — output_args: a file that is asked for is emptied. *)
Definition emptied {A} (wanted : bool) : option (option A) := if wanted then Some None else None.
Definition complete {A} (wanted : bool) (a : A) : option (option A) := if wanted then Some (Some a) else None.
(** cli/__init__.py:21-63 — output. *)
Definition output_all (show : comp -> string) (tree : list string) (decl : declares) (fuelo : nat) (d : disc) (vox gr : bool) (o : option string)
    (w : world (list Z)) (m : rmap) (tm : texman) (extra : list string) (st : upm) : outputs * option exn :=
  match (if vox then let! b := vox_write w (tm_atlas tm) in Ok (Some (Some b)) else Ok None) with
  | Err x => (Outs d (emptied vox) (emptied gr), Some x)
  | Ok vx =>
      match (match o with None => (d, None) | Some f => output_files show tree decl fuelo d f w m tm extra end) with
      | (d1, Some x) => (Outs d1 vx (emptied gr), Some x)
      | (d1, None) => (Outs d1 vx (complete gr (graph_nodes st, graph_links st)), None)
      end
  end.
(** magica_rooms.py:25-119, 123-145 — from the command line to the end. *)
Definition magica_all (show : comp -> string) (tree : list string) (decl : declares) (fuelo fuel : nat) (e : env) (hue : vec -> Z * Z * Z)
    (vecs : obj -> vec * vec) (tm : texman) (size : Z) (mirror : option Z) (debug ctf : bool) (rooms : Z) (fl : option (list string)) (g : rng)
    (d0 : disc) (i : string) (vox gr : bool) (o : option string) : outputs * option exn :=
  match d0 i with
  | None => (Outs d0 None None, Some (SystemExit 2))
  | Some _ =>
      let d := match o with None => d0 | Some f => store d0 f (Txt "") end in
      let stop x := (Outs d (emptied vox) (emptied gr), Some x) in
      match parse d i with
      | Err x => stop x
      | Ok m =>
          match update [] fl with
          | Err x => stop x
          | Ok extra =>
              match generate_any fuel e hue vecs tm size mirror debug ctf rooms m g with
              | (_, Err x, _) => stop x
              | (tm1, Ok (w, m2, st), _) => output_all show tree decl fuelo d vox gr o w m2 tm1 extra st
              end
          end
      end
  end.
