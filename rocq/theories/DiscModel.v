(** Model of the programs that read and write map files, with the files they leave behind:
    redeclipse/cli/iso.py, redeclipse/cli/rooms.py, redeclipse/cli/vector_test.py and the command
    line of redeclipse/cli/magica_rooms.py with redeclipse/cli/__init__.py; and of what the map
    writer (redeclipse/__init__.py:85-266) has written when it raises.

    Simplifications.  A compressed file is what gzip made of the bytes handed to it; it is completed
    also when the writer raises, as the interpreter closes the file then.  An empty file decompresses
    to no bytes, any other text is no compressed file.  Directories can be written to.  The command
    line names the input before the output, both are files, and asks for no other output. *)
From Verif Require Import Py VecModel VoxelModel CodecModel CodecSpec OutModel UpmModel RoomClasses TexModel LightModel ShippedModel DistModel
  GenModel DebugModel ConfModel CopyModel.
Local Open Scope Z_scope.

(** ** The writer, with the bytes it has written when it stops *)
Definition out : Type := list Z * option exn.
(** One [handle.write(struct.pack(...))]: all of it or nothing. *)
Definition put_all (r : res (list Z)) : out := match r with Ok b => (b, None) | Err x => ([], Some x) end.
Definition nothing : out := ([], None).
Definition raises (x : exn) : out := ([], Some x).
(** One write after the other. *)
Definition andthen (a b : out) : out :=
  match a with (p, Some x) => (p, Some x) | (p, None) => let (q, x) := b in ((p ++ q)%list, x) end.
Definition each {A} (w : A -> out) : list A -> out :=
  fix go (l : list A) : out := match l with [] => nothing | x :: r => andthen (w x) (go r) end.
Infix ">>" := andthen (at level 61, right associativity).

(** redeclipse/__init__.py:107-127 — one variable. *)
Definition s_var (e : list Z * vval) : out :=
  let (name, v) := e in
  put_all (w_i32 (Z.of_nat (List.length name))) >> put_all (Ok (w_str name true)) >>
  match v with
  | VInt z => put_all (w_i32 0) >> put_all (w_i32 z)
  | VFloat f => put_all (w_i32 1) >> put_all (w_f32 f)
  | VBytes s => put_all (w_i32 2) >> put_all (w_i32 (Z.of_nat (List.length s))) >> put_all (Ok (w_str s true))
  | VStr s => put_all (w_i32 2) >> put_all (w_i32 (Z.of_nat (List.length s))) >> raises StructError
  end.
(** redeclipse/__init__.py:179-194 with entities/__init__.py:62-64 — one entity; position, type and
    reserved characters are packed at once. *)
Definition s_ent (e : entity) : out :=
  put_all (if negb (Nat.eqb (List.length (e_reserved e)) 3) then Err StructError
           else let! x := w_f32 (e_x e) in let! y := w_f32 (e_y e) in let! z := w_f32 (e_z e) in
                let! t := w_chr (e_type e) in let! r := wcat w_chr (e_reserved e) in Ok (x ++ y ++ z ++ t ++ r)%list) >>
  put_all (w_i32 (Z.of_nat (List.length (e_attrs e)))) >> each (fun a => put_all (w_attr a)) (e_attrs e) >>
  put_all (w_i32 (Z.of_nat (List.length (e_links e)))) >> each (fun a => put_all (w_i32 a)) (e_links e).
(** redeclipse/__init__.py:196-202 — one entry of chg: written before it is looked at. *)
Definition s_chg (z : Z) : out := put_all (w_i32 z) >> (if z <? 0 then nothing else raises NotImplementedError).
(** redeclipse/__init__.py:252-266 — one surface. *)
Definition s_surf (ext : option (list (option surf))) (mask : Z) (i : nat) : out :=
  if Z.testbit mask (Z.of_nat i) then
    match ext with
    | None => raises AttributeError
    | Some l =>
        match nth_error l i with
        | None => raises IndexError
        | Some None => raises AttributeError
        | Some (Some s) =>
            put_all (w_u8 (s_lmid0 s)) >> put_all (w_u8 (s_lmid1 s)) >> put_all (w_u8 (s_verts s)) >> put_all (w_u8 (s_numverts s)) >>
            (if s_verts s =? 0 then nothing else raises NotImplementedError)
        end
    end
  else nothing.
(** redeclipse/__init__.py:235-266 — textures, material and surfaces of a leaf. *)
Definition s_tail (c : cube) : out :=
  each (fun t => put_all (w_u16 t)) (c_texture c) >>
  (if Z.testbit (c_octsav c) 6 then put_all (match c_material c with None => Err StructError | Some m => w_u16 m end) else nothing) >>
  (if Z.testbit (c_octsav c) 7 then put_all (w_chr (c_merged c)) else nothing) >>
  (if Z.testbit (c_octsav c) 5
   then put_all (w_chr (c_surfmask c)) >> put_all (w_chr (c_totalverts c)) >> each (s_surf (c_ext c) (c_surfmask c)) (seq 0 6)
   else nothing).
(** redeclipse/__init__.py:207-266 — _savec. *)
Fixpoint s_cube (c : cube) : out :=
  put_all (w_chr (c_octsav c)) >>
  let k := Z.land (c_octsav c) 7 in
  if k =? 0 then match c_children c with None => nothing | Some l => each s_cube l end
  else if (k =? 1) || (k =? 2) || (k =? 4) then s_tail c
  else if k =? 3 then put_all (w_edges (c_edges c)) >> s_tail c
  else raises (SystemExit 42).
(** redeclipse/__init__.py:85-146 — write. *)
Definition write_out (m0 : rmap) : out :=
  let m := set_numents m0 in
  put_all (Ok (w_str (m_magic m) false)) >> put_all (w_i32 (m_version m)) >> put_all (w_i32 (m_headersize m)) >>
  each (fun e => put_all (w_meta e)) (m_meta m) >> each s_var (m_vars m) >>
  put_all (w_u16 (Z.of_nat (List.length (m_texmru m)))) >> each (fun t => put_all (w_u16 t)) (m_texmru m) >>
  each s_ent (m_ents m) >> each s_chg (m_chg m) >> each s_cube (m_world m).

(** ** Files *)
Inductive content := Gz (payload : list Z) | Txt (text : string).
Definition disc : Type := string -> option content.
Definition store (d : disc) (f : string) (c : content) : disc := fun g => if String.eqb g f then Some c else d g.
(** What gzip reads of a file (redeclipse/__init__.py:560-561). *)
Definition payload (c : content) : res (list Z) :=
  match c with Gz b => Ok b | Txt s => if String.eqb s "" then Ok [] else Err UserExn end.
(** cli/__init__.py:10-12 — parse. *)
Definition parse (d : disc) (f : string) : res rmap :=
  match d f with None => Err FileNotFoundError | Some c => let! b := payload c in read_map b end.
(** redeclipse/__init__.py:85-146 — write, to the file of the given name. *)
Definition save (d : disc) (f : string) (m : rmap) : disc * option exn :=
  let (b, x) := write_out m in (store d f (Gz b), x).

(** cli/iso.py:6-13 — main. *)
Definition iso (d : disc) (i o : string) : disc * option exn :=
  match parse d i with Err x => (d, Some x) | Ok m => save d o m end.

(** [argparse.FileType('w')]: the file is emptied while the command line is read; with an input that
    cannot be opened the program ends before. *)
Definition command_line (d : disc) (i o : string) (program : disc -> disc * option exn) : disc * option exn :=
  match d i with None => (d, Some (SystemExit 2)) | Some _ => program (store d o (Txt "")) end.

(** cli/__init__.py:34-35 — the map with the octree of a world. *)
Definition with_world (fuel : nat) (v : world (list Z)) (m : rmap) : res rmap :=
  let! o := to_octree fuel v in
  match o with
  | OList l => match map tree_cube l with
               | [] => Err IndexError
               | c :: r => Ok (apply_edit m (SetWorld (with_octsav c 0 :: r)))
               end
  | _ => Err TypeError
  end.
(** cli/__init__.py:25-36 — the part of output for --mpz_out. *)
Definition output_files (show : comp -> string) (tree : list string) (decl : declares) (fuelo : nat) (d : disc) (o : string)
    (w : world (list Z)) (m : rmap) (tm : texman) (extra : list string) : disc * option exn :=
  match copy_data tree decl tm with
  | (_, Some x) => (store d (cfg_name o) (Txt (emit_conf show "Python" "test" tm)), Some x)
  | (_, None) =>
      let d1 := store d (cfg_name o) (Txt (config_text show tm extra)) in
      match with_world fuelo w m with Err x => (d1, Some x) | Ok m1 => save d1 o m1 end
  end.
(** magica_rooms.py:25-119, 123-140 — the map generator, from the command line to the end. *)
Definition magica_rooms (show : comp -> string) (tree : list string) (decl : declares) (fuelo fuel : nat) (e : env) (hue : vec -> Z * Z * Z)
    (vecs : obj -> vec * vec) (tm : texman) (size : Z) (mirror : option Z) (debug ctf : bool) (rooms : Z) (fl : option (list string)) (g : rng)
    (d0 : disc) (i o : string) : disc * option exn :=
  command_line d0 i o (fun d =>
    match parse d i with
    | Err x => (d, Some x)
    | Ok m =>
        match update [] fl with
        | Err x => (d, Some x)
        | Ok extra =>
            match generate_any fuel e hue vecs tm size mirror debug ctf rooms m g with
            | (_, Err x, _) => (d, Some x)
            | (tm1, Ok (w, m2, _), _) => output_files show tree decl fuelo d o w m2 tm1 extra
            end
        end
    end).
(** rooms.py:18-51, 90-102 — the older map generator.  Line 51 iterates over what register_room gives back,
    which is None (upm.py:110-120); nothing after that line is reached. *)
Definition rooms_py (d0 : disc) (i o : string) : disc * option exn :=
  command_line d0 i o (fun d =>
    match parse d i with
    | Err x => (d, Some x)
    | Ok _ =>
        match register_room (upm_init (Some 4) false) (mk_room SpawnRoom STARTING_POSITION T0 None) with
        | (_, Some x) => (d, Some x)
        | (_, None) => (d, Some TypeError)
        end
    end).
(** vector_test.py:18-19, 54-61 — redeclipse/prefabs/magica.py defines no castle_large; nothing after that line is
    reached.  The output is that of --redeclipse. *)
Definition vector_test_py (d0 : disc) (i o : string) : disc * option exn :=
  command_line d0 i o (fun d => (d, Some AttributeError)).
