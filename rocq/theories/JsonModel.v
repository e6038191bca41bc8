(** Model of the JSON form of maps: Map.to_dict, to_json and from_dict
    (redeclipse/__init__.py:268-324) with the to_dict and from_dict methods of entities,
    cubes and texture slots, and the commands cli/to_json.py and cli/from_json.py.

    Simplifications.  The text itself is not modelled: a JSON text is represented by the value
    its reader returns ([jsonify]), which is exact for the values used here.  Infinite and NaN
    floats, whose treatment depends on the library's version, are [OutOfModel].  The '_id',
    'escaped' and 'visible' entries of a cube, the entries 'va', 'ents', 'tjoints',
    'surfaceinfo' and 'verts' of its extension, which are not part of the cube model, are left
    out.  A str is given by its UTF-8 encoding. *)
From Coq Require Import Ascii.
From Verif Require Import Py VecModel CodecModel.

(** Python values that occur in the dictionary form.  [PSeq] is a list or a tuple; [PMember] an
    Enum member (of WeaponType), which no JSON encoder accepts. *)
Inductive pv :=
| PNone | PBool (b : bool) | PInt (z : Z) | PFloat (f : pfloat) | PStr (utf8 : list Z)
| PSeq (l : list pv) | PDict (l : list (string * pv)) | PMember (z : Z).

(** str literals as lists of (ASCII) codes, and back. *)
Definition codes (s : string) : list Z :=
  map (fun a => Z.of_nat (nat_of_ascii a)) (list_ascii_of_string s).
Definition uncodes (l : list Z) : string :=
  string_of_list_ascii (map (fun z => ascii_of_nat (Z.to_nat z)) l).
Definition lit (s : string) : pv := PStr (codes s).

(** ** UTF-8 *)
Definition between (a b x : Z) : bool := (a <=? x) && (x <=? b).
Definition cont (x : Z) : bool := between 128 191 x.
(** bytes.decode(): the strict UTF-8 decoder accepts exactly the well-formed sequences (no
    overlong forms, surrogates, or code points beyond 10FFFF). *)
Fixpoint utf8_ok (l : list Z) : bool :=
  match l with
  | [] => true
  | a :: r =>
      if between 0 127 a then utf8_ok r
      else match r with
      | [] => false
      | b :: r1 =>
          if between 194 223 a && cont b then utf8_ok r1
          else match r1 with
          | [] => false
          | c :: r2 =>
              if ((a =? 224) && between 160 191 b || between 225 236 a && cont b
                  || (a =? 237) && between 128 159 b || between 238 239 a && cont b) && cont c
              then utf8_ok r2
              else match r2 with
              | [] => false
              | d :: r3 =>
                  if ((a =? 240) && between 144 191 b || between 241 243 a && cont b
                      || (a =? 244) && between 128 143 b) && cont c && cont d
                  then utf8_ok r3 else false
              end
          end
      end
  end.
(** UnicodeDecodeError is a ValueError. *)
Definition decode (s : list Z) : res pv := if utf8_ok s then Ok (PStr s) else Err ValueError.

(** ** to_dict *)

(** enums.py:83-102 — WeaponType members by value. *)
Definition weapons : list (Z * string) :=
  [(0, "UNKNOWN"); (2, "SWORD"); (3, "SHOTGUN"); (4, "SMG"); (5, "FLAMER"); (6, "PLASMA");
   (7, "ZAPPER"); (8, "RIFLE"); (9, "GRENADE"); (10, "MINE"); (11, "ROCKET")]%string.
(** enums.py:4-25 — EntType members by value. *)
Definition ent_types : list (Z * string) :=
  [(0, "ET_EMPTY"); (1, "ET_LIGHT"); (2, "ET_MAPMODEL"); (3, "ET_PLAYERSTART"); (4, "ET_ENVMAP");
   (5, "ET_PARTICLES"); (6, "ET_SOUND"); (7, "ET_LIGHTFX"); (8, "ET_SUNLIGHT"); (9, "ET_WEAPON");
   (10, "ET_TELEPORT"); (11, "ET_ACTOR"); (12, "ET_TRIGGER"); (13, "ET_PUSHER");
   (14, "ET_AFFINITY"); (15, "ET_CHECKPOINT"); (16, "ET_ROUTE"); (17, "ET_UNUSEDENT")]%string.

(** entities/__init__.py:12-46 — attr_annotations. *)
Definition annotations (ty : Z) : list string :=
  if ty =? 9 then ["type"; "flags"; "modes"; "muts"; "id"]%string
   else if ty =? 3 then ["team"; "yaw"; "pitch"; "modes"; "muts"; "id"]%string
   else if ty =? 2 then ["type"; "yaw"; "pitch"; "roll"; "blend"; "scale"; "flags"; "colour";
                         "palette"; "palindex"; "spinyaw"; "spinpitch"; "spinroll"]%string
   else if ty =? 8 then ["yaw"; "pitch"; "red"; "green"; "blue"; "offset"; "flare"; "flarescale"]%string
   else if ty =? 13 then ["yaw"; "pitch"; "force"; "maxrad"; "minrad"; "type"]%string
   else if ty =? 1 then ["radius"; "red"; "green"; "blue"; "flare"; "flarescale"]%string
   else if ty =? 14 then ["team"; "yaw"; "pitch"; "modes"; "muts"; "id"]%string
   else [].

(** [v.name] of a member of an Enum; ints and floats have no name. *)
Definition member_name (table : list (Z * string)) (z : Z) : res pv :=
  match dget Z.eqb table z with Some n => Ok (lit n) | None => Err AttributeError end.

Definition attr_pv (a : attr) : pv :=
  match a with AInt z => PInt z | AWeap z => PMember z | AHalf h => PFloat (PF (h <? 0) (Z.abs h) (-1)) end.

(** entities/__init__.py:66-84 — Entity.to_dict. *)
Definition ent_dict (e : entity) : res pv :=
  let! ty := member_name ent_types (e_type e) in
  let d := combine (annotations (e_type e)) (map attr_pv (e_attrs e)) in
  let! d := (if e_type e =? 9 then
               match dget String.eqb d "type"%string with
               | Some (PMember z) => let! n := member_name weapons z in
                                     Ok (dset String.eqb d "type"%string n)
               | Some _ => Err AttributeError
               | None => Err KeyError
               end
             else Ok d) in
  let d := dset String.eqb d "_order"%string (PSeq (map lit (annotations (e_type e)))) in
  Ok (PDict [("position", PSeq [PFloat (e_x e); PFloat (e_y e); PFloat (e_z e)]);
             ("type", ty); ("attr", PDict d); ("links", PSeq (map PInt (e_links e)));
             ("reserved", PSeq (map PInt (e_reserved e)))]%string).

(** objects.py:91-96 — SurfaceInfo.to_dict; None has no to_dict. *)
Definition surf_dict (s : option surf) : res pv :=
  match s with
  | None => Err AttributeError
  | Some s => Ok (PDict [("lmid", PSeq [PInt (s_lmid0 s); PInt (s_lmid1 s)]);
                         ("verts", PInt (s_verts s)); ("numverts", PInt (s_numverts s))]%string)
  end.
(** objects.py:152-161 — cubext.to_dict. *)
Definition ext_dict (x : option (list (option surf))) : res pv :=
  match x with
  | None => Ok PNone
  | Some l => let! ss := mapM surf_dict l in Ok (PDict [("surfaces"%string, PSeq ss)])
  end.
(** enums.py:28-33 — names of the two face kinds. *)
Definition face_names : list (Z * string) := [(0, "F_EMPTY"); (2155905152, "F_SOLID")]%string.

(** objects.py:211-235 — cube.to_dict; 'merged' is not recorded. *)
Fixpoint cube_dict (c : cube) : res pv :=
  let! x := ext_dict (c_ext c) in
  let! fs := mapM (member_name face_names) (c_faces c) in
  let! ch := match c_children c with None => Ok [] | Some l => mapM cube_dict l end in
  Ok (PDict [("ext", x); ("edges", PSeq (map PInt (c_edges c))); ("faces", PSeq fs);
             ("texture", PSeq (map PInt (c_texture c)));
             ("material", match c_material c with None => PNone | Some m => PInt m end);
             ("octsav", PInt (c_octsav c)); ("children", PSeq ch);
             ("surfmask", PInt (c_surfmask c)); ("totalverts", PInt (c_totalverts c))]%string).

(** objects.py:26-62 — to_dict of the slot VSlot(None, i) that the reader creates. *)
Definition slot_props : list string :=
  ["a"; "b"; "slot"; "index"; "changed"; "params"; "linked"; "scale"; "rotation"; "offset";
   "scroll"; "layer"; "palette"; "palindex"; "alphafront"; "alphaback"; "colorscale";
   "glowcolor"; "coastscale"]%string.
Definition f_zero : pfloat := PF false 0 (-149).
Definition f_one : pfloat := PF false 1 0.
Definition slot_dict (i : Z) : pv :=
  PDict (combine slot_props
           [PNone; PInt i; PNone; PNone; PNone; PDict []; PBool false; PInt 1; PInt 0;
            PSeq [PInt 0; PInt 0]; PSeq [PFloat f_zero; PFloat f_zero]; PInt 0; PInt 0; PInt 0;
            PFloat (PF false 1 (-1)); PFloat f_zero; PSeq [PFloat f_one; PFloat f_one; PFloat f_one];
            PNone; PInt 1]
         ++ [("_order"%string, PSeq (map lit slot_props))]).

(** An entry of the dictionary: a value, or a generator, whose elements (and the exceptions in
    computing them) come when it is written. *)
Inductive field := Val (v : pv) | Gen (l : list (res pv)).

Definition meta_pair (e : string * mval) : res pv :=
  let! v := match snd e with MInt z => Ok (PInt z) | MBytes s => decode s | MStr s => Ok (PStr s) end in
  Ok (PSeq [lit (fst e); v]).
Definition var_pair (e : list Z * vval) : res pv :=
  let! k := decode (fst e) in
  let! v := match snd e with
            | VInt z => Ok (PInt z) | VFloat f => Ok (PFloat f)
            | VBytes s => decode s | VStr s => Ok (PStr s) end in
  Ok (PSeq [k; v]).

(** redeclipse/__init__.py:268-284 — Map.to_dict. *)
Definition to_dict (m : rmap) : res (list (string * field)) :=
  let! magic := decode (m_magic m) in
  let! meta := mapM meta_pair (m_meta m) in
  let! vars := mapM var_pair (m_vars m) in
  let! ents := mapM ent_dict (m_ents m) in
  Ok [("magic", Val magic); ("version", Val (PInt (m_version m)));
      ("headersize", Val (PInt (m_headersize m))); ("meta", Val (PSeq meta));
      ("map_vars", Val (PSeq vars)); ("texmru", Val (PSeq (map PInt (m_texmru m))));
      ("entities", Val (PSeq ents)); ("world", Gen (map cube_dict (m_world m)));
      ("vslots", Gen (map (fun i => Ok (slot_dict i)) (zrange 0 (m_vslots m))));
      ("chg", Val (PSeq (map PInt (m_chg m))))]%string.

(** ** JSON *)

(** json.loads(json.dumps(v)): tuples come back as lists; an Enum member is a TypeError. *)
Fixpoint jsonify (v : pv) : res pv :=
  match v with
  | PNone | PBool _ | PInt _ | PStr _ => Ok v
  | PFloat (PF _ _ _) => Ok v
  | PFloat _ => Err OutOfModel
  | PSeq l => let! r := mapM jsonify l in Ok (PSeq r)
  | PDict l => let! r := mapM (fun e => let! x := jsonify (snd e) in Ok (fst e, x)) l in Ok (PDict r)
  | PMember _ => Err TypeError
  end.

(** redeclipse/__init__.py:286-290, cli/to_json.py:20-23 — the entries in order; generators are
    written as arrays (iterable_as_array). *)
Definition dump_field (e : string * field) : res (string * pv) :=
  match snd e with
  | Val v => let! x := jsonify v in Ok (fst e, x)
  | Gen l => let! r := mapM (fun v => let! x := v in jsonify x) l in Ok (fst e, PSeq r)
  end.
Definition to_json (m : rmap) : res (list (string * pv)) :=
  let! d := to_dict m in mapM dump_field d.

(** ** from_dict *)

(** d[k] of a dict; another value cannot be indexed by a str. *)
Definition item (v : pv) (k : string) : res pv :=
  match v with
  | PDict d => match dget String.eqb d k with Some x => Ok x | None => Err KeyError end
  | _ => Err TypeError
  end.
Definition seq_of (v : pv) : res (list pv) :=
  match v with PSeq l => Ok l | PNone | PBool _ | PInt _ | PFloat _ | PMember _ => Err TypeError
             | _ => Err OutOfModel end.
Definition int_of (v : pv) : res Z := match v with PInt z => Ok z | _ => Err OutOfModel end.
(** str.encode(v) *)
Definition encode (v : pv) : res (list Z) := match v with PStr s => Ok s | _ => Err TypeError end.
(** [for (key, value) in ...]: unpacking a list of another length is a ValueError. *)
Definition pair_of (v : pv) : res (pv * pv) :=
  match v with
  | PSeq [a; b] => Ok (a, b)
  | PSeq _ => Err ValueError
  | _ => Err OutOfModel
  end.

(** WeaponType[v], EntType[v] *)
Definition member_of (table : list (Z * string)) (v : pv) : res Z :=
  match v with
  | PStr s => match find (fun e => String.eqb (snd e) (uncodes s)) table with
              | Some e => Ok (fst e) | None => Err KeyError end
  | PSeq _ | PDict _ => Err TypeError
  | _ => Err KeyError
  end.

(** entities/__init__.py:86-97 — Entity.from_dict: the arguments are computed and then the
    constructor, which has no parameters x, y, z, is called with them. *)
Definition attr_of (d : pv) (k : pv) : res unit :=
  match k with
  | PStr s => let! v := item d (uncodes s) in
              match v with
              | PInt _ | PBool _ => Ok tt
              | _ => let! _ := member_of weapons v in Ok tt
              end
  | _ => Err OutOfModel
  end.
Definition nth_of (v : pv) (i : nat) : res pv :=
  let! l := seq_of v in match nth_error l i with Some x => Ok x | None => Err IndexError end.
Definition ent_from (d : pv) : res entity :=
  let! a := item d "attr"%string in let! o := item a "_order"%string in let! ks := seq_of o in
  let! _ := mapM (attr_of a) ks in
  let! p := item d "position"%string in
  let! _ := nth_of p 0 in let! _ := nth_of p 1 in let! _ := nth_of p 2 in
  let! t := item d "type"%string in let! _ := member_of ent_types t in
  let! _ := item d "links"%string in let! _ := item d "reserved"%string in
  Err TypeError.

(** objects.py:64-69 — VSlot.from_dict (the slot's values are not part of the map model). *)
Definition slot_from (d : pv) : res unit :=
  let! _ := item d "a"%string in let! _ := item d "b"%string in
  let! o := item d "_order"%string in let! ks := seq_of o in
  let! _ := mapM (fun k => let! s := encode k in item d (uncodes s)) ks in Ok tt.

(** redeclipse/__init__.py:298-308 — header and variables; dictionaries in order. *)
Definition meta_from (l : list pv) : res (list (string * mval)) :=
  foldM (fun d e =>
    let! p := pair_of e in
    let! k := encode (fst p) in
    match snd p with
    | PInt z => Ok (dset String.eqb d (uncodes k) (MInt z))
    | PStr s => Ok (dset String.eqb d (uncodes k) (MStr s))
    | _ => Err OutOfModel
    end) l [].
Definition vars_from (l : list pv) : res (list (list Z * vval)) :=
  foldM (fun d e =>
    let! p := pair_of e in
    let! k := encode (fst p) in
    match snd p with
    | PStr s => Ok (dset bytes_eqb d k (VBytes s))
    | PInt z => Ok (dset bytes_eqb d k (VInt z))
    | PFloat f => Ok (dset bytes_eqb d k (VFloat f))
    | _ => Err OutOfModel
    end) l [].

(** redeclipse/__init__.py:292-324 — Map.from_dict; the world is an empty dict. *)
Definition from_dict (d : list (string * pv)) : res rmap :=
  let get k := item (PDict d) k in
  let! x := get "meta"%string in let! l := seq_of x in let! meta := meta_from l in
  let! x := get "map_vars"%string in let! l := seq_of x in let! vars := vars_from l in
  let! x := get "magic"%string in let! magic := encode x in
  let! x := get "version"%string in let! version := int_of x in
  let! x := get "headersize"%string in let! headersize := int_of x in
  let! x := get "texmru"%string in let! l := seq_of x in let! texmru := mapM int_of l in
  let! x := get "entities"%string in let! l := seq_of x in let! ents := mapM ent_from l in
  let! x := get "vslots"%string in let! l := seq_of x in let! slots := mapM slot_from l in
  let! x := get "chg"%string in let! l := seq_of x in let! chg := mapM int_of l in
  Ok (Map magic version headersize meta vars texmru ents (Z.of_nat (List.length slots)) chg []).

(** cli/from_json.py:13-15 — the map read from the text is written. *)
Definition from_json_main (d : list (string * pv)) : res (list Z) :=
  let! m := from_dict d in write_map m.
