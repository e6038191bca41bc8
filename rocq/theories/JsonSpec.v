(** Vocabulary for the properties of the JSON form of maps. *)
From Verif Require Import Py VecModel CodecModel CodecSpec JsonModel.

(** The same text, whether held as bytes or as str. *)
Definition same_meta (a b : string * mval) : Prop :=
  fst a = fst b /\
  match snd a, snd b with
  | MInt x, MInt y => x = y
  | (MBytes s | MStr s), (MBytes t | MStr t) => s = t
  | _, _ => False
  end.
Definition same_text_var (a b : list Z * vval) : Prop :=
  fst a = fst b /\
  match snd a, snd b with
  | VInt x, VInt y => x = y
  | VFloat f, VFloat g => f = g
  | (VBytes s | VStr s), (VBytes t | VStr t) => s = t
  | _, _ => False
  end.

(** Everything but the entities and the octree is the same. *)
Definition same_head (a b : rmap) : Prop :=
  m_magic b = m_magic a /\ m_version b = m_version a /\ m_headersize b = m_headersize a /\
  Forall2 same_meta (m_meta a) (m_meta b) /\ Forall2 same_text_var (m_vars a) (m_vars b) /\
  m_texmru b = m_texmru a /\ m_vslots b = m_vslots a /\ m_chg b = m_chg a.

(** Well-formed UTF-8: a concatenation of encoded code points. *)
Definition encoding (cp : Z) : list Z :=
  if cp <? 128 then [cp]
  else if cp <? 2048 then [192 + cp / 64; 128 + cp mod 64]
  else if cp <? 65536 then [224 + cp / 4096; 128 + cp / 64 mod 64; 128 + cp mod 64]
  else [240 + cp / 262144; 128 + cp / 4096 mod 64; 128 + cp / 64 mod 64; 128 + cp mod 64].
Definition code_point (cp : Z) : Prop := 0 <= cp < 55296 \/ 57344 <= cp < 1114112.
Definition text (s : list Z) : Prop :=
  exists cps, Forall code_point cps /\ s = List.concat (map encoding cps).

(** All texts of the map are UTF-8 and all its floats finite. *)
Definition meta_text (e : string * mval) : Prop :=
  match snd e with MBytes s => text s | _ => True end.
Definition finite (f : pfloat) : Prop := match f with PF _ _ _ => True | _ => False end.
Definition var_text (e : list Z * vval) : Prop :=
  text (fst e) /\ match snd e with VBytes s => text s | VFloat f => finite f | _ => True end.
Definition texts (m : rmap) : Prop :=
  text (m_magic m) /\ Forall meta_text (m_meta m) /\ Forall var_text (m_vars m).

(** Every cube with an extension, at any depth, has information for all of its surfaces, and its
    faces are of the two known kinds. *)
Inductive full_cube : cube -> Prop :=
| full_c : forall c,
    (forall l, c_ext c = Some l -> ~ In None l) ->
    Forall (fun f => f = F_EMPTY \/ f = F_SOLID) (c_faces c) ->
    (forall l, c_children c = Some l -> Forall full_cube l) -> full_cube c.

(** Some cube, at any depth, lacks information for a surface. *)
Inductive bare_cube : cube -> Prop :=
| bare_here : forall c l, c_ext c = Some l -> In None l -> bare_cube c
| bare_below : forall c l k, c_children c = Some l -> In k l -> bare_cube k -> bare_cube c.

(** An entity as the reader makes it (Entity(...) turns the first attribute of weapons and player
    starts into a WeaponType member), at a finite position. *)
Definition typed_entity (e : entity) : Prop :=
  attr_count (e_type e) = Some (List.length (e_attrs e)) /\
  (weapon_typed (e_type e) -> exists w r, e_attrs e = AWeap w :: map AInt r /\ is_weapon w = true) /\
  (~ weapon_typed (e_type e) -> exists r, e_attrs e = map AInt r) /\
  finite (e_x e) /\ finite (e_y e) /\ finite (e_z e).
Definition player_start (e : entity) : Prop := e_type e = 3.

(** Equality of cubes up to the merged-faces byte, and (a detail of the representation) a leaf
    without a list of children being the same as one with an empty list. *)
Inductive same_but_merged : cube -> cube -> Prop :=
| same_bm : forall a b,
    c_ext b = c_ext a -> c_edges b = c_edges a -> c_faces b = c_faces a ->
    c_texture b = c_texture a -> c_material b = c_material a -> c_surfmask b = c_surfmask a ->
    c_totalverts b = c_totalverts a -> c_octsav b = c_octsav a ->
    Forall2 same_but_merged match c_children a with Some l => l | None => [] end
                            match c_children b with Some l => l | None => [] end ->
    same_but_merged a b.

(** ** What the text says *)
(** [k] is a key of the dictionary [v], once, with the value [x]. *)
Definition key (v : pv) (k : string) (x : pv) : Prop :=
  exists l, v = PDict l /\ NoDup (map fst l) /\ In (k, x) l.

(** The game's names: kinds of entities (by number), weapons (by number), and what each attribute of
    a kind means, in the order of the file. *)
Definition kind_names : list (Z * string) :=
  [(1, "ET_LIGHT"); (2, "ET_MAPMODEL"); (8, "ET_SUNLIGHT"); (9, "ET_WEAPON"); (13, "ET_PUSHER");
   (14, "ET_AFFINITY")]%string.
Definition weapon_names : list string :=
  ["UNKNOWN"; ""; "SWORD"; "SHOTGUN"; "SMG"; "FLAMER"; "PLASMA"; "ZAPPER"; "RIFLE"; "GRENADE"; "MINE";
   "ROCKET"]%string.
Definition meanings : list (Z * list string) :=
  [(1, ["radius"; "red"; "green"; "blue"; "flare"; "flarescale"]);
   (2, ["type"; "yaw"; "pitch"; "roll"; "blend"; "scale"; "flags"; "colour"; "palette"; "palindex";
        "spinyaw"; "spinpitch"; "spinroll"]);
   (8, ["yaw"; "pitch"; "red"; "green"; "blue"; "offset"; "flare"; "flarescale"]);
   (9, ["type"; "flags"; "modes"; "muts"; "id"]);
   (13, ["yaw"; "pitch"; "force"; "maxrad"; "minrad"; "type"]);
   (14, ["team"; "yaw"; "pitch"; "modes"; "muts"; "id"])]%string.

(** [x] is the text of the attribute [a]: a number as itself, a weapon by its name. *)
Definition attr_text (a : attr) (x : pv) : Prop :=
  match a with
  | AInt z => x = PInt z
  | AWeap w => exists n, nth_error weapon_names (Z.to_nat w) = Some n /\ x = PStr (codes n)
  | AHalf _ => False
  end.

(** [v] is the text of the entity [e]. *)
Definition entity_text (e : entity) (v : pv) : Prop :=
  key v "position" (PSeq [PFloat (e_x e); PFloat (e_y e); PFloat (e_z e)]) /\
  key v "links" (PSeq (map PInt (e_links e))) /\ key v "reserved" (PSeq (map PInt (e_reserved e))) /\
  exists n ms a, In (e_type e, n) kind_names /\ In (e_type e, ms) meanings /\
    key v "type" (PStr (codes n)) /\ key v "attr" a /\
    List.length ms = List.length (e_attrs e) /\
    (forall i k x, nth_error ms i = Some k -> nth_error (e_attrs e) i = Some x ->
       exists y, key a k y /\ attr_text x y) /\
    key a "_order" (PSeq (map (fun k => PStr (codes k)) ms)).

(** [v] is the text of the cube [c]. *)
Definition face_text (f : Z) (v : pv) : Prop :=
  f = F_EMPTY /\ v = PStr (codes "F_EMPTY") \/ f = F_SOLID /\ v = PStr (codes "F_SOLID").
Definition surface_text (s : option surf) (v : pv) : Prop :=
  exists s', s = Some s' /\ key v "lmid" (PSeq [PInt (s_lmid0 s'); PInt (s_lmid1 s')]) /\
    key v "verts" (PInt (s_verts s')) /\ key v "numverts" (PInt (s_numverts s')).
Definition ext_text (x : option (list (option surf))) (v : pv) : Prop :=
  match x with
  | None => v = PNone
  | Some l => exists ss, key v "surfaces" (PSeq ss) /\ Forall2 surface_text l ss
  end.
Inductive cube_text : cube -> pv -> Prop :=
| cube_text_c : forall c v x fs ch,
    key v "ext" x -> ext_text (c_ext c) x ->
    key v "edges" (PSeq (map PInt (c_edges c))) ->
    key v "faces" (PSeq fs) -> Forall2 face_text (c_faces c) fs ->
    key v "texture" (PSeq (map PInt (c_texture c))) ->
    key v "material" match c_material c with None => PNone | Some m => PInt m end ->
    key v "octsav" (PInt (c_octsav c)) -> key v "surfmask" (PInt (c_surfmask c)) ->
    key v "totalverts" (PInt (c_totalverts c)) ->
    key v "children" (PSeq ch) ->
    Forall2 cube_text match c_children c with Some l => l | None => [] end ch ->
    cube_text c v.

(** [j] is the text of the map [m]: the pairs of the header and of the variables in order, the
    entities, the top cubes and one slot for each that the file counts. *)
Definition meta_entry (e : string * mval) (v : pv) : Prop :=
  exists x, v = PSeq [PStr (codes (fst e)); x] /\
    match snd e with MInt z => x = PInt z | MBytes s | MStr s => x = PStr s end.
Definition var_entry (e : list Z * vval) (v : pv) : Prop :=
  exists x, v = PSeq [PStr (fst e); x] /\
    match snd e with VInt z => x = PInt z | VFloat f => x = PFloat f | VBytes s | VStr s => x = PStr s end.
Definition map_text (m : rmap) (j : list (string * pv)) : Prop :=
  exists me va es ws sl,
    key (PDict j) "magic" (PStr (m_magic m)) /\ key (PDict j) "version" (PInt (m_version m)) /\
    key (PDict j) "headersize" (PInt (m_headersize m)) /\
    key (PDict j) "texmru" (PSeq (map PInt (m_texmru m))) /\
    key (PDict j) "chg" (PSeq (map PInt (m_chg m))) /\
    key (PDict j) "meta" (PSeq me) /\ Forall2 meta_entry (m_meta m) me /\
    key (PDict j) "map_vars" (PSeq va) /\ Forall2 var_entry (m_vars m) va /\
    key (PDict j) "entities" (PSeq es) /\ Forall2 entity_text (m_ents m) es /\
    key (PDict j) "world" (PSeq ws) /\ Forall2 cube_text (m_world m) ws /\
    key (PDict j) "vslots" (PSeq sl) /\ Z.of_nat (List.length sl) = Z.max 0 (m_vslots m).
