(** Vocabulary for the map file properties. *)
From Verif Require Import Py VecModel CodecModel.

Definition is_byte (z : Z) : Prop := 0 <= z < 256.
Definition is_char (z : Z) : Prop := 0 <= z < 128.      (* what _write_int_as_chr can write *)
Definition is_u16 (z : Z) : Prop := 0 <= z < 2 ^ 16.
Definition is_i32 (z : Z) : Prop := - 2 ^ 31 <= z < 2 ^ 31.
Definition len {A} (l : list A) : Z := Z.of_nat (List.length l).

(** Same float value (same sign, also for zeros; same NaN). *)
Definition feq (a b : pfloat) : Prop :=
  match a, b with
  | PF s m e, PF s' m' e' =>
      s = s' /\ m * 2 ^ (e - Z.min e e') = m' * 2 ^ (e' - Z.min e e')
  | PInf s, PInf s' => s = s'
  | PNaN b1, PNaN b2 => b1 = b2
  | _, _ => False
  end.

(** The float has the value of some 32-bit pattern. *)
Definition is_f32 (v : pfloat) : Prop := exists b, 0 <= b < 2 ^ 32 /\ feq v (f32_decode b).

(** ** Cubes *)
Definition kind (c : cube) : Z := Z.land (c_octsav c) 7.
(** Flag bits of octsav: 0x40 material, 0x80 merged, 0x20 surfaces. *)
Definition has_material (c : cube) : bool := Z.testbit (c_octsav c) 6.
Definition has_merged (c : cube) : bool := Z.testbit (c_octsav c) 7.
Definition has_surfaces (c : cube) : bool := Z.testbit (c_octsav c) 5.
(** The surface of face i. *)
Definition surface (c : cube) (i : nat) : option surf :=
  match c_ext c with
  | None => None
  | Some l => match nth_error l i with Some s => s | None => None end
  end.

(** Two cubes carry the same data, as far as their kind and flags give it meaning. *)
Inductive same_cube : cube -> cube -> Prop :=
| same_node : forall c d l l',
    kind c = 0 -> c_octsav d = c_octsav c ->
    c_children c = Some l -> c_children d = Some l' -> Forall2 same_cube l l' ->
    same_cube c d
| same_leaf : forall c d,
    kind c <> 0 -> c_octsav d = c_octsav c ->
    (kind c = 3 -> c_edges d = c_edges c) ->
    c_texture d = c_texture c ->
    (has_material c = true -> c_material d = c_material c) ->
    (has_merged c = true -> c_merged d = c_merged c) ->
    (has_surfaces c = true ->
       c_surfmask d = c_surfmask c /\ c_totalverts d = c_totalverts c /\
       forall i, (i < 6)%nat -> Z.testbit (c_surfmask c) (Z.of_nat i) = true ->
                 surface d i = surface c i) ->
    same_cube c d.

Definition wf_surf (s : surf) : Prop :=
  is_byte (s_lmid0 s) /\ is_byte (s_lmid1 s) /\ s_verts s = 0 /\
  is_byte (s_numverts s) /\ s_numverts s mod 16 = 0.

(** Fields in range for a leaf. *)
Definition wf_leaf (c : cube) : Prop :=
  (kind c = 3 -> List.length (c_edges c) = 12%nat /\ Forall is_byte (c_edges c)) /\
  List.length (c_texture c) = 6%nat /\ Forall is_u16 (c_texture c) /\
  (has_material c = true -> exists m, c_material c = Some m /\ is_u16 m) /\
  (has_surfaces c = true ->
     is_char (c_surfmask c) /\ is_char (c_totalverts c) /\
     forall i, (i < 6)%nat -> Z.testbit (c_surfmask c) (Z.of_nat i) = true ->
               exists s, surface c i = Some s /\ wf_surf s).

(** A cube of side [size] the format can hold. *)
Inductive wf_cube : Z -> cube -> Prop :=
| wf_node_c : forall size c l,
    is_char (c_octsav c) -> kind c = 0 -> c_children c = Some l -> List.length l = 8%nat ->
    1 < size -> Forall (wf_cube (size / 2)) l -> wf_cube size c
| wf_leaf_c : forall size c,
    is_char (c_octsav c) -> 1 <= kind c <= 4 -> size <= 4096 -> wf_leaf c -> wf_cube size c.

(** ** Entities *)
(** Twice the numeric value of an attribute. *)
Definition attr_value (a : attr) : Z := match a with AInt z | AWeap z => 2 * z | AHalf h => h end.

Definition same_entity (a b : entity) : Prop :=
  feq (e_x a) (e_x b) /\ feq (e_y a) (e_y b) /\ feq (e_z a) (e_z b) /\
  e_type b = e_type a /\ map attr_value (e_attrs b) = map attr_value (e_attrs a) /\
  e_links b = e_links a /\ e_reserved b = e_reserved a.

(** Entity types whose first attribute is stored as a weapon number. *)
Definition weapon_typed (ty : Z) : Prop := ty = 9 \/ ty = 3.

Definition wf_entity (e : entity) : Prop :=
  is_f32 (e_x e) /\ is_f32 (e_y e) /\ is_f32 (e_z e) /\
  attr_count (e_type e) = Some (List.length (e_attrs e)) /\
  Forall (fun a => exists z, (a = AInt z \/ a = AWeap z) /\ is_i32 z) (e_attrs e) /\
  (weapon_typed (e_type e) ->
     exists z r, (e_attrs e = AInt z :: r \/ e_attrs e = AWeap z :: r) /\ is_weapon z = true) /\
  Forall is_i32 (e_links e) /\ len (e_links e) < 2 ^ 31 /\
  List.length (e_reserved e) = 3%nat /\ Forall is_char (e_reserved e).

(** ** Maps *)
Definition same_vval (a b : vval) : Prop :=
  match a, b with VFloat f, VFloat g => feq f g | _, _ => a = b end.

Definition same_map (a b : rmap) : Prop :=
  m_magic b = m_magic a /\ m_version b = m_version a /\ m_headersize b = m_headersize a /\
  m_meta b = m_meta a /\
  Forall2 (fun x y => fst x = fst y /\ same_vval (snd x) (snd y)) (m_vars a) (m_vars b) /\
  m_texmru b = m_texmru a /\ Forall2 same_entity (m_ents a) (m_ents b) /\
  m_vslots b = m_vslots a /\ m_chg b = m_chg a /\ Forall2 same_cube (m_world a) (m_world b).

Definition wf_var (e : list Z * vval) : Prop :=
  Forall is_byte (fst e) /\ len (fst e) < 2 ^ 31 /\
  match snd e with
  | VInt z => is_i32 z
  | VFloat f => is_f32 f
  | VBytes s => Forall is_byte s /\ len s < 2 ^ 31
  | VStr _ => False
  end.

(** The slot records [chg] describe exactly [n] slots' worth of reading: all are
    negative (runs of default slots) and the last one is the first to reach n. *)
Fixpoint slots_ok (n : Z) (chg : list Z) : Prop :=
  match chg with
  | [] => n <= 0
  | c :: r => 0 < n /\ is_i32 c /\ c < 0 /\ slots_ok (n + c) r
  end.

(** The header of a map with [ents] entities and [vars] variables: the ten fields
    in file order. *)
Record header := Hdr {
  h_worldsize : Z; h_numpvs : Z; h_lightmaps : Z; h_blendmap : Z; h_numvslots : Z;
  h_gamever : Z; h_revision : Z; h_gameident : list Z }.
Definition header_meta (h : header) (ents vars : Z) : list (string * mval) :=
  [("worldsize", MInt (h_worldsize h)); ("numents", MInt ents); ("numpvs", MInt (h_numpvs h));
   ("lightmaps", MInt (h_lightmaps h)); ("blendmap", MInt (h_blendmap h));
   ("numvslots", MInt (h_numvslots h)); ("gamever", MInt (h_gamever h));
   ("revision", MInt (h_revision h)); ("gameident", MBytes (h_gameident h));
   ("numvars", MInt vars)]%string.
Definition wf_header (h : header) : Prop :=
  is_i32 (h_worldsize h) /\ is_i32 (h_numpvs h) /\ is_i32 (h_lightmaps h) /\
  is_i32 (h_blendmap h) /\ is_i32 (h_numvslots h) /\ is_i32 (h_gamever h) /\
  is_i32 (h_revision h) /\ List.length (h_gameident h) = 3%nat /\ Forall is_byte (h_gameident h).

Definition wf_map (m : rmap) : Prop :=
  (m_magic m = MAPZ \/ m_magic m = BFGZ) /\ is_i32 (m_version m) /\ is_i32 (m_headersize m) /\
  (exists h, wf_header h /\ m_meta m = header_meta h (len (m_ents m)) (len (m_vars m)) /\
             slots_ok (h_numvslots h) (m_chg m) /\
             Forall (wf_cube (h_worldsize h / 2)) (m_world m)) /\
  len (m_ents m) < 2 ^ 31 /\ len (m_vars m) < 2 ^ 31 /\
  NoDup (map fst (m_vars m)) /\ Forall wf_var (m_vars m) /\
  len (m_texmru m) < 2 ^ 16 /\ Forall is_u16 (m_texmru m) /\
  Forall wf_entity (m_ents m) /\
  m_vslots m = - fold_right Z.add 0 (m_chg m) /\
  List.length (m_world m) = 8%nat.

(** ** What the writer refuses among the maps the reader returns *)

(** Flag and surface bytes below 128, kind at most 4 in the whole tree. *)
Inductive writable_cube : cube -> Prop :=
| writable_node : forall c l,
    c_octsav c < 128 -> kind c = 0 -> c_children c = Some l -> Forall writable_cube l ->
    writable_cube c
| writable_leaf : forall c,
    c_octsav c < 128 -> 1 <= kind c <= 4 ->
    (has_surfaces c = true -> c_surfmask c < 128 /\ c_totalverts c < 128) -> writable_cube c.

Definition writable_map (m : rmap) : Prop :=
  Forall (fun e => Forall (fun r => r < 128) (e_reserved e)) (m_ents m) /\
  Forall (fun c => c < 0) (m_chg m) /\ Forall writable_cube (m_world m).

(** The variable count in the header of a map. *)
Definition header_vars (m : rmap) : option Z :=
  match dget String.eqb (m_meta m) "numvars"%string with Some (MInt n) => Some n | _ => None end.
