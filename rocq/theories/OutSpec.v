(** Vocabulary for the output properties. *)
From Verif Require Import Py VecModel VoxelModel VoxelSpec CodecModel CodecSpec OutModel.

(** The 32-bit signed little-endian number at an offset of a file. *)
Definition i32_at (b : list Z) (off : nat) : Z := signed32 (unle (firstn 4 (skipn off b))).

(** What a file's cube of side 2^k holds at (x, y, z): an inner node is searched,
    an empty cube holds nothing, an undeformed cube its six textures. *)
Fixpoint clookup (k : nat) (c : cube) (x y z : Z) : option (list Z) :=
  if kind c =? 0 then
    match k, c_children c with
    | S k', Some l =>
        let bit c := Z.to_nat ((c / 2 ^ Z.of_nat k') mod 2) in
        match nth_error l (bit x + 2 * bit y + 4 * bit z)%nat with
        | Some c' => clookup k' c' x y z
        | None => None
        end
    | _, _ => None
    end
  else if kind c =? 1 then None
  else if (kind c =? 2) || ((kind c =? 3) && forallb (Z.eqb 128) (c_edges c))
       then Some (c_texture c) else None.

(** The whole octree of a map. *)
Definition world_lookup (k : nat) (m : rmap) (x y z : Z) : option (list Z) :=
  clookup k (Cube (Some (m_world m)) None [] [] [] None 0 0 0 0) x y z.

(** Integer attributes in range. *)
Definition int_attr (a : attr) : Prop := exists z, a = AInt z /\ is_i32 z.
(** Six texture numbers the format can hold. *)
Definition tex_ok (tex : list Z) : Prop := List.length tex = 6%nat /\ Forall is_u16 tex.

(** Two maps agree on everything but the octree. *)
Definition same_rest (m m' : rmap) : Prop :=
  m_magic m' = m_magic m /\ m_version m' = m_version m /\ m_headersize m' = m_headersize m /\
  m_meta m' = m_meta m /\
  Forall2 (fun x y => fst x = fst y /\ same_vval (snd x) (snd y)) (m_vars m) (m_vars m') /\
  m_texmru m' = m_texmru m /\ Forall2 same_entity (m_ents m) (m_ents m') /\
  m_vslots m' = m_vslots m /\ m_chg m' = m_chg m.

(** The world size in the header of a map. *)
Definition header_size (m : rmap) : option Z :=
  match dget String.eqb (m_meta m) "worldsize"%string with Some (MInt n) => Some n | _ => None end.

(** Position of an entity: exactly m times the (doubled) coordinates of v, halved. *)
Definition placed_at (e : entity) (m : Z) (v : vec) : Prop :=
  feq (e_x e) (pf_of_num (nmulz (vx v) m)) /\ feq (e_y e) (pf_of_num (nmulz (vy v) m)) /\
  feq (e_z e) (pf_of_num (nmulz (vz v) m)).
(** Map units per unit of a vector's class: a coarse cell has 8 units, a map unit
    is a quarter unit. *)
Definition units (v : vec) : Z := match vc v with Coarse => 32 | _ => 4 end.
(** The position, in map units, is exact in the file. *)
Definition exact_coord (m : Z) (n : num) : Prop := - 2 ^ 24 < m * halves n < 2 ^ 24.
Definition exact_pos (m : Z) (v : vec) : Prop :=
  exact_coord m (vx v) /\ exact_coord m (vy v) /\ exact_coord m (vz v).
(** A constructor call made a well-formed entity of the type, at m times v, with the
    attributes. *)
Definition made (r : res entity) (ty : Z) (attrs : list attr) (m : Z) (v : vec) : Prop :=
  exists e, r = Ok e /\ wf_entity e /\ e_type e = ty /\ e_attrs e = attrs /\ placed_at e m v.

(** Entities appended by a list of edits, in order. *)
Definition added (edits : list edit) : list entity :=
  flat_map (fun d => match d with AddEnt e => [e] | _ => [] end) edits.
(** The last edit of variable [k] in a list given latest first: what it left there. *)
Fixpoint last_var (rev_edits : list edit) (k : list Z) : option (option vval) :=
  match rev_edits with
  | SetVar k' v :: r => if bytes_eqb k' k then Some (Some v) else last_var r k
  | DelVar k' :: r => if bytes_eqb k' k then Some None else last_var r k
  | _ :: r => last_var r k
  | [] => None
  end.
