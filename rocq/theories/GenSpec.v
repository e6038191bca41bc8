(** Vocabulary for the properties of the map generator. *)
From Verif Require Import Py VecModel VecSpec VoxelModel VoxelSpec CodecModel CodecSpec OutModel OutSpec UpmModel UpmSpec
  KitModel KitSpec RoomModel MagicaModel RoomSpec TexModel TexSpec LightModel LightSpec VoxFileModel ShippedModel ShippedSpec GenModel.
Local Open Scope Z_scope.

(** The vectors of every room object stand for its cell and direction. *)
Definition true_vectors (vecs : obj -> vec * vec) : Prop := forall ob, room_vectors (snd ob) (fst (vecs ob)) (snd (vecs ob)).
(** Colours of lights are bytes. *)
Definition byte_hues (hue : vec -> Z * Z * Z) : Prop :=
  forall q, let '(r, g, b) := hue q in 0 <= r < 256 /\ 0 <= g < 256 /\ 0 <= b < 256.
(** The mirror factors the manager knows, and the turns they stand for. *)
Definition mirror_factor (n : Z) : Prop := n = 1 \/ n = 2 \/ n = 4.
Definition turns_of (n : Z) : list turn := if n =? 1 then [T0] else if n =? 2 then [T0; T2] else [T0; T1; T2; T3].
(** The first room. *)
Definition start_room (ctf : bool) : room := room_of (first_room ctf) STARTING_POSITION T0.

(** The room has a block with textures [tex] at [xyz]: a voxel of its file in its frame, with the
    number of the colour its class intends. *)
Definition has_block (tm : texman) (r : room) (xyz : Z * Z * Z) (tex : list Z) : Prop :=
  exists s v q a red green blue alpha n, In s shipped_rooms /\ s_class s = r_cls r /\ read_file (s_file s) = Ok v /\
    voxel_colour (vf_voxels v) q = Some a /\ frame (r_pos r) (facing (r_turn r)) q = xyz /\
    nth_error (vf_palette v) (Z.to_nat a) = Some (red, green, blue, alpha) /\
    numbered tm (intended (s_paint s) (r_turn r) (red, green, blue)) n /\ tex = repeat n 6.
(** The entities the class of the room asks for; unless it is one of the classes that misplace
    something (ShippedSpec.v), inside of the room. *)
Definition furniture (hue : vec -> Z * Z * Z) (ob : obj) (es : list entity) : Prop :=
  exists s, In s shipped_rooms /\ s_class s = r_cls (snd ob) /\ Forall2 (asked_for hue (r_turn (snd ob))) (s_extra s) es /\
    (~ In s bad_extras -> Forall (inside_room (snd ob)) es).
(** The sun. *)
Definition is_sun (e : entity) : Prop :=
  e_type e = 8 /\ e_attrs e = [AInt 0; AInt 0; AInt 128; AInt 128; AInt 128; AInt 45; AInt 0; AInt 0] /\
  stands e (0, 0, 0) 2 /\ e_links e = [] /\ e_reserved e = [0; 0; 0].
(** The part of a file that the generator does not touch. *)
Definition same_settings (m m' : rmap) : Prop :=
  m_magic m' = m_magic m /\ m_version m' = m_version m /\ m_headersize m' = m_headersize m /\
  m_meta m' = dset String.eqb (m_meta m) "numents"%string (MInt (Z.of_nat (List.length (m_ents m')))) /\
  Forall2 (fun x y => fst x = fst y /\ same_vval (snd x) (snd y)) (m_vars m) (m_vars m') /\
  m_texmru m' = m_texmru m /\ m_vslots m' = m_vslots m /\ m_chg m' = m_chg m.
(** The flags of a list of entities. *)
Definition flags_of (es : list entity) : list entity := filter (fun e => e_type e =? 14) es.
(** The flag of the team that plays from the room. *)
Definition flag_in (r : room) (e : entity) : Prop :=
  hd_error (e_attrs e) = Some (AInt (team_of (r_turn r))) /\ inside_room r e.
(** The nodes of the exported graph are the rooms, each once, and one that stands for no room. *)
Definition true_nodes (st : upm) : Prop :=
  NoDup (graph_nodes st) /\ forall o, In o (graph_nodes st) <-> o = None \/ exists ob, In ob (u_rooms st) /\ o = Some (fst ob).
(** Every exported link joins the two rooms it was recorded for: those at the recorded positions. *)
Definition true_links (st : upm) : Prop :=
  forall i a b, nth_error (u_links st) i = Some (a, b) -> exists oa ob, In oa (u_rooms st) /\ In ob (u_rooms st) /\
    r_pos (snd oa) = a /\ r_pos (snd ob) = b /\ nth_error (graph_links st) i = Some (Some (fst oa), Some (fst ob)).
(** The point is inside of a world of the given size. *)
Definition in_world (size : Z) (p : Z * Z * Z) : Prop := let '(x, y, z) := p in 0 <= x < size /\ 0 <= y < size /\ 0 <= z < size.
(** A stream of numbers for the examples. *)
Definition stream : rng := fun i => (2 * Z.of_nat i * Z.of_nat i + 7 * Z.of_nat i) mod 1009.
