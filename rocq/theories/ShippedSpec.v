(** Vocabulary for the properties of the shipped rooms. *)
From Verif Require Import Py VecModel VecSpec VoxelModel CodecModel OutModel UpmModel UpmSpec KitModel KitSpec RoomModel
  MagicaModel RoomSpec TexModel TexSpec LightModel LightSpec VoxFileModel ShippedModel.
Local Open Scope Z_scope.

(** A voxel file that can be used: it is readable, has voxels, every voxel is inside the declared
    box and has a colour of the palette. *)
Definition sound_file (f : list Z) : Prop :=
  exists v, read_file f = Ok v /\ vf_voxels v <> [] /\
    forall x y z c, In (x, y, z, c) (vf_voxels v) ->
      (let '(a, b, h) := vf_size v in 0 <= x < a /\ 0 <= y < b /\ 0 <= z < h) /\
      exists r g b a, nth_error (vf_palette v) (Z.to_nat c) = Some (r, g, b, a) /\ 0 <= c /\ Forall (fun k => 0 <= k < 256) [r; g; b].

(** The room of a class on cell [p], turned by [t]. *)
Definition room_of (s : shipped) (p : cell) (t : turn) : room := mk_room (s_class s) p t None.
(** The compass direction of a turn. *)
Definition facing (t : turn) : compass := match t with T0 => CE | T1 => CN | T2 => CW | T3 => CS end.

(** A doorway that can be used: it opens to a side, it leads out of the room, and the cell it
    leaves from is part of the room. *)
Definition usable_door (r : room) (d : door) : Prop :=
  (exists t, snd d = cdir t) /\ ~ In (fst d) (positions r) /\ In (csub (fst d) (snd d)) (positions r).

(** A point (doubled voxel coordinates) in a cell: half open on the upper side. *)
Definition point_in_cell (p : Z * Z * Z) (d : cell) : Prop :=
  let '(x, y, z) := p in let '(a, b, h) := d in
  16 * a <= x < 16 * (a + 1) /\ 16 * b <= y < 16 * (b + 1) /\ 16 * h <= z < 16 * (h + 1).
(** The entity stands in a cell of the room (four map units per voxel). *)
Definition inside_room (r : room) (e : entity) : Prop :=
  exists p d, stands e p 2 /\ In d (positions r) /\ point_in_cell p d.
(** The map with more entities, all else unchanged. *)
Definition more_ents (m : rmap) (es : list entity) (m' : rmap) : Prop :=
  m_ents m' = m_ents m ++ es /\ m_magic m' = m_magic m /\ m_version m' = m_version m /\
  m_headersize m' = m_headersize m /\ m_meta m' = m_meta m /\ m_vars m' = m_vars m /\
  m_texmru m' = m_texmru m /\ m_vslots m' = m_vslots m /\ m_chg m' = m_chg m /\ m_world m' = m_world m.
(** The number of the team that plays from a room facing [t]. *)
Definition team_of (t : turn) : Z := match t with T0 => 3 | T1 => 1 | T2 => 4 | T3 => 2 end.
(** The direction of a turn, in degrees. *)
Definition degrees (t : turn) : Z := match t with T0 => 0 | T1 => 90 | T2 => 180 | T3 => 270 end.
(** The entity asked for by a class facing [t]: a light with a colour of the manager, the flag of
    the team, a spawn point, a spawn point that looks to the left or one of two weapons, a pusher
    that pushes forward. *)
Definition asked_for (hue : vec -> Z * Z * Z) (t : turn) (x : extra) (e : entity) : Prop :=
  e_links e = [] /\ e_reserved e = [0; 0; 0] /\
  match x with
  | XLight _ sf => e_type e = 1 /\ exists q r g b, hue q = (r, g, b) /\
      e_attrs e = [num_attr (nmulz sf 64); AInt r; AInt g; AInt b; AInt 0; AInt 0]
  | XFlag _ => e_type e = 14 /\ e_attrs e = [AInt (team_of t); AInt 0; AInt 0; AInt 2; AInt 0; AInt 0]
  | XSpawn => e_type e = 3 /\ e_attrs e = [AInt 0; AInt 0; AInt 0; AInt 0; AInt 0; AInt 0]
  | XArms => (e_type e = 3 /\ e_attrs e = [AInt 0; AInt ((degrees t + 90) mod 360); AInt 0; AInt 0; AInt 0; AInt 0]) \/
             (e_type e = 9 /\ exists w, (w = 3 \/ w = 9) /\ e_attrs e = [AInt w; AInt 0; AInt 0; AInt 0; AInt 0])
  | XPusher _ => e_type e = 13 /\ e_attrs e = [AInt (degrees t); AInt 90; AInt 230; AInt 1; AInt 0; AInt 0]
  end.
(** The class makes what it asks for, all of it inside of its room, wherever it is placed, whatever
    the colours of the lights. *)
Definition furnished (s : shipped) : Prop :=
  forall p t pos orient hue m g, room_vectors (room_of s p t) pos orient ->
  exists es m' g', run_extras (LIGHTMAN hue) pos orient (s_extra s) m g = (Ok m', g') /\ more_ents m es m' /\
    Forall2 (asked_for hue t) (s_extra s) es /\ Forall (inside_room (room_of s p t)) es.

(** The colour a class gives to a palette entry, facing [t]. *)
Definition intended (k : painter) (t : turn) (rgb : Z * Z * Z) : comp * comp * comp :=
  let '(r, g, b) := rgb in
  match k with
  | Plain => components rgb
  | Team =>
      if (r =? 255) && (g =? 0) && (b =? 0) then
        match t with
        | T0 => (CInt 1, CInt 1, CInt 0)                                (* yellow *)
        | T1 => (CInt 0, CInt 0, CInt 1)                                (* blue *)
        | T2 => (CInt 0, CInt 1, CInt 0)                                (* green *)
        | T3 => components rgb                                          (* red *)
        end
      else components rgb
  | Mapped =>
      if (r =? 50) && (g =? 50) && (b =? 50) then (tenths 9, tenths 9, tenths 9)
      else if (r =? 255) && (g =? 255) && (b =? 0) then (CInt 1, CInt 0, CInt 0)
      else (tenths 1, tenths 1, tenths 1)
  end.
(** The number of a colour in a manager that has it. *)
Definition numbered (tm : texman) (c : comp * comp * comp) (k : Z) : Prop :=
  let '(r, g, b) := c in get_colour tm r g b = (tm, Ok k).
(** Every colour keeps its number. *)
Definition keeps_numbers (tm tm' : texman) : Prop := forall c k, numbered tm c k -> numbered tm' c k.
(** A texture manager in use: any requests made after the start. *)
Definition manager (tm : texman) : Prop := exists known reqs, has_base known /\ tm = asked (tm_init known) reqs.
(** The colours of the teams: 1 blue, 2 red, 3 yellow, 4 green. *)
Definition team_paint (team : Z) : comp * comp * comp :=
  if team =? 1 then (CInt 0, CInt 0, CInt 1)
  else if team =? 2 then components (255, 0, 0)
  else if team =? 3 then (CInt 1, CInt 1, CInt 0)
  else (CInt 0, CInt 1, CInt 0).
(** The class asks for a flag. *)
Definition has_flag (s : shipped) : bool := existsb (fun x => match x with XFlag _ => true | _ => false end) (s_extra s).

(** The classes with a door that leaves from outside the room. *)
Definition bad_doors : list shipped := [stair; stair_toplatform].
(** The classes with an entity outside the room. *)
Definition bad_extras : list shipped :=
  [castle_gate_simple; castle_wall_section_endcap; castle_wall_section_x; station_tube3; station_tube_jumpx].
(** In some orientation an entity is outside, wherever the room is placed. *)
Definition misplaced (s : shipped) : Prop :=
  exists t, forall p pos orient hue m g, room_vectors (room_of s p t) pos orient ->
  exists es m' g' e, run_extras (LIGHTMAN hue) pos orient (s_extra s) m g = (Ok m', g') /\ more_ents m es m' /\
    In e es /\ ~ inside_room (room_of s p t) e.
