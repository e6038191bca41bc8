(** Vocabulary for the fairness of generated maps. *)
From Verif Require Import Py VecModel VecSpec VoxelModel VoxelSpec CodecModel CodecSpec OutModel OutSpec UpmModel UpmSpec
  KitModel KitSpec RoomModel MagicaModel RoomSpec TexModel TexSpec LightModel LightSpec VoxFileModel ShippedModel ShippedSpec GenModel GenSpec.
Local Open Scope Z_scope.

(** The map turned about the vertical axis through the middle of cell (16, 16): where voxel [p] goes. *)
Definition turn_voxel (t : turn) (p : Z * Z * Z) : Z * Z * Z :=
  let '(x, y, z) := p in
  match t with T0 => (x, y, z) | T1 => (263 - y, x, z) | T2 => (263 - x, 263 - y, z) | T3 => (y, 263 - x, z) end.
(** The same for a point in doubled voxel coordinates. *)
Definition turn_point (t : turn) (p : Z * Z * Z) : Z * Z * Z :=
  let '(x, y, z) := p in
  match t with T0 => (x, y, z) | T1 => (528 - y, x, z) | T2 => (528 - x, 528 - y, z) | T3 => (y, 528 - x, z) end.
(** The world has a block at [p]. *)
Definition solid (w : world (list Z)) (p : Z * Z * Z) : Prop :=
  let '(x, y, z) := p in get_point w (I x) (I y) (I z) <> None.
(** Every team sees the same shape: turned by a turn of the mirror factor, blocks are on blocks. *)
Definition fair_shape (n : Z) (w : world (list Z)) : Prop :=
  forall t p, In t (turns_of n) -> solid w p -> solid w (turn_voxel t p).
(** The room closes a door. *)
Definition closes_door (r : room) : Prop := exists s, In s possible_endcaps /\ r_cls r = s_class s.
(** The room shows the colour of its team. *)
Definition team_coloured (r : room) : Prop := exists s, In s shipped_rooms /\ s_class s = r_cls r /\ s_paint s = Team.
(** Room [r'] is what room [r] is for the team a turn of [t] further. *)
Definition counterpart (t : turn) (tm : texman) (r r' : room) : Prop :=
  r_cls r' = r_cls r /\
  (forall p tex, has_block tm r p tex ->
     exists tex', has_block tm r' (turn_voxel t p) tex' /\ (team_coloured r \/ tex' = tex)) /\
  (forall p tex', has_block tm r' (turn_voxel t p) tex' -> exists tex, has_block tm r p tex).
(** The same for entities. *)
Definition entity_counterpart (t : turn) (e e' : entity) : Prop :=
  e_type e' = e_type e /\ exists p, stands e p 2 /\ stands e' (turn_point t p) 2.
