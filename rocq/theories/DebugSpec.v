(** Vocabulary for the properties of the map generator in debug mode. *)
From Verif Require Import Py VecModel VecSpec VoxelModel VoxelSpec CodecModel CodecSpec OutModel OutSpec UpmModel UpmSpec
  KitModel KitSpec TexModel TexSpec LightModel LightSpec ShippedModel ShippedSpec GenModel GenSpec RoomEntModel RoomEntSpec DebugModel.
Local Open Scope Z_scope.

(** The cells that the open doors of a layout lead to. *)
Definition door_cells (st : upm) : list cell := map (fun e => fst (fst e)) (u_open st).
(** The plate of a marker: the middle four by four blocks of the floor of the cell. *)
Definition on_plate (d v : cell) : Prop :=
  let '(a, b, h) := d in let '(x, y, z) := v in 8 * a + 2 <= x < 8 * a + 6 /\ 8 * b + 2 <= y < 8 * b + 6 /\ z = 8 * h.
(** Pure red. *)
Definition red : comp * comp * comp := (CInt 1, CInt 0, CInt 0).
(** A box of grenades, in the middle of the cell, one block above its floor (coordinates are doubled). *)
Definition grenade_at (hue : vec -> Z * Z * Z) (d : cell) (e : entity) : Prop :=
  of_sort hue GrenadeBox e /\ let '(a, b, h) := d in stands e (16 * a + 8, 16 * b + 8, 16 * h + 2) 2.
