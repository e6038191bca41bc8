(** Vocabulary for the properties about the places of entities: free space, and places a player can
    get to. *)
From Verif Require Import Py VecModel VecSpec VoxelModel CodecModel OutModel UpmModel UpmSpec KitModel KitSpec RoomModel MagicaModel RoomSpec
  LightModel LightSpec VoxFileModel ShippedModel ShippedSpec GenModel GenSpec PassSpec.
Local Open Scope Z_scope.

(** The voxel touches the point (doubled voxel coordinates). *)
Definition around (p : Z * Z * Z) (v : cell) : Prop :=
  let '(x, y, z) := p in let '(i, j, k) := v in 2 * i <= x <= 2 * i + 2 /\ 2 * j <= y <= 2 * j + 2 /\ 2 * k <= z <= 2 * k + 2.
(** There is room for the entity: some voxel it touches has no block of the room. *)
Definition has_space (r : room) (e : entity) : Prop := exists p v, stands e p 2 /\ around p v /\ ~ built r v.
(** The entity is in the middle of blocks of the room. *)
Definition buried (r : room) (e : entity) : Prop := exists p, stands e p 2 /\ forall v, around p v -> built r v.
(** The classes with a light inside of their blocks. *)
Definition dark : list shipped := [house_2x2x3; gate].

(** Entities players are interested in: spawn points, weapons and flags. *)
Definition of_interest (e : entity) : Prop := e_type e = 3 \/ e_type e = 9 \/ e_type e = 14.
(** The body has the entity in its middle, at its feet or above; at its feet if it is no flag. *)
Definition meets (a : cell) (e : entity) : Prop :=
  exists x y z, stands e (x, y, z) 2 /\
    let '(i, j, k) := a in x = 2 * i + 2 /\ y = 2 * j + 2 /\ 2 * k <= z <= 2 * k + 8 /\ (e_type e <> 14 -> z = 2 * k).
(** A body can go from the doorway to the entity. *)
Definition way_to (air : cell -> Prop) (d : door) (e : entity) : Prop :=
  exists a b, In a (doorsteps d) /\ meets b e /\ walk (fits air) a b.
(** In the air, nothing leads from the cell of the doorway to the entity; or from one entity to
    the other. *)
Definition unreached (air : cell -> Prop) (d : door) (e : entity) : Prop :=
  exists p, stands e p 2 /\ forall a a', voxel_in_cell a (sill d) -> around p a' -> ~ walk air a a'.
Definition apart (air : cell -> Prop) (e e' : entity) : Prop :=
  exists p p', stands e p 2 /\ stands e' p' 2 /\ forall a a', around p a -> around p' a' -> ~ walk air a a'.
(** The spawn points of a list of entities. *)
Definition spawns_of (es : list entity) : list entity := filter (fun e => e_type e =? 3) es.
(** The spawn rooms among the rooms of a map. *)
Definition is_spawn_room (ob : obj) : bool := rc_id (r_cls (snd ob)) =? rc_id (s_class spawn_room).
