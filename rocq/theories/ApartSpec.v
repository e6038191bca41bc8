(** Vocabulary for the property that entities of a map stand at different places. *)
From Verif Require Import Py CodecModel CodecSpec UpmModel ShippedModel GenModel GenSpec.
Local Open Scope Z_scope.

(** Two entities have the same coordinates. *)
Definition one_place (e e' : entity) : Prop := feq (e_x e) (e_x e') /\ feq (e_y e) (e_y e') /\ feq (e_z e) (e_z e').
(** The room is of one of the two classes in use that put lights outside of their rooms. *)
Definition stray (r : room) : Prop := r_cls r = s_class castle_gate_simple \/ r_cls r = s_class castle_wall_section_endcap.
(** The sun and the entities of the rooms are at different places, except for lights of two rooms, one of
    which puts lights outside. *)
Definition mostly_apart (rooms : list obj) (sun : entity) (ess : list (list entity)) : Prop :=
  (forall e, In e (List.concat ess) -> ~ one_place sun e) /\
  (forall es i j e e', In es ess -> nth_error es i = Some e -> nth_error es j = Some e' -> one_place e e' -> i = j) /\
  (forall i j a b es es' e e', nth_error rooms i = Some a -> nth_error rooms j = Some b -> nth_error ess i = Some es -> nth_error ess j = Some es' ->
     In e es -> In e' es' -> i <> j -> one_place e e' -> e_type e = 1 /\ e_type e' = 1 /\ (stray (snd a) \/ stray (snd b))).
(** The entities that a room asks for, as read from a file. *)
Definition furniture_read (hue : VecModel.vec -> Z * Z * Z) (ob : obj) (es : list entity) : Prop :=
  exists es0, furniture hue ob es0 /\ Forall2 same_entity es0 es.
