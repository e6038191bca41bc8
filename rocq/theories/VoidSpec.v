(** Vocabulary for the doors that are left open. *)
From Verif Require Import Py UpmModel UpmSpec VoxFileModel ShippedModel GenModel.
Local Open Scope Z_scope.

(** No two doors of the class are on the same side. *)
Definition one_way (c : rclass) : Prop := forall fl d d', In d (rc_doors c fl) -> In d' (rc_doors c fl) -> snd d = snd d' -> d = d'.
(** A room of the map has the cell. *)
Definition in_some_room (l : list obj) (c : cell) : Prop := exists ob, In ob l /\ In c (positions (snd ob)).
(** The cell below. *)
Definition below (c : cell) : cell := let '(x, y, z) := c in (x, y, z - 1).
(** The door leads into the void: no room has the cell behind it. *)
Definition into_void (l : list obj) (c : cell) : Prop := (exists ob o, In ob l /\ In (c, o) (doorways (snd ob))) /\ ~ in_some_room l c.
(** The room is one of the two kinds of endcaps. *)
Definition is_cap (ob : obj) : bool := existsb (fun s => rc_id (s_class s) =? rc_id (r_cls (snd ob))) possible_endcaps.
