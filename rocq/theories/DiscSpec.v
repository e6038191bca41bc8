(** Vocabulary for the programs that read and write map files. *)
From Verif Require Import Py CodecModel CodecSpec DiscModel.
Local Open Scope Z_scope.

(** Only the five kinds of cubes of the format in the whole tree. *)
Inductive known_kinds : cube -> Prop :=
| known_node : forall c l, kind c = 0 -> c_children c = Some l -> Forall known_kinds l -> known_kinds c
| known_leaf : forall c, 1 <= kind c <= 4 -> known_kinds c.

(** The header counts the variables of the map. *)
Definition counted (m : rmap) : Prop := forall n, header_vars m = Some n -> Z.max 0 n = len (m_vars m).

(** All files but the named ones are the same. *)
Definition same_but (names : list string) (d d' : disc) : Prop := forall f, ~ In f names -> d' f = d f.

(** Reserved bytes below 128 and no changed texture slots: what the writer wants of everything but the octree. *)
Definition plain_rest (m : rmap) : Prop := Forall (fun e => Forall (fun r => r < 128) (e_reserved e)) (m_ents m) /\ Forall (fun c => c < 0) (m_chg m).
