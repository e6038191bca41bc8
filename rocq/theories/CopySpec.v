(** Vocabulary for the texture files of a map. *)
From Coq Require Import Ascii.
From Verif Require Import Py TexModel TexSpec.
Local Open Scope string_scope.

(** No double quote in the text. *)
Fixpoint unquoted (s : string) : Prop :=
  match s with "" => True | String c r => c <> Ascii.ascii_of_nat 34 /\ unquoted r end.
(** A statement of the configuration that gives a texture a file in the directory the program installs
    to: texture c "hxr/textures/<f>" ... *)
Definition names_file (s f : string) : Prop :=
  exists slot rest, s = "texture " ++ String slot "" ++ " " ++ quote ++ "hxr/textures/" ++ f ++ quote ++ rest /\ unquoted f.
(** Every file named is among the copied ones. *)
Definition all_installed (text : string) (copied : list string) : Prop :=
  forall s f, In s (statements text) -> names_file s f -> In f copied.
(** The materials of a theme. *)
Definition materials (th : theme) : list string := (th_generic th ++ th_column th ++ th_floor th ++ th_wall th ++ th_accent th)%list.
(** Requests for some of the named textures only. *)
Definition names_among (names : list string) (l : list request) : Prop :=
  Forall (fun q => exists s, q = RGet s /\ In s names) l.
