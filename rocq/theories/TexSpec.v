(** Vocabulary for the texture properties. *)
From Coq Require Import Ascii.
From Verif Require Import Py TexModel.
Local Open Scope Z_scope.

Definition req_name (q : request) : tname := match q with RGet s => Named s | RColour r g b => Coloured r g b end.
(** A table of known textures with the two built-in ones. *)
Definition has_base (known : list (tname * tex)) : Prop :=
  dget tname_eqb known (Named "sky") = Some Sky /\ dget tname_eqb known (Named "default") = Some Default.
(** A request that can be served: any colour, or a name in the table. *)
Definition servable (known : list (tname * tex)) (q : request) : bool :=
  match q with RGet s => dmem tname_eqb known (Named s) | RColour _ _ _ => true end.
(** The texture meant by a name. *)
Definition texture_of (known : list (tname * tex)) (n : tname) : option tex :=
  match n with Coloured r g b => Some (Colour SIMPLE_COLOUR r g b) | Named s => dget tname_eqb known n end.
(** The names used so far: the two built-in ones, then the requests that could be served. *)
Definition used (known : list (tname * tex)) (l : list request) : list tname :=
  Named "sky" :: Named "default" :: map req_name (filter (servable known) l).
(** First occurrences. *)
Fixpoint firsts (seen l : list tname) : list tname :=
  match l with
  | [] => []
  | n :: l' => if existsb (tname_eqb n) seen then firsts seen l' else n :: firsts (n :: seen) l'
  end.
(** The distinct names used, in the order of first use. *)
Definition in_order (known : list (tname * tex)) (l : list request) : list tname := firsts [] (used known l).

(** Text. *)
Local Open Scope string_scope.
Definition newline : ascii := Ascii.ascii_of_nat 10.
Fixpoint lines_from (cur s : string) : list string :=
  match s with
  | "" => [cur]
  | String c r => if Ascii.eqb c newline then cur :: lines_from "" r else lines_from (cur ++ String c "") r
  end.
(** The lines of a text that are not empty. *)
Definition statements (s : string) : list string := filter (fun l => negb (String.eqb l "")) (lines_from "" s).
Fixpoint one_line (s : string) : Prop :=
  match s with "" => True | String c r => c <> newline /\ one_line r end.
(** A statement that opens a new texture slot. *)
Definition opens_slot (s : string) : bool := String.prefix "texture c " s.
(** All text attributes fit on one line. *)
Definition opt_line (o : option string) : Prop := match o with Some s => one_line s | None => True end.
Definition tidy (t : tex) : Prop :=
  match t with
  | Sky | Default => True
  | Colour cls _ _ _ => one_line cls
  | Simple cls a b c => one_line cls /\ one_line a /\ one_line b /\ one_line c
  | Bump cls a b c d e o => one_line cls /\ one_line a /\ one_line b /\ one_line c /\ one_line d /\ one_line e /\ opt_line o
  | Parallax cls a b c d e o p q => one_line cls /\ one_line a /\ one_line b /\ one_line c /\ one_line d /\ one_line e /\
      opt_line o /\ opt_line p /\ opt_line q
  | Glow cls a b c d e f o p q r => one_line cls /\ one_line a /\ one_line b /\ one_line c /\ one_line d /\ one_line e /\
      one_line f /\ opt_line o /\ opt_line p /\ opt_line q /\ opt_line r
  end.
(** No colour is appended to a bump mapped texture. *)
Definition untinted (t : tex) : Prop := match t with Bump _ _ _ _ _ _ (Some _) => False | _ => True end.

(** Some occurrence of b in a. *)
Definition occurs (b a : string) : Prop := exists x y, a = x ++ b ++ y.

(** The five categories of material, and the colour each (or any other) stands for in the colour manager. *)
Definition categories : list string := ["generic"; "column"; "floor"; "wall"; "accent"].
Definition category_request (category : string) : request :=
  if String.eqb category "generic" then RColour (CInt 0) (CInt 0) (CInt 0)
  else if String.eqb category "column" then RColour (tenths 5) (tenths 5) (tenths 5)
  else if String.eqb category "floor" then RColour (tenths 1) (tenths 1) (tenths 1)
  else if String.eqb category "wall" then RColour (tenths 9) (tenths 9) (tenths 9)
  else if String.eqb category "accent" then RColour (CInt 1) (CInt 0) (CInt 0)
  else RColour (CInt 0) (CInt 0) (CInt 1).
(** Tables all of whose textures are untinted, or tidy. *)
Definition safe_table (known : list (tname * tex)) : Prop := Forall (fun nt : tname * tex => untinted (snd nt)) known.
Definition tidy_table (known : list (tname * tex)) : Prop := Forall (fun nt : tname * tex => tidy (snd nt)) known.
