(** Model of redeclipse/worldflavors.py and of the configuration file redeclipse/cli/__init__.py
    writes.  The text of the textures is in TexModel.v; the file's name is there too. *)
From Coq Require Import Ascii.
From Verif Require Import Py TexModel.
Local Open Scope Z_scope.
Local Open Scope string_scope.

(** worldflavors.py:5-13. *)
Definition space_station : list string :=
  ["gravity 0"; "impulselimit 120"; "aircoast 250"; "impulsestyle 3"; "impulseregen 1000"; "impulsecount 10"].
(** worldflavors.py:16-25 — 0xff0000 and 0xff3333 are printed in decimal. *)
Definition maliwan : list string :=
  ["shotgunrays1 40"; "shotgunspread1 25"; "shotgunammoadd 8"; "shotgunammosub1 4";
   "shotguncolor " ++ decimal 16711680; "shotgunexplcol1 " ++ decimal 16724787; "shotgunexplode1 500"].
(** worldflavors.py:28-31. *)
Definition crushed_blacks : list string := ["ambient 0"].
(** worldflavors.py:34-38. *)
Definition choices : list string := ["space_station"; "crushed_blacks"; "maliwan"].
(** worldflavors.py:46 — [globals()[flavor]()].  Names of other globals of the module (which
    argparse does not let pass) are not modelled. *)
Definition flavour (name : string) : res (list string) :=
  if String.eqb name "space_station" then Ok space_station
  else if String.eqb name "maliwan" then Ok maliwan
  else if String.eqb name "crushed_blacks" then Ok crushed_blacks
  else Err KeyError.
(** worldflavors.py:41-50 — update; [extra] is world.cfg_extra. *)
Fixpoint add_flavours (extra : list string) (l : list string) : res (list string) :=
  match l with
  | [] => Ok extra
  | f :: r => let! x := flavour f in add_flavours (extra ++ x) r
  end.
Definition update (extra : list string) (flavours : option (list string)) : res (list string) :=
  match flavours with None => Ok extra | Some l => add_flavours extra l end.

(** cli/__init__.py:25-32 with textures/__init__.py:177-182 — the text of the configuration file. *)
Definition config_text (show : comp -> string) (tm : texman) (extra : list string) : string :=
  emit_conf show "Python" "test" tm ++ fold_right (fun line rest => line ++ nl ++ rest) "" extra.
