(** Model of the printed forms of vectors (redeclipse/vector/__init__.py) and of rooms (redeclipse/prefabs/magica.py).

    Simplification.  Floats from 10^16 on are printed with an exponent; they are out of the model. *)
From Verif Require Import Py VecModel TexModel SeqModel.
Local Open Scope string_scope.
Local Open Scope Z_scope.

(** [str] of a number: an int in decimal, a float with its one fractional digit. *)
Definition num_text (n : num) : res string :=
  match n with
  | I z => Ok (decimal z)
  | H h => if 2 * 10 ^ 16 <=? Z.abs h then Err OutOfModel
           else Ok ((if h <? 0 then "-" else "") ++ decimal (Z.abs h / 2) ++ "." ++ (if Z.abs h mod 2 =? 0 then "0" else "5"))
  end.
(** vector/__init__.py:61-62, 185-187, 244-246 — __repr__. *)
Definition vec_text (v : vec) : res string :=
  let! x := num_text (vx v) in let! y := num_text (vy v) in let! z := num_text (vz v) in
  let base := "BV(" ++ x ++ ", " ++ y ++ ", " ++ z ++ ")" in
  Ok (match vc v with Base => base | Fine => "FV(" ++ base ++ ")" | Coarse => "CV(" ++ base ++ ")" end).
(** prefabs/magica.py:27-28 — MagicaRoom.__repr__. *)
Definition room_text (name : string) (orientation pos : vec) : res string :=
  let! p := vec_text pos in
  Ok ("<MagicaRoom " ++ name ++ " facing:" ++ (match direction_name orientation with Some d => d | None => "None" end) ++ ",pos:" ++ p ++ ">").
