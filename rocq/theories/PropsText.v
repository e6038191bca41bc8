(** Property C120 of the printed forms of vectors and rooms.  Statements only; proofs are in TextProofs.v. *)
From Verif Require Import Py VecModel VecSpec TexModel TextModel TextProofs.
Local Open Scope string_scope.
Local Open Scope Z_scope.

(** C120: what is printed of a vector or of a room tells which one it is.

    Every vector of ints, and of floats short of 10^16, is printed; ints appear in the order of the coordinates; two vectors
    printed alike are of one class and have the same coordinates, of the same kind of number. *)
Theorem C120_printed : forall v, printable (vx v) -> printable (vy v) -> printable (vz v) -> exists t, vec_text v = Ok t.
Proof. exact vec_printed. Qed.
Print Assumptions C120_printed.
Theorem C120_order : forall c x y z, vec_text (V c (I x) (I y) (I z)) =
  Ok (let b := "BV(" ++ decimal x ++ ", " ++ decimal y ++ ", " ++ decimal z ++ ")" in match c with Base => b | Fine => "FV(" ++ b ++ ")" | Coarse => "CV(" ++ b ++ ")" end).
Proof. exact whole_shape. Qed.
Print Assumptions C120_order.
Theorem C120_vector : forall v w t, vec_text v = Ok t -> vec_text w = Ok t -> v = w.
Proof. exact vec_identified. Qed.
Print Assumptions C120_vector.
(** Rooms that point in one of the four directions, with names without a colon, printed alike have the same name, direction
    and position. *)
Theorem C120_room : forall name name' o o' p p' t c c', colonless name = true -> colonless name' = true -> points_to o c -> points_to o' c' -> vc p = vc p' ->
  room_text name o p = Ok t -> room_text name' o' p' = Ok t -> name = name' /\ c = c' /\ p = p'.
Proof. exact room_identified. Qed.
Print Assumptions C120_room.
(** The converse is not claimed: equal vectors are printed differently when one coordinate is an int and the other a float. *)
Theorem C120_equal : exists v w t u, veq v w = true /\ vec_text v = Ok t /\ vec_text w = Ok u /\ t <> u.
Proof. exact equal_differ. Qed.
Print Assumptions C120_equal.
Example C120_example : vec_text (V Fine (I (-12)) (H (-1)) (H 7)) = Ok "FV(BV(-12, -0.5, 3.5))" /\ colonless "castle_gate" = true /\ points_to NORTH CN /\
  room_text "castle_gate" NORTH (V Coarse (I 1) (I 2) (I 3)) = Ok "<MagicaRoom castle_gate facing:NORTH,pos:CV(BV(1, 2, 3))>".
Proof.
  split; [vm_compute; reflexivity|]. split; [reflexivity|]. split; [|vm_compute; reflexivity]. apply SeqProofs.named. vm_compute. reflexivity.
Qed.
