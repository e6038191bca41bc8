(** What the properties about skies say. *)
From Verif Require Import Py.
Local Open Scope string_scope.

(** The six sides of a sky, as the game names their images. *)
Definition sides : list string := ["_bk.jpg"; "_dn.jpg"; "_ft.jpg"; "_lf.jpg"; "_rt.jpg"; "_up.jpg"].

(** A text contains the images of a sky at a path below the data directory of the game. *)
Definition sky_image (path f : string) : Prop := exists s, In s sides /\ f = "data/" ++ path ++ s.

(** A file is another with some bytes inserted at a position. *)
Definition inserted (pos : nat) (extra old new : list Z) : Prop :=
  (pos <= List.length old)%nat /\ new = (firstn pos old ++ extra ++ skipn pos old)%list.
