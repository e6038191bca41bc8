(** Face property C51.  Statements only; proofs are in FaceProofs.v. *)
From Verif Require Import Py FaceModel FaceSpec FaceProofs.
Local Open Scope Z_scope.

(** C51: the vertices of each face are the vertices of its four corners, in order around the
    face; the vertex of a corner depends only on the edges, not on the face. *)
Theorem C51_shared_corners : exists ring : Z -> list corner, forall o, 0 <= o <= 5 ->
  goes_round o (ring o) /\
  forall edges, List.length edges = 12%nat -> genfaceverts edges o = Ok (Some (map (vertex edges) (ring o))).
Proof. exact shared_corners. Qed.
Print Assumptions C51_shared_corners.
(** C51: with edges that are bytes every component of a vertex lies in 0..15. *)
Theorem C51_range : forall edges o vs v, Forall (fun b => 0 <= b <= 255) edges -> List.length edges = 12%nat ->
  genfaceverts edges o = Ok (Some vs) -> In v vs ->
  let '(x, y, z) := v in 0 <= x <= 15 /\ 0 <= y <= 15 /\ 0 <= z <= 15.
Proof. exact vertex_range. Qed.
Print Assumptions C51_range.
Example C51_range_example : let edges := [128; 113; 128; 255; 0; 18; 52; 86; 120; 154; 188; 222] in
  Forall (fun b => 0 <= b <= 255) edges /\ List.length edges = 12%nat /\
  genfaceverts edges 3 = Ok (Some [(1, 0, 12); (15, 1, 11); (15, 5, 13); (7, 3, 14)]).
Proof. split; [repeat constructor; lia|]. split; reflexivity. Qed.
(** C51: the vertices of a new cube are the corners of the full cube, and every face of it is
    a square whose vertices turn the same way as seen from outside. *)
Theorem C51_new_cube : forall c, vertex new_edges c = (8 * Z.b2z (side 0 c), 8 * Z.b2z (side 1 c), 8 * Z.b2z (side 2 c)).
Proof. exact new_cube. Qed.
Print Assumptions C51_new_cube.
Theorem C51_new_cube_winding : forall o p q r s, genfaceverts new_edges o = Ok (Some [p; q; r; s]) ->
  cross (minus q p) (minus r p) = scale 64 (outward o) /\ minus q p = minus r s.
Proof. exact new_cube_winding. Qed.
Print Assumptions C51_new_cube_winding.
Example C51_winding_example : genfaceverts new_edges 4 = Ok (Some [(0, 0, 0); (0, 8, 0); (8, 8, 0); (8, 0, 0)]) /\
  List.length new_edges = 12%nat.
Proof. split; reflexivity. Qed.
(** C51: other numbers are no faces; opposite faces lie on opposite sides of one axis. *)
Theorem C51_no_face : forall edges o, ~ 0 <= o <= 5 -> genfaceverts edges o = Ok None.
Proof. exact no_face. Qed.
Print Assumptions C51_no_face.
Theorem C51_opposite : forall o, 0 <= o <= 5 ->
  o = 2 * dimension o + dimcoord o /\ 0 <= dimension o <= 2 /\ 0 <= dimcoord o <= 1 /\
  opposite (opposite o) = o /\ dimension (opposite o) = dimension o /\ dimcoord (opposite o) = 1 - dimcoord o.
Proof. exact orient_parts. Qed.
Print Assumptions C51_opposite.
