(** Properties C102 to C104 of the vector classes of redeclipse/vector/re.py.  Statements only; proofs are in
    ReProofs.v. *)
From Coq Require Import QArith.
From Verif Require Import Py ReModel ReSpec ReProofs.
Local Open Scope Z_scope.

(** C102: the sum and the scalar product of two ivec3 do not depend on the order of the vectors.
    Refuted: only the components of the first one are cut to whole numbers. *)
Theorem C102_order_refuted : exists a b, to_dict (add a b) <> to_dict (add b a) /\ ~ (dot a b == dot b a)%Q.
Proof. exact order_matters. Qed.
Print Assumptions C102_order_refuted.
(** With whole numbers the laws of arithmetic hold. *)
Theorem C102_order_partial : forall a b c, whole a -> whole b -> whole c ->
  to_dict (add a b) = to_dict (add b a) /\ to_dict (add (add a b) c) = to_dict (add a (add b c)) /\
  to_dict (sub (add a b) b) = to_dict a /\ (dot a b == dot b a)%Q /\ (dot (add a b) c == dot a c + dot b c)%Q /\
  (iszero (sub a b) = true <-> to_dict a = to_dict b).
Proof. exact whole_arith. Qed.
Print Assumptions C102_order_partial.
(** Differences always cut both. *)
Theorem C102_sub_partial : forall a b, to_dict (sub a b) = zip Z.sub (to_dict a) (to_dict b).
Proof. exact sub_cuts. Qed.
Print Assumptions C102_sub_partial.
(** Cutting is towards zero. *)
Theorem C102_cut_partial : forall v, Forall2 cut (to_floats v) (to_dict v).
Proof. exact dict_cut. Qed.
Print Assumptions C102_cut_partial.
Example C102_nonvacuous : whole (ivec3 (8 # 2) 5 (-6)) /\ to_dict (add (ivec3 (8 # 2) 5 (-6)) (ivec3 1 1 1)) = [5; 6; -5] /\
  to_dict (sub (ivec3 (-1 # 2) (7 # 2) 0) (ivec3 1 (1 # 2) (-3 # 2))) = [-1; 3; 1].
Proof. split; [exists 4, 5, (-6); repeat split; reflexivity|]. vm_compute. auto. Qed.

(** C103: the cross product of vectors with whole components is perpendicular to both, changes its sign with
    the order, has the area of the parallelogram as its length, and vanishes exactly for vectors on one line. *)
Theorem C103_cross : forall a b, whole a -> whole b ->
  (dot (cross a b) a == 0)%Q /\ (dot (cross a b) b == 0)%Q /\ to_dict (cross b a) = map Z.opp (to_dict (cross a b)) /\
  (dot (cross a b) (cross a b) + dot a b * dot a b == dot a a * dot b b)%Q /\
  (iszero (cross a b) = true <-> collinear (to_dict a) (to_dict b)).
Proof. exact cross_laws. Qed.
Print Assumptions C103_cross.
Example C103_nonvacuous : to_dict (cross (ivec3 1 2 3) (ivec3 3 2 1)) = [-4; 8; -4] /\ iszero (cross (ivec3 2 4 6) (ivec3 (-3) (-6) (-9))) = true /\
  collinear [2; 4; 6] [-3; -6; -9].
Proof. split; [reflexivity|]. split; [reflexivity|]. exists 3, (-2). split; [lia|reflexivity]. Qed.

(** C104: the eight octants of a cube tile it: every point of the cube is in exactly one. *)
Theorem C104_octants : forall x y z s p, 0 < s ->
  (in_cube [x; y; z] (2 * s) p <-> exists i, 0 <= i < 8 /\ in_cube (to_dict (ivec5 i x y z s)) s p) /\
  forall i j, 0 <= i < 8 -> 0 <= j < 8 -> in_cube (to_dict (ivec5 i x y z s)) s p -> in_cube (to_dict (ivec5 j x y z s)) s p -> i = j.
Proof. exact octants_tile. Qed.
Print Assumptions C104_octants.
(** The place of a point in its octant is the mask of its components. *)
Theorem C104_path : forall v k, 0 <= k -> in_cube [0; 0; 0] (2 ^ (k + 1)) (X v, Y v, Z_ v) ->
  exists i, 0 <= i < 8 /\ in_cube (to_dict (ivec5 i 0 0 0 (2 ^ k))) (2 ^ k) (X v, Y v, Z_ v) /\
    to_dict (add (ivec5 i 0 0 0 (2 ^ k)) (mask v (2 ^ k - 1))) = to_dict v.
Proof. exact octant_path. Qed.
Print Assumptions C104_path.
(** Shifting and masking take every vector apart, also one with negative components. *)
Theorem C104_shift : forall v k, 0 <= k -> exists w q, whole q /\ to_dict q = map (fun x => x / 2 ^ k) (to_dict v) /\ shl q k = Ok w /\
  to_dict (add w (mask v (2 ^ k - 1))) = to_dict v.
Proof. exact shift_mask. Qed.
Print Assumptions C104_shift.
Example C104_nonvacuous : to_dict (ivec5 5 10 20 30 4) = [14; 20; 34] /\ in_cube [10; 20; 30] (2 * 4) (15, 23, 37) /\
  in_cube (to_dict (ivec5 5 10 20 30 4)) 4 (15, 23, 37) /\ to_dict (mask (ivec3 (-5) 13 6) 7) = [3; 5; 6].
Proof.
  split; [reflexivity|]. split; [exists 10, 20, 30; repeat split; lia|]. split; [|reflexivity]. exists 14, 20, 34. split; [reflexivity|]. lia.
Qed.
