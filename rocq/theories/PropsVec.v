(** Property theorems about vectors (C01-C09).  Statements only; proofs are in
    VecProofs.v and FloatRot.v. *)
From Verif Require Import Py VecModel VecSpec VecProofs FloatRot.
From Coq Require Import QArith Qabs.
#[local] Open Scope Z_scope.

(** C01: [==] is an equivalence relation on all vectors ... *)
Theorem C01_equality_equivalence :
  (forall a, veq a a = true) /\ (forall a b, veq a b = true -> veq b a = true) /\
  (forall a b c, veq a b = true -> veq b c = true -> veq a c = true).
Proof. exact veq_equivalence. Qed.
Print Assumptions C01_equality_equivalence.

(** ... and holds exactly for two plain vectors with the same coordinates or two
    positional ones denoting the same fine position (coarse = 8 fine units). *)
Theorem C01_equality_meaning : forall a b,
  veq a b = true <->
  (vc a = Base /\ vc b = Base /\ coords2 a = coords2 b) \/
  (vc a <> Base /\ vc b <> Base /\ fpos2 a = fpos2 b).
Proof. exact veq_meaning. Qed.
Print Assumptions C01_equality_meaning.
Example C01_nonvacuous :
  veq (V Coarse (I 1) (H 4) (I (-3))) (V Fine (I 8) (I 16) (H (-48))) = true /\
  veq (V Coarse (I 1) (I 2) (I 3)) (V Fine (I 1) (I 2) (I 3)) = false /\
  veq (V Base (I 8) (I 8) (I 8)) (V Fine (I 8) (I 8) (I 8)) = false.
Proof. vm_compute. auto. Qed.

(** C02, the part that holds: within one class equal vectors hash equally. *)
Theorem C02_hash_same_class_partial : forall a b,
  vc a = vc b -> veq a b = true -> vhash a = vhash b.
Proof. exact hash_same_class. Qed.
Print Assumptions C02_hash_same_class_partial.
Example C02_nonvacuous :
  let a := V Coarse (I 3) (I (-2)) (H 5) in let b := V Coarse (H 6) (I (-2)) (H 5) in
  vc a = vc b /\ veq a b = true /\ a <> b.
Proof. cbn. repeat split. congruence. Qed.

(** C02, the full claim is false: equal vectors of different classes hash differently. *)
Theorem C02_hash_equal_vectors_refuted : exists a b, veq a b = true /\ vhash a <> vhash b.
Proof. exact hash_cross_class_refuted. Qed.
Print Assumptions C02_hash_equal_vectors_refuted.

(** C03: strict total order within a class (transitive even across classes). *)
Theorem C03_order_same_class_partial :
  (forall a, vlt a a = false) /\
  (forall a b c, vlt a b = true -> vlt b c = true -> vlt a c = true) /\
  (forall a b, vc a = vc b ->
     (vlt a b = true /\ veq a b = false /\ vlt b a = false) \/
     (vlt a b = false /\ veq a b = true /\ vlt b a = false) \/
     (vlt a b = false /\ veq a b = false /\ vlt b a = true)) /\
  (forall a b, vc a = vc b -> (vle a b = true <-> vlt b a = false)).
Proof. exact vlt_strict_total. Qed.
Print Assumptions C03_order_same_class_partial.
Theorem C03_order_lexicographic : forall a b,
  vlt a b = true <->
  (halves (vx a) < halves (vx b) \/
   (halves (vx a) = halves (vx b) /\
    (halves (vy a) < halves (vy b) \/
     (halves (vy a) = halves (vy b) /\ halves (vz a) < halves (vz b))))).
Proof. exact vlt_meaning. Qed.
Print Assumptions C03_order_lexicographic.
Example C03_nonvacuous :
  let a := V Fine (I 3) (I 2) (H 5) in let b := V Fine (H 6) (I 2) (I 3) in
  vc a = vc b /\ vlt a b = true.
Proof. vm_compute. auto. Qed.
(** C03, across classes: two vectors can be equal and yet one less than the other. *)
Theorem C03_order_across_classes_refuted : exists a b, veq a b = true /\ vlt a b = true.
Proof. exact lt_cross_class_refuted. Qed.
Print Assumptions C03_order_across_classes_refuted.

(** C04: addition and subtraction of fine and coarse vectors in any mix. *)
Theorem C04_add_sub_inverse : forall a b,
  vc a <> Base -> vc b <> Base ->
  exists s s' d, vadd a b = Ok s /\ vadd b a = Ok s' /\ veq s s' = true /\
    vsub s b = Ok d /\ veq d a = true /\
    fpos2 s = t3add (fpos2 a) (fpos2 b).
Proof. exact vadd_vsub_inverse. Qed.
Print Assumptions C04_add_sub_inverse.
Theorem C04_sub_meaning : forall a b,
  vc a <> Base -> vc b <> Base ->
  exists r, vsub a b = Ok r /\ fpos2 r = t3sub (fpos2 a) (fpos2 b) /\
            vc r = (if vcls_eqb (vc a) Coarse && vcls_eqb (vc b) Coarse then Coarse else Fine).
Proof. exact vsub_meaning. Qed.
Print Assumptions C04_sub_meaning.
Theorem C04_add_class : forall a b,
  vc a <> Base -> vc b <> Base ->
  exists r, vadd a b = Ok r /\ fpos2 r = t3add (fpos2 a) (fpos2 b) /\
            vc r = (if vcls_eqb (vc a) Coarse && vcls_eqb (vc b) Coarse then Coarse else Fine).
Proof. exact vadd_meaning. Qed.
Print Assumptions C04_add_class.
(** Plain vectors: only among themselves; mixing is rejected. *)
Theorem C04_plain_vectors : forall a b,
  (vc a = Base /\ vc b = Base ->
     exists s d, vadd a b = Ok s /\ vsub a b = Ok d /\ vc s = Base /\ vc d = Base /\
       coords2 s = t3add (coords2 a) (coords2 b) /\ coords2 d = t3sub (coords2 a) (coords2 b)) /\
  ((vc a = Base /\ vc b <> Base) \/ (vc a <> Base /\ vc b = Base) ->
     (exists e, vadd a b = Err e) /\ (exists e, vsub a b = Err e)).
Proof. exact vec_add_base_only. Qed.
Print Assumptions C04_plain_vectors.
Example C04_nonvacuous :
  vadd (V Coarse (I 1) (I 0) (I (-2))) (V Fine (H 1) (I 3) (I 4))
  = Ok (V Fine (H 17) (I 3) (I (-12))).
Proof. reflexivity. Qed.

(** C05: coarse -> fine -> coarse is the identity on cells ... *)
Theorem C05_coarse_fine_roundtrip : forall c,
  vc c = Coarse -> Z.even (halves (vx c)) = true -> Z.even (halves (vy c)) = true ->
  Z.even (halves (vz c)) = true ->
  exists f c', vfine c = Ok f /\ vcoarse f = Ok c' /\ veq f c = true /\ veq c' c = true.
Proof. exact coarse_fine_roundtrip. Qed.
Print Assumptions C05_coarse_fine_roundtrip.
(** ... and the cell of a fine vector is the unique (i,j,k) whose block contains
    it (in half-units a cell is 16 wide). *)
Theorem C05_fine_to_coarse_cell : forall f,
  vc f = Fine ->
  exists c, vcoarse f = Ok c /\ vc c = Coarse /\
    forall i j k,
      coords2 c = (2 * i, 2 * j, 2 * k) <->
      (16 * i <= halves (vx f) < 16 * (i + 1) /\
       16 * j <= halves (vy f) < 16 * (j + 1) /\
       16 * k <= halves (vz f) < 16 * (k + 1)).
Proof. exact fine_to_coarse_floor. Qed.
Print Assumptions C05_fine_to_coarse_cell.
Example C05_nonvacuous :
  vcoarse (V Fine (I (-1)) (H 17) (I 15)) = Ok (V Coarse (I (-1)) (H 2) (I 1)).
Proof. reflexivity. Qed.

(** C06: rotation by any multiple of 90 degrees is the exact rotation. *)
Theorem C06_rotate_exact : forall v k,
  exists r, vrotate v (Deg (90 * k)) = Ok r /\ is_turn k v r.
Proof. exact vrotate_exact. Qed.
Print Assumptions C06_rotate_exact.
Theorem C06_rotate_composes : forall v j k,
  exists r r' rjk, vrotate v (Deg (90 * j)) = Ok r /\ vrotate r (Deg (90 * k)) = Ok r' /\
    vrotate v (Deg (90 * (j + k))) = Ok rjk /\ veq r' rjk = true.
Proof. exact vrotate_group. Qed.
Print Assumptions C06_rotate_composes.
Theorem C06_full_circle : forall v k,
  exists r, vrotate v (Deg (360 * k)) = Ok r /\ veq r v = true.
Proof. exact vrotate_full_circle. Qed.
Print Assumptions C06_full_circle.
Theorem C06_rotate_isometry : forall k a b a' b',
  is_turn k a a' -> is_turn k b b' -> dist2 a' b' = dist2 a b.
Proof. exact is_turn_dist. Qed.
Print Assumptions C06_rotate_isometry.
Theorem C06_rotate_by_compass : forall v o c,
  points_to o c -> vrotate v (DVec o) = vrotate v (Deg (compass_angle c)).
Proof. exact vrotate_compass. Qed.
Print Assumptions C06_rotate_by_compass.
Theorem C06_rotate_additive : forall a b s k,
  vc a <> Base -> vc b <> Base -> vadd a b = Ok s ->
  exists ra rb rs t, vrotate a (Deg (90 * k)) = Ok ra /\ vrotate b (Deg (90 * k)) = Ok rb /\
    vrotate s (Deg (90 * k)) = Ok rs /\ vadd ra rb = Ok t /\ veq rs t = true.
Proof. exact vrotate_additive. Qed.
Print Assumptions C06_rotate_additive.
Theorem C06_compass_constants :
  points_to EAST CE /\ points_to NORTH CN /\ points_to WEST CW /\ points_to SOUTH CS.
Proof. vm_compute. repeat split; congruence. Qed.
Print Assumptions C06_compass_constants.
Example C06_nonvacuous :
  vrotate (V Fine (H 7) (I (-2)) (I 5)) (Deg (-90)) = Ok (V Fine (H (-4)) (H (-7)) (I 5)).
Proof. reflexivity. Qed.

(** C07: no rounding error of the floating point evaluation is visible. *)
Theorem C07_rotate_float_exact : forall fl c s v k,
  (forall q, (Qabs (fl q - q) <= eps * Qabs q)%Q) ->
  (Qabs (c - inject_Z (cosq k)) <= eps)%Q -> (Qabs (s - inject_Z (sinq k)) <= eps)%Q ->
  Z.abs (halves (vx v)) <= 2 ^ 40 -> Z.abs (halves (vy v)) <= 2 ^ 40 ->
  rot_x_float fl c s (halves (vx v)) (halves (vy v))
    = cosq k * halves (vx v) - sinq k * halves (vy v) /\
  rot_y_float fl c s (halves (vx v)) (halves (vy v))
    = sinq k * halves (vx v) + cosq k * halves (vy v).
Proof.
  exact (fun fl c s v k Hfl Hc Hs HX HY => rot_float_exact fl c s _ _ k Hfl Hc Hs HX HY).
Qed.
Print Assumptions C07_rotate_float_exact.
Theorem C07_rotate_model_is_float : forall fl c s v k,
  (forall q, (Qabs (fl q - q) <= eps * Qabs q)%Q) ->
  (Qabs (c - inject_Z (cosq k)) <= eps)%Q -> (Qabs (s - inject_Z (sinq k)) <= eps)%Q ->
  Z.abs (halves (vx v)) <= 2 ^ 40 -> Z.abs (halves (vy v)) <= 2 ^ 40 ->
  vrotate v (Deg (90 * k)) =
  Ok (V (vc v) (H (rot_x_float fl c s (halves (vx v)) (halves (vy v))))
               (H (rot_y_float fl c s (halves (vx v)) (halves (vy v)))) (vz v)).
Proof. exact rot_float_matches_model. Qed.
Print Assumptions C07_rotate_model_is_float.
(** The binary64 value of cos(pi/2) and a rounding function that is always off. *)
Example C07_nonvacuous :
  let c := (4967757600021511 # 81129638414606681695789005144064)%Q in
  let fl := fun q => (q + q * (1 # 2251799813685248))%Q in
  (Qabs (c - inject_Z (cosq 1)) <= eps)%Q /\ ~ (c == inject_Z (cosq 1))%Q /\
  (forall q, (Qabs (fl q - q) <= eps * Qabs q)%Q) /\
  rot_x_float fl c 1 7 (-12345) = 12345 /\ rot_y_float fl c 1 7 (-12345) = 7.
Proof.
  cbv zeta. split; [vm_compute; congruence|]. split; [vm_compute; congruence|]. split.
  - intros q. setoid_replace (q + q * (1 # 2251799813685248) - q)%Q with ((1 # 2251799813685248) * q)%Q by ring.
    rewrite Qabs_Qmult. apply Qmult_le_compat_r; [vm_compute; congruence | apply Qabs_nonneg].
  - split; vm_compute; reflexivity.
Qed.

(** C08: rotation about the centre minus-offset. *)
Theorem C08_offset_rotate_exact : forall v off k,
  vc v <> Base -> vc off = vc v ->
  exists r, voffset_rotate v (Deg (90 * k)) off = Ok r /\ vc r = vc v /\
    halves (vx r) + halves (vx off) =
      cosq k * (halves (vx v) + halves (vx off)) - sinq k * (halves (vy v) + halves (vy off)) /\
    halves (vy r) + halves (vy off) =
      sinq k * (halves (vx v) + halves (vx off)) + cosq k * (halves (vy v) + halves (vy off)) /\
    halves (vz r) = halves (vz v).
Proof. exact voffset_rotate_meaning. Qed.
Print Assumptions C08_offset_rotate_exact.
Theorem C08_offset_rotate_centre_fixed : forall v off k,
  vc v <> Base -> vc off = vc v ->
  halves (vx v) = - halves (vx off) -> halves (vy v) = - halves (vy off) ->
  exists r, voffset_rotate v (Deg (90 * k)) off = Ok r /\ veq r v = true.
Proof. exact voffset_rotate_centre. Qed.
Print Assumptions C08_offset_rotate_centre_fixed.
Theorem C08_offset_rotate_composes : forall v off j k,
  vc v <> Base -> vc off = vc v ->
  exists r r' s, voffset_rotate v (Deg (90 * j)) off = Ok r /\
    voffset_rotate r (Deg (90 * k)) off = Ok r' /\
    voffset_rotate v (Deg (90 * (j + k))) off = Ok s /\ veq r' s = true.
Proof. exact voffset_rotate_compose. Qed.
Print Assumptions C08_offset_rotate_composes.
Theorem C08_offset_rotate_isometry : forall a b off k ra rb,
  vc a <> Base -> vc b = vc a -> vc off = vc a ->
  voffset_rotate a (Deg (90 * k)) off = Ok ra -> voffset_rotate b (Deg (90 * k)) off = Ok rb ->
  dist2 ra rb = dist2 a b.
Proof. exact voffset_rotate_isometry. Qed.
Print Assumptions C08_offset_rotate_isometry.
(** About the tile centre: voxel columns of the tile are permuted. *)
Theorem C08_tile_rotation_stays_in_tile : forall x y z k r,
  0 <= x < 8 -> 0 <= y < 8 ->
  voffset_rotate (V Fine (I x) (I y) z) (Deg (90 * k)) TILE_VOX_OFF = Ok r ->
  exists x' y', 0 <= x' < 8 /\ 0 <= y' < 8 /\ halves (vx r) = 2 * x' /\ halves (vy r) = 2 * y'.
Proof. exact tile_rotation_in_tile. Qed.
Print Assumptions C08_tile_rotation_stays_in_tile.
Example C08_nonvacuous :
  voffset_rotate (V Fine (I 0) (I 1) (I 5)) (Deg 90) TILE_VOX_OFF = Ok (V Fine (H 12) (H 0) (H 10)).
Proof. reflexivity. Qed.

(** C09: yaw. *)
Theorem C09_yaw_compass : forall a o c,
  points_to o c ->
  exists r, rotate_yaw a o = Ok r /\ 0 <= r < 360 /\ (r - (a + compass_angle c)) mod 360 = 0.
Proof. exact rotate_yaw_spec. Qed.
Print Assumptions C09_yaw_compass.
Theorem C09_yaw_rejects_others : forall a o,
  (forall c, ~ points_to o c) -> rotate_yaw a o = Err UserExn.
Proof. exact rotate_yaw_err. Qed.
Print Assumptions C09_yaw_rejects_others.
(** Yaw of a turned orientation: turning the orientation by k quarter turns adds 90 k. *)
Theorem C09_yaw_follows_rotation : forall a o c k o',
  points_to o c -> vrotate o (Deg (90 * k)) = Ok o' ->
  exists r r', rotate_yaw a o = Ok r /\ rotate_yaw a o' = Ok r' /\ (r' - r - 90 * k) mod 360 = 0.
Proof. exact rotate_yaw_turn. Qed.
Print Assumptions C09_yaw_follows_rotation.
(** get_vector_rotation agrees with it modulo a full circle. *)
Theorem C09_vector_rotation : forall o c,
  points_to o c -> exists d, get_vector_rotation o = Ok d /\ (d - compass_angle c) mod 360 = 0.
Proof. exact get_vector_rotation_spec. Qed.
Print Assumptions C09_vector_rotation.
Example C09_nonvacuous :
  rotate_yaw 300 WEST = Ok 120 /\ rotate_yaw (-5) EAST = Ok 355 /\ rotate_yaw 0 ABOVE = Err UserExn /\
  ~ points_to ABOVE CE.
Proof. repeat split. intros [_ E]. vm_compute in E. congruence. Qed.
