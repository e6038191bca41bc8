(** Light property C50.  Statements only; proofs are in LightProofs.v. *)
From Verif Require Import Py VecModel VecSpec VoxelModel VoxelSpec CodecModel CodecSpec CodecSamples OutModel OutSpec LightModel LightSpec LightProofs.

(** C50: a light requested at a position stands in the middle of the block of 8 x 8 x 8
    voxels that starts there, at 1024 / size map units per voxel, with the requested colour
    or that of the manager; nothing else in the map changes. *)
Theorem C50_position : forall lm m v colour sf, vc v <> Base ->
  exists e m', light lm m v colour true sf = Ok m' /\ one_more m e m' /\
  stands e (middle (fpos2 v)) (10 - lm_exp lm) /\ e_type e = 1 /\
  (exists r g b, e_attrs e = [num_attr (nmulz sf 64); AInt r; AInt g; AInt b; AInt 0; AInt 0] /\
     match colour with Some c => c = (r, g, b) | None => exists q, fpos2 q = middle (fpos2 v) /\ lm_hue lm q = (r, g, b) end) /\
  e_links e = [] /\ e_reserved e = [0; 0; 0].
Proof. exact light_ok. Qed.
Print Assumptions C50_position.
Example C50_position_example :
  match light (LIGHTMAN white) map0 (V Coarse (I 16) (I 3) (H 7)) None true (H 3) with
  | Ok m => match last (m_ents m) light0 with Ent x y z _ a _ _ => (x, y, z, a) end
  | Err _ => (PInf true, PInf true, PInf true, [])
  end = (PF false 1056 (-1), PF false 224 (-1), PF false 256 (-1), [AHalf 192; AInt 255; AInt 255; AInt 255; AInt 0; AInt 0]).
Proof. vm_compute. reflexivity. Qed.

(** C50: the other entities stand at four map units per voxel, which agrees with lights for
    worlds of size 256 (the manager used by the rooms). *)
Theorem C50_others : forall v, vc v <> Base ->
  (forall a b c d e f, exists p, mk_pusher v a b c d e f = Ok p /\ stands p (fpos2 v) 2) /\
  (forall a b c d e f, exists p, mk_teamflag v a b c d e f = Ok p /\ stands p (fpos2 v) 2) /\
  (vc v = Fine -> forall a b c d e f, exists p, mk_playerspawn v a b c d e f = Ok p /\ stands p (fpos2 v) 2) /\
  (vc v = Fine -> forall a b c d e, exists p, mk_weapon v a b c d e = Ok p /\ stands p (fpos2 v) 2).
Proof. exact others_stand. Qed.
Print Assumptions C50_others.
Example C50_others_example : vc (V Fine (I 1) (I 2) (I 3)) = Fine /\ lm_exp (LIGHTMAN white) = 8.
Proof. split; reflexivity. Qed.

(** C50: lights of such a manager survive the file. *)
Theorem C50_written : forall lm m v colour sf, vc v <> Base -> 0 <= lm_exp lm <= 10 ->
  in_file (middle (fpos2 v)) (10 - lm_exp lm) -> is_i32 (64 * sf) ->
  (forall c, In c (match colour with Some c => [c] | None => [] end) -> let '(r, g, b) := c in Forall is_i32 [r; g; b]) ->
  (colour = None -> forall q, let '(r, g, b) := lm_hue lm q in Forall is_i32 [r; g; b]) ->
  exists e m' bs e', light lm m v colour true (I sf) = Ok m' /\ one_more m e m' /\ w_ent e = Ok bs /\ same_entity e e' /\
    forall rest, p_ent (S (List.length (bs ++ rest))) (bs ++ rest) = Ok (e', rest).
Proof. exact light_written. Qed.
Print Assumptions C50_written.
Example C50_written_example : in_file (middle (fpos2 (V Coarse (I 31) (I (-31)) (I 8)))) 2 /\ is_i32 (64 * 3) /\
  forall q, let '(r, g, b) := white q in Forall is_i32 [r; g; b].
Proof. split; [cbn; lia|]. split; [unfold is_i32; lia|]. intros q. repeat constructor; unfold is_i32; lia. Qed.

(** Refuted for the default size: a light is placed at eight map units per voxel, twice as far
    out as any other entity. *)
Theorem C50_default_size_refuted : forall m v colour sf, vc v <> Base -> fst (fst (middle (fpos2 v))) <> 0 ->
  exists e m', light default_lightman m v colour true sf = Ok m' /\ one_more m e m' /\
    stands e (middle (fpos2 v)) 3 /\ ~ stands e (middle (fpos2 v)) 2.
Proof. exact default_far. Qed.
Print Assumptions C50_default_size_refuted.
(** Refuted without automatic centring: the call always raises. *)
Theorem C50_autocenter_refuted : forall lm m v colour sf, light lm m v colour false sf = Err UnboundLocalError.
Proof. exact light_raises. Qed.
Print Assumptions C50_autocenter_refuted.
