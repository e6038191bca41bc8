(** Property C90, what the information tool prints.  Statements only; proofs are in InfoProofs.v. *)
From Coq Require Import Ascii.
From Verif Require Import Py VecModel VoxelModel CodecModel TexModel TexSpec VoxFileModel VoxFileProofs InfoModel InfoSpec InfoProofs.
Local Open Scope string_scope.
Local Open Scope Z_scope.

(** C90: the text the information tool prints for a voxel file tells the voxels, the colours and the
    extent of the model.

    The voxels and the colours: a reader of the text finds a mark exactly at the voxels, and a line for
    exactly the colours other than black. *)
Theorem C90_picture_partial : forall name bs text, one_line name -> info_main name bs = Ok text -> exists f, info_read bs = Ok f /\
  (forall x y z, marks text x y z <-> exists c, In (x, y, z, c) (vf_voxels f)) /\
  forall idx r g b, lists_colour text idx r g b <-> 0 <= idx /\ (exists a, nth_error (vf_palette f) (Z.to_nat idx) = Some (r, g, b, a)) /\ ~ (r = 0 /\ g = 0 /\ b = 0).
Proof. exact picture_lemma. Qed.
Print Assumptions C90_picture_partial.
(** The extent: the greatest coordinates are right, and so are the least ones unless they exceed 128, in which
    case 128 is printed. *)
Theorem C90_extent_partial : forall name bs text, one_line name -> Forall (fun b => 0 <= b < 256) bs -> info_main name bs = Ok text ->
  exists f, info_read bs = Ok f /\ (vf_voxels f <> [] ->
  exists x0 x1 y0 y1 z0 z1, says_bounds text x0 x1 y0 y1 z0 z1 /\
    greatest x1 (on_axis ax f) /\ greatest y1 (on_axis ay f) /\ greatest z1 (on_axis az f) /\
    ((exists c, In c (on_axis ax f) /\ c <= 128) -> least x0 (on_axis ax f)) /\ ((exists c, In c (on_axis ay f) /\ c <= 128) -> least y0 (on_axis ay f)) /\
    ((exists c, In c (on_axis az f) /\ c <= 128) -> least z0 (on_axis az f)) /\
    ((forall c, In c (on_axis ax f) -> 128 < c) -> x0 = 128) /\ ((forall c, In c (on_axis ay f) -> 128 < c) -> y0 = 128) /\ ((forall c, In c (on_axis az f) -> 128 < c) -> z0 = 128)).
Proof. exact bounds_lemma. Qed.
Print Assumptions C90_extent_partial.
(** Refuted: for a file with a single voxel, at 200, 200, 130, the least coordinates are said to be 128. *)
Theorem C90_extent_refuted : forall name, one_line name -> exists bs f text x1 y1 z1, Forall (fun b => 0 <= b < 256) bs /\ info_read bs = Ok f /\ info_main name bs = Ok text /\
  vf_voxels f = [(200, 200, 130, 3)] /\ says_bounds text 128 x1 128 y1 128 z1.
Proof. exact bounds_false. Qed.
Print Assumptions C90_extent_refuted.
(** Files with equal texts have equal voxels. *)
Theorem C90_same : forall name bs bs' text f f', one_line name -> info_main name bs = Ok text -> info_main name bs' = Ok text -> info_read bs = Ok f -> info_read bs' = Ok f' ->
  forall x y z, (exists c, In (x, y, z, c) (vf_voxels f)) <-> exists c, In (x, y, z, c) (vf_voxels f').
Proof.
  intros name bs bs' text f f' O E E' R R' x y z. destruct (picture_lemma name bs text O E) as (g & Rg & M & _). destruct (picture_lemma name bs' text O E') as (g' & Rg' & M' & _).
  assert (g = f) as -> by congruence. assert (g' = f') as -> by congruence. rewrite <- M, <- M'. reflexivity.
Qed.
Print Assumptions C90_same.
(** A file for which the hypotheses hold, and the first lines of its text. *)
Definition dot_file : list Z :=
  match vox_write (set_point (new_world 256) (I 127) (I 126) (I 128) [2; 2; 2; 2; 2; 2]) shift_atlas with Ok bs => bs | Err _ => [] end.
Example C90_example : one_line "dot" /\ forallb (fun b => (0 <=? b) && (b <? 256)) dot_file = true /\
  match info_main "dot" dot_file with
  | Ok t => firstn 10 (lines t) = ["Model: dot"; "Model boundaries: x in [127, 127]; y in [126, 126]; z in [128, 128]"; "Pallette"; "C[1] = (127, 127, 127)"; "C[2] = (255, 0, 0)";
      "C[3] = (0, 0, 255)"; "==== z = 128 ===="; "0-xxxxxxxx+"; "-         "; "y #"]
  | Err _ => False
  end.
Proof. split; [cbn; repeat split; discriminate|]. split; vm_compute; reflexivity. Qed.
