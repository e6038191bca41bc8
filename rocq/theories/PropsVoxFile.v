(** Voxel file properties C47 and C58. *)
From Coq Require Import SpecFloat.
From Verif Require Import Py VecModel VoxelModel VoxelSpec VoxelProofs CodecModel TexModel VoxFileModel VoxFileSpec VoxFileProofs.
Local Open Scope Z_scope.

(** ** C47 — exported files *)
(** An export that succeeds: one voxel of texture 2, four textures. *)
Example C47_example : exists bs,
  vox_write (wrun shift_ops (new_world 8)) shift_atlas = Ok bs /\ (List.length shift_atlas <= 255)%nat /\
  (forall e, In e (w_map (wrun shift_ops (new_world 8))) -> in_bytes (fst e)) /\ List.length bs = 1096%nat.
Proof.
  eexists. split; [vm_compute; reflexivity|]. split; [cbn; lia|]. split; [|reflexivity].
  intros e [<-|[]]. cbn. lia.
Qed.

(** Refuted: no exported file (with at most 255 textures) is accepted by the reader, which
    expects 256 colours. *)
Theorem C47_reader_accepts_refuted : forall size ops atlas bs, let w := wrun ops (new_world size) in
  vox_write w atlas = Ok bs -> (List.length atlas <= 255)%nat -> exists e, vox_read 256 bs = Err e.
Proof. exact reader_rejects. Qed.
Print Assumptions C47_reader_accepts_refuted.

(** With the number of colours given, or retried with 255 as the information tool does, every
    world inside 0..255 reads back: one entry per voxel at its cell, with its texture number
    plus one, and a palette that lists the textures. *)
Theorem C47_contents_partial : forall size ops atlas bs, let w := wrun ops (new_world size) in
  vox_write w atlas = Ok bs -> (forall e, In e (w_map w) -> in_bytes (fst e)) ->
  exists vs cols, Forall2 voxel_is (w_map w) vs /\ Forall2 colour_is (map snd atlas) cols /\
    forall n, vox_read n bs =
      if Nat.leb n (Nat.max 255 (List.length atlas))
      then Ok (VF (whole (w_xmax w), whole (w_ymax w), whole (w_zmax w)) vs
                  (firstn n (cols ++ repeat black (255 - List.length atlas))))
      else Err EOFError.
Proof. exact roundtrip. Qed.
Print Assumptions C47_contents_partial.
Theorem C47_info_tool_partial : forall size ops atlas bs, let w := wrun ops (new_world size) in
  vox_write w atlas = Ok bs -> (forall e, In e (w_map w) -> in_bytes (fst e)) -> (List.length atlas <= 255)%nat ->
  exists vs cols, Forall2 voxel_is (w_map w) vs /\ Forall2 colour_is (map snd atlas) cols /\
    info_read bs = Ok (VF (whole (w_xmax w), whole (w_ymax w), whole (w_zmax w)) vs (cols ++ repeat black (255 - List.length atlas))).
Proof. exact info_reads. Qed.
Print Assumptions C47_info_tool_partial.

(** The colour of a voxel is the palette entry one below its index. *)
Theorem C47_colour_below_partial : forall size ops atlas bs f, let w := wrun ops (new_world size) in
  vox_write w atlas = Ok bs -> (forall e, In e (w_map w) -> in_bytes (fst e)) -> (List.length atlas <= 255)%nat ->
  info_read bs = Ok f ->
  List.length (vf_voxels f) = List.length (w_map w) /\
  forall i k t ts q tx, nth_error (w_map w) i = Some (k, t :: ts) -> nth_error (vf_voxels f) i = Some q ->
    0 <= t -> nth_error (map snd atlas) (Z.to_nat t) = Some tx ->
    exists col, colour_is tx col /\ nth_error (vf_palette f) (Z.to_nat (snd q - 1)) = Some col.
Proof. exact colour_places. Qed.
Print Assumptions C47_colour_below_partial.

(** Refuted: the rooms look up the entry at the index, hence the colour of the next texture:
    a red voxel comes back blue. *)
Theorem C47_colour_refuted : exists ops atlas bs f q,
  vox_write (wrun ops (new_world 8)) atlas = Ok bs /\ info_read bs = Ok f /\ vf_voxels f = [q] /\
  nth 2 (map snd atlas) Sky = Colour SIMPLE_COLOUR (CFl (int_div 255 255)) (CFl (int_div 0 255)) (CFl (int_div 0 255)) /\
  get_point (wrun ops (new_world 8)) (I 3) (I 4) (I 5) = Some [2; 2; 2; 2; 2; 2] /\
  room_colour f (snd q) = Ok (CFl (int_div 0 255), CFl (int_div 0 255), CFl (int_div 255 255)).
Proof. exact shift_refuted. Qed.
Print Assumptions C47_colour_refuted.
Theorem C47_colour_of_next_texture : forall size ops atlas bs f, let w := wrun ops (new_world size) in
  vox_write w atlas = Ok bs -> (forall e, In e (w_map w) -> in_bytes (fst e)) -> (List.length atlas <= 255)%nat ->
  info_read bs = Ok f ->
  forall i k t ts q tx, nth_error (w_map w) i = Some (k, t :: ts) -> nth_error (vf_voxels f) i = Some q ->
    0 <= t -> nth_error (map snd atlas) (Z.to_nat (t + 1)) = Some tx ->
    exists r g b, colour_is tx (r, g, b, 255) /\
      room_colour f (snd q) = Ok (CFl (int_div r 255), CFl (int_div g 255), CFl (int_div b 255)).
Proof. exact room_shift. Qed.
Print Assumptions C47_colour_of_next_texture.

(** A colour byte k, read as k / 255 and written as int(255 * x), comes back unchanged. *)
Theorem C47_colour_bytes_kept : forall k, 0 <= k <= 255 -> n255 (CFl (int_div k 255)) = Ok k.
Proof. exact byte_kept. Qed.
Print Assumptions C47_colour_bytes_kept.

(** Refuted: a voxel outside of 0..255 is left out but counted, and the file cannot be read
    with any number of colours. *)
Theorem C47_outside_refuted : forall size ops atlas bs, let w := wrun ops (new_world size) in
  vox_write w atlas = Ok bs -> (exists e, In e (w_map w) /\ ~ in_bytes (fst e)) ->
  forall n, exists err, vox_read n bs = Err err.
Proof. exact outside_lost. Qed.
Print Assumptions C47_outside_refuted.
Example C47_outside_example : exists bs,
  vox_write (wrun [SetPoint (I (-1)) (I 0) (I 0) [2]; SetPoint (I 1) (I 0) (I 0) [2]] (new_world 8)) shift_atlas = Ok bs /\
  vox_read 255 bs = Err UserExn.
Proof. eexists. split; vm_compute; reflexivity. Qed.

(** ** C58 — sizes declared in an exported file *)
(** Refuted, for every export: the size declared for the contents is not the number of
    bytes that follow (it is 8 too small), and the palette, declared as 1024 bytes, has 1020. *)
Theorem C58_declared_sizes_refuted : forall size ops atlas bs, let w := wrun ops (new_world size) in
  vox_write w atlas = Ok bs -> (forall e, In e (w_map w) -> in_bytes (fst e)) ->
  exists child palette pre,
    slice 16 4 bs = le 4 child /\ Z.of_nat (List.length bs) <> 20 + child /\
    bs = pre ++ TAG_RGBA ++ le 4 1024 ++ le 4 0 ++ palette /\
    ((List.length atlas <= 255)%nat -> Z.of_nat (List.length palette) = 1020 /\ Z.of_nat (List.length bs) = 20 + child + 8).
Proof. exact sizes_wrong. Qed.
Print Assumptions C58_declared_sizes_refuted.

(** The declared model size is the largest coordinate, which encloses every voxel … *)
Theorem C58_model_size_partial : forall size (ops : list (@wop (list Z))) atlas bs n f, let w := wrun ops (new_world size) in
  vox_write w atlas = Ok bs -> vox_read n bs = Ok f ->
  forall q, In q (vf_voxels f) -> let '(x, y, z, _) := q in let '(sx, sy, sz) := vf_size f in x <= sx /\ y <= sy /\ z <= sz.
Proof. exact model_size. Qed.
Print Assumptions C58_model_size_partial.

(** … but, as a count of cells, is one too small: the voxel 3, 4, 5 is not below the size. *)
Theorem C58_model_size_refuted : exists ops atlas bs f, vox_write (wrun ops (new_world 8)) atlas = Ok bs /\
  info_read bs = Ok f /\ vf_size f = (3, 4, 5) /\ vf_voxels f = [(3, 4, 5, 3)].
Proof. exact model_size_refuted. Qed.
Print Assumptions C58_model_size_refuted.
