(** Property theorems about the map file reader and writer (C15-C22).  Statements
    only; proofs are in CodecParse.v, CodecMap.v and OutProofs.v. *)
From Verif Require Import Py VecModel VoxelModel VoxelSpec CodecModel CodecSpec CodecParse CodecMap
  OutModel OutSpec OutProofs CodecSamples.

(** C15: a well-formed map is written, and the file reads back, to its last byte,
    as the same map. *)
Theorem C15_write_read : forall m, wf_map m ->
  exists bs m', write_map m = Ok bs /\ read_rest bs = Ok (m', []) /\ same_map m m'.
Proof. exact write_read_lemma. Qed.
Print Assumptions C15_write_read.
Example C15_nonvacuous : wf_map map0 /\ write_map map0 = Ok (written map0).
Proof. split; [exact map0_wf|]. vm_compute. reflexivity. Qed.

(** C16: a file that was read and written back reads as the same map, and writing
    that map reproduces it byte for byte.  (The header's variable count has to
    agree with the variables kept, i.e. no duplicate names; see C20.) *)
Theorem C16_rewrite_idempotent : forall b m bs,
  Forall is_byte b -> read_map b = Ok m ->
  (forall n, header_vars m = Some n -> Z.max 0 n = len (m_vars m)) ->
  write_map m = Ok bs ->
  exists m', read_rest bs = Ok (m', []) /\ same_map (set_numents m) m' /\ write_map m' = Ok bs.
Proof. exact rewrite_lemma. Qed.
Print Assumptions C16_rewrite_idempotent.
Example C16_nonvacuous :
  read_map small0 = Ok (get_map small0) /\
  header_vars (get_map small0) = Some (len (m_vars (get_map small0))) /\
  write_map (get_map small0) = Ok (written (get_map small0)) /\
  bytes_eqb (written (get_map small0)) small0 = false.
Proof. repeat split; vm_compute; reflexivity. Qed.

(** C17: readable maps that cannot be written: a cube with the merged flag, an
    entity with a large reserved byte, a changed texture slot, an unknown cube kind. *)
Theorem C17_every_readable_map_writable_refuted :
  exists b m, Forall is_byte b /\ read_map b = Ok m /\ forall bs, write_map m <> Ok bs.
Proof.
  exists file_merged, (get_map file_merged). split; [repeat constructor; unfold is_byte; lia|].
  split; [vm_compute; reflexivity|]. intros bs. vm_compute. discriminate.
Qed.
Print Assumptions C17_every_readable_map_writable_refuted.
Example C17_other_files : Forall (fun b =>
    read_map b = Ok (get_map b) /\ forall bs, write_map (get_map b) <> Ok bs)
  [file_merged; file_reserved; file_slot; file_kind].
Proof. repeat (apply Forall_cons; [split; [vm_compute; reflexivity|intros bs; vm_compute; discriminate]|]). apply Forall_nil. Qed.

(** C17: exactly which of the maps it returns can be written. *)
Theorem C17_writable_partial : forall b m,
  Forall is_byte b -> read_map b = Ok m -> (exists bs, write_map m = Ok bs) <-> writable_map m.
Proof. exact writable_lemma. Qed.
Print Assumptions C17_writable_partial.

(** C18: a proper prefix of a written file is never accepted. *)
Theorem C18_truncated_rejected : forall m bs p s,
  wf_map m -> write_map m = Ok bs -> bs = p ++ s -> s <> [] -> exists e, read_map p = Err e.
Proof. exact truncated_lemma. Qed.
Print Assumptions C18_truncated_rejected.
Example C18_nonvacuous :
  write_map map0 = Ok (written map0) /\ read_map (removelast (written map0)) = Err StructError /\
  read_map (written map0) = Ok (get_map (written map0)).
Proof. repeat split; vm_compute; reflexivity. Qed.

(** C19: on every byte string the reader either consumes a prefix or raises; its
    recursion bound, one more than the number of bytes, is never the reason. *)
Theorem C19_reader_total : forall b,
  (exists m rest pre, read_rest b = Ok (m, rest) /\ b = pre ++ rest) \/
  (exists e, read_rest b = Err e /\ e <> OutOfFuel).
Proof. exact read_total_lemma. Qed.
Print Assumptions C19_reader_total.
(** C19: bytes after the octree do not influence the result. *)
Theorem C19_trailing_ignored : forall b m rest extra,
  read_rest b = Ok (m, rest) -> read_rest (b ++ extra) = Ok (m, rest ++ extra).
Proof. exact read_trailing_lemma. Qed.
Print Assumptions C19_trailing_ignored.
Example C19_nonvacuous :
  read_rest (file_kind ++ [9; 9]) = Ok (get_map file_kind, [9; 9]) /\
  read_rest (firstn 60 file_merged) = Err StructError.
Proof. split; vm_compute; reflexivity. Qed.

(** C20: after any edits, the entity count in the file (at byte 16) is the number
    of entities; the variable count (at byte 48) is the one before the edits. *)
Theorem C20_counts : forall m edits h ne nv bs,
  List.length (m_magic m) = 4%nat -> m_meta m = header_meta h ne nv ->
  List.length (h_gameident h) = 3%nat ->
  write_map (edited m edits) = Ok bs ->
  i32_at bs 16 = len (m_ents (edited m edits)) /\ i32_at bs 48 = nv.
Proof. exact edited_counts_lemma. Qed.
Print Assumptions C20_counts.
Example C20_nonvacuous :
  write_map (edited map0 edits0) = Ok (written (edited map0 edits0)) /\
  i32_at (written (edited map0 edits0)) 16 = 4 /\ i32_at (written (edited map0 edits0)) 48 = 2.
Proof. repeat split; vm_compute; reflexivity. Qed.
(** C20: and the edited map really holds the entities it had followed by the added
    ones, and for every variable name what the last edit of it left. *)
Theorem C20_edits_kept : forall m edits,
  m_ents (edited m edits) = m_ents m ++ added edits /\
  (NoDup (map fst (m_vars m)) -> forall k,
     dget bytes_eqb (m_vars (edited m edits)) k =
     match last_var (rev edits) k with Some v => v | None => dget bytes_eqb (m_vars m) k end).
Proof. exact edited_contents. Qed.
Print Assumptions C20_edits_kept.
Example C20_edits_nonvacuous :
  added edits0 = [light0; spawn0] /\ last_var (rev edits0) [97; 98] = Some (Some (VInt 4)) /\
  map fst (m_vars map0) <> [].
Proof. split; [reflexivity|]. split; [reflexivity|]. vm_compute. discriminate. Qed.
(** C20: so adding a variable, or setting a skybox, gives a file with a wrong header
    that cannot be read. *)
Theorem C20_variable_count_refuted :
  exists m edits bs, wf_map m /\ write_map (edited m edits) = Ok bs /\
    i32_at bs 48 <> len (m_vars (edited m edits)) /\ read_map bs = Err StructError.
Proof.
  exists map0, [SetVar [100] (VInt 1)], (written (edited map0 [SetVar [100] (VInt 1)])).
  split; [exact map0_wf|].
  split; [vm_compute; reflexivity|]. split; [vm_compute; discriminate|vm_compute; reflexivity].
Qed.
Print Assumptions C20_variable_count_refuted.
Theorem C20_skybox_refuted :
  exists m path bs, wf_map m /\ write_map (edited m [Skybox path]) = Ok bs /\ read_map bs = Err StructError.
Proof.
  exists map0, [100; 47; 101], (written (edited map0 [Skybox [100; 47; 101]])). split; [exact map0_wf|].
  split; vm_compute; reflexivity.
Qed.
Print Assumptions C20_skybox_refuted.
(** C20: a file with two variables of one name is read, but what is written back
    cannot be read. *)
Theorem C20_duplicate_names_refuted :
  exists b m bs, Forall is_byte b /\ read_map b = Ok m /\ write_map m = Ok bs /\
    i32_at bs 48 <> len (m_vars m) /\ read_map bs = Err StructError.
Proof.
  exists file_dup, (get_map file_dup), (written (get_map file_dup)).
  split; [repeat constructor; unfold is_byte; lia|].
  split; [vm_compute; reflexivity|]. split; [vm_compute; reflexivity|]. split; [vm_compute; discriminate|].
  vm_compute. reflexivity.
Qed.
Print Assumptions C20_duplicate_names_refuted.

(** C21: output of a voxel world of side 2^(k+1) with a voxel in its first octant
    (the corner cube of side 2^k) into a map with a large enough world: the file
    reads back, to its last byte, with exactly the voxels of the world, and the
    rest of the map unchanged. *)
Theorem C21_output_faithful_partial : forall k fuel (v : world (list Z)) m ws,
  (1 <= k)%nat -> (S k < fuel)%nat -> w_size v = 2 ^ Z.of_nat (S k) ->
  wf_map m -> header_size m = Some ws -> 2 ^ Z.of_nat (S k) <= ws <= 8192 ->
  (forall x y z tex, get_point v (I x) (I y) (I z) = Some tex -> tex_ok tex) ->
  (exists x y z, (0 <= x < 2 ^ Z.of_nat k /\ 0 <= y < 2 ^ Z.of_nat k /\ 0 <= z < 2 ^ Z.of_nat k) /\
                 get_point v (I x) (I y) (I z) <> None) ->
  exists bs m', output_map fuel v m = Ok bs /\ read_rest bs = Ok (m', []) /\ same_rest m m' /\
    forall x y z, 0 <= x < w_size v -> 0 <= y < w_size v -> 0 <= z < w_size v ->
      world_lookup (S k) m' x y z = get_point v (I x) (I y) (I z).
Proof. exact output_lemma. Qed.
Print Assumptions C21_output_faithful_partial.
Example C21_nonvacuous :
  let bs := getb [] (output_map 6 vox2 map0) in
  let m' := get_map bs in
  output_map 6 vox2 map0 = Ok bs /\ read_rest bs = Ok (m', []) /\
    world_lookup 4 m' 9 2 15 = Some tex0 /\ world_lookup 4 m' 1 7 0 = Some tex0 /\
    world_lookup 4 m' 1 7 1 = None.
Proof. cbv zeta. repeat split; vm_compute; reflexivity. Qed.
(** C21: in every other case, first octant empty or side 2, the file cannot be read. *)
Theorem C21_first_octant_empty_refuted : forall k fuel (v : world (list Z)) m ws,
  (S k < fuel)%nat -> w_size v = 2 ^ Z.of_nat (S k) ->
  wf_map m -> header_size m = Some ws -> 2 ^ Z.of_nat (S k) <= ws <= 8192 ->
  (forall x y z tex, get_point v (I x) (I y) (I z) = Some tex -> tex_ok tex) ->
  (k = 0%nat \/ forall x y z, 0 <= x < 2 ^ Z.of_nat k -> 0 <= y < 2 ^ Z.of_nat k -> 0 <= z < 2 ^ Z.of_nat k ->
                              get_point v (I x) (I y) (I z) = None) ->
  exists bs, output_map fuel v m = Ok bs /\ read_map bs = Err StructError.
Proof. exact output_unreadable_lemma. Qed.
Print Assumptions C21_first_octant_empty_refuted.
Example C21_refuted_nonvacuous :
  let bs := getb [] (output_map 6 vox1 map0) in
  output_map 6 vox1 map0 = Ok bs /\ read_map bs = Err StructError.
Proof. cbv zeta. split; vm_compute; reflexivity. Qed.

(** C22: a well-formed entity is written and read back, whatever follows it in the
    file, with the same type, attributes, links and position. *)
Theorem C22_entity_roundtrip : forall e, wf_entity e ->
  exists bs e', w_ent e = Ok bs /\ same_entity e e' /\ w_ent e' = Ok bs /\
    forall rest, p_ent (S (List.length (bs ++ rest))) (bs ++ rest) = Ok (e', rest).
Proof. exact ent_roundtrip_lemma. Qed.
Print Assumptions C22_entity_roundtrip.
Example C22_nonvacuous : wf_entity light0 /\ wf_entity spawn0.
Proof. split; [exact light0_wf|exact spawn0_wf]. Qed.
(** C22: lights, pushers and flags made at any vector with class are well-formed and
    stand at the vector's position in map units. *)
Theorem C22_constructors_scaled : forall v,
  vc v <> Base -> exact_pos (units v) v ->
  forall a b c d e f, Forall int_attr [a; b; c; d; e; f] ->
  made (mk_light v a b c d e f) 1 [a; b; c; d; e; f] (units v) v /\
  made (mk_pusher v a b c d e f) 13 [a; b; c; d; e; f] (units v) v /\
  made (mk_teamflag v a b c d e f) 14 [a; b; c; d; e; f] (units v) v.
Proof. exact constructors_scaled_lemma. Qed.
Print Assumptions C22_constructors_scaled.
(** C22: player starts, weapons and models stand at four times the raw coordinates,
    which is the vector's position only if it is not coarse. *)
Theorem C22_constructors_raw_partial : forall v,
  exact_pos 4 v ->
  (forall z b c d e f, is_weapon z = true -> Forall int_attr [b; c; d; e; f] ->
     made (mk_playerspawn v (AInt z) b c d e f) 3 [AInt z; b; c; d; e; f] 4 v) /\
  (forall z b c d e, is_weapon z = true -> Forall int_attr [b; c; d; e] ->
     made (mk_weapon v (AInt z) b c d e) 9 [AInt z; b; c; d; e] 4 v) /\
  (forall l, List.length l = 13%nat -> Forall int_attr l -> made (mk_mapmodel v l) 2 l 4 v).
Proof. exact constructors_raw_lemma. Qed.
Print Assumptions C22_constructors_raw_partial.
Example C22_constructors_nonvacuous :
  exact_pos 32 (V Coarse (I 5) (H (-7)) (I 31)) /\ exact_pos 4 (V Fine (I 2000) (H (-7)) (I 31)).
Proof. unfold exact_pos, exact_coord. cbn. lia. Qed.
(** C22: sunlight is stored at the raw coordinates. *)
Theorem C22_sunlight_raw_partial : forall v a b c d e f g h,
  exact_pos 1 v -> Forall int_attr [a; b; c; d; e; f; g; h] ->
  made (mk_sunlight v a b c d e f g h) 8 [a; b; c; d; e; f; g; h] 1 v.
Proof. exact sunlight_lemma. Qed.
Print Assumptions C22_sunlight_raw_partial.
(** C22: at a coarse vector a player start is not where a light is. *)
Theorem C22_coarse_position_refuted :
  exists v l p, mk_light v (AInt 64) (AInt 0) (AInt 0) (AInt 0) (AInt 0) (AInt 0) = Ok l /\
    mk_playerspawn v (AInt 0) (AInt 0) (AInt 0) (AInt 0) (AInt 0) (AInt 0) = Ok p /\
    ~ feq (e_x l) (e_x p).
Proof.
  exists (V Coarse (I 1) (I 2) (I 3)). do 2 eexists. split; [reflexivity|]. split; [reflexivity|].
  vm_compute. intros [_ E]. discriminate E.
Qed.
Print Assumptions C22_coarse_position_refuted.
(** C22: a player start of team 1 is written but cannot be read. *)
Theorem C22_team_one_refuted :
  exists v e bs, mk_playerspawn v (AInt 1) (AInt 0) (AInt 0) (AInt 0) (AInt 0) (AInt 0) = Ok e /\
    w_ent e = Ok bs /\ p_ent (S (List.length bs)) bs = Err ValueError.
Proof.
  exists (V Fine (I 1) (I 2) (I 3)), (ent_at (V Fine (I 4) (I 8) (I 12)) 3 (ix [1; 0; 0; 0; 0; 0])).
  eexists. split; [reflexivity|]. split; [vm_compute; reflexivity|]. vm_compute. reflexivity.
Qed.
Print Assumptions C22_team_one_refuted.
(** C22: a fractional attribute is silently changed. *)
Theorem C22_fractional_attr_refuted :
  exists e bs e', w_ent e = Ok bs /\ p_ent (S (List.length bs)) bs = Ok (e', []) /\
    map attr_value (e_attrs e') <> map attr_value (e_attrs e).
Proof.
  exists (ent_at (V Fine (I 1) (I 2) (I 3)) 1 (AHalf 129 :: ix [0; 0; 0; 0; 0])).
  do 2 eexists. split; [vm_compute; reflexivity|]. split; [vm_compute; reflexivity|]. vm_compute. discriminate.
Qed.
Print Assumptions C22_fractional_attr_refuted.
