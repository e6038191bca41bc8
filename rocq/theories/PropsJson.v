(** Property theorems about the JSON form of maps (C49).  Statements only; proofs are in
    JsonProofs.v. *)
From Verif Require Import Py VecModel CodecModel CodecSpec CodecSamples JsonModel JsonSpec JsonProofs JsonText JsonSamples.

(** C49: what comes back.  A map without entities whose texts are UTF-8 is converted and read back
    with the same header, variables, texture list and slots, and with no octree. *)
Theorem C49_roundtrip_partial : forall m,
  texts m -> Forall full_cube (m_world m) -> m_ents m = [] -> 0 <= m_vslots m ->
  NoDup (map fst (m_meta m)) -> NoDup (map fst (m_vars m)) ->
  exists j m', to_json m = Ok j /\ from_dict j = Ok m' /\ same_head m m' /\ m_ents m' = [] /\ m_world m' = [].
Proof. exact json_roundtrip_lemma. Qed.
Print Assumptions C49_roundtrip_partial.
Example C49_roundtrip_nonvacuous :
  texts mapj /\ Forall full_cube (m_world mapj) /\ m_ents mapj = [] /\ 0 <= m_vslots mapj /\
  NoDup (map fst (m_meta mapj)) /\ NoDup (map fst (m_vars mapj)) /\ m_world mapj <> [].
Proof.
  split; [apply texts_j|]. split; [apply worldj_full|]. split; [reflexivity|]. split; [discriminate|].
  split; [apply nodup_meta|]. split; [apply nodup_vars|discriminate].
Qed.

(** C49: only maps all of whose texts are UTF-8 (and whose floats are finite) are converted. *)
Theorem C49_utf8_only : forall m j, to_json m = Ok j -> texts m.
Proof. exact json_texts_lemma. Qed.
Print Assumptions C49_utf8_only.
Example C49_utf8_nonvacuous :
  (exists j, to_json mapj = Ok j) /\ wf_map map0 /\ to_json map0 = Err ValueError.
Proof. split; [eexists; vm_compute; reflexivity|]. split; [apply map0_wf|vm_compute; reflexivity]. Qed.

(** C49: the text determines the whole map except for the merged-faces bytes of its cubes. *)
Theorem C49_text_faithful : forall m1 m2 j,
  to_json m1 = Ok j -> to_json m2 = Ok j ->
  Forall typed_entity (m_ents m1) -> Forall typed_entity (m_ents m2) ->
  0 <= m_vslots m1 -> 0 <= m_vslots m2 ->
  same_head m1 m2 /\ m_ents m1 = m_ents m2 /\ Forall2 same_but_merged (m_world m1) (m_world m2).
Proof. exact json_faithful_lemma. Qed.
Print Assumptions C49_text_faithful.
Example C49_text_faithful_nonvacuous :
  to_json (with_ents [light0]) = Ok (jsonj (with_ents [light0])) /\ Forall typed_entity [light0].
Proof. split; [vm_compute; reflexivity|]. constructor; [apply light0_typed|constructor]. Qed.

(** C49: no map with an entity can be read back. *)
Theorem C49_entities_refuted : forall m j,
  m_ents m <> [] -> to_json m = Ok j -> exists e, from_dict j = Err e.
Proof. exact json_entities_lemma. Qed.
Print Assumptions C49_entities_refuted.
(** ... the error is a TypeError for entities as the reader makes them. *)
Theorem C49_entities_typeerror : forall m,
  texts m -> Forall full_cube (m_world m) -> Forall typed_entity (m_ents m) ->
  Forall (fun e => ~ player_start e) (m_ents m) -> m_ents m <> [] ->
  NoDup (map fst (m_meta m)) -> NoDup (map fst (m_vars m)) ->
  exists j, to_json m = Ok j /\ from_dict j = Err TypeError.
Proof. exact json_typeerror_lemma. Qed.
Print Assumptions C49_entities_typeerror.
Example C49_entities_nonvacuous :
  texts (with_ents [light0]) /\ Forall typed_entity [light0] /\ ~ player_start light0 /\
  from_dict (jsonj (with_ents [light0])) = Err TypeError.
Proof.
  split; [apply texts_j|]. split; [constructor; [apply light0_typed|constructor]|].
  split; [discriminate|vm_compute; reflexivity].
Qed.

(** C49: a map with a player start, or with a cube that lacks a surface, cannot even be converted. *)
Theorem C49_player_start_refuted : forall m,
  texts m -> Forall typed_entity (m_ents m) -> Exists player_start (m_ents m) -> to_json m = Err TypeError.
Proof. exact json_player_lemma. Qed.
Print Assumptions C49_player_start_refuted.
Example C49_player_start_nonvacuous :
  texts (with_ents [light0; spawnj]) /\ Forall typed_entity [light0; spawnj] /\ Exists player_start [light0; spawnj].
Proof.
  split; [apply texts_j|]. split; [constructor; [apply light0_typed|constructor; [apply spawnj_typed|constructor]]|].
  apply Exists_cons_tl, Exists_cons_hd. reflexivity.
Qed.
Theorem C49_surface_refuted : forall m,
  texts m -> Forall typed_entity (m_ents m) -> Forall (fun e => ~ player_start e) (m_ents m) ->
  Exists bare_cube (m_world m) -> to_json m = Err AttributeError.
Proof. exact json_bare_lemma. Qed.
Print Assumptions C49_surface_refuted.
Example C49_surface_nonvacuous :
  Exists bare_cube (m_world map_bare) /\ to_json map_bare = Err AttributeError /\
  match write_map map_bare with Ok bs => read_map bs = Ok (get_map bs) | Err _ => False end.
Proof.
  split; [apply Exists_cons_hd; eapply bare_here; [reflexivity|right; left; reflexivity]|].
  split; vm_compute; reflexivity.
Qed.

(** C49: the file written from the text is the map's file without its octree, which the reader
    rejects. *)
Theorem C49_file_refuted : forall m j,
  wf_map m -> to_json m = Ok j -> m_ents m = [] ->
  exists bs w e, write_map m = Ok (bs ++ w) /\ w <> [] /\ from_json_main j = Ok bs /\ read_map bs = Err e.
Proof. exact json_file_lemma. Qed.
Print Assumptions C49_file_refuted.
Example C49_file_nonvacuous : wf_map mapj /\ to_json mapj = Ok (jsonj mapj) /\ m_ents mapj = [].
Proof. split; [apply mapj_wf|]. split; [vm_compute; reflexivity|reflexivity]. Qed.

(** C49: what the text says.  Every field of the map stands in the text under its name: header and
    variables as pairs in order, every entity with the name of its kind and each attribute under the
    name of its meaning, every cube with the names of its faces, its surfaces and its children in
    order, and one slot for each that the file counts. *)
Theorem C49_text : forall m j, to_json m = Ok j -> Forall typed_entity (m_ents m) -> map_text m j.
Proof. exact json_text_lemma. Qed.
Print Assumptions C49_text.
(** A weapon: the text gives its kind and its name. *)
Definition gunj : entity :=
  Ent (PF false 1 0) (PF false 0 0) (PF false 0 0) 9 [AWeap 11; AInt 0; AInt 3; AInt 0; AInt 7] [2] [0; 0; 0].
Example C49_text_nonvacuous :
  (exists j, to_json (with_ents [gunj; light0]) = Ok j) /\ Forall typed_entity [gunj; light0] /\
  Exists (fun c => c_children c <> None) (m_world (with_ents [gunj; light0])).
Proof.
  split; [eexists; vm_compute; reflexivity|]. split.
  - constructor; [|constructor; [apply light0_typed|constructor]].
    split; [reflexivity|]. split; [intros _; exists 11, [0; 3; 0; 7]; split; reflexivity|].
    split; [intros H; exfalso; apply H; left; reflexivity|]. split; [exact Logic.I|]. split; exact Logic.I.
  - apply Exists_cons_hd. discriminate.
Qed.

(** C49: a weapon made by the weapon classes (whose first attribute is a plain number) cannot be
    converted at all. *)
Theorem C49_made_weapon_refuted : forall m e z r,
  In e (m_ents m) -> e_type e = 9 -> e_attrs e = AInt z :: r -> exists err, to_json m = Err err.
Proof. exact json_made_weapon. Qed.
Print Assumptions C49_made_weapon_refuted.
Example C49_made_weapon_nonvacuous :
  let gun := Ent (PF false 1 0) (PF false 0 0) (PF false 0 0) 9 [AInt 9; AInt 0; AInt 0; AInt 0; AInt 0] [] [0; 0; 0] in
  to_json (with_ents [gun]) = Err AttributeError.
Proof. vm_compute. reflexivity. Qed.
