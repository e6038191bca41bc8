(** Concrete maps for the properties of the JSON form. *)
From Verif Require Import Py VecModel VoxelModel VoxelSpec CodecModel CodecSpec CodecProofs OutModel OutSpec OutProofs
  CodecSamples JsonModel JsonSpec JsonProofs.

(** Eight cubes, one of them divided; variables named "ab" and "é" (two bytes). *)
Definition worldj : list cube :=
  [nodecube [newtexcube tex0; e0; e0; nodecube [e0; e0; newtexcube tex0; e0; e0; e0; e0; e0];
             e0; e0; e0; e0]; newtexcube tex0; e0; e0; e0; e0; e0; e0].
Definition with_ents (es : list entity) : rmap :=
  Map MAPZ 43 52 (header_meta h0 (len es) 3)
      [([97; 98], VInt (-5)); ([195; 169], VBytes [120; 46; 99; 102; 103]); ([102], VFloat (PF false 1 (-1)))]
      [3; 65535] es 4 [-2; -2] worldj.
Definition mapj : rmap := with_ents [].
(** The same header with a cube that has information for one of its surfaces only. *)
Definition barec : cube :=
  Cube None (Some [Some (Surf 2 0 0 32); None; None; None; None; None]) (repeat 128 12)
       [F_SOLID; F_SOLID; F_SOLID] tex0 None 0 1 0 34.
Definition map_bare : rmap :=
  Map MAPZ 43 52 (header_meta h0 0 0) [] [] [] 4 [-2; -2] [barec; e0; e0; e0; e0; e0; e0; e0].

Definition get {A} (d : A) (r : res A) : A := match r with Ok a => a | Err _ => d end.
Definition jsonj (m : rmap) : list (string * pv) := get [] (to_json m).

Lemma full_leaf c : c_children c = None -> match c_ext c with Some l => forallb (fun s => match s with None => false | _ => true end) l | None => true end = true ->
  forallb (fun f => (f =? F_EMPTY) || (f =? F_SOLID)) (c_faces c) = true -> full_cube c.
Proof.
  intros Hc He Hf. constructor.
  - intros l El Hin. rewrite El in He. rewrite forallb_forall in He. specialize (He _ Hin). discriminate.
  - apply Forall_forall. intros f Hin. rewrite forallb_forall in Hf. specialize (Hf _ Hin). lia.
  - intros l El. congruence.
Qed.
Lemma full_node l : Forall full_cube l -> full_cube (nodecube l).
Proof. intros H. constructor; cbn; [discriminate|repeat constructor|]. intros l' [= <-]. exact H. Qed.
Lemma worldj_full : Forall full_cube worldj.
Proof.
  assert (E : full_cube e0) by (apply full_leaf; reflexivity).
  assert (T : full_cube (newtexcube tex0)) by (apply full_leaf; reflexivity).
  repeat (apply Forall_cons; try exact E; try exact T); [|apply Forall_nil].
  apply full_node. repeat (apply Forall_cons; try exact E; try exact T); [|apply Forall_nil].
  apply full_node. repeat (apply Forall_cons; try exact E; try exact T). apply Forall_nil.
Qed.
Lemma worldj_wf : Forall (wf_cube 8) worldj.
Proof.
  assert (E : forall s, s <= 4096 -> wf_cube s e0) by (intros; apply newcube_wf; lia).
  pose proof world0_wf as W. unfold world0 in W. inversion W as [|? ? W1 W2]; subst. inversion W2 as [|? ? W3 W4]; subst.
  constructor; [exact W1|]. constructor; [exact W3|]. repeat (apply Forall_cons; [apply E; lia|]). apply Forall_nil.
Qed.
Lemma text_b s : utf8_ok s = true -> text s.
Proof. apply utf8_text. Qed.
Lemma texts_j es : texts (with_ents es).
Proof.
  split; [apply text_b; reflexivity|]. split.
  - unfold with_ents, header_meta. cbn [m_meta]. repeat (apply Forall_cons; [try exact Logic.I; apply text_b; reflexivity|]). apply Forall_nil.
  - repeat (apply Forall_cons; [split; [apply text_b; reflexivity|try exact Logic.I; apply text_b; reflexivity]|]). apply Forall_nil.
Qed.
Lemma nodup_meta es : NoDup (map fst (m_meta (with_ents es))).
Proof. unfold with_ents, header_meta. cbn [m_meta]. nodup_strings. Qed.
Lemma nodup_vars es : NoDup (map fst (m_vars (with_ents es))).
Proof. unfold with_ents. cbn [m_vars]. nodup_strings. Qed.
Lemma light0_typed : typed_entity light0.
Proof.
  split; [reflexivity|]. split; [intros [H|H]; discriminate H|]. split; [intros _; eexists; reflexivity|].
  repeat split.
Qed.
Definition spawnj : entity :=
  Ent (e_x spawn0) (e_y spawn0) (e_z spawn0) 3 (AWeap 0 :: ix [90; 0; 0; 0; 0]) [] [0; 0; 0].
Lemma spawnj_typed : typed_entity spawnj.
Proof.
  split; [reflexivity|]. split; [intros _; exists 0, [90; 0; 0; 0; 0]; split; reflexivity|].
  split; [intros H; exfalso; apply H; right; reflexivity|]. repeat split.
Qed.
Lemma mapj_wf : wf_map mapj.
Proof.
  unfold wf_map. cbn [mapj with_ents m_magic m_version m_headersize m_meta m_vars m_texmru m_ents m_vslots m_chg m_world].
  unfold is_i32. change (2 ^ 31) with 2147483648. change (2 ^ 16) with 65536.
  split; [left; reflexivity|]. do 2 (split; [lia|]). split.
  { exists h0. split.
    - unfold wf_header, is_i32. change (2 ^ 31) with 2147483648. cbn [h0 h_worldsize h_numpvs h_lightmaps h_blendmap h_numvslots h_gamever h_revision h_gameident].
      do 7 (split; [lia|]). split; [reflexivity|]. repeat constructor; unfold is_byte; lia.
    - split; [reflexivity|]. split; [|exact worldj_wf]. cbn. unfold is_i32. change (2 ^ 31) with 2147483648. lia. }
  do 2 (split; [reflexivity|]). split; [exact (nodup_vars [])|].
  split.
  { assert (B : forall l, forallb (fun z => (0 <=? z) && (z <? 256)) l = true -> Forall is_byte l).
    { intros l Hl. apply Forall_forall. intros z Hz. rewrite forallb_forall in Hl. specialize (Hl z Hz). unfold is_byte. lia. }
    apply Forall_cons; [split; [apply B; reflexivity|]; split; [reflexivity|cbn; unfold is_i32; lia]|].
    apply Forall_cons; [split; [apply B; reflexivity|]; split; [reflexivity|split; [apply B; reflexivity|reflexivity]]|].
    apply Forall_cons; [|apply Forall_nil]. split; [apply B; reflexivity|]. split; [reflexivity|].
    exists 1056964608. split; [lia|]. vm_compute. auto. }
  split; [reflexivity|]. split; [repeat constructor; unfold is_u16; change (2 ^ 16) with 65536; lia|].
  split; [apply Forall_nil|]. split; reflexivity.
Qed.
