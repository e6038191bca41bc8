(** Concrete maps and files used to show that hypotheses can be met and that the
    refuted properties fail. *)
From Verif Require Import Py VecModel VoxelModel VoxelSpec CodecModel CodecSpec OutModel OutSpec
  CodecProofs OutProofs.

Definition ix (l : list Z) : list attr := map AInt l.
Definition light0 : entity := ent_at (V Fine (H 5) (I 8) (I (-12))) 1 (ix [64; 255; 255; 255; 0; 0]).
Definition spawn0 : entity := ent_at (V Fine (I 4) (I 4) (I 16)) 3 (ix [0; 90; 0; 0; 0; 0]).
Definition tex0 : list Z := [7; 7; 7; 7; 8; 9].
Definition e0 : cube := newcube F_EMPTY.
Definition world0 : list cube :=
  [nodecube [newtexcube tex0; e0; e0; nodecube [e0; e0; newtexcube tex0; e0; e0; e0; e0; e0];
             e0; e0; e0; e0];
   newtexcube tex0; e0; e0; e0; e0; e0;
   Cube None None (repeat 128 12) [0; 0; 0] [1; 2; 3; 4; 5; 65535] (Some 300) 0 0 0 66].
Definition h0 : header := Hdr 16 0 0 0 3 226 1 [102; 112; 115].
Definition map0 : rmap :=
  Map MAPZ 43 52 (header_meta h0 2 2) [([97; 98], VInt (-5)); ([99], VBytes [1; 0; 255])]
      [3; 65535] [light0; spawn0] 4 [-2; -2] world0.

Lemma tex0_ok : tex_ok tex0.
Proof. split; [reflexivity|]. repeat constructor; unfold is_u16; change (2 ^ 16) with 65536; lia. Qed.

Lemma world0_wf : Forall (wf_cube 8) world0.
Proof.
  assert (E : forall s, s <= 4096 -> wf_cube s e0) by (intros; apply newcube_wf; lia).
  assert (T : forall s, s <= 4096 -> wf_cube s (newtexcube tex0)) by (intros; apply newtexcube_wf; [lia|apply tex0_ok]).
  repeat (apply Forall_cons); try (apply E; lia); try (apply T; lia); [| |apply Forall_nil].
  - eapply wf_node_c; [unfold is_char; cbn; lia|reflexivity|reflexivity|reflexivity|lia|].
    change (8 / 2) with 4.
    repeat (apply Forall_cons); try (apply E; lia); try (apply T; lia); [|apply Forall_nil].
    eapply wf_node_c; [unfold is_char; cbn; lia|reflexivity|reflexivity|reflexivity|lia|].
    change (4 / 2) with 2. repeat (apply Forall_cons); try (apply E; lia); try (apply T; lia); apply Forall_nil.
  - apply wf_leaf_c; [unfold is_char; cbn; lia|cbn; lia|lia|]. unfold wf_leaf.
    split; [discriminate|]. split; [reflexivity|].
    split; [repeat constructor; unfold is_u16; change (2 ^ 16) with 65536; lia|].
    split; [|discriminate]. intros _. exists 300. split; [reflexivity|]. unfold is_u16; change (2 ^ 16) with 65536; lia.
Qed.

Ltac ints := repeat constructor; eexists; (split; [reflexivity|]); unfold is_i32; change (2 ^ 31) with 2147483648; lia.
Lemma light0_wf : wf_entity light0.
Proof. apply ent_at_wf; [apply num_is_f32; cbn; lia..|reflexivity|ints|not_weapon]. Qed.
Lemma spawn0_wf : wf_entity spawn0.
Proof. apply ent_at_wf; [apply num_is_f32; cbn; lia..|reflexivity|ints|]. intros _. do 2 eexists. split; reflexivity. Qed.

Lemma map0_wf : wf_map map0.
Proof.
  unfold wf_map. cbn [map0 m_magic m_version m_headersize m_meta m_vars m_texmru m_ents m_vslots m_chg m_world].
  unfold is_i32. change (2 ^ 31) with 2147483648. change (2 ^ 16) with 65536.
  split; [left; reflexivity|]. do 2 (split; [lia|]). split.
  { exists h0. split.
    - unfold wf_header, is_i32. change (2 ^ 31) with 2147483648. cbn [h0 h_worldsize h_numpvs h_lightmaps h_blendmap h_numvslots h_gamever h_revision h_gameident].
      do 7 (split; [lia|]). split; [reflexivity|]. repeat constructor; unfold is_byte; lia.
    - split; [reflexivity|]. split; [|exact world0_wf]. cbn [slots_ok]. unfold is_i32. change (2 ^ 31) with 2147483648. cbn. lia. }
  do 2 (split; [reflexivity|]). split; [repeat constructor; cbn; intuition congruence|].
  split.
  { repeat constructor; cbn; unfold is_byte, is_i32; try change (2 ^ 31) with 2147483648; try lia. }
  split; [reflexivity|]. split; [repeat constructor; unfold is_u16; change (2 ^ 16) with 65536; lia|].
  split; [apply Forall_cons; [apply light0_wf|apply Forall_cons; [apply spawn0_wf|apply Forall_nil]]|]. split; reflexivity.
Qed.

(** Files: the fixed header (version 43, world size 16) with [ne] entities, [ns]
    slots and [nv] variables. *)
Definition hbytes (ne ns nv : Z) : list Z :=
  MAPZ ++ le 4 43 ++ le 4 52 ++ le 4 16 ++ le 4 ne ++ le 4 0 ++ le 4 0 ++ le 4 0 ++ le 4 ns
  ++ le 4 226 ++ le 4 1 ++ [102; 112; 115; 0] ++ le 4 nv.
Definition leafbytes (o : Z) : list Z := o :: repeat 1 12.
Definition emptyworld : list Z := List.concat (repeat (leafbytes 1) 8).
Definition ebytes (ty r1 : Z) (attrs : list Z) : list Z :=
  le 4 0 ++ le 4 0 ++ le 4 0 ++ [ty; r1; 0; 0] ++ le 4 (Z.of_nat (List.length attrs))
  ++ List.concat (map (fun a => le 4 (a mod 2 ^ 32)) attrs) ++ le 4 0.

(** A leaf with the "merged" flag (128). *)
Definition file_merged : list Z :=
  hbytes 0 0 0 ++ le 2 0 ++ leafbytes 129 ++ [5] ++ List.concat (repeat (leafbytes 1) 7).
(** An entity with a reserved byte of 200. *)
Definition file_reserved : list Z :=
  hbytes 1 0 0 ++ le 2 0 ++ ebytes 1 200 [64; 1; 2; 3; 0; 0] ++ emptyworld.
(** A changed slot. *)
Definition file_slot : list Z :=
  hbytes 0 1 0 ++ le 2 0 ++ le 4 4 ++ le 4 0 ++ le 4 9 ++ emptyworld.
(** An unknown cube kind below the root. *)
Definition file_kind : list Z :=
  hbytes 0 0 0 ++ le 2 0 ++ [0; 7] ++ List.concat (repeat (leafbytes 1) 7).
(** Two variables of the same name. *)
Definition file_dup : list Z :=
  hbytes 0 0 2 ++ (le 4 1 ++ [97; 0] ++ le 4 0 ++ le 4 5) ++ (le 4 1 ++ [97; 0] ++ le 4 0 ++ le 4 6)
  ++ le 2 0 ++ emptyworld.
Definition all_files := [file_merged; file_reserved; file_slot; file_kind; file_dup].

Definition get_map (b : list Z) : rmap := match read_map b with Ok m => m | Err _ => map0 end.
Definition written (m : rmap) : list Z := match write_map m with Ok b => b | Err _ => [] end.
Definition getb {A} (d : A) (r : res A) : A := match r with Ok b => b | Err _ => d end.
Definition edits0 := [AddEnt light0; SetVar [97; 98] (VInt 4); AddEnt spawn0].
Definition small0 : list Z :=
  hbytes 1 0 1 ++ (le 4 1 ++ [97; 7] ++ le 4 0 ++ le 4 5) ++ le 2 0
  ++ ebytes 1 0 [64; 1; 2; 3; 0; 0] ++ emptyworld ++ [1; 2; 3].
Definition vox2 : world (list Z) :=
  set_point (set_point (new_world 16) (I 1) (I 7) (I 0) tex0) (I 9) (I 2) (I 15) tex0.
Definition vox1 : world (list Z) := set_point (new_world 16) (I 9) (I 2) (I 15) tex0.
