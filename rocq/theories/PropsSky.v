(** Property theorems about skies (C106, C107).  Statements only; proofs are in SkyProofs.v. *)
From Verif Require Import Py CodecModel CodecSpec CodecMap CodecSamples OutModel JsonModel SkyModel SkySpec SkyProofs.
Local Open Scope Z_scope.

(** C106: a map to which a sky was attached is written, and read back.  It never is: whatever the map
    (with at least one variable) and the sky, reading the file raises struct.error. *)
Theorem C106_sky_refuted : forall m basename, wf_map m -> m_vars m <> [] ->
  exists bs sb, write_map m = Ok bs /\ write_map (attach_sky m basename) = Ok sb /\
    (len sb < 796031080 -> read_rest sb = Err StructError).
Proof. exact sky_refuted. Qed.
Print Assumptions C106_sky_refuted.
Example C106_nonvacuous : wf_map map0 /\ m_vars map0 <> [] /\
  write_map (attach_sky map0 "desert") = Ok (written (attach_sky map0 "desert")) /\
  len (written (attach_sky map0 "desert")) < 796031080 /\
  read_rest (written (attach_sky map0 "desert")) = Err StructError.
Proof. split; [exact map0_wf|]. split; [discriminate|]. split; [|split]; vm_compute; reflexivity. Qed.

(** C106, what does hold: the file is the one without a sky, with the path of the images (and a zero byte)
    inserted right behind the header, and nothing else changed. *)
Theorem C106_inserted_partial : forall m basename, wf_map m ->
  exists bs sb, write_map m = Ok bs /\ write_map (attach_sky m basename) = Ok sb /\
    inserted 52 (codes "hxr/skybox/" ++ codes basename ++ [0]) bs sb.
Proof. exact sky_inserted_at. Qed.
Print Assumptions C106_inserted_partial.
Example C106_inserted_nonvacuous :
  len (written map0) + 18 = len (written (attach_sky map0 "desert")) /\
  firstn 12 (skipn 50 (written (attach_sky map0 "desert"))) = [0; 0] ++ codes "hxr/skybox".
Proof. split; vm_compute; reflexivity. Qed.

(** C106: a map without variables is no better.  If its file can be read at all, the first letters of the
    path are taken for the length of the texture history. *)
Theorem C106_history_partial : forall m basename sb m' rest, wf_map m -> m_vars m = [] ->
  write_map (attach_sky m basename) = Ok sb -> read_rest sb = Ok (m', rest) -> len (m_texmru m') = 30824.
Proof. exact sky_history. Qed.
Print Assumptions C106_history_partial.
Example C106_history_nonvacuous : wf_map odd_map /\ m_vars odd_map = [] /\
  exists sb m' rest, write_map (attach_sky odd_map "desert") = Ok sb /\ read_rest sb = Ok (m', rest).
Proof. split; [exact odd_wf|]. split; [reflexivity|exact odd_read]. Qed.

(** C107: a sky whose images are all there is installed: afterwards the directory of the game has exactly
    the files it had and the six images that the path written into the map names. *)
Theorem C107_installed : forall module basename game,
  snd (new_sky module basename game) = None ->
  forall f, In f (fst (new_sky module basename game)) <->
            In f game \/ sky_image (get_short_path basename) f.
Proof. exact sky_installed. Qed.
Print Assumptions C107_installed.

(** C107: that is so exactly if no image is missing.  Otherwise FileNotFoundError is raised, and no file of
    the game is lost or added but images of this sky. *)
Theorem C107_complete : forall module basename game,
  (snd (new_sky module basename game) = None <-> forall s, In s sides -> In (basename ++ s)%string module) /\
  (forall e, snd (new_sky module basename game) = Some e -> e = FileNotFoundError) /\
  (forall f, In f game -> In f (fst (new_sky module basename game))) /\
  (forall f, In f (fst (new_sky module basename game)) -> In f game \/ sky_image (get_short_path basename) f).
Proof. exact sky_complete. Qed.
Print Assumptions C107_complete.

(** C107: the two skies of the repository are complete; the base class has no images and cannot be made. *)
Theorem C107_shipped : forall game,
  snd (new_sky sky_images "desert" game) = None /\ snd (new_sky sky_images "minecraft" game) = None /\
  new_sky sky_images "base" game = (game, Some FileNotFoundError).
Proof. exact sky_shipped. Qed.
Print Assumptions C107_shipped.
Example C107_nonvacuous :
  new_sky sky_images "desert" ["data/hxr/empty.png"%string] =
    (["data/hxr/empty.png"; "data/hxr/skybox/desert_bk.jpg"; "data/hxr/skybox/desert_dn.jpg";
      "data/hxr/skybox/desert_ft.jpg"; "data/hxr/skybox/desert_lf.jpg"; "data/hxr/skybox/desert_rt.jpg";
      "data/hxr/skybox/desert_up.jpg"]%string, None) /\
  get_short_path "desert" = "hxr/skybox/desert"%string.
Proof. split; reflexivity. Qed.
