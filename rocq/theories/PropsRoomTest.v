(** Properties C100 and C101 of the tool that draws rooms for testing.  Statements only; proofs are in
    RoomTestProofs.v. *)
From Verif Require Import Py VecModel VecSpec VoxelModel VoxelSpec CodecModel CodecSpec OutModel OutSpec CodecSamples UpmModel UpmSpec KitModel KitSpec
  RoomModel RoomSpec TexModel TexSpec TexProofs LightModel LightSpec VoxFileModel ShippedModel ShippedSpec DistModel DistSpec GenModel GenSpec
  DebugModel DebugSpec ShippedDraw ExportSpec ExportProofs RoomTestModel RoomTestSpec RoomTestProofs PropsGen.
Local Open Scope Z_scope.

(** C100: for every shipped class the tool draws the room four times, turned about the middle of the map,
    and a red plate with a box of grenades behind every doorway, and nothing else. *)
Theorem C100_test : forall s hue vecs tm m g, In s shipped_rooms -> true_vectors vecs -> manager tm ->
  exists tm' w m' st g' es, room_test hue vecs s tm m g = (tm', Ok (w, m', st), g') /\ manager tm' /\ keeps_numbers tm tm' /\
    (forall x y z tex, get_point w (I x) (I y) (I z) = Some tex <-> test_block tm' s (x, y, z) tex) /\
    m_ents m' = m_ents m ++ es /\ test_entities hue s es /\
    map (fun ob => (r_cls (snd ob), r_pos (snd ob))) (u_rooms st) = map (fun r => (s_class s, r_pos r)) (four_rooms s) ++ map (fun d => (TestRoom, d)) (beyond s).
Proof. exact test_shown. Qed.
Print Assumptions C100_test.
(** Although the manager allows clashes there are none: the four rooms share no cell, no two doorways lead
    to one cell or into a room, and all blocks are on the map. *)
Theorem C100_apart : forall s, In s shipped_rooms ->
  (forall i j a b c, nth_error (four_rooms s) i = Some a -> nth_error (four_rooms s) j = Some b -> i <> j -> In c (positions a) -> ~ In c (positions b)) /\
  NoDup (beyond s) /\ (forall d r, In d (beyond s) -> In r (four_rooms s) -> ~ In d (positions r)) /\
  forall tm xyz tex, test_block tm s xyz tex -> in_world 256 xyz.
Proof. exact test_apart. Qed.
Print Assumptions C100_apart.
(** The gate: its cells, the cells behind its doorways, and those behind the doorways of its images. *)
Example C100_nonvacuous : In gate shipped_rooms /\ true_vectors vecs0 /\ manager (tm_init (discovered paper)) /\
  List.length (flat_map positions (four_rooms gate)) = 32%nat /\ List.length (beyond gate) = 8%nat.
Proof.
  destruct hypotheses_met as (H1 & _ & H3 & _). split; [unfold shipped_rooms; member|]. split; [exact H1|]. split; [exact H3|]. vm_compute. split; reflexivity.
Qed.

(** C101: for every list of shipped classes the tool writes, for each, the files it is asked for; read back,
    the voxel file shows the blocks in their colours, and the map has the blocks, the entities and a sun. *)
Theorem C101_files : forall fuel magica redeclipse hue vecs m ws l tm g, incl l shipped_rooms -> true_vectors vecs -> byte_hues hue -> manager tm ->
  (magica = true -> exportable tm) ->
  (redeclipse = true -> (8 < fuel)%nat /\ wf_map m /\ header_size m = Some ws /\ 256 <= ws <= 8192 /\ Z.of_nat (List.length (tm_atlas tm)) <= 18000 /\ len (m_ents m) <= 2 ^ 30) ->
  exists tm' fs g', room_tests fuel magica redeclipse hue vecs m l tm g = (tm', Ok fs, g') /\ manager tm' /\
    Forall2 (fun s f => exists tm1, manager tm1 /\ keeps_numbers tm1 tm' /\ test_output magica redeclipse hue m tm1 s f) l fs.
Proof. exact tests_written. Qed.
Print Assumptions C101_files.
(** The classes in the tool, with an empty map and a new manager. *)
Example C101_nonvacuous : incl test_classes shipped_rooms /\ true_vectors vecs0 /\ byte_hues white /\ manager (tm_init (discovered paper)) /\
  exportable (tm_init (discovered paper)) /\ wf_map map256 /\ header_size map256 = Some 256 /\ List.length (tm_atlas (tm_init (discovered paper))) = 2%nat.
Proof.
  destruct hypotheses_met as (H1 & H2 & H3 & _ & H5 & H6 & _).
  split; [intros s [<-|[<-|[<-|[<-|[<-|[<-|[<-|[]]]]]]]]; unfold shipped_rooms; member|].
  split; [exact H1|]. split; [exact H2|]. split; [exact H3|]. split; [apply fresh_exportable; split; vm_compute; reflexivity|].
  split; [exact H5|]. split; [exact H6|]. reflexivity.
Qed.
