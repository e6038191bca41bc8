(** Proofs about the programs that read and write map files. *)
From Verif Require Import Py VecModel VoxelModel CodecModel CodecSpec CodecProofs CodecParse CodecMap OutModel OutSpec UpmModel UpmSpec KitModel RoomClasses RoomModel MagicaModel RoomSpec
  TexModel TexSpec TexProofs LightModel ShippedModel ShippedSpec DistModel GenModel GenSpec GenProofs DebugModel DebugProofs ConfModel ConfSpec CopyModel CopySpec CopyProofs
  DiscModel DiscSpec DiscWriter DiscLoss.
Local Open Scope Z_scope.

Lemma store_same d f c : store d f c f = Some c.
Proof. unfold store. rewrite String.eqb_refl. reflexivity. Qed.
Lemma store_other d f c g : g <> f -> store d f c g = d g.
Proof. unfold store. intros N. apply String.eqb_neq in N. rewrite N. reflexivity. Qed.
Lemma store_but d f c : same_but [f] d (store d f c).
Proof. intros g N. apply store_other. intros ->. apply N. left. reflexivity. Qed.
Lemma parse_gz d f b : d f = Some (Gz b) -> parse d f = read_map b.
Proof. intros E. unfold parse. rewrite E. reflexivity. Qed.
Lemma parse_text d f s : d f = Some (Txt s) -> exists x, parse d f = Err x.
Proof.
  intros E. unfold parse. rewrite E. cbn [payload]. destruct (String.eqb s ""); cbn [bind]; eexists; reflexivity.
Qed.
Lemma save_ok d f m b : write_map m = Ok b -> save d f m = (store d f (Gz b), None).
Proof. intros E. unfold save. pose proof (tracks_map m) as T. rewrite E in T. cbn [tracks] in T. rewrite T. reflexivity. Qed.

(** ** C110 *)
Lemma iso_unreadable d i o x : parse d i = Err x -> iso d i o = (d, Some x).
Proof. intros E. unfold iso. rewrite E. reflexivity. Qed.
Lemma iso_not_a_map d i o :
  (d i = None -> iso d i o = (d, Some FileNotFoundError)) /\
  (forall b x, d i = Some (Gz b) -> read_map b = Err x -> iso d i o = (d, Some x)) /\
  (forall t, d i = Some (Txt t) -> exists x, iso d i o = (d, Some x)).
Proof.
  split; [|split].
  - intros E. apply iso_unreadable. unfold parse. rewrite E. reflexivity.
  - intros b x E R. apply iso_unreadable. unfold parse. rewrite E. cbn [payload bind]. exact R.
  - intros t E. destruct (String.eqb t "") eqn:B.
    + eexists. apply iso_unreadable. unfold parse. rewrite E. cbn [payload]. rewrite B. cbn [bind]. reflexivity.
    + eexists. apply iso_unreadable. unfold parse. rewrite E. cbn [payload]. rewrite B. reflexivity.
Qed.
Lemma iso_written d i o b m : d i = Some (Gz b) -> Forall is_byte b -> read_map b = Ok m -> counted m -> writable_map m ->
  exists d' m', iso d i o = (d', None) /\ same_but [o] d d' /\ parse d' o = Ok m' /\ same_map (set_numents m) m' /\
    forall o2, exists d2, iso d' o o2 = (d2, None) /\ d2 o2 = d' o.
Proof.
  intros E Hb Hr Hn Hw. apply (writable_lemma b m Hb Hr) in Hw. destruct Hw as (bs & Hw).
  destruct (rewrite_lemma b m bs Hb Hr Hn Hw) as (m' & R & S & W).
  assert (Rm : read_map bs = Ok m') by (unfold read_map; rewrite R; reflexivity).
  exists (store d o (Gz bs)), m'. split; [unfold iso; rewrite (parse_gz _ _ _ E), Hr; apply save_ok; exact Hw|].
  split; [apply store_but|]. split; [rewrite (parse_gz _ _ bs) by apply store_same; exact Rm|]. split; [exact S|].
  intros o2. exists (store (store d o (Gz bs)) o2 (Gz bs)). split; [|rewrite !store_same; reflexivity].
  unfold iso. rewrite (parse_gz _ _ bs) by apply store_same. rewrite Rm. apply save_ok. exact W.
Qed.
Lemma iso_lost d i o b m : d i = Some (Gz b) -> Forall is_byte b -> read_map b = Ok m -> counted m -> Forall known_kinds (m_world m) -> ~ writable_map m ->
  exists d' x e, iso d i o = (d', Some x) /\ same_but [o] d d' /\ parse d' o = Err e.
Proof.
  intros E Hb Hr Hn Hk Hw. unfold iso. rewrite (parse_gz _ _ _ E), Hr. unfold save. pose proof (tracks_map m) as T.
  destruct (write_map m) as [bs|x] eqn:W; [exfalso; apply Hw; apply (writable_lemma b m Hb Hr); eauto|]. cbn [tracks] in T.
  destruct (write_out m) as [q y] eqn:Q. cbn [snd] in T. subst y.
  destruct (failed_write_lost b m q x Hb Hr Hn Hk Q) as (e & He).
  exists (store d o (Gz q)), x, e. split; [reflexivity|]. split; [apply store_but|].
  rewrite (parse_gz _ _ q) by apply store_same. exact He.
Qed.

(** ** C111 *)
Lemma in_place_lost show tree decl fuelo fuel e hue vecs tm size mirror debug ctf rooms fl g d f c : d f = Some c ->
  exists d' x, magica_rooms show tree decl fuelo fuel e hue vecs tm size mirror debug ctf rooms fl g d f f = (d', Some x) /\ d' f = Some (Txt "") /\ same_but [f] d d'.
Proof.
  intros E. unfold magica_rooms, command_line. rewrite E.
  assert (exists x, parse (store d f (Txt "")) f = Err x) as (x & ->) by (eapply parse_text; apply store_same).
  exists (store d f (Txt "")), x. split; [reflexivity|]. split; [apply store_same|apply store_but].
Qed.
Lemma with_world_output fuelo w m : output_map fuelo w m = let! m1 := with_world fuelo w m in write_map m1.
Proof.
  unfold output_map, with_world. destruct (to_octree fuelo w) as [[]|]; try reflexivity. cbn [bind].
  match goal with |- context [map tree_cube ?l] => destruct (map tree_cube l) end; reflexivity.
Qed.
Lemma parse_store d o s i : i <> o -> parse (store d o s) i = parse d i.
Proof. intros N. unfold parse. rewrite store_other by exact N. reflexivity. Qed.
Lemma parse_there d i m : parse d i = Ok m -> exists c, d i = Some c.
Proof. unfold parse. destruct (d i) as [c|]; [eauto|discriminate]. Qed.

Lemma append_length a b : String.length (a ++ b)%string = (String.length a + String.length b)%nat.
Proof. induction a as [|c a IH]; cbn; [reflexivity|]. rewrite IH. reflexivity. Qed.
Lemma failed_run show fuelo e hue vecs known l size n ctf rooms fl extra g d i o m : true_vectors vecs -> has_base known -> mirror_factor n -> good_env e ->
  i <> o -> parse d i = Ok m -> update [] fl = Ok extra ->
  exists fuel0, forall fuel, (fuel0 <= fuel)%nat -> exists d' x,
    magica_rooms show texture_data colour_files fuelo fuel e hue vecs (asked (tm_init known) l) size (Some n) false ctf rooms fl g d i o = (d', Some FileNotFoundError) /\
    parse d' o = Err x /\ same_but [o; cfg_name o] d d'.
Proof.
  intros TV HB Hn G N P U. destruct (generator_fails e hue vecs known l size n ctf rooms m g TV HB Hn G) as (fuel0 & T).
  exists fuel0. intros fuel Hl. destruct (T fuel Hl) as (tm' & w & m2 & st & g' & EG & EO). specialize (EO show fuelo ["x"%string]).
  assert (M : manager (asked (tm_init known) l)) by (exists known, l; auto).
  unfold magica_rooms, command_line. destruct (parse_there _ _ _ P) as (c & ->). rewrite parse_store, P, U by exact N.
  rewrite (plain_same fuel e hue vecs _ size n ctf rooms m g TV M Hn G), EG.
  unfold output_files. unfold output_mpz in EO. destruct (copy_data texture_data colour_files tm') as [cp [y|]].
  2: { exfalso. assert (EX : config_text show tm' ["x"%string] = emit_conf show "Python" "test" tm') by congruence.
       unfold config_text in EX. apply (f_equal String.length) in EX. rewrite append_length in EX. cbn in EX. lia. }
  assert (y = FileNotFoundError) by congruence. subst y.
  set (d' := store (store d o (Txt "")) (cfg_name o) (Txt (emit_conf show "Python" "test" tm'))).
  assert (X : exists s, d' o = Some (Txt s)).
  { unfold d', store. destruct (String.eqb o (cfg_name o)); [eauto|]. rewrite String.eqb_refl. eauto. }
  destruct X as (s & X). destruct (parse_text _ _ _ X) as (x & Ex). exists d', x. split; [reflexivity|]. split; [exact Ex|].
  intros f Hf. unfold d'. rewrite !store_other; [reflexivity| |]; intros ->; apply Hf; cbn; auto.
Qed.

Lemma good_run show tree k fuelo e hue vecs l fl n ctf rooms g d i o m ws : In "data/hxr/empty.png"%string tree -> (forall c, one_line (show c)) -> incl fl choices ->
  true_vectors vecs -> byte_hues hue -> mirror_factor n -> good_env e ->
  (7 <= k)%nat -> (S k < fuelo)%nat -> wf_map m -> header_size m = Some ws -> 2 ^ Z.of_nat (S k) <= ws <= 8192 ->
  Z.of_nat (List.length (tm_atlas (asked (tm_init only_colours) l))) <= 57000 -> len (m_ents m) <= 2 ^ 30 ->
  i <> o -> parse d i = Ok m ->
  exists fuel0, forall fuel, (fuel0 <= fuel)%nat -> exists d' tm' w m2 st g' m',
    magica_rooms show tree colour_files fuelo fuel e hue vecs (asked (tm_init only_colours) l) (2 ^ Z.of_nat (S k)) (Some n) false ctf rooms (Some fl) g d i o = (d', None) /\
    generate fuel e hue vecs (asked (tm_init only_colours) l) (2 ^ Z.of_nat (S k)) (Some n) false ctf rooms m g = (tm', Ok (w, m2, st), g') /\
    parse d' o = Ok m' /\ same_but [o; cfg_name o] d d' /\
    (cfg_name o <> o -> exists extra, update [] (Some fl) = Ok extra /\ d' (cfg_name o) = Some (Txt (config_text show tm' extra))) /\
    forall x y z tex, in_world (2 ^ Z.of_nat (S k)) (x, y, z) ->
      (world_lookup (S k) m' x y z = Some tex <-> exists ob, In ob (u_rooms st) /\ has_block tm' (snd ob) (x, y, z) tex).
Proof.
  intros TR SH FL TV BH Hn G Hk Hf WM HS Hws HA HE N P.
  destruct (generator_writes tree k fuelo e hue vecs l show fl n ctf rooms m ws g TR SH FL TV BH Hn G Hk Hf WM HS Hws HA HE) as (fuel0 & T).
  exists fuel0. intros fuel Hl. destruct (T fuel Hl) as (tm' & w & m2 & st & g' & extra & copied & bs & m' & EG & U & EO & _ & R & B).
  assert (M : manager (asked (tm_init only_colours) l)) by (exists only_colours, l; split; [exact only_base|reflexivity]).
  unfold output_mpz in EO. destruct (copy_data tree colour_files tm') as [cp [y|]] eqn:EC; [congruence|].
  assert (EW : output_map fuelo w m2 = Ok bs) by congruence. rewrite with_world_output in EW.
  destruct (with_world fuelo w m2) as [m3|] eqn:E3; [|discriminate]. cbn [bind] in EW.
  set (d2 := store (store d o (Txt "")) (cfg_name o) (Txt (config_text show tm' extra))).
  exists (store d2 o (Gz bs)), tm', w, m2, st, g', m'. split.
  { unfold magica_rooms, command_line. destruct (parse_there _ _ _ P) as (c & ->). rewrite parse_store, P, U by exact N.
    rewrite (plain_same fuel e hue vecs _ (2 ^ Z.of_nat (S k)) n ctf rooms m g TV M Hn G), EG. unfold output_files. rewrite EC, E3. apply save_ok. exact EW. }
  split; [exact EG|]. split; [rewrite (parse_gz _ _ bs) by apply store_same; unfold read_map; rewrite R; reflexivity|].
  split; [|split; [|exact B]].
  - intros f Hnf. unfold d2. rewrite !store_other; [reflexivity| | |]; intros ->; apply Hnf; cbn; auto.
  - intros No. exists extra. split; [exact U|]. rewrite store_other by exact No. unfold d2. apply store_same.
Qed.

(** ** C112 *)
Lemma rooms_never d i o c : d i = Some c -> exists d' x, rooms_py d i o = (d', Some x) /\ d' o = Some (Txt "") /\ same_but [o] d d' /\
  ((exists m, parse d i = Ok m) -> i <> o -> x = TypeError).
Proof.
  intros E. unfold rooms_py, command_line. rewrite E.
  assert (exists st, register_room (upm_init (Some 4) false) (mk_room SpawnRoom STARTING_POSITION T0 None) = (st, None)) as (st & ER).
  { destruct (register_room (upm_init (Some 4) false) (mk_room SpawnRoom STARTING_POSITION T0 None)) as [st x] eqn:X. exists st. f_equal.
    change x with (snd (st, x)). rewrite <- X. vm_compute. reflexivity. }
  rewrite ER. exists (store d o (Txt "")). destruct (parse (store d o (Txt "")) i) as [m|x] eqn:P.
  - exists TypeError. split; [reflexivity|]. split; [apply store_same|]. split; [apply store_but|reflexivity].
  - exists x. split; [reflexivity|]. split; [apply store_same|]. split; [apply store_but|]. intros (m & Q) N. rewrite parse_store in P by exact N. congruence.
Qed.
Lemma vector_test_never d i o c : d i = Some c -> exists d', vector_test_py d i o = (d', Some AttributeError) /\ d' o = Some (Txt "") /\ same_but [o] d d'.
Proof.
  intros E. unfold vector_test_py, command_line. rewrite E. exists (store d o (Txt "")). split; [reflexivity|]. split; [apply store_same|apply store_but].
Qed.
