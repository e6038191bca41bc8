(** Proofs about the files of a run of the map generator in debug mode. *)
From Verif Require Import Py VecModel VecSpec VoxelModel CodecModel CodecSpec OutModel OutSpec UpmModel UpmSpec KitModel RoomModel MagicaModel RoomSpec
  TexModel TexSpec TexProofs LightModel ShippedModel ShippedSpec ShippedDraw DistModel GenModel GenSpec GenProofs DebugModel DebugSpec DebugProofs ConfModel ConfSpec ConfProofs
  CopyModel CopySpec CopyProofs DiscModel DiscSpec DiscProofs ShippedProofs.
Local Open Scope Z_scope.

Lemma stems_asked known l tm' cs : stems (asked (tm_init known) l) tm' cs -> exists reqs, tm' = asked (tm_init known) (l ++ reqs).
Proof. intros (reqs & ST & _). exists reqs. rewrite ST. unfold asked. rewrite fold_left_app. reflexivity. Qed.

(** Two open doors that lead to one cell: the output is emptied and nothing else happens. *)
Lemma debug_clash show tree decl fuelo fuel e hue vecs known l size n ctf rooms fl extra g d i o m st1 g1 : true_vectors vecs -> has_base known -> mirror_factor n -> good_env e ->
  i <> o -> parse d i = Ok m -> update [] fl = Ok extra -> lay_rooms fuel e (Some n) ctf rooms g = (st1, None, g1) -> ~ NoDup (door_cells st1) ->
  exists d', magica_rooms show tree decl fuelo fuel e hue vecs (asked (tm_init known) l) size (Some n) true ctf rooms fl g d i o = (d', Some UserExn) /\
    d' o = Some (Txt "") /\ same_but [o] d d'.
Proof.
  intros TV HB Hn G N P U E ND. assert (M : manager (asked (tm_init known) l)) by (exists known, l; auto).
  destruct (debug_ok fuel e hue vecs _ size n ctf rooms m g st1 g1 TV M Hn G E) as (_ & _ & _ & X & _). destruct (X ND) as (g' & EG).
  exists (store d o (Txt "")). split; [|split; [apply store_same|apply store_but]].
  unfold magica_rooms, command_line. destruct (parse_there _ _ _ P) as (c & ->). rewrite parse_store, P, U by exact N. rewrite EG. reflexivity.
Qed.

(** Otherwise: with the texture files of the repository it fails after the configuration. *)
Lemma debug_missing show fuelo fuel e hue vecs known l size n ctf rooms fl extra g d i o m st1 g1 : true_vectors vecs -> has_base known -> mirror_factor n -> good_env e ->
  i <> o -> parse d i = Ok m -> update [] fl = Ok extra -> lay_rooms fuel e (Some n) ctf rooms g = (st1, None, g1) -> NoDup (door_cells st1) ->
  exists d' x tm' w m2 st g', magica_rooms show texture_data colour_files fuelo fuel e hue vecs (asked (tm_init known) l) size (Some n) true ctf rooms fl g d i o = (d', Some FileNotFoundError) /\
    generate_any fuel e hue vecs (asked (tm_init known) l) size (Some n) true ctf rooms m g = (tm', Ok (w, m2, st), g') /\
    parse d' o = Err x /\ same_but [o; cfg_name o] d d' /\ d' (cfg_name o) = Some (Txt (emit_conf show "Python" "test" tm')).
Proof.
  intros TV HB Hn G N P U E ND. assert (M : manager (asked (tm_init known) l)) by (exists known, l; auto).
  destruct (debug_ok fuel e hue vecs _ size n ctf rooms m g st1 g1 TV M Hn G E) as (LO & _ & _ & _ & X).
  destruct (X ND) as (tm' & w & m2 & st & g' & sun & ess & es & markers & EG & _ & _ & _ & _ & _ & _ & _ & _ & _ & _ & ST & _ & NB & _).
  destruct (stems_asked _ _ _ _ ST) as (reqs & Et).
  destruct (start_cell n ctf st1 Hn LO) as (ob & dd & Ho & Hd & _). destruct (NB ob dd Ho Hd) as (v & tex & _ & s & vf & q & a & r & g0 & b & al & k & _ & _ & _ & _ & _ & _ & NN & _).
  rewrite Et in NN. destruct (numbered_in_use known _ _ _ HB NN) as (l' & EQ & Hi).
  destruct (intended (s_paint s) (r_turn (snd ob)) (r, g0, b)) as [[r1 g2] b1].
  set (d' := store (store d o (Txt "")) (cfg_name o) (Txt (emit_conf show "Python" "test" tm'))).
  assert (Y : exists s, d' o = Some (Txt s)).
  { unfold d', store. destruct (String.eqb o (cfg_name o)); [eauto|]. rewrite String.eqb_refl. eauto. }
  destruct Y as (y & Y). destruct (parse_text _ _ _ Y) as (x & Ex). exists d', x, tm', w, m2, st, g'. split; [|split; [exact EG|split; [exact Ex|split; [|apply store_same]]]].
  - unfold magica_rooms, command_line. destruct (parse_there _ _ _ P) as (c & ->). rewrite parse_store, P, U by exact N. rewrite EG.
    unfold output_files, d'. rewrite Et, <- EQ. pose proof (colours_absent known l' r1 g2 b1 HB Hi) as CA. rewrite CA. reflexivity.
  - intros f Hf. unfold d'. rewrite !store_other; [reflexivity| |]; intros ->; apply Hf; cbn; auto.
Qed.

(** With the missing image in place the map and the configuration are written. *)
Lemma debug_good show tree k fuelo fuel e hue vecs l fl n ctf rooms g d i o m ws st1 g1 : In "data/hxr/empty.png"%string tree -> (forall c, one_line (show c)) -> incl fl choices ->
  true_vectors vecs -> byte_hues hue -> mirror_factor n -> good_env e ->
  (7 <= k)%nat -> (S k < fuelo)%nat -> wf_map m -> header_size m = Some ws -> 2 ^ Z.of_nat (S k) <= ws <= 8192 ->
  Z.of_nat (List.length (tm_atlas (asked (tm_init only_colours) l))) <= 57000 -> len (m_ents m) <= 2 ^ 30 ->
  i <> o -> parse d i = Ok m -> lay_rooms fuel e (Some n) ctf rooms g = (st1, None, g1) -> NoDup (door_cells st1) ->
  exists d' tm' w m2 st g' m',
    magica_rooms show tree colour_files fuelo fuel e hue vecs (asked (tm_init only_colours) l) (2 ^ Z.of_nat (S k)) (Some n) true ctf rooms (Some fl) g d i o = (d', None) /\
    generate_any fuel e hue vecs (asked (tm_init only_colours) l) (2 ^ Z.of_nat (S k)) (Some n) true ctf rooms m g = (tm', Ok (w, m2, st), g') /\
    parse d' o = Ok m' /\ same_but [o; cfg_name o] d d' /\
    (cfg_name o <> o -> exists extra, update [] (Some fl) = Ok extra /\ d' (cfg_name o) = Some (Txt (config_text show tm' extra))) /\
    Forall2 same_entity (m_ents m2) (m_ents m') /\
    forall x y z tex, in_world (2 ^ Z.of_nat (S k)) (x, y, z) ->
      (world_lookup (S k) m' x y z = Some tex <->
        (exists ob, In ob (u_rooms st1) /\ has_block tm' (snd ob) (x, y, z) tex) \/
        (exists d k, In d (door_cells st1) /\ on_plate d (x, y, z) /\ numbered tm' red k /\ tex = repeat k 6)).
Proof.
  intros TR SH FL TV BH Hn G Hk Hf WM HS Hws HA HE N P E ND.
  assert (M : manager (asked (tm_init only_colours) l)) by (exists only_colours, l; split; [exact only_base|reflexivity]).
  destruct (debug_ok fuel e hue vecs _ (2 ^ Z.of_nat (S k)) n ctf rooms m g st1 g1 TV M Hn G E) as (LO & _ & _ & _ & X).
  destruct (X ND) as (tm' & w & m2 & st & g' & sun & ess & es & markers & EG & _ & _ & _ & _ & _ & _ & _ & _ & _ & _ & ST & _).
  destruct (debug_written k fuel fuelo e hue vecs _ n ctf rooms m ws g st1 g1 tm' w m2 st g' TV BH M Hn G Hk Hf WM HS Hws HA HE E EG) as (bs & m' & EO & R & _ & B & SE).
  destruct (stems_asked _ _ _ _ ST) as (reqs & Et).
  assert (SK : safe_table only_colours) by (unfold safe_table; repeat constructor).
  destruct (flavours_text only_colours (l ++ reqs) show fl only_base SK FL) as (EU & _ & _).
  destruct (colours_installed tree (l ++ reqs) show SH TR) as (c & EC & _). rewrite <- Et in EC.
  rewrite with_world_output in EO. destruct (with_world fuelo w m2) as [m3|] eqn:E3; [|discriminate]. cbn [bind] in EO.
  set (extra := List.concat (map setting_lines fl)) in *.
  set (d2 := store (store d o (Txt "")) (cfg_name o) (Txt (config_text show tm' extra))).
  exists (store d2 o (Gz bs)), tm', w, m2, st, g', m'. split.
  { unfold magica_rooms, command_line. destruct (parse_there _ _ _ P) as (cc & ->). rewrite parse_store, P, EU by exact N. rewrite EG. unfold output_files. rewrite EC, E3. apply save_ok. exact EO. }
  split; [exact EG|]. split; [rewrite (parse_gz _ _ bs) by apply store_same; unfold read_map; rewrite R; reflexivity|].
  split; [|split; [|split; [exact SE|exact B]]].
  - intros f Hnf. unfold d2. rewrite !store_other; [reflexivity| | |]; intros ->; apply Hnf; cbn; auto.
  - intros No. exists extra. split; [exact EU|]. rewrite store_other by exact No. unfold d2. apply store_same.
Qed.

Lemma nodup_different l : NoDup l -> different l = List.length l.
Proof.
  induction l as [|a l IH]; intros ND; [reflexivity|]. inversion ND as [|? ? N1 N2]; subst. cbn [different List.length].
  destruct (existsb (cell_eqb a) l) eqn:E; [|rewrite IH by exact N2; reflexivity]. exfalso. apply N1, existsb_cell, E.
Qed.
