(** Proofs about runs that are asked for several outputs. *)
From Verif Require Import Py VecModel VoxelModel CodecModel CodecSpec CodecMap OutModel OutSpec UpmModel UpmSpec KitModel RoomClasses RoomModel MagicaModel RoomSpec TexModel TexSpec TexProofs LightModel LightSpec
  VoxFileModel InfoModel ShippedModel ShippedSpec DistModel DistSpec GenModel GenSpec GenProofs DebugModel DebugProofs ConfModel ConfSpec CopyModel CopySpec CopyProofs DiscModel DiscSpec DiscProofs
  BaseRunProofs ExportSpec ExportProofs OutputsModel.
Local Open Scope Z_scope.

(** The map part of a run is the run that is asked for nothing else. *)
Lemma all_with_map show tree decl fuelo fuel e hue vecs tm size mirror debug ctf rooms fl g d i f vox gr m extra tm1 w m2 st g1 bs :
  parse d i = Ok m -> i <> f -> update [] fl = Ok extra -> generate_any fuel e hue vecs tm size mirror debug ctf rooms m g = (tm1, Ok (w, m2, st), g1) ->
  (vox = true -> vox_write w (tm_atlas tm1) = Ok bs) ->
  magica_all show tree decl fuelo fuel e hue vecs tm size mirror debug ctf rooms fl g d i vox gr (Some f) =
  (let (d1, x) := magica_rooms show tree decl fuelo fuel e hue vecs tm size mirror debug ctf rooms fl g d i f in
   (Outs d1 (complete vox bs) (match x with None => complete gr (graph_nodes st, graph_links st) | Some _ => emptied gr end), x)).
Proof.
  intros P N U E V. unfold magica_all, magica_rooms, command_line. destruct (parse_there _ _ _ P) as (c & ->). rewrite parse_store, P, U, E by exact N. unfold output_all.
  assert ((if vox then let! b := vox_write w (tm_atlas tm1) in Ok (Some (Some b)) else Ok None) = Ok (complete vox bs)) as ->.
  { destruct vox; [rewrite (V eq_refl)|]; reflexivity. }
  destruct (output_files show tree decl fuelo (store d f (Txt "")) f w m2 tm1 extra) as [d1 [x|]]; reflexivity.
Qed.
Lemma all_without_map show tree decl fuelo fuel e hue vecs tm size mirror debug ctf rooms fl g d i vox gr m extra tm1 w m2 st g1 bs :
  parse d i = Ok m -> update [] fl = Ok extra -> generate_any fuel e hue vecs tm size mirror debug ctf rooms m g = (tm1, Ok (w, m2, st), g1) ->
  (vox = true -> vox_write w (tm_atlas tm1) = Ok bs) ->
  magica_all show tree decl fuelo fuel e hue vecs tm size mirror debug ctf rooms fl g d i vox gr None = (Outs d (complete vox bs) (complete gr (graph_nodes st, graph_links st)), None).
Proof.
  intros P U E V. unfold magica_all. destruct (parse_there _ _ _ P) as (c & ->). rewrite P, U, E. unfold output_all.
  destruct vox; [rewrite (V eq_refl)|]; reflexivity.
Qed.

Lemma graph_lost show fuelo e hue vecs known l size n ctf rooms fl extra g d i m : true_vectors vecs -> has_base known -> exportable (asked (tm_init known) l) -> mirror_factor n -> good_env e ->
  0 <= size -> parse d i = Ok m -> update [] fl = Ok extra ->
  exists fuel0, forall fuel, (fuel0 <= fuel)%nat -> exists tm' w m2 st g' bs,
    generate fuel e hue vecs (asked (tm_init known) l) size (Some n) false ctf rooms m g = (tm', Ok (w, m2, st), g') /\ vox_write w (tm_atlas tm') = Ok bs /\
    (forall vox gr, magica_all show texture_data colour_files fuelo fuel e hue vecs (asked (tm_init known) l) size (Some n) false ctf rooms fl g d i vox gr None =
       (Outs d (if vox then Some (Some bs) else None) (if gr then Some (Some (graph_nodes st, graph_links st)) else None), None)) /\
    (forall vox gr f, i <> f -> exists d' x, magica_all show texture_data colour_files fuelo fuel e hue vecs (asked (tm_init known) l) size (Some n) false ctf rooms fl g d i vox gr (Some f) =
       (Outs d' (if vox then Some (Some bs) else None) (if gr then Some None else None), Some FileNotFoundError) /\ parse d' f = Err x /\ same_but [f; cfg_name f] d d').
Proof.
  intros TV HB X Hn G Hs P U. assert (manager (asked (tm_init known) l)) as M by (exists known, l; auto).
  destruct (generator_fails e hue vecs known l size n ctf rooms m g TV HB Hn G) as (fuel0 & T).
  exists fuel0. intros fuel Hl. destruct (T fuel Hl) as (tm' & w & m2 & st & g' & EG & EO).
  destruct (export_lemma _ _ _ _ _ _ _ _ _ _ _ _ _ _ _ _ TV M X Hn G Hs EG) as (bs & W & _).
  pose proof (plain_same fuel e hue vecs _ size n ctf rooms m g TV M Hn G) as PS. rewrite EG in PS.
  exists tm', w, m2, st, g', bs. split; [exact EG|]. split; [exact W|]. split.
  - intros vox gr. exact (all_without_map show texture_data colour_files fuelo fuel e hue vecs _ size (Some n) false ctf rooms fl g d i vox gr m extra tm' w m2 st g' bs P U PS (fun _ => W)).
  - intros vox gr f N.
    assert (exists d' x, magica_rooms show texture_data colour_files fuelo fuel e hue vecs (asked (tm_init known) l) size (Some n) false ctf rooms fl g d i f = (d', Some FileNotFoundError) /\
      parse d' f = Err x /\ same_but [f; cfg_name f] d d') as (d' & x & R & PE & SB).
    { assert (exists d' x, magica_rooms show texture_data colour_files fuelo fuel e hue vecs (asked (tm_init known) l) size (Some n) false ctf rooms fl g d i f = (d', Some x) /\ x = FileNotFoundError /\
        exists t, d' f = Some (Txt t)) as (d' & x & R & -> & t & DT).
      { unfold magica_rooms, command_line. destruct (parse_there _ _ _ P) as (c & ->). rewrite parse_store, P, U, PS by exact N.
        specialize (EO show fuelo ["x"%string]). unfold output_files. unfold output_mpz in EO. destruct (copy_data texture_data colour_files tm') as [cp [y|]].
        2: { exfalso. assert (EX : config_text show tm' ["x"%string] = emit_conf show "Python" "test" tm') by congruence.
             unfold config_text in EX. apply (f_equal String.length) in EX. rewrite append_length in EX. cbn in EX. lia. }
        eexists. exists y. split; [reflexivity|]. split; [congruence|]. unfold store. destruct (String.eqb f (cfg_name f)); [eauto|]. rewrite String.eqb_refl. eauto. }
      destruct (text_unread _ _ _ DT) as (x & Hx). exists d', x. split; [exact R|]. split; [exact Hx|].
      refine (proj1 (never_kept _ _ _ _ _ _ _ _ _ _ _ _ _ _ _ _ _ _ _ _ _ R _)). destruct (parse_there _ _ _ P) as (c & ->). discriminate. }
    exists d', x. split; [|auto].
    rewrite (all_with_map show texture_data colour_files fuelo fuel e hue vecs _ size (Some n) false ctf rooms fl g d i f vox gr m extra tm' w m2 st g' bs P N U PS (fun _ => W)), R. reflexivity.
Qed.
Lemma all_written show tree k fuelo e hue vecs l fl n ctf rooms g d i o b m ws vox gr : In "data/hxr/empty.png"%string tree -> (forall c, one_line (show c)) -> incl fl choices ->
  true_vectors vecs -> byte_hues hue -> mirror_factor n -> good_env e ->
  (7 <= k)%nat -> (S k < fuelo)%nat -> d i = Some (Gz b) -> Forall is_byte b -> read_map b = Ok m -> counted m -> header_size m = Some ws -> 2 ^ Z.of_nat (S k) <= ws <= 8192 ->
  exportable (asked (tm_init only_colours) l) -> len (m_ents m) <= 2 ^ 30 -> i <> o -> plain_rest m ->
  exists fuel0, forall fuel, (fuel0 <= fuel)%nat -> exists d' tm' w m2 st g' m' bs,
    magica_all show tree colour_files fuelo fuel e hue vecs (asked (tm_init only_colours) l) (2 ^ Z.of_nat (S k)) (Some n) false ctf rooms (Some fl) g d i vox gr (Some o) =
      (Outs d' (if vox then Some (Some bs) else None) (if gr then Some (Some (graph_nodes st, graph_links st)) else None), None) /\
    generate fuel e hue vecs (asked (tm_init only_colours) l) (2 ^ Z.of_nat (S k)) (Some n) false ctf rooms m g = (tm', Ok (w, m2, st), g') /\
    vox_write w (tm_atlas tm') = Ok bs /\ same_but [o; cfg_name o] d d' /\ parse d' o = Ok m' /\
    forall x y z tex, in_world (2 ^ Z.of_nat (S k)) (x, y, z) ->
      (world_lookup (S k) m' x y z = Some tex <-> exists ob, In ob (u_rooms st) /\ has_block tm' (snd ob) (x, y, z) tex).
Proof.
  intros TR SH FL TV BH Hn G Hk Hf Ed Hb Hr Hc HS Hws X HE N NP.
  assert (manager (asked (tm_init only_colours) l)) as M by (exists only_colours, l; split; [exact only_base|reflexivity]).
  assert (Z.of_nat (List.length (tm_atlas (asked (tm_init only_colours) l))) <= 57000) as HA by (destruct X as [X _]; lia).
  destruct (base_written show tree k fuelo e hue vecs l fl n ctf rooms g d i o b m ws TR SH FL TV BH Hn G Hk Hf Ed Hb Hr Hc HS Hws HA HE N NP) as (fuel0 & T).
  exists fuel0. intros fuel Hl. destruct (T fuel Hl) as (d' & tm' & w & m2 & st & g' & sun & ess & m' & R & EG & SB & PM & _ & _ & _ & _ & B).
  assert (0 <= 2 ^ Z.of_nat (S k)) as Hs by (apply Z.pow_nonneg; lia).
  destruct (export_lemma _ _ _ _ _ _ _ _ _ _ _ _ _ _ _ _ TV M X Hn G Hs EG) as (bs & W & _).
  assert (parse d i = Ok m) as P by (rewrite (parse_gz _ _ _ Ed); exact Hr).
  pose proof (plain_same fuel e hue vecs _ (2 ^ Z.of_nat (S k)) n ctf rooms m g TV M Hn G) as PS. rewrite EG in PS.
  destruct (update [] (Some fl)) as [extra|y] eqn:U.
  2: { exfalso. revert R. unfold magica_rooms, command_line. rewrite Ed, parse_store, P, U by exact N. discriminate. }
  exists d', tm', w, m2, st, g', m', bs. split.
  { rewrite (all_with_map show tree colour_files fuelo fuel e hue vecs _ (2 ^ Z.of_nat (S k)) (Some n) false ctf rooms (Some fl) g d i o vox gr m extra tm' w m2 st g' bs P N U PS (fun _ => W)), R. reflexivity. }
  auto 10.
Qed.
