(** Property C105: the places of the entities of a generated map.  Statements only; proofs are in ApartProofs.v. *)
From Verif Require Import Py VecModel VecSpec VoxelModel VoxelSpec CodecModel CodecSpec OutModel OutSpec UpmModel UpmSpec KitModel KitSpec
  RoomModel MagicaModel RoomSpec TexModel TexSpec LightModel LightSpec VoxFileModel ShippedModel ShippedSpec DistModel DistSpec
  GenModel GenSpec GenProofs ApartSpec ApartProofs PropsGen.
Local Open Scope Z_scope.

(** C105: no two entities of a generated map are at the same place.  Refuted for every mirror factor. *)
Theorem C105_apart_refuted : forall n hue vecs tm m size, mirror_factor n -> true_vectors vecs -> manager tm ->
  exists fuel e rooms g tm' w m2 st g' i j a b, good_env e /\ generate fuel e hue vecs tm size (Some n) false false rooms m g = (tm', Ok (w, m2, st), g') /\
    (List.length (m_ents m) <= i < j)%nat /\ nth_error (m_ents m2) i = Some a /\ nth_error (m_ents m2) j = Some b /\ one_place a b.
Proof. exact clashes. Qed.
Print Assumptions C105_apart_refuted.
(** In the file the sun, and the entities of the rooms, are at different places, except for lights of two
    rooms, one of which is of a class that puts lights outside of its rooms. *)
Theorem C105_apart_partial : forall k fuel fuelo e hue vecs tm n ctf rooms m ws g tm' w m2 st g' bs m',
  true_vectors vecs -> byte_hues hue -> manager tm -> mirror_factor n -> good_env e ->
  (7 <= k)%nat -> (S k < fuelo)%nat -> wf_map m -> header_size m = Some ws -> 2 ^ Z.of_nat (S k) <= ws <= 8192 ->
  Z.of_nat (List.length (tm_atlas tm)) <= 57000 -> len (m_ents m) <= 2 ^ 30 ->
  generate fuel e hue vecs tm (2 ^ Z.of_nat (S k)) (Some n) false ctf rooms m g = (tm', Ok (w, m2, st), g') ->
  output_map fuelo w m2 = Ok bs -> read_rest bs = Ok (m', []) ->
  exists old sun ess, m_ents m' = old ++ sun :: List.concat ess /\ Forall2 same_entity (m_ents m) old /\
    (exists sun0, is_sun sun0 /\ same_entity sun0 sun) /\ Forall2 (furniture_read hue) (u_rooms st) ess /\ mostly_apart (u_rooms st) sun ess.
Proof. exact file_apart. Qed.
Print Assumptions C105_apart_partial.
(** So spawn points, flags and the sun share their places with nothing that was added. *)
Theorem C105_others_partial : forall k fuel fuelo e hue vecs tm n ctf rooms m ws g tm' w m2 st g' bs m',
  true_vectors vecs -> byte_hues hue -> manager tm -> mirror_factor n -> good_env e ->
  (7 <= k)%nat -> (S k < fuelo)%nat -> wf_map m -> header_size m = Some ws -> 2 ^ Z.of_nat (S k) <= ws <= 8192 ->
  Z.of_nat (List.length (tm_atlas tm)) <= 57000 -> len (m_ents m) <= 2 ^ 30 ->
  generate fuel e hue vecs tm (2 ^ Z.of_nat (S k)) (Some n) false ctf rooms m g = (tm', Ok (w, m2, st), g') ->
  output_map fuelo w m2 = Ok bs -> read_rest bs = Ok (m', []) ->
  forall i j a b, (List.length (m_ents m) <= i)%nat -> (List.length (m_ents m) <= j)%nat -> i <> j ->
    nth_error (m_ents m') i = Some a -> nth_error (m_ents m') j = Some b -> one_place a b -> e_type a = 1 /\ e_type b = 1.
Proof. exact file_index. Qed.
Print Assumptions C105_others_partial.
(** The entities of one room are at different places, for every class, position and turn. *)
Theorem C105_room_partial : forall s hue p t pos orient m g, In s shipped_rooms -> room_vectors (room_of s p t) pos orient ->
  exists es m' g', run_extras (LIGHTMAN hue) pos orient (s_extra s) m g = (Ok m', g') /\ more_ents m es m' /\
    forall i j e e', nth_error es i = Some e -> nth_error es j = Some e' -> one_place e e' -> i = j.
Proof. exact class_apart. Qed.
Print Assumptions C105_room_partial.
(** Files as above exist; numbers of entities of rooms of a run and whether two are at one place, for three numbers of rooms. *)
Example C105_nonvacuous : exists fuel tm' w m2 st g' bs m',
  generate fuel (env_of castle_dist (fun q => q)) white vecs0 (tm_init (discovered paper)) (2 ^ Z.of_nat 8) (Some 4) false true 12 map256 stream = (tm', Ok (w, m2, st), g') /\
  output_map 9 w m2 = Ok bs /\ read_rest bs = Ok (m', []) /\
  forall i j a b, i <> j -> nth_error (m_ents m') i = Some a -> nth_error (m_ents m') j = Some b -> one_place a b -> e_type a = 1 /\ e_type b = 1.
Proof.
  destruct hypotheses_met as (H1 & H2 & H3 & H4 & H5 & H6 & H7).
  destruct (C65_map_file 7 9 _ white vecs0 _ 4 true 12 map256 256 stream H1 H2 H3 (or_intror (or_intror eq_refl)) H4) as (fuel & F); try assumption; try lia.
  destruct (F fuel (le_n _)) as (tm' & w & m2 & st & g' & bs & m' & E & O & R & _). exists fuel, tm', w, m2, st, g', bs, m'. split; [exact E|]. split; [exact O|]. split; [exact R|].
  intros i j a b. apply (C105_others_partial 7 fuel 9 _ white vecs0 _ 4 true 12 map256 256 stream tm' w m2 st g' bs m' H1 H2 H3 (or_intror (or_intror eq_refl)) H4);
    try assumption; try lia; cbn; lia.
Qed.
Example C105_runs : map (fun k => match lay_out 100 sample_env (Some 1) false false k stream with
  | (st, _, _) => let l := flat_map points_of (u_rooms st) in (List.length l, dupb l) end) [2; 6; 10] = [(18%nat, true); (51%nat, true); (70%nat, false)].
Proof. vm_compute. reflexivity. Qed.
