(** Properties C69 and C70 of generated maps.  Statements only; proofs are in FairProofs.v. *)
From Verif Require Import Py VecModel VecSpec VoxelModel VoxelSpec CodecModel CodecSpec OutModel OutSpec CodecSamples UpmModel UpmSpec KitModel KitSpec
  RoomModel MagicaModel RoomSpec TexModel TexSpec LightModel LightSpec VoxFileModel ShippedModel ShippedSpec DistModel DistSpec GenModel GenSpec FairSpec PropsGen FairProofs.
Local Open Scope Z_scope.

(** C69: a mirrored map is the same for every team.  Refuted: the rooms that close the doors are
    chosen for each door anew, so a map with two teams can have a block for one team where the other
    has none. *)
Theorem C69_fair_refuted : forall hue vecs tm m, true_vectors vecs -> manager tm ->
  exists fuel e rooms g tm' w m2 st g', good_env e /\ generate fuel e hue vecs tm 256 (Some 2) false true rooms m g = (tm', Ok (w, m2, st), g') /\
    ~ fair_shape 2 w.
Proof. exact unfair_lemma. Qed.
Print Assumptions C69_fair_refuted.
(** Every other room has, for every team, a counterpart: a room of its class with the same blocks
    and textures (but for the colour of the team) and the same entities, turned.  Missing: the rooms that
    close doors, and what is lost at the border of the map (C68). *)
Theorem C69_rooms_partial : forall fuel e hue vecs tm size n ctf rooms m g tm' w m2 st g',
  true_vectors vecs -> manager tm -> mirror_factor n -> good_env e ->
  generate fuel e hue vecs tm size (Some n) false ctf rooms m g = (tm', Ok (w, m2, st), g') ->
  (forall x y z tex, get_point w (I x) (I y) (I z) = Some tex <-> exists ob, In ob (u_rooms st) /\ has_block tm' (snd ob) (x, y, z) tex) /\
  exists sun ess, m_ents m2 = m_ents m ++ sun :: List.concat ess /\ is_sun sun /\ Forall2 (furniture hue) (u_rooms st) ess /\
  forall ob es t, In (ob, es) (combine (u_rooms st) ess) -> ~ closes_door (snd ob) -> In t (turns_of n) ->
    exists ob' es', In (ob', es') (combine (u_rooms st) ess) /\ counterpart t tm' (snd ob) (snd ob') /\ Forall2 (entity_counterpart t) es es'.
Proof. exact fair_lemma. Qed.
Print Assumptions C69_rooms_partial.
(** A layout with rooms that do not close doors, and their images. *)
Example C69_example : match lay_out 100 (env_of castle_dist (fun q => q)) (Some 2) false true 6 stream with
  | (st, x, _) => (x, map (fun ob => (rc_id (r_cls (snd ob)), r_pos (snd ob))) (firstn 4 (u_rooms st))) end =
  (None, [(130, (8, 8, 3)); (130, (24, 24, 3)); (101, (7, 9, 3)); (101, (25, 23, 3))]).
Proof. vm_compute. reflexivity. Qed.

(** C70: the flags of a map for two teams are those of the two teams of the game, 1 and 2.  Refuted for
    every map: they belong to the teams 3 and 4, which a game for two teams does not have. *)
Theorem C70_two_teams_refuted : forall fuel e hue vecs tm size rooms m g tm' w m2 st g',
  true_vectors vecs -> manager tm -> good_env e ->
  generate fuel e hue vecs tm size (Some 2) false true rooms m g = (tm', Ok (w, m2, st), g') ->
  exists fs, flags_of (m_ents m2) = flags_of (m_ents m) ++ fs /\ map (fun f => hd_error (e_attrs f)) fs = [Some (AInt 3); Some (AInt 4)].
Proof. intros * TV M. exact (teams_lemma 2 _ _ _ _ _ _ _ _ _ _ _ _ _ _ TV M (or_intror (or_introl eq_refl))). Qed.
Print Assumptions C70_two_teams_refuted.
(** With four teams each has its flag. *)
Theorem C70_four_teams_partial : forall fuel e hue vecs tm size rooms m g tm' w m2 st g',
  true_vectors vecs -> manager tm -> good_env e ->
  generate fuel e hue vecs tm size (Some 4) false true rooms m g = (tm', Ok (w, m2, st), g') ->
  exists fs, flags_of (m_ents m2) = flags_of (m_ents m) ++ fs /\
    map (fun f => hd_error (e_attrs f)) fs = [Some (AInt 3); Some (AInt 1); Some (AInt 4); Some (AInt 2)].
Proof. intros * TV M. exact (teams_lemma 4 _ _ _ _ _ _ _ _ _ _ _ _ _ _ TV M (or_intror (or_intror eq_refl))). Qed.
Print Assumptions C70_four_teams_partial.
Example C70_example : exists fuel tm' w m2 st g',
  generate fuel (env_of castle_dist (fun q => q)) white vecs0 (tm_init (discovered paper)) (2 ^ Z.of_nat 8) (Some 2) false true 12 map256 stream = (tm', Ok (w, m2, st), g').
Proof.
  destruct hypotheses_met as (H1 & _ & H3 & H4 & _).
  destruct (C52_runs_partial _ white vecs0 _ (2 ^ Z.of_nat 8) 2 true 12 map256 stream H1 H3 (or_intror (or_introl eq_refl)) H4) as (fuel & F).
  destruct (F fuel (le_n _)) as (tm' & w & m2 & st & g' & E). exists fuel, tm', w, m2, st, g'. exact E.
Qed.
