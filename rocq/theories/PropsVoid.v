(** Properties C98 and C99, and more on C30 and C33: the doors that are left open, and the number
    of rooms.  Statements only; proofs are in VoidProofs.v. *)
From Verif Require Import Py VecModel VecSpec VoxelModel VoxelSpec CodecModel CodecSpec OutModel OutSpec UpmModel UpmSpec KitModel KitSpec
  RoomModel MagicaModel RoomSpec TexModel TexSpec LightModel LightSpec VoxFileModel ShippedModel ShippedSpec DistModel DistSpec GenModel GenSpec
  RoomClasses UpmSamples GenProofs GenBox VoidSpec VoidProofs.
Local Open Scope Z_scope.

(** C33: an open door is left open only if no endcap fits there: for every class of the list whose
    doors are on different sides, and every way to attach it, some cell is taken or not legal. *)
Theorem C33_endcap_complete : forall caps st g st' x g', endcap false caps st g = (st', x, g') ->
  exists new, u_rooms st' = u_rooms st ++ new /\ forall d p o, In (d, p, o) (u_open st) ->
    (exists ob, In ob new /\ In (r_cls (snd ob)) caps /\ attached (snd ob) d o) \/
    forall c pos t, In c caps -> one_way c -> attached (mk_room c pos t None) d o ->
      exists q, In q (positions (mk_room c pos t None)) /\ (~ legal_cell q \/ taken st' q).
Proof. exact endcap_closes. Qed.
Print Assumptions C33_endcap_complete.
Example C33_complete_nonvacuous : one_way TestRoom /\
  (List.length (u_open st0), List.length (u_rooms st0),
   List.length (u_rooms (fst (fst (endcap false [TestRoom; Corridor2way] st0 g0))))) = (18%nat, 12%nat, 28%nat).
Proof.
  split; [|vm_compute; reflexivity]. intros fl d d' Hd Hd' E. cbn [rc_doors TestRoom base_doors] in Hd, Hd'.
  repeat (destruct Hd as [<-|Hd]; [repeat (destruct Hd' as [<-|Hd']; [first [reflexivity | discriminate]|]); destruct Hd'|]). destruct Hd.
Qed.

(** C30: the generator never discards a doorway, except for those to the cells in the middle of a
    mirrored map. *)
Theorem C30_generated : forall n ctf fuel e rooms g st g', mirror_factor n -> good_env e -> lay_out fuel e (Some n) false ctf rooms g = (st, None, g') ->
  forall d p o, In (d, p, o) (u_gone st) -> n <> 1 /\ fst d = (16, 16).
Proof. exact gone_lemma. Qed.
Print Assumptions C30_generated.

(** C98 is false, for every mirror factor: some doors lead into the void. *)
Theorem C98_void_refuted : forall n hue vecs tm m size, mirror_factor n -> true_vectors vecs -> manager tm ->
  exists fuel e rooms g tm' w m2 st g' c, good_env e /\ generate fuel e hue vecs tm size (Some n) false false rooms m g = (tm', Ok (w, m2, st), g') /\
    into_void (u_rooms st) c.
Proof. exact void_runs. Qed.
Print Assumptions C98_void_refuted.
(** C98: those that do are at the bottom of the map, right above another room, or in the middle of a
    mirrored map.  All others lead into a room. *)
Theorem C98_void_partial : forall n ctf fuel e rooms g st g', mirror_factor n -> good_env e -> lay_out fuel e (Some n) false ctf rooms g = (st, None, g') ->
  forall ob c o, In ob (u_rooms st) -> In (c, o) (doorways (snd ob)) ->
  in_some_room (u_rooms st) c \/ snd c = 0 \/ in_some_room (u_rooms st) (below c) \/ (n <> 1 /\ fst c = (16, 16)).
Proof. exact void_lemma. Qed.
Print Assumptions C98_void_partial.
(** Runs with doors at the bottom, above a room, and without such doors: the number of rooms, of doors, and
    the doors into the void. *)
Definition tally (r : upm * option exn * rng) : option (nat * nat * list cell) :=
  match r with
  | (st, None, _) =>
      let doors := flat_map (fun ob : obj => map fst (doorways (snd ob))) (u_rooms st) in
      let cells := flat_map (fun ob : obj => positions (snd ob)) (u_rooms st) in
      Some (List.length (u_rooms st), List.length doors, filter (fun c => negb (existsb (cell_eqb c) cells)) doors)
  | _ => None
  end.
Example C98_runs : map tally [lay_out 50 sample_env (Some 1) false false 12 diving; lay_out 50 sample_env (Some 1) false false 12 stream;
    lay_out 50 sample_env (Some 4) false false 20 stream] =
  [Some (13%nat, 28%nat, [(3, 10, 0); (0, 16, 0); (6, 16, 0); (3, 19, 0)]); Some (31%nat, 64%nat, [(8, 12, 5)]); Some (72%nat, 144%nat, [])].
Proof. vm_compute. reflexivity. Qed.

(** C99 is false: however many rooms are asked for, a run can end with five. *)
Theorem C99_count_refuted : forall ctf hue vecs tm m size rooms, true_vectors vecs -> manager tm -> 5 <= rooms ->
  exists fuel e g tm' w m2 st g', good_env e /\ generate fuel e hue vecs tm size (Some 1) false ctf rooms m g = (tm', Ok (w, m2, st), g') /\
    List.length (u_rooms st) = 5%nat.
Proof. exact few_runs. Qed.
Print Assumptions C99_count_refuted.
(** C99: not counting endcaps, the first room and its images are joined by as many rooms as were asked
    for, rounded up to whole sets of images; or else there is no endcap, and no doorway is left open
    except for those in the middle of a mirrored map. *)
Theorem C99_count_partial : forall n ctf fuel e rooms g st g', mirror_factor n -> good_env e -> lay_out fuel e (Some n) false ctf rooms g = (st, None, g') ->
  exists k, Z.of_nat (List.length (filter (fun ob => negb (is_cap ob)) (u_rooms st))) = n + k /\
    ((rooms <= k /\ (k < rooms + n \/ k = 0)) \/
     forall ob, In ob (u_rooms st) -> is_cap ob = false /\
       forall c o, In (c, o) (doorways (snd ob)) -> in_some_room (u_rooms st) c \/ (n <> 1 /\ fst c = (16, 16))).
Proof. exact enough_lemma. Qed.
Print Assumptions C99_count_partial.
Example C99_runs : map (fun r : upm * option exn * rng => match r with
    | (st, None, _) => Some (List.length (u_rooms st), List.length (filter (fun ob => negb (is_cap ob)) (u_rooms st)))
    | _ => None end)
    [lay_out 50 sample_env (Some 1) false false 12 (fun _ => 0); lay_out 50 sample_env (Some 1) false false 12 stream;
     lay_out 50 sample_env (Some 4) false false 21 stream] =
  [Some (5%nat, 5%nat); Some (31%nat, 13%nat); Some (80%nat, 28%nat)].
Proof. vm_compute. reflexivity. Qed.
