(** Properties C75 and C76 of the entities of the built-in rooms.  Statements only; proofs are in
    RoomEntProofs.v. *)
From Verif Require Import Py VecModel VecSpec VoxelModel CodecModel OutModel UpmModel UpmSpec RoomClasses KitModel KitSpec RoomModel
  RoomSpec LightModel LightSpec ShippedModel ShippedSpec RoomEntModel RoomEntSpec RoomEntProofs CodecSamples.
Local Open Scope Z_scope.

(** C75: the entities of a built-in room stand inside the room.  Refuted: four classes always hang
    their light outside, wherever they are placed; the jump corridors have a pusher outside unless
    they face east; a low pole room has its light above the ceiling; the lights of crossing walkways
    are at the origin of the world. *)
Theorem C75_inside_refuted : forall c fs r pos orient hue m, In (c, fs) builtin_fixtures -> r_cls r = c -> room_vectors r pos orient ->
  (In c [ImposingRingRoom; PlusPlatform; FlatSpace; DigitalRoom] \/
   In c [JumpCorridor3; JumpCorridorVertical; JumpCorridorVerticalCenter] /\ r_turn r <> T0 \/
   c = PoleRoom /\ flag (r_flags r) 1 = false \/
   c = CrossingWalkways /\ 1 < fst (fst (r_pos r))) ->
  exists es m' e, run_fixtures (LIGHTMAN hue) pos orient (fs (r_flags r)) m = Ok m' /\ more_ents m es m' /\ In e es /\ ~ inside_room r e.
Proof. exact outside_classes. Qed.
Print Assumptions C75_inside_refuted.
(** All entities are inside exactly when none of this is so. *)
Theorem C75_inside_partial : forall c fs r pos orient hue m, In (c, fs) builtin_fixtures -> r_cls r = c -> room_vectors r pos orient ->
  exists es m', run_fixtures (LIGHTMAN hue) pos orient (fs (r_flags r)) m = Ok m' /\ more_ents m es m' /\
    (Forall (inside_room r) es <-> well_furnished r).
Proof. exact inside_exactly. Qed.
Print Assumptions C75_inside_partial.
Example C75_example : well_furnished (R JumpCorridor3 (8, 8, 3) T0 []) /\ ~ well_furnished (R JumpCorridor3 (8, 8, 3) T1 []) /\
  well_furnished (R SpawnRoom (8, 8, 3) T2 [true]) /\ ~ well_furnished (R FlatSpace (8, 8, 3) T0 []) /\
  room_vectors (R FlatSpace (8, 8, 3) T0 []) (V Coarse (I 8) (I 8) (I 3)) EAST /\ In (FlatSpace, fixtures_FlatSpace) builtin_fixtures.
Proof. split; [reflexivity|]. split; [discriminate|]. split; [exact Logic.I|]. split; [intros []|]. split; [repeat split|]. cbn; tauto. Qed.

(** C76: a built-in room adds exactly the entities of its class, with the right attributes and in the
    right places, and changes nothing else of the map. *)
Theorem C76_entities : forall c fs r pos orient hue m, In (c, fs) builtin_fixtures -> r_cls r = c -> room_vectors r pos orient ->
  exists es m', run_fixtures (LIGHTMAN hue) pos orient (fs (r_flags r)) m = Ok m' /\ more_ents m es m' /\ Forall2 (of_sort hue) (sorts r) es /\
    Forall2 (fun p e => stands e p 2) (places r) es.
Proof. exact entities_placed. Qed.
Print Assumptions C76_entities.
Theorem C76_all_classes : map fst builtin_fixtures = builtin_rooms.
Proof. exact fixtures_of_all. Qed.
Print Assumptions C76_all_classes.
Example C76_example :
  match run_fixtures (LIGHTMAN white) (V Coarse (I 8) (I 8) (I 3)) NORTH (fixtures_JumpCorridor3 []) map0 with
  | Ok m => map (fun e => (e_type e, e_x e, e_attrs e)) (skipn (List.length (m_ents map0)) (m_ents m))
  | Err _ => []
  end = [(1, PF false 544 (-1), [AInt 64; AInt 255; AInt 255; AInt 255; AInt 0; AInt 0]);
         (1, PF false 544 (-1), [AInt 64; AInt 255; AInt 255; AInt 255; AInt 0; AInt 0]);
         (13, PF false 480 (-1), [AInt 0; AInt 45; AHalf 175; AHalf 15; AInt 0; AInt 0]);
         (13, PF false 480 (-1), [AInt 180; AInt 45; AHalf 175; AHalf 15; AInt 0; AInt 0])].
Proof. vm_compute. reflexivity. Qed.
Example C76_places_example : places (R JumpCorridor3 (8, 8, 3) T1 []) = [(136, 136, 56); (136, 168, 56); (120, 142, 50); (120, 162, 50)].
Proof. reflexivity. Qed.
