(** The lights and other entities of the built-in rooms, redeclipse/prefabs/__init__.py: what each
    [render] method adds to the map, in order, as a function of the room's flags.

    Simplifications.  The numbers multiplied by SIZE_OFFSET (one half, lines 20-23) are floats; they are
    given by their double.  The colours of LIGHTMAN are arbitrary (LightModel.v). *)
From Verif Require Import Py VecModel VoxelModel CodecModel OutModel UpmModel RoomClasses KitModel RoomModel
  MagicaModel TexModel LightModel ShippedModel.
Local Open Scope Z_scope.

(** A position computed by a room. *)
Inductive spot :=
| Near (steps : list vec)        (* self.pos + a + b + ... *)
| Turn (off : vec)               (* self.pos + off.rotate(self.orientation) *)
| Spun (steps : list vec)        (* (self.pos + a + b + ...).rotate(self.orientation) *)
| World (v : vec).               (* v *)
Definition spot_vec (pos orient : vec) (s : spot) : res vec :=
  match s with
  | Near steps => foldM vadd steps pos
  | Turn off => let! r := vrotate off (DVec orient) in vadd pos r
  | Spun steps => let! v := foldM vadd steps pos in vrotate v (DVec orient)
  | World v => Ok v
  end.
(** One entity. *)
Inductive fixture :=
| FLamp (s : spot)                                          (* LIGHTMAN.light(xmap, s) *)
| FWhite (s : spot)                                         (* lines 662-669, 711-718: a white Light, radius SIZE_OFFSET * 256 *)
| FPusher (off : vec) (yaw : Z) (pitch force maxrad : attr) (* a Pusher at self.pos + off.rotate(...) *)
| FSpawn                                                    (* lines 567-569: PlayerSpawn *)
| FGrenade                                                  (* lines 188-192: Grenade *)
| FTree.                                                    (* lines 812-817: MapModel *)
Definition run_fixture (lm : lightman) (pos orient : vec) (f : fixture) (m : rmap) : res rmap :=
  match f with
  | FLamp s => let! v := spot_vec pos orient s in light lm m v None true (I 1)
  | FWhite s =>
      let! v := spot_vec pos orient s in
      add_entity m (mk_light v (AHalf 256) (AInt 255) (AInt 255) (AInt 255) (AInt 0) (AInt 0))
  | FPusher off yaw pitch force maxrad =>
      let! v := spot_vec pos orient (Turn off) in
      let! y := rotate_yaw yaw orient in
      add_entity m (mk_pusher v (AInt y) pitch force maxrad (AInt 0) (AInt 0))
  | FSpawn => add_entity m (spawn_entity pos 0)
  | FGrenade =>
      let! v := spot_vec pos orient (Near [TILE_CENTER; ABOVE_FINE]) in
      add_entity m (mk_weapon v (AInt 9) (AInt 0) (AInt 0) (AInt 0) (AInt 0))
  | FTree =>
      let! v := spot_vec pos orient (Turn (fine 4 4 3)) in
      let! y := rotate_yaw 270 orient in
      add_entity m (mk_mapmodel v (AInt 124 :: AInt y :: repeat (AInt 0) 11))
  end.
Definition run_fixtures (lm : lightman) (pos orient : vec) (l : list fixture) (m : rmap) : res rmap :=
  foldM (fun m f => run_fixture lm pos orient f m) l m.

Definition fixtures := list bool -> list fixture.
(** Lines 118-120: Room.light. *)
Definition room_light : fixture := FLamp (Near []).
(** Lines 614-619: _LargeRoom.light, for a room of the given height. *)
Definition large_light (height : Z) : fixture :=
  FLamp (Spun [NORTH; TILE_CENTER; fine 0 0 (if 1 <? height then 12 else 6)]).
(** Lines 122-123: Room.render (also Corridor2way 277, Corridor4way 535, NLongCorridor 245, Stair 830). *)
Definition only_light : fixtures := fun _ => [room_light].
(** Lines 186-192: TestRoom.render. *)
Definition fixtures_TestRoom : fixtures := fun _ => [FGrenade].
(** Lines 197-209: TestRoom2.render. *)
Definition fixtures_TestRoom2 : fixtures := fun _ => [].
(** Lines 304-308, 313-334: JumpCorridor3.light and render.  The pitch is the default. *)
Definition fixtures_JumpCorridor3 : fixtures := fun _ =>
  [FLamp (Turn (vmul EAST 0)); FLamp (Turn (vmul EAST 2));
   FPusher (fine 7 4 1) 270 (AInt 45) (AHalf 175) (AHalf 15);
   FPusher (EAST +v EAST +v fine 1 4 1) 90 (AInt 45) (AHalf 175) (AHalf 15)].
(** Lines 380-396: JumpCorridorVertical.render.  The radius is the default. *)
Definition fixtures_JumpCorridorVertical : fixtures := fun _ =>
  [room_light;
   FPusher (fine 5 4 1) 270 (AInt 74) (AHalf 400) (AInt 0);
   FPusher (fine 6 4 17) 90 (AInt 40) (AHalf 200) (AInt 0)].
(** Lines 452-477: JumpCorridorVerticalCenter.render. *)
Definition fixtures_JumpCorridorVerticalCenter : fixtures := fun fl =>
  [room_light; FPusher (fine 4 4 1) 0 (AInt 90) (AHalf (if jv_length fl =? 2 then 700 else 460)) (AInt 5)].
(** Lines 567-571: SpawnRoom.render. *)
Definition fixtures_SpawnRoom : fixtures := fun _ => [FSpawn; room_light].
(** Lines 661-669: PoleRoom.light. *)
Definition fixtures_PoleRoom : fixtures := fun _ => [FWhite (Near [fine 3 4 10])].
(** Lines 710-718: ImposingBlockRoom.light. *)
Definition fixtures_ImposingBlockRoom : fixtures := fun _ => [FWhite (Near [fine 3 4 7])].
(** Lines 772-773: ImposingRingRoom.light. *)
Definition fixtures_ImposingRingRoom : fixtures := fun _ => [FLamp (Near [NORTH; HALF_HEIGHT; TILE_CENTER])].
(** Lines 792, 811-817: AltarRoom.render; its flags are always the class attribute. *)
Definition fixtures_AltarRoom : fixtures := fun _ => [room_light; FTree].
(** Lines 899-901: CrossingWalkways.light. *)
Definition fixtures_CrossingWalkways : fixtures := fun fl =>
  map (fun i => FLamp (World (SELF +v vmul ABOVE i))) (zrange 0 (if flag fl 0 then 3 else 2)).
(** Lines 911, 982, 1001 with 905, 979, 988-998: PlusPlatform, FlatSpace, DigitalRoom. *)
Definition fixtures_PlusPlatform : fixtures := fun _ => [large_light 2].
Definition fixtures_FlatSpace : fixtures := fun _ => [large_light 1].
Definition fixtures_DigitalRoom : fixtures := fun fl => [large_light (tall fl)].
(** Lines 973-975: MultiPlatform.light. *)
Definition fixtures_MultiPlatform : fixtures := fun _ => [FLamp (Near [TILE_CENTER; fine 0 0 16])].

(** The built-in classes with their entities. *)
Definition builtin_fixtures : list (rclass * fixtures) :=
  [(BaseRoom, only_light); (TestRoom, fixtures_TestRoom); (TestRoom2, fixtures_TestRoom2); (AltarRoom, fixtures_AltarRoom);
   (NLongCorridor, only_light); (Corridor2way, only_light); (JumpCorridor3, fixtures_JumpCorridor3);
   (JumpCorridorVertical, fixtures_JumpCorridorVertical);
   (JumpCorridorVerticalCenter, fixtures_JumpCorridorVerticalCenter); (Corridor4way, only_light);
   (SpawnRoom, fixtures_SpawnRoom); (PoleRoom, fixtures_PoleRoom); (ImposingBlockRoom, fixtures_ImposingBlockRoom);
   (ImposingRingRoom, fixtures_ImposingRingRoom); (Stair, only_light); (CrossingWalkways, fixtures_CrossingWalkways);
   (PlusPlatform, fixtures_PlusPlatform); (MultiPlatform, fixtures_MultiPlatform); (FlatSpace, fixtures_FlatSpace);
   (DigitalRoom, fixtures_DigitalRoom)].
