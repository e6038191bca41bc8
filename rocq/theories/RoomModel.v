(** What the built-in rooms of redeclipse/prefabs/__init__.py draw: each [render] method as
    the list of its calls of [self.x], in order, as a function of the room's flags, the
    texture numbers and the random stream.

    Simplifications.  Textures are given by a function of the category: [TEXMAN.get_c] of the
    default manager always returns the same number for the same category (C46).  No method
    interleaves drawing random arguments with probabilistic painting, so the calls are
    computed before they are executed.  Lights and other entities are not modelled here. *)
From Coq Require Import QArith.
From Verif Require Import Py VecModel VoxelModel UpmModel RoomClasses KitModel.
Local Open Scope Z_scope.

(** [a + b] for the vector constants below (never a BaseVector, so it never raises). *)
Definition vplus (a b : vec) : vec := match vadd a b with Ok v => v | Err _ => a end.
Notation "a +v b" := (vplus a b) (at level 50, left associativity).
(** vector/orientations.py:19-26. *)
Definition NORTHWEST := NORTH +v WEST.
Definition NORTHEAST := NORTH +v EAST.
Definition SOUTHWEST := SOUTH +v WEST.
Definition SOUTHEAST := SOUTH +v EAST.

(** A call with the default probability and no subtraction. *)
Definition draw_ (k : constr) (tex : Z) : cmd := C k tex false (11 # 10).
Definition draw_p (k : constr) (tex : Z) (prob : Q) : cmd := C k tex false prob.
Definition carve (k : constr) : cmd := C k 2 true (11 # 10).
Definition textures := string -> Z.
Definition renderer := list bool -> textures -> rng -> list cmd * rng.
(** A renderer that draws no random arguments. *)
Definition fixed (f : list bool -> textures -> list cmd) : renderer := fun fl tx g => (f fl tx, g).

Local Open Scope string_scope.
Local Open Scope list_scope.
Local Open Scope Z_scope.
(** Lines 122-127: Room.render. *)
Definition render_Room : renderer := fixed (fun fl tx =>
  [draw_ (KFloor SELF 8) (tx "floor"); draw_ (KCeiling SELF 8) (tx "floor")]).
(** Lines 186-192: TestRoom.render. *)
Definition render_TestRoom : renderer := fixed (fun fl tx =>
  [draw_ (KPrism (SELF +v fine 2 2 0) (fine 4 4 1)) (tx "accent")]).
(** Lines 197-209: TestRoom2.render. *)
Definition render_TestRoom2 : renderer := fixed (fun fl tx =>
  [draw_ (KFloor SELF 8) (tx "floor"); draw_ (KFloor (SELF +v EAST) 8) (tx "accent");
   draw_ (KWall SELF SOUTH 8) (tx "accent"); draw_ (KWall SELF NORTH 8) (tx "accent");
   draw_ (KWall SELF WEST 8) (tx "accent"); draw_ (KWall SELF EAST 8) (tx "accent");
   draw_ (KPrism SELF (fine 2 4 1)) (tx "accent"); draw_ (KRing ABOVE 8) (tx "accent")]).
(** Lines 231-245: NLongCorridor.render. *)
Definition render_NLongCorridor : renderer := fixed (fun fl tx =>
  flat_map (fun i => [draw_ (KFloor (vmul EAST i) 8) (tx "floor");
                      draw_ (KLowWall (vmul EAST i) SOUTH) (tx "wall");
                      draw_ (KLowWall (vmul EAST i) NORTH) (tx "wall")]) (zrange 0 (corridor_length fl))
  ++ [draw_ (KDotted (fine 0 0 3) EAST (8 * corridor_length fl) 2 1) (tx "wall");
      draw_ (KDotted (fine 0 7 3) EAST (8 * corridor_length fl) 2 1) (tx "wall")]).
(** Lines 276-286: Corridor2way.render; the low walls use the default texture 2. *)
Definition render_Corridor2way : renderer := fixed (fun fl tx =>
  draw_ (KFloor SELF 8) (tx "floor") ::
  (if flag fl 0 then [draw_ (KCeiling SELF 8) (tx "floor")] else []) ++
  (if flag fl 1 then [draw_ (KLowWall SELF NORTH) 2; draw_ (KLowWall SELF SOUTH) 2] else [])).
(** Lines 310-345: JumpCorridor3.render. *)
Definition render_JumpCorridor3 : renderer := fixed (fun fl tx =>
  [draw_ (KFloor SELF 8) (tx "floor"); draw_ (KFloor (SELF +v EAST +v EAST) 8) (tx "floor");
   draw_ (KLowWall SELF NORTH) (tx "wall"); draw_ (KLowWall SELF SOUTH) (tx "wall");
   draw_ (KLowWall (SELF +v EAST +v EAST) NORTH) (tx "wall"); draw_ (KLowWall (SELF +v EAST +v EAST) SOUTH) (tx "wall");
   draw_ (KPrism (fine 6 2 0) (fine 2 4 1)) (tx "accent");
   draw_ (KPrism (EAST +v EAST +v fine 0 2 0) (fine 2 4 1)) (tx "accent")]).
(** Lines 373-415: JumpCorridorVertical.render. *)
Definition render_JumpCorridorVertical : renderer := fixed (fun fl tx =>
  [draw_ (KFloor SELF 8) (tx "floor"); draw_ (KCeiling (SELF +v ABOVE +v ABOVE) 8) (tx "floor");
   draw_ (KWall SELF SOUTH 8) (tx "wall"); draw_ (KWall SELF NORTH 8) (tx "wall"); draw_ (KWall SELF EAST 8) (tx "wall");
   draw_ (KWall (SELF +v ABOVE) NORTH 8) (tx "wall"); draw_ (KWall (SELF +v ABOVE) SOUTH 8) (tx "wall");
   draw_ (KWall (SELF +v ABOVE) EAST 8) (tx "wall"); draw_ (KWall (SELF +v ABOVE) WEST 8) (tx "wall");
   draw_ (KWall (SELF +v ABOVE +v ABOVE) SOUTH 8) (tx "wall"); draw_ (KWall (SELF +v ABOVE +v ABOVE) NORTH 8) (tx "wall");
   draw_ (KWall (SELF +v ABOVE +v ABOVE) EAST 8) (tx "wall");
   draw_ (KPrism (fine 4 2 0) (fine 2 4 1)) (tx "accent"); draw_ (KPrism (fine 7 2 12) (fine 1 4 2)) (tx "accent");
   draw_ (KPrism (fine 0 1 0 +v ABOVE +v ABOVE) (fine 1 6 1)) (tx "accent")]).
(** Lines 446-478: JumpCorridorVerticalCenter.render; the loop variable is [length] after the loop. *)
Definition render_JumpCorridorVerticalCenter : renderer := fixed (fun fl tx =>
  draw_ (KFloor SELF 8) (tx "floor") ::
  flat_map (fun i => map (fun f => draw_ (KWall (SELF +v vmul ABOVE i) f 8) (tx "wall")) [NORTH; SOUTH; EAST; WEST])
    (zrange 1 (jv_length fl + 1)) ++
  [draw_ (KRing (SELF +v vmul ABOVE (jv_length fl + 1)) 8) (tx "accent");
   draw_ (KPrism (fine 2 2 0) (fine 4 4 1)) (tx "accent")]).
(** Lines 514-535: Corridor4way.render. *)
Definition render_Corridor4way : renderer := fixed (fun fl tx =>
  let columns h := map (fun o => draw_ (KColumn o ABOVE h) (tx "column")) [fine 0 0 0; fine 0 7 0; fine 7 0 0; fine 7 7 0] in
  draw_ (KFloor SELF 8) (tx "floor") ::
  (if flag fl 0 then [draw_ (KCeiling SELF 8) (tx "floor")] else []) ++
  (if negb (flag fl 1) && negb (flag fl 2) then []
   else if flag fl 1 && negb (flag fl 2) then columns 8
   else if negb (flag fl 1) && flag fl 2 then columns 3
   else [])).
(** Lines 550-571: SpawnRoom.render. *)
Definition render_SpawnRoom : renderer := fixed (fun fl tx =>
  [draw_ (KFloor SELF 8) (tx "floor"); draw_ (KCeiling SELF 8) (tx "floor")] ++
  (if negb (flag fl 0) then [draw_ (KWall SELF WEST 8) (tx "accent")] else []) ++
  [draw_ (KWall SELF NORTH 8) (tx "wall"); draw_ (KWall SELF SOUTH 8) (tx "wall")]).

(** Lines 649-664: the body of the double loop of PoleRoom.render.
    [random.randint(1, 8 * h / 2)] gets a float bound 4.0 * h, which Python accepted (with a
    deprecation warning) before 3.12. *)
Definition pole (h : Z) (tx : textures) (ij : Z * Z) (g : rng) : list cmd * rng :=
  let (i, j) := ij in
  let (r, g1) := rand01 g in
  if negb (Qle_bool (5 # 100) r) then
    if (2 <=? i) && (i <=? 4) && ((3 <=? j) && (j <=? 5)) then ([], g1)
    else let (offset, g2) := randint 1 (4 * h) g1 in
         ([draw_ (KPrism (fine i j 0 +v vmul ABOVE_FINE offset) (fine 1 1 (8 * h - 2 * offset))) (tx "column")], g2)
  else ([], g1).
Fixpoint poles (h : Z) (tx : textures) (l : list (Z * Z)) (g : rng) : list cmd * rng :=
  match l with
  | [] => ([], g)
  | ij :: l' => let (a, g1) := pole h tx ij g in let (b, g2) := poles h tx l' g1 in (a ++ b, g2)
  end.
Definition pole_grid : list (Z * Z) := flat_map (fun i => map (pair i) (zrange (-8) 16)) (zrange (-8) 16).
Definition tall (fl : list bool) : Z := if flag fl 1 then 2 else 1.
(** Lines 634-664: PoleRoom.render. *)
Definition render_PoleRoom : renderer := fun fl tx g =>
  let (ps, g1) := poles (tall fl) tx pole_grid g in
  (draw_ (KFloor SOUTHWEST 24) (tx "floor") ::
   (if flag fl 1 then [draw_ (KCeiling (SOUTHWEST +v ABOVE) 24) (tx "floor")] else []) ++ ps, g1).

(** Lines 696-704: box_size. *)
Definition box_size (vary : bool) (g : rng) : vec * rng :=
  if vary then
    let (a, g1) := randint 4 7 g in let (b, g2) := randint 4 7 g1 in let (c, g3) := randint 4 7 g2 in (fine a b c, g3)
  else (fine 6 6 6, g).
(** Lines 685-709: ImposingBlockRoom.render. *)
Definition render_ImposingBlockRoom : renderer := fun fl tx g =>
  let (b1, g1) := box_size (flag fl 2) g in let (b2, g2) := box_size (flag fl 2) g1 in
  let (b3, g3) := box_size (flag fl 2) g2 in let (b4, g4) := box_size (flag fl 2) g3 in
  (draw_ (KFloor SOUTHWEST 24) (tx "floor") ::
   (if flag fl 0 then [draw_ (KCeiling (SOUTHWEST +v vmul ABOVE (tall fl - 1)) 24) (tx "floor")] else []) ++
   [draw_ (KPrism (fine 7 7 0) b1) (tx "accent"); draw_ (KPrism (fine (-5) 7 0) b2) (tx "accent");
    draw_ (KPrism (fine 7 (-5) 0) b3) (tx "accent"); draw_ (KPrism (fine (-5) (-5) 0) b4) (tx "accent")], g4).

(** [range(a, b, 2)]. *)
Definition range2 (a b : Z) : list Z := map (fun i => a + 2 * i) (zrange 0 ((b - a + 1) / 2)).
(** Lines 735-770: ImposingRingRoom.render. *)
Definition render_ImposingRingRoom : renderer := fixed (fun fl tx =>
  let h := tall fl in
  let pillar o := draw_ (KPrism o (fine 1 1 (8 * h - 2))) (tx "column") in
  draw_ (KFloor SOUTHWEST 24) (tx "floor") ::
  (if flag fl 0 then [draw_ (KCeiling (SOUTHWEST +v vmul ABOVE (h - 1)) 24) (tx "floor")] else []) ++
  map pillar [fine 15 15 1; fine (-8) 15 1; fine 15 (-8) 1; fine (-8) (-8) 1] ++
  (if flag fl 3 then map pillar [fine 2 3 1; fine 4 2 1; fine 3 5 1; fine 5 4 1] else []) ++
  flat_map (fun i => draw_ (KRing (fine (-4) (-4) i) 16) (tx "accent") ::
      (if negb (flag fl 2) && flag fl 4 then [draw_ (KRing (fine (-2) (-2) i) 12) (tx "accent")] else []))
    (range2 1 (h * 8 - 1)) ++
  (if flag fl 2 && flag fl 4 then map (fun i => draw_ (KRing (fine (-2) (-2) i) 12) (tx "accent")) (range2 2 (h * 8 - 1))
   else []) ++
  [carve (KPrism (fine (-4) 2 1) (fine 3 4 8)); carve (KPrism (fine 2 (-4) 1) (fine 4 3 8));
   carve (KPrism (fine 9 2 1) (fine 3 4 8)); carve (KPrism (fine 2 9 1) (fine 4 3 8))]).

(** Lines 787-809: AltarRoom.render; its flags are always the class attribute. *)
Definition render_AltarRoom : renderer := fixed (fun _ tx =>
  [draw_ (KFloor SOUTHWEST 24) (tx "floor");
   draw_ (KPrism (fine 15 15 1) (fine 1 1 8)) (tx "column"); draw_ (KPrism (fine (-8) 15 1) (fine 1 1 8)) (tx "column");
   draw_ (KPrism (fine 15 (-8) 1) (fine 1 1 8)) (tx "column"); draw_ (KPrism (fine (-8) (-8) 1) (fine 1 1 8)) (tx "column");
   draw_ (KFloor (SOUTHWEST +v fine 4 4 1) 16) (tx "accent"); draw_ (KFloor (SOUTHWEST +v fine 5 5 2) 14) (tx "floor");
   draw_ (KRing (fine (-2) (-2) 11) 12) (tx "accent"); draw_ (KRing (fine (-4) (-4) 10) 16) (tx "accent");
   draw_ (KRing (fine (-6) (-6) 9) 20) (tx "accent"); draw_ (KRing (fine (-8) (-8) 8) 24) (tx "accent")]).

(** Lines 827-841: Stair.render. *)
Definition render_Stair : renderer := fixed (fun fl tx =>
  map (fun i => draw_ (KPrism (fine i 0 i) (fine 1 8 1)) (tx "floor")) (zrange 0 8)).

(** Lines 866-885: CrossingWalkways.render. *)
Definition render_CrossingWalkways : renderer := fixed (fun fl tx =>
  map (fun o => draw_ (KFloor o 8) (tx "floor"))
    ([NORTH; SELF; SOUTH; EAST +v ABOVE; SELF +v ABOVE; WEST +v ABOVE] ++
     (if flag fl 0 then [NORTH +v ABOVE +v ABOVE; SELF +v ABOVE +v ABOVE; SOUTH +v ABOVE +v ABOVE] else []))).

(** Lines 908-917: PlusPlatform.render. *)
Definition render_PlusPlatform : renderer := fixed (fun fl tx =>
  map (fun o => draw_ (KFloor o 8) (tx "floor")) [SELF; NORTH; SOUTH; EAST; WEST]).

(** Lines 934-953: MultiPlatform.render. *)
Definition render_MultiPlatform : renderer := fixed (fun fl tx =>
  (if flag fl 0 then [draw_ (KFloor SOUTHWEST 24) (tx "floor")] else []) ++
  map (fun o => draw_ (KFloor o 8) (tx "floor"))
    [NORTHEAST +v HALF_HEIGHT; SOUTHWEST +v HALF_HEIGHT; NORTHWEST +v ABOVE; SOUTHEAST +v ABOVE;
     NORTH +v ABOVE +v HALF_HEIGHT; SOUTH +v ABOVE +v HALF_HEIGHT; WEST +v ABOVE +v ABOVE; EAST +v ABOVE +v ABOVE]).

(** Lines 981-984: FlatSpace.render. *)
Definition render_FlatSpace : renderer := fixed (fun fl tx => [draw_ (KFloor SOUTHWEST 24) (tx "floor")]).

(** Lines 1000-1045: DigitalRoom.render. *)
Definition render_DigitalRoom : renderer := fixed (fun fl tx =>
  let prob := if flag fl 2 then 7 # 10 else 3 # 10 in
  let wall o f := draw_p (KWall o f 8) (tx "wall") prob in
  [draw_p (KFloor SOUTHWEST 24) (tx "wall") (9 # 10);
   if flag fl 1 then draw_p (KCeiling (SOUTHWEST +v ABOVE) 24) (tx "wall") prob
   else draw_p (KCeiling SOUTHWEST 24) (tx "wall") prob;
   wall NORTHWEST NORTH; wall NORTHEAST NORTH; wall SOUTHWEST SOUTH; wall SOUTHEAST SOUTH;
   wall NORTHWEST WEST; wall SOUTHWEST WEST; wall SOUTHEAST EAST; wall NORTHEAST EAST] ++
  (if flag fl 1 then
    [wall (ABOVE +v NORTHWEST) NORTH; wall (ABOVE +v NORTH) NORTH; wall (ABOVE +v NORTHEAST) NORTH;
     wall (ABOVE +v SOUTHWEST) SOUTH; wall (ABOVE +v SOUTH) SOUTH; wall (ABOVE +v SOUTHEAST) SOUTH;
     wall (ABOVE +v NORTHWEST) WEST; wall (ABOVE +v WEST) WEST; wall (ABOVE +v SOUTHWEST) WEST;
     wall (ABOVE +v SOUTHEAST) EAST; wall (ABOVE +v EAST) EAST; wall (ABOVE +v NORTHEAST) EAST]
   else [])).

(** The built-in classes with their render methods. *)
Definition builtin_renderers : list (rclass * renderer) :=
  [(BaseRoom, render_Room); (TestRoom, render_TestRoom); (TestRoom2, render_TestRoom2); (AltarRoom, render_AltarRoom);
   (NLongCorridor, render_NLongCorridor); (Corridor2way, render_Corridor2way); (JumpCorridor3, render_JumpCorridor3);
   (JumpCorridorVertical, render_JumpCorridorVertical);
   (JumpCorridorVerticalCenter, render_JumpCorridorVerticalCenter); (Corridor4way, render_Corridor4way);
   (SpawnRoom, render_SpawnRoom); (PoleRoom, render_PoleRoom); (ImposingBlockRoom, render_ImposingBlockRoom);
   (ImposingRingRoom, render_ImposingRingRoom); (Stair, render_Stair); (CrossingWalkways, render_CrossingWalkways);
   (PlusPlatform, render_PlusPlatform); (MultiPlatform, render_MultiPlatform); (FlatSpace, render_FlatSpace);
   (DigitalRoom, render_DigitalRoom)].

(** Executing a render method for a room at [pos] (the room's own position, after the push of
    _LargeRoom) with the given orientation. *)
Definition render (r : renderer) (pos orient : vec) (fl : list bool) (tx : textures)
    (w : world (list Z)) (g : rng) : res (world (list Z)) * rng :=
  let (cs, g1) := r fl tx g in x_calls pos orient cs w g1.
