# Formal model of hexylena/remapper — design

Source of truth: `/repo` (Python), read as text. Nothing of it is executed.
The model is written in Rocq/Coq 8.16.1 (stdlib only) under `rocq/theories`, logical
prefix `Verif`.

## 1. Layout

| model files | source |
|---|---|
| `Py.v` | Python values: exceptions as values, numbers (int / half-integer float), ordered dicts, ranges |
| `VecModel.v`, `FloatRot.v` | `redeclipse/vector/__init__.py`, `vector/orientations.py`; `rotate` in floating point |
| `VoxelModel.v` | `redeclipse/voxel/__init__.py` (world, boundaries, octree) |
| `CodecModel.v` | `redeclipse/objects.py`, `Map.write` in `redeclipse/__init__.py`, `map/__init__.py` (`MapParser.read`), byte for byte |
| `OutModel.v` | `redeclipse/entities/` constructors, edits of a map, `cli/__init__.py` output |
| `UpmModel.v`, `UpmBridge.v` | `redeclipse/upm.py`, the layout methods of `Room`; bridge to the vectors of `VecModel.v` |
| `RoomClasses.v` | layouts (cells, doors, flags) of the 20 built-in classes of `prefabs/__init__.py` |
| `KitModel.v`, `LineModel.v` | `prefabs/construction_kit.py`; its slanted lines, with the `bresenham` package |
| `RoomModel.v` | the `render` methods of the built-in classes |
| `RoomEntModel.v` | the lights and other entities of the built-in classes |
| `DebugModel.v` | `cli/magica_rooms.py` in either mode, with the marker rooms of debug mode |
| `RoomTestModel.v` | `cli/magicavoxel_room_test.py` (the names of the files it writes are not modelled) |
| `ReModel.v` | `vector/re.py` |
| `RainbowModel.v` | `textures/__init__.py`: `RainbowPukeTextureManager`, `TextureManager.random`, with `colorsys.hsv_to_rgb` |
| `DiscModel.v` | `cli/iso.py`, `cli/rooms.py`, `cli/vector_test.py`, command line and files of `cli/magica_rooms.py` with `cli/__init__.py`; what `Map.write` has written when it raises |
| `OutputsModel.v` | `output_args` and `output` of `cli/__init__.py` with all three outputs, as used by `cli/magica_rooms.py` |
| `TerrainDiscModel.v` | files of `cli/perlin.py`, `cli/snow_forest.py`, `cli/from_json.py` |
| `SeqModel.v` | sequence methods of `vector/__init__.py`, `n` of `vector/orientations.py`, `cubext` and `newcubeext` of `objects.py` |
| `TextModel.v` | `__repr__` of the vector classes (`vector/__init__.py`) and of rooms (`prefabs/magica.py`); floats from 10^16 on and negative zero are not modelled |
| `SkyModel.v` | `skybox/__init__.py`, `Map.skybox` |
| `MagicaModel.v` | `prefabs/magica.py` |
| `EffectModel.v` | `aftereffects.py` |
| `TexModel.v` | `textures/` (managers, themes, configuration text) |
| `VoxFileModel.v`, `InfoModel.v` | `magicavoxel/reader.py`, `magicavoxel/writer.py`, `cli/magicavoxel_info.py` |
| `DistModel.v` | `prefabs/distributions.py` |
| `FaceModel.v` | `cube.genfaceverts` in `objects.py` |
| `LightModel.v`, `HueModel.v` | `lighting/__init__.py` |
| `ShippedVox.v`, `ShippedModel.v` | the 57 voxel files under `prefabs/`, byte for byte, and the 45 classes of `prefabs/{castle,dungeon,egypt,original,spacestation}` made from them: layout, colours, entities |
| `ShippedMaps.v` | the three empty maps under `maps/`, unzipped, byte for byte up to the end of the octree |
| `GenModel.v` | `cli/magica_rooms.py`, the map and graph output of `cli/__init__.py` |
| `ConfModel.v` | `worldflavors.py`, the configuration file written by `cli/__init__.py` |
| `CopyModel.v` | the copying of texture files and the output of a map with it (`textures/__init__.py`, `basetex.py`, `cli/__init__.py`) |
| `TerrainModel.v` | `cli/perlin.py`, `cli/snow_forest.py` |
| `JsonModel.v` | `to_dict`, `to_json`, `from_dict`, `cli/to_json.py`, `cli/from_json.py` |

`*Spec.v` holds the vocabulary of the statements, `*Proofs.v` (and `Upm{Inv,Random,Trace,More,More2,Final}.v`,
`Kit{Shape,Tile,Paint}.v`, `Room{Check,Doors}.v`, `Codec{Float,Read,Parse,Map}.v`, `EffectRooms.v`, `Shipped{Check,Draw}.v`,
`Gen{Layout,Draw,Box}.v`, `BaseGen.v`, `JsonText.v`, `Pass{Check,Gen}.v`, `Foot{Check,Rooms,Gen}.v`) lemmas and
invariants, `*Samples.v` concrete inputs, and `Props*.v` only the property theorems (closed by
`exact`, or by a computed witness for a refutation), a non-vacuity `Example` beside each, and
`Print Assumptions`.

Specifications used in theorem statements are stated with plain integers, lists and
arithmetic, or in small `*Spec.v` files that do not mention the model's helpers.

## 2. Conventions of the model

* **Exceptions are values**: `res A := Ok a | Err e`, with one constructor per Python
  exception class. Every branch that raises in Python is an `Err` in the model.
* **Numbers**. `num := I z | H h`: a Python `int` z, or a Python `float` whose value is
  the half-integer h/2. All coordinates that the program computes live on this grid
  (`rotate` rounds to it). Arithmetic on it is exact in binary64 up to 2^52, which is
  the documented simplification; the floating point evaluation of `rotate` itself
  (cos/sin, products, difference, `round`) is justified for every error behaviour
  within a stated bound in `FloatRot.v`.
* **Randomness** is an oracle: every theorem quantifies over all outcomes.
* **Loops with no syntactic bound** get fuel and an explicit out-of-fuel error; theorems
  either exclude it or prove enough fuel exists. CPython's recursion limit is not modelled
  except where unbounded recursion itself is the subject (octree of size 0).
* **Objects** are immutable records; mutation returns the new state. Object identity, where
  the code relies on it (rooms in the open-door list), is an explicit identifier.
* **Dicts** are association lists in insertion order with Python's update-in-place rule.

## 3. Properties: what is modelled, how it is proved

* C01–C05, C08, C09 vectors: direct model of the three classes with Python's operand
  dispatch; proved by case analysis and linear arithmetic on half-units.
* C06 rotation: quarter turns on half-units; group laws by cases modulo 4.
* C07 rotation in floating point: error-bound argument over rationals.
* C10, C11 voxel world: refinement to a function from positions to values, by induction over the
  operation history.
* C12–C14 octree: induction over the depth k of a 2^k world; counterexamples by computation.
* C15–C20 codec: byte-level reader and writer; per-field inverse lemmas, composed; induction
  over cubes; prefix-monotonicity of every reader gives C18 and C19.
* C21 end-to-end: composition of C12 and C15.
* C22 entities: float32 decode/encode inverse.
* C23–C35 placement: invariants over the manager state, lifted to all operation histories;
  lexicographic termination measure for the placement loop; counterexamples by computation.
* C36, C37 construction kit: set equalities by linear arithmetic for each orientation.
* C38–C41 rooms: equivariance lemmas; floor-division lemma relating voxel and cell rotation.
* C42–C45 after-effects: fold invariants.
* C46 textures: invariant on the two dictionaries.
* C47–C58: direct models; refutations by computed witnesses, positive parts as lemmas.
* C59–C64 shipped rooms: the files are read by the modelled reader inside Coq; facts about one file
  (cells, offsets relative to the room) are computed, and carried to every position and
  orientation by the rigid-motion lemmas; texture numbers by induction over the voxels with the
  invariant of C46.
* C52, C65–C68 generator: the layout is a history of the position manager (C24–C35), the drawing a
  list of jobs (C53, C63) and the file that of C21; the glue bounds the number of rooms, colours
  and entities so that nothing overflows a field of the file. Two claims are refuted by one run of
  60 rooms computed inside Coq. How far out blocks can be follows from the doors, which are legal, and from their
  places around each class; the run that digs below the ground was found by a search and is replayed.
* C69, C70 fairness: the mirror symmetry of the rooms (C26) carried through drawing: a mirrored room's
  frame is the turned frame. Refuted by a run whose endcaps are not symmetric.
* C71, C72 configuration: the statements of the text are split line by line (C56); the number of a colour is
  its place among the first requests, and that is the number of slots opened before it.
* C73, C74 terrain: the draws are numbered by the cells of the forest read before; the world is painted by a
  function of the position; the file is that of C21.
* C75, C76 entities of built-in rooms: points relative to the room are computed per class, turn and flags;
  the ones that depend on the place of the room by linear arithmetic.
* C77, C78 debug mode: the run splits into the placed rooms (C65) and the markers, which are drawn last into cells
  that no room occupies; C33 says when registering them raises.
* C100, C101 room test: the lemmas of C65 and C78 about drawing are stated for lists of any shipped classes; cells and
  doorways of the four turned rooms are compared per class by computation; colours are counted over all files at once.
* C102 to C104 integer vectors: laws of arithmetic on whole components; octants and masks by the laws of division by
  powers of two.
* C79, C80 moving about: a body of 2 by 2 by 4 voxels moves one voxel at a time in the six directions through cells
  of rooms that hold no block (gravity and the reach of a jump are not modelled, so "can be reached" is for a body
  that can climb and fly; "cut off" holds for one voxel, so for every player). One way from each doorway is listed per
  class in `PassCheck.v` (a hint, checked by computation) and carried to every position and turn; in a map the ways
  are joined at the doors rooms were attached by. Cut off: an invariant on the cells a walk can visit.
* C81 to C85 places of entities: the voxels around each computed point, and ways from the first doorway to each
  entity, are checked per class and turn and carried to every position; in maps these ways are joined to those of
  C80. "Apart" and "unreached" are about moving inside of rooms: the outside of the rooms, which the game leaves empty,
  is no part of the air. Witnesses: one run of the layout each, with a set of cells closed under neighbours.
* C91 to C93 on foot: the body of C79 stands on blocks; a step raises it by at most h voxels, moves it one voxel
  sideways and lets it fall to the next block. Jumping across gaps is not modelled (rising by h while moving one voxel
  is what stands for it), so "can be crossed" holds for every player who can take such steps, and "cannot" is about
  steps only. Ways over all doorways and back are listed per class (hints, checked by computation); impossibility by
  sets of places closed under steps. In maps the ways are joined at the doors by which rooms were attached.
* C94 slanted lines: the loop of the package is division with rounding, in closed form; the columns by x are put
  together again by monotonicity. The `bresenham` package is no part of the repository: its published source (0.2.1) is
  what is modelled.
* C95 to C97 base maps: a map that was read, can be written and counts its entities right is one that C65 is about
  (inverse lemmas of the codec); the empty maps are read inside Coq. Scale: the octree fills the width that the header
  says, which is how the game reads it; the coordinates of entities are compared with it as binary floats.
* C98, C99 open doors: the loop over endcaps leaves a door alone only when each class fails (`VoidProofs.v`); the smaller
  endcap needs the cell behind the door and the one below. A spawn room fits wherever the cell behind a door is free,
  because occupied cells are symmetric; so no door is discarded unless its images coincide.
* C105 different places: the points of two rooms of given classes and turns coincide for at most one offset between the
  rooms; a computation over all pairs finds a cell that both rooms then have, except for stray lights.
* C86 colours of lights: order arguments only: every rounded product lies between the rounded products of the
  ends, and ints are their own rounding.
* C87, C88 texture files: requests only ever append textures, so the atlas is read off the requests; the files each
  one names are compared with the list of files in the repository. `GenModel.v` (C65, C71, ...) has the output without
  the copying, that is, for a directory where all texture files are in place.
* C89 exported voxel files: the rooms write fewer than 2^31 entries (their cells lie within 42 of the origin) and at
  most 50 colours, hence all numbers fit; entries of the world are blocks of rooms, and the colour bytes are those of C47.
* C90 information tool: the printed text is split into lines again; titles and colour lines are told apart by their
  first characters, and numbers end at the first character that is no digit.
* C106 skies in map files: the writer is cut after its 52 header bytes and the reader run up to that point, both for an
  arbitrary map; what follows is the path, of which the reader makes a length. The sample that a map without variables
  may be readable is a map whose texture history looks like empty cubes.
* C107 installing a sky: induction over the list of images.
* C110 failed rewriting: the writer that keeps what it wrote agrees with the writer of C15; where it stops, on a map as the
  reader returns it, the reader runs out of bytes — by induction over entities, slots and cubes.
* C111, C112 programs: the command line empties the output file; the rest is C88 and computing.
* C108 rainbow: the 65 possible colours are computed in binary64 and compared with the circle of RainbowSpec.v; a run
  of calls is a run of requests for these colours of the manager of C46, whose invariant bounds the rest.
* C109 random textures: the five names are looked up in the tables of the managers.
* C113, C114 terrain programs and from_json: a program that writes through the map writer leaves what C110 and C111 say;
  the worlds of C73 and C74 are written, all others stop before the file is opened.
* C115 files of debug mode: C77 and C78 with the copying of C88.
* C116 voxel file of debug mode: the argument of C89 for rooms and plates together; the witness of a run whose plates
  alone reach too far is one layout computed inside Coq.
* C117 to C119: case analysis; names by the meaning of equality (C01).
* C120: each number ends at the first character that is in no number, each name at the first colon.
* C121 and C111 (all failing runs): the reader's invariant (`rd_map`) is kept by adding entities; what is written of such a map
  up to the failing write leaves the reader stuck, as for C110 and C113.
* C122: the map part of a run is the run of C111 and C121; the voxel file is that of C89.
* C123 hue: six cases, by which component is greatest and which least (`sixth`); in each the hue is a whole number of sixths
  and a share of one, and the conversion back gives the same share. Rounded, the hue is
  near that number modulo 6, and the components vary no faster than the hue (`wheel_near`), also across its borders.
* C124 colours and places: every step of a run only appends entities, and of these only `light` makes lights, with one
  position for both colour and entity; no hypothesis on rooms or vectors is needed.

Properties whose full statement is false of the code keep the full statement, get a theorem
`…_refuted` exhibiting a witness, and `…_partial` theorems for what does hold.

## 4. Trusted base

* The Coq kernel (8.16.1), including its `vm_compute`.
* What `Print Assumptions` lists, per theorem: section 5.
* That the model is a faithful reading of the cited lines. Every definition cites its lines.

Not modelled at all: gzip and the file system (a file is its bytes; in `DiscModel.v` a disc is a function from names to
contents), JSON text (a text is the
value its reader returns), argparse, logging, progress bars, the values of the noise library, image output,
CPython's recursion and memory limits, `cli` programs other than the ones named above.

Simplifications, by component:

* numbers: a coordinate is an int or a half-integer float; NaN, infinities, -0.0 and the limits
  of exactness (2^52) occur only in the codec and texture models;
* codec: the input is the uncompressed byte string; floats are exact (sign, mantissa, exponent);
  the values of texture slots are not part of the map value, only their number;
* placement: exact rational weights (the program adds binary64 numbers); the float quotient in
  `random_room_stream` is an arbitrary rounding function with stated properties; randomness is an
  arbitrary infinite stream; cells are integers (bridge lemmas in `UpmBridge.v`);
* kit and rooms: a generator that raises after some points is just an error; the random
  arguments of a `render` are drawn before painting;
* voxel rooms: a texture is a function of the colour; `render_extra` adds only entities;
* effects: gradients are exact rationals;
* textures: decimal literals are the nearest binary64 number (computed with `SpecFloat`); a
  texture name built from a colour is the triple of components; `str` of a component is an
  arbitrary function;
* texture files: the installation directory can be written to; the text "None" stands for None;
* voxel files: the bytes already written when the writer raises are not modelled;
* distributions: a decimal literal is that rational number;
* shipped rooms: the bytes of the files are copied into `ShippedVox.v` (32 to a number); constants
  computed at import time (`EAST + NORTH`, ...) are computed by the vector model; a room whose
  orientation is not one of the four directions is out of the model;
* generator: the random numbers, the rounding of probabilities and the two vectors of a room are
  arbitrary;
* terrain: the noise library is an arbitrary function (into [-1, 1] where a file is claimed to be readable);
  arithmetic on its values is exact;
* lights: the hue is an arbitrary function (C50, C62 to C85) or that of the code with an arbitrary noise and an arbitrary
  order preserving rounding (C86; for C123 also one that moves no number of up to 256 by more than 2^-44, or none); the world size is a power of two;
* integer vectors: components are exact rationals (no rounding of floats, no NaN or infinity);
* JSON: NaN and infinity are out of the model;
* printed forms: floats from 10^16 on and negative zero are out of the model;
* files of the programs: a compressed file is completed also when the writer raises (the interpreter closes it); an empty
  file decompresses to nothing, another text is no compressed file; the input is named before the output and no other
  output is asked for, but for C122, where the voxel and graph files are other files than the rest.

## 5. Assumptions

`Print Assumptions` answers "Closed under the global context" for every theorem in every
`Props*.v`: no theorem depends on an axiom. The build check lists seven constants of
`Coq.ssr.ssrunder` as axioms; they are the parameters of a module type in the standard library
that is loaded through `Lia`/`Setoid`, and no theorem uses them.

## 6. Tests against wrong programs

`seeded/LOG.jsonl` records the edits of the model (realistic bugs, or fixes of the refuted
behaviour) that were tried in a scratch copy, and which property theorems then fail. Edits that
break nothing, and the theorems tightened because of an edit, are noted there.
