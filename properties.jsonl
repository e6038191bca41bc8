{"id": "C01", "title": "Vector equality is an equivalence that identifies coarse cells with their fine corner", "statement": "Comparing any two vectors (plain, fine or coarse) with == is reflexive, symmetric and transitive; a coarse vector equals a fine one exactly when the fine coordinates are eight times the coarse ones; whether a coordinate is stored as an int or as a float never matters.", "quantifier": "all vectors of all three classes, with arbitrary integer or half-integer coordinates", "why_tests_cant": "Symmetry and transitivity range over all pairs and triples of vectors of mixed classes; Python also reorders the operands for subclasses, so sampled pairs say nothing about the others.", "anchors": ["redeclipse/vector/__init__.py::BaseVector.__eq__", "redeclipse/vector/__init__.py::FineVector.__eq__", "redeclipse/vector/__init__.py::CoarseVector.__eq__"]}
{"id": "C02", "title": "Equal vectors hash equally", "statement": "Two vectors that compare equal have the same hash, so a set or dict keyed by vectors finds any key equal to the one looked up. (The full claim across classes is false in the code: CoarseVector(1,1,1) == FineVector(8,8,8) but their hashes differ; within one class it holds.)", "quantifier": "all pairs of vectors", "why_tests_cant": "The hash contract quantifies over all pairs of equal values; a test can only try chosen pairs, and dict lookups usually mask the problem.", "anchors": ["redeclipse/vector/__init__.py::BaseVector.__hash__", "redeclipse/vector/__init__.py::FineVector.__hash__", "redeclipse/vector/__init__.py::CoarseVector.__hash__"]}
{"id": "C03", "title": "Vector ordering is a strict total order within a class", "statement": "Among vectors of one class, < is irreflexive and transitive, and exactly one of a<b, a==b, b<a holds, and <= is 'less or equal', so sorting a list of vectors is well defined. (Across classes it is false: a coarse vector can be both equal to and less than a fine one.)", "quantifier": "all pairs and triples of vectors", "why_tests_cant": "Totality and transitivity are statements about all triples.", "anchors": ["redeclipse/vector/__init__.py::BaseVector.__lt__", "redeclipse/vector/__init__.py::BaseVector.__le__"]}
{"id": "C04", "title": "Vector addition and subtraction are inverse for every mix of fine and coarse operands", "statement": "Adding fine and coarse vectors in any order gives the vector sum of their positions in fine units; a+b == b+a and (a+b)-b == a; the result is coarse only when both operands are; an operation involving a plain vector and another class is rejected with an exception.", "quantifier": "all pairs of vectors of all classes", "why_tests_cant": "The law covers nine class combinations and unboundedly many coordinates, including float-valued ones.", "anchors": ["redeclipse/vector/__init__.py::BaseVector.__add__", "redeclipse/vector/__init__.py::FineVector.__add__", "redeclipse/vector/__init__.py::CoarseVector.__add__", "redeclipse/vector/__init__.py::FineVector.__sub__", "redeclipse/vector/__init__.py::CoarseVector.__sub__"]}
{"id": "C05", "title": "Fine/coarse conversion round-trips and floors", "statement": "Converting a coarse vector to fine and back gives the same vector; converting a fine vector to coarse gives the unique cell whose 8x8x8 block contains it, for negative coordinates as well.", "quantifier": "all coarse vectors; all fine vectors including negative and half-integer coordinates", "why_tests_cant": "Floor division behaves differently for negative numbers than truncation; samples of positive coordinates cannot show the general statement.", "anchors": ["redeclipse/vector/__init__.py::CoarseVector.fine", "redeclipse/vector/__init__.py::FineVector.coarse", "redeclipse/vector/__init__.py::FineVector.__floordiv__"]}
{"id": "C06", "title": "Quarter-turn rotations form the rotation group", "statement": "Rotating a vector by 90 degree steps, given as degrees (any integer multiple, also negative) or as a compass vector, is the exact rotation about the vertical axis: steps add up, four of them are the identity, lengths and heights are preserved, coarse and fine vectors rotate alike, and rotating a sum is the sum of the rotations.", "quantifier": "all vectors with integer or half-integer coordinates, all integer multiples of 90 degrees, all four compass directions", "why_tests_cant": "The group laws quantify over all vectors and all integer numbers of quarter turns.", "anchors": ["redeclipse/vector/__init__.py::BaseVector.rotate", "redeclipse/vector/orientations.py::NORTH", "redeclipse/vector/orientations.py::WEST", "redeclipse/vector/orientations.py::SOUTH", "redeclipse/vector/orientations.py::EAST"]}
{"id": "C07", "title": "Rotation has no floating-point drift", "statement": "Although rotation goes through floating point sine and cosine, for every coordinate up to 2^40 the result is exactly the rotated half-integer coordinate, whatever the rounding errors of cos, sin, multiplication and subtraction are, as long as each is within 2^-50 relative (resp. absolute for cos/sin).", "quantifier": "all half-integer coordinates of magnitude at most 2^40 and all error terms within the bound", "why_tests_cant": "Tests sample a handful of coordinates on one libm; the claim is over all rounding behaviours and coordinates.", "anchors": ["redeclipse/vector/__init__.py::BaseVector.rotate"]}
{"id": "C08", "title": "Rotation about an offset centre fixes the centre and preserves distances to it", "statement": "Rotating a point about a centre (offset_rotate) leaves the centre fixed, preserves the distance to it, composes additively and four quarter turns give the point back; about the tile centre it permutes the 8x8 columns of a tile.", "quantifier": "all points, all half-integer centres, all numbers of quarter turns", "why_tests_cant": "Universal statement over points and centres; used for every voxel drawn and every mirrored room.", "anchors": ["redeclipse/vector/__init__.py::BaseVector.offset_rotate", "redeclipse/vector/orientations.py::TILE_VOX_OFF"]}
{"id": "C09", "title": "Yaw and orientation agree", "statement": "Adding a compass orientation to a yaw returns a yaw in [0,360) congruent to yaw plus the orientation's angle; applying an orientation and then its opposite adds half a turn; a vector that is not one of the four compass directions is rejected.", "quantifier": "all integer yaws and all vectors", "why_tests_cant": "Ranges over all integers and all vectors, including the rejecting branch.", "anchors": ["redeclipse/vector/orientations.py::rotate_yaw", "redeclipse/vector/orientations.py::get_vector_rotation"]}
{"id": "C10", "title": "The voxel world behaves like a finite map", "statement": "After any sequence of set and delete calls, get_point returns the value most recently set at that position and not deleted since, and None elsewhere; integer and equal float coordinates address the same voxel; a call never changes any other position; the number of stored voxels equals the number of positions holding one.", "quantifier": "all finite sequences of set_point, set_pointv, del_point, del_pointv on worlds of any size, all coordinates", "why_tests_cant": "Quantifies over all operation histories.", "anchors": ["redeclipse/voxel/__init__.py::VoxelWorld.set_point", "redeclipse/voxel/__init__.py::VoxelWorld.get_point", "redeclipse/voxel/__init__.py::VoxelWorld.del_point"]}
{"id": "C11", "title": "World boundaries always enclose every voxel", "statement": "After any sequence of set and delete calls, every stored voxel lies within the recorded xmin..xmax, ymin..ymax and zmin..zmax; bounds only ever widen and always equal the extremes of the positions ever set together with their initial values.", "quantifier": "all finite operation histories", "why_tests_cant": "An invariant over all histories, including deletions and coordinates outside the world.", "anchors": ["redeclipse/voxel/__init__.py::VoxelWorld.set_point", "redeclipse/voxel/__init__.py::VoxelWorld.__init__"]}
{"id": "C12", "title": "Octree conversion loses and invents nothing", "statement": "For a world whose size is a power of two (at least 2), following the octree path of any position inside the world (x lowest bit of the child number, then y, then z) reaches exactly the stored voxel, or an empty leaf if there is none.", "quantifier": "all voxel worlds of size 2^k for every k>=1, all positions in the cube", "why_tests_cant": "The octree of even a small world has unboundedly many shapes; the claim is by induction over the depth.", "anchors": ["redeclipse/voxel/__init__.py::VoxelWorld.to_octree"]}
{"id": "C13", "title": "Octree conversion produces minimal, well-shaped trees", "statement": "In the octree of a power-of-two world every inner node has exactly eight children and contains at least one voxel, no path is longer than log2(size), and the root is a list of eight nodes.", "quantifier": "all voxel worlds of size 2^k, k>=1", "why_tests_cant": "Structural claim about every node of every tree.", "anchors": ["redeclipse/voxel/__init__.py::VoxelWorld.to_octree"]}
{"id": "C14", "title": "Octree conversion keeps every voxel whatever the world size", "statement": "Converting a world to an octree keeps every voxel. (False as stated: for a size that is not a power of two, and for positions outside the cube, voxels are silently lost; size 1 does not yield a list and size 0 does not terminate.)", "quantifier": "all world sizes and voxel positions", "why_tests_cant": "Needs reasoning about all sizes; the tests only use powers of two.", "anchors": ["redeclipse/voxel/__init__.py::VoxelWorld.to_octree"]}
{"id": "C15", "title": "Written maps read back identically", "statement": "Writing any well-formed map and reading the bytes back gives a map with the same header, variables, texture history, entities, slots and octree.", "quantifier": "all maps whose fields are in the ranges of the file format, with octrees of any shape and depth", "why_tests_cant": "A round trip over all values of a recursive data type; tests only try the shipped files.", "anchors": ["redeclipse/__init__.py::Map.write", "redeclipse/__init__.py::MapParser.read", "redeclipse/objects.py::cube"]}
{"id": "C16", "title": "Rewriting is idempotent", "statement": "If a file is read and written back, the new file reads as the same map, and reading and writing it again reproduces it byte for byte.", "quantifier": "all byte strings the reader accepts and the writer can write back, with pairwise distinct variable names", "why_tests_cant": "Quantifies over all input files.", "anchors": ["redeclipse/__init__.py::Map.write", "redeclipse/__init__.py::MapParser.read", "redeclipse/cli/iso.py::main"]}
{"id": "C17", "title": "Every map that can be read can be written", "statement": "The writer accepts every map the reader returns. (False: cubes whose flag byte is 128 or more, entities with a reserved byte of 128 or more and changed texture slots are read but cannot be written; the exact condition under which writing succeeds is given.)", "quantifier": "all byte strings the reader accepts", "why_tests_cant": "Quantifies over all input files, including flag bytes no shipped map uses.", "anchors": ["redeclipse/__init__.py::Map._write_int_as_chr", "redeclipse/__init__.py::Map._savec", "redeclipse/entities/__init__.py::Entity.serialize"]}
{"id": "C18", "title": "A truncated map file is never accepted", "statement": "If a crash cuts a written map file short at any byte, reading the remainder raises an error instead of silently yielding a smaller map.", "quantifier": "all well-formed maps and all crash points (every proper prefix of the written bytes)", "why_tests_cant": "Quantifies over every crash point of every file.", "anchors": ["redeclipse/__init__.py::Map.write", "redeclipse/__init__.py::MapParser.read"]}
{"id": "C19", "title": "The parser always terminates and reads left to right", "statement": "On every byte string the reader returns a map or an error after finitely many steps, never consumes more than it was given, and bytes after the octree do not influence the result.", "quantifier": "all byte strings", "why_tests_cant": "Termination and locality over all inputs, including malformed ones.", "anchors": ["redeclipse/__init__.py::MapParser.read", "redeclipse/__init__.py::MapParser._loadchildren"]}
{"id": "C20", "title": "Header counts match the written contents", "statement": "In every written file the entity count equals the number of entity records and the variable count the number of variable records. (False for variables: adding a variable, setting a skybox or reading a file with duplicate names yields a file whose header no longer matches; it holds for entities and when the variable count is kept in step.)", "quantifier": "all maps and all sequences of modifications before writing", "why_tests_cant": "Depends on the history of modifications; shipped maps happen to be consistent.", "anchors": ["redeclipse/__init__.py::Map.write", "redeclipse/__init__.py::Map.skybox"]}
{"id": "C21", "title": "Generated voxel worlds survive the file format", "statement": "Converting a voxel world of textured cubes to an octree, attaching it to a map and writing it produces a file whose octree, when read back, contains exactly the voxels of the world with their textures. (Holds when the first octant contains a voxel; false otherwise, because the output step marks the first octant as subdivided unconditionally.)", "quantifier": "all worlds of size 2^k and all texture assignments in range", "why_tests_cant": "End-to-end over all worlds; the failing case needs an empty first octant, which no test has.", "anchors": ["redeclipse/cli/__init__.py::output", "redeclipse/voxel/__init__.py::VoxelWorld.to_octree", "redeclipse/__init__.py::Map.write", "redeclipse/__init__.py::MapParser.read"]}
{"id": "C22", "title": "Entities round-trip and keep their world position", "statement": "An entity written by this library is read back with the same type, attributes, links and exactly the same position, for every finite position representable in the file. (False for player starts of team 1 and fractional attributes.)", "quantifier": "all entities with attributes in range and all finite float32 positions", "why_tests_cant": "Ranges over all 2^32 float patterns and all attribute values.", "anchors": ["redeclipse/entities/__init__.py::Entity.serialize", "redeclipse/__init__.py::MapParser.read"]}
{"id": "C23", "title": "Rooms never overlap", "statement": "Unless clipping is allowed, after any sequence of room registrations, placements and endcaps none of which raises, the cells of any two registered rooms are disjoint, every cell of every room is recorded as occupied by that very room, and nothing else is recorded as occupied.", "quantifier": "all sequences of operations, all room shapes, all random choices, mirror 1, 2 or 4", "why_tests_cant": "Quantifies over all histories, shapes and random outcomes.", "anchors": ["redeclipse/upm.py::UnusedPositionManager.register_room", "redeclipse/upm.py::UnusedPositionManager._register_room", "redeclipse/upm.py::UnusedPositionManager.place_rooms", "redeclipse/upm.py::UnusedPositionManager.endcap"]}
{"id": "C24", "title": "A successful pre-check guarantees registration", "statement": "If pre-registering a room says it fits, then registering it at once succeeds with all its mirror images; pre-registering changes nothing; and if it says no, then some image collides or has a doorway outside the legal region.", "quantifier": "all manager states and all rooms", "why_tests_cant": "Two separately written loops must agree on all states and shapes.", "anchors": ["redeclipse/upm.py::UnusedPositionManager.preregister_rooms", "redeclipse/upm.py::UnusedPositionManager.register_room"]}
{"id": "C25", "title": "A failed registration leaves the manager unchanged", "statement": "Registering a room that does not fit raises and has no effect. (False: the room, and any mirror images before the clash, stay registered.)", "quantifier": "all manager states and all rooms", "why_tests_cant": "Atomicity over all states; tests check the happy path.", "anchors": ["redeclipse/upm.py::UnusedPositionManager._register_room", "redeclipse/upm.py::UnusedPositionManager.register_room"]}
{"id": "C26", "title": "Open doors are always usable", "statement": "At any time every recorded open doorway leads to a legal, unoccupied cell and belongs to a doorway of a registered room, and conversely every doorway of a registered room that leads to a legal, unoccupied cell is recorded, unless it was discarded because nothing fitted there.", "quantifier": "all operation histories", "why_tests_cant": "Invariant over all histories and shapes.", "anchors": ["redeclipse/upm.py::UnusedPositionManager._register_room", "redeclipse/upm.py::UnusedPositionManager.place_rooms"]}
{"id": "C27", "title": "Mirrored layouts are symmetric", "statement": "With mirror 2 (4), after any sequence of registrations and placements the occupied cells are invariant under the half (quarter) turn about cell (16,16), and the rooms come in images of one another.", "quantifier": "all histories, all room shapes, all random choices", "why_tests_cant": "Symmetry of every reachable layout; tests look at a few cells.", "anchors": ["redeclipse/upm.py::UnusedPositionManager.register_room", "redeclipse/upm.py::UnusedPositionManager.place_rooms"]}
{"id": "C28", "title": "Placed rooms are joined door to door", "statement": "Every room placed at an open doorway has a doorway that opens onto the room it was attached to, facing the opposite direction. (Holds for rooms whose doors do not depend on random flags; false for the others, such as long corridors, whose door is chosen before the flags are drawn.)", "quantifier": "all manager states, all room classes, all orientations, all random choices", "why_tests_cant": "Quantifies over all room shapes and random outcomes; failing flag combinations are rarely sampled.", "anchors": ["redeclipse/upm.py::UnusedPositionManager.room_localization", "redeclipse/prefabs/__init__.py::Room.randOpts"]}
{"id": "C29", "title": "Room placement terminates with the requested number of rooms or no open door", "statement": "Placing rooms always terminates, whatever the random choices; on return either the number of placed rooms is at least the requested number and exceeds it by less than the mirror factor, or no open doorway is left.", "quantifier": "all initial states, all room lists and distributions, all random streams, all target counts", "why_tests_cant": "Termination and counting over all random streams.", "anchors": ["redeclipse/upm.py::UnusedPositionManager.place_rooms"]}
{"id": "C30", "title": "A doorway is discarded only when nothing fits", "statement": "During placement an open doorway is given up only if no class from the list, in any of the four orientations and by any matching door, passes the pre-check with the random flags drawn for it; and a room is placed only if it passes.", "quantifier": "all states, all class lists, all random streams", "why_tests_cant": "Completeness of a randomised search over all outcomes.", "anchors": ["redeclipse/upm.py::UnusedPositionManager.room_localization", "redeclipse/upm.py::UnusedPositionManager.place_rooms"]}
{"id": "C31", "title": "Every candidate class is offered exactly once", "statement": "The random stream of room classes is a permutation of the given options, whatever the weights, provided they are positive and the list is not empty.", "quantifier": "all option lists, all positive weights, all random streams", "why_tests_cant": "Statement about all multisets and shuffles.", "anchors": ["redeclipse/upm.py::random_room_stream"]}
{"id": "C32", "title": "Weighted choice implements its weights", "statement": "For non-negative weights and a draw r in [0,total], the chosen element is the one whose cumulative interval contains r; an element of weight zero is chosen only at r=0; on a non-empty list something is always returned.", "quantifier": "all weight lists and all draws", "why_tests_cant": "The distributional meaning is a statement over all draws.", "anchors": ["redeclipse/upm.py::weighted_choice", "redeclipse/upm.py::UnusedPositionManager.nonrandom_position"]}
{"id": "C33", "title": "Endcaps never fail and never leave the legal region", "statement": "Closing the remaining doors with endcap rooms never raises, keeps rooms disjoint, and places every endcap entirely on legal cells. (In debug mode it is false: two open doors leading to one cell make it raise.)", "quantifier": "all manager states satisfying the open-door invariant, all endcap lists, all random streams", "why_tests_cant": "Iterates over a list that the loop body changes; needs an invariant.", "anchors": ["redeclipse/upm.py::UnusedPositionManager.endcap", "redeclipse/upm.py::UnusedPositionManager._room_cap_real", "redeclipse/upm.py::UnusedPositionManager._room_cap_debug"]}
{"id": "C34", "title": "Placed rooms stay inside the world", "statement": "Every placed room lies inside the legal region, and the legal region lies inside the voxel world. (Both false: only doorways are checked, and the legal coordinate 32 lies outside a 32-cell world, so mirrored rooms can vanish from the output.)", "quantifier": "all histories", "why_tests_cant": "Boundary case reached only by particular layouts.", "anchors": ["redeclipse/upm.py::UnusedPositionManager.is_legal", "redeclipse/upm.py::UnusedPositionManager.preregister_rooms", "redeclipse/cli/magica_rooms.py::main"]}
{"id": "C35", "title": "The link graph connects rooms to the start", "statement": "After any sequence of placements every link joins positions of two registered rooms, links are closed under the mirror symmetry, and every registered room is connected by links to an image of the starting room.", "quantifier": "all histories and random streams", "why_tests_cant": "Reachability over all histories.", "anchors": ["redeclipse/upm.py::UnusedPositionManager.register_link", "redeclipse/upm.py::UnusedPositionManager.place_rooms"]}
{"id": "C36", "title": "Box drawing sets exactly the box, in every orientation", "statement": "Drawing a rectangular prism of positive size sets exactly the voxels obtained by rotating the unrotated box about the centre of the room's tile, each once, and leaves everything else alone; with subtraction it removes exactly those voxels.", "quantifier": "all positions, offsets, sizes and orientations, all worlds", "why_tests_cant": "Set equality for all sizes and orientations.", "anchors": ["redeclipse/prefabs/construction_kit.py::ConstructionKitMixin.x_rectangular_prism", "redeclipse/prefabs/construction_kit.py::cube_points", "redeclipse/prefabs/construction_kit.py::ConstructionKitMixin.x"]}
{"id": "C37", "title": "Floors, ceilings, walls and rings stay in their tile", "statement": "A floor, ceiling, wall, low wall or ring of size at most 8 drawn at a room touches only voxels of that room's 8x8x8 tile, on the expected side for the given face and orientation, whatever the room position and orientation.", "quantifier": "all positions, orientations and faces, all sizes 0..8", "why_tests_cant": "Universal over positions and orientations; the tests try single positions.", "anchors": ["redeclipse/prefabs/construction_kit.py::ConstructionKitMixin.x_floor", "redeclipse/prefabs/construction_kit.py::ConstructionKitMixin.x_ceiling", "redeclipse/prefabs/construction_kit.py::ConstructionKitMixin.x_wall", "redeclipse/prefabs/construction_kit.py::ConstructionKitMixin.x_ring"]}
{"id": "C38", "title": "Room cells and doors move rigidly with the room", "statement": "Moving and turning a room moves and turns its cells and doorways rigidly: cells and doors are the rotated and translated copies of those of the unrotated room at the origin, distinct cells stay distinct, and a doorway stays adjacent to the cell it leaves.", "quantifier": "all room shapes, positions and orientations", "why_tests_cant": "Universal over shapes and placements.", "anchors": ["redeclipse/prefabs/__init__.py::Room.get_positions", "redeclipse/prefabs/__init__.py::Room.get_doorways", "redeclipse/prefabs/magica.py::MagicaRoom"]}
{"id": "C39", "title": "Voxel rooms draw only inside the cells they claim", "statement": "Every voxel drawn by a room loaded from a voxel model lies in one of the cells the room reports as occupied, and every reported cell contains a drawn voxel, for every position and orientation.", "quantifier": "all voxel models, positions and orientations", "why_tests_cant": "Two computations (cell list and drawing) in different units must agree for all models.", "anchors": ["redeclipse/prefabs/magica.py::MagicaRoom.render", "redeclipse/prefabs/magica.py::MagicaRoom.__init__"]}
{"id": "C40", "title": "Non-overlapping rooms never overwrite each other's voxels", "statement": "If rooms loaded from voxel models occupy disjoint cells, then rendering them in any order gives the same world, in which each room's voxels are exactly the ones it drew.", "quantifier": "all lists of rooms with disjoint cells, all rendering orders", "why_tests_cant": "Quantifies over all permutations and models.", "anchors": ["redeclipse/prefabs/magica.py::MagicaRoom.render", "redeclipse/upm.py::UnusedPositionManager"]}
{"id": "C41", "title": "Built-in rooms have usable doors and stay within their cells", "statement": "For every built-in room class and every setting of its random flags, each doorway leaves from a cell of the room to a cell outside of it, and everything drawn lies in the cells the room reports.", "quantifier": "all built-in room classes, flags, positions, orientations, random choices in drawing", "why_tests_cant": "Flag combinations and orientations multiply; geometry must match door tables in each.", "anchors": ["redeclipse/prefabs/__init__.py::Room", "redeclipse/prefabs/__init__.py::NLongCorridor", "redeclipse/prefabs/__init__.py::SpawnRoom"]}
{"id": "C42", "title": "Decay only removes and growth only adds", "statement": "Decay never adds or changes a voxel and growth never changes or removes one, whatever the position function and the random numbers.", "quantifier": "all worlds, position functions and random streams", "why_tests_cant": "Universal over random streams.", "anchors": ["redeclipse/aftereffects.py::decay", "redeclipse/aftereffects.py::growth"]}
{"id": "C43", "title": "Box and grid effects touch exactly the documented voxels", "statement": "The box effect makes exactly the boundary faces of the requested box solid and leaves the interior alone, the outline its edges; the grid effect adds exactly the points with two coordinates on the grid. (False for the box with a requested height below the world size: it gets no top face.)", "quantifier": "all worlds, sizes and heights", "why_tests_cant": "Set equality for all sizes.", "anchors": ["redeclipse/aftereffects.py::box", "redeclipse/aftereffects.py::grid"]}
{"id": "C44", "title": "Aftereffects reach the top layer and accept every generated world", "statement": "Effects that sweep the world process every layer and work on every world produced by the generator. (False: the topmost layer is skipped, and a world drawn by rooms has a float height, on which the sweep raises TypeError.)", "quantifier": "all worlds", "why_tests_cant": "The failing case arises only from composing drawing and effects, which no test does.", "anchors": ["redeclipse/aftereffects.py::grid", "redeclipse/aftereffects.py::decay", "redeclipse/aftereffects.py::growth", "redeclipse/voxel/__init__.py::VoxelWorld.set_point"]}
{"id": "C45", "title": "Gradients are probabilities", "statement": "The linear, quadratic and exponential vertical gradients take values in [0,1] on the world and never increase with height; the quadratic gradient and its inverse add up to one.", "quantifier": "all heights within the world, all world heights", "why_tests_cant": "Universal over heights.", "anchors": ["redeclipse/aftereffects.py::vertical_gradient", "redeclipse/aftereffects.py::gradient3", "redeclipse/aftereffects.py::vertical_gradient2", "redeclipse/aftereffects.py::vertical_gradient2inv"]}
{"id": "C46", "title": "Texture numbers are stable and match the emitted configuration", "statement": "After any sequence of texture requests, the same name always gets the same number, different names get different numbers, numbers are 0..n-1 in order of first use with the sky at 0 and the default at 1, and the k-th texture of the emitted configuration is the one numbered k; an unknown name is rejected without changing anything.", "quantifier": "all sequences of requests", "why_tests_cant": "Invariant over all request histories.", "anchors": ["redeclipse/textures/__init__.py::TextureManager.get", "redeclipse/textures/__init__.py::TextureManager.emit_conf"]}
{"id": "C47", "title": "Exported voxel models can be imported again", "statement": "A world exported to a voxel file and read back has the same voxels and colours. (False: the palette is one entry short for the reader, the voxel count is wrong when a voxel lies outside 0..255, and colours are shifted by one.)", "quantifier": "all worlds", "why_tests_cant": "Byte-level agreement between an independent reader and writer for all worlds.", "anchors": ["redeclipse/magicavoxel/writer.py::to_magicavoxel", "redeclipse/magicavoxel/reader.py::Magicavoxel", "redeclipse/prefabs/magica.py::MagicaRoom.__init__"]}
{"id": "C48", "title": "Room distributions are symmetric where declared and agree with their lookup", "statement": "For a mirrored distribution the transition probability from a to b equals that from b to a, every probability is positive, and the per-class table agrees with the pairwise lookup. (The last part is false: the per-class table ignores mirroring.)", "quantifier": "all pairs of room types of every distribution, and arbitrary tables", "why_tests_cant": "Covers all tables, not just the shipped ones.", "anchors": ["redeclipse/prefabs/distributions.py"]}
{"id": "C49", "title": "Maps survive the JSON representation", "statement": "Converting a map to its dictionary form and back preserves it. (False: the octree is dropped and any entity makes the conversion back raise TypeError.)", "quantifier": "all maps", "why_tests_cant": "Round trip over a recursive type; untested in the repository.", "anchors": ["redeclipse/__init__.py::Map.to_dict", "redeclipse/__init__.py::Map.from_dict", "redeclipse/entities/__init__.py::Entity.from_dict"]}
{"id": "C50", "title": "Lights are placed at their voxel position", "statement": "A light requested at a position stands in the middle of that tile at the same scale as every other entity, four map units per voxel, whatever the manager's colours and size were and whatever other lights exist; exactly one entity is added and the saved map has the light there. (Only a manager made for a world of side 256 does this: in general a light stands at 1024 divided by that side map units per voxel, so a default manager places lights at twice the distance, and without automatic centring the call always raises UnboundLocalError.)", "quantifier": "all positions and world sizes", "why_tests_cant": "Scale factors cancel only in combination.", "anchors": ["redeclipse/lighting/__init__.py::LightManager.light", "redeclipse/entities/__init__.py"]}
{"id": "C51", "title": "Cube faces share their corner vertices", "statement": "The vertices computed for the six faces of a cube from its edge data agree: each of the eight corners gets the same vertex from the three faces that meet there, every vertex component lies in 0..15, and an undeformed cube yields the corners of the full cube.", "quantifier": "all edge arrays (twelve bytes), all faces", "why_tests_cant": "Ranges over 256^12 edge arrays.", "anchors": ["redeclipse/objects.py::cube.genfaceverts"]}
{"id": "C52", "title": "The room generator runs with its default options", "statement": "Running the room generator without giving a mirror factor works. (False: the option defaults to None, which leaves the rotation list undefined, so the first registration raises AttributeError.)", "quantifier": "all invocations without a mirror option", "why_tests_cant": "The tests construct the manager directly with valid factors.", "anchors": ["redeclipse/cli/magica_rooms.py::main", "redeclipse/upm.py::UnusedPositionManager.__init__"]}
{"id": "C53", "title": "Every construction is rigid", "statement": "Every construction of the kit (cube, column, dotted column, floor, ceiling, low wall, wall, ring, prism) with arguments on the voxel grid succeeds at every position and in every orientation, and draws exactly the image, under the rigid motion of the room, of what it draws in an unturned room at the origin; nothing else changes.", "quantifier": "all constructions, grid arguments, positions, orientations, textures, probabilities, random streams and worlds", "why_tests_cant": "Exact set equality for unbounded arguments in every placement.", "anchors": ["redeclipse/prefabs/construction_kit.py::ConstructionKitMixin.x", "redeclipse/prefabs/construction_kit.py::ConstructionKitMixin.x_column", "redeclipse/prefabs/construction_kit.py::ConstructionKitMixin.x_dotted_column", "redeclipse/prefabs/construction_kit.py::ConstructionKitMixin.x_cube", "redeclipse/prefabs/construction_kit.py::column_points"]}
{"id": "C54", "title": "Filling open doorways fills exactly the open cells", "statement": "The endcap effect makes every block of every listed open cell solid, and changes no block outside of the listed cells.", "quantifier": "all lists of cell vectors and all worlds", "why_tests_cant": "Exact set equality over unbounded positions.", "anchors": ["redeclipse/aftereffects.py::endcap"]}
{"id": "C55", "title": "Every material of a theme exists", "statement": "Asking a themed texture manager for a material of any of the five categories (generic, column, floor, wall, accent) gives a texture number, whatever was asked before and whatever is drawn. (False for the default theme: its generic and floor materials name textures that are not defined, so the request raises KeyError. Any other category is answered by a texture name instead of a number.)", "quantifier": "all themes, categories, sequences of earlier requests and random streams", "why_tests_cant": "The failing names are drawn with probability 1/5 and 1/30; tests with one seed miss them.", "anchors": ["redeclipse/textures/__init__.py::ThemedTextureManager.get_c", "redeclipse/textures/dull_theme.py", "redeclipse/textures/minecraft_theme.py", "redeclipse/textures/paper_theme.py", "redeclipse/textures/primary_theme.py"]}
{"id": "C56", "title": "The texture configuration keeps every statement apart", "statement": "The non-empty lines of the configuration file are those of the header followed by those of each texture in the order of the texture numbers, and exactly one line per texture number opens a texture slot. (False for the default theme: the colour statement of a bump mapped texture has no line end, so the first statement of the next texture is lost in it.)", "quantifier": "all sequences of texture requests and all texture tables", "why_tests_cant": "Depends on which textures happen to be adjacent.", "anchors": ["redeclipse/textures/__init__.py::TextureManager.emit_conf", "redeclipse/textures/basetex.py::DefaultBumpSpecMapWorld.conf", "redeclipse/textures/basetex.py::DefaultBumpSpecMapParallaxWorld.conf"]}
{"id": "C57", "title": "The configuration is not written over the map", "statement": "The configuration is written to a file with another name than the map's. (False: this holds exactly when the name of the map contains '.mpz'; otherwise both have the same name, and the map replaces the configuration.)", "quantifier": "all file names", "why_tests_cant": "Ranges over all strings.", "anchors": ["redeclipse/textures/__init__.py::TextureManager.emit_conf", "redeclipse/cli/__init__.py::output"]}
{"id": "C58", "title": "Sizes declared in an exported voxel file are right", "statement": "The chunk sizes and the model size in an exported voxel file describe the data that follows and contain every voxel. (False: the contents are declared 8 bytes too short, the palette is declared to be 1024 bytes and is 1020 bytes long, and the model size is the largest coordinate instead of the number of cells, so the outermost voxels lie outside.)", "quantifier": "all worlds and texture tables", "why_tests_cant": "Ranges over all worlds; readers that ignore the sizes do not notice.", "anchors": ["redeclipse/magicavoxel/writer.py::to_magicavoxel"]}
{"id": "C59", "title": "Every shipped voxel file can be used", "statement": "Every voxel file in the repository can be read, has at least one voxel, and each of its voxels lies in the declared box and refers to a colour of the palette; in particular this holds for the file of every room class. (False for egypt/water_square.vox, which no class uses: reading it raises an exception.)", "quantifier": "all 57 shipped files, all of their voxels, and all 45 classes made from a file", "why_tests_cant": "The data are tens of thousands of voxels in binary files; the tests read two of them.", "anchors": ["redeclipse/prefabs/magica.py::MagicaRoom.load_model", "redeclipse/magicavoxel/reader.py::to_voxels"]}
{"id": "C60", "title": "Shipped rooms reserve the cells they fill", "statement": "For every class made from a file, at every position and in every orientation, the cells the room reports are exactly the cells of 8x8x8 voxels in which it draws at least one voxel, each reported once.", "quantifier": "all classes, positions and orientations", "why_tests_cant": "Unbounded positions; an error shows only when two particular rooms meet.", "anchors": ["redeclipse/prefabs/magica.py::MagicaRoom.get_positions", "redeclipse/prefabs/magica.py::MagicaRoom.load_model"]}
{"id": "C61", "title": "Every doorway of a shipped room leads out of it", "statement": "Each doorway of each class made from a file, at every position and in every orientation, opens to one of the four sides, leads to a cell that is not part of the room, and leaves from a cell that is. (False for the classes stair and stair_toplatform of egypt.)", "quantifier": "all classes, doorways, positions and orientations", "why_tests_cant": "A misplaced doorway still lets rooms be attached, across a gap.", "anchors": ["redeclipse/prefabs/castle/__init__.py", "redeclipse/prefabs/dungeon/__init__.py", "redeclipse/prefabs/egypt/__init__.py", "redeclipse/prefabs/original/__init__.py", "redeclipse/prefabs/spacestation/__init__.py"]}
{"id": "C62", "title": "Shipped rooms put their entities inside", "statement": "For every class made from a file, at every position and in every orientation, drawing the room adds one entity of the right kind and attributes for each thing the class asks for, changes nothing else in the map, and each entity stands in a cell of the room. (False for castle_gate_simple, castle_wall_section_endcap, castle_wall_section_x, station_tube3 and station_tube_jumpx, which in some orientation put one outside, wherever the room is.)", "quantifier": "all classes, positions, orientations, light colours, maps and random streams", "why_tests_cant": "The offsets are right in the orientation one looks at first; half of the errors show only after a turn.", "anchors": ["redeclipse/prefabs/castle/__init__.py", "redeclipse/prefabs/dungeon/__init__.py", "redeclipse/prefabs/egypt/__init__.py", "redeclipse/prefabs/original/__init__.py", "redeclipse/prefabs/spacestation/__init__.py", "redeclipse/lighting/__init__.py::LightManager.light"]}
{"id": "C63", "title": "Shipped rooms are drawn exactly, in the colours meant", "statement": "Drawing a room of any class made from a file, at any position and in any orientation, succeeds, puts each voxel of its file at the place given by the rigid motion of the room, on all six sides with the texture number of the colour the class means for it (its own colour, the team colour, or the material), keeps the numbers of all colours numbered before, gives different colours different numbers, and leaves every other point of the world alone.", "quantifier": "all classes, positions, orientations, worlds, and texture managers after any sequence of requests", "why_tests_cant": "Exact set equality over unbounded placements with a stateful numbering.", "anchors": ["redeclipse/prefabs/magica.py::MagicaRoom.render", "redeclipse/prefabs/magica.py::MagicaRoom.colour_to_texture", "redeclipse/textures/__init__.py::TextureManager.get_colour", "redeclipse/prefabs/castle/__init__.py", "redeclipse/prefabs/dungeon/__init__.py", "redeclipse/prefabs/egypt/__init__.py", "redeclipse/prefabs/original/__init__.py", "redeclipse/prefabs/spacestation/__init__.py"]}
{"id": "C64", "title": "Flags and walls of a base belong to the same team", "statement": "A room with a flag adds exactly one team flag, inside the room; its team is that of the orientation, different for different orientations, and the red voxels of its file are drawn in the colour of the same team.", "quantifier": "both flag rooms, all positions, orientations, maps, worlds and texture managers", "why_tests_cant": "Flag and wall are computed by separate chains of conditions over the orientation.", "anchors": ["redeclipse/prefabs/castle/__init__.py::castle_flag_room", "redeclipse/prefabs/spacestation/__init__.py::station_flagroom"]}
{"id": "C65", "title": "A generated map is what its file says", "statement": "For every mirror factor, number of rooms, seed and input map with a large enough header size, the room generator (not in debug mode) ends, its output is written without an exception (once the texture files it copies are there, see C88) and the file can be read back to its last byte: inside the world it has a block exactly where some room has a voxel in its orientation and place, with the texture number of the colour the room means, no two rooms share a cell, the entities are those of the input, one sun and, room by room, what its class asks for, and everything else is as in the input file.", "quantifier": "all seeds, transition tables, light colours, texture managers, mirror factors, room counts, world sizes 256 and up and well-formed input maps", "why_tests_cant": "End-to-end over all seeds; the tests never generate a map.", "anchors": ["redeclipse/cli/magica_rooms.py::main", "redeclipse/cli/__init__.py::output", "redeclipse/upm.py::UnusedPositionManager.place_rooms", "redeclipse/prefabs/magica.py::MagicaRoom.render"]}
{"id": "C66", "title": "Each team gets one flag", "statement": "With the flag option the generator adds exactly one flag per mirror image of the first room, inside of that image, and no two flags belong to the same team; without the option it adds none.", "quantifier": "all seeds, mirror factors, room counts, sizes and input maps", "why_tests_cant": "Depends on which rooms are placed and how they are mirrored.", "anchors": ["redeclipse/cli/magica_rooms.py::main", "redeclipse/prefabs/spacestation/__init__.py::station_flagroom"]}
{"id": "C67", "title": "The exported graph joins the linked rooms", "statement": "Each link in the exported graph joins the two rooms for which it was recorded. (False: the ends are looked up by position among the occupied cells, and rooms such as station_tubeX, castle_gate and castle_large do not occupy their own position, so ends are None or another room.)", "quantifier": "all generated layouts", "why_tests_cant": "The export never fails; only comparing it with the links shows the error.", "anchors": ["redeclipse/cli/__init__.py::output", "redeclipse/upm.py::UnusedPositionManager.register_link"]}
{"id": "C68", "title": "No room lies outside of the map", "statement": "Every block of every room of a generated map is at coordinates the map has, so it is in the file. (False: only doorways are checked, against the bounds 0 to 32 inclusive whatever the size of the world, while a world of the default size 256 has cells 0 to 31; and at every size rooms can reach one cell below the ground. No block is further out than that, so from size 512 on only blocks below the ground are lost.)", "quantifier": "all generated layouts and world sizes", "why_tests_cant": "Blocks at coordinates beyond the size are dropped silently.", "anchors": ["redeclipse/cli/magica_rooms.py::main", "redeclipse/upm.py::UnusedPositionManager.is_legal", "redeclipse/upm.py::UnusedPositionManager.preregister_room"]}
{"id": "C69", "title": "A mirrored map is the same for every team", "statement": "Turning a generated map by any turn of its mirror factor gives the same map: every room has, for every other team, a room of the same class with the same blocks and entities in the turned places, in the same textures but for the colour of the team. (False: upm.endcap closes each open door with a room chosen anew and never mirrors it, so a map for two teams can have a block for one team where the other has none. True for all other rooms.)", "quantifier": "all seeds, transition tables, light colours, texture managers, mirror factors, room counts, sizes and input maps", "why_tests_cant": "Symmetry of the whole output over all seeds; an asymmetry does not raise anything.", "anchors": ["redeclipse/cli/magica_rooms.py::main", "redeclipse/upm.py::UnusedPositionManager.endcap", "redeclipse/upm.py::UnusedPositionManager.register_room", "redeclipse/prefabs/magica.py::MagicaRoom.render"]}
{"id": "C70", "title": "A map for two teams has the flags of the two teams of the game", "statement": "With the flag option and mirror factor 2 the two flags belong to the teams 1 and 2; with factor 4 there is a flag for each of the teams 1 to 4. (False for factor 2: the first room faces east and its image west, so the flags always belong to the teams 3 and 4.)", "quantifier": "all seeds, transition tables, light colours, texture managers, room counts, sizes and input maps", "why_tests_cant": "Follows from the composition of the placement, mirroring and the choice of the team by orientation.", "anchors": ["redeclipse/cli/magica_rooms.py::main", "redeclipse/prefabs/spacestation/__init__.py::station_flagroom"]}
{"id": "C71", "title": "The map file and the configuration file of a generated map agree", "statement": "Each block of a generated map has, on all six sides, a texture number; counting the texture slots in the text of the configuration file written beside the map, the slot of that number is the plain texture tinted with exactly the colour the room means for this block, whatever other textures were asked for before and whatever flavours are added.", "quantifier": "all seeds, mirror factors, room counts, texture tables and earlier requests, input maps, flavours", "why_tests_cant": "The two files are only related by the order of requests over the whole run; nothing checks one against the other.", "anchors": ["redeclipse/cli/magica_rooms.py::main", "redeclipse/cli/__init__.py::output", "redeclipse/textures/__init__.py::TextureManager.emit_conf", "redeclipse/textures/__init__.py::TextureManager.get_colour"]}
{"id": "C72", "title": "World flavours set their variables and nothing else", "statement": "For every list of allowed flavours the update succeeds, and the statements of the configuration file are those without flavours followed by the settings of each flavour in the order given, each a name and a number on a line of its own; without the option nothing is added.", "quantifier": "all lists of flavours (also repeated), texture tables and requests", "why_tests_cant": "All lists and all texts before them; a missing line end before the first setting would silently swallow it.", "anchors": ["redeclipse/worldflavors.py::update", "redeclipse/cli/__init__.py::output"]}
{"id": "C73", "title": "The terrain generator builds what the noise says", "statement": "For every noise function with values in [-1, 1], every sequence of random numbers and every input map with header size at least 128, perlin writes a file that can be read back to its last byte; each of its 128 by 128 columns is a tree of 50 blocks exactly where the density and the draw of the cell ask for one, otherwise ground exactly below the height of the noise with exactly four layers of building above it where the 4 by 4 block of the cell is built, and nothing else. No block of the map floats.", "quantifier": "all noise functions, random streams and well-formed input maps", "why_tests_cant": "Unknown noise and draws; the numbering of the draws depends on all earlier cells.", "anchors": ["redeclipse/cli/perlin.py::main"]}
{"id": "C74", "title": "The snow forest generator makes a forest", "statement": "For every noise function the program ends without an exception and writes trees, spawn points and rocks where the noise asks for them. (False: MapModel and PlayerSpawn have no parameters x, y, z, so the first tree, spawn point or rock raises TypeError. If there are none, the ground and the border walls are as the noise says.)", "quantifier": "all noise functions and well-formed input maps", "why_tests_cant": "Whether the faulty calls are reached depends on the noise.", "anchors": ["redeclipse/cli/snow_forest.py::main", "redeclipse/entities/model.py::MapModel", "redeclipse/entities/__init__.py::PlayerSpawn"]}
{"id": "C75", "title": "The entities of a built-in room stand inside the room", "statement": "Wherever a built-in room is placed, whichever way it faces and whatever its flags, every light, pusher, spawn point, weapon and model it adds stands in one of the cells the room occupies. (False: _LargeRoom.light turns the absolute position about the origin of the world and adds the middle of a tile twice, ImposingRingRoom also adds it twice, the pushers of jump corridors are turned about the corner of the tile instead of its middle, the light of a low PoleRoom is above its only floor, CrossingWalkways lights the origin of the world. The exact condition is proved.)", "quantifier": "all built-in classes, positions, orientations, flags, light colours and maps", "why_tests_cant": "All positions and orientations; a room facing east at the usual place hides most of the errors.", "anchors": ["redeclipse/prefabs/__init__.py::_LargeRoom.light", "redeclipse/prefabs/__init__.py::JumpCorridor3.render", "redeclipse/prefabs/__init__.py::JumpCorridorVertical.render", "redeclipse/prefabs/__init__.py::CrossingWalkways.light", "redeclipse/prefabs/__init__.py::ImposingRingRoom.light"]}
{"id": "C76", "title": "A built-in room adds exactly the entities of its class", "statement": "Rendering a built-in room never fails for the entities; it appends exactly the lights, pushers, spawn point, weapon or model of its class with the attributes written in its code and at the places written there, pushers turned with the room, and changes nothing else of the map.", "quantifier": "all built-in classes, positions, orientations, flags, light colours and maps", "why_tests_cant": "All orientations and earlier contents of the map.", "anchors": ["redeclipse/prefabs/__init__.py::Room.light", "redeclipse/prefabs/__init__.py::SpawnRoom.render", "redeclipse/prefabs/__init__.py::AltarRoom.render", "redeclipse/prefabs/__init__.py::TestRoom.render"]}
{"id": "C77", "title": "Debug mode generates a map", "statement": "With --debug and any allowed mirror factor the map generator ends without an exception, like it does without --debug. (False: endcap(debug=True) registers one marker room per open door, and two open doors that lead to one cell make the second registration raise. It raises exactly in that case.)", "quantifier": "all random streams, room distributions, numbers of rooms, mirror factors, textures and maps", "why_tests_cant": "Two doors meeting in one cell need a long run of random placements (none below 30 rooms in the stream of the counterexample).", "anchors": ["redeclipse/cli/magica_rooms.py::main", "redeclipse/upm.py::UnusedPositionManager.endcap", "redeclipse/upm.py::UnusedPositionManager._room_cap_debug"]}
{"id": "C78", "title": "Debug mode marks every open door", "statement": "When the generator ends in debug mode, the rooms are the placed rooms and one marker per open door. The cell each open door leads to is occupied by no room and holds a plate of 4 by 4 red blocks in the middle of its floor and a box of grenades above it; every other block and entity is one of the placed rooms, the input, or the sun. The file written can be read back with the same blocks and entities.", "quantifier": "all random streams, room distributions, numbers of rooms, mirror factors, textures and maps", "why_tests_cant": "All layouts; the marks must not overwrite rooms or each other.", "anchors": ["redeclipse/cli/magica_rooms.py::main", "redeclipse/upm.py::UnusedPositionManager.endcap", "redeclipse/prefabs/__init__.py::TestRoom.render"]}
{"id": "C79", "title": "Every doorway of a shipped room can be reached from every other one", "statement": "In a room made from a shipped voxel file, wherever it is placed and whichever way it faces, a body of 8 by 8 by 16 map units can move from each doorway to every other doorway through the empty space of the room. (False for the castle gate castle_gate_simple, stair and stair_toplatform, where some doorways are cut off from each other completely; true for all other classes, and in the castle gate for doorways of the same height.)", "quantifier": "all shipped classes, positions, orientations and pairs of doorways", "why_tests_cant": "Each pair of doorways needs a way through thousands of voxels, or a proof that there is none.", "anchors": ["redeclipse/prefabs/__init__.py::Room.get_doorways", "redeclipse/prefabs/magica.py", "redeclipse/prefabs/castle/__init__.py::castle_gate_simple"]}
{"id": "C80", "title": "Every doorway of a generated map can be reached from the first room", "statement": "In every generated map a body of 8 by 8 by 16 map units that starts at a doorway of the first room, or of one of its mirror images, can move through the empty space of the rooms to every doorway of every room, in the world and in the file that is written. (False: a lower doorway of the castle gate can be cut off from everything else. Every doorway can be reached from a doorway of a first room or of such a gate, so a map without such gates is connected to its first rooms.)", "quantifier": "all random streams, room distributions, numbers of rooms, mirror factors, options, colours and textures", "why_tests_cant": "All layouts; it needs facts about every shipped room, about the way rooms are attached, and that no room fills the space of another.", "anchors": ["redeclipse/cli/magica_rooms.py::main", "redeclipse/upm.py::UnusedPositionManager.place_rooms", "redeclipse/prefabs/__init__.py::Room.get_doorways", "redeclipse/prefabs/magica.py"]}
{"id": "C81", "title": "There is free space at every entity of a shipped room", "statement": "Wherever a room made from a shipped voxel file is placed and whichever way it faces, no light, flag, spawn point, weapon or pusher it adds is enclosed by the blocks of the room: one of the voxels that touch it is empty. (False: house_2x2x3 and gate put a light into the middle of their own blocks, in every position and orientation. True for all other classes.)", "quantifier": "all shipped classes, positions, orientations, light colours and maps", "why_tests_cant": "Needs the voxels around the turned position of each entity, for every class and orientation.", "anchors": ["redeclipse/prefabs/magica.py", "redeclipse/prefabs/egypt/__init__.py::house_2x2x3", "redeclipse/prefabs/egypt/__init__.py::gate"]}
{"id": "C82", "title": "The spawn points, weapons and flags of a shipped room can be reached from its doorways", "statement": "Wherever a room made from a shipped voxel file is placed and whichever way it faces, a body of 8 by 8 by 16 map units can move through the empty space of the room from each doorway to each spawn point, weapon and flag the room adds; at a spawn point or weapon it can stand on the very place.", "quantifier": "all shipped classes, positions, orientations and doorways", "why_tests_cant": "Each pair of a doorway and an entity needs a way through thousands of voxels, for every orientation.", "anchors": ["redeclipse/prefabs/magica.py", "redeclipse/prefabs/castle/__init__.py::castle_flag_room", "redeclipse/prefabs/spacestation/__init__.py::station_flagroom", "redeclipse/prefabs/original/__init__.py::spawn_room", "redeclipse/prefabs/spacestation/__init__.py::station_endcap"]}
{"id": "C83", "title": "Every spawn point and flag of a generated map can be reached from the first room", "statement": "In every generated map a body of 8 by 8 by 16 map units that starts at a doorway of the first room, or of one of its mirror images, can move through the empty space of the rooms to every spawn point, weapon and flag that was added, in the world and in the file that is written. (False: a spawn room attached to an upper doorway of the castle gate can be cut off. Each can be reached from a doorway of a first room or of a castle_gate_simple.)", "quantifier": "all random streams, room distributions, numbers of rooms, mirror factors, options, colours, textures and maps", "why_tests_cant": "All layouts; it joins the ways inside of every room with the way rooms are attached.", "anchors": ["redeclipse/cli/magica_rooms.py::main", "redeclipse/upm.py::UnusedPositionManager.place_rooms", "redeclipse/prefabs/magica.py"]}
{"id": "C84", "title": "The teams of a generated map can reach the flags of each other", "statement": "In every map generated with the flag option for two or four teams, something can move through the empty space of the rooms from each flag to every other. (False: for both numbers of teams there are runs after which no flag can be reached from any other one, not even by something of the size of a voxel. In a map without castle_gate_simple every doorway can be reached from some flag.)", "quantifier": "all random streams, room distributions, numbers of rooms, mirror factors, colours, textures and maps", "why_tests_cant": "Whether the mirrored halves meet depends on the whole sequence of random placements.", "anchors": ["redeclipse/cli/magica_rooms.py::main", "redeclipse/upm.py::UnusedPositionManager.place_rooms", "redeclipse/upm.py::UnusedPositionManager.register_room"]}
{"id": "C85", "title": "Every generated map has a spawn point", "statement": "Every map generated with at least 40 rooms requested has a spawn point. (False: for two and for four teams there are runs with more than 100 rooms and none. The spawn points added are exactly one in each spawn room.)", "quantifier": "all random streams, room distributions, numbers of rooms, mirror factors, colours, textures and maps", "why_tests_cant": "Depends on the random choice of every placed room.", "anchors": ["redeclipse/cli/magica_rooms.py::main", "redeclipse/prefabs/original/__init__.py::spawn_room"]}
{"id": "C86", "title": "Lights have the brightness and the saturation that were asked for", "statement": "The colour a position based light manager chooses for a position consists of three bytes, whatever the noise says: the greatest is int(255 * min(brightness, 1)) and the least is int(that * (1 - saturation)). The same holds for every light of a generated map.", "quantifier": "all positions, noise functions, brightnesses not below 0, saturations between 0 and 1, roundings of floats; all runs of the generator", "why_tests_cant": "The noise library gives any value, and a rounding error of one part in 2^53 could move a component across an integer.", "anchors": ["redeclipse/lighting/__init__.py::PositionBasedLightManager.hue", "redeclipse/cli/magica_rooms.py::main"]}
{"id": "C87", "title": "Every texture file that the configuration names is installed", "statement": "After a map is written every file that its configuration text names below hxr/textures has been copied into the installation directory. (False: the repository has no data/hxr/empty.png, so nothing is copied once a colour or a material of the primary theme is in use, and the copy ends with FileNotFoundError; two of the paper materials have no file either. True for the minecraft theme whatever materials are used, for the default theme, and for colours once that file is there.)", "quantifier": "all sequences of requests to the texture manager, all directory contents with that file", "why_tests_cant": "Which files are needed depends on every texture requested; the check needs the list of files in the repository.", "anchors": ["redeclipse/textures/__init__.py::TextureManager.copy_data", "redeclipse/textures/basetex.py::SimpleColourTex.files", "redeclipse/cli/__init__.py::output"]}
{"id": "C88", "title": "The map generator writes a map", "statement": "Every run of the map generator with a map output ends with a map file, a configuration and all texture files that it names. (False: in a copy of the repository every run, whatever its arguments, ends with FileNotFoundError before the map file is written. With data/hxr/empty.png in place every run writes all three.)", "quantifier": "all random streams, room distributions, numbers of rooms, mirror factors, flavours, colours and input maps", "why_tests_cant": "The failure depends on the files around the program; no test runs a generator to its output.", "anchors": ["redeclipse/cli/magica_rooms.py::main", "redeclipse/cli/__init__.py::output", "redeclipse/textures/__init__.py::TextureManager.copy_data"]}
{"id": "C89", "title": "The voxel file exported from a generated map shows the map", "statement": "With the option for a voxel file every run of the generator writes one that the readers of the program accept and that shows exactly the blocks of the rooms, each in its colour. (False in two ways: the loader of rooms, which expects 256 colours, rejects every such file; and a map with a block beyond 255 - such maps are generated - gives a file that cannot be read with any number of colours. The file is always written, and for all other maps the information tool reads it and finds exactly the blocks, in the colours of the room files as their class repaints them.)", "quantifier": "all random streams, room distributions, numbers of rooms, mirror factors, lights and input maps", "why_tests_cant": "The file depends on every random choice of the generator and on all room files; no test exports a generated map.", "anchors": ["redeclipse/cli/magica_rooms.py::main", "redeclipse/cli/__init__.py::output", "redeclipse/magicavoxel/writer.py::to_magicavoxel", "redeclipse/cli/magicavoxel_info.py::main"]}
{"id": "C90", "title": "The information tool prints what a voxel file contains", "statement": "From the text that the information tool prints for a voxel file a reader finds exactly the places with a voxel, all colours other than black with their numbers, and the extent of the model. (False for the extent: a least coordinate above 128 is printed as 128. The voxels, the colours, the greatest coordinates and all least coordinates up to 128 are right, and files with equal texts have voxels at the same places.)", "quantifier": "all files the tool can read, with 256 or 255 colours, whatever their voxels and colours", "why_tests_cant": "The text depends on every voxel of the file, over all sizes of models.", "anchors": ["redeclipse/cli/magicavoxel_info.py::main", "redeclipse/voxel/__init__.py::VoxelWorld.__init__"]}
{"id": "C91", "title": "The floors of doorways meet at the same height", "statement": "Every doorway of a shipped room has a whole floor one voxel above the bottom of its cell, so that a player passes between two rooms joined at doorways without a step. (False: seven classes have a doorway without such a floor. All doorways of all other classes have it, at every position and turn, and through two such doorways that face each other one passes on the level.)", "quantifier": "all shipped classes, positions and turns; all doorways", "why_tests_cant": "Depends on the voxel data of every room file in every turn and on how rooms are joined.", "anchors": ["redeclipse/prefabs/castle/__init__.py", "redeclipse/prefabs/dungeon/__init__.py", "redeclipse/prefabs/spacestation/__init__.py", "redeclipse/prefabs/magica.py"]}
{"id": "C92", "title": "Rooms can be crossed on foot", "statement": "In every shipped room a player on foot, who can only rise a little in one step and otherwise falls to the next block below, can go from every doorway to every other. (False: three classes cannot be crossed however high the steps, and castle_large needs steps of ten voxels, castle_gate eleven, station_tube_jumpX fifteen, station_tube3layered sixteen. For each class the height is exact: with it all doorways are joined, with less they are not; for all but nine it is zero.)", "quantifier": "all shipped classes, positions and turns; all heights of steps", "why_tests_cant": "A statement about all paths through the voxel data of each room, and about the absence of paths.", "anchors": ["redeclipse/prefabs/castle/__init__.py", "redeclipse/prefabs/egypt/__init__.py", "redeclipse/prefabs/spacestation/__init__.py", "redeclipse/prefabs/magica.py"]}
{"id": "C93", "title": "Generated maps can be crossed on foot", "statement": "In a generated map, and in the map file that is written, a player on foot whose steps are at most ten voxels high can reach every doorway from the first room or its mirror images. (False: there is a run without a divided gate after which a doorway cannot be reached. With steps of eleven voxels every doorway of every map can be reached on foot from one of the first rooms or of the divided gates.)", "quantifier": "all random streams, room distributions, numbers of rooms, mirror factors and input maps", "why_tests_cant": "A statement about all paths through the blocks of maps that depend on every random choice.", "anchors": ["redeclipse/cli/magica_rooms.py::main", "redeclipse/prefabs/magica.py", "redeclipse/cli/__init__.py::output", "redeclipse/prefabs/castle/__init__.py::castle_gate"]}
{"id": "C94", "title": "A slanted line joins its two ends", "statement": "A line that a room draws between two points is an unbroken row of voxels from the one to the other, whichever way the room faces. (False: a line may miss its end; one that keeps its world x, such as a column, is not drawn; one that loses x, such as every eastward line in a room turned to the west, raises KeyError. A line that gains x in the world and is steep in at most one of y and z, or equally steep in both, is unbroken, has the fewest possible voxels and stays within half a voxel of the straight line; every line that gains x stays that close.)", "quantifier": "all positions and turns of a room, all voxel offsets, all pairs of integer end points", "why_tests_cant": "Rounding along the line depends on both slopes for all lengths; no test calls the function.", "anchors": ["redeclipse/prefabs/construction_kit.py::line_points", "redeclipse/prefabs/construction_kit.py::ConstructionKitMixin.x_interpolate"]}
{"id": "C95", "title": "Maps can be generated from any readable map file, among them the empty maps of the repository", "statement": "Whatever map file a generated map is based on: if it can be read and written, says the right numbers of its variables and entities, and has room for the world, then generating ends without an exception and the file it writes has exactly the blocks of the rooms, the settings and entities of the base and what the rooms ask for. Each of the three empty maps in the repository is such a file, whatever follows its octree.", "quantifier": "all base map files, random streams, distributions, numbers of rooms, mirror factors and world sizes from 256", "why_tests_cant": "Universally quantified over files and random choices.", "anchors": ["redeclipse/cli/magica_rooms.py::main", "redeclipse/__init__.py::MapParser.read", "redeclipse/__init__.py::Map.write", "maps/empty-day.mpz", "maps/empty-night.mpz", "maps/empty2.mpz"]}
{"id": "C96", "title": "A written map has the sections its header announces", "statement": "If the header of a map that is written announces visibility data, light maps or a blend map, then they follow the octree. (False: reading drops them, writing keeps the announcements, so a map based on empty-day or empty2 announces a blend map that is not there. Nothing is ever written after the octree, and exactly the sections of the base map are announced, so the statement holds just for maps that announce none, such as empty-night and all maps generated from it.)", "quantifier": "all maps that can be written; all runs of the generator", "why_tests_cant": "Universally quantified over maps; the program itself never looks at what follows the octree.", "anchors": ["redeclipse/__init__.py::MapParser.read", "redeclipse/__init__.py::Map.write", "redeclipse/cli/magica_rooms.py::main", "maps/empty-day.mpz"]}
{"id": "C97", "title": "Entities and blocks of a generated map have the same scale", "statement": "In a generated map file, whose header says how many map units wide the world is, every entity that a room asks for is inside of the room as its blocks are drawn. (False: entities are placed at four map units per voxel whatever the header says. With a world of side 512 on a shipped empty map the flags are outside of their rooms. It holds whenever the header says four times the world size, as with the default size and the empty maps, and of the powers of two only then.)", "quantifier": "all random streams, distributions, numbers of rooms, mirror factors, base maps and world sizes from 256", "why_tests_cant": "Relates the binary coordinates of entities to the octree for all worlds and headers.", "anchors": ["redeclipse/cli/magica_rooms.py::main", "redeclipse/cli/__init__.py::output", "redeclipse/entities/__init__.py", "redeclipse/voxel/__init__.py::VoxelWorld.to_octree"]}
{"id": "C98", "title": "Every doorway of a generated map leads into a room", "statement": "In a generated map, the cell behind every doorway of every room, endcaps included, belongs to a room, so that no doorway opens into the void. (False, for every mirror factor: an endcap reaches one cell below the doorway it closes, so a doorway on the ground or right above another room is left open. All doorways of all generated maps that lead into the void are of these two kinds, or in the middle of a mirrored map, where nothing can be placed.)", "quantifier": "all random streams, room distributions, numbers of rooms and mirror factors, with and without flags", "why_tests_cant": "Depends on every random choice of the whole layout; quantifies over all doorways of all maps.", "anchors": ["redeclipse/cli/magica_rooms.py::main", "redeclipse/upm.py", "redeclipse/upm.py::UnusedPositionManager.endcap", "redeclipse/prefabs/castle/__init__.py::castle_wall_section_endcap"]}
{"id": "C99", "title": "The generator places as many rooms as were asked for", "statement": "Not counting the first room, its mirror images and endcaps, a generated map has the number of rooms that was asked for, rounded up to a multiple of the mirror factor. (False: however many are asked for, there is a run that ends with five rooms in all, because the only room with one doorway closed all others. When fewer rooms are placed, the map has no endcaps and no doorway outside of the middle of a mirrored map leads into the void.)", "quantifier": "all random streams, room distributions, numbers of rooms and mirror factors, with and without flags", "why_tests_cant": "Depends on every random choice of the whole layout, for all numbers of rooms.", "anchors": ["redeclipse/cli/magica_rooms.py::main", "redeclipse/upm.py", "redeclipse/upm.py::UnusedPositionManager.place_rooms"]}
{"id": "C100", "title": "The room test tool shows every room from all four sides, with all its doorways marked", "statement": "For every shipped room class the tool ends drawing without an exception, and its world has exactly the blocks of the room placed four times, each a quarter turn about the middle of the map from the one before, and a red plate of sixteen blocks with a box of grenades in the cell behind every doorway. Although the tool allows rooms to clash, nothing overlaps: the four rooms share no cell, no two doorways lead to one cell, none leads into a room, and all blocks are on the map.", "quantifier": "all shipped room classes, texture managers, maps and random streams", "why_tests_cant": "Relates the drawing of four turned rooms and their markers for all classes and all states of the shared texture manager.", "anchors": ["redeclipse/cli/magicavoxel_room_test.py::main", "redeclipse/upm.py", "redeclipse/upm.py::UnusedPositionManager.endcap", "redeclipse/prefabs/__init__.py::TestRoom"]}
{"id": "C101", "title": "The files of the room test tool show what was drawn", "statement": "For every list of shipped room classes, which share one texture manager, the tool writes for each class the files it is asked for. The voxel file, read back, has a voxel exactly where the test of the class has a block, in the same colour. The map file, read back, has the settings and entities of the base map, exactly the blocks of the test, the entities of the four rooms, a box of grenades for each doorway, and a sun.", "quantifier": "all lists of shipped room classes, all base maps that fit, all texture managers with room left, both options", "why_tests_cant": "Quantifies over all orders and repetitions of classes, with texture numbers that depend on the classes drawn before.", "anchors": ["redeclipse/cli/magicavoxel_room_test.py::main", "redeclipse/magicavoxel/writer.py", "redeclipse/__init__.py::Map.write", "redeclipse/textures/__init__.py::TextureManager"]}
{"id": "C102", "title": "The sum and the scalar product of two integer vectors do not depend on their order", "statement": "For any two ivec3, whose components may be floats, a.add(b) and b.add(a) have the same components and a.dot(b) equals b.dot(a). (False: only the components of the first vector are cut to whole numbers. For vectors whose components are whole numbers addition commutes and associates, sub undoes add, dot commutes and distributes over add, and the difference of two vectors is zero exactly if they have the same components. sub cuts both vectors always.)", "quantifier": "all ivec3 with any finite components", "why_tests_cant": "Algebraic laws over all pairs and triples of vectors.", "anchors": ["redeclipse/vector/re.py::ivec3.add", "redeclipse/vector/re.py::ivec3.dot", "redeclipse/vector/re.py::ivec3.sub", "redeclipse/vector/re.py::ivec3.iszero"]}
{"id": "C103", "title": "The cross product of integer vectors is perpendicular, antisymmetric and vanishes only on a line", "statement": "For ivec3 with whole components, cross(a, b) is perpendicular to a and b, changes its sign when the vectors are exchanged, its squared length is that of a times that of b less the square of the scalar product, and it is zero exactly if one line through the origin contains both vectors.", "quantifier": "all pairs of ivec3 with whole components", "why_tests_cant": "Algebraic laws over all pairs of vectors.", "anchors": ["redeclipse/vector/re.py::cross", "redeclipse/vector/re.py::ivec3.dot", "redeclipse/vector/re.py::ivec3.iszero"]}
{"id": "C104", "title": "Octant corners, masks and shifts of integer vectors take space apart without gap or overlap", "statement": "The corners that ivec3.ivec5 gives for the octants 0 to 7 of a cube split it into eight cubes so that every point of the cube is in exactly one. For a cube at the origin whose side is a power of two, the corner of the octant of a point plus the point masked with the half side less one is the point. For every vector, also with negative components, and every k, the components divided by 2^k and rounded down, shifted left by k, plus the vector masked with 2^k - 1 is the vector.", "quantifier": "all corners, positive sides, points, vectors and shift counts", "why_tests_cant": "Bit arithmetic over all integers, negative ones included.", "anchors": ["redeclipse/vector/re.py::ivec3.ivec5", "redeclipse/vector/re.py::ivec3.mask", "redeclipse/vector/re.py::ivec3.shl"]}
{"id": "C105", "title": "The entities of a generated map stand at different places", "statement": "In a generated map no two of the entities that were added (the sun, lights, spawn points, flags) have the same coordinates. (False, for every mirror factor: the simple gates and the smaller endcaps put lights outside of their rooms, where another light may be. In the map file, read back, entities that share a place are always two lights of different rooms, one of which is of these two classes; flags, spawn points and the sun share their places with nothing. Of every shipped class, in use or not, the entities of one room are at different places.)", "quantifier": "all random streams, room distributions, numbers of rooms, mirror factors, base maps that fit, hues and world sizes from 256, with and without flags", "why_tests_cant": "Relates the coordinates of all pairs of entities of all rooms of all maps, read from the file.", "anchors": ["redeclipse/cli/magica_rooms.py::main", "redeclipse/cli/__init__.py::output", "redeclipse/entities/__init__.py", "redeclipse/prefabs/castle/__init__.py", "redeclipse/lighting/__init__.py::LightManager.light"]}
{"id": "C106", "title": "A map with a sky can be read back", "statement": "A map to which a sky was attached is written, and the file reads back as that map. (False for every map: the path of the sky's images is written right behind the header, where the reader expects the first variable. For a map with at least one variable, whatever the sky, reading raises struct.error, unless the file is longer than 796031080 bytes. For a map without variables the letters hx are taken for the length of the texture history, 30824. Apart from the inserted path, which ends in a zero byte, the file is the one written without a sky.)", "quantifier": "all well-formed maps, all names of skies", "why_tests_cant": "The claim is about every map and every name of a sky.", "anchors": ["redeclipse/__init__.py::Map.skybox", "redeclipse/__init__.py::Map.write", "redeclipse/__init__.py::MapParser.read", "redeclipse/skybox/__init__.py::Skybox.get_short_path"]}
{"id": "C107", "title": "A sky installs the images that a map names", "statement": "When a sky has been made, the game's data directory has the files it had and, under the path that is written into a map with this sky, the images of its six sides, and nothing else. Making a sky fails exactly if an image is missing, and then with FileNotFoundError; no file of the game is lost. The two skies that come with the program are complete; the base class has no images and cannot be made.", "quantifier": "all basenames, contents of the module's directory and of the game's directory", "why_tests_cant": "Quantifies over all directories and names.", "anchors": ["redeclipse/skybox/__init__.py::Skybox.__init__", "redeclipse/skybox/__init__.py::Skybox.get_files", "redeclipse/skybox/__init__.py::Skybox.get_short_path"]}
{"id": "C108", "title": "The rainbow texture manager paints in 64 pure hues, whatever is asked for", "statement": "Every call of get_colour or get_c of the rainbow manager returns the number of a texture with one of 64 fully saturated and bright colours, evenly spread over the colour circle in exact 32nds; no other texture is ever added by these calls, so a palette always fits and can be written into a voxel file. Which colour or category was asked for has no influence. get_c uses two random values, the first of which does not matter. Two of the 65 random values mean red, each other one a colour of its own.", "quantifier": "all sequences of calls and all random streams", "why_tests_cant": "Concerns all sequences of calls and all outcomes of the random numbers, with floats computed exactly.", "anchors": ["redeclipse/textures/__init__.py::RainbowPukeTextureManager.get_colour", "redeclipse/textures/__init__.py::RainbowPukeTextureManager.get_c"]}
{"id": "C109", "title": "A texture manager can give a random texture", "statement": "random() of any texture manager returns the number of a texture. (False: for all managers but the Minecraft one every call, at any time and with any random value, raises KeyError and leaves the manager unchanged. For the Minecraft one it always returns the number of one of five textures.)", "quantifier": "all managers of the program, all requests made before, all random streams", "why_tests_cant": "Concerns every state of every manager and all random values.", "anchors": ["redeclipse/textures/__init__.py::TextureManager.random"]}
{"id": "C110", "title": "A map that the comparison tool cannot rewrite is left alone", "statement": "The comparison tool (iso: read a map, write it) leaves every file as it was when it fails, also when it is asked to rewrite a map in place. (False: a file that is not a map is left alone, but for every map that can be read and not be written — a merged cube, a large reserved byte, a changed texture slot — the output file is replaced by one that can no longer be read, so that a map rewritten in place is lost. A map that can be written is written, reads back as the same map, no other file is touched, and a second run reproduces the file byte for byte.)", "quantifier": "all files and file names, equal or not; in the refuted part all readable maps with a correct variable count and no cube of unknown kind that the writer rejects", "why_tests_cant": "Concerns every readable map the writer rejects, and the bytes written before it stops.", "anchors": ["redeclipse/cli/iso.py::main", "redeclipse/__init__.py::Map.write", "redeclipse/__init__.py::MapParser.read"]}
{"id": "C111", "title": "A run of the map generator that fails keeps the map that was there", "statement": "If the map generator fails, the map that was in the output file before is still there. (False: the output file is emptied while the command line is read. With the same file as input and output every run, whatever its arguments, empties it and fails. In a copy of the repository, where every run fails, no run leaves a map in the output file. Whatever the arguments and texture files, a run that fails once the command line is read leaves in the output file no map or only what the writer had written when it raised. With the missing texture image in place a run with different files writes map and configuration and touches no other file.)", "quantifier": "all arguments, random streams, files and file names", "why_tests_cant": "Concerns every run, including its effect on existing files.", "anchors": ["redeclipse/cli/magica_rooms.py::main", "redeclipse/cli/__init__.py::output", "redeclipse/cli/__init__.py::output_args"]}
{"id": "C112", "title": "The programs rooms and vector_test write a map", "statement": "The programs cli/rooms.py and cli/vector_test.py write a map to their output file. (False: no run does. The first iterates over the result of register_room, which is None, and ends with TypeError; the second uses a room that its module does not have and ends with AttributeError. Each leaves the output file empty, whatever it held, and touches no other file.)", "quantifier": "all files and file names", "why_tests_cant": "Concerns every input map and output file.", "anchors": ["redeclipse/cli/rooms.py::main", "redeclipse/cli/vector_test.py::main", "redeclipse/upm.py::UnusedPositionManager.register_room"]}
{"id": "C113", "title": "The terrain programs can be run on a map in place", "statement": "cli/perlin.py and cli/snow_forest.py replace the terrain of the map they read, also when input and output are the same file: the output has the columns of the noise and everything else of the input, no other file is touched, and a second run with the same noise and draws reproduces the file byte for byte; if a run fails, every file stays as it was. (True when the input is missing or no map, for snow_forest with a tree, spawn point or rock, which fails, and for every readable map with a correct variable count, a large enough header, reserved bytes below 128 and no changed texture slot. False for all other maps with such counts and headers: the output becomes a file that cannot be read.)", "quantifier": "all noise functions within -1 and 1, all random draws, all files and file names, equal or not", "why_tests_cant": "Concerns every readable map, every noise and what is left on the disc after a failure.", "anchors": ["redeclipse/cli/perlin.py::main", "redeclipse/cli/snow_forest.py::main", "redeclipse/__init__.py::Map.write"]}
{"id": "C114", "title": "A map taken to JSON and back is a map file", "statement": "from_json, given what to_json says of a well-formed map, writes a file that is a map again. (False for every map: with any entity it fails and every file stays as it was; without entities it succeeds, but the output file, whatever it held, is replaced by one that cannot be read. No other file is touched.)", "quantifier": "all well-formed maps that to_json accepts, all discs and file names", "why_tests_cant": "Concerns every map and what is left on the disc.", "anchors": ["redeclipse/cli/from_json.py::main", "redeclipse/cli/to_json.py::main", "redeclipse/__init__.py::Map.from_dict"]}
{"id": "C115", "title": "A run in debug mode leaves a map in the output file", "statement": "In debug mode every run of the map generator leaves a map with a marker at each open door in the output file. (False: if two open doors lead to one cell the run fails, the output file is left empty whatever it held, and no other file is touched; otherwise, in a copy of the repository, the run fails after writing the configuration and leaves no map. With the missing texture image in place every run of the second kind leaves a map that has exactly the blocks of the rooms and of the markers, and the configuration, and touches no other file.)", "quantifier": "all random streams, room counts, mirror factors, maps, flavours and file names; both layouts with and without clashing doors", "why_tests_cant": "Concerns every layout the generator can produce and what is left on the disc.", "anchors": ["redeclipse/cli/magica_rooms.py::main", "redeclipse/upm.py::UnusedPositionManager.endcap", "redeclipse/cli/__init__.py::output"]}
{"id": "C116", "title": "The voxel file exported in debug mode shows the rooms and the markers", "statement": "With the options for debug mode and for a voxel file every run of the generator that ends writes a file that the readers of the program accept and that shows exactly the blocks of the rooms, each in its colour, and a red plate for each open door. (False in two ways: the loader of rooms rejects every such file; and a block or a plate beyond 255 makes the file unreadable with any number of colours - for some runs only the plates reach beyond, so that debug mode alone spoils the file. The file is always written, and in all other cases the information tool reads it and finds exactly the blocks and the plates.)", "quantifier": "all random streams, room distributions, numbers of rooms, mirror factors, lights and input maps; all layouts without clashing doors", "why_tests_cant": "The file depends on every random choice of the generator and on all room files; no test runs debug mode or exports a generated map.", "anchors": ["redeclipse/cli/magica_rooms.py::main", "redeclipse/cli/__init__.py::output", "redeclipse/magicavoxel/writer.py::to_magicavoxel", "redeclipse/prefabs/__init__.py::TestRoom"]}
{"id": "C117", "title": "A vector is read like the tuple of its coordinates", "statement": "Indexing, iterating and measuring a vector answer as the tuple of its coordinates does, and equal vectors are read as equal tuples. (False: an index from the end, or beyond it, raises a plain Exception where a tuple answers or raises IndexError; and a coarse and a fine vector that are equal give different tuples, hence different keys of a world. Otherwise true: iteration gives the three coordinates, items from 0 on are those of the iteration, and vectors of one class are equal exactly when their items are.)", "quantifier": "all vectors of all three classes with whole and half coordinates, all indices", "why_tests_cant": "Ranges over all coordinates, indices and pairs of classes; the disagreement of equality and tuples shows for no pair of one class.", "anchors": ["redeclipse/vector/__init__.py::BaseVector.__getitem__", "redeclipse/vector/__init__.py::BaseVector.__iter__", "redeclipse/vector/__init__.py::BaseVector.__len__"]}
{"id": "C118", "title": "Every direction has a name, its own", "statement": "Each direction constant has its own name. (False: only the four coarse compass directions have one; up, down, the own position and all fine directions have none. The four names are given to exactly the vectors, coarse or fine, that point one cell in that direction.)", "quantifier": "all vectors of all three classes", "why_tests_cant": "Which vectors have a name depends on equality across classes, for all coordinates.", "anchors": ["redeclipse/vector/orientations.py::n"]}
{"id": "C119", "title": "A cube can be given an extension for any number of vertices", "statement": "Asking a cube for an extension that holds a number of vertices succeeds and keeps the surfaces the cube has. (False: if the cube has a smaller extension the call raises TypeError, always; and an extension asked for with initial values can neither be filled nor be written. True for the calls of the map reader: a new cube gets an extension that, filled, is written surface by surface; and a large enough extension is kept.)", "quantifier": "all extensions, numbers of vertices, surfaces and masks", "why_tests_cant": "The only call in the program never grows an extension; a test of it shows nothing of the other cases.", "anchors": ["redeclipse/objects.py::cube.newcubeext", "redeclipse/objects.py::cubext.__init__", "redeclipse/__init__.py::MapParser._loadc"]}
{"id": "C120", "title": "What is printed of a vector or of a room tells which one it is", "statement": "Two vectors with the same printed form are of the same class and have the same coordinates, of the same kind of number (int or float); two rooms pointing in one of the four directions, whose names hold no colon, with the same printed form have the same name, direction and position. Every vector of ints, or of floats below 10^16, has a printed form. The converse does not hold: equal vectors may be printed differently, as 3 and 3.0 are.", "quantifier": "all vectors with int or half-integer float coordinates, all room names without a colon, all positions and the four directions", "why_tests_cant": "Printed forms are compared in logs for arbitrary positions; a test shows single texts, not that no two positions share one.", "anchors": ["redeclipse/vector/__init__.py::BaseVector.__repr__", "redeclipse/vector/__init__.py::FineVector.__repr__", "redeclipse/vector/__init__.py::CoarseVector.__repr__", "redeclipse/prefabs/magica.py::MagicaRoom.__repr__"]}
{"id": "C121", "title": "A map can be generated from every map that can be read", "statement": "Given any map file that can be read as input, with a correct variable count and a header size that holds the world, and another file as output, a run of the map generator (not in debug mode, with the missing texture image in place) writes a map with the blocks of the rooms and nothing of the old octree, the old entities followed by the sun and those of the rooms, and the old settings; only the output and its configuration are touched. (False for every input with a reserved byte from 128 on or a changed texture slot: each run fails, and the output file is replaced by one that cannot be read. True for all others, whatever octree they have.)", "quantifier": "all readable maps of at most 2^30 entities, all random streams, distributions, room counts, mirror factors, flavours, discs and file names", "why_tests_cant": "Concerns every map the reader accepts, including those the writer rejects, and every random stream.", "anchors": ["redeclipse/cli/magica_rooms.py::main", "redeclipse/cli/__init__.py::output", "redeclipse/__init__.py::Map.write"]}
{"id": "C122", "title": "Each output of the map generator is written, whatever else is asked for", "statement": "A run of the map generator writes each of map (--mpz_out), voxel file (--magica) and graph (--graph) that it is asked for. (False: in a copy of the repository every run that is asked for a map fails while copying textures; its voxel file is complete, there is no map, and the graph file is left empty, although the same run without --mpz_out writes the graph. With the missing texture image in place every combination is written, for readable maps without large reserved bytes and changed texture slots.)", "quantifier": "all combinations of outputs, random streams, distributions, room counts, mirror factors, flavours, readable maps, discs and file names", "why_tests_cant": "Concerns every run and every combination of outputs, including which files are complete when a run fails.", "anchors": ["redeclipse/cli/__init__.py::output", "redeclipse/cli/__init__.py::output_args", "redeclipse/cli/magica_rooms.py::main"]}
{"id": "C123", "title": "A light has the hue of the noise at its place", "statement": "A light has the hue of the noise colour at its position: with the noise components not all equal, the greatest becomes the brightness, the least the brightness less the saturation, and the one between keeps its share of the distance (each cut to an int). Where the three components are equal, as at every position where the noise is 0, the light is red, not grey. Rounding of floats shifts each component by at most 2^-31 before the cut.", "quantifier": "all noise functions, scales, brightnesses from 0 on, saturations from 0 to 1, positions and roundings that keep order and ints and are as fine as that of floats", "why_tests_cant": "The six cases of the colour wheel and their borders hold for every noise value; a test shows single colours.", "anchors": ["redeclipse/lighting/__init__.py::PositionBasedLightManager.hue"]}
{"id": "C124", "title": "A light of a generated map has the colour for the place it stands at", "statement": "Every light that a run of the map generator adds, in either mode, has the colour the light manager gives for the very place at which the light stands in the map (after centring and turning); with the manager of the program this is the hue of the noise at that place.", "quantifier": "all random streams, distributions, room counts, mirror options, modes, positions and directions of rooms, noise functions, brightnesses from 0 on and saturations from 0 to 1", "why_tests_cant": "Position and colour are computed along different paths (rotation, centring, scaling to the map); only for all rooms and directions do they agree always.", "anchors": ["redeclipse/lighting/__init__.py::LightManager.light", "redeclipse/lighting/__init__.py::LightManager.get_light", "redeclipse/lighting/__init__.py::PositionBasedLightManager.hue", "redeclipse/cli/magica_rooms.py::main"]}
