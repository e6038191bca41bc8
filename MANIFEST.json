{"claims": [
  {"property": "C01", "status": "proved", "theorems": ["C01_equality_equivalence", "C01_equality_meaning"], "note": "Equality of all three vector classes is an equivalence relation with the stated meaning."},
  {"property": "C02", "status": "partial", "theorems": ["C02_hash_same_class_partial", "C02_hash_equal_vectors_refuted"], "note": "REFUTED across classes: a coarse and a fine vector can be equal with different hashes. Proved within one class."},
  {"property": "C03", "status": "partial", "theorems": ["C03_order_same_class_partial", "C03_order_lexicographic", "C03_order_across_classes_refuted"], "note": "REFUTED across classes (raw coordinates are compared). Strict total order within one class proved."},
  {"property": "C04", "status": "proved", "theorems": ["C04_add_sub_inverse", "C04_sub_meaning", "C04_add_class", "C04_plain_vectors"], "note": "Addition and subtraction invert each other on fine positions; result classes and rejected mixes covered."},
  {"property": "C05", "status": "proved", "theorems": ["C05_coarse_fine_roundtrip", "C05_fine_to_coarse_cell"], "note": "Coarse/fine conversion round-trips, floor to the containing cell."},
  {"property": "C06", "status": "proved", "theorems": ["C06_rotate_exact", "C06_rotate_composes", "C06_full_circle", "C06_rotate_isometry", "C06_rotate_by_compass", "C06_rotate_additive", "C06_compass_constants"], "note": "Quarter-turn rotation is exact, a group action and an isometry."},
  {"property": "C07", "status": "proved", "theorems": ["C07_rotate_float_exact", "C07_rotate_model_is_float"], "note": "Binary64 rounding model: floats computed by cos/sin within the stated error round to the exact value."},
  {"property": "C08", "status": "proved", "theorems": ["C08_offset_rotate_exact", "C08_offset_rotate_centre_fixed", "C08_offset_rotate_composes", "C08_offset_rotate_isometry", "C08_tile_rotation_stays_in_tile"], "note": "offset_rotate is exact rotation about the centre; tiles map onto tiles."},
  {"property": "C09", "status": "proved", "theorems": ["C09_yaw_compass", "C09_yaw_rejects_others", "C09_yaw_follows_rotation", "C09_vector_rotation"], "note": "Yaw angles follow compass directions and rotation; other inputs rejected."},
  {"property": "C10", "status": "proved", "theorems": ["C10_world_is_finite_map", "C10_world_entries"], "note": "Refinement of the voxel dictionary to a finite map for all histories."},
  {"property": "C11", "status": "proved", "theorems": ["C11_bounds_exact", "C11_bounds_enclose", "C11_bounds_widen"], "note": "Bounds exact, enclosing and only widening, for all histories."},
  {"property": "C12", "status": "proved", "theorems": ["C12_octree_faithful"], "note": "Octree lookup equals voxel lookup for every world of size 2^k, k>=1."},
  {"property": "C13", "status": "proved", "theorems": ["C13_octree_minimal", "C13_no_hollow_nodes"], "note": "Shape part is in C12_octree_faithful (root list of eight, eight children, voxels at full depth); C13_no_hollow_nodes shows every inner node holds a voxel."},
  {"property": "C14", "status": "partial", "theorems": ["C14_any_size_refuted", "C14_outside_refuted", "C14_integer_positions_only", "C14_size_one_refuted", "C14_size_zero_refuted"], "note": "REFUTED: voxels are lost in worlds whose size is not a power of two, outside the cube and at fractional positions; size 1 gives no list, size 0 never terminates. What holds is C12."},
  {"property": "C15", "status": "proved", "theorems": ["C15_write_read"], "note": "All well-formed maps, any octree depth; the file is consumed exactly."},
  {"property": "C16", "status": "proved", "theorems": ["C16_rewrite_idempotent"], "note": "For every accepted byte string whose variable count matches the kept variables (no duplicate names)."},
  {"property": "C17", "status": "partial", "theorems": ["C17_every_readable_map_writable_refuted", "C17_writable_partial"], "note": "REFUTED: merged flag, reserved bytes >= 128, changed slots and unknown cube kinds are read but not written. The exact writable set is characterised."},
  {"property": "C18", "status": "proved", "theorems": ["C18_truncated_rejected"], "note": "Every proper prefix of a written file is rejected."},
  {"property": "C19", "status": "proved", "theorems": ["C19_reader_total", "C19_trailing_ignored"], "note": "Reader model runs on fuel one above the input length and never exhausts it; left-to-right and trailing bytes ignored. Python's recursion limit is not modelled."},
  {"property": "C20", "status": "partial", "theorems": ["C20_counts", "C20_edits_kept", "C20_variable_count_refuted", "C20_skybox_refuted", "C20_duplicate_names_refuted"], "note": "Entity count proved for all edit sequences. REFUTED for variables: SetVar, skybox and duplicate names give unreadable files."},
  {"property": "C21", "status": "partial", "theorems": ["C21_output_faithful_partial", "C21_first_octant_empty_refuted"], "note": "Proved when the first octant holds a voxel and the side is at least 4; REFUTED in every other case, the file is unreadable."},
  {"property": "C22", "status": "partial", "theorems": ["C22_entity_roundtrip", "C22_constructors_scaled", "C22_constructors_raw_partial", "C22_sunlight_raw_partial", "C22_coarse_position_refuted", "C22_team_one_refuted", "C22_fractional_attr_refuted"], "note": "Round trip proved for every well-formed entity and all constructors with in-range integer attributes. REFUTED: team-1 player starts, fractional attributes; coarse positions are not scaled by some constructors."},
  {"property": "C23", "status": "proved", "theorems": ["C23_rooms_disjoint"], "note": "All histories of registrations, links, placements (any options, fuel, random stream) and endcaps in which no call raises; the occupied map is characterised exactly. A raising registration can leave an overlapping room listed (C25)."},
  {"property": "C24", "status": "proved", "theorems": ["C24_precheck"], "note": "All states and rooms, mirror 1, 2 or 4. Pre-registration is a pure function of the state in the model, so it changes nothing by construction."},
  {"property": "C25", "status": "partial", "theorems": ["C25_atomic_refuted", "C25_atomic_partial"], "note": "REFUTED: the clashing image is appended before the check and earlier images stay. The partial theorem gives the exact state after a failure."},
  {"property": "C26", "status": "proved", "theorems": ["C26_open_doors_usable", "C26_open_doors_complete"], "note": "Soundness for all histories, also with caught exceptions; completeness for histories without exceptions."},
  {"property": "C27", "status": "proved", "theorems": ["C27_half_turn_symmetry", "C27_quarter_turn_symmetry"], "note": "All histories without endcaps (endcaps are not mirrored); cells, classes, flags, cell lists and doors of the images."},
  {"property": "C28", "status": "partial", "theorems": ["C28_joined_refuted", "C28_joined_partial"], "note": "REFUTED for classes whose doors depend on drawn flags (NLongCorridor). Proved for every history whose offered classes have flag independent, horizontal doors on their cells."},
  {"property": "C29", "status": "proved", "theorems": ["C29_placement_total"], "note": "Total correctness: for every random stream there is a fuel bound beyond which placement returns, without exception, with the stated count. The hypothesis on flags is what register_room and preregister_room establish for reachable states."},
  {"property": "C30", "status": "proved", "theorems": ["C30_placement_trace", "C30_discarded_doors", "C30_generated"], "note": "The run is a trace of justified steps, and discarded doors stay useless until the end of the call; for classes whose layout depends on random flags the statement is about the flags drawn. In generated maps only doorways to the middle of mirrored maps are ever discarded (C30_generated)."},
  {"property": "C31", "status": "proved", "theorems": ["C31_stream_permutation", "C31_stream_each_once"], "note": "Any positive weights, any random stream."},
  {"property": "C32", "status": "proved", "theorems": ["C32_weighted_choice", "C32_always_some"], "note": "Weights as rationals; float rounding of the cumulative sums is not modelled."},
  {"property": "C33", "status": "partial", "theorems": ["C33_endcap", "C33_endcap_debug_refuted", "C33_endcap_debug_partial", "C33_endcap_complete"], "note": "Proved without debug, from any state; a door is left open only if no endcap fits (C33_endcap_complete). REFUTED with debug: duplicate open door cells raise; it raises exactly then."},
  {"property": "C34", "status": "partial", "theorems": ["C34_inside_refuted", "C34_world_refuted", "C34_inside_partial", "C34_cells_in_world_partial"], "note": "REFUTED twice: cells of placed rooms can be illegal, and legal cells with coordinate 32 lie outside the 256 world. Proved: doors of placed rooms are legal, rooms enclosed by their doors stay in the box, and exactly the cells 0..31 lie in the world."},
  {"property": "C35", "status": "proved", "theorems": ["C35_links"], "note": "All histories without endcaps and hand-made links."},
  {"property": "C36", "status": "proved", "theorems": ["C36_prism_exact_box", "C36_prism_each_once"], "note": "Any integer sizes (also negative); subtraction and probabilities included; distinctness of the generated points."},
  {"property": "C37", "status": "proved", "theorems": ["C37_floor_in_tile", "C37_ceiling_in_tile", "C37_wall_side", "C37_low_wall_side", "C37_other_face_nothing", "C37_ring_in_tile"], "note": "Sizes and heights 0..8; exact sets for size 8, walls and low walls; offset at any height for floors and rings."},
  {"property": "C38", "status": "proved", "theorems": ["C38_cells_move_rigidly", "C38_doors_move_rigidly", "C38_distances_kept", "C38_distinct_kept", "C38_doors_stay_adjacent"], "note": "Vector-level get_positions/get_doorways for every list of cells and doors, every coarse position (int or float) and compass orientation."},
  {"property": "C39", "status": "partial", "theorems": ["C39_draws_exactly_the_model_partial", "C39_cells_of_the_voxels_partial", "C39_shifted_room_refuted"], "note": "REFUTED for rooms with a nonzero boundary_additions shift not facing east: self._off is rotated once in the constructor and again when drawn (no shipped class sets boundary_additions). Proved for all models, positions and orientations when the shift is zero or the room faces east."},
  {"property": "C40", "status": "proved", "theorems": ["C40_order_does_not_matter", "C40_each_room_as_drawn"], "note": "Any list of voxel-model rooms reporting disjoint cells (unshifted or facing east), any permutation, any starting world."},
  {"property": "C41", "status": "partial", "theorems": ["C41_doors_usable", "C41_drawing_inside_partial", "C41_tall_ring_room_inside_partial", "C41_test_room_refuted", "C41_ring_room_refuted"], "note": "Doors: proved for all 20 classes and all flags. Drawing: REFUTED for TestRoom2 (floor in the east cell, ring above) and for the low ImposingRingRoom (carves one layer into the cells above); proved for the other 18 classes and the tall ImposingRingRoom."},
  {"property": "C42", "status": "proved", "theorems": ["C42_decay_only_removes", "C42_growth_only_adds", "C42_decay_exact", "C42_growth_exact"], "note": "Full."},
  {"property": "C43", "status": "partial", "theorems": ["C43_box_exact_partial", "C43_outline_exact_partial", "C43_grid_exact", "C43_box_with_height_refuted"], "note": "REFUTED for the box with a height below the world size (no top face, C43_box_with_height_refuted); exact set theorems for box, outline and grid otherwise. The grid theorem needs an int world height and a non-zero spacing."},
  {"property": "C44", "status": "partial", "theorems": ["C44_top_layer_refuted", "C44_room_world_refuted", "C44_lower_layers_partial"], "note": "REFUTED: the top layer is never touched; every world with a voxel room drawn above the ground is rejected with TypeError. Layers below the top of a world with int height are all processed."},
  {"property": "C45", "status": "proved", "theorems": ["C45_linear_in_unit_interval", "C45_linear_ends", "C45_linear_monotone", "C45_quadratic_in_unit_interval", "C45_quadratic_monotone", "C45_complementary", "C45_exponential_in_unit_interval", "C45_exponential_monotone"], "note": "Over exact rationals in place of floats (C45 monotonicity of the quadratic gradient for heights >= 0)."},
  {"property": "C46", "status": "proved", "theorems": ["C46_numbers_in_order", "C46_no_repeats", "C46_stable", "C46_distinct", "C46_unknown_rejected", "C46_configuration_matches", "C46_category_fixed", "C46_int_and_float_colours_apart"], "note": "Names and colours; a colour given with integers and the same colour given with floats are different names (C46_int_and_float_colours_apart), so they are numbered apart."},
  {"property": "C47", "status": "partial", "theorems": ["C47_reader_accepts_refuted", "C47_contents_partial", "C47_info_tool_partial", "C47_colour_below_partial", "C47_colour_refuted", "C47_colour_of_next_texture", "C47_colour_bytes_kept", "C47_outside_refuted"], "note": "REFUTED: the exported palette has 255 entries and the reader wants 256; colours come out shifted by one; a voxel outside 0..255 is skipped while being counted. Proved instead: for worlds inside 0..255 the file read with a shorter palette has exactly one voxel per cell with its texture number plus one and a palette listing the textures; what colour results; how the information tool reads it."},
  {"property": "C48", "status": "partial", "theorems": ["C48_symmetric", "C48_castle_symmetric", "C48_positive", "C48_total", "C48_class_partial", "C48_class_refuted", "C48_streams_complete"], "note": "REFUTED for the per-class table of the mirrored distribution. Proved: symmetry (any consistent mirrored table, and the castle table unconditionally), positivity, totality on the declared types, agreement of the per-class table where it has an entry and everywhere without mirroring, completeness of candidate streams for all shipped distributions."},
  {"property": "C49", "status": "partial", "theorems": ["C49_roundtrip_partial", "C49_utf8_only", "C49_text_faithful", "C49_entities_refuted", "C49_entities_typeerror", "C49_player_start_refuted", "C49_surface_refuted", "C49_file_refuted", "C49_text", "C49_made_weapon_refuted"], "note": "REFUTED: the octree is dropped, any entity makes the conversion back raise (TypeError for entities as read from a file), a map with a player start, with a weapon made by the weapon classes or with a cube lacking a surface cannot be converted at all, and the file written from the text is the original without its octree, which the reader rejects. Proved: without entities everything but the octree comes back, the text determines the whole map except for the merged-faces bytes, and says every field under its name (kinds, attributes, weapons, faces)."},
  {"property": "C50", "status": "partial", "theorems": ["C50_position", "C50_others", "C50_written", "C50_default_size_refuted", "C50_autocenter_refuted"], "note": "REFUTED: a default manager (side 128) places lights at eight map units per voxel while every other entity uses four, and a call without automatic centring always raises UnboundLocalError. Proved: for every manager the light stands in the middle of its tile at 1024/size units per voxel (four for size 256), the other entities are unchanged, and the saved map has it there."},
  {"property": "C51", "status": "proved", "theorems": ["C51_shared_corners", "C51_range", "C51_new_cube", "C51_new_cube_winding", "C51_no_face", "C51_opposite"], "note": "Every edge array of twelve bytes and every face: the three faces meeting in a corner compute the same vertex, all components lie in 0..15, an undeformed cube yields the corners of the full cube with consistent winding, and a seventh face yields nothing."},
  {"property": "C52", "status": "partial", "theorems": ["C52_defaults_refuted", "C52_runs_partial"], "note": "REFUTED as stated: without a mirror option every run raises AttributeError. Proved: with factor 1, 2 or 4 and not in debug mode every run ends without an exception."},
  {"property": "C53", "status": "proved", "theorems": ["C53_constructions_rigid", "C53_frame_isometry"], "note": "line_points/x_interpolate (marked broken in the source) are not modelled."},
  {"property": "C54", "status": "proved", "theorems": ["C54_endcap_fills_open_cells"], "note": "Full."},
  {"property": "C55", "status": "partial", "theorems": ["C55_minecraft_paper_primary_partial", "C55_default_theme_partial", "C55_default_theme_refuted", "C55_other_category_refuted"], "note": "REFUTED for the default theme (tex8 and tex115 do not exist) and for other categories (a name is returned); proved for the minecraft, paper and primary themes and for the column, wall and accent categories of the default theme."},
  {"property": "C56", "status": "partial", "theorems": ["C56_statements_partial", "C56_one_slot_each_partial", "C56_statements_refuted"], "note": "REFUTED for tables with a coloured bump mapped texture (default theme); proved for all other tables."},
  {"property": "C57", "status": "partial", "theorems": ["C57_separate_files_partial", "C57_separate_files_refuted"], "note": "REFUTED for names without .mpz; proved exactly otherwise."},
  {"property": "C58", "status": "partial", "theorems": ["C58_declared_sizes_refuted", "C58_model_size_partial", "C58_model_size_refuted"], "note": "REFUTED: for every world the declared content size is 8 bytes too small and the palette is 1020 bytes instead of 1024; the model size is the largest coordinate instead of a count. Proved instead: the declared model size bounds every voxel coordinate."},
  {"property": "C59", "status": "partial", "theorems": ["C59_files_refuted", "C59_files_partial", "C59_classes"], "note": "REFUTED: egypt/water_square.vox raises on reading. Partial theorem: every other shipped file; C59_classes covers the files of all classes."},
  {"property": "C60", "status": "proved", "theorems": ["C60_reserved"], "note": "All 45 classes that read a voxel file."},
  {"property": "C61", "status": "partial", "theorems": ["C61_doors_refuted", "C61_doors_partial"], "note": "REFUTED for egypt stair and stair_toplatform. Partial theorem: all other classes."},
  {"property": "C62", "status": "partial", "theorems": ["C62_entities_refuted", "C62_entities_partial"], "note": "REFUTED for five classes. Partial theorem: all other classes. Light colours are an arbitrary function of the position."},
  {"property": "C63", "status": "proved", "theorems": ["C63_drawing", "C63_distinct"], "note": "Texture managers after any requests; the random probability is never used by cubes (prob 1.1)."},
  {"property": "C64", "status": "proved", "theorems": ["C64_flags", "C64_teams"], "note": "Both flag rooms."},
  {"property": "C65", "status": "proved", "theorems": ["C65_map_file"], "note": "For a known mirror factor, not in debug mode. Vectors of rooms, hue of the lights and rounding of probabilities are arbitrary; the atlas of the texture manager has at most 57000 entries and the input at most 2^30 entities."},
  {"property": "C66", "status": "proved", "theorems": ["C66_flags"], "note": ""},
  {"property": "C67", "status": "partial", "theorems": ["C67_graph_refuted", "C67_graph_partial"], "note": "REFUTED: ends are looked up among occupied cells; rooms that do not occupy their own position give None or another room. Proved: the nodes are exactly the rooms (and None), one exported link per recorded link, and each end is right if the room occupies its position."},
  {"property": "C68", "status": "partial", "theorems": ["C68_any_size_refuted", "C68_bounds_partial", "C68_large_partial", "C68_inside_refuted", "C68_kept_partial"], "note": "REFUTED at the default size, and at every size by a run whose rooms reach below the ground (C68_any_size_refuted). Proved: blocks lie within 0..263, 0..263, -8..271 in every run; from size 512 on every block not below the ground is in the file; at any size a room all of whose cells are inside is wholly in the file."},
  {"property": "C69", "status": "partial", "theorems": ["C69_fair_refuted", "C69_rooms_partial"], "note": "REFUTED: endcaps are chosen per door and not mirrored (C69_fair_refuted, one run of 60 rooms computed in Coq). Proved: every room that does not close a door has a turned counterpart for each team, with equal blocks, textures (team colour aside) and entities; blocks outside the coordinates of the map are lost (C68)."},
  {"property": "C70", "status": "partial", "theorems": ["C70_two_teams_refuted", "C70_four_teams_partial"], "note": "REFUTED for every run with mirror factor 2: the flags belong to teams 3 and 4. Proved: with factor 4 the teams are 3, 1, 4, 2."},
  {"property": "C71", "status": "proved", "theorems": ["C71_map_and_config"], "note": "End to end: generator, map writer, parser, texture manager and configuration text."},
  {"property": "C72", "status": "proved", "theorems": ["C72_flavours", "C72_no_flavours"], "note": "Names outside of the list of choices are rejected by argparse."},
  {"property": "C73", "status": "proved", "theorems": ["C73_columns", "C73_no_floating"], "note": "Arithmetic on noise values is exact (rounding of q + 4 is not modelled)."},
  {"property": "C74", "status": "partial", "theorems": ["C74_features_refuted", "C74_ground_partial"], "note": "REFUTED: TypeError for every noise with a feature. Proved: the ground otherwise."},
  {"property": "C75", "status": "partial", "theorems": ["C75_inside_refuted", "C75_inside_partial"], "note": "REFUTED: C75_inside_refuted gives the classes, orientations and flags with an entity outside; C75_inside_partial is the exact condition."},
  {"property": "C76", "status": "proved", "theorems": ["C76_entities", "C76_all_classes"], "note": "The right entities in number, kind, attributes and place for every built-in class; C76_all_classes shows none is missing."},
  {"property": "C77", "status": "partial", "theorems": ["C77_debug_refuted", "C77_debug_partial", "C77_plain_partial"], "note": "REFUTED: two open doors that lead to one cell make debug mode raise (C77_debug_refuted). C77_debug_partial says exactly when; C77_plain_partial: without debug mode this is the generator of C52 and C65."},
  {"property": "C78", "status": "proved", "theorems": ["C78_markers", "C78_file"], "note": "Marker rooms of debug mode: layout, blocks and entities (C78_markers), and the written file (C78_file)."},
  {"property": "C79", "status": "partial", "theorems": ["C79_connected_refuted", "C79_connected_partial", "C79_gate_partial"], "note": "REFUTED: castle_gate_simple, stair and stair_toplatform have doorways that are cut off from each other. All other classes are proved connected, and the doorways of equal height in the castle gate."},
  {"property": "C80", "status": "partial", "theorems": ["C80_reach_refuted", "C80_reach_partial", "C80_no_gate_partial", "C80_file_partial"], "note": "REFUTED: a map with a castle gate can have doorways that are cut off from the first room. Proved: every doorway is reached from a doorway of a first room or of such a gate, in the world and in the file; without such gates the full statement holds in the world."},
  {"property": "C81", "status": "partial", "theorems": ["C81_space_refuted", "C81_space_partial"], "note": "REFUTED: house_2x2x3 and gate (prefabs/egypt) put a light into the middle of their own blocks, at every position and for every turn (C81_space_refuted). All other classes leave an empty voxel at every entity (C81_space_partial)."},
  {"property": "C82", "status": "proved", "theorems": ["C82_ways"], "note": "All shipped classes, all doorways, all three places of a doorway."},
  {"property": "C83", "status": "partial", "theorems": ["C83_entities_refuted", "C83_entities_partial", "C83_file_partial"], "note": "REFUTED: there is a run with a spawn point that nothing leads to from the first room (C83_entities_refuted); the spawn room hangs on an upper doorway of castle_gate_simple. All spawn points and flags can be reached from a doorway of a first room or of a castle_gate_simple, in the world (C83_entities_partial) and in the file (C83_file_partial)."},
  {"property": "C84", "status": "partial", "theorems": ["C84_flags_refuted", "C84_flags_partial"], "note": "REFUTED for two and four teams: there are runs after which all flags are apart from each other (C84_flags_refuted). Without castle_gate_simple every doorway can be reached from some flag (C84_flags_partial)."},
  {"property": "C85", "status": "partial", "theorems": ["C85_spawn_refuted", "C85_spawn_partial"], "note": "REFUTED for two and four teams: there are runs with more than 100 rooms and no spawn point (C85_spawn_refuted). The spawn points are one in each spawn room and no other (C85_spawn_partial)."},
  {"property": "C86", "status": "proved", "theorems": ["C86_hue", "C86_bytes", "C86_map"], "note": "For every rounding that keeps the order and the integers; C86_bytes discharges the hypothesis byte_hues of the theorems about map files."},
  {"property": "C87", "status": "partial", "theorems": ["C87_install_refuted", "C87_primary_refuted", "C87_paper_refuted", "C87_minecraft_partial", "C87_colours_partial", "C87_default_partial"], "note": "REFUTED: data/hxr/empty.png is not in the repository (colours, primary theme), nor are two of the paper files. Proved for the minecraft and default themes, and for colours once the file is there."},
  {"property": "C88", "status": "partial", "theorems": ["C88_map_written_refuted", "C88_map_written_partial"], "note": "REFUTED: no run writes a map, the missing texture file stops the output. Proved with that file in place."},
  {"property": "C89", "status": "partial", "theorems": ["C89_export_partial", "C89_unreadable_refuted", "C89_beyond", "C89_loader_refuted"], "note": "REFUTED: the loader of rooms rejects every exported file (C89_loader_refuted) and a run whose map has blocks beyond 255 gives a file no reader accepts (C89_unreadable_refuted; C89_beyond for every such map). Proved: the file is always written and, if all blocks are below 256, read by the information tool it shows exactly the blocks of the rooms in their colours (C89_export_partial)."},
  {"property": "C90", "status": "partial", "theorems": ["C90_picture_partial", "C90_extent_partial", "C90_extent_refuted", "C90_same"], "note": "REFUTED for the extent: for a file with one voxel at 200, 200, 130 the least coordinates are printed as 128 (C90_extent_refuted). Proved: marks exactly at the voxels and lines for exactly the non-black colours (C90_picture_partial), the greatest coordinates and least coordinates up to 128 (C90_extent_partial), equal texts mean equal places (C90_same)."},
  {"property": "C91", "status": "partial", "theorems": ["C91_level_refuted", "C91_level_partial", "C91_passes"], "note": "REFUTED for seven classes at every position and turn; proved for all doorways of all other classes, with the level passage between two that face each other"},
  {"property": "C92", "status": "partial", "theorems": ["C92_divided_refuted", "C92_crossing_partial", "C92_steps_refuted"], "note": "REFUTED: three classes cannot be crossed and nine need steps; exact height proved for every class, position and turn"},
  {"property": "C93", "status": "partial", "theorems": ["C93_foot_refuted", "C93_foot_partial", "C93_file_partial"], "note": "REFUTED for ten voxels by a run of the generator; proved for eleven, in the world and in the written file, from one of the first rooms or divided gates"},
  {"property": "C94", "status": "partial", "theorems": ["C94_line_refuted", "C94_line_partial", "C94_forward_close", "C94_level_nothing", "C94_backward_raises"], "note": "REFUTED: a line may miss its end, is not drawn when it keeps its world x, and raises KeyError when it loses x. Proved: lines that gain x and are steep in at most one of y and z (or equally in both) are unbroken, minimal and within half a voxel; exactly when nothing is drawn and when it raises"},
  {"property": "C95", "status": "proved", "theorems": ["C95_base_file", "C95_empty_maps"], "note": "Composition of the reader (C19), the criterion of writable maps and C65. The three empty maps are read inside Coq up to the end of their octrees; trailing bytes are arbitrary."},
  {"property": "C96", "status": "partial", "theorems": ["C96_sections_refuted", "C96_sections_partial", "C96_runs", "C96_empty_maps"], "note": "REFUTED: empty-day announces a blend map that is lost on rewriting. Partial: exactly the announcements of the map value are written, nothing after the octree; the same for all runs of the generator."},
  {"property": "C97", "status": "partial", "theorems": ["C97_scale_refuted", "C97_scale_partial", "C97_flag_iff"], "note": "REFUTED: world size 512 on an empty map (header 1024). Partial: holds when the header says four times the size; for powers of two the first flag is in its room iff so."},
  {"property": "C98", "status": "partial", "theorems": ["C98_void_refuted", "C98_void_partial"], "note": "REFUTED for every mirror factor (C98_void_refuted, runs of 30 rooms computed in Coq). Proved: every doorway of every generated map leads into a room, is on the ground, is right above a room, or leads to a middle cell of a mirrored map; rests on C33_endcap_complete (a door is left open only if no endcap fits) and C30_generated (no other doorway is ever discarded)."},
  {"property": "C99", "status": "partial", "theorems": ["C99_count_refuted", "C99_count_partial"], "note": "REFUTED for every number of rooms from 5 on (C99_count_refuted). Proved: the exact count, or else no endcap and no doorway into the void outside of the middle."},
  {"property": "C100", "status": "proved", "theorems": ["C100_test", "C100_apart"], "note": "For all 45 shipped classes, not only the seven that the tool lists."},
  {"property": "C101", "status": "proved", "theorems": ["C101_files"], "note": "For all lists of shipped classes; needs a map header of at least 256 for the map file, and at most 200 textures in use before for the voxel file."},
  {"property": "C102", "status": "partial", "theorems": ["C102_order_refuted", "C102_order_partial", "C102_sub_partial", "C102_cut_partial"], "note": "REFUTED: with fractional components the order matters, as only the first vector is cut; for whole components all the laws hold."},
  {"property": "C103", "status": "proved", "theorems": ["C103_cross"], "note": "cross of vector/re.py for all vectors with whole components."},
  {"property": "C104", "status": "proved", "theorems": ["C104_octants", "C104_path", "C104_shift"], "note": "Octants tile the cube; mask and shl split every vector."},
  {"property": "C105", "status": "partial", "theorems": ["C105_apart_refuted", "C105_apart_partial", "C105_others_partial", "C105_room_partial"], "note": "REFUTED for every mirror factor by runs with two lights at one place. Proved: in the file only lights share places, and one of the two is of a room that puts lights outside (castle_gate_simple, castle_wall_section_endcap); entities of one room never, for all 45 classes."},
  {"property": "C106", "status": "partial", "theorems": ["C106_sky_refuted", "C106_inserted_partial", "C106_history_partial"], "note": "REFUTED: no map with a variable to which a sky was attached can be read back (universal theorem, not only a witness). The partial theorems say what the file is and what happens for maps without variables."},
  {"property": "C107", "status": "proved", "theorems": ["C107_installed", "C107_complete", "C107_shipped"], "note": "Directories are lists of file names; copying never fails for other reasons than a missing image."},
  {"property": "C108", "status": "proved", "theorems": ["C108_answers", "C108_bounded", "C108_palette", "C108_blind", "C108_two_draws", "C108_red_twice"], "note": "Floats are binary64 numbers (SpecFloat), computed exactly."},
  {"property": "C109", "status": "partial", "theorems": ["C109_random_refuted", "C109_minecraft_partial"], "note": "REFUTED: only the Minecraft manager knows the five names; in all others every call raises KeyError (universal)."},
  {"property": "C110", "status": "partial", "theorems": ["C110_left_alone_refuted", "C110_unreadable_partial", "C110_rewritten_partial", "C110_writers_agree"], "note": "REFUTED for every readable map with a correct variable count and without unknown cube kinds that the writer rejects: the output cannot be read any more. Unreadable input leaves everything alone; a writable map is rewritten, no other file is touched, and a second run reproduces it. With an unknown kind in the last cube the file is complete although the tool fails (example)."},
  {"property": "C111", "status": "partial", "theorems": ["C111_never_kept_refuted", "C111_in_place_refuted", "C111_failed_run_refuted", "C111_good_run_partial"], "note": "REFUTED: in place for every run and all arguments; with the repository's texture files for every run (non debug); no failing run with any arguments keeps the old file (C111_never_kept_refuted). Proved with the missing image in place: map and configuration are written, nothing else is touched."},
  {"property": "C112", "status": "partial", "theorems": ["C112_rooms_refuted", "C112_vector_test_refuted"], "note": "REFUTED for every run: TypeError or AttributeError, and the output file is left empty."},
  {"property": "C113", "status": "partial", "theorems": ["C113_lost_refuted", "C113_perlin_partial", "C113_snow_partial", "C113_snow_untouched", "C113_no_map_untouched"], "note": "REFUTED for maps with a reserved byte from 128 on or a changed texture slot: the output cannot be read any more (perlin, every noise). Proved for all other readable maps with a correct variable count, in place as well; a second run reproduces the file."},
  {"property": "C114", "status": "partial", "theorems": ["C114_back_refuted"], "note": "REFUTED for every well-formed map that to_json accepts: rejected with all files untouched, or an unreadable output file."},
  {"property": "C115", "status": "partial", "theorems": ["C115_clash_refuted", "C115_missing_refuted", "C115_written_partial"], "note": "REFUTED for every layout with two open doors that lead to one cell, and with the repository's texture files for every other one. Proved with the missing image in place."},
  {"property": "C116", "status": "partial", "theorems": ["C116_export_partial", "C116_unreadable_refuted", "C116_beyond", "C116_loader_refuted"], "note": "REFUTED: the loader of rooms rejects every such file (C116_loader_refuted) and a plate or block beyond 255 makes it unreadable, in some runs only because of the plates (C116_unreadable_refuted; C116_beyond for every such map). Proved: the file is always written and, if all blocks and plates are below 256, the information tool finds exactly them in their colours (C116_export_partial)."},
  {"property": "C117", "status": "partial", "theorems": ["C117_items_partial", "C117_equal_partial", "C117_equal_refuted", "C117_outside_refuted"], "note": "REFUTED: equal vectors of two classes have different items (C117_equal_refuted); every index below 0 or from 3 on raises a plain Exception (C117_outside_refuted). Proved for all other indices and for vectors of one class."},
  {"property": "C118", "status": "partial", "theorems": ["C118_named_partial", "C118_unnamed_refuted"], "note": "REFUTED: nine named constants have no name (C118_unnamed_refuted). Proved: which vectors have which name."},
  {"property": "C119", "status": "partial", "theorems": ["C119_fresh_partial", "C119_kept_partial", "C119_grow_refuted", "C119_initial_refuted"], "note": "REFUTED: growing an extension always raises (C119_grow_refuted) and one with initial values is unusable (C119_initial_refuted). Proved for new cubes as the reader makes them and for extensions that are large enough."},
  {"property": "C120", "status": "proved", "theorems": ["C120_printed", "C120_order", "C120_vector", "C120_room", "C120_equal"], "note": "Distinct vectors (class, number kind, coordinates) have distinct printed forms; so have rooms with colonless names and one of the four directions. Floats below 10^16 only."},
  {"property": "C121", "status": "partial", "theorems": ["C121_base_refuted", "C121_base_partial"], "note": "REFUTED for every readable input with a reserved byte from 128 on or a changed texture slot (C121_base_refuted, universal). Proved for all other readable inputs (C121_base_partial); not in debug mode, with the missing image in place."},
  {"property": "C122", "status": "partial", "theorems": ["C122_outputs_refuted", "C122_outputs_partial"], "note": "REFUTED for every run with the repository's texture files (C122_outputs_refuted, universal): with the map asked for the graph file stays empty. Proved with the missing image in place (C122_outputs_partial). Not in debug mode."},
  {"property": "C123", "status": "proved", "theorems": ["C123_hue", "C123_grey", "C123_exact", "C123_exact_grey"], "note": "For every rounding that keeps order and ints and moves no number of up to 256 by more than 2^-44 (binary64 does); also for exact arithmetic."},
  {"property": "C124", "status": "proved", "theorems": ["C124_place", "C124_hue"], "note": "For every run that ends, in either mode; C124_hue with the rounding of C123."}
]}
