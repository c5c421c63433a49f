{
 "claims": [
  {
   "property": "C01",
   "status": "proved",
   "theorems": [
    "C01_cache_byte_budget"
   ],
   "note": "Also shows that no call panics in either profile under the guard."
  },
  {
   "property": "C02",
   "status": "proved",
   "theorems": [
    "C02_used_bytes_exact",
    "C02_used_bytes_never_low",
    "C02_used_bytes_overcount",
    "C02_reinsert_refuted"
   ],
   "note": "Exact under the miss-then-insert discipline; the refutation shows the discipline is needed: re-inserting a cached key leaves phantom bytes for ever."
  },
  {
   "property": "C03",
   "status": "proved",
   "theorems": [
    "C03_get_returns_last_inserted",
    "C03_get_after_insert",
    "C03_get_retains"
   ],
   "note": ""
  },
  {
   "property": "C04",
   "status": "proved",
   "theorems": [
    "C04_retained_are_most_recently_used"
   ],
   "note": ""
  },
  {
   "property": "C05",
   "status": "partial",
   "theorems": [
    "C05_oversized_refuted",
    "C05_oversized_debug_panics",
    "C05_oversized_release_exceeds_budget"
   ],
   "note": "False of the code: debug builds panic, release builds evict everything and exceed the budget; both proved for all states."
  },
  {
   "property": "C06",
   "status": "partial",
   "theorems": [
    "C06_minimal_eviction_partial",
    "C06_exact_fit_refuted"
   ],
   "note": "Minimality holds for the strict bound only; an exact fit evicts needlessly (>= instead of >)."
  },
  {
   "property": "C07",
   "status": "proved",
   "theorems": [
    "C07_shrink_takes_effect",
    "C07_shrink_never_panics",
    "C07_zero_capacity_stores_nothing"
   ],
   "note": ""
  },
  {
   "property": "C08",
   "status": "proved",
   "theorems": [
    "C08_counters"
   ],
   "note": ""
  },
  {
   "property": "C09",
   "status": "proved",
   "theorems": [
    "C09_intersection_exact",
    "C09_intersection_well_formed",
    "C09_combine_contains",
    "C09_combine_least",
    "C09_centre",
    "C09_combine_empty_refuted",
    "C09_centre_refuted"
   ],
   "note": "C09_combine_empty_refuted shows why leastness needs non-empty boxes; C09_centre_refuted that the centre of a box at negative coordinates can lie outside of it."
  },
  {
   "property": "C10",
   "status": "proved",
   "theorems": [
    "C10_iteration_exact",
    "C10_iteration_raster_order",
    "C10_iteration_no_duplicates",
    "C10_iteration_count",
    "C10_area",
    "C10_iterators_stop",
    "C10_inverted_rows_run_away"
   ],
   "note": "C10_inverted_rows_run_away: an inverted box makes the rows iterator run for about 2^64 steps, so well-formedness is needed."
  },
  {
   "property": "C11",
   "status": "proved",
   "theorems": [
    "C11_index_of_pixel",
    "C11_index_sign",
    "C11_pixels_inside_buffer",
    "C11_pixels_disjoint",
    "C11_get_xy_owner",
    "C11_overflow_refuted"
   ],
   "note": "The refutation shows the overflow guard is needed in release builds."
  },
  {
   "property": "C12",
   "status": "proved",
   "theorems": [
    "C12_crop_exact",
    "C12_pixel_val_injective"
   ],
   "note": "Every pixel type, both profiles; coordinates within +-2^30 and buffers below 2^31 elements."
  },
  {
   "property": "C13",
   "status": "proved",
   "theorems": [
    "C13_crop_of_crop",
    "C13_crop_identity",
    "C13_crop_of_crop_general"
   ],
   "note": ""
  },
  {
   "property": "C14",
   "status": "partial",
   "theorems": [
    "C14_crop_options_partial",
    "C14_black_outside_always_panics",
    "C14_crop_options_refuted",
    "C14_intersect_ignored"
   ],
   "note": "False of the code: black_outside panics for every image and window (proved); the other option combinations are correct."
  },
  {
   "property": "C15",
   "status": "proved",
   "theorems": [
    "C15_resize"
   ],
   "note": ""
  },
  {
   "property": "C16",
   "status": "proved",
   "theorems": [
    "C16_u8_via_f32",
    "C16_u8_via_u16",
    "C16_u16_via_f32",
    "C16_half_via_f32",
    "C16_pointwise",
    "C16_results_in_range",
    "C16_u8_to_u16_exact",
    "C16_half_refuted"
   ],
   "note": "Exhaustive kernel computation over the whole value range of the format, lifted to buffers of any length. C16_half_refuted: 8-bit values do not survive half floats (outside the property)."
  },
  {
   "property": "C17",
   "status": "partial",
   "theorems": [
    "C17_pixel_buffer_u8_partial",
    "C17_pixel_buffer_truncated",
    "C17_pixel_buffer_refuted"
   ],
   "note": "False of the code except for 8-bit images: the buffer has one byte per element."
  },
  {
   "property": "C18",
   "status": "proved",
   "theorems": [
    "C18_size_bytes",
    "C18_channel_sizes"
   ],
   "note": ""
  },
  {
   "property": "C19",
   "status": "partial",
   "theorems": [
    "C19_row_column_partial",
    "C19_from_position",
    "C19_row_square_partial",
    "C19_row_refuted",
    "C19_row_slice_exact",
    "C19_row_operator_refuted",
    "C19_row_operator_partial"
   ],
   "note": "False of the code: row() divides by the height, column() counts elements; exact results given for all blocks."
  },
  {
   "property": "C20",
   "status": "proved",
   "theorems": [
    "C20_sample_rgba",
    "C20_sample_rgb",
    "C20_empty",
    "C20_two_channels_refuted"
   ],
   "note": ""
  },
  {
   "property": "C21",
   "status": "proved",
   "theorems": [
    "C21_merge",
    "C21_over_outside_a",
    "C21_over_opaque_a",
    "C21_add_outside_b",
    "C21_multiply_outside",
    "C21_uninitialized",
    "C21_wrong_type",
    "C21_opaque_infinite_refuted",
    "C21_rgb_foreground_refuted",
    "C21_one_channel_refuted"
   ],
   "note": "Refutations delimit the statement: an RGB image counts as transparent, infinities leak through an opaque foreground, one-channel images are out of scope of the code."
  },
  {
   "property": "C22",
   "status": "proved",
   "theorems": [
    "C22_found_iff_added",
    "C22_identity",
    "C22_write_seen",
    "C22_write_local",
    "C22_structural_calls_keep_nodes",
    "C22_execute_touches_upstream_only",
    "C22_execute_keeps_attributes",
    "C22_add_never_panics",
    "C22_connect_never_panics",
    "C22_reachable_well_formed",
    "C22_duplicate_id_refuted"
   ],
   "note": "C22_duplicate_id_refuted shows why ids must be distinct."
  },
  {
   "property": "C23",
   "status": "partial",
   "theorems": [
    "C23_connections_removed_partial",
    "C23_removed_node_still_exists",
    "C23_adding_after_removal_panics",
    "C23_connecting_removed_panics",
    "C23_removed_node_vacant",
    "C23_executing_removed",
    "C23_remove_refuted"
   ],
   "note": "False of the code: the removed node still exists, and after any removal every later add_node panics (proved for all histories). Only the disconnection part holds. Executing the removed node aborts unless a node created later still exists (C23_executing_removed)."
  },
  {
   "property": "C24",
   "status": "partial",
   "theorems": [
    "C24_connect_partial",
    "C24_exclusive_if_most_recent",
    "C24_slot_exclusive_refuted",
    "C24_other_slot_kept_refuted"
   ],
   "note": "False of the code in general: only the most recent run of edges is disconnected. Exact effect of connect given for all graphs."
  },
  {
   "property": "C25",
   "status": "proved",
   "theorems": [
    "C25_inputs_in_slot_order",
    "C25_input_list_determined",
    "C25_insertion_sort_sorts"
   ],
   "note": "For every sorting function."
  },
  {
   "property": "C26",
   "status": "proved",
   "theorems": [
    "C26_traversal"
   ],
   "note": ""
  },
  {
   "property": "C27",
   "status": "partial",
   "theorems": [
    "C27_panics_iff_partial",
    "C27_shortcut_panics",
    "C27_level_graphs_do_not_panic",
    "C27_acyclic_no_crash_refuted",
    "C27_same_graph_other_slots"
   ],
   "note": "False of the code: acyclic graphs with inputs reachable over paths of different length can panic. The exact condition is proved."
  },
  {
   "property": "C28",
   "status": "proved",
   "theorems": [
    "C28_level_graph_meaning",
    "C28_tree_meaning",
    "C28_meaning_unique",
    "C28_shared_mode_refuted"
   ],
   "note": "For operations that depend only on their inputs; the refutation shows that mode-dependent operations need a tree."
  },
  {
   "property": "C29",
   "status": "proved",
   "theorems": [
    "C29_execute_terminates",
    "C29_cycle_detected"
   ],
   "note": ""
  },
  {
   "property": "C30",
   "status": "proved",
   "theorems": [
    "C30_state_step",
    "C30_execute_status",
    "C30_uninitialized_iff_empty",
    "C30_clean_is_up_to_date"
   ],
   "note": ""
  },
  {
   "property": "C31",
   "status": "proved",
   "theorems": [
    "C31_stops_at_first_failure",
    "C31_success_covers_prefixes",
    "C31_failure_keeps_state"
   ],
   "note": ""
  },
  {
   "property": "C32",
   "status": "proved",
   "theorems": [
    "C32_reads_follow_history",
    "C32_write_read_back",
    "C32_write_no_leak",
    "C32_attr_exists",
    "C32_float_bits",
    "C32_operators",
    "C32_carried",
    "C32_told",
    "C32_fresh"
   ],
   "note": "Also for the colour operation and the deformers that nodes build from their attributes: these carry the node's values (C32_carried)."
  },
  {
   "property": "C33",
   "status": "proved",
   "theorems": [
    "C33_unknown_read",
    "C33_unknown_write",
    "C33_unknown_write_graph",
    "C33_unknown_node"
   ],
   "note": ""
  },
  {
   "property": "C34",
   "status": "partial",
   "theorems": [
    "C34_key_determines_settings_partial",
    "C34_key_determines_type",
    "C34_key_exists",
    "C34_read_enable_two_refuted",
    "C34_unprocessed_refuted"
   ],
   "note": "Proved for all node types but lens distortion (C36), counting the parameters of unprocessed grade channels as without influence. Missing: C34_unprocessed_refuted shows that such parameters leak into the picture as NaN though they are not part of the key. The refutation shows why enabled nodes are compared: a Read node with enable = 2 reads its file but its key ignores the path."
  },
  {
   "property": "C35",
   "status": "proved",
   "theorems": [
    "C35_decode_injective",
    "C35_values_fit",
    "C35_bytes_injective"
   ],
   "note": ""
  },
  {
   "property": "C36",
   "status": "partial",
   "theorems": [
    "C36_direction_not_in_key",
    "C36_lens_key_partial",
    "C36_refuted"
   ],
   "note": "False of the code: the direction is not hashed. Every other setting is part of the key."
  },
  {
   "property": "C37",
   "status": "partial",
   "theorems": [
    "C37_warm_equals_cold_partial",
    "C37_crop_refuted",
    "C37_viewer_refuted",
    "C37_resample_refuted",
    "C37_refuted"
   ],
   "note": "False of the code in general: a cache hit leaves pending colour operations (crop, viewer) on the stream and turns a failed resample into a valid one. Proved for inputs without such pending operations."
  },
  {
   "property": "C38",
   "status": "partial",
   "theorems": [
    "C38_one_mode_per_input",
    "C38_subset",
    "C38_unread_inputs_partial",
    "C38_reads",
    "C38_panics_iff",
    "C38_viewer",
    "C38_read_refuted",
    "C38_disabled_viewer_refuted"
   ],
   "note": "Read nodes ask an input they never use, and disabled viewers ask for everything; all other parts are proved for every node."
  },
  {
   "property": "C39",
   "status": "proved",
   "theorems": [
    "C39_frame_padding",
    "C39_run_exists",
    "C39_no_padding",
    "C39_never_panics",
    "C39_frames_distinct",
    "C39_frames_sorted"
   ],
   "note": "For every shell expansion function."
  },
  {
   "property": "C40",
   "status": "partial",
   "theorems": [
    "C40_long_padding_refuted",
    "C40_refuted"
   ],
   "note": "False of the code: with ten or more '#' the frame number is dropped for every path and frame (proved)."
  },
  {
   "property": "C41",
   "status": "proved",
   "theorems": [
    "C41_data_type",
    "C41_bake_option",
    "C41_merge_mode",
    "C41_lens_direction",
    "C41_orientation",
    "C41_disk_cache_type",
    "C41_crop_on_write",
    "C41_jpeg_sampling",
    "C41_exr_compression"
   ],
   "note": ""
  },
  {
   "property": "C42",
   "status": "partial",
   "theorems": [
    "C42_factor_always_one_refuted",
    "C42_setting_ignored_refuted",
    "C42_refuted",
    "C42_full_partial",
    "C42_whole_memory",
    "C42_more_than_all_refuted"
   ],
   "note": "False of the code: the factor is 1 for every setting, so the capacity is all of the memory up to one part in 2^24 (C42_whole_memory), possibly more than all of it."
  },
  {
   "property": "C43",
   "status": "proved",
   "theorems": [
    "C43_triangles",
    "C43_wire_lines",
    "C43_border_lines",
    "C43_sizes",
    "C43_zero_divisions_refuted",
    "C43_index_overflow_refuted"
   ],
   "note": "For every plane whose indexes fit u32; the refutations show what happens outside."
  },
  {
   "property": "C44",
   "status": "partial",
   "theorems": [
    "C44_names_run_together",
    "C44_key_refuted",
    "C44_shared_key_answer",
    "C44_wrong_table_refuted",
    "C44_key_partial",
    "C44_tables_correct"
   ],
   "note": "False of the code: the names are hashed without delimiters, so a 'To:' inside a name lets two conversions share a key and get each other's table. Proved for source names without a colon: keys are injective, and every request over any history (with no collisions among the finitely many byte strings hashed) of the shared cache (tables, nodes, evictions) is answered with the right table."
  },
  {
   "property": "C45",
   "status": "partial",
   "theorems": [
    "C45_identity_cube",
    "C45_large_cubes_partial",
    "C45_extra_row_refuted",
    "C45_too_large_refuted",
    "C45_single_refuted",
    "C45_conversion_table"
   ],
   "note": "Proved with an error bound of 3 * 2^-24 per value. False for 19 sizes from 413 on: the rounded division adds a black row. Sizes of 895 and more panic, size 1 is NaN."
  },
  {
   "property": "C46",
   "status": "partial",
   "theorems": [
    "C46_centre_refuted",
    "C46_vertical_refuted",
    "C46_vertical_extent_ignored",
    "C46_centre_ignored"
   ],
   "note": "False of the code: the rotation centre has no effect on the result and the vertical translation is scaled by the horizontal extent; both proved for all inputs."
  },
  {
   "property": "C47",
   "status": "partial",
   "theorems": [
    "C47_grade_channels_partial",
    "C47_refuted"
   ],
   "note": "Proved whenever the graded value is finite; false otherwise: an infinite graded value times a zero flag turns an unprocessed channel into NaN."
  },
  {
   "property": "C48",
   "status": "partial",
   "theorems": [
    "C48_consumes",
    "C48_order_rgba",
    "C48_order_rgb",
    "C48_order_alpha",
    "C48_spaces_rgba",
    "C48_spaces_rgb",
    "C48_second_bake_partial",
    "C48_second_bake_refuted",
    "C48_failed_conversion",
    "C48_failed_conversion_refuted"
   ],
   "note": "Consumption and order are proved for all streams; a second bake changes nothing for finite pixels only: an infinite channel turns the others into NaN. Order is also proved between any two colour spaces and types (C48_spaces); if the colour library fails, the picture is passed on unconverted under the target's name (C48_failed_conversion)."
  },
  {
   "property": "C49",
   "status": "partial",
   "theorems": [
    "C49_merge_placement_partial",
    "C49_merge_uses_unbaked_window",
    "C49_refuted"
   ],
   "note": "False of the code: the background is placed at the window it had before the bake (proved for all inputs). Right if the bake does not move the window."
  },
  {
   "property": "C50",
   "status": "partial",
   "theorems": [
    "C50_refuted",
    "C50_writer_outcome_ignored",
    "C50_library_failure_hidden"
   ],
   "note": "False of the code: status and stream do not depend on the writer at all (proved for every writer), and the C++ side reports success whatever becomes of the file once a plug-in for it is found."
  },
  {
   "property": "C51",
   "status": "proved",
   "theorems": [
    "C51_release_agrees_with_debug"
   ],
   "note": ""
  },
  {
   "property": "C52",
   "status": "partial",
   "theorems": [
    "C52_trees_compute_once_partial",
    "C52_exponential_refuted"
   ],
   "note": "False of the code: one computation per path, exponential on a ladder of shared inputs. Holds for trees."
  },
  {
   "property": "C53",
   "status": "partial",
   "theorems": [
    "C53_viewer_bakes_file_partial",
    "C53_bake_all_rebakes_output",
    "C53_cropped",
    "C53_refuted"
   ],
   "note": "False for the option that bakes everything: the reader is not asked for pixels and the viewer re-bakes the previous output of the graph, whatever the file holds."
  },
  {
   "property": "C54",
   "status": "proved",
   "theorems": [
    "C54_cache_independent",
    "C54_recording",
    "C54_pending_refuted",
    "C54_replaced_file_refuted"
   ],
   "note": "Lock-step simulation between the execution with the shared cache and one without, with the invariant that a stream's hash identifies it and that cached images are the ones that would be made. Guards are the predicate 'tame' on the recorded computations; C54_example meets all hypotheses; the refutations (with C36, C37, C47) show the guards are needed."
  },
  {
   "property": "C55",
   "status": "partial",
   "theorems": [
    "C55_default_transform_partial",
    "C55_refuted",
    "C55_offset"
   ],
   "note": "Proved for windows starting at x = 0, up to the rounding of moving to the pivot and back; false otherwise: C55_offset gives, for all windows, how far everything moves."
  },
  {
   "property": "C56",
   "status": "partial",
   "theorems": [
    "C56_texture_coordinates",
    "C56_positions_partial",
    "C56_centre_refuted",
    "C56_single_division_refuted"
   ],
   "note": "Texture coordinates proved with an error bound. Positions are false of the code: the mesh is built around the negated centre (proved with an error bound), and a single division gives NaN."
  },
  {
   "property": "C57",
   "status": "partial",
   "theorems": [
    "C57_table",
    "C57_alpha",
    "C57_channels_refuted",
    "C57_key_partial",
    "C57_unprocessed_refuted",
    "C57_matrix_ignored",
    "C44_tables_correct"
   ],
   "note": "Contents proved for all operations; the answer from the cache is proved when every channel of the table is processed (C44_tables_correct). The refutation shows two streams with one key and different tables otherwise. Tables of neither one nor three channels abort (C57_channels_refuted)."
  },
  {
   "property": "C58",
   "status": "proved",
   "theorems": [
    "C58_frames_in_two_calls",
    "C58_success",
    "C58_failure_stops"
   ],
   "note": ""
  },
  {
   "property": "C59",
   "status": "proved",
   "theorems": [
    "C59_chain",
    "C59_from_file",
    "C59_session"
   ],
   "note": "C59_from_file is for read nodes that do not use the image cache; C59_session for all readers of a session as in C54."
  },
  {
   "property": "C60",
   "status": "partial",
   "theorems": [
    "C60_one_frame",
    "C60_range",
    "C60_session",
    "C60_metadata_refuted",
    "C60_names"
   ],
   "note": "C60_session: readers that use the image cache. Proved but for the last clause, which is false of the code: the written specification is always the default one (C60_metadata_refuted)."
  },
  {
   "property": "C61",
   "status": "proved",
   "theorems": [
    "C61_statuses"
   ],
   "note": "With C22_execute_touches_upstream_only: all other nodes keep their status."
  },
  {
   "property": "C62",
   "status": "proved",
   "theorems": [
    "C62_kept",
    "C62_default_transforms",
    "C62_origin_refuted",
    "C62_filled_refuted"
   ],
   "note": "Rounding analysis over the reals for all sizes up to 2^22. The refutations show that both window conditions are needed."
  },
  {
   "property": "C63",
   "status": "proved",
   "theorems": [
    "C63_pixels",
    "C63_window",
    "C63_runs",
    "C63_order_refuted",
    "C63_window_refuted"
   ],
   "note": "The refutations show what does not follow: the bake is not the inverse of the viewer's mesh deformation for two deformers (same instead of reversed order), nor when data and display window differ."
  },
  {
   "property": "C64",
   "status": "proved",
   "theorems": [
    "C64_same_part_same_result",
    "C64_unaffected_by_changes_elsewhere",
    "C64_order_of_connecting_refuted"
   ],
   "note": "A simulation over both walks, indices related through ids. The refutation shows that the condition of one source per slot is needed: connect can leave two (C24), and then the order of connecting decides."
  },
  {
   "property": "C65",
   "status": "proved",
   "theorems": [
    "C65_no_abort",
    "C65_session",
    "C65_aborts_only_by_order",
    "C65_empty_crop_refuted",
    "C65_undecodable_file_refuted",
    "C65_grey_merge_refuted",
    "C65_black_border_refuted",
    "C65_unknown_options_refuted",
    "C65_lens_refuted",
    "C65_small_cache_refuted",
    "C65_two_inputs_refuted"
   ],
   "note": "An invariant over pictures, cache and disk kept by every node kind, lifted through the walk and to sessions. Each refutation drops one condition and shows an execution that aborts."
  },
  {
   "property": "C66",
   "status": "proved",
   "theorems": [
    "C66_merge",
    "C66_session",
    "C66_one_input_refuted",
    "C66_unknown_mode"
   ],
   "note": "From the run semantics with the C65 invariant carried along. The refutation shows the one-input case: a lone picture is composited over colour bars rather than shown. C66_merge is for merges that do not use the cache, C66_session for all merges of a session as in C54."
  },
  {
   "property": "C67",
   "status": "partial",
   "theorems": [
    "C67_crop",
    "C67_session",
    "C67_own_window_refuted"
   ],
   "note": "Window, pixels and display window are proved (C67_crop, which also states that the colour-space tag is that of the input; C67_session for crops that use the cache). The last sentence is refuted: the pixels are linear but still carry the input's tag, so a later node converts them twice."
  },
  {
   "property": "C68",
   "status": "proved",
   "theorems": [
    "C68_one_more",
    "C68_baking_viewer_refuted"
   ],
   "note": "All three phases (hash, validation, computation) split off the last node. The refutation shows that the exception for baking viewers is needed."
  },
  {
   "property": "C69",
   "status": "partial",
   "theorems": [
    "C69_passes",
    "C69_writer",
    "C69_merge_write_refuted",
    "C69_viewer_refuted"
   ],
   "note": "Proved for the listed node kinds; the last sentence is false of the code (refutations)."
  },
  {
   "property": "C70",
   "status": "partial",
   "theorems": [
    "C70_short_names",
    "C70_collision_refuted",
    "C70_session_refuted"
   ],
   "note": "Proved for names of one length of at most eight bytes (each step of the hash is a bijection); false beyond that, with two pairs of printable names that share an id, and a session in which executing the node of one name shows the file of the other."
  },
  {
   "property": "C71",
   "status": "proved",
   "theorems": [
    "C71_round_trip",
    "C71_whole_buffers",
    "C71_plane_triangles",
    "C71_last_index_refuted",
    "C71_unwritable_refuted",
    "C71_missing_uvs_refuted",
    "C71_header"
   ],
   "note": "By an independent OBJ reader; printing of floats is assumed to be one word that is read back. The refutations show why the guards are there: index u32::MAX gives corner 0, an unwritable path aborts; and that corners name texture coordinates by vertex number whether or not they exist."
  },
  {
   "property": "C72",
   "status": "proved",
   "theorems": [
    "C72_swap",
    "C72_mix_zero",
    "C72_transparent_first",
    "C72_transparent_second",
    "C72_swap_refuted",
    "C72_grouping_refuted"
   ],
   "note": "Zeros may differ in sign. The guards are needed: 'over' cannot be swapped, 'add' cannot be swapped at another mix (the mix fades only the second input), and grouping three adds differs by rounding."
  },
  {
   "property": "C73",
   "status": "partial",
   "theorems": [
    "C73_presets",
    "C73_passes",
    "C73_grade",
    "C73_crop_refuted",
    "C73_crop_then_move_refuted"
   ],
   "note": "Proved for null, resample and viewer nodes and, given powf(v,1)=v, for grades. False for crops: the default window is empty, so the picture is wiped to black, and a default transform after it aborts the process; false for merges with one input (C66_one_input_refuted). Transforms are C55; lenses depend on the plug-in."
  },
  {
   "property": "C74",
   "status": "partial",
   "theorems": [
    "C74_ignored",
    "C74_refuted"
   ],
   "note": "False: the three settings are read and stored but never used. C74_ignored proves that no value of theirs ever changes a result (only the cache key)."
  },
  {
   "property": "C75",
   "status": "partial",
   "theorems": [
    "C75_gamma_one_partial",
    "C75_curve_partial",
    "C75_reversed_gamma",
    "C75_gamma_lost",
    "C75_gamma_and_gain_refuted",
    "C75_above_one_refuted"
   ],
   "note": "Proved within 12 units of relative rounding when gamma is 1, slope and shift are moderate and the mix is full; for gammas between a quarter and four without a line, on values below one and for an accurate powf, with an explicit bound. C75_reversed_gamma says what a reversed gamma does everywhere. False otherwise: when the line is not the identity the reversed gamma is discarded, and above one the reverse gamma is a straight line."
  },
  {
   "property": "C76",
   "status": "partial",
   "theorems": [
    "C76_written_and_read",
    "C76_rendered_and_read_partial",
    "C76_cropped",
    "C76_any_origin",
    "C76_origin_refuted",
    "C76_srgb_refuted"
   ],
   "note": "Proved as stated for pictures (any image library that keeps files). The last sentence is false for JPEG and PNG names: their pixels are converted to sRGB but the file is tagged Linear (C76_srgb_refuted). With a display window off the origin the picture moves by twice the window's corner (C76_any_origin, C76_origin_refuted)."
  },
  {
   "property": "C77",
   "status": "partial",
   "theorems": [
    "C77_file_shown_partial",
    "C77_place_refuted",
    "C77_many_channels_overrun",
    "C77_other_formats_abort",
    "C77_few_channels_refused",
    "C77_grey_refuted",
    "C77_channels_refuted"
   ],
   "note": "Proved for three or four channels (float: three or more) in the four supported formats; the place for files whose display window starts at the origin. False otherwise: more than four channels of 8 or 16 bits are written past the end of the buffer, other formats abort the process, and one or two channels give an empty picture with status valid."
  },
  {
   "property": "C78",
   "status": "partial",
   "theorems": [
    "C78_resampled_partial",
    "C78_place_refuted",
    "C78_three_channels_refuted",
    "C78_large_factor_refuted"
   ],
   "note": "Proved for 32 bit float pictures of up to four channels and four-channel pictures, for factors that keep the size within an int. False: the place in the frame is lost, and three channels of 8 or 16 bits are garbled."
  },
  {
   "property": "C79",
   "status": "proved",
   "theorems": [
    "C79_exr",
    "C79_exr_default",
    "C79_png",
    "C79_jpeg",
    "C79_jpeg_default",
    "C79_other",
    "C79_settings"
   ],
   "note": "From the node's attributes (through [written], C60) to the attributes set on the file."
  },
  {
   "property": "C80",
   "status": "partial",
   "theorems": [
    "C80_search_path",
    "C80_first_directory",
    "C80_default",
    "C80_absolute_name",
    "C80_absolute_name_refuted",
    "C80_empty_entry",
    "C80_bad_file_aborts_refuted"
   ],
   "note": "The first sentence is proved as stated. An absolute name is ignored when the variable is not set (C80_absolute_name_refuted); a file that cannot be read or parsed aborts the process even when a later directory has a good one (C80_bad_file_aborts_refuted). Environment, file system and YAML parser are parameters."
  },
  {
   "property": "C81",
   "status": "proved",
   "theorems": [
    "C81_parameters",
    "C81_points_kept",
    "C81_boxes_kept",
    "C81_copies",
    "C81_camera_refuted"
   ],
   "note": "The plug-in is any object with setters that may fail and calculations that may change its state; this justifies treating the lens as a function of its fields elsewhere. Focal length, film back and pixel aspect cannot be set (C81_camera_refuted)."
  },
  {
   "property": "C82",
   "status": "partial",
   "theorems": [
    "C82_blend_partial",
    "C82_curve_partial",
    "C82_gamma_partial",
    "C82_white_is_black_refuted",
    "C82_negative_refuted"
   ],
   "note": "Gamma one is proved for whole buffers with an explicit bound, given powf(x, 1) = x; for gammas between a quarter and four whole buffers follow the line raised to one over gamma, with an explicit bound, given how many units of rounding powf may be off (k, at most 100) and that the line is clear of zero at every value. C82_gamma_partial says for any gamma what reaches powf. Equal white and black points make every value NaN, and a negative line with gamma two gives NaN (both under the IEEE behaviour of powf stated in the theorem)."
  },
  {
   "property": "C83",
   "status": "partial",
   "theorems": [
    "C83_setting_kept",
    "C83_all_processors",
    "C83_configured_refuted"
   ],
   "note": "The second half is proved. The first is false: the configured number is never used, every read and write runs with as many threads as there are processors (C83_all_processors, for every configuration)."
  },
  {
   "property": "C84",
   "status": "proved",
   "theorems": [
    "C84_formula",
    "C84_grouping",
    "C84_rgb_refuted"
   ],
   "note": "Bounds of 5 and 17 units of 2^-24 of the sizes of the terms. RGBA is needed: an RGB picture in the middle counts as transparent and the grouping then matters (C84_rgb_refuted)."
  },
  {
   "property": "C85",
   "status": "proved",
   "theorems": [
    "C85_written",
    "C85_read",
    "C85_number_exists",
    "C85_sequence",
    "C85_session",
    "C85_subframes_refuted",
    "C85_large_frames_refuted"
   ],
   "note": "The number is specified by integers (fraction, nearest, ties away from zero). Fractional frames that round to the same number overwrite each other although the executor's comments speak of sub-frames, and frames beyond 32 bits share the last number. C85_session: readers that use the image cache."
  },
  {
   "property": "C86",
   "status": "partial",
   "theorems": [
    "C86_formula",
    "C86_vertices",
    "C86_bake_stays",
    "C86_bake_refuted"
   ],
   "note": "The formula and the error bound hold for single points and mesh vertices, with the numeric library's cosine and sine taken as given. Missing: the last sentence, which is false (C86_bake_refuted), and C86_bake_stays proves that it fails for every translation up to half of the width, given that the library inverts a translation exactly. Inverted transforms are C91."
  },
  {
   "property": "C87",
   "status": "partial",
   "theorems": [
    "C87_read",
    "C87_travels",
    "C87_merged",
    "C87_merge_refuted",
    "C87_orientation_shifted",
    "C87_orientation_refuted",
    "C87_written"
   ],
   "note": "Reading and handing on are proved. Missing: merging and writing, which forget the metadata (C87_merged, C87_merge_refuted, C87_written), and the meaning of the orientation, which is wrong for every code (C87_orientation_shifted)."
  },
  {
   "property": "C88",
   "status": "partial",
   "theorems": [
    "C88_damaged_partial",
    "C88_undamaged",
    "C88_unopened",
    "C88_reported_refuted",
    "C88_completed_refuted"
   ],
   "note": "The statement is false: failing to decode is ignored. C88_damaged_partial says exactly what is shown instead, for every set of pixels that can be decoded; C88_undamaged links this to reading whole files (C77)."
  },
  {
   "property": "C89",
   "status": "partial",
   "theorems": [
    "C89_bars",
    "C89_nothing_partial",
    "C89_viewer",
    "C89_silent_refuted",
    "C89_folder_refuted"
   ],
   "note": "False as stated for viewers, writers that are off (no warning) and readers of folders (last picture, no warning). C89_nothing_partial: everything else, and exactly which nodes warn; viewers that bake do what they do with the bars connected (C89_viewer, with C103_viewer); lens distortions that the plug-in refuses abort (C65) and are left out."
  },
  {
   "property": "C90",
   "status": "partial",
   "theorems": [
    "C90_state_partial",
    "C90_state_refuted",
    "C90_set_state",
    "C90_statuses"
   ],
   "note": "False for streams: C90_state_partial proves that every stream says invalid, for all sequences of calls. C90_statuses is the whole second part."
  },
  {
   "property": "C91",
   "status": "partial",
   "theorems": [
    "C91_undone_partial",
    "C91_fetched_partial",
    "C91_no_inverse",
    "C91_undone_refuted"
   ],
   "note": "False without an inverse (C91_no_inverse: then nothing is inverted at all). Otherwise proved with an explicit bound in terms of the size of the two matrices and of how far off the numeric library's inverse is, which is not modelled and a hypothesis (takes_back)."
  },
  {
   "property": "C92",
   "status": "partial",
   "theorems": [
    "C92_numbers",
    "C92_read",
    "C92_data",
    "C92_read_refuted",
    "C92_alpha_refuted",
    "C92_write",
    "C92_back_partial",
    "C92_back_refuted"
   ],
   "note": "False as stated: other colour kinds abort (C92_read_refuted), alpha is decoded as colour (C92_alpha_refuted), white is written as 254 (C92_back_refuted). Proved: what is read and written for every picture, and that samples come back unchanged up to level 10 and at most one lower above if the library's powers undo each other up to a thousandth."
  },
  {
   "property": "C93",
   "status": "partial",
   "theorems": [
    "C93_lens",
    "C93_others",
    "C93_transform_refuted"
   ],
   "note": "False of transforms, whose results keep the source's window (C93_others, C93_transform_refuted). Proved for every list of lenses, given plug-in boxes that hold their points up to a pixel."
  },
  {
   "property": "C94",
   "status": "proved",
   "theorems": [
    "C94_nodes",
    "C94_bake",
    "C94_exact_refuted"
   ],
   "note": "Assumes of the lens library that one direction undoes the other up to err pixels; the rest is rounding, which C94_exact_refuted shows is there even for a library that moves nothing."
  },
  {
   "property": "C95",
   "status": "partial",
   "theorems": [
    "C95_zero_partial",
    "C95_formula_refuted",
    "C95_inverse_refuted",
    "C95_resolution_refuted"
   ],
   "note": "The documented formula, the inverse and independence of the resolution are false of the code (refuted by witnesses); proved for all positions: zero coefficients move nothing, up to rounding."
  },
  {
   "property": "C96",
   "status": "proved",
   "theorems": [
    "C96_rgba",
    "C96_rgb",
    "C96_alpha",
    "C96_scale",
    "C96_scale_only",
    "C96_infinite_refuted"
   ],
   "note": "For finite numbers up to 2^20; an infinite scale factor gives NaN (C96_infinite_refuted)."
  },
  {
   "property": "C97",
   "status": "proved",
   "theorems": [
    "C97_bytes",
    "C97_words",
    "C97_order_bytes",
    "C97_order_words",
    "C97_shades_bytes",
    "C97_shades_words",
    "C97_halves",
    "C97_halves_back",
    "C97_narrow",
    "C97_through_float",
    "C97_nearest_refuted"
   ],
   "note": "As stated; C97_nearest_refuted shows that the levels are cut off instead of rounded."
  },
  {
   "property": "C98",
   "status": "proved",
   "theorems": [
    "C98_session",
    "C98_execute",
    "C98_images",
    "C98_mesh",
    "C98_files",
    "C98_assertion_refuted",
    "C98_large_picture_refuted"
   ],
   "note": "As stated; the refuted theorems show two sessions that crash in debug builds only."
  },
  {
   "property": "C99",
   "status": "partial",
   "theorems": [
    "C99_walk",
    "C99_walk_stopped",
    "C99_row_exists",
    "C99_box_row_partial",
    "C99_box_row_span",
    "C99_box_row_refuted",
    "C99_size",
    "C99_area",
    "C99_centre",
    "C99_area_debug",
    "C99_centre_debug",
    "C99_area_release",
    "C99_width_wraps",
    "C99_release_refuted",
    "C99_first_index"
   ],
   "note": "As stated, except that rows of boxes which are not square answer wrongly (refuted); proved for square boxes."
  },
  {
   "property": "C100",
   "status": "partial",
   "theorems": [
    "C100_evict_one",
    "C100_evict_all",
    "C100_evict_bytes_partial",
    "C100_evict_bytes_refuted",
    "C100_keeps_what_fits",
    "C100_hits"
   ],
   "note": "All but the clause that evict_bytes removes none beyond what is asked for, which is false: it removes one image more when the sizes add up exactly (C100_evict_bytes_refuted); C100_evict_bytes_partial gives the exact rule."
  },
  {
   "property": "C101",
   "status": "partial",
   "theorems": [
    "C101_disconnect_partial",
    "C101_disconnect_state",
    "C101_disconnect_unknown",
    "C101_disconnect_empties",
    "C101_disconnect_refuted",
    "C101_single_input"
   ],
   "note": "All but the clause that a disconnected input is always left empty, which is false: an input whose connection is older than one to another input of the node stays connected (C101_disconnect_refuted); C101_disconnect_partial gives the exact rule, C101_disconnect_empties when the clause holds."
  },
  {
   "property": "C102",
   "status": "partial",
   "theorems": [
    "C102_kept",
    "C102_not_made_again",
    "C102_read_once",
    "C102_leaves_cache",
    "C102_same_key",
    "C102_off_key",
    "C102_clamp_refuted",
    "C102_executed_again",
    "C102_executed_again_anew"
   ],
   "note": "All but one clause: a grade's clamp and premult settings, which change no picture, are part of its key (C102_clamp_refuted); C102_same_key gives the exact list. Executing again is proved for executions that do not depend on the graph's previous output, or that leave it with the same key; hypothesis on the file system: writing a file does not change whether another entry is a file or a directory."
  },
  {
   "property": "C103",
   "status": "proved",
   "theorems": [
    "C103_nothing",
    "C103_color_space",
    "C103_color_space_failed",
    "C103_grade",
    "C103_all",
    "C103_left",
    "C103_type",
    "C103_failed_grade",
    "C103_failed_name_refuted",
    "C103_two_stages",
    "C103_viewer",
    "C103_viewer_stores"
   ],
   "note": "Two stages: for finite colours, zeros of any sign. If a conversion of a grading bake fails the picture still gets the name of the target (C103_failed_name_refuted)."
  },
  {
   "property": "C104",
   "status": "proved",
   "theorems": [
    "C104_session",
    "C104_unique",
    "C104_unused_input_refuted"
   ],
   "note": "For sessions whose computations are tame (C54), the surroundings of C65 and switched-off lenses. Without the condition on inputs the claim is false (C104_unused_input_refuted); with a viewer that bakes everything it is false too (C53)."
  },
  {
   "property": "C105",
   "status": "proved",
   "theorems": [
    "C105_sessions",
    "C105_scene"
   ],
   "note": "For graphs as in C104, whose refutation shows why nodes must have no more inputs than they use."
  },
  {
   "property": "C106",
   "status": "proved",
   "theorems": [
    "C106_session",
    "C106_numbered",
    "C106_same_files"
   ],
   "note": "For graphs as in C104 with one active writer, at the end."
  },
  {
   "property": "C107",
   "status": "proved",
   "theorems": [
    "C107_session",
    "C107_files"
   ],
   "note": "For graphs as in C104 with any number of active writers."
  },
  {
   "property": "C108",
   "status": "proved",
   "theorems": [
    "C108_bake",
    "C108_colours",
    "C108_space",
    "C108_pixel",
    "C108_pixel_rgb",
    "C108_pixel_alpha",
    "C108_written",
    "C108_session",
    "C108_files",
    "C108_kept"
   ],
   "note": "Colour conversion is the colour library's (a parameter); it is assumed to keep the number of values. For graphs as in C104 and C107."
  },
  {
   "property": "C109",
   "status": "partial",
   "theorems": [
    "C109_fresh_partial",
    "C109_again_partial",
    "C109_never_opens",
    "C109_refuted"
   ],
   "note": "False as stated: a viewer that bakes everything (or with crop_to_format) asks its inputs for no pixels, so readers before it return what the graph showed last; each execution grades it once more (C109_refuted), and no file is ever looked at (C109_never_opens, for every graph before it). Proved in full for graphs whose contributing nodes are all asked for their picture (condition of C104) and whose readers name no folders."
  },
  {
   "property": "C110",
   "status": "proved",
   "theorems": [
    "C110_succeeds",
    "C110_only_resampling_fails",
    "C110_described",
    "C110_shows",
    "C110_session",
    "C110_resampler_refuted"
   ],
   "note": "Conditions are those of C65 (sensible settings, readable files, tree or levels) and C104 (every contributing node asked for its picture); C110_resampler_refuted: the condition on the resampler is needed. With a cache the picture is the composition if the computations were tame (C54)."
  },
  {
   "property": "C111",
   "status": "proved",
   "theorems": [
    "C111_same_readings",
    "C111_write_undone",
    "C111_last_write",
    "C111_order_of_writes",
    "C111_connect_undone",
    "C111_asking",
    "C111_shown_again",
    "C111_replug_refuted"
   ],
   "note": "Uses functional extensionality (standard library). C111_replug_refuted: connections that were replaced are not restored by connecting the old sources again; they may have to be unplugged first (cause: C24)."
  },
  {
   "property": "C112",
   "status": "partial",
   "theorems": [
    "C112_counts",
    "C112_sizes",
    "C112_ratio_partial",
    "C112_insert_ratio_partial",
    "C112_overstated",
    "C112_no_misses",
    "C112_percentage_refuted"
   ],
   "note": "The ratios are not percentages: hits are divided by misses and inserts by evictions. C112_ratio_partial says what the figure means, C112_overstated that it is always too high. Counts and gigabytes are proved in full."
  },
  {
   "property": "C113",
   "status": "proved",
   "theorems": [
    "C113_handle",
    "C113_first",
    "C113_stranger",
    "C113_cache_returned",
    "C113_session",
    "C113_namesake_refuted"
   ],
   "note": "Under a name already used in the graph create_node hands out a handle of the asked type that addresses the earlier node (C113_namesake_refuted); C113_first says which node any handle addresses."
  },
  {
   "property": "C114",
   "status": "proved",
   "theorems": [
    "C114_cache",
    "C114_capacity",
    "C114_content",
    "C114_status",
    "C114_state",
    "C114_uninitialized",
    "C114_clean",
    "C114_asking",
    "C114_graphs_apart",
    "C114_caches_apart",
    "C114_output_new",
    "C114_output_kept",
    "C114_output_executed"
   ],
   "note": "The count, bytes and budget (C114_content) are for pasts whose pictures ever made amount to less than 2^64 bytes; the budget also needs that no picture is larger than the capacity (see C01)."
  },
  {
   "property": "C115",
   "status": "proved",
   "theorems": [
    "C115_tables",
    "C115_repeat",
    "C115_identity",
    "C115_names_refuted"
   ],
   "note": "C115_names_refuted: two conversions whose names run together share a table (the finding of C44, reached through the C++ calls)."
  },
  {
   "property": "C116",
   "status": "proved",
   "theorems": [
    "C116_picture",
    "C116_files",
    "C116_order",
    "C116_itself_refuted",
    "C116_disconnect_refuted"
   ],
   "note": "The conditions on the history mention calls only, never the graph. C116_itself_refuted: why at most one connection between two nodes is asked for: a picture connected to both inputs of a merge is merged with the default picture. C116_disconnect_refuted: why only the only or the last connected input may be connected anew or disconnected (the finding of C24 and C101, reached through the C++ calls)."
  },
  {
   "property": "C117",
   "status": "proved",
   "theorems": [
    "C117_same_setup"
   ],
   "note": "The conditions mention calls only. That reading a directory is not determined is a finding of C105; lenses are external code."
  },
  {
   "property": "C118",
   "status": "proved",
   "theorems": [
    "C118_again",
    "C118_aside",
    "C118_set_back",
    "C118_connected_back",
    "C118_steps"
   ],
   "note": "Conditions on calls as in C116 and C117. That disconnecting is not always the opposite of connecting is C116_disconnect_refuted."
  },
  {
   "property": "C119",
   "status": "proved",
   "theorems": [
    "C119_same_files"
   ],
   "note": "Conditions on calls as in C116 and C117; only the executed node writes, and whatever has been written, no reader above it names a directory. That reading a directory is not determined is a finding of C105; lenses are external code."
  },
  {
   "property": "C120",
   "status": "proved",
   "theorems": [
    "C120_listing",
    "C120_namesake_refuted",
    "C120_deleted_refuted"
   ],
   "note": "petgraph's drawing and the derived printing of statuses and attributes are parameters that print no newline. Findings: of two nodes created under one identifier both lines show the first; a deleted node stays listed."
  },
  {
   "property": "C121",
   "status": "proved",
   "theorems": [
    "C121_same_files",
    "C121_files",
    "C121_own_paths_refuted"
   ],
   "note": "The programs run one after the other, not at the same time. Conditions on calls as in C116; what is read is not written, no two writers or frames share a path, no reader names a directory, lenses off. The file system keeps files independent of each other, up to any chosen equivalence."
  },
  {
   "property": "C122",
   "status": "proved",
   "theorems": [
    "C122_set",
    "C122_terminated",
    "C122_unterminated",
    "C122_unterminated_refuted",
    "C122_back",
    "C122_long",
    "C122_described",
    "C122_replaced",
    "C122_latin_refuted",
    "C122_zero_bytes_refuted"
   ],
   "note": "from_utf8_lossy is modelled byte by byte and compared with RFC 3629. Asking is taken not to change the answers; printing of types and numbers is a parameter; writing past the 100 byte buffer counts as the end of the process. Findings: a name given without its zero byte is heard with what follows in memory; a name that is not UTF-8 ends the process; the text is full of zero bytes."
  },
  {
   "property": "C123",
   "status": "proved",
   "theorems": [
    "C123_as_owned",
    "C123_never_dangling",
    "C123_memory",
    "C123_in_place"
   ],
   "note": "Rc::new, clone, drop and make_mut are modelled as counts on cells; this is what allows the other files to treat streams as values. Memory is never reused in the model; weak references do not occur in the crate."
  },
  {
   "property": "C124",
   "status": "proved",
   "theorems": [
    "C124_outcome",
    "C124_files",
    "C124_outcome_rgb",
    "C124_files_rgb"
   ],
   "note": "For four channels or three (grades then see an alpha of one), the linear colour space and file names that are not JPEG or PNG; the conditions on programs are those of C116. The pixel is first multiplied with the matrix of ones and zeros, which is what the code does."
  },
  {
   "property": "C125",
   "status": "proved",
   "theorems": [
    "C125_outcome",
    "C125_files"
   ],
   "note": "For four channels, the linear colour space and file names that are not JPEG or PNG; the conditions on programs are those of C116. Which pixel the transforms lead back to is said in terms of the transform of one point (C55, C86), with cosine, sine and the inverse of a matrix as parameters."
  },
  {
   "property": "C126",
   "status": "proved",
   "theorems": [
    "C126_outcome",
    "C126_files",
    "C126_graded_outcome",
    "C126_graded_files"
   ],
   "note": "For four channels, the linear colour space and file names that are not JPEG or PNG; the conditions on programs are those of C116. The written number type is the one the writer asks for, floats if it asks for none."
  }
 ]
}