{
 "claims": [
  {
   "property": "C01",
   "status": "proved",
   "theorems": [
    "C01_symbol_components_recovered",
    "C01_symbol_of_any_id",
    "C01_symbol_index_wraps",
    "C01_symbol_increment"
   ],
   "note": ""
  },
  {
   "property": "C02",
   "status": "proved",
   "theorems": [
    "C02_prefix_ids_recovered",
    "C02_prefix_ids_distinct",
    "C02_every_id_has_a_prefix",
    "C02_prefix_ids_alias_beyond_32_bits",
    "C02_prefix_key_and_symbol"
   ],
   "note": ""
  },
  {
   "property": "C03",
   "status": "proved",
   "theorems": [
    "C03_edges_undirected",
    "C03_edge_key_order"
   ],
   "note": ""
  },
  {
   "property": "C04",
   "status": "proved",
   "theorems": [
    "C04_layer_key_equality_is_equivalence",
    "C04_layer_key_equality_meaning",
    "C04_is_parent_strict_order"
   ],
   "note": ""
  },
  {
   "property": "C05",
   "status": "proved",
   "theorems": [
    "C05_C06_edge_container_refines_log",
    "C05_edge_container_final_edges"
   ],
   "note": ""
  },
  {
   "property": "C06",
   "status": "proved",
   "theorems": [
    "C05_C06_edge_container_refines_log",
    "C06_second_report_empty",
    "C06_graph_edge_reports"
   ],
   "note": ""
  },
  {
   "property": "C07",
   "status": "proved",
   "theorems": [
    "C07_sweep_removes_exactly_untouched",
    "C07_reinserted_edge_survives_refuted"
   ],
   "note": ""
  },
  {
   "property": "C08",
   "status": "proved",
   "theorems": [
    "C08_C12_layer_refines_log",
    "C08_layer_calls_are_safe",
    "C08_layer_adjacency"
   ],
   "note": ""
  },
  {
   "property": "C09",
   "status": "proved",
   "theorems": [
    "C08_C12_layer_refines_log",
    "C09_status_tracks_presence",
    "C09_reports_match_status",
    "C09_clearing_reports",
    "C09_graph_new_nodes",
    "C09_graph_removed_nodes"
   ],
   "note": ""
  },
  {
   "property": "C10",
   "status": "proved",
   "theorems": [
    "C08_C12_layer_refines_log",
    "C10_insert_node_duplicate",
    "C10_emplace_node_duplicate",
    "C10_emplace_duplicate_is_silent_refuted"
   ],
   "note": ""
  },
  {
   "property": "C11",
   "status": "proved",
   "theorems": [
    "C08_C12_layer_refines_log",
    "C11_remove_absent_node",
    "C11_remove_node"
   ],
   "note": ""
  },
  {
   "property": "C12",
   "status": "proved",
   "theorems": [
    "C08_C12_layer_refines_log",
    "C12_merge_nodes_refused",
    "C12_merge_nodes"
   ],
   "note": ""
  },
  {
   "property": "C13",
   "status": "proved",
   "theorems": [
    "C13_emplace_dynamic",
    "C13_dynamic_layer_consistent",
    "C13_slots_never_shrink"
   ],
   "note": ""
  },
  {
   "property": "C14",
   "status": "proved",
   "theorems": [
    "C14_odometry_chain_stays_connected"
   ],
   "note": ""
  },
  {
   "property": "C15",
   "status": "proved",
   "theorems": [
    "C15_emplace_at_index",
    "C15_sequence",
    "C15_duplicate_time_refuted",
    "C15_reports_only_real_changes_refuted"
   ],
   "note": ""
  },
  {
   "property": "C16",
   "status": "proved",
   "theorems": [
    "C16_node_stored_once",
    "C16_emplace_node",
    "C16_set_attributes",
    "C16_prefix_with_index_refuted"
   ],
   "note": ""
  },
  {
   "property": "C17",
   "status": "proved",
   "theorems": [
    "C17_links_mirror_edges",
    "C17_links_and_edges_end_in_nodes",
    "C17_connections"
   ],
   "note": ""
  },
  {
   "property": "C18",
   "status": "proved",
   "theorems": [
    "C18_remove_node",
    "C18_dangling_sibling_refuted"
   ],
   "note": ""
  },
  {
   "property": "C19",
   "status": "proved",
   "theorems": [
    "C19_insert_edge",
    "C19_remove_edge",
    "C19_set_edge_attributes"
   ],
   "note": ""
  },
  {
   "property": "C20",
   "status": "proved",
   "theorems": [
    "C20_insert_parent_edge",
    "C20_same_layer_refuted",
    "C20_same_layer_id_refuted"
   ],
   "note": ""
  },
  {
   "property": "C21",
   "status": "proved",
   "theorems": [
    "C21_merge_nodes",
    "C21_dynamic_merge_refuted"
   ],
   "note": ""
  },
  {
   "property": "C22",
   "status": "proved",
   "theorems": [
    "C22_one_parent_preserved",
    "C22_merge_gives_two_parents_refuted",
    "C22_parent_queries"
   ],
   "note": ""
  },
  {
   "property": "C23",
   "status": "proved",
   "theorems": [
    "C23_num_nodes",
    "C23_num_edges",
    "C23_num_layers",
    "C23_num_dynamic_layers_of_type",
    "C23_num_dynamic_layers",
    "C23_mesh_counted",
    "C23_is_dynamic"
   ],
   "note": ""
  },
  {
   "property": "C24",
   "status": "proved",
   "theorems": [
    "C24_calls_are_safe",
    "C24_dynamic_merge_crashes_refuted",
    "C24_queries",
    "C24_dynamic_layer_queries",
    "C24_edge_queries",
    "C24_static_layer_queries",
    "C24_dynamic_index_queries",
    "C24_dynamic_check_node",
    "C24_check_node_throws_refuted",
    "C24_dynamic_find_refuted"
   ],
   "note": ""
  },
  {
   "property": "C25",
   "status": "proved",
   "theorems": [
    "C25_clone_is_equal_and_behaves_the_same",
    "C25_emplace_after_clone_refuted",
    "C25_static_timestamps_refuted",
    "C25_layer_clone"
   ],
   "note": ""
  },
  {
   "property": "C26",
   "status": "proved",
   "theorems": [
    "C26_update_from_layer",
    "C26_update_with_own_edges",
    "C26_update_missing_layer",
    "C26_update_without_edges_refuted",
    "C26_update_moves_foreign_node_refuted"
   ],
   "note": ""
  },
  {
   "property": "C27",
   "status": "proved",
   "theorems": [
    "C27_merge_succeeds",
    "C27_removed_nodes_gone",
    "C27_static_nodes",
    "C27_dynamic_nodes",
    "C27_unrelated_nodes",
    "C27_edges_explained",
    "C27_edges_arrive",
    "C27_all_edges_brought_in",
    "C27_merge_twice",
    "C27_attributes_not_taken_over_refuted",
    "C27_merge_into_gap_refuted",
    "C27_moved_node_lost_refuted"
   ],
   "note": ""
  },
  {
   "property": "C28",
   "status": "proved",
   "theorems": [
    "C28_isolated_layers_are_self_contained",
    "C28_search_visits_exactly_the_reachable_nodes",
    "C28_filtered_search",
    "C28_limited_search",
    "C28_case",
    "C28_cross_partition_search_refuted"
   ],
   "note": ""
  },
  {
   "property": "C29",
   "status": "proved",
   "theorems": [
    "C29_neighborhood_is_the_ball"
   ],
   "note": ""
  },
  {
   "property": "C30",
   "status": "proved",
   "theorems": [
    "C30_components_of_roots",
    "C30_components_partition_the_nodes"
   ],
   "note": ""
  },
  {
   "property": "C31",
   "status": "proved",
   "theorems": [
    "C31_merging",
    "C31_depth_limited_components_cover_the_balls",
    "C31_case",
    "C31_merged_components_disjoint_refuted"
   ],
   "note": ""
  },
  {
   "property": "C32",
   "status": "proved",
   "theorems": [
    "C32_dense_adjacency_matrix",
    "C32_sparse_adjacency_matrix",
    "C32_laplacian_matrices",
    "C32_case",
    "C32_asymmetric_weights_refuted"
   ],
   "note": ""
  },
  {
   "property": "C33",
   "status": "proved",
   "theorems": [
    "C33_callback_on_exactly_the_nodes_below",
    "C33_case",
    "C33_layer_zero_refuted"
   ],
   "note": ""
  },
  {
   "property": "C34",
   "status": "proved",
   "theorems": [
    "C34_view_shows_exactly_the_selected_nodes",
    "C34_case"
   ],
   "note": ""
  },
  {
   "property": "C35",
   "status": "proved",
   "theorems": [
    "C35_primitives_round_trip",
    "C35_wire_format",
    "C35_long_string_refused"
   ],
   "note": ""
  },
  {
   "property": "C36",
   "status": "proved",
   "theorems": [
    "C36_containers_round_trip",
    "C36_sets_and_maps_round_trip",
    "C36_matrices_round_trip",
    "C36_too_long_refused",
    "C36_too_large_matrix_refused",
    "C36_absent_optional_keeps_old_value_refuted"
   ],
   "note": ""
  },
  {
   "property": "C37",
   "status": "proved",
   "theorems": [
    "C37_reader_stays_inside_buffer",
    "C37_returns_or_throws",
    "C37_attributes_stay_inside",
    "C37_meshes_and_edges_safe",
    "C37_sequences",
    "C37_negative_matrix_dimensions_refuted",
    "C37_graph_reader_stays_inside"
   ],
   "note": ""
  },
  {
   "property": "C38",
   "status": "proved",
   "theorems": [
    "C38_matrix_length_checked",
    "C38_fixed_array_length_ignored_refuted"
   ],
   "note": ""
  },
  {
   "property": "C39",
   "status": "proved",
   "theorems": [
    "C39_node_attributes_round_trip",
    "C39_loaded_attributes_equal",
    "C39_edge_attributes_round_trip",
    "C39_khronos_object_members_lost_refuted",
    "C39_nan_not_equal_to_itself_refuted"
   ],
   "note": ""
  },
  {
   "property": "C40",
   "status": "proved",
   "theorems": [
    "C40_header_round_trip",
    "C40_headerless",
    "C40_version_order",
    "C40_compatibility_gate",
    "C40_load_gate"
   ],
   "note": ""
  },
  {
   "property": "C41",
   "status": "proved",
   "theorems": [
    "C41_graph_round_trip",
    "C41_file_round_trip",
    "C41_dynamic_layer_lost_refuted",
    "C41_static_timestamp_refuted",
    "C41_removed_dynamic_node_refuted"
   ],
   "note": ""
  },
  {
   "property": "C42",
   "status": "proved",
   "theorems": [
    "C42_update_same_layers",
    "C42_update_other_layers",
    "C42_moved_node_stays_refuted",
    "C42_mesh_stays_refuted"
   ],
   "note": ""
  },
  {
   "property": "C43",
   "status": "proved",
   "theorems": [
    "C43_erase_vertices",
    "C43_too_many_indices_throw",
    "C43_erase_faces",
    "C43_case"
   ],
   "note": ""
  },
  {
   "property": "C44",
   "status": "proved",
   "theorems": [
    "C44_accessors_match_configuration",
    "C44_write_then_read",
    "C44_out_of_range_throws",
    "C44_resize",
    "C44_case",
    "C44_clear"
   ],
   "note": ""
  },
  {
   "property": "C45",
   "status": "proved",
   "theorems": [
    "C45_mesh_round_trip"
   ],
   "note": ""
  },
  {
   "property": "C46",
   "status": "proved",
   "theorems": [
    "C46_types_resolved_by_name",
    "C46_unassigned_ids_unknown",
    "C46_ids_distinct",
    "C46_attributes_keep_their_type",
    "C46_more_than_256_types_refuted",
    "C46_unknown_types_are_not_skipped_refuted"
   ],
   "note": ""
  },
  {
   "property": "C47",
   "status": "proved",
   "theorems": [
    "C47_file_type",
    "C47_resolving_twice",
    "C47_directory_refuted"
   ],
   "note": ""
  },
  {
   "property": "C48",
   "status": "proved",
   "theorems": [
    "C48_contains_is_membership",
    "C48_constructors",
    "C48_frames_are_inverse",
    "C48_corners_span_the_box",
    "C48_merge_is_smallest",
    "C48_merge_with_invalid",
    "C48_fit_is_smallest",
    "C48_intersects_is_overlap",
    "C48_volume",
    "C48_iou_is_overlap_ratio",
    "C48_equality",
    "C48_merge_into_obb_refuted",
    "C48_flat_fit_refuted",
    "C48_merge_raabb_refuted",
    "C48_fit_raabb_refuted",
    "C48_float_iou_refuted",
    "C48_float_corners_refuted",
    "C48_float_merge_refuted"
   ],
   "note": ""
  },
  {
   "property": "C49",
   "status": "proved",
   "theorems": [
    "C49_equal_iff_same_components",
    "C49_less_is_a_strict_total_order",
    "C49_hash_is_injective",
    "C49_blend_stays_between",
    "C49_blend_ends",
    "C49_blend_within_bounds_refuted",
    "C49_blend_nan_refuted",
    "C49_gray",
    "C49_quality",
    "C49_spectrum",
    "C49_ironbow",
    "C49_hsv",
    "C49_hls",
    "C49_rainbow",
    "C49_colours_example"
   ],
   "note": ""
  },
  {
   "property": "C50",
   "status": "proved",
   "theorems": [
    "C50_mutual_exclusion",
    "C50_critical_sections",
    "C50_has_change",
    "C50_graph_is_complete",
    "C50_no_change_lost",
    "C50_no_deadlock",
    "C50_data_race_refuted",
    "C50_spurious_change_refuted",
    "C50_late_change_refuted",
    "C50_bad_message_refuted",
    "C50_end_to_end",
    "C50_cut_message_refuted",
    "C50_receiver_example"
   ],
   "note": ""
  },
  {
   "property": "C51",
   "status": "proved",
   "theorems": [
    "C51_history_refines_abstract_graph"
   ],
   "note": ""
  },
  {
   "property": "C52",
   "status": "proved",
   "theorems": [
    "C52_equality",
    "C52_equivalence",
    "C52_edge_equality",
    "C52_symmetry_refuted"
   ],
   "note": ""
  },
  {
   "property": "C53",
   "status": "proved",
   "theorems": [
    "C53_old_semantic_attributes",
    "C53_old_plain_attributes",
    "C53_old_graph",
    "C53_old_file"
   ],
   "note": ""
  },
  {
   "property": "C54",
   "status": "proved",
   "theorems": [
    "C54_graph_json_round_trip",
    "C54_mesh_exact",
    "C54_attributes_exact",
    "C54_mesh_json_round_trip",
    "C54_attributes_json_round_trip",
    "C54_edge_json_round_trip",
    "C54_static_timestamp_refuted",
    "C54_nan_weight_refuted",
    "C54_latin1_name_refuted",
    "C54_invalid_box_refuted"
   ],
   "note": ""
  },
  {
   "property": "C55",
   "status": "proved",
   "theorems": [
    "C55_members_written",
    "C55_other_members_ignored",
    "C55_missing_members_default",
    "C55_no_type_throws",
    "C55_unknown_class_throws",
    "C55_infinite_weight_throws",
    "C55_no_compatibility_check_refuted",
    "C55_color_forms",
    "C55_wrong_size_throws",
    "C55_wrong_vector_throws",
    "C55_unknown_edge_class",
    "C55_list_expected",
    "C55_box_names"
   ],
   "note": ""
  },
  {
   "property": "C56",
   "status": "proved",
   "theorems": [
    "C56_rotation_kept",
    "C56_quaternion_unit",
    "C56_read_rotation",
    "C56_reflection_refuted",
    "C56_exact_in_floats",
    "C56_quarter_turn_refuted"
   ],
   "note": ""
  },
  {
   "property": "C57",
   "status": "proved",
   "theorems": [
    "C57_label_unique",
    "C57_label",
    "C57_list_unique",
    "C57_literal",
    "C57_literal_malformed",
    "C57_literal_space",
    "C57_literal_other",
    "C57_literal_deviations",
    "C57_prefix_unique",
    "C57_layer_names",
    "C57_layer_round_trip",
    "C57_layer_case"
   ],
   "note": ""
  },
  {
   "property": "C58",
   "status": "proved",
   "theorems": [
    "C58_log_graph",
    "C58_series",
    "C58_rows_readable",
    "C58_columns",
    "C58_counts_unique",
    "C58_settings",
    "C58_two_parents_refuted",
    "C58_shared_name_refuted",
    "C58_late_name"
   ],
   "note": ""
  },
  {
   "property": "C59",
   "status": "proved",
   "theorems": [
    "C59_old_attributes",
    "C59_old_mesh",
    "C59_old_graph"
   ],
   "note": ""
  },
  {
   "property": "C60",
   "status": "proved",
   "theorems": [
    "C60_loaded_is_listed",
    "C60_consistent_loads",
    "C60_inconsistent_throws",
    "C60_missing_section",
    "C60_listed_unique"
   ],
   "note": ""
  },
  {
   "property": "C61",
   "status": "proved",
   "theorems": [
    "C61_nodes",
    "C61_layer_nodes",
    "C61_edges",
    "C61_layer_edges",
    "C61_layers",
    "C61_dynamic_nodes",
    "C61_dynamic_nodes_refuted",
    "C61_all_nodes_refuted"
   ],
   "note": ""
  },
  {
   "property": "C62",
   "status": "proved",
   "theorems": [
    "C62_box_around_the_nodes_below",
    "C62_never_fails",
    "C62_box_around_a_mesh",
    "C62_index_out_of_range",
    "C62_obb_refuted"
   ],
   "note": ""
  },
  {
   "property": "C63",
   "status": "proved",
   "theorems": [
    "C63_mirror_equals_graph",
    "C63_mirror_follows",
    "C63_clearing_leaves_merged_nodes_only",
    "C63_recreated_elsewhere_refuted",
    "C63_skipped_slots_refuted"
   ],
   "note": ""
  },
  {
   "property": "C64",
   "status": "proved",
   "theorems": [
    "C64_read_vertices",
    "C64_numbers",
    "C64_write_vertices",
    "C64_round_trip",
    "C64_write_faces",
    "C64_faces_round_trip",
    "C64_large_index_refuted",
    "C64_alpha_refuted",
    "C64_dangling_faces_refuted"
   ],
   "note": ""
  },
  {
   "property": "C65",
   "status": "proved",
   "theorems": [
    "C65_only_positions",
    "C65_rigid",
    "C65_rounding_refuted"
   ],
   "note": ""
  },
  {
   "property": "C66",
   "status": "proved",
   "theorems": [
    "C66_only_what_is_listed",
    "C66_update",
    "C66_load",
    "C66_no_layers",
    "C66_file",
    "C66_unknown_edge_class_refuted"
   ],
   "note": ""
  },
  {
   "property": "C67",
   "status": "proved",
   "theorems": [
    "C67_hue_on_the_circle",
    "C67_hues_never_repeat",
    "C67_even_spread",
    "C67_every_id_has_a_colour",
    "C67_colours_fill_the_circle",
    "C67_first_512_differ",
    "C67_colours_never_repeat_refuted",
    "C67_zero_per_revolution_refuted",
    "C67_case"
   ],
   "note": ""
  },
  {
   "property": "C68",
   "status": "proved",
   "theorems": [
    "C68_values",
    "C68_any_bytes",
    "C68_any_update",
    "C68_file",
    "C68_lost_mesh_refuted"
   ],
   "note": ""
  },
  {
   "property": "C69",
   "status": "proved",
   "theorems": [
    "C69_every_schedule",
    "C69_no_interference",
    "C69_messages"
   ],
   "note": ""
  },
  {
   "property": "C70",
   "status": "proved",
   "theorems": [
    "C70_binary_file",
    "C70_json_file",
    "C70_killed_binary",
    "C70_killed_json",
    "C70_killed_early",
    "C70_failed_binary",
    "C70_mesh_binary_file",
    "C70_mesh_json_file",
    "C70_mesh_gate",
    "C70_killed_mesh",
    "C70_bare_name",
    "C70_same_name_refuted",
    "C70_unwritable_refuted",
    "C70_failed_json_refuted"
   ],
   "note": ""
  },
  {
   "property": "C71",
   "status": "proved",
   "theorems": [
    "C71_trips",
    "C71_formats_agree",
    "C71_loaded_slots",
    "C71_append_refuted"
   ],
   "note": ""
  },
  {
   "property": "C72",
   "status": "proved",
   "theorems": [
    "C72_lossy_network",
    "C72_any_schedule",
    "C72_static_senders"
   ],
   "note": ""
  },
  {
   "property": "C73",
   "status": "proved",
   "theorems": [
    "C73_float_member",
    "C73_double_member",
    "C73_double_exact",
    "C73_float_written",
    "C73_unsigned_member",
    "C73_int_member",
    "C73_ex"
   ],
   "note": ""
  },
  {
   "property": "C74",
   "status": "proved",
   "theorems": [
    "C74_histories",
    "C74_nothing_after",
    "C74_bounded",
    "C74_returns",
    "C74_keeps_receiving",
    "C74_uninitialised_refuted",
    "C74_endless_shutdown_refuted",
    "C74_never_announced_refuted",
    "C74_ex"
   ],
   "note": ""
  },
  {
   "property": "C75",
   "status": "proved",
   "theorems": [
    "C75_graph",
    "C75_layer",
    "C75_dynamic_refuted",
    "C75_ex"
   ],
   "note": ""
  },
  {
   "property": "C76",
   "status": "proved",
   "theorems": [
    "C76_homogeneous",
    "C76_unlabelled_refuted",
    "C76_ex",
    "C76_layer",
    "C76_layer_edges_refuted",
    "C76_layer_case"
   ],
   "note": ""
  },
  {
   "property": "C77",
   "status": "proved",
   "theorems": [
    "C77_expand_rooms",
    "C77_rooms_of_places",
    "C77_flood_ends",
    "C77_missing_layer",
    "C77_two_rooms_refuted",
    "C77_mesh"
   ],
   "note": ""
  },
  {
   "property": "C78",
   "status": "proved",
   "theorems": [
    "C78_repartition_rooms",
    "C78_missing_layer",
    "C78_rooms_of_places",
    "C78_empty_room_refuted",
    "C78_mesh"
   ],
   "note": ""
  },
  {
   "property": "C79",
   "status": "proved",
   "theorems": [
    "C79_add_gt_room_label",
    "C79_default_refuted",
    "C79_missing_layer",
    "C79_all_or_nothing_refuted",
    "C79_mesh"
   ],
   "note": ""
  },
  {
   "property": "C80",
   "status": "proved",
   "theorems": [
    "C80_collection",
    "C80_numbered",
    "C80_record",
    "C80_any_files",
    "C80_files",
    "C80_bindings_refuted",
    "C80_bindings_reader_refuted",
    "C80_empty_refuted",
    "C80_failed_save_refuted",
    "C80_keys_refuted",
    "C80_names_refuted",
    "C80_case"
   ],
   "note": ""
  },
  {
   "property": "C81",
   "status": "proved",
   "theorems": [
    "C81_every_object",
    "C81_others",
    "C81_objects_stay",
    "C81_copy",
    "C81_independent",
    "C81_copies_compare_equal",
    "C81_move",
    "C81_swap",
    "C81_configuration",
    "C81_const_flags_refuted",
    "C81_self_move_refuted",
    "C81_case"
   ],
   "note": ""
  }
 ]
}