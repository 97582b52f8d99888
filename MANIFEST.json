{
 "claims": [
  {
   "property": "C01",
   "status": "proved",
   "theorems": [
    "C01_last_write_wins"
   ],
   "note": ""
  },
  {
   "property": "C02",
   "status": "proved",
   "theorems": [
    "C02_keys_exact_sorted"
   ],
   "note": ""
  },
  {
   "property": "C03",
   "status": "proved",
   "theorems": [
    "C03_slots",
    "C03_generic",
    "C03_keys_sorted",
    "C03_detector_name"
   ],
   "note": ""
  },
  {
   "property": "C04",
   "status": "proved",
   "theorems": [
    "C04_beam_crossing_angle"
   ],
   "note": ""
  },
  {
   "property": "C05",
   "status": "proved",
   "theorems": [
    "C05_destruction_exact",
    "C05_every_object_deleted_refuted",
    "C05_shared_object_refuted",
    "C05_same_tpc_twice_refuted"
   ],
   "note": "The guarded part is proved exactly; the parts of the claim that the code violates are shown by the _refuted theorems."
  },
  {
   "property": "C06",
   "status": "proved",
   "theorems": [
    "C06_materials",
    "C06_names_sorted",
    "C06_duplicate_refused"
   ],
   "note": ""
  },
  {
   "property": "C07",
   "status": "proved",
   "theorems": [
    "C07_fpa_index_lossless",
    "C07_fpa_index_refused",
    "C07_fps_index_lossless",
    "C07_fps_negative_pad_accepted",
    "C07_fps_index_refused",
    "C07_fps_no_rows_undefined",
    "C07_rect_index_lossless",
    "C07_rect_negative_pad_accepted",
    "C07_rect_alias_beyond_65536",
    "C07_vd_index_lossless",
    "C07_vd_index_refused"
   ],
   "note": ""
  },
  {
   "property": "C08",
   "status": "proved",
   "theorems": [
    "C08_rows_tile",
    "C08_npads_refuted"
   ],
   "note": ""
  },
  {
   "property": "C09",
   "status": "proved",
   "theorems": [
    "C09_nearest_sound",
    "C09_nearest_uniform_total",
    "C09_nearest_terminates_refuted",
    "C09_nearest_row",
    "C09_low_pads_undefined"
   ],
   "note": "Holds whenever the search returns; termination holds for rows of one height and is refuted for rows of different heights. Low pads lead to undefined behaviour at the edges (C09_low_pads_undefined)."
  },
  {
   "property": "C10",
   "status": "proved",
   "theorems": [
    "C10_neighbours"
   ],
   "note": ""
  },
  {
   "property": "C11",
   "status": "proved",
   "theorems": [
    "C11_fpa_centre_inside",
    "C11_fps_pad_geometry",
    "C11_fps_centre_inside",
    "C11_rect_centre_inside",
    "C11_vd_centre_inside"
   ],
   "note": ""
  },
  {
   "property": "C12",
   "status": "proved",
   "theorems": [
    "C12_fpa_clone_same",
    "C12_fps_clone_same",
    "C12_rect_clone_same",
    "C12_rect_clone_no_pads",
    "C12_vd_clone_same"
   ],
   "note": ""
  },
  {
   "property": "C13",
   "status": "proved",
   "theorems": [
    "C13_repeat",
    "C13_repeat_zero"
   ],
   "note": ""
  },
  {
   "property": "C14",
   "status": "proved",
   "theorems": [
    "C14_fps_fit",
    "C14_fps_exists",
    "C14_fps_pads_overlap_refuted"
   ],
   "note": ""
  },
  {
   "property": "C15",
   "status": "proved",
   "theorems": [
    "C15_fpa_nearest_centre",
    "C15_fps_nearest_centre"
   ],
   "note": ""
  },
  {
   "property": "C16",
   "status": "proved",
   "theorems": [
    "C16_fpa_neighbours",
    "C16_fps_neighbours",
    "C16_vd_neighbours"
   ],
   "note": ""
  },
  {
   "property": "C17",
   "status": "proved",
   "theorems": [
    "C17_fpa_nearest_cell",
    "C17_fpa_upper_edge_throws_refuted",
    "C17_fpa_nearest_total",
    "C17_fpa_nearest_outside_refuted"
   ],
   "note": ""
  },
  {
   "property": "C18",
   "status": "proved",
   "theorems": [
    "C18_vd_every_history",
    "C18_vd_stack",
    "C18_vd_geometry",
    "C18_vd_addRow_iff",
    "C18_vd_count",
    "C18_vd_phantom_pads_refuted",
    "C18_vd_extent_exact",
    "C18_vd_extent_repeat_refuted"
   ],
   "note": ""
  },
  {
   "property": "C19",
   "status": "proved",
   "theorems": [
    "C19_layers",
    "C19_touch",
    "C19_sum",
    "C19_barrel_extent",
    "C19_endcap_extent",
    "C19_first_layer_ignores_rmin"
   ],
   "note": ""
  },
  {
   "property": "C20",
   "status": "proved",
   "theorems": [
    "C20_inverse",
    "C20_isometry",
    "C20_origin_axes"
   ],
   "note": ""
  },
  {
   "property": "C21",
   "status": "proved",
   "theorems": [
    "C21_rectangle",
    "C21_trapezoid",
    "C21_flat_trapezoid_refuted",
    "C21_surface"
   ],
   "note": ""
  },
  {
   "property": "C22",
   "status": "proved",
   "theorems": [
    "C22_fill_exact",
    "C22_fill_once",
    "C22_bindings_stay",
    "C22_history_total",
    "C22_final",
    "C22_no_retry",
    "C22_mixed_refuted",
    "C22_null_undefined",
    "C22_surfaces_leak",
    "C22_copy"
   ],
   "note": ""
  },
  {
   "property": "C23",
   "status": "proved",
   "theorems": [
    "C23_cylindrical_inverse",
    "C23_cylindrical_accessors",
    "C23_phi_range",
    "C23_spherical_inverse",
    "C23_spherical_accessors",
    "C23_theta_range",
    "C23_cross",
    "C23_dot",
    "C23_lengths",
    "C23_unit",
    "C23_cauchy_schwarz",
    "C23_equality",
    "C23_bracket"
   ],
   "note": ""
  },
  {
   "property": "C24",
   "status": "proved",
   "theorems": [
    "C24_lookup",
    "C24_add",
    "C24_other_calls",
    "C24_layout_set",
    "C24_old_interface"
   ],
   "note": ""
  },
  {
   "property": "C25",
   "status": "proved",
   "theorems": [
    "C25_plane_extent",
    "C25_plane_extent_stale_refuted"
   ],
   "note": ""
  },
  {
   "property": "C26",
   "status": "proved",
   "theorems": [
    "C26_nearest_module",
    "C26_nearest_pad",
    "C26_inside"
   ],
   "note": ""
  },
  {
   "property": "C27",
   "status": "proved",
   "theorems": [
    "C27_sides"
   ],
   "note": ""
  },
  {
   "property": "C28",
   "status": "proved",
   "theorems": [
    "C28_copy_never_returns",
    "C28_assign_never_returns",
    "C28_module_clone"
   ],
   "note": ""
  },
  {
   "property": "C29",
   "status": "proved",
   "theorems": [
    "C29_getters",
    "C29_local_to_global",
    "C29_global_to_local",
    "C29_round_trip_local",
    "C29_round_trip_global",
    "C29_side_forgotten_refuted"
   ],
   "note": ""
  },
  {
   "property": "C30",
   "status": "proved",
   "theorems": [
    "C30_order"
   ],
   "note": ""
  },
  {
   "property": "C31",
   "status": "proved",
   "theorems": [
    "C31_attribute_kept",
    "C31_document_kept",
    "C31_reference_refuted"
   ],
   "note": ""
  },
  {
   "property": "C32",
   "status": "proved",
   "theorems": [
    "C32_params_survive",
    "C32_value_survives",
    "C32_doubles_nearly"
   ],
   "note": ""
  },
  {
   "property": "C33",
   "status": "proved",
   "theorems": [
    "C33_int_kept",
    "C33_double_close",
    "C33_text_stable",
    "C33_double_stable",
    "C33_kept_nearest",
    "C33_nearest_kept",
    "C33_whole_kept",
    "C33_lossy",
    "C33_largest_refuted"
   ],
   "note": ""
  },
  {
   "property": "C34",
   "status": "proved",
   "theorems": [
    "C34_barrel_survives",
    "C34_endcap_survives",
    "C34_parameters_back",
    "C34_drift_refuted"
   ],
   "note": ""
  },
  {
   "property": "C35",
   "status": "proved",
   "theorems": [
    "C35_rectangular_survives",
    "C35_rectangular_repeats_refuted",
    "C35_rectangular_unloadable_refuted",
    "C35_fixed_size_survives",
    "C35_full_ring_refuted",
    "C35_pad_lost_refuted",
    "C35_fixed_angle_refuted",
    "C35_versatile_refuted"
   ],
   "note": ""
  },
  {
   "property": "C36",
   "status": "proved",
   "theorems": [
    "C36_comes_back",
    "C36_layouts",
    "C36_module_numbers",
    "C36_module_kept",
    "C36_place_kept",
    "C36_side_refuted",
    "C36_frequency_refuted",
    "C36_fixed_angle_refuted",
    "C36_rectangle_refuted",
    "C36_drift_refuted",
    "C36_unknown_type",
    "C36_old_file"
   ],
   "note": ""
  },
  {
   "property": "C37",
   "status": "proved",
   "theorems": [
    "C37_ladders_survive",
    "C37_ladders_back",
    "C37_ladders_unknown_refuted",
    "C37_disks_survive",
    "C37_disks_back",
    "C37_disks_many_refuted",
    "C37_disks_unknown_refuted",
    "C37_planes_survive",
    "C37_planes_back",
    "C37_planes_rotation_refuted",
    "C37_planes_resolution_refuted",
    "C37_planes_dut_refuted",
    "C37_planes_unknown_refuted",
    "C37_tracker_planes_refuted",
    "C37_tracker_planes_read"
   ],
   "note": ""
  },
  {
   "property": "C38",
   "status": "proved",
   "theorems": [
    "C38_round_trip",
    "C38_slots",
    "C38_fitting",
    "C38_unchanged",
    "C38_shape_refuted",
    "C38_same_shape_refuted",
    "C38_tracker_planes_refuted"
   ],
   "note": ""
  },
  {
   "property": "C39",
   "status": "proved",
   "theorems": [
    "C39_loaded",
    "C39_getters",
    "C39_half",
    "C39_again_refuted",
    "C39_unreadable_refuted"
   ],
   "note": ""
  },
  {
   "property": "C40",
   "status": "proved",
   "theorems": [
    "C40_dominant_kept",
    "C40_new_taken",
    "C40_exact",
    "C40_only_parts_refuted",
    "C40_field_lost_refuted",
    "C40_part_missing_refuted",
    "C40_childless_refuted",
    "C40_new_repeated_refuted",
    "C40_apart_refuted",
    "C40_dominance",
    "C40_second_merge_refuted"
   ],
   "note": ""
  },
  {
   "property": "C41",
   "status": "proved",
   "theorems": [
    "C41_ends",
    "C41_tidy_defined",
    "C41_open_quote_refuted",
    "C41_open_comment_refuted",
    "C41_open_reference_refuted",
    "C41_ampersand_dropped"
   ],
   "note": ""
  },
  {
   "property": "C42",
   "status": "proved",
   "theorems": [
    "C42_values",
    "C42_max_radius",
    "C42_inner_angles",
    "C42_outer_angles",
    "C42_thickness",
    "C42_thickness_other_refuted"
   ],
   "note": ""
  },
  {
   "property": "C43",
   "status": "proved",
   "theorems": [
    "C43_count",
    "C43_values",
    "C43_seven",
    "C43_not_seven_refuted",
    "C43_not_seven_exists",
    "C43_support_z",
    "C43_sign_cut_refuted",
    "C43_sensitive_z",
    "C43_sensor_distance",
    "C43_mirror",
    "C43_petal_phi",
    "C43_max_radius",
    "C43_max_radius_mirror_refuted",
    "C43_perpendicular_thickness"
   ],
   "note": ""
  },
  {
   "property": "C44",
   "status": "proved",
   "theorems": [
    "C44_lookup_never"
   ],
   "note": ""
  },
  {
   "property": "C45",
   "status": "proved",
   "theorems": [
    "C45_map_built",
    "C45_map_refused",
    "C45_reads_between",
    "C45_reads_grid",
    "C45_reads_outside",
    "C45_point_range_undefined",
    "C45_uncut_range_undefined"
   ],
   "note": ""
  },
  {
   "property": "C46",
   "status": "proved",
   "theorems": [
    "C46_again_same",
    "C46_different_objects",
    "C46_made_for",
    "C46_not_null",
    "C46_coordinates_refuted",
    "C46_failed_again_refuted",
    "C46_failed_again_late"
   ],
   "note": ""
  },
  {
   "property": "C47",
   "status": "proved",
   "theorems": [
    "C47_other_pair",
    "C47_equal_points",
    "C47_undisturbed",
    "C47_since_other",
    "C47_names_emptied_refuted",
    "C47_lengths_undefined_refuted",
    "C47_failure_forgotten_refuted"
   ],
   "note": ""
  },
  {
   "property": "C48",
   "status": "proved",
   "theorems": [
    "C48_equal_points",
    "C48_answers",
    "C48_thickness_total",
    "C48_lengths_nonneg",
    "C48_parallel",
    "C48_short_step_refuted"
   ],
   "note": ""
  },
  {
   "property": "C49",
   "status": "proved",
   "theorems": [
    "C49_decode",
    "C49_value",
    "C49_injective",
    "C49_throws"
   ],
   "note": ""
  },
  {
   "property": "C50",
   "status": "proved",
   "theorems": [
    "C50_last_handler",
    "C50_memory_safe",
    "C50_twice_refuted",
    "C50_two_types_refuted"
   ],
   "note": ""
  },
  {
   "property": "C51",
   "status": "proved",
   "theorems": [
    "C51_fpa_pads_in_row",
    "C51_fps_pads_in_row",
    "C51_rect_pads_in_row",
    "C51_vd_pads_in_row"
   ],
   "note": ""
  },
  {
   "property": "C52",
   "status": "proved",
   "theorems": [
    "C52_rect_inside_and_distance"
   ],
   "note": ""
  },
  {
   "property": "C53",
   "status": "proved",
   "theorems": [
    "C53_fps_nearest_cell",
    "C53_fps_nearest_total",
    "C53_fps_nearest_minimal",
    "C53_fps_nearest_direction_refuted"
   ],
   "note": ""
  },
  {
   "property": "C54",
   "status": "proved",
   "theorems": [
    "C54_fpa_distance",
    "C54_fpa_turn_refuted",
    "C54_fps_distance",
    "C54_vd_distance"
   ],
   "note": ""
  },
  {
   "property": "C55",
   "status": "proved",
   "theorems": [
    "C55_vd_nearest_cell",
    "C55_vd_nearest_centre",
    "C55_vd_before_start_refuted",
    "C55_vd_after_end",
    "C55_vd_negative_row_refuted"
   ],
   "note": ""
  },
  {
   "property": "C56",
   "status": "proved",
   "theorems": [
    "C56_fpa_inside_exact",
    "C56_fpa_inside_any_exact",
    "C56_fps_inside_exact",
    "C56_fps_inside_any_sound",
    "C56_fps_inside_any_complete",
    "C56_vd_inside_exact",
    "C56_vd_inside_below_refuted",
    "C56_vd_inside_above_refuted",
    "C56_vd_inside_any_complete",
    "C56_vd_centre_outside_refuted",
    "C56_vd_gap_inside_refuted"
   ],
   "note": ""
  },
  {
   "property": "C57",
   "status": "proved",
   "theorems": [
    "C57_fpa_counts"
   ],
   "note": ""
  },
  {
   "property": "C58",
   "status": "proved",
   "theorems": [
    "C58_distance",
    "C58_inside"
   ],
   "note": ""
  },
  {
   "property": "C59",
   "status": "proved",
   "theorems": [
    "C59_extents_cartesian",
    "C59_extents_polar_centred",
    "C59_extents_polar_radius",
    "C59_extents_polar_angle",
    "C59_extents_polar_surrounding",
    "C59_grazed_corner_refuted",
    "C59_full_ring_refuted"
   ],
   "note": ""
  },
  {
   "property": "C60",
   "status": "proved",
   "theorems": [
    "C60_border_cartesian",
    "C60_border_polar",
    "C60_border_too_wide_refuted"
   ],
   "note": ""
  },
  {
   "property": "C61",
   "status": "proved",
   "theorems": [
    "C61_calls_succeed",
    "C61_calls_not_implemented",
    "C61_every_history"
   ],
   "note": ""
  },
  {
   "property": "C62",
   "status": "proved",
   "theorems": [
    "C62_inside_found",
    "C62_found_inside",
    "C62_below_refuted"
   ],
   "note": ""
  },
  {
   "property": "C63",
   "status": "proved",
   "theorems": [
    "C63_nearest",
    "C63_inside",
    "C63_few_refuted",
    "C63_origin_refuted"
   ],
   "note": ""
  },
  {
   "property": "C64",
   "status": "proved",
   "theorems": [
    "C64_first_crossing",
    "C64_negative_half_refuted",
    "C64_no_gap_refuted"
   ],
   "note": ""
  },
  {
   "property": "C65",
   "status": "proved",
   "theorems": [
    "C65_cut_refuted",
    "C65_repeated_attribute_refuted"
   ],
   "note": ""
  },
  {
   "property": "C66",
   "status": "proved",
   "theorems": [
    "C66_field_survives",
    "C66_field_back",
    "C66_material_survives",
    "C66_material_back",
    "C66_material_no_number_refuted",
    "C66_material_unit_refuted",
    "C66_material_blank_refuted"
   ],
   "note": ""
  },
  {
   "property": "C67",
   "status": "proved",
   "theorems": [
    "C67_telescope_table",
    "C67_telescope_refused",
    "C67_overloads_refuted",
    "C67_planes_by_index",
    "C67_planes_by_ID",
    "C67_layout_ID_refuted"
   ],
   "note": ""
  },
  {
   "property": "C68",
   "status": "proved",
   "theorems": [
    "C68_in_full",
    "C68_comment_refuted"
   ],
   "note": ""
  },
  {
   "property": "C69",
   "status": "proved",
   "theorems": [
    "C69_answers",
    "C69_right_unique",
    "C69_local_where",
    "C69_local_after_material",
    "C69_local_new_refuted",
    "C69_local_after_list_refuted",
    "C69_local_outside_refuted",
    "C69_name_kept",
    "C69_name_changes_refuted"
   ],
   "note": ""
  },
  {
   "property": "C70",
   "status": "proved",
   "theorems": [
    "C70_hierarchy",
    "C70_never_returns_refuted"
   ],
   "note": ""
  },
  {
   "property": "C71",
   "status": "proved",
   "theorems": [
    "C71_objects",
    "C71_initialize",
    "C71_configured_unique",
    "C71_gdml_element"
   ],
   "note": ""
  },
  {
   "property": "C72",
   "status": "proved",
   "theorems": [
    "C72_initialised_once",
    "C72_numbers",
    "C72_lists",
    "C72_lists_appended",
    "C72_lists_appended_refuted",
    "C72_points"
   ],
   "note": ""
  },
  {
   "property": "C73",
   "status": "proved",
   "theorems": [
    "C73_angle_in_range",
    "C73_full_circle",
    "C73_two_turns",
    "C73_around_mean",
    "C73_large_angle_hangs"
   ],
   "note": ""
  },
  {
   "property": "C74",
   "status": "proved",
   "theorems": [
    "C74_map_in_doubles",
    "C74_exact_grid_complete",
    "C74_last_plane_lost",
    "C74_grid_points_read",
    "C74_reading_between",
    "C74_reading_defined",
    "C74_reading_refuted",
    "C74_far_plane_read"
   ],
   "note": ""
  },
  {
   "property": "C75",
   "status": "proved",
   "theorems": [
    "C75_everything_printed",
    "C75_sit_set_twice",
    "C75_heading_without_detector",
    "C75_ftd_stops"
   ],
   "note": ""
  },
  {
   "property": "C76",
   "status": "proved",
   "theorems": [
    "C76_format_left",
    "C76_second_print",
    "C76_same_print"
   ],
   "note": ""
  },
  {
   "property": "C77",
   "status": "proved",
   "theorems": [
    "C77_ladders",
    "C77_disks",
    "C77_planes",
    "C77_tracker_planes",
    "C77_ladder_overflow",
    "C77_info_overflow"
   ],
   "note": ""
  },
  {
   "property": "C78",
   "status": "proved",
   "theorems": [
    "C78_calorimeter",
    "C78_cells_lost"
   ],
   "note": ""
  },
  {
   "property": "C79",
   "status": "proved",
   "theorems": [
    "C79_parameters",
    "C79_field",
    "C79_tpc",
    "C79_module"
   ],
   "note": ""
  },
  {
   "property": "C80",
   "status": "proved",
   "theorems": [
    "C80_nearest",
    "C80_right_edge_throws"
   ],
   "note": ""
  },
  {
   "property": "C81",
   "status": "proved",
   "theorems": [
    "C81_ends_or_hangs",
    "C81_exact_sizes_end",
    "C81_hangs"
   ],
   "note": ""
  },
  {
   "property": "C82",
   "status": "proved",
   "theorems": [
    "C82_centre",
    "C82_round_trip"
   ],
   "note": ""
  },
  {
   "property": "C83",
   "status": "proved",
   "theorems": [
    "C83_settled",
    "C83_parameters",
    "C83_field",
    "C83_material",
    "C83_ladders",
    "C83_disks",
    "C83_planes",
    "C83_disk_of_pads",
    "C83_barrel",
    "C83_endcap",
    "C83_calorimeter_refuted"
   ],
   "note": ""
  },
  {
   "property": "C84",
   "status": "proved",
   "theorems": [
    "C84_centre",
    "C84_questions",
    "C84_any_pad",
    "C84_rect_centre_on_pad",
    "C84_fpa_nearest_of_centre",
    "C84_fpa_any_pad",
    "C84_fpa_edge_throws_refuted",
    "C84_fpa_pad_below_zero_refuted"
   ],
   "note": ""
  },
  {
   "property": "C85",
   "status": "proved",
   "theorems": [
    "C85_merge_only_target",
    "C85_merge_arguments",
    "C85_merge_unreadable",
    "C85_merge_refused",
    "C85_merge_primary",
    "C85_merge_written",
    "C85_merge_status_refuted",
    "C85_copy_only_target",
    "C85_copy_arguments",
    "C85_copy_unreadable",
    "C85_copy_loads",
    "C85_copy_same",
    "C85_copy_identical",
    "C85_copies_settle",
    "C85_copy_unwritable_refuted",
    "C85_print_all",
    "C85_print_status",
    "C85_print_ftd_refuted"
   ],
   "note": ""
  },
  {
   "property": "C86",
   "status": "proved",
   "theorems": [
    "C86_rect_found",
    "C86_fpa_found",
    "C86_fpa_own_distance_refuted",
    "C86_fpa_lost_refuted",
    "C86_wrong_module_refuted"
   ],
   "note": ""
  },
  {
   "property": "C87",
   "status": "proved",
   "theorems": [
    "C87_old_nearest",
    "C87_old_no_rows_undefined",
    "C87_old_own_pad",
    "C87_old_agrees",
    "C87_offset_not_nearest_refuted",
    "C87_old_far_refuted"
   ],
   "note": ""
  },
  {
   "property": "C88",
   "status": "proved",
   "theorems": [
    "C88_turns",
    "C88_same_document",
    "C88_returns",
    "C88_tidy",
    "C88_never_returns_refuted",
    "C88_position",
    "C88_first_error"
   ],
   "note": ""
  },
  {
   "property": "C89",
   "status": "proved",
   "theorems": [
    "C89_safe",
    "C89_throw",
    "C89_exact",
    "C89_no_leak",
    "C89_same_list",
    "C89_asked_again",
    "C89_again_refused",
    "C89_self_assignment_refuted",
    "C89_shared_layout_refuted",
    "C89_two_tpcs_refuted",
    "C89_renumbered_refuted"
   ],
   "note": ""
  },
  {
   "property": "C90",
   "status": "proved",
   "theorems": [
    "C90_layers",
    "C90_nearest",
    "C90_order",
    "C90_strict",
    "C90_same_place_refuted",
    "C90_sum",
    "C90_exact",
    "C90_units",
    "C90_extent",
    "C90_order_matters_refuted"
   ],
   "note": ""
  },
  {
   "property": "C91",
   "status": "proved",
   "theorems": [
    "C91_links",
    "C91_trees",
    "C91_calls",
    "C91_calls_any",
    "C91_no_leak",
    "C91_iterate",
    "C91_iterate_value",
    "C91_last_child",
    "C91_document",
    "C91_remove_stranger_refuted",
    "C91_self_assign_refuted",
    "C91_assign_below_refuted",
    "C91_link_twice_refuted"
   ],
   "note": ""
  },
  {
   "property": "C92",
   "status": "proved",
   "theorems": [
    "C92_links",
    "C92_calls",
    "C92_calls_any",
    "C92_no_leak",
    "C92_attribute",
    "C92_forwards",
    "C92_backwards",
    "C92_visits_all",
    "C92_set_get",
    "C92_copy",
    "C92_self_assign_refuted",
    "C92_hidden_refuted",
    "C92_twice_refuted"
   ],
   "note": ""
  },
  {
   "property": "C93",
   "status": "proved",
   "theorems": [
    "C93_exchange",
    "C93_many",
    "C93_print",
    "C93_prolog",
    "C93_nothing_lost",
    "C93_ends",
    "C93_turns",
    "C93_nul_refuted",
    "C93_comment_refuted"
   ],
   "note": ""
  },
  {
   "property": "C94",
   "status": "proved",
   "theorems": [
    "C94_value_reference",
    "C94_apart",
    "C94_key_list",
    "C94_iterator",
    "C94_index",
    "C94_threads",
    "C94_threads_refuted",
    "C94_index_refuted"
   ],
   "note": ""
  },
  {
   "property": "C95",
   "status": "proved",
   "theorems": [
    "C95_max_radius_near",
    "C95_points_kept",
    "C95_far_points_skipped",
    "C95_points_kept_refuted"
   ],
   "note": ""
  },
  {
   "property": "C96",
   "status": "proved",
   "theorems": [
    "C96_chain",
    "C96_null",
    "C96_casts",
    "C96_negative_index_refuted",
    "C96_dangling_refuted",
    "C96_after_delete_refuted"
   ],
   "note": ""
  },
  {
   "property": "C97",
   "status": "proved",
   "theorems": [
    "C97_nearest_inside",
    "C97_centre_found",
    "C97_centre_found_refuted"
   ],
   "note": ""
  },
  {
   "property": "C98",
   "status": "proved",
   "theorems": [
    "C98_nearest_inside",
    "C98_centre_found",
    "C98_pads_fit",
    "C98_rows"
   ],
   "note": ""
  },
  {
   "property": "C99",
   "status": "proved",
   "theorems": [
    "C99_nearest_inside",
    "C99_centre_found",
    "C99_centre_found_refuted",
    "C99_stacked"
   ],
   "note": ""
  },
  {
   "property": "C100",
   "status": "proved",
   "theorems": [
    "C100_fpa_every_point",
    "C100_fps_every_point",
    "C100_edge_refuted"
   ],
   "note": ""
  },
  {
   "property": "C101",
   "status": "proved",
   "theorems": [
    "C101_rect",
    "C101_vd",
    "C101_vd_accepted",
    "C101_fpa",
    "C101_fps",
    "C101_rect_index_refuted",
    "C101_fpa_index_refuted"
   ],
   "note": ""
  },
  {
   "property": "C102",
   "status": "proved",
   "theorems": [
    "C102_inside",
    "C102_inside_only",
    "C102_one_pad",
    "C102_gap_refuted"
   ],
   "note": ""
  },
  {
   "property": "C103",
   "status": "proved",
   "theorems": [
    "C103_inside",
    "C103_outside",
    "C103_centre"
   ],
   "note": ""
  },
  {
   "property": "C104",
   "status": "proved",
   "theorems": [
    "C104_inside",
    "C104_outside",
    "C104_one_pad",
    "C104_turn"
   ],
   "note": ""
  }
 ]
}