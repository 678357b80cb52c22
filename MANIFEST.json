{
 "claims": [
  {
   "property": "C01",
   "status": "proved",
   "theorems": [
    "C01_tile_contains_projected_location",
    "C01_tile_bounds_contain_location"
   ],
   "note": ""
  },
  {
   "property": "C02",
   "status": "proved",
   "theorems": [
    "C02_bounds_are_grid_lines",
    "C02_metric_bounds",
    "C02_tile_unique"
   ],
   "note": ""
  },
  {
   "property": "C03",
   "status": "proved",
   "theorems": [
    "C03_child_tile_in_parent",
    "C03_children_subdivide"
   ],
   "note": ""
  },
  {
   "property": "C04",
   "status": "proved",
   "theorems": [
    "C04_index_range_inside",
    "C04_western_edge_column",
    "C04_southern_edge_row",
    "C04_index_range",
    "C04_square_of_latitudes",
    "C04_index_range_refuted"
   ],
   "note": "The plain range claim is refuted on the western and southern edges (C04_index_range_refuted); C04_index_range is the exact characterisation."
  },
  {
   "property": "C05",
   "status": "proved",
   "theorems": [
    "C05_rows_grow_northwards",
    "C05_row_is_flipped_ogc_row",
    "C05_ogc_row_refuted"
   ],
   "note": "The row convention is established exactly: rows grow northwards and equal the flipped OGC row. The reading that rows are OGC rows is refuted (C05_ogc_row_refuted)."
  },
  {
   "property": "C06",
   "status": "proved",
   "theorems": [
    "C06_limits_cover_and_are_tight",
    "C06_limits_exist",
    "C06_limits_order_independent",
    "C06_limits_cover_rectangle",
    "C06_well_known_tile_sets"
   ],
   "note": ""
  },
  {
   "property": "C07",
   "status": "proved",
   "theorems": [
    "C07_dms_fixed_width"
   ],
   "note": ""
  },
  {
   "property": "C08",
   "status": "proved",
   "theorems": [
    "C08_dms_accuracy",
    "C08_whole_seconds",
    "C08_whole_seconds_refuted"
   ],
   "note": ""
  },
  {
   "property": "C09",
   "status": "proved",
   "theorems": [
    "C09_fields_at_most_60",
    "C09_overflow_characterised",
    "C09_minutes_below_60_refuted",
    "C09_seconds_below_60_refuted"
   ],
   "note": "Below 60 is refuted with witnesses; C09_overflow_characterised says exactly which angles overflow."
  },
  {
   "property": "C10",
   "status": "proved",
   "theorems": [
    "C10_default_format",
    "C10_format_is_tokenwise",
    "C10_literals_preserved"
   ],
   "note": ""
  },
  {
   "property": "C11",
   "status": "proved",
   "theorems": [
    "C11_decimal_degrees_unsigned",
    "C11_signed_degrees_refuted"
   ],
   "note": "The documented signed reading is refuted (C11_signed_degrees_refuted)."
  },
  {
   "property": "C12",
   "status": "proved",
   "theorems": [
    "C12_igeolo"
   ],
   "note": ""
  },
  {
   "property": "C13",
   "status": "proved",
   "theorems": [
    "C13_srtm_coverage",
    "C13_srtm_ids_are_cells",
    "C13_srtm_name"
   ],
   "note": ""
  },
  {
   "property": "C14",
   "status": "proved",
   "theorems": [
    "C14_generic_name_exact",
    "C14_generic_outside",
    "C14_generic_ids_are_cells_exact",
    "C14_configured_range",
    "C14_binary64_whole_degrees",
    "C14_binary64_name_correct_iff",
    "C14_binary64_name_refuted"
   ],
   "note": "Exact reals for arbitrary formats and ranges; binary64 (SpecFloat) for the default format, where the correct names are characterised by an iff. The whole degrees are those the binary64 computation floors to."
  },
  {
   "property": "C15",
   "status": "proved",
   "theorems": [
    "C15_cache_transparent",
    "C15_answers_come_from_a_load",
    "C15_missing_tile_is_remembered",
    "C15_failed_load_is_retried"
   ],
   "note": "A tile that was missing once stays missing while it is cached; a load that raised is retried."
  },
  {
   "property": "C16",
   "status": "proved",
   "theorems": [
    "C16_bounded_without_duplicates",
    "C16_holds_most_recently_used",
    "C16_loads_only_when_not_recent"
   ],
   "note": ""
  },
  {
   "property": "C17",
   "status": "proved",
   "theorems": [
    "C17_gdal_missing_file_leaves_elevation",
    "C17_loading_error",
    "C17_loading_error_refuted",
    "C17_thin_tile",
    "C17_thick_tile",
    "C17_location_unchanged",
    "C17_no_tile_no_effect",
    "C17_missing_tile_leaves_elevation",
    "C17_no_data_post_refuted",
    "C17_constant_model"
   ],
   "note": "The documented handling of posts without data and of loading errors does not exist (C17_no_data_post_refuted, C17_loading_error_refuted)."
  },
  {
   "property": "C18",
   "status": "proved",
   "theorems": [
    "C18_post_is_returned",
    "C18_between_posts",
    "C18_within_posts"
   ],
   "note": ""
  },
  {
   "property": "C19",
   "status": "proved",
   "theorems": [
    "C19_world_to_image",
    "C19_short_polynomial"
   ],
   "note": ""
  },
  {
   "property": "C20",
   "status": "proved",
   "theorems": [
    "C20_on_surface",
    "C20_residual_is_objective",
    "C20_search_start",
    "C20_option_names"
   ],
   "note": ""
  },
  {
   "property": "C21",
   "status": "proved",
   "theorems": [
    "C21_every_term_once",
    "C21_coefficient_count"
   ],
   "note": ""
  },
  {
   "property": "C22",
   "status": "proved",
   "theorems": [
    "C22_quadratic",
    "C22_needs_ten_coefficients",
    "C22_special_case_of_general"
   ],
   "note": ""
  },
  {
   "property": "C23",
   "status": "proved",
   "theorems": [
    "C23_world_round_trip",
    "C23_image_round_trip",
    "C23_ground_to_image"
   ],
   "note": ""
  },
  {
   "property": "C24",
   "status": "proved",
   "theorems": [
    "C24_image_to_world_section",
    "C24_world_to_image_section",
    "C24_responsible_unique",
    "C24_missing_section"
   ],
   "note": ""
  },
  {
   "property": "C25",
   "status": "proved",
   "theorems": [
    "C25_wgs84",
    "C25_rectangular_round_trip",
    "C25_geodetic_identity",
    "C25_two_pi_domain",
    "C25_two_pi_round_trip",
    "C25_two_pi_ground_round_trip",
    "C25_two_pi_identity_refuted"
   ],
   "note": "The identity for the 0..2pi domain is refuted for western longitudes (C25_two_pi_identity_refuted)."
  },
  {
   "property": "C26",
   "status": "proved",
   "theorems": [
    "C26_accepted_inputs",
    "C26_derived_values"
   ],
   "note": "Unit vectors that do not span space raise LinAlgError, not ValueError (part of the theorem)."
  },
  {
   "property": "C27",
   "status": "proved",
   "theorems": [
    "C27_inverse_of_forward",
    "C27_forward_of_inverse",
    "C27_forward_takes",
    "C27_sensor_round_trip",
    "C27_world_round_trip"
   ],
   "note": ""
  },
  {
   "property": "C28",
   "status": "proved",
   "theorems": [
    "C28_least_error",
    "C28_exact_fit",
    "C28_recovers_transform",
    "C28_mismatched_lengths",
    "C28_rejected"
   ],
   "note": ""
  },
  {
   "property": "C29",
   "status": "proved",
   "theorems": [
    "C29_builder_geographic",
    "C29_builder_projected",
    "C29_builder_errors",
    "C29_geotransform",
    "C29_reprojection",
    "C29_rejects_singular",
    "C29_rejects_short",
    "C29_image_round_trip",
    "C29_world_round_trip",
    "C29_height_unit_refuted",
    "C29_displacement",
    "C29_world_round_trip_reprojected"
   ],
   "note": "C29_displacement is the exact displacement for a transformer whose third output is not 1; C29_height_unit_refuted is a witness."
  },
  {
   "property": "C30",
   "status": "proved",
   "theorems": [
    "C30_window_image_to_world",
    "C30_window_world_to_image",
    "C30_round_trip"
   ],
   "note": ""
  },
  {
   "property": "C31",
   "status": "proved",
   "theorems": [
    "C31_world_to_image",
    "C31_image_to_world",
    "C31_seeds_rpc_search"
   ],
   "note": ""
  },
  {
   "property": "C32",
   "status": "proved",
   "theorems": [
    "C32_pixel_round_trip",
    "C32_grid_round_trip",
    "C32_spacing",
    "C32_grid_of_plane_point",
    "C32_plane_point_of_grid",
    "C32_on_image_plane"
   ],
   "note": ""
  },
  {
   "property": "C33",
   "status": "proved",
   "theorems": [
    "C33_normals",
    "C33_exact",
    "C33_unique",
    "C33_error_means_no_solution",
    "C33_finds_every_solution",
    "C33_answer_or_error",
    "C33_nan_iff",
    "C33_reference_below_track",
    "C33_below_plane_refuted",
    "C33_nadir_refuted",
    "C33_reference_below_track_refuted"
   ],
   "note": "The plain claim (point or ValueError) is refuted by three witnesses; C33_nan_iff and C33_reference_below_track describe exactly what happens instead."
  },
  {
   "property": "C34",
   "status": "proved",
   "theorems": [
    "C34_polynomials",
    "C34_polynomials_2d",
    "C34_velocity",
    "C34_range_rate_is_derivative",
    "C34_planar",
    "C34_polar_format",
    "C34_closest_approach",
    "C34_compressed",
    "C34_scene_centre",
    "C34_offsets"
   ],
   "note": ""
  },
  {
   "property": "C35",
   "status": "proved",
   "theorems": [
    "C35_iteration",
    "C35_height",
    "C35_on_contour",
    "C35_error"
   ],
   "note": "The threshold test is one-sided (height error at most the threshold), which is the sense proved."
  },
  {
   "property": "C36",
   "status": "proved",
   "theorems": [
    "C36_wgs84",
    "C36_setup",
    "C36_side",
    "C36_first_returned",
    "C36_on_contour",
    "C36_samples_cover",
    "C36_step",
    "C36_no_step",
    "C36_crossing_found",
    "C36_returned",
    "C36_no_summary",
    "C36_no_intersection",
    "C36_threshold_refuted",
    "C36_threshold_extrapolates"
   ],
   "note": "Order and bracketing are proved for samples whose height is not exactly the threshold; exactly at the threshold the sample is classed as below and the crossing is extrapolated outside the pair of samples (C36_threshold_refuted, C36_threshold_extrapolates)."
  },
  {
   "property": "C37",
   "status": "proved",
   "theorems": [
    "C37_terminates",
    "C37_accurate",
    "C37_off_plane_never_converges",
    "C37_projects_along_normal",
    "C37_height_is_multiplied"
   ],
   "note": "Both directions proved. C37_height_is_multiplied shows why off-plane points do not converge: their height is added again in every iteration."
  },
  {
   "property": "C38",
   "status": "proved",
   "theorems": [
    "C38_from_metadata",
    "C38_no_model",
    "C38_unusable_model",
    "C38_missing_block",
    "C38_image_to_world",
    "C38_world_to_image"
   ],
   "note": "From metadata to coordinates: updating the metadata and building the model (C38_from_metadata) and the geometry alone. An RGAZIM image of an algorithm other than PFA or RGAZCOMP gets a model that raises AttributeError when used (C38_unusable_model)."
  },
  {
   "property": "C39",
   "status": "proved",
   "theorems": [
    "C39_history_independent",
    "C39_chip_metadata",
    "C39_scaling_refused"
   ],
   "note": ""
  },
  {
   "property": "C40",
   "status": "proved",
   "theorems": [
    "C40_chip_of_chip"
   ],
   "note": ""
  },
  {
   "property": "C41",
   "status": "proved",
   "theorems": [
    "C41_affine",
    "C41_corners",
    "C41_lines",
    "C41_window_shift",
    "C41_single_pixel_wide"
   ],
   "note": ""
  },
  {
   "property": "C42",
   "status": "proved",
   "theorems": [
    "C42_first_chip",
    "C42_chip_of_chip",
    "C42_window_of_window",
    "C42_history_dependent",
    "C42_history_independent_refuted",
    "C42_thin_chip_blocks"
   ],
   "note": "The claim that the metadata equals that of a fresh updater is false and refuted; what the code does instead is proved exactly for every history of two windows, as are first chips and chips of chips."
  },
  {
   "property": "C43",
   "status": "proved",
   "theorems": [
    "C43_pixel_shift_refuted",
    "C43_exact"
   ],
   "note": "The agreement is false of the code; the exact mapping is proved for every window and output size (C43_exact) and its difference from the shift is x/w columns, y/h rows."
  },
  {
   "property": "C44",
   "status": "proved",
   "theorems": [
    "C44_actual_range",
    "C44_suggested_inside_actual",
    "C44_suggested_range",
    "C44_order",
    "C44_constant_image",
    "C44_no_pixels",
    "C44_zero_last_value",
    "C44_zero_last_value_refuted"
   ],
   "note": "The order of the suggested range is proved as an iff (C44_order); C44_constant_image and C44_zero_last_value_refuted show where it fails."
  },
  {
   "property": "C45",
   "status": "proved",
   "theorems": [
    "C45_minmax",
    "C45_minmax_overflow_refuted",
    "C45_minmax_ends",
    "C45_dra",
    "C45_dra_buckets",
    "C45_dra_buckets_refuted",
    "C45_dra_ends",
    "C45_values",
    "C45_dra_own_range",
    "C45_dra_own_range_refuted",
    "C45_empty",
    "C45_image",
    "C45_channels",
    "C45_no_adjustment",
    "C45_two_bands"
   ],
   "note": "Modes as the code runs them; the wrap of 16-bit signed tiles is C45_minmax_overflow_refuted and the low-byte behaviour without adjustment C45_no_adjustment."
  },
  {
   "property": "C46",
   "status": "proved",
   "theorems": [
    "C46_restored",
    "C46_outcome",
    "C46_inside",
    "C46_nested",
    "C46_reused",
    "C46_reentered",
    "C46_spelling_refuted",
    "C46_environment_is_pinned",
    "C46_callers_dictionary",
    "C46_credentials",
    "C46_options_added_inside",
    "C46_defaults"
   ],
   "note": "Restoration is proved for dictionaries that name each option once; two spellings of one option are refuted (C46_spelling_refuted), re-entering one object inside itself loses the outer values (C46_reentered), and environment-variable values are pinned (C46_environment_is_pinned)."
  },
  {
   "property": "C47",
   "status": "proved",
   "theorems": [
    "C47_layout",
    "C47_overflow",
    "C47_missing",
    "C47_left_justified_refuted"
   ],
   "note": "Layout and offsets as the code produces them. NITF's left justification of text fields is refuted (C47_left_justified_refuted)."
  },
  {
   "property": "C48",
   "status": "proved",
   "theorems": [
    "C48_value",
    "C48_error"
   ],
   "note": ""
  },
  {
   "property": "C49",
   "status": "proved",
   "theorems": [
    "C49_values",
    "C49_any_order",
    "C49_errors"
   ],
   "note": ""
  },
  {
   "property": "C50",
   "status": "proved",
   "theorems": [
    "C50_section_fields",
    "C50_sections",
    "C50_cases",
    "C50_missing_section_refuted",
    "C50_errors",
    "C50_ground_domain",
    "C50_image_domain",
    "C50_context"
   ],
   "note": "The documented None for a section that is missing is refuted (C50_missing_section_refuted)."
  },
  {
   "property": "C51",
   "status": "proved",
   "theorems": [
    "C51_selection",
    "C51_returns",
    "C51_sidd_not_gated",
    "C51_failed_sidd_discards_refuted",
    "C51_corner_error",
    "C51_malformed_corner"
   ],
   "note": "For arbitrary builders. XML parsing, base64 and GDAL are arbitrary functions."
  },
  {
   "property": "C52",
   "status": "proved",
   "theorems": [
    "C52_well_formed",
    "C52_malformed_refuted"
   ],
   "note": "The documented behaviour for malformed chip metadata is refuted for every malformed ICHIPB (C52_malformed_refuted)."
  },
  {
   "property": "C53",
   "status": "proved",
   "theorems": [
    "C53_table",
    "C53_float_j2k_refuted",
    "C53_new_factory",
    "C53_requests",
    "C53_repeatable",
    "C53_igeolo"
   ],
   "note": ""
  },
  {
   "property": "C54",
   "status": "proved",
   "theorems": [
    "C54_own_name",
    "C54_always_deleted",
    "C54_files",
    "C54_answer",
    "C54_interference",
    "C54_names",
    "C54_translate_failure_refuted",
    "C54_none_refuted"
   ],
   "note": ""
  },
  {
   "property": "C55",
   "status": "proved",
   "theorems": [
    "C55_normalize",
    "C55_spellings",
    "C55_case",
    "C55_idempotent",
    "C55_other_extensions_refuted",
    "C55_select",
    "C55_select_is_an_extension",
    "C55_select_case",
    "C55_real_extension_refuted",
    "C55_split",
    "C55_strip",
    "C55_driver",
    "C55_image_extension"
   ],
   "note": ""
  },
  {
   "property": "C56",
   "status": "proved",
   "theorems": [
    "C56_priority",
    "C56_detection",
    "C56_malformed_box",
    "C56_none",
    "C56_reads_only",
    "C56_set_find",
    "C56_scalar_detection_refuted"
   ],
   "note": ""
  },
  {
   "property": "C57",
   "status": "proved",
   "theorems": [
    "C57_frame",
    "C57_unchangeable_detection",
    "C57_values",
    "C57_find",
    "C57_all_or_nothing_refuted",
    "C57_ring_refuted"
   ],
   "note": ""
  },
  {
   "property": "C58",
   "status": "proved",
   "theorems": [
    "C58_structure",
    "C58_total",
    "C58_errors",
    "C58_unusable",
    "C58_feature",
    "C58_untouched",
    "C58_order",
    "C58_frame",
    "C58_call"
   ],
   "note": ""
  },
  {
   "property": "C59",
   "status": "proved",
   "theorems": [
    "C59_extent",
    "C59_no_geometry",
    "C59_small_grid",
    "C59_cells",
    "C59_area",
    "C59_bbox_refuted",
    "C59_bbox_clamped"
   ],
   "note": ""
  },
  {
   "property": "C60",
   "status": "proved",
   "theorems": [
    "C60_build",
    "C60_intersects",
    "C60_nearest",
    "C60_map_limit",
    "C60_unknown_position",
    "C60_map_geometries_refuted"
   ],
   "note": ""
  },
  {
   "property": "C61",
   "status": "proved",
   "theorems": [
    "C61_none",
    "C61_level",
    "C61_window",
    "C61_window_tight",
    "C61_read",
    "C61_no_bands",
    "C61_degenerate",
    "C61_width",
    "C61_touching_refuted",
    "C61_narrow_refuted",
    "C61_degenerate_refuted"
   ],
   "note": ""
  },
  {
   "property": "C62",
   "status": "proved",
   "theorems": [
    "C62_source",
    "C62_square",
    "C62_nonsquare_refuted",
    "C62_one_pixel_refuted",
    "C62_tile",
    "C62_no_tile",
    "C62_registration",
    "C62_registration_refuted",
    "C62_elevation_square",
    "C62_elevation_refuted"
   ],
   "note": ""
  },
  {
   "property": "C63",
   "status": "proved",
   "theorems": [
    "C63_complex",
    "C63_pixel_types",
    "C63_power",
    "C63_power_16bit",
    "C63_decibels",
    "C63_linear_mapping",
    "C63_histogram_stretch",
    "C63_quarter_power",
    "C63_gain",
    "C63_dark_image",
    "C63_image",
    "C63_amplitudes"
   ],
   "note": "Exact reals for the float32 arithmetic; the integer power computation is modelled with its 16-bit wrap (C63_power_16bit)."
  },
  {
   "property": "C64",
   "status": "proved",
   "theorems": [
    "C64_placement",
    "C64_sum_of_powers",
    "C64_exponent_beyond_order",
    "C64_sum_of_powers_2d",
    "C64_exponent_beyond_order_2d",
    "C64_position",
    "C64_no_coefficients"
   ],
   "note": ""
  },
  {
   "property": "C65",
   "status": "proved",
   "theorems": [
    "C65_s3_root",
    "C65_plain_root"
   ],
   "note": ""
  },
  {
   "property": "C66",
   "status": "proved",
   "theorems": [
    "C66_equilateral"
   ],
   "note": ""
  },
  {
   "property": "C67",
   "status": "proved",
   "theorems": [
    "C67_on_surface",
    "C67_residual_is_objective",
    "C67_inside_ground_domain"
   ],
   "note": ""
  },
  {
   "property": "C68",
   "status": "proved",
   "theorems": [
    "C68_slant_plane_normal",
    "C68_ground_plane_normal"
   ],
   "note": ""
  },
  {
   "property": "C69",
   "status": "proved",
   "theorems": [
    "C69_no_adjustment",
    "C69_integer_ranges",
    "C69_float_ranges",
    "C69_other_types",
    "C69_adjusted",
    "C69_no_statistics",
    "C69_constant_band"
   ],
   "note": ""
  },
  {
   "property": "C70",
   "status": "proved",
   "theorems": [
    "C70_prologs",
    "C70_prolog_on_two_lines_refuted",
    "C70_segments",
    "C70_desdata"
   ],
   "note": "XML parsing, base64 and serialisation are arbitrary functions. A prolog that spans two lines is not removed (C70_prolog_on_two_lines_refuted)."
  },
  {
   "property": "C71",
   "status": "proved",
   "theorems": [
    "C71_model",
    "C71_no_model"
   ],
   "note": ""
  },
  {
   "property": "C72",
   "status": "proved",
   "theorems": [
    "C72_cannot_open",
    "C72_loaded"
   ],
   "note": ""
  },
  {
   "property": "C73",
   "status": "proved",
   "theorems": [
    "C73_corners",
    "C73_control_points",
    "C73_no_model"
   ],
   "note": "np.linalg.lstsq is any function whose result minimises the residual (least_squares)."
  },
  {
   "property": "C74",
   "status": "proved",
   "theorems": [
    "C74_first_sar_segment",
    "C74_factory",
    "C74_sidd_preferred_refuted"
   ],
   "note": ""
  },
  {
   "property": "C75",
   "status": "proved",
   "theorems": [
    "C75_sicd_tiles"
   ],
   "note": ""
  },
  {
   "property": "C76",
   "status": "proved",
   "theorems": [
    "C76_error_bound",
    "C76_affine_exact",
    "C76_antimeridian_refuted"
   ],
   "note": ""
  },
  {
   "property": "C77",
   "status": "proved",
   "theorems": [
    "C77_alpha",
    "C77_gray",
    "C77_only_black_refuted"
   ],
   "note": ""
  },
  {
   "property": "C78",
   "status": "proved",
   "theorems": [
    "C78_summary",
    "C78_elevation",
    "C78_post_at_corner",
    "C78_centre",
    "C78_centre_refuted"
   ],
   "note": ""
  },
  {
   "property": "C79",
   "status": "proved",
   "theorems": [
    "C79_columns_and_edges",
    "C79_rows",
    "C79_northern_rows",
    "C79_whole_world_refuted",
    "C79_shared_edges",
    "C79_tile"
   ],
   "note": ""
  },
  {
   "property": "C80",
   "status": "proved",
   "theorems": [
    "C80_answers",
    "C80_answers_come_from_a_load",
    "C80_finishes",
    "C80_bounded",
    "C80_loads",
    "C80_alone",
    "C80_single_load_refuted"
   ],
   "note": ""
  },
  {
   "property": "C81",
   "status": "proved",
   "theorems": [
    "C81_different_options",
    "C81_common_option",
    "C81_restored_refuted"
   ],
   "note": ""
  },
  {
   "property": "C82",
   "status": "proved",
   "theorems": [
    "C82_some_window",
    "C82_uninterrupted",
    "C82_interrupted",
    "C82_own_window_refuted"
   ],
   "note": ""
  },
  {
   "property": "C83",
   "status": "proved",
   "theorems": [
    "C83_ground",
    "C83_ground_found",
    "C83_terrain",
    "C83_usable"
   ],
   "note": ""
  },
  {
   "property": "C84",
   "status": "proved",
   "theorems": [
    "C84_ground",
    "C84_terrain_left"
   ],
   "note": ""
  },
  {
   "property": "C85",
   "status": "proved",
   "theorems": [
    "C85_rpc",
    "C85_rsm_one",
    "C85_rsm_sections"
   ],
   "note": ""
  },
  {
   "property": "C86",
   "status": "proved",
   "theorems": [
    "C86_sicd_tiles",
    "C86_corners"
   ],
   "note": ""
  },
  {
   "property": "C87",
   "status": "proved",
   "theorems": [
    "C87_constructors",
    "C87_default_coordinates",
    "C87_elevation",
    "C87_dem",
    "C87_sensors_harmless",
    "C87_sicd_harmless",
    "C87_grid_harmless",
    "C87_values",
    "C87_sicd_values",
    "C87_grid_values",
    "C87_history",
    "C87_domain_alias",
    "C87_domain_back",
    "C87_domain_copy_refuted",
    "C87_origin_independent_refuted"
   ],
   "note": ""
  },
  {
   "property": "C88",
   "status": "proved",
   "theorems": [
    "C88_formulas",
    "C88_no_rounding",
    "C88_rpc_polynomial",
    "C88_rpc_pixel",
    "C88_rpc_binary64",
    "C88_rsm_polynomial",
    "C88_rsm_pixel",
    "C88_rsm_binary64",
    "C88_affine"
   ],
   "note": ""
  },
  {
   "property": "C89",
   "status": "proved",
   "theorems": [
    "C89_operations",
    "C89_nearest",
    "C89_nearest_determined",
    "C89_integers",
    "C89_no_overflow",
    "C89_formulas",
    "C89_rpc",
    "C89_rsm",
    "C89_affine",
    "C89_whole_numbers",
    "C89_pi",
    "C89_degrees",
    "C89_radians",
    "C89_whole_degree",
    "C89_tile_name"
   ],
   "note": "The library function pow (RSM) is any function accurate to two roundings."
  },
  {
   "property": "C90",
   "status": "proved",
   "theorems": [
    "C90_sicd",
    "C90_sicd_pixels",
    "C90_sidd",
    "C90_sidd_pixels",
    "C90_unusable_document",
    "C90_sicd_with_sidd_refuted",
    "C90_tres",
    "C90_rpc",
    "C90_geotransform",
    "C90_control_points",
    "C90_corners",
    "C90_composite",
    "C90_chipped"
   ],
   "note": "XML parsing is an arbitrary function from texts to documents; np.linalg.lstsq minimises the residual. C90_sicd_with_sidd_refuted: a SICD document that mentions SIDD is handed to the wrong builder."
  },
  {
   "property": "C91",
   "status": "proved",
   "theorems": [
    "C91_sidd_wgs84",
    "C91_sicd_wgs84",
    "C91_sidd",
    "C91_sidd_round_trip",
    "C91_sidd_window",
    "C91_sidd_terrain_refuted",
    "C91_converges",
    "C91_converges_near",
    "C91_sicd"
   ],
   "note": "C91_sidd_terrain_refuted: a SIDD pixel located with an elevation model is found at another pixel. That the maps of actual SICD geometries contract is a hypothesis of C91_converges; C106 proves it for images in the slant plane measured from one place."
  },
  {
   "property": "C92",
   "status": "proved",
   "theorems": [
    "C92_tile_for_location",
    "C92_away_from_edges",
    "C92_nested",
    "C92_monotone",
    "C92_inside",
    "C92_bounds",
    "C92_shared_sides",
    "C92_contains_refuted"
   ],
   "note": ""
  },
  {
   "property": "C93",
   "status": "proved",
   "theorems": [
    "C93_numpy_round",
    "C93_numpy_rounds",
    "C93_exact_rounds",
    "C93_fields",
    "C93_not_finite",
    "C93_text",
    "C93_text_raises",
    "C93_same_fields",
    "C93_whole_seconds",
    "C93_igeolo",
    "C93_fields_below_60_refuted"
   ],
   "note": ""
  },
  {
   "property": "C94",
   "status": "proved",
   "theorems": [
    "C94_minmax",
    "C94_dra",
    "C94_shows",
    "C94_order",
    "C94_ends",
    "C94_brightest",
    "C94_minmax_white_refuted",
    "C94_dra_white_refuted",
    "C94_dra_whole",
    "C94_buckets",
    "C94_range",
    "C94_range_empty",
    "C94_dra_band",
    "C94_agrees"
   ],
   "note": ""
  },
  {
   "property": "C95",
   "status": "proved",
   "theorems": [
    "C95_actual",
    "C95_minmax",
    "C95_one_bucket",
    "C95_dark",
    "C95_bright",
    "C95_dra",
    "C95_bright_refuted"
   ],
   "note": ""
  },
  {
   "property": "C96",
   "status": "proved",
   "theorems": [
    "C96_tables",
    "C96_round_trip",
    "C96_documents",
    "C96_reread",
    "C96_versions",
    "C96_unknown",
    "C96_repeated",
    "C96_attributes",
    "C96_rewritten",
    "C96_fixed"
   ],
   "note": ""
  },
  {
   "property": "C97",
   "status": "proved",
   "theorems": [
    "C97_sicd_updates",
    "C97_sicd_refused",
    "C97_sicd_complete",
    "C97_sidd_complete",
    "C97_sidd_chip",
    "C97_sidd_first_chip",
    "C97_sicd_vectors",
    "C97_sidd_vectors"
   ],
   "note": ""
  },
  {
   "property": "C98",
   "status": "proved",
   "theorems": [
    "C98_sidd_chip",
    "C98_empty_list_refuted",
    "C98_unchecked_refuted",
    "C98_classes_fit",
    "C98_classes_covered",
    "C98_valid_documents",
    "C98_builders",
    "C98_sicd_updates",
    "C98_sicd_range"
   ],
   "note": ""
  },
  {
   "property": "C99",
   "status": "proved",
   "theorems": [
    "C99_sicd_tiles",
    "C99_sidd_first_tile",
    "C99_sidd_tiles",
    "C99_sidd_second_tile"
   ],
   "note": ""
  },
  {
   "property": "C100",
   "status": "proved",
   "theorems": [
    "C100_chip_model",
    "C100_tile_of_chip",
    "C100_first_pixel_refuted",
    "C100_tiles_of_chips"
   ],
   "note": ""
  },
  {
   "property": "C101",
   "status": "proved",
   "theorems": [
    "C101_back",
    "C101_forth",
    "C101_determined",
    "C101_surface",
    "C101_nearest",
    "C101_vertical",
    "C101_heights",
    "C101_horizon",
    "C101_directions",
    "C101_convex"
   ],
   "note": ""
  },
  {
   "property": "C102",
   "status": "proved",
   "theorems": [
    "C102_height",
    "C102_never_below",
    "C102_accuracy",
    "C102_default_plane"
   ],
   "note": ""
  },
  {
   "property": "C103",
   "status": "proved",
   "theorems": [
    "C103_distance",
    "C103_post_spacing",
    "C103_at_most",
    "C103_row",
    "C103_coarse_rows",
    "C103_half_post_refuted"
   ],
   "note": ""
  },
  {
   "property": "C104",
   "status": "proved",
   "theorems": [
    "C104_level_terrain",
    "C104_sicd"
   ],
   "note": ""
  },
  {
   "property": "C105",
   "status": "proved",
   "theorems": [
    "C105_spacing",
    "C105_near",
    "C105_found",
    "C105_sicd"
   ],
   "note": ""
  },
  {
   "property": "C106",
   "status": "proved",
   "theorems": [
    "C106_found",
    "C106_round_trip",
    "C106_ground_plane",
    "C106_wgs84"
   ],
   "note": ""
  },
  {
   "property": "C107",
   "status": "proved",
   "theorems": [
    "C107_sidd",
    "C107_sicd",
    "C107_sicd_chip",
    "C107_sidd_chip"
   ],
   "note": ""
  },
  {
   "property": "C108",
   "status": "proved",
   "theorems": [
    "C108_pixel",
    "C108_given_point",
    "C108_returns"
   ],
   "note": ""
  },
  {
   "property": "C109",
   "status": "proved",
   "theorems": [
    "C109_pixel",
    "C109_multiplication",
    "C109_geodetic",
    "C109_any_power"
   ],
   "note": ""
  },
  {
   "property": "C110",
   "status": "proved",
   "theorems": [
    "C110_whole_sections",
    "C110_approximate_location",
    "C110_world_section",
    "C110_any_size",
    "C110_monotone",
    "C110_zero_size",
    "C110_not_finite",
    "C110_fractional_sections_refuted"
   ],
   "note": ""
  },
  {
   "property": "C111",
   "status": "proved",
   "theorems": [
    "C111_domain",
    "C111_eastern",
    "C111_western",
    "C111_order",
    "C111_any_longitude",
    "C111_not_finite",
    "C111_kept_refuted"
   ],
   "note": ""
  },
  {
   "property": "C112",
   "status": "proved",
   "theorems": [
    "C112_grid_location",
    "C112_round_trip",
    "C112_chip",
    "C112_scene_centre",
    "C112_order",
    "C112_exact_refuted"
   ],
   "note": ""
  },
  {
   "property": "C113",
   "status": "proved",
   "theorems": [
    "C113_points",
    "C113_increasing",
    "C113_covers",
    "C113_short",
    "C113_any_size_refuted"
   ],
   "note": ""
  }
 ]
}