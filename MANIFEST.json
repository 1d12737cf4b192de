{
 "claims": [
  {
   "property": "C01",
   "status": "proved",
   "theorems": [
    "C01_slice_returns_box",
    "C01_slice_rejects_out_of_range",
    "C01_slice_rejects_wrong_shape",
    "C01_wrapped_request_accepted_refuted"
   ],
   "note": "Any rank and shape; rejection proved for sums below 2^64; the wrapped request that is accepted is shown as a finding."
  },
  {
   "property": "C02",
   "status": "proved",
   "theorems": [
    "C02_request_is_last_acceptable",
    "C02_request_in_range",
    "C02_unknown_dimension_throws",
    "C02_dimension_names_stable",
    "C02_request_in_range_refuted"
   ],
   "note": "Full refinement of any call history to the last acceptable request; guard: start+size does not wrap, necessity shown by the refuted theorem."
  },
  {
   "property": "C03",
   "status": "proved",
   "theorems": [
    "C03_unset_dimensions",
    "C03_different_dimensions_commute"
   ],
   "note": "Any history; distinct dimension names."
  },
  {
   "property": "C04",
   "status": "proved",
   "theorems": [
    "C04_slice_of_records",
    "C04_wrong_record_length_throws",
    "C04_get_data_is_all_records",
    "C04_full_request_is_get_data",
    "C04_full_request_is_get_data_refuted",
    "C04_get_data_wrong_length_accepted_refuted",
    "C04_slice_from_memory",
    "C04_slice_from_memory_past_end_refuted"
   ],
   "note": "Unlimited dimension outermost (as the code requires), any other shape; missing and wrong-length records covered; getData disagreement and the unset record past the end shown as findings."
  },
  {
   "property": "C05",
   "status": "proved",
   "theorems": [
    "C05_block_write",
    "C05_range_write",
    "C05_range_write_rejects",
    "C05_block_write_rejects_bad_source",
    "C05_block_write_inside_refuted",
    "C05_start_beyond_end_is_ub"
   ],
   "note": "Exact guard startPos <= size; beyond it every non-empty write is shown to leave the array."
  },
  {
   "property": "C06",
   "status": "proved",
   "theorems": [
    "C06_selected_cells_in_order",
    "C06_contiguous_selections",
    "C06_only_slower_dimensions_split",
    "C06_selected_cells_up_to_order",
    "C06_order_refuted",
    "C06_empty_request_refuted"
   ],
   "note": "Any rank and selections; order proved under the exact condition the code needs (no split dimension faster than an unreduced dimension of requested size > 1), multiset of cells proved without it; scrambling and the empty request are findings."
  },
  {
   "property": "C07",
   "status": "proved",
   "theorems": [
    "C07_index_set",
    "C07_position_beyond_length_throws",
    "C07_unknown_dimension_throws",
    "C07_position_equal_length_accepted_refuted",
    "C07_reading_position_equal_length_throws",
    "C07_start_and_length",
    "C07_start_and_length_rejects",
    "C07_start_end",
    "C07_start_behind_end_wraps_refuted",
    "C07_start_just_behind_end_empties_refuted"
   ],
   "note": "Acceptance and rejection for all lengths and positions except the off-by-one and wrap cases, which are proved as findings."
  },
  {
   "property": "C08",
   "status": "proved",
   "theorems": [
    "C08_second_reduction_replaces_first",
    "C08_length_matches_selection",
    "C08_valid_original_position_refused_refuted",
    "C08_not_composition_refuted",
    "C08_prefix_then_any"
   ],
   "note": "Any history of reductions; the two mismatches with the reduced length are findings."
  },
  {
   "property": "C09",
   "status": "proved",
   "theorems": [
    "C09_nearest_cell_value",
    "C09_request_inside_input",
    "C09_rounding_is_nearest",
    "C09_single_point_agrees",
    "C09_far_position_refuted",
    "C09_nan_position_refuted",
    "C09_marker_is_a_cell_refuted"
   ],
   "note": "Any grid below 2^32 cells, any positions whose rounding fits an int, any levels; includes domain reduction and mifi_get_values_f. Far, undefined positions and the 2^32 marker are findings. CachedInterpolation::createReducedDomain (bilinear/bicubic) is covered under C12."
  },
  {
   "property": "C10",
   "status": "proved",
   "theorems": [
    "C10_every_level_is_level_zero",
    "C10_single_level",
    "C10_contributions",
    "C10_second_level_refuted",
    "C10_levels_ignored_refuted"
   ],
   "note": "Any sizes, positions, aggregate and levels; output is the aggregate of level 0 for every level (finding for level >= 1)."
  },
  {
   "property": "C11",
   "status": "proved",
   "theorems": [
    "C11_aggregate_is_its_name",
    "C11_order_independent",
    "C11_no_memory_between_cells",
    "C11_undef_minmax_first_refuted",
    "C11_undef_minmax_later_refuted",
    "C11_undef_order_dependent_refuted",
    "C11_undef_median_refuted"
   ],
   "note": "Exact arithmetic (rounding of float sums not modelled); undef min/max/median with undefined input are findings."
  },
  {
   "property": "C12",
   "status": "proved",
   "theorems": [
    "C12_no_read_outside",
    "C12_between_surrounding_cells",
    "C12_grid_points",
    "C12_affine_exact",
    "C12_undefined_outside",
    "C12_corner_strip_refuted",
    "C12_undefined_neighbour_refuted"
   ],
   "note": "Any field, sizes, levels and finite positions whose integer part fits an int; exact arithmetic (float rounding not modelled); int overflow of the cell number not modelled. The corner strip read and the zero-weight NaN are findings."
  },
  {
   "property": "C13",
   "status": "proved",
   "theorems": [
    "C13_binary_search",
    "C13_positions",
    "C13_axis_values_have_integer_positions",
    "C13_positions_strictly_monotone",
    "C13_position_inverts_evaluation",
    "C13_circular_longitude",
    "C13_longitude_normalisation",
    "C13_global_regular_axis",
    "C13_regional_axis",
    "C13_one_element_axis_refuted",
    "C13_one_element_longitude_refuted",
    "C13_empty_search_refuted"
   ],
   "note": "Any strictly monotonic axis with at least two values, exact rationals (rounding of doubles not modelled); regular global and regional longitude axes end to end, circular wrap and longitude normalisation in general; the one-element axis and the empty search are findings."
  },
  {
   "property": "C14",
   "status": "proved",
   "theorems": [
    "C14_less_is_before",
    "C14_equality",
    "C14_trichotomy",
    "C14_less_equal",
    "C14_total_order",
    "C14_bounds",
    "C14_late_year_refuted"
   ],
   "note": "All six operators, all field values in the bit ranges; year 4096 and later is a finding."
  },
  {
   "property": "C15",
   "status": "proved",
   "theorems": [
    "C15_unpack_pack",
    "C15_pack_injective",
    "C15_pack_unpack",
    "C15_unpack_range",
    "C15_unpack_injective",
    "C15_large_minute_refuted",
    "C15_late_year_refuted"
   ],
   "note": "Both directions; minute >= 128 and year >= 4096 are findings."
  },
  {
   "property": "C16",
   "status": "proved",
   "theorems": [
    "C16_brackets_inside",
    "C16_closest_two",
    "C16_outside_uses_closest_two",
    "C16_indices_in_range",
    "C16_first_match_refuted",
    "C16_first_closest_refuted",
    "C16_increasing_extrapolation_refuted"
   ],
   "note": "Any list of exact values; the two cases in which the same index is returned twice are proved as findings."
  },
  {
   "property": "C17",
   "status": "proved",
   "theorems": [
    "C17_positions_of_extrema",
    "C17_first_largest",
    "C17_empty_range",
    "C17_first_smallest_refuted"
   ],
   "note": "Any strict weak order and any range; which of several equal smallest elements is returned is shown as a finding."
  },
  {
   "property": "C18",
   "status": "proved",
   "theorems": [
    "C18_tokenize_maximal_runs",
    "C18_tokenize_total",
    "C18_split_fields",
    "C18_split_count",
    "C18_join_split",
    "C18_split_join",
    "C18_tokenize_join",
    "C18_tokenize_is_split_nonempty"
   ],
   "note": "All strings and delimiter sets; tokenize and split_any are characterised by inductive relations that have exactly one solution."
  },
  {
   "property": "C19",
   "status": "proved",
   "theorems": [
    "C19_trim",
    "C19_trim_total_idempotent",
    "C19_starts_with",
    "C19_ends_with",
    "C19_ends_with_huge_refuted",
    "C19_replace_all"
   ],
   "note": "All strings (suffix test: both shorter than 2^31; longer is a finding)."
  },
  {
   "property": "C20",
   "status": "proved",
   "theorems": [
    "C20_plain_list",
    "C20_dots_expand",
    "C20_dots_need_two_values",
    "C20_bad_token_throws",
    "C20_trailing_dots_refuted",
    "C20_equal_values_refuted",
    "C20_wrong_direction_refuted"
   ],
   "note": "Exact arithmetic; integer overflow is not modelled. Trailing dots, equal values and a wrong direction are findings."
  },
  {
   "property": "C21",
   "status": "proved",
   "theorems": [
    "C21_index_refers_to_name",
    "C21_same_name_same_index",
    "C21_list_only_grows",
    "C21_initial_names_found",
    "C21_no_duplicates",
    "C21_index_0_reserved",
    "C21_index_0_refuted",
    "C21_initial_duplicates_refuted"
   ],
   "note": "All histories of additions to any builder; empty initial list with reserved index 0 and duplicates in the initial list are findings."
  },
  {
   "property": "C22",
   "status": "proved",
   "theorems": [
    "C22_escape_decodes",
    "C22_decoding_unique",
    "C22_escape_injective",
    "C22_no_raw_markup",
    "C22_plain_unchanged",
    "C22_stream_appends"
   ],
   "note": "All strings; the reader is an inductive relation shown to be single-valued."
  },
  {
   "property": "C23",
   "status": "proved",
   "theorems": [
    "C23_name_round_trip",
    "C23_names_differ",
    "C23_accepted_names",
    "C23_ncml_round_trip",
    "C23_ncml_name_round_trip",
    "C23_ncml_unknown",
    "C23_netcdf_round_trip",
    "C23_ncml_char_refuted",
    "C23_ncml_attribute_unsigned_refuted"
   ],
   "note": "All types and all ASCII strings; unsigned NcML attributes and NcML char are findings."
  },
  {
   "property": "C24",
   "status": "proved",
   "theorems": [
    "C24_scaled_data",
    "C24_unscaled_data",
    "C24_round_trip",
    "C24_quantisation",
    "C24_float_round_trip",
    "C24_units_compose",
    "C24_linear_units_agree",
    "C24_linear_units_agree_write",
    "C24_units_round_trip",
    "C24_valid_value_lost_refuted",
    "C24_int64_refuted",
    "C24_unscale_integers_refuted",
    "C24_default_fill",
    "C24_default_fill_64_refuted"
   ],
   "note": "Exact rationals; integer packings of up to 32 bits and floating-point packings; 64-bit packings, integer data to be packed and 64-bit default fill values are findings."
  },
  {
   "property": "C25",
   "status": "proved",
   "theorems": [
    "C25_nearest_unique",
    "C25_rounds_to_nearest",
    "C25_rounds_to_nearest_64",
    "C25_64_bit_refuted",
    "C25_out_of_range_wraps",
    "C25_integers_kept",
    "C25_to_floating",
    "C25_round_and_clamp",
    "C25_round_and_clamp_far_refuted"
   ],
   "note": "Exact rationals; 64-bit targets beyond 2^31 and far positions are findings."
  },
  {
   "property": "C26",
   "status": "proved",
   "theorems": [
    "C26_consistent",
    "C26_exception_changes_nothing",
    "C26_add_variable",
    "C26_remove_variable",
    "C26_add_attribute",
    "C26_replace_attribute",
    "C26_remove_attribute",
    "C26_remove_dimension",
    "C26_rename_removes_refuted",
    "C26_rename_dimension_self_refuted",
    "C26_remove_global_refuted"
   ],
   "note": "All histories of the nine public editing functions; changes through references returned by getVariable etc. are not operations of the model."
  },
  {
   "property": "C27",
   "status": "proved",
   "theorems": [
    "C27_rename_variable",
    "C27_rename_variable_order",
    "C27_rename_back",
    "C27_rename_dimension",
    "C27_rename_dimension_lengths",
    "C27_counterpart_refuted"
   ],
   "note": "All contents and names; an existing variable of the new name is replaced."
  },
  {
   "property": "C28",
   "status": "proved",
   "theorems": [
    "C28_positions",
    "C28_unique_record",
    "C28_record",
    "C28_outside",
    "C28_fill",
    "C28_parts",
    "C28_coordinates",
    "C28_new_positions",
    "C28_new_record",
    "C28_new_outside",
    "C28_union",
    "C28_new_fill_refuted",
    "C28_new_dimension_refuted",
    "C28_coordinates_refuted",
    "C28_join_other_length"
   ],
   "note": "AggModel.v/AggProofs.v/AggProps.v: addFirstReader, addOtherReader, findJoinReader, checkJoin*Dims and both getDataSlice; end-to-end theorems C28_record, C28_fill, C28_parts, C28_coordinates, C28_new_record, C28_union; refutations C28_new_fill_refuted, C28_new_dimension_refuted, C28_coordinates_refuted"
  },
  {
   "property": "C29",
   "status": "proved",
   "theorems": [
    "C29_reads",
    "C29_history",
    "C29_total",
    "C29_undefined",
    "C29_inverse",
    "C29_both_refuted",
    "C29_shared_refuted",
    "C29_missing_refuted",
    "C29_overwritten_refuted",
    "C29_offset_refuted"
   ],
   "note": "AccumModel.v/AccumProps.v: heap of arrays with sharing, exact real arithmetic with NaN; C29_reads, C29_history, C29_inverse for every history; refutations both, shared, missing, overwritten, offset"
  },
  {
   "property": "C30",
   "status": "proved",
   "theorems": [
    "C30_mask",
    "C30_position",
    "C30_lengths",
    "C30_lengths_accepted",
    "C30_other_size",
    "C30_empty",
    "C30_no_status_refuted",
    "C30_unknown_flag",
    "C30_extreme_hangs",
    "C30_extreme_masks_nothing",
    "C30_highest_refuted",
    "C30_autoconf_refuted",
    "C30_unconfigured",
    "C30_status",
    "C30_cycle_refuted"
   ],
   "note": "MaskModel.v/MaskProps.v: exact rational status values with NaN; C30_mask, C30_position, C30_status; refutations for highest/lowest, autoconf, empty status and cyclic configuration"
  },
  {
   "property": "C31",
   "status": "proved",
   "theorems": [
    "C31_slice_places_messages",
    "C31_partial_request_refuted",
    "C31_misplaced_refuted",
    "C31_bad_shape"
   ],
   "note": "GribModel.v/GribProps.v: any cell type, all shapes and requests; C31_slice_places_messages, C31_bad_shape; refutations C31_partial_request, C31_misplaced"
  },
  {
   "property": "C32",
   "status": "proved",
   "theorems": [
    "C32_table",
    "C32_other_text",
    "C32_other_code",
    "C32_texts_and_codes_are_inverse",
    "C32_largest_unit",
    "C32_zero"
   ],
   "note": "GribModel.v/GribProps.v: C32_table, C32_largest_unit, C32_texts_and_codes_are_inverse, C32_other_text, C32_other_code"
  },
  {
   "property": "C33",
   "status": "proved",
   "theorems": [
    "C33_overlay",
    "C33_fill_of_base",
    "C33_short_top",
    "C33_scaled",
    "C33_fill_of_base_refuted"
   ],
   "note": "BlendModel.v/BlendProps.v: any value type; C33_overlay, C33_scaled, C33_short_top; refutation C33_fill_of_base_refuted"
  },
  {
   "property": "C34",
   "status": "proved",
   "theorems": [
    "C34_weight",
    "C34_inner",
    "C34_between",
    "C34_left",
    "C34_right",
    "C34_symmetry_refuted",
    "C34_corner_refuted",
    "C34_negative_refuted",
    "C34_slice",
    "C34_no_horizontal_refuted",
    "C34_empty_refuted",
    "C34_scalar",
    "C34_factory"
   ],
   "note": "BlendModel.v/BlendProps.v: exact real arithmetic, size_t arithmetic modulo 2^64; C34_weight, C34_inner, C34_between, C34_left, C34_right, C34_slice; refutations C34_symmetry, corner, negative, no_horizontal, empty"
  },
  {
   "property": "C35",
   "status": "proved",
   "theorems": [
    "C35_make_dims",
    "C35_add_dim",
    "C35_set_length_last",
    "C35_set_not_shared",
    "C35_loop",
    "C35_tuples",
    "C35_accepted",
    "C35_set_length_refuted",
    "C35_zero_length_refuted",
    "C35_volume"
   ],
   "note": "LoopModel.v/LoopProofs.v/LoopProps.v: ArrayDims, ArrayGroup::add, Loop::next; C35_loop, C35_tuples, C35_accepted for every list of arrays; refutations C35_set_length_refuted, C35_zero_length_refuted"
  },
  {
   "property": "C36",
   "status": "proved",
   "theorems": [
    "C36_mapping",
    "C36_single",
    "C36_exact_at_old_times",
    "C36_between",
    "C36_unordered_refuted",
    "C36_read_before_change_refuted",
    "C36_missing_record"
   ],
   "note": "TimeIntModel.v/TimeIntProps.v: all sorted axes and new times, reals or NaN for values; C36_mapping, C36_single, C36_exact_at_old_times, C36_between; refutations C36_unordered_refuted, C36_read_before_change_refuted"
  },
  {
   "property": "C37",
   "status": "proved",
   "theorems": [
    "C37_copies",
    "C37_values",
    "C37_exact_values",
    "C37_skipped",
    "C37_unusable",
    "C37_final_exception",
    "C37_empty_translation",
    "C37_short_output_shape",
    "C37_longer_output_shape",
    "C37_scaling_ignored"
   ],
   "note": "FillWModel.v/FillWProps.v: all dimension lists, coordinates, shapes and single-slice translations; C37_copies, C37_values, C37_exact_values, C37_skipped, C37_unusable, C37_final_exception; findings C37_empty_translation, C37_short_output_shape, C37_longer_output_shape, C37_scaling_ignored"
  },
  {
   "property": "C38",
   "status": "proved",
   "theorems": [
    "C38_listing",
    "C38_scan_file_only",
    "C38_scan_path",
    "C38_scan_flat",
    "C38_scan_any_directory",
    "C38_siblings_refuted",
    "C38_wrong_directory_refuted",
    "C38_scan_too_deep",
    "C38_glob_language",
    "C38_glob_split",
    "C38_glob_depth",
    "C38_glob_files",
    "C38_glob_siblings_refuted",
    "C38_line_break_refuted"
   ],
   "note": "All trees, depths and patterns; the guard on siblings is the finding. Trees are finite, symbolic link cycles are not modelled."
  },
  {
   "property": "C39",
   "status": "proved",
   "theorems": [
    "C39_split",
    "C39_split_unique",
    "C39_replace",
    "C39_replace_own",
    "C39_join",
    "C39_join_split",
    "C39_extension",
    "C39_no_extension",
    "C39_extension_of_name"
   ],
   "note": "All strings."
  },
  {
   "property": "C40",
   "status": "proved",
   "theorems": [
    "C40_order_lonlat",
    "C40_order_xy",
    "C40_equivalence_lonlat",
    "C40_irreflexive",
    "C40_shape_decides",
    "C40_asymmetric_refuted",
    "C40_transitive_refuted",
    "C40_incomparability_refuted",
    "C40_comparable_reflexive",
    "C40_comparable_exact",
    "C40_comparable_symmetric_refuted",
    "C40_lon_start",
    "C40_lon_start_below_refuted"
   ],
   "note": "Strict weak order on sets of clearly different starts; asymmetry, transitivity and transitive incomparability are refuted in general."
  },
  {
   "property": "C41",
   "status": "proved",
   "theorems": [
    "C41_sigma_inverse",
    "C41_sigma_ends",
    "C41_ln_pressure",
    "C41_hybrid_forms",
    "C41_hybrid_ends",
    "C41_sizes",
    "C41_barometric_inverse",
    "C41_standard_inverse",
    "C41_barometric_monotone",
    "C41_thickness",
    "C41_omega_inverse",
    "C41_omega_sign",
    "C41_relative_range",
    "C41_specific_nonnegative",
    "C41_humidity_inverse",
    "C41_humidity_inverse_back",
    "C41_dewpoint",
    "C41_dewpoint_monotone",
    "C41_virtual_temperature",
    "C41_constants",
    "C41_ocean_ends",
    "C41_ocean_agree",
    "C41_ocean_monotone"
   ],
   "note": "Exact real arithmetic."
  },
  {
   "property": "C42",
   "status": "proved",
   "theorems": [
    "C42_values",
    "C42_length_kept",
    "C42_inverse",
    "C42_cached",
    "C42_directions",
    "C42_direction_agrees",
    "C42_north_refuted",
    "C42_angle",
    "C42_angle_negative_step",
    "C42_mean_of_angles_refuted",
    "C42_angle_range",
    "C42_bearing",
    "C42_bearing_north",
    "C42_step_width",
    "C42_step_width_refuted"
   ],
   "note": "Exact real arithmetic; the projection library is a parameter; the sign of zero in atan2 is +0."
  },
  {
   "property": "C43",
   "status": "proved",
   "theorems": [
    "C43_closest",
    "C43_nan",
    "C43_radius",
    "C43_samples",
    "C43_samples_large",
    "C43_single_cell",
    "C43_nothing_sampled"
   ],
   "note": "CloseModel.v/CloseProps.v over the real numbers with the actual sine/cosine formula: C43_closest, C43_nan, C43_radius, C43_samples, C43_samples_large; findings C43_single_cell, C43_nothing_sampled"
  },
  {
   "property": "C44",
   "status": "proved",
   "theorems": [
    "C44_new_name",
    "C44_free_base",
    "C44_exhausted",
    "C44_new_variable_name",
    "C44_new_dimension_name"
   ],
   "note": "All contents and names; termination of the unlimited search included."
  },
  {
   "property": "C45",
   "status": "proved",
   "theorems": [
    "C45_compare",
    "C45_equivalence",
    "C45_elements",
    "C45_missing"
   ],
   "note": "All shapes."
  },
  {
   "property": "C46",
   "status": "proved",
   "theorems": [
    "C46_unique_names",
    "C46_unique_types",
    "C46_find_main_first",
    "C46_find_first",
    "C46_has_type",
    "C46_find_any",
    "C46_set_axis_throws",
    "C46_set_axis",
    "C46_set_axis_rejected",
    "C46_rejected_loses_axis_refuted",
    "C46_set_aux",
    "C46_geo_x",
    "C46_geo_z",
    "C46_horizontal_id"
   ],
   "note": "All histories."
  },
  {
   "property": "C47",
   "status": "proved",
   "theorems": [
    "C47_read",
    "C47_stays_in_buffer",
    "C47_overlong_chunk",
    "C47_complete_body",
    "C47_past_end",
    "C47_short_body_refuted",
    "C47_wrapped_range_refuted"
   ],
   "note": "All chunk sequences and buffer sizes whose sums fit into size_t."
  },
  {
   "property": "C48",
   "status": "proved",
   "theorems": [
    "C48_fill2d",
    "C48_fill2d_range",
    "C48_fill2d_overshoot_refuted",
    "C48_fill2d_thin",
    "C48_fill2d_one_row_refuted",
    "C48_creepfillval",
    "C48_creepfill",
    "C48_creepfillval_range",
    "C48_creepfill_range",
    "C48_creepfill_one_row_refuted",
    "C48_creepfill_negative_weight_refuted",
    "C48_fill2d_border"
   ],
   "note": "All sizes, fields, weights, repeats and iteration limits; exact arithmetic."
  },
  {
   "property": "C49",
   "status": "proved",
   "theorems": [
    "C49_bounds",
    "C49_points",
    "C49_names",
    "C49_no_sections",
    "C49_total"
   ],
   "note": "CrossModel.v/CrossProps.v: all cross-section lists, any point-wise projection, up to 2^31 points (the bounds are int); C49_bounds, C49_points, C49_names, C49_total, finding C49_no_sections"
  },
  {
   "property": "C50",
   "status": "proved",
   "theorems": [
    "C50_size",
    "C50_ends",
    "C50_equal_coordinates",
    "C50_linear",
    "C50_undefined",
    "C50_between",
    "C50_monotone",
    "C50_reproduces_linear",
    "C50_variants_inside",
    "C50_no_extrapolation",
    "C50_weak_extrapolation",
    "C50_const_extrapolation",
    "C50_nan_coordinate",
    "C50_nearest",
    "C50_log_domain",
    "C50_log_ends",
    "C50_log_between",
    "C50_reproduces_log"
   ],
   "note": "Exact real arithmetic with NaN; the double version has the same formula."
  },
  {
   "property": "C51",
   "status": "proved",
   "theorems": [
    "C51_bad2nan",
    "C51_nan2bad",
    "C51_round_trip",
    "C51_round_trip_back",
    "C51_undefined_fill"
   ],
   "note": "All fields and fill values."
  },
  {
   "property": "C52",
   "status": "proved",
   "theorems": [
    "C52_normalize",
    "C52_normalize_fixed",
    "C52_normalize_fuel",
    "C52_clamp_nearest",
    "C52_clamp_inside",
    "C52_clamp_monotone"
   ],
   "note": "Exact rationals; termination included (for doubles it fails beyond 2^61 degrees, not modelled)."
  },
  {
   "property": "C53",
   "status": "proved",
   "theorems": [
    "C53_contains",
    "C53_regular",
    "C53_covers",
    "C53_rejects",
    "C53_terminates",
    "C53_zero_step",
    "C53_absolute_tolerance",
    "C53_unit_mixup"
   ],
   "note": "MergeModel.v/MergeProps.v: C53_contains, C53_regular, C53_covers, C53_rejects, C53_terminates; findings C53_zero_step, C53_absolute_tolerance, C53_unit_mixup"
  },
  {
   "property": "C54",
   "status": "proved",
   "theorems": [
    "C54_always_built",
    "C54_rejected",
    "C54_get_field",
    "C54_timeless",
    "C54_times",
    "C54_levels_and_members",
    "C54_slice",
    "C54_slice_other_time",
    "C54_position_past_end",
    "C54_single_member",
    "C54_other_grid"
   ],
   "note": "FeltModel.v/FeltProps.v: every history of added fields, rejected ones included; C54_rejected, C54_get_field, C54_timeless, C54_times, C54_levels_and_members, C54_slice, C54_slice_other_time; findings C54_position_past_end, C54_single_member"
  },
  {
   "property": "C55",
   "status": "proved",
   "theorems": [
    "C55_position_in_range",
    "C55_position_injective",
    "C55_position_surjective",
    "C55_first_dimension_fastest",
    "C55_missing_positions_are_zero",
    "C55_positions_beyond_rank",
    "C55_overloads_agree",
    "C55_overloads_rank0_refuted",
    "C55_indexed_data_shape"
   ],
   "note": "Bijection for all shapes below 2^64 cells; overloads, short and long tuples; shape check of indexed data; rank-0 overload disagreement shown as finding."
  },
  {
   "property": "C56",
   "status": "proved",
   "theorems": [
    "C56_start",
    "C56_end",
    "C56_negative_start",
    "C56_first_above_refuted",
    "C56_equal_values_refuted",
    "C56_plain_value",
    "C56_x",
    "C56_x_plus",
    "C56_x_minus",
    "C56_time_x_minus_refuted",
    "C56_time_x_no_sign",
    "C56_fraction_dropped_refuted",
    "C56_relative_axis",
    "C56_absolute_axis",
    "C56_relative_needs_range",
    "C56_needs_two_values",
    "C56_absolute_time",
    "C56_default_unit",
    "C56_relative_time",
    "C56_refused_sections",
    "C56_relative_place"
   ],
   "note": "All token texts, number readers, starts, ends and steps; the parsing of one decimal number and of ISO times is a parameter."
  },
  {
   "property": "C57",
   "status": "proved",
   "theorems": [
    "C57_cubic_convolution",
    "C57_quadratic_exact",
    "C57_grid_points",
    "C57_overshoot_refuted"
   ],
   "note": "As C12; weights proved equal to the cubic convolution kernel."
  },
  {
   "property": "C58",
   "status": "proved",
   "theorems": [
    "C58_request_inside_input",
    "C58_bilinear_reduction",
    "C58_bicubic_reduction",
    "C58_empty_output_refuted"
   ],
   "note": "Any non-empty set of positions; equality with the point function on the whole field for bilinear and bicubic; empty output is a finding."
  },
  {
   "property": "C59",
   "status": "proved",
   "theorems": [
    "C59_matches_itself",
    "C59_matches_only_itself",
    "C59_injective",
    "C59_concatenation",
    "C59_plain_unchanged"
   ],
   "note": "All strings; the pattern reader is an inductive relation."
  },
  {
   "property": "C60",
   "status": "proved",
   "theorems": [
    "C60_lower_case",
    "C60_lower_case_idempotent",
    "C60_non_ascii_refuted",
    "C60_bool_true",
    "C60_bool_false",
    "C60_bool_throws"
   ],
   "note": "All ASCII strings; other bytes are a finding."
  },
  {
   "property": "C61",
   "status": "proved",
   "theorems": [
    "C61_decimal_digits",
    "C61_print_parse",
    "C61_print_injective",
    "C61_parse_fields",
    "C61_date_only",
    "C61_no_seconds",
    "C61_clock_only_refuted",
    "C61_only_dot_refuted",
    "C61_rounds_to_1000_refuted",
    "C61_wraps_refuted"
   ],
   "note": "All printable times; the exponent form of fractions is not modelled."
  },
  {
   "property": "C62",
   "status": "proved",
   "theorems": [
    "C62_known_names",
    "C62_unknown_names",
    "C62_undef_min_refuted"
   ],
   "note": "All strings; forward_undef_min is a finding."
  },
  {
   "property": "C63",
   "status": "proved",
   "theorems": [
    "C63_affine_recognised",
    "C63_accepted_near_line",
    "C63_small_values_refuted"
   ],
   "note": "Exact rationals; small non-linear conversions are a finding."
  },
  {
   "property": "C64",
   "status": "proved",
   "theorems": [
    "C64_cache_current",
    "C64_query",
    "C64_reference_refuted"
   ],
   "note": "All histories; changes through references are a finding."
  },
  {
   "property": "C65",
   "status": "proved",
   "theorems": [
    "C65_find_variables",
    "C65_find_variables_order",
    "C65_defaults",
    "C65_fill_value",
    "C65_range",
    "C65_packing",
    "C65_empty_attribute_refuted",
    "C65_unlimited",
    "C65_second_unlimited_refuted"
   ],
   "note": "All contents; regular expressions are arbitrary predicates."
  },
  {
   "property": "C66",
   "status": "proved",
   "theorems": [
    "C66_part_of_column",
    "C66_rising",
    "C66_isothermal"
   ],
   "note": "One column; direction from that column."
  },
  {
   "property": "C67",
   "status": "proved",
   "theorems": [
    "C67_index_holds_last_message",
    "C67_complete_read",
    "C67_variable_without_time_refuted"
   ],
   "note": "GribModel.v/GribProps.v: C67_index_holds_last_message, C67_complete_read; refutation C67_variable_without_time"
  },
  {
   "property": "C68",
   "status": "proved",
   "theorems": [
    "C68_unit_is_largest_of_first_step",
    "C68_read_back",
    "C68_regular_axis",
    "C68_daily_steps_refuted",
    "C68_irregular_axis_refuted",
    "C68_time_before_reference_refuted",
    "C68_equal_times_throw"
   ],
   "note": "GribModel.v/GribProps.v: C68_unit_is_largest_of_first_step, C68_read_back, C68_regular_axis; refutations daily steps, irregular axis, time before reference"
  },
  {
   "property": "C69",
   "status": "proved",
   "theorems": [
    "C69_decode_encode",
    "C69_order",
    "C69_injective",
    "C69_valid_is_not_zero",
    "C69_large_year_refuted"
   ],
   "note": "GribModel.v/GribProps.v: C69_decode_encode, C69_order, C69_injective; refutation C69_large_year"
  },
  {
   "property": "C70",
   "status": "proved",
   "theorems": [
    "C70_single_axis",
    "C70_compatible",
    "C70_other_cases",
    "C70_extra_dimension"
   ],
   "note": "MergeModel.v/MergeProps.v: C70_single_axis, C70_compatible, C70_other_cases; finding C70_extra_dimension"
  },
  {
   "property": "C71",
   "status": "proved",
   "theorems": [
    "C71_area",
    "C71_square",
    "C71_deterministic",
    "C71_line",
    "C71_single",
    "C71_empty",
    "C71_last_row_wrong"
   ],
   "note": "C71_area (all cells), C71_square, C71_deterministic, C71_line, C71_single, C71_empty; finding C71_last_row_wrong."
  },
  {
   "property": "C72",
   "status": "proved",
   "theorems": [
    "C72_all_cells",
    "C72_half_levels",
    "C72_value",
    "C72_thickness",
    "C72_level_in_layer",
    "C72_homogeneous",
    "C72_two_columns",
    "C72_one_column",
    "C72_one_row",
    "C72_top_layer_refuted",
    "C72_calm_refuted"
   ],
   "note": "VertModel.v is the C function over exact reals with the output as an array of optional values (None = not initialised). VertProps.v abstracts the array to a function of (i, j, k), shows what the three copy loops and the inner loop do to it, and derives the statements; C72_value compares the values inside with formulas written with sums over the layers, for any pressures which meet the conditions of the half levels; C72_top_layer_refuted and C72_calm_refuted follow from it; C72_two_columns, C72_one_column and C72_one_row are the findings for small grids."
  },
  {
   "property": "C73",
   "status": "proved",
   "theorems": [
    "C73_parse_total",
    "C73_parse",
    "C73_parse_flag",
    "C73_flag_swallows",
    "C73_unknown",
    "C73_candidates",
    "C73_theta",
    "C73_theta_nothing",
    "C73_humidity",
    "C73_humidity_second_temperature",
    "C73_omega",
    "C73_pressure",
    "C73_pressure_none",
    "C73_pressure_exception",
    "C73_step",
    "C73_omega_names"
   ],
   "note": "PconvModel.v holds the option parser, the four factories over the metadata model of CdmModel.v, and the constructor. PconvProps.v proves the parser for all texts of the form and all texts in general, and the metadata effect of every factory through the predicate replaced. Findings: C73_flag_swallows, C73_humidity_second_temperature, C73_pressure_exception."
  },
  {
   "property": "C74",
   "status": "proved",
   "theorems": [
    "C74_passed_on",
    "C74_theta_dangling",
    "C74_theta_value",
    "C74_theta_missing",
    "C74_humidity_value",
    "C74_humidity_overflow",
    "C74_humidity_missing",
    "C74_omega_slice",
    "C74_theta_no_pressure",
    "C74_humidity_slice"
   ],
   "note": "The converters of PconvModel.v over exact reals; strings kept by reference are addresses into the vectors of the operation, which are gone when the constructor returns. Findings: C74_theta_dangling, C74_theta_missing, the only-if part of C74_theta_value, C74_humidity_overflow, C74_humidity_missing."
  },
  {
   "property": "C75",
   "status": "proved",
   "theorems": [
    "C75_new",
    "C75_new_throws",
    "C75_reference_time",
    "C75_time",
    "C75_axis",
    "C75_axis_times",
    "C75_reference_time_stays_single",
    "C75_time_variable_builder",
    "C75_axis_types",
    "C75_renamed_reference_refuted",
    "C75_axis_types_refuted",
    "C75_half_done_refuted"
   ],
   "note": "for any history of calls, on the request builder model of C09; findings: a reference time axis with another name than its dimension is never reduced and makes every setTimeStartAndSize throw (C75_renamed_reference_refuted), getAxisTypes throws for a dimension without axis (C75_axis_types_refuted), setAxisStartAndSize may throw half-way (C75_half_done_refuted)"
  },
  {
   "property": "C76",
   "status": "proved",
   "theorems": [
    "C76_column",
    "C76_every_cell",
    "C76_between",
    "C76_outside_limits",
    "C76_no_record",
    "C76_unknown_dimension",
    "C76_limits_used",
    "C76_valid_range",
    "C76_first_level_refuted",
    "C76_beyond_first_refuted",
    "C76_limits_record_refuted"
   ],
   "note": "VintModel.v follows getLevelDataSlice on top of LoopModel.v and SearchModel.v; variables and converters are functions of the position. C76_column gives every cell by its point (a coordinate for each dimension name), C76_every_cell says that these are all cells, C76_between what the neighbour search means for it. Findings: C76_first_level_refuted, C76_beyond_first_refuted, C76_limits_record_refuted (the limits in C76_column are those of record 0)."
  },
  {
   "property": "C77",
   "status": "proved",
   "theorems": [
    "C77_fixed",
    "C77_axis",
    "C77_template",
    "C77_accepted",
    "C77_rejected",
    "C77_description",
    "C77_fixed_once",
    "C77_words",
    "C77_unknown_axis_refuted",
    "C77_parts_of_names_refuted",
    "C77_special_name_stays_refuted",
    "C77_other_users_refuted"
   ],
   "note": "The metadata is the CDM model of C44; a coordinate system is reduced to its axes, the set of variables it is complete for and whether it has a vertical transformation. The loop over coordinate systems and variables is proved by an invariant that describes every variable and its attributes; the regular expression is modelled by its word boundaries and proved against a text split into words."
  },
  {
   "property": "C78",
   "status": "proved",
   "theorems": [
    "C78_merged",
    "C78_keeps",
    "C78_unknown_throws",
    "C78_length1",
    "C78_adapted",
    "C78_record",
    "C78_curvilinear_refuted",
    "C78_scalar_axis_refuted"
   ],
   "note": "ShapeModel.v follows the placement rules of merge; the order is proved by cases on the place of insertion from sortedness of the parts before and after it. adaptSliceBuilder is reduced to a history of setStartAndSize calls on the builder model of C02."
  },
  {
   "property": "C79",
   "status": "proved",
   "theorems": [
    "C79_auxiliary",
    "C79_selected",
    "C79_complete",
    "C79_removed_variable_refuted"
   ],
   "note": "The metadata is the CDM model of C44, a coordinate system its complete-for set and its dependencies. Closure is the inductive relation `reach`; fuel is any number above the count of names that can occur. Finding: C79_removed_variable_refuted."
  },
  {
   "property": "C80",
   "status": "proved",
   "theorems": [
    "C80_axis",
    "C80_member",
    "C80_contains",
    "C80_empty_range",
    "C80_time",
    "C80_time_range",
    "C80_axes",
    "C80_safe",
    "C80_second_range_ignored_refuted",
    "C80_above_all_refuted",
    "C80_negative_slope_refuted",
    "C80_not_monotone_refuted"
   ],
   "note": "Exact rationals; the two binary searches are proved from the partition of the values. Unit conversion is a given slope and offset. Findings: C80_second_range_ignored_refuted, C80_above_all_refuted, C80_negative_slope_refuted, C80_not_monotone_refuted."
  },
  {
   "property": "C81",
   "status": "proved",
   "theorems": [
    "C81_box",
    "C81_untouched",
    "C81_accepted",
    "C81_longitudes_to_360_refuted",
    "C81_shared_axis_refuted",
    "C81_empty_refuted"
   ],
   "note": "The projection is a given function from the axes to longitude and latitude. Findings: C81_longitudes_to_360_refuted, C81_shared_axis_refuted, C81_empty_refuted."
  },
  {
   "property": "C82",
   "status": "proved",
   "theorems": [
    "C82_compatible",
    "C82_compatible_other",
    "C82_merged",
    "C82_defined",
    "C82_grid",
    "C82_axis_rejected",
    "C82_smoothing_source",
    "C82_overlay_source",
    "C82_target",
    "C82_target_variable",
    "C82_y_unit_refuted",
    "C82_keep_outer_refuted",
    "C82_auxiliary_unreadable_refuted",
    "C82_scalar_axis_refuted",
    "C82_two_unlimited_refuted",
    "C82_no_horizontal_refuted"
   ],
   "note": "Metadata as in C44, closure as in C79; the interpolated outer file is any metadata with coordinate systems. is_compatible is modelled with exceptions and null pointers, unlike in C70. Findings: C82_y_unit_refuted, C82_keep_outer_refuted, C82_auxiliary_unreadable_refuted, C82_scalar_axis_refuted, C82_two_unlimited_refuted, C82_no_horizontal_refuted."
  },
  {
   "property": "C83",
   "status": "proved",
   "theorems": [
    "C83_classic",
    "C83_roundtrip",
    "C83_defined",
    "C83_removed",
    "C83_default",
    "C83_renamed",
    "C83_attribute",
    "C83_retyped",
    "C83_reference_refuted",
    "C83_retype_fill_refuted",
    "C83_zero_length_refuted",
    "C83_length_refuted",
    "C83_unknown_dimension_refuted",
    "C83_strings_refuted",
    "C83_nul_refuted"
   ],
   "note": "Metadata as in C44; a netCDF file is a list of dimensions, variables and attributes with the rules of the library for definitions. The configuration is a record, its XML syntax is not modelled. Findings: C83_reference_refuted, C83_retype_fill_refuted, C83_zero_length_refuted, C83_length_refuted, C83_unknown_dimension_refuted, C83_strings_refuted, C83_nul_refuted."
  },
  {
   "property": "C84",
   "status": "proved",
   "theorems": [
    "C84_wrong_size_refuted",
    "C84_written",
    "C84_read_back",
    "C84_renamed_unlimited_refuted",
    "C84_same_packing",
    "C84_new_packing",
    "C84_no_conversion_refuted",
    "C84_types",
    "C84_second_unlimited_refuted",
    "C84_untyped_scalar_refuted",
    "C84_exception"
   ],
   "note": "The loop is a fold over any permutation of the pairs of position and variable, on a file of C83 with cells. Conversions as in C24 and C25; packing attributes that are NaN are not modelled. Findings: C84_renamed_unlimited_refuted, C84_no_conversion_refuted, C84_wrong_size_refuted, C84_second_unlimited_refuted, C84_untyped_scalar_refuted."
  },
  {
   "property": "C85",
   "status": "proved",
   "theorems": [
    "C85_configuration",
    "C85_accepted",
    "C85_compress",
    "C85_small",
    "C85_configured",
    "C85_chunk_length_refuted",
    "C85_product_wraps_refuted"
   ],
   "note": "Lengths as unsigned int, the running product as size_t, exactly as in the code. Findings: C85_chunk_length_refuted, C85_product_wraps_refuted."
  },
  {
   "property": "C86",
   "status": "proved",
   "theorems": [
    "C86_request_put_get",
    "C86_request_frame",
    "C86_request_refused",
    "C86_slice_put_get",
    "C86_slice_other_record",
    "C86_slice_other_variable",
    "C86_append",
    "C86_unlimited_not_first_refuted",
    "C86_second_unlimited_refuted"
   ],
   "note": "The rules of nc_put_vara and nc_get_vara are part of the model. Findings: C86_unlimited_not_first_refuted, C86_second_unlimited_refuted."
  },
  {
   "property": "C87",
   "status": "proved",
   "theorems": [
    "C87_progression",
    "C87_values",
    "C87_separator",
    "C87_untouched",
    "C87_edited",
    "C87_added",
    "C87_removed",
    "C87_dimension",
    "C87_dimension_kept",
    "C87_dimension_added",
    "C87_dimension_in_use",
    "C87_dimension_removed",
    "C87_globals",
    "C87_identity",
    "C87_unsigned_refuted",
    "C87_char_refuted",
    "C87_rename_attribute_refuted",
    "C87_rename_self_refuted",
    "C87_negative_length_refuted",
    "C87_no_values_refuted",
    "C87_unlimited_refuted",
    "C87_data_in_memory_refuted"
   ],
   "note": "A document is given by its elements; libxml2 and XPath are not modelled. Parsing of numbers (initDataByArray, string2type) is a parameter. Findings: C87_unsigned_refuted, C87_char_refuted, C87_rename_attribute_refuted, C87_rename_self_refuted, C87_negative_length_refuted, C87_no_values_refuted, C87_unlimited_refuted, C87_data_in_memory_refuted."
  },
  {
   "property": "C88",
   "status": "proved",
   "theorems": [
    "C88_untouched",
    "C88_edited",
    "C88_beyond",
    "C88_physical",
    "C88_chain_refuted",
    "C88_shape_refuted"
   ],
   "note": "The wrapped reader is any function from requests to data. Findings: C88_chain_refuted, C88_shape_refuted."
  },
  {
   "property": "C89",
   "status": "proved",
   "theorems": [
    "C89_records",
    "C89_escaped",
    "C89_with_data",
    "C89_without_data",
    "C89_unchanged",
    "C89_separator",
    "C89_strings",
    "C89_line_end_refuted",
    "C89_empty_refuted",
    "C89_unsigned_refuted",
    "C89_no_records_refuted",
    "C89_long_refuted",
    "C89_counterpart_refuted",
    "C89_shape_refuted",
    "C89_comma_refuted",
    "C89_marker_refuted"
   ],
   "note": "The document is taken as an XML parser delivers it, with attribute values normalised. Printing and parsing of numbers are parameters, so loss of digits is a hypothesis; string variables are not modelled. Findings: C89_line_end_refuted, C89_empty_refuted, C89_unsigned_refuted, C89_no_records_refuted, C89_long_refuted, C89_counterpart_refuted, C89_shape_refuted, C89_comma_refuted, C89_marker_refuted."
  },
  {
   "property": "C90",
   "status": "proved",
   "theorems": [
    "C90_axes",
    "C90_from_variable",
    "C90_throws",
    "C90_succeeds",
    "C90_flags",
    "C90_own",
    "C90_order",
    "C90_simple",
    "C90_projection",
    "C90_bounds",
    "C90_dependencies_exist",
    "C90_two_times_refuted",
    "C90_alphabet_refuted",
    "C90_line_end_refuted",
    "C90_shared_refuted",
    "C90_comma_refuted"
   ],
   "note": "Logging is left out; an attribute is its text. Units are recognised by parameters, projections made by a parameter. Findings: C90_two_times_refuted, C90_alphabet_refuted, C90_line_end_refuted, C90_shared_refuted, C90_comma_refuted."
  },
  {
   "property": "C91",
   "status": "proved",
   "theorems": [
    "C91_standard_name",
    "C91_units",
    "C91_positive",
    "C91_axis",
    "C91_undefined",
    "C91_ascii",
    "C91_positive_case_refuted",
    "C91_bytes_refuted"
   ],
   "note": "Recognition of time units and conversion of units are parameters. Findings: C91_positive_case_refuted, C91_bytes_refuted."
  },
  {
   "property": "C92",
   "status": "proved",
   "theorems": [
    "C92_formula_terms",
    "C92_pressure",
    "C92_depth",
    "C92_height",
    "C92_formula",
    "C92_unknown",
    "C92_none",
    "C92_listed",
    "C92_unchecked_b_refuted",
    "C92_case_refuted"
   ],
   "note": "The regular expression for terms is a scanner; texts in which a term or a name holds a colon are modelled but not specified. C92_listed links the transformation to the listed systems. Findings: C92_unchecked_b_refuted, C92_case_refuted."
  },
  {
   "property": "C93",
   "status": "proved",
   "theorems": [
    "C93_kept",
    "C93_pairs",
    "C93_others",
    "C93_all",
    "C93_again",
    "C93_only",
    "C93_order",
    "C93_wrf",
    "C93_convention",
    "C93_systems",
    "C93_heights_refuted",
    "C93_prefix_refuted",
    "C93_shapes_refuted",
    "C93_table",
    "C93_no_counterpart"
   ],
   "note": "Logging is left out; the vectors are a map from names to counterpart and direction, and the metadata is otherwise unchanged. Coordinate systems of WRF files are a parameter. Findings: C93_heights_refuted, C93_prefix_refuted, C93_shapes_refuted."
  },
  {
   "property": "C94",
   "status": "proved",
   "theorems": [
    "C94_found",
    "C94_listed",
    "C94_cf",
    "C94_coordinates_refuted",
    "C94_projection_refuted",
    "C94_axes_refuted"
   ],
   "note": "Systems are those of C90 and are assumed well-formed (C94_listed proves it for CF files without an axis called _GLOBAL). The output containers are empty at the call. Findings: C94_coordinates_refuted, C94_projection_refuted, C94_axes_refuted."
  },
  {
   "property": "C95",
   "status": "proved",
   "theorems": [
    "C95_parameters",
    "C95_created"
   ],
   "note": "Attributes as in C43. toString and sameProjection are not modelled."
  },
  {
   "property": "C96",
   "status": "proved",
   "theorems": [
    "C96_conic",
    "C96_second_parallel_refuted",
    "C96_rotated",
    "C96_grid_longitude_refuted",
    "C96_scale_refuted",
    "C96_sweep_refuted",
    "C96_flattening_refuted",
    "C96_utm_refuted",
    "C96_unknown",
    "C96_polar_longitude_refuted",
    "C96_lonlat_refuted",
    "C96_no_text_refuted",
    "C96_kind",
    "C96_no_kind",
    "C96_pole_longitude",
    "C96_no_rotation",
    "C96_round_trip"
   ],
   "note": "The functions that print and parse doubles are parameters; the theorems assume that they are inverse on the values used, that printed numbers have no blank, = or _, and that numbers are not NaN. Regular expressions are modelled by what they match. Projecting itself (proj library) is not modelled. Findings: C96_second_parallel_refuted, C96_grid_longitude_refuted, C96_scale_refuted, C96_sweep_refuted, C96_flattening_refuted, C96_utm_refuted, C96_polar_longitude_refuted, C96_lonlat_refuted, C96_no_text_refuted."
  },
  {
   "property": "C97",
   "status": "proved",
   "theorems": [
    "C97_words",
    "C97_values",
    "C97_empty",
    "C97_flattening_refuted"
   ],
   "note": "Words as in C96. Finding: C97_flattening_refuted."
  },
  {
   "property": "C98",
   "status": "proved",
   "theorems": [
    "C98_ellipsoid",
    "C98_bessel",
    "C98_axes",
    "C98_shift",
    "C98_utm",
    "C98_unknown_ellipsoid_refuted",
    "C98_bessel_refuted",
    "C98_zone_refuted"
   ],
   "note": "As C96: the functions that read numbers and take the square root are parameters; regular expressions are modelled by what they match. Findings: C98_unknown_ellipsoid_refuted, C98_bessel_refuted, C98_zone_refuted."
  },
  {
   "property": "C99",
   "status": "proved",
   "theorems": [
    "C99_rotated_refuted",
    "C99_staggered_refuted",
    "C99_shared_axis_refuted",
    "C99_coordinates_refuted",
    "C99_same_names_refuted",
    "C99_geographic",
    "C99_projected",
    "C99_shapes",
    "C99_axis_values",
    "C99_systems"
   ],
   "note": "C99_geographic and C99_projected say what is in the result in terms of lookup by name; C99_shapes that its shapes are well-formed. The systems and data variables are those of C94. The functions that read and write PROJ.4 texts and compute longitudes and latitudes are parameters. Findings: C99_rotated_refuted, C99_staggered_refuted, C99_shared_axis_refuted, C99_coordinates_refuted, C99_same_names_refuted."
  },
  {
   "property": "C100",
   "status": "proved",
   "theorems": [
    "C100_nearest_layers",
    "C100_nearest",
    "C100_vector",
    "C100_record",
    "C100_second_grid_refuted",
    "C100_order_refuted",
    "C100_packed_refuted",
    "C100_other_axes_refuted",
    "C100_other_levels_refuted",
    "C100_pieces",
    "C100_partner"
   ],
   "note": "C100_pieces, C100_record and C100_vector for any interpolation that treats layers separately; C100_nearest_layers shows it for nearest neighbours and C100_nearest combines it with C09. The reader serves data from memory (C01). Rounding to float is not modelled; no dimension is unlimited for the range check of SliceBuilder. Findings: C100_second_grid_refuted, C100_order_refuted, C100_packed_refuted, C100_other_axes_refuted, C100_other_levels_refuted."
  },
  {
   "property": "C101",
   "status": "proved",
   "theorems": [
    "C101_round_trip",
    "C101_again",
    "C101_no_data",
    "C101_vector_refuted",
    "C101_strings_refuted",
    "C101_empty_refuted",
    "C101_length_refuted",
    "C101_global_refuted"
   ],
   "note": "C101_round_trip, C101_again and C101_no_data. The messages are modelled field by field; numbers of strings are not cut to 32 bits (such a message is larger than protobuf can write); data whose type differs from the variable cannot exist (setData refuses). Findings: C101_vector_refuted, C101_strings_refuted, C101_empty_refuted, C101_length_refuted, C101_global_refuted."
  },
  {
   "property": "C102",
   "status": "proved",
   "theorems": [
    "C102_round_trip",
    "C102_join",
    "C102_place",
    "C102_missing",
    "C102_magic",
    "C102_directories_refuted",
    "C102_version_refuted",
    "C102_size_refuted"
   ],
   "note": "C102_round_trip (for any serialisation that can be parsed back; that protobuf is one is trusted, and holds for texts in UTF-8 only), C102_join, C102_place, C102_missing, C102_magic. The configured root_path replaces the directory of the index and is not modelled. Findings: C102_directories_refuted, C102_version_refuted, C102_size_refuted."
  },
  {
   "property": "C103",
   "status": "proved",
   "theorems": [
    "C103_sigma",
    "C103_hybrid_ap",
    "C103_ln",
    "C103_hybrid_height",
    "C103_ocean",
    "C103_height",
    "C103_hybrid",
    "C103_hybrid_exchanged",
    "C103_parts",
    "C103_missing",
    "C103_exchanged_refuted",
    "C103_sigma_order_refuted",
    "C103_record_refuted",
    "C103_shared_refuted",
    "C103_null_refuted"
   ],
   "note": "VconvModel.v models the body that the getDataSlice methods share (reading the parts of the terms, group, loop, formula, uninitialised output) and its instances, with the constructors between the formula terms and the converters; values are real numbers in the unit of the converter (unit conversion is C40, the shape of the request C78). LoopInv.v repeats C35 for groups with lowered shared dimensions. The general theorem convert_ok in VconvProofs.v needs only the request inside of the dimensions and complete data. Findings: HybridSigmaPressure2 exchanges ps and p0 (C103_exchanged_refuted: the surface level gets p0 instead of ps); AtmosphereSigma exchanges twice; p0 always from record 0; terms handed over as one value are wrong if all terms share the fastest dimension; b of the hybrid height and eta without data dereference null."
  },
  {
   "property": "C104",
   "status": "proved",
   "theorems": [
    "C104_choice",
    "C104_by_type",
    "C104_untyped",
    "C104_by_magic",
    "C104_no_magic",
    "C104_write_blind",
    "C104_by_name",
    "C104_total",
    "C104_create",
    "C104_netcdf_open",
    "C104_netcdf_rw",
    "C104_reader_writer",
    "C104_netcdf_version",
    "C104_grib_edition",
    "C104_grib_args",
    "C104_grib_args_all",
    "C104_grib_files",
    "C104_grib_open",
    "C104_others",
    "C104_offset64_refuted",
    "C104_unknown_type_refuted",
    "C104_nc3_name_refuted",
    "C104_rw_version_refuted",
    "C104_grib1_refuted",
    "C104_rw_file_refuted",
    "C104_colon_refuted",
    "C104_magic_refuted"
   ],
   "note": "IofModel.v models the search and the match and create functions of the five drivers; a driver is a record of functions, so that C104_choice holds for any drivers; the result of the create functions is the constructor call. The theorems split the search into its three rules (by_type/untyped, by_magic/no_magic, by_name as equivalence) for every set of installed plugins; regular expressions are modelled by the texts they match. Findings: CDF with 64-bit offsets is not known by its bytes; unknown type names are ignored; nc3, cdf, netcdf are no extensions; nc3+rw writes version 5; type grib1 with extension grib2 writes edition 2; +rw keeps the prefix file:; a colon cuts memberRegex; matchMagic of netcdf reads seven bytes of a buffer of four."
  },
  {
   "property": "C105",
   "status": "proved",
   "theorems": [
    "C105_messages",
    "C105_slots",
    "C105_slots_no_time",
    "C105_no_slots",
    "C105_levels",
    "C105_default_level",
    "C105_no_default_refuted",
    "C105_references_refuted",
    "C105_split_refuted",
    "C105_level_zero_refuted",
    "C105_hybrid",
    "C105_hybrid_total",
    "C105_surface_first_refuted",
    "C105_sticky_refuted",
    "C105_sticky_pv_refuted",
    "C105_fraction_refuted",
    "C105_vertical_unit_refuted",
    "C105_table_refuted",
    "C105_references_example_refuted",
    "C105_rounding"
   ],
   "note": "GwrModel.v models the writer as actions on a GRIB handle (a map of keys) and a list of written messages, with exceptions; parsing of the XML configuration, the keys of the grid (setProjection) and the GRIB library are inputs. C105_messages proves the list of messages against the declarative plan and describes; C105_slots, C105_levels, C105_default_level, C105_hybrid describe the slots. Findings: with several reference times only the first field of the first one is written, once for each; additional attributes and hybrid coefficients stay in the messages of later variables; a variable with two elements for different levels (as in the shipped configuration) is never written; an element for level 0 fits no level; surface-first hybrid levels are read behind their end; levels lose their fraction; an unknown vertical unit or a missing table number ends the writer; without an element for variables without vertical axis nothing of them is written."
  },
  {
   "property": "C106",
   "status": "proved",
   "theorems": [
    "C106_regular",
    "C106_rotated",
    "C106_lambert",
    "C106_stereographic",
    "C106_silent",
    "C106_unsupported",
    "C106_single",
    "C106_figure_refuted",
    "C106_centre_refuted",
    "C106_directions_refuted",
    "C106_polar_refuted",
    "C106_parallel_refuted",
    "C106_rows_refuted",
    "C106_oblate_refuted",
    "C106_pole_refuted",
    "C106_metres_refuted",
    "C106_steps_refuted"
   ],
   "note": "GgridModel.v models setProjection of both editions as actions on the handle of GwrModel.v, and the functions getGridDef... of the reader with the axes built from the grid; doubles are rationals, the conversion of numbers to text and the projection are parameters, keys that the GRIB library knows under several names are one key. C106_regular, C106_rotated, C106_lambert, C106_stereographic prove that reading what was written gives the grid back; C106_unsupported, C106_single, C106_silent what is refused. Findings: the figure of the earth, the pole at the centre and (stereographic) the directions are never written; in edition 2 polar_stereographic loses its orientation by a misspelt name; in edition 1 the standard parallel is ignored and steps are cut off to metres; poles lose their fraction; conic grids with rows from north to south are read in the other direction; oblate figures in kilometres are read as metres and scale factors with the wrong sign; a rotated grid without given increments is divided by the number of points."
  },
  {
   "property": "C107",
   "status": "proved",
   "theorems": [
    "C107_config",
    "C107_refused",
    "C107_file",
    "C107_vector_refuted",
    "C107_time",
    "C107_constant_refuted",
    "C107_level_name",
    "C107_coefficients_refuted",
    "C107_extra_refuted"
   ],
   "note": "GindModel.v models the choice of the configuration, loading of messages, level axes, dimensions, shapes and (with GribModel.v) the index; attributes, data types, variables of axes and projections and the reading of the XML configuration are left out. C107_config, C107_refused, C107_file. Findings: variables configured as vector components are never marked as such (inverted condition); one message without time makes a file unreadable (see C67); variables that share level numbers share the vertical coefficients of the first of them by name; conditions on further keys are not checked for messages without the key."
  },
  {
   "property": "C108",
   "status": "proved",
   "theorems": [
    "C108_half",
    "C108_half_written",
    "C108_full",
    "C108_scaled",
    "C108_inline",
    "C108_hybrid",
    "C108_increasing",
    "C108_numbers",
    "C108_several",
    "C108_kept",
    "C108_ignored_refuted",
    "C108_last_refuted",
    "C108_beyond_refuted",
    "C108_zero_refuted",
    "C108_level_zero",
    "C108_attribute_twice",
    "C108_scales_refuted",
    "C108_missing_refuted"
   ],
   "note": "GlevModel.v models readValuesFromXPath_ and initSpecialLevels_ with rational numbers; types and shapes of the variables are left out. C108_half, C108_half_written (link to C105), C108_full, C108_scaled, C108_inline, C108_hybrid, C108_increasing, C108_numbers, C108_kept. Findings: values of an axis without further variables are ignored; the last full level is refused for b; a level beyond the last mixes a and b; level 0 gets the last a as b; a scale multiplies values of earlier elements again; when coefficients are missing the file is refused, since the attributes of the variable that could not be read are added all the same."
  },
  {
   "property": "C109",
   "status": "proved",
   "theorems": [
    "C109_steps",
    "C109_process",
    "C109_extract",
    "C109_dimensions",
    "C109_unpaired",
    "C109_positions",
    "C109_picked",
    "C109_box",
    "C109_ranges",
    "C109_target",
    "C109_sections",
    "C109_levels",
    "C109_merge",
    "C109_output",
    "C109_failed",
    "C109_help",
    "C109_printed",
    "C109_print_steps",
    "C109_arguments",
    "C109_print_after",
    "C109_time_end_refuted",
    "C109_autoconf_refuted",
    "C109_process_print_refuted",
    "C109_no_method_refuted",
    "C109_half_points_refuted",
    "C109_merge_ignored_refuted",
    "C109_endless_refuted",
    "C109_added_anyway_refuted",
    "C109_methods",
    "C109_undef_min_refuted",
    "C109_negative_refuted"
   ],
   "note": "CliModel.v, CliProps.v: the program as a function from option values to the tree of readers built, the things printed and the files written, in a small monad with exit and exceptions; reading the command line and configuration files (a library outside the repository), the texts of numbers and what the library does with a reader are parameters. C109_steps, _process, _extract, _dimensions, _unpaired, _positions, _picked, _box, _ranges, _target, _sections, _levels, _merge, _output, _failed, _help, _printed, _print_steps, _methods; findings time_end, autoconf, process_print, no_method, half_points, merge_ignored, endless, added_anyway, undef_min, negative."
  },
  {
   "property": "C110",
   "status": "proved",
   "theorems": [
    "C110_even",
    "C110_staggered",
    "C110_kept",
    "C110_axes",
    "C110_systems",
    "C110_again",
    "C110_kinds",
    "C110_gridded",
    "C110_one_axis",
    "C110_all_axes",
    "C110_projection",
    "C110_others",
    "C110_times_refuted",
    "C110_times",
    "C110_levels",
    "C110_reftime_refuted",
    "C110_no_time_refuted",
    "C110_units",
    "C110_two_axes_refuted",
    "C110_vectors"
   ],
   "note": "Model: WrfModel.v (attributes, axes, times, systems as functions on the metadata; PROJ, the sine and float rounding are parameters or left out). Proved by an invariant over the variables (sys_inv) and a relation \"extended\" that every step keeps; the second listing by showing that everything it would add is already there."
  },
  {
   "property": "C111",
   "status": "proved",
   "theorems": [
    "C111_copy",
    "C111_copy_text",
    "C111_negative_refuted",
    "C111_no_longitude_refuted",
    "C111_longitude",
    "C111_dimensions",
    "C111_dimname_refuted",
    "C111_set",
    "C111_set_refuted",
    "C111_long_dimension_refuted",
    "C111_null",
    "C111_untouched",
    "C111_callback",
    "C111_callback_all",
    "C111_callback_part",
    "C111_memory_refuted",
    "C111_set_callback",
    "C111_other_reader_refuted",
    "C111_fill",
    "C111_units",
    "C111_axis_types",
    "C111_part",
    "C111_fill_refuted",
    "C111_write",
    "C111_write_units_refuted",
    "C111_lists",
    "C111_name_refuted"
   ],
   "note": "Model: CapiModel.v (blocks of memory as lists, a store outside of the block is UB; the handle of a request over SliceModel, reading over ReaderModel and ConvertModel; unit conversion a parameter). Copying by cases; requests by the frame of SliceBuilderProofs; callbacks by showing that the reader with callbacks has the callback results as records and then C04."
  },
  {
   "property": "C112",
   "status": "proved",
   "theorems": [
    "C112_location",
    "C112_single",
    "C112_several_refuted",
    "C112_suffix",
    "C112_scan",
    "C112_members",
    "C112_no_members",
    "C112_new_records",
    "C112_unreadable",
    "C112_kinds",
    "C112_made_up",
    "C112_coordinates_refuted",
    "C112_half_added_refuted"
   ],
   "note": "Model: NcaggModel.v over AggModel.v (C28), FilesModel.v (C38, C59) and StringModel.v (C18): the document is given by its elements and attributes, the reader factory and std::regex of a given expression are parameters; suffixes are matched by the model of expressions of FilesModel. The construction is shown to be the aggregation of the members, for which C28 holds."
  },
  {
   "property": "C113",
   "status": "proved",
   "theorems": [
    "C113_everything_once",
    "C113_success_means_readable",
    "C113_processes",
    "C113_fixed_variables_refuted",
    "C113_single_process",
    "C113_texts_refuted"
   ],
   "note": "Model: NullwModel.v (the constructor with the trace of requests; the reader is a parameter; MPI by size and rank; the OpenMP loop by an arbitrary order of the positions, exceptions that leave a thread are exceptions here). The trace is shown to be the list of requests of the own positions."
  },
  {
   "property": "C114",
   "status": "proved",
   "theorems": [
    "C114_calendar",
    "C114_instant",
    "C114_time_to_instant_and_back",
    "C114_instant_to_time_and_back",
    "C114_order",
    "C114_text_and_back",
    "C114_invalid",
    "C114_valid",
    "C114_timet",
    "C114_clock_refuted",
    "C114_year_1_refuted",
    "C114_late_year_refuted",
    "C114_compact_text_refuted",
    "C114_no_such_day_refuted"
   ],
   "note": "Model: InstantModel.v over TimeModel.v (C14) and TextModel.v (C61): the day count of the library date and gmtime (neither is part of the source) by the published algorithms, the implicit conversion to the nanoseconds of system_clock with overflow as undefined behaviour. The calendar is proved by arithmetic over years and months with small tables for 400 years and 366 days."
  },
  {
   "property": "C115",
   "status": "proved",
   "theorems": [
    "C115_unchanged",
    "C115_bare_text",
    "C115_format",
    "C115_format_offset",
    "C115_bare_time",
    "C115_bad_offset",
    "C115_in_order",
    "C115_ends",
    "C115_format_forgotten",
    "C115_offset_stays",
    "C115_attributes",
    "C115_attributes_independent",
    "C115_no_commas",
    "C115_update",
    "C115_min_max",
    "C115_merged_refuted",
    "C115_other_name_refuted",
    "C115_offset_kept_refuted",
    "C115_plus_refuted",
    "C115_long_refuted",
    "C115_strftime",
    "C115_limits"
   ],
   "note": "Model: TmplModel.v: the regular expression by the list of its matches in the order of a backtracking search, strftime for %Y %m %d %H %M %S %% (other conversions are a parameter), the calendar of InstantModel.v (C114). The proofs find the first match of the expression: the format ends at the first comma, the options at the last )%."
  },
  {
   "property": "C116",
   "status": "proved",
   "theorems": [
    "C116_byte_order",
    "C116_entry",
    "C116_fields",
    "C116_ends",
    "C116_incomplete",
    "C116_layout",
    "C116_ensemble",
    "C116_no_ensemble",
    "C116_no_block",
    "C116_valid_time",
    "C116_short_field_refuted",
    "C116_short_index_refuted"
   ],
   "note": "Model: FwordModel.v: bytes, words of 16 bits, blocks of 1024 words, sizes modulo 2^64, dates by InstantModel.v (C114) where hours are added. The loop over the index has fuel (the words left), proved never to run out."
  },
  {
   "property": "C117",
   "status": "proved",
   "theorems": [
    "C117_first_method",
    "C117_second_method",
    "C117_methods_agree",
    "C117_wrong_number",
    "C117_wrong_front",
    "C117_words_replaced",
    "C117_geographic",
    "C117_mercator",
    "C117_lambert",
    "C117_polar",
    "C117_polar_old",
    "C117_types",
    "C117_accepted",
    "C117_geographic_axes",
    "C117_rows_refuted",
    "C117_polar_axes",
    "C117_pole",
    "C117_projected",
    "C117_check",
    "C117_common_type",
    "C117_class",
    "C117_geographic_words",
    "C117_mercator_words",
    "C117_lambert_words",
    "C117_polar_words",
    "C117_field",
    "C117_projection"
   ],
   "note": "Model: FgridModel.v over FwordModel.v (C116): numbers are exact rationals instead of float and double, the sine and the projection library are parameters, the projection text is a list of texts and numbers. The expected values in the theorems are written out for each type."
  },
  {
   "property": "C118",
   "status": "proved",
   "theorems": [
    "C118_ascending",
    "C118_descending",
    "C118_inverse",
    "C118_rows_refuted",
    "C118_columns",
    "C118_rectangle",
    "C118_last_point_refuted",
    "C118_whole_refuted",
    "C118_refused",
    "C118_no_box",
    "C118_files",
    "C118_selection",
    "C118_missing_file_refuted",
    "C118_box",
    "C118_no_number",
    "C118_short_box",
    "C118_main",
    "C118_usage",
    "C118_exit_code_refuted"
   ],
   "note": "Model: GcutModel.v over SliceModel.v (C01): exact numbers instead of double, messages as records of the keys in use, a file as the list of what grib_handle_new_from_file gives. That increments in GRIB are positive and the scanning mode says their direction is taken from the reader (GgridModel.v, C105)."
  },
  {
   "property": "C119",
   "status": "proved",
   "theorems": [
    "C119_message",
    "C119_index",
    "C119_cat",
    "C119_append",
    "C119_append_damaged_refuted",
    "C119_damaged",
    "C119_truncated",
    "C119_tail",
    "C119_closed",
    "C119_keys",
    "C119_no_corner",
    "C119_sizes",
    "C119_empty_head",
    "C119_scan",
    "C119_scan_ends",
    "C119_edition_refuted",
    "C119_digits_refuted",
    "C119_options",
    "C119_input_type_refuted",
    "C119_scheme",
    "C119_scheme_file",
    "C119_finishes",
    "C119_cat_nothing",
    "C119_escape_refuted",
    "C119_missing_refuted",
    "C119_empty_refuted",
    "C119_units"
   ],
   "note": "Model: GbmlModel.v: an XML document is the sequence of nodes the reader of libxml2 delivers; attributes written by the writer of libxml2 are read back as they are, those written by operator<< are read back through the rules for entities (a quotation mark and character references always are errors). Doubles are an arbitrary type with a text, reading and fmod(x + 360, 360). What the decoder makes of the bytes of a message is arbitrary. The order of extra keys in the map and white space before numbers are not modelled; neither is the index in the format of protobuf."
  },
  {
   "property": "C120",
   "status": "proved",
   "theorems": [
    "C120_restriction",
    "C120_words",
    "C120_config",
    "C120_name",
    "C120_precise_refuted",
    "C120_fields",
    "C120_read_type",
    "C120_kept",
    "C120_deltas",
    "C120_wrap_refuted",
    "C120_type_refuted",
    "C120_capital_refuted",
    "C120_fill_refuted",
    "C120_inner_refuted"
   ],
   "note": "Model: FparModel.v (diana2feltparameters, the constructor of FeltParameters with a list, initGetKnownFeltIdsFromXML, getParameterName, getParameterDatatype, getParameterFillValue, the grouping of fields by name, gridParameterDelta; the regular expressions are those of TmplModel.v). Proofs: FparProps.v: C120_restriction and C120_words for the words of an id, C120_config for configurations (by induction over the list with the invariant that the three maps have only the ids as keys), C120_name and C120_precise_refuted for the choice of a name, C120_fields, C120_read_type, C120_deltas; witnesses for the findings are the theorems ending in _refuted. Setup files of diana are not modelled."
  },
  {
   "property": "C121",
   "status": "proved",
   "theorems": [
    "C121_statistics",
    "C121_shown",
    "C121_no_values",
    "C121_lines",
    "C121_names",
    "C121_blocks",
    "C121_no_system",
    "C121_not_simple",
    "C121_layer_name",
    "C121_layer_refuted",
    "C121_no_time_refuted",
    "C121_reference_refuted",
    "C121_order_refuted",
    "C121_statistics_refuted",
    "C121_all",
    "C121_layer_values"
   ],
   "note": "Model: XycModel.v on top of the requests of CsbModel.v and SliceModel.v: quantile, calcStats, the lines shown and runStats; values of axes are an arbitrary type with their products with 60 and 10 as long, values of the statistics are rational numbers (no rounding), what is read from the file are functions which may fail. Proofs: XycProps.v: C121_lines (all combinations, by the requests each slice has made; the spec is the list of combinations and what each line shows), C121_statistics (median by a sorted permutation), C121_shown, C121_no_values, C121_names, C121_blocks, C121_no_system; findings C121_layer_refuted and C121_no_time_refuted (for all files), C121_reference_refuted, C121_order_refuted, C121_statistics_refuted. Not modelled: options of the command line shared with fimex, formats of numbers."
  },
  {
   "property": "C122",
   "status": "proved",
   "theorems": [
    "C122_safe",
    "C122_enabled",
    "C122_stderr",
    "C122_log4cpp",
    "C122_shutdown",
    "C122_null_refuted",
    "C122_log4cpp_level_refuted",
    "C122_off_refuted"
   ],
   "note": "Model: LgrModel.v: loggers, classes and objects at addresses in a heap; deleted cells are UB, a lock asked for twice is Hang; setClass within the deletion of a class by fuel 2 (shown to suffice). log4cpp is not part of the code: its priorities, chained priority and isPriorityEnabled are modelled from its documentation, with the priority of the root as parameter. Not modelled: several threads, appenders and layouts, exceptions of new, Python (its class is an arbitrary further class that remembers its loggers). Proofs: LgrProps.v: an invariant of all calls and a second one for the time a class is being deleted; every run is that of a specification without objects (step_ok); C122_safe, C122_enabled, C122_stderr, C122_log4cpp, C122_shutdown. Findings: C122_null_refuted, C122_log4cpp_level_refuted, C122_off_refuted. Case: C122_nonvacuous."
  },
  {
   "property": "C123",
   "status": "proved",
   "theorems": [
    "C123_pressure",
    "C123_integration",
    "C123_altitude",
    "C123_topography",
    "C123_height",
    "C123_depth",
    "C123_preferred",
    "C123_request",
    "C123_levels",
    "C123_column",
    "C123_axes",
    "C123_axis_name_refuted",
    "C123_other_grid_refuted",
    "C123_null_refuted",
    "C123_members_refuted",
    "C123_curvilinear_refuted",
    "C123_hybrid_height",
    "C123_no_vertical_axis"
   ],
   "note": "Model: VselModel.v: variables with standard name, shape and whether the coordinate system is complete for them; axes with name and shape; converters as terms with their shapes (by the ShapeMerger of C78); the adapter on the slice builder of C02. Simplified: regular expressions of standard names are lists of names, the shape of an axis is that of its variable; the search for coordinate systems is a parameter (its results for each variable); values of converters are those of C66 and C103. Proofs: VselProps.v: C123_pressure, C123_integration, C123_altitude, C123_topography, C123_height, C123_depth, C123_preferred, C123_request, C123_levels, C123_column, C123_axes. Findings: C123_axis_name_refuted (the vertical axis is removed from dimensions by its own name: if its dimension has another, altitudes silently are those of the standard atmosphere), C123_other_grid_refuted (with pressure levels a temperature of another grid is used), C123_null_refuted (a converter without data is used as a null pointer), C123_members_refuted (with members, columns have the levels of all members), C123_curvilinear_refuted (with two-dimensional longitudes and latitudes x is ignored); the exchanged surface and reference pressures of HybridSigmaPressure2 (C103) show in C123_pressure."
  },
  {
   "property": "C124",
   "status": "proved",
   "theorems": [
    "C124_document",
    "C124_file",
    "C124_http",
    "C124_shortened",
    "C124_negative",
    "C124_names",
    "C124_reader",
    "C124_kept",
    "C124_kept_url",
    "C124_opened",
    "C124_first",
    "C124_failed",
    "C124_open_file",
    "C124_old_file_refuted",
    "C124_server_refuted"
   ],
   "note": "Model: PieceModel.v: files as names of inodes with bytes (an open file keeps its inode), servers as the length they name and the chunks they send, with http_read of C47 for the callbacks of curl; the offset as size_t and lengths as int. Requests and changes of files are a sequence of operations. Simplified: after an exception in read() the buffer is as before; a missing reader, mutexes, directories, the buffer of stdio and errors of the disk are left out. Proof: one step of the parser as a minimum (xml_step), induction over the buffers; an invariant of the readers kept over all operations."
  },
  {
   "property": "C125",
   "status": "proved",
   "theorems": [
    "C125_moved",
    "C125_projection",
    "C125_dimension_refuted",
    "C125_dimensions_refuted",
    "C125_axis_stays_refuted"
   ],
   "note": "Model: TctModel.v, with the operations on the metadata and the systems of C99 (InterpModel.v). Simplified: logging is left out; the template has data for longitude and latitude; one system (the loop is modelled for all of them; the theorem is for one). Proof: the effect of each operation as functions from names to variables, dimensions and attributes (sem, inv of InterpProofs.v), then reading off the final functions."
  },
  {
   "property": "C126",
   "status": "proved",
   "theorems": [
    "C126_accepted",
    "C126_vectors",
    "C126_data",
    "C126_data_later",
    "C126_component_and_direction",
    "C126_directions",
    "C126_no_null",
    "C126_first_direction_refuted",
    "C126_packing_refuted",
    "C126_all",
    "C126_all_twice",
    "C126_back_refuted",
    "C126_offset_refuted",
    "C126_exception_refuted"
   ],
   "note": "Model: VrotModel.v: the state of the requests and the rotation in getDataSlice. Parameters: the records of the reader, the system of each variable (C94), what the matrices do (C42), packing and the conversion to the type of the variable. Simplified: logging and accumulation (C29) are left out; enhanceVectorProperties at the start of rotateAllVectorsToLatLon is in VecModel.v: the marks here are those after it. Proof: induction over the pairs with the maps as functions, and an invariant over requests that every variable to be rotated has a matrix."
  }
 ]
}