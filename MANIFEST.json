{
 "claims": [
  {
   "property": "C01",
   "status": "proved",
   "theorems": [
    "C01_find_span_returns",
    "C01_find_span_any_numbers"
   ],
   "note": ""
  },
  {
   "property": "C02",
   "status": "proved",
   "theorems": [
    "C02_find_span_contains"
   ],
   "note": ""
  },
  {
   "property": "C03",
   "status": "proved",
   "theorems": [
    "C03_find_span_half_open",
    "C03_empty_span_refuted"
   ],
   "note": ""
  },
  {
   "property": "C04",
   "status": "proved",
   "theorems": [
    "C04_find_span_below_hangs",
    "C04_find_span_above_hangs",
    "C04_find_span_above_cases",
    "C04_special",
    "C04_divergence_genuine"
   ],
   "note": ""
  },
  {
   "property": "C05",
   "status": "proved",
   "theorems": [
    "C05_end_tolerance",
    "C05_infinite_end",
    "C05_negative_basis",
    "C05_narrow_last_span_refuted"
   ],
   "note": ""
  },
  {
   "property": "C06",
   "status": "proved",
   "theorems": [
    "C06_normalize_affine",
    "C06_normalize_idempotent",
    "C06_normalize_invariant"
   ],
   "note": ""
  },
  {
   "property": "C07",
   "status": "proved",
   "theorems": [
    "C07_normalize_constant",
    "C07_normalize_empty",
    "C07_normalize_list"
   ],
   "note": ""
  },
  {
   "property": "C08",
   "status": "proved",
   "theorems": [
    "C08_check_knot_vector",
    "C08_clamped_accepted"
   ],
   "note": ""
  },
  {
   "property": "C09",
   "status": "proved",
   "theorems": [
    "C09_generate_uniform",
    "C09_generate_uniform_short"
   ],
   "note": ""
  },
  {
   "property": "C10",
   "status": "proved",
   "theorems": [
    "C10_uniform_accepted",
    "C10_uniform_rejected"
   ],
   "note": ""
  },
  {
   "property": "C11",
   "status": "proved",
   "theorems": [
    "C11_find_multiplicity",
    "C11_at_least_exact",
    "C11_exact_when_separated"
   ],
   "note": ""
  },
  {
   "property": "C12",
   "status": "proved",
   "theorems": [
    "C12_insertion_result",
    "C12_insertion_knots",
    "C12_insertion_planar_raises"
   ],
   "note": ""
  },
  {
   "property": "C13",
   "status": "proved",
   "theorems": [
    "C13_insertion_keeps_curve",
    "C13_new_knot_keeps_curve"
   ],
   "note": ""
  },
  {
   "property": "C14",
   "status": "proved",
   "theorems": [
    "C14_reinsertion_refuted",
    "C14_overinsertion_refuted"
   ],
   "note": ""
  },
  {
   "property": "C15",
   "status": "proved",
   "theorems": [
    "C15_insertion_points"
   ],
   "note": ""
  },
  {
   "property": "C16",
   "status": "proved",
   "theorems": [
    "C16_basis_functions_cox_de_boor",
    "C16_basis_functions_pieces"
   ],
   "note": ""
  },
  {
   "property": "C17",
   "status": "proved",
   "theorems": [
    "C17_partition_of_unity"
   ],
   "note": ""
  },
  {
   "property": "C18",
   "status": "proved",
   "theorems": [
    "C18_nonnegative"
   ],
   "note": ""
  },
  {
   "property": "C19",
   "status": "proved",
   "theorems": [
    "C19_clamped_start",
    "C19_clamped_end"
   ],
   "note": ""
  },
  {
   "property": "C20",
   "status": "proved",
   "theorems": [
    "C20_empty_span_nan",
    "C20_curve_empty_span_nan",
    "C20_curve_double_knot_refuted"
   ],
   "note": ""
  },
  {
   "property": "C21",
   "status": "proved",
   "theorems": [
    "C21_one_basis_function_cox_de_boor",
    "C21_over_clamped_refuted"
   ],
   "note": ""
  },
  {
   "property": "C22",
   "status": "proved",
   "theorems": [
    "C22_single_and_batch_agree"
   ],
   "note": ""
  },
  {
   "property": "C23",
   "status": "proved",
   "theorems": [
    "C23_single_functions_sum_to_one"
   ],
   "note": ""
  },
  {
   "property": "C24",
   "status": "proved",
   "theorems": [
    "C24_column_zero_is_basis_functions"
   ],
   "note": ""
  },
  {
   "property": "C25",
   "status": "proved",
   "theorems": [
    "C25_true_derivatives",
    "C25_piece_is_basis_function"
   ],
   "note": ""
  },
  {
   "property": "C26",
   "status": "proved",
   "theorems": [
    "C26_derivatives_sum_to_zero"
   ],
   "note": ""
  },
  {
   "property": "C27",
   "status": "proved",
   "theorems": [
    "C27_single_derivatives",
    "C27_zero_outside",
    "C27_order_above_degree_raises",
    "C27_right_end_disagreement"
   ],
   "note": ""
  },
  {
   "property": "C28",
   "status": "proved",
   "theorems": [
    "C28_curve_is_sum",
    "C28_curve_is_sum_everywhere",
    "C28_curve_outside",
    "C28_curve_rejects",
    "C28_curve_tolerance_refuted"
   ],
   "note": ""
  },
  {
   "property": "C29",
   "status": "proved",
   "theorems": [
    "C29_curve_ends",
    "C29_overclamped_refuted"
   ],
   "note": ""
  },
  {
   "property": "C30",
   "status": "proved",
   "theorems": [
    "C30_curve_box"
   ],
   "note": ""
  },
  {
   "property": "C31",
   "status": "proved",
   "theorems": [
    "C31_curve_affine"
   ],
   "note": ""
  },
  {
   "property": "C32",
   "status": "proved",
   "theorems": [
    "C32_curve_local"
   ],
   "note": ""
  },
  {
   "property": "C33",
   "status": "proved",
   "theorems": [
    "C33_points_rows",
    "C33_points_raise",
    "C33_points_rank"
   ],
   "note": ""
  },
  {
   "property": "C34",
   "status": "proved",
   "theorems": [
    "C34_derivatives_never",
    "C34_derivatives_low_order"
   ],
   "note": ""
  },
  {
   "property": "C35",
   "status": "proved",
   "theorems": [
    "C35_never_stored"
   ],
   "note": ""
  },
  {
   "property": "C36",
   "status": "proved",
   "theorems": [
    "C36_setters",
    "C36_degree_of_history",
    "C36_constructor_unchecked"
   ],
   "note": ""
  },
  {
   "property": "C37",
   "status": "proved",
   "theorems": [
    "C37_insert_knot_fails",
    "C37_insert_knot_body_unchanged"
   ],
   "note": ""
  },
  {
   "property": "C38",
   "status": "proved",
   "theorems": [
    "C38_to_dict_fails",
    "C38_from_dict",
    "C38_from_dict_aliases"
   ],
   "note": ""
  },
  {
   "property": "C39",
   "status": "proved",
   "theorems": [
    "C39_surface_is_sum",
    "C39_surface_is_sum_everywhere",
    "C39_surface_outside",
    "C39_surface_rejects",
    "C39_points",
    "C39_points_rank"
   ],
   "note": ""
  },
  {
   "property": "C40",
   "status": "proved",
   "theorems": [
    "C40_surface_edges",
    "C40_surface_corners",
    "C40_surface_box"
   ],
   "note": ""
  },
  {
   "property": "C41",
   "status": "proved",
   "theorems": [
    "C41_surface_derivatives",
    "C41_outside",
    "C41_rejects"
   ],
   "note": ""
  },
  {
   "property": "C42",
   "status": "proved",
   "theorems": [
    "C42_no_surface",
    "C42_super",
    "C42_setters",
    "C42_control_points_inverted",
    "C42_history",
    "C42_history_knots",
    "C42_counts",
    "C42_counts_refuted"
   ],
   "note": ""
  },
  {
   "property": "C43",
   "status": "proved",
   "theorems": [
    "C43_initial_curve",
    "C43_initial_curve_segment",
    "C43_too_few",
    "C43_no_knots",
    "C43_planar",
    "C43_repo_class"
   ],
   "note": ""
  },
  {
   "property": "C44",
   "status": "proved",
   "theorems": [
    "C44_initial_guess",
    "C44_empty"
   ],
   "note": ""
  },
  {
   "property": "C45",
   "status": "proved",
   "theorems": [
    "C45_steps",
    "C45_range",
    "C45_range_checked"
   ],
   "note": ""
  },
  {
   "property": "C46",
   "status": "proved",
   "theorems": [
    "C46_exit",
    "C46_line_refuted",
    "C46_converged_refuted",
    "C46_repo_class",
    "C46_degree_one"
   ],
   "note": ""
  },
  {
   "property": "C47",
   "status": "proved",
   "theorems": [
    "C47_steps",
    "C47_range",
    "C47_exit",
    "C47_outdated_derivatives",
    "C47_flat",
    "C47_degree_one"
   ],
   "note": ""
  },
  {
   "property": "C48",
   "status": "proved",
   "theorems": [
    "C48_initial_guess",
    "C48_empty"
   ],
   "note": ""
  },
  {
   "property": "C49",
   "status": "proved",
   "theorems": [
    "C49_permutation",
    "C49_sorted",
    "C49_not_three_dimensional"
   ],
   "note": ""
  },
  {
   "property": "C50",
   "status": "proved",
   "theorems": [
    "C50_permutation",
    "C50_sorted",
    "C50_not_three_dimensional"
   ],
   "note": ""
  },
  {
   "property": "C51",
   "status": "proved",
   "theorems": [
    "C51_fixed_kept",
    "C51_all_fixed",
    "C51_short_mask",
    "C51_quiet",
    "C51_condition"
   ],
   "note": ""
  },
  {
   "property": "C52",
   "status": "proved",
   "theorems": [
    "C52_optimal",
    "C52_solver"
   ],
   "note": ""
  },
  {
   "property": "C53",
   "status": "proved",
   "theorems": [
    "C53_optimal",
    "C53_kept",
    "C53_repo_class",
    "C53_unity"
   ],
   "note": ""
  },
  {
   "property": "C54",
   "status": "proved",
   "theorems": [
    "C54_mask",
    "C54_optimal",
    "C54_unity"
   ],
   "note": ""
  },
  {
   "property": "C55",
   "status": "proved",
   "theorems": [
    "C55_rounds",
    "C55_repo_class",
    "C55_count"
   ],
   "note": ""
  },
  {
   "property": "C56",
   "status": "proved",
   "theorems": [
    "C56_ignored",
    "C56_bad_width",
    "C56_missing",
    "C56_optimal"
   ],
   "note": ""
  },
  {
   "property": "C57",
   "status": "proved",
   "theorems": [
    "C57_guards",
    "C57_number_types",
    "C57_failed_assignment",
    "C57_degree",
    "C57_num",
    "C57_data",
    "C57_method",
    "C57_assign",
    "C57_latest",
    "C57_interior_assign",
    "C57_interior_latest",
    "C57_degree_zero_refuted",
    "C57_interior"
   ],
   "note": ""
  },
  {
   "property": "C58",
   "status": "proved",
   "theorems": [
    "C58_initial_curve_kept",
    "C58_refit",
    "C58_count",
    "C58_fit_raises",
    "C58_stale_degree_refuted",
    "C58_parameterize",
    "C58_save",
    "C58_load",
    "C58_load_before",
    "C58_no_data",
    "C58_planar",
    "C58_repo_class"
   ],
   "note": ""
  },
  {
   "property": "C59",
   "status": "proved",
   "theorems": [
    "C59_ruled_surface",
    "C59_mismatch",
    "C59_repo_surface",
    "C59_assignable",
    "C59_history",
    "C59_vtk",
    "C59_vtk_fit",
    "C59_repo_history",
    "C59_unset",
    "C59_no_fit",
    "C59_no_control_points",
    "C59_load_after",
    "C59_parameterize"
   ],
   "note": ""
  },
  {
   "property": "C60",
   "status": "proved",
   "theorems": [
    "C60_never",
    "C60_body"
   ],
   "note": ""
  },
  {
   "property": "C61",
   "status": "proved",
   "theorems": [
    "C61_written",
    "C61_not_readable",
    "C61_integers",
    "C61_padded",
    "C61_blank",
    "C61_short_point",
    "C61_denied"
   ],
   "note": ""
  },
  {
   "property": "C62",
   "status": "proved",
   "theorems": [
    "C62_constructor",
    "C62_write",
    "C62_unsupported",
    "C62_names",
    "C62_read",
    "C62_reading",
    "C62_reader_constructor"
   ],
   "note": ""
  },
  {
   "property": "C63",
   "status": "proved",
   "theorems": [
    "C63_grid",
    "C63_written",
    "C63_surface",
    "C63_zero",
    "C63_short_buffer_refuted",
    "C63_past_end_refuted"
   ],
   "note": ""
  },
  {
   "property": "C64",
   "status": "proved",
   "theorems": [
    "C64_import_order",
    "C64_every_module",
    "C64_never_loaded",
    "C64_abc_not_enough",
    "C64_dedent",
    "C64_dedent_class",
    "C64_contents",
    "C64_needed",
    "C64_fuel"
   ],
   "note": ""
  },
  {
   "property": "C65",
   "status": "proved",
   "theorems": [
    "C65_optimal",
    "C65_kept",
    "C65_repo_class"
   ],
   "note": ""
  },
  {
   "property": "C66",
   "status": "proved",
   "theorems": [
    "C66_surface",
    "C66_curve",
    "C66_repo_class"
   ],
   "note": ""
  },
  {
   "property": "C67",
   "status": "proved",
   "theorems": [
    "C67_boundary_fit"
   ],
   "note": ""
  },
  {
   "property": "C68",
   "status": "proved",
   "theorems": [
    "C68_curve_requests",
    "C68_degree_keyword_lost",
    "C68_detour",
    "C68_dimension_clash",
    "C68_uv_knots_never",
    "C68_surface_attributes",
    "C68_surface_dimension",
    "C68_surface_private",
    "C68_outcomes",
    "C68_frame"
   ],
   "note": ""
  },
  {
   "property": "C69",
   "status": "proved",
   "theorems": [
    "C69_arrays",
    "C69_methods",
    "C69_boundary_history",
    "C69_data_history",
    "C69_dimension",
    "C69_assign",
    "C69_latest"
   ],
   "note": ""
  },
  {
   "property": "C70",
   "status": "proved",
   "theorems": [
    "C70_interior_fit"
   ],
   "note": ""
  },
  {
   "property": "C71",
   "status": "proved",
   "theorems": [
    "C71_derivatives",
    "C71_span",
    "C71_outside"
   ],
   "note": ""
  },
  {
   "property": "C72",
   "status": "proved",
   "theorems": [
    "C72_outcome",
    "C72_regular",
    "C72_sample",
    "C72_point_curve",
    "C72_data"
   ],
   "note": ""
  },
  {
   "property": "C73",
   "status": "proved",
   "theorems": [
    "C73_outcome",
    "C73_sample"
   ],
   "note": ""
  },
  {
   "property": "C74",
   "status": "proved",
   "theorems": [
    "C74_outcome",
    "C74_closed",
    "C74_sampled",
    "C74_first_round"
   ],
   "note": ""
  },
  {
   "property": "C75",
   "status": "proved",
   "theorems": [
    "C75_outcome",
    "C75_sampled"
   ],
   "note": ""
  },
  {
   "property": "C76",
   "status": "proved",
   "theorems": [
    "C76_line",
    "C76_initial"
   ],
   "note": ""
  },
  {
   "property": "C77",
   "status": "proved",
   "theorems": [
    "C77_trace",
    "C77_cases",
    "C77_newton"
   ],
   "note": ""
  },
  {
   "property": "C78",
   "status": "proved",
   "theorems": [
    "C78_trace",
    "C78_cases",
    "C78_newton"
   ],
   "note": ""
  },
  {
   "property": "C79",
   "status": "proved",
   "theorems": [
    "C79_span",
    "C79_same_as_exact",
    "C79_probes"
   ],
   "note": ""
  },
  {
   "property": "C80",
   "status": "proved",
   "theorems": [
    "C80_basis",
    "C80_narrow_span_refuted",
    "C80_exact_sum_refuted"
   ],
   "note": ""
  },
  {
   "property": "C81",
   "status": "proved",
   "theorems": [
    "C81_curve",
    "C81_uniform",
    "C81_exact_ends_refuted"
   ],
   "note": ""
  },
  {
   "property": "C82",
   "status": "proved",
   "theorems": [
    "C82_surface",
    "C82_uniform"
   ],
   "note": ""
  },
  {
   "property": "C83",
   "status": "proved",
   "theorems": [
    "C83_generated",
    "C83_generated_accepted",
    "C83_nearest_refuted",
    "C83_clamped_accepted",
    "C83_unit_accepted",
    "C83_sorted_refuted"
   ],
   "note": ""
  },
  {
   "property": "C84",
   "status": "proved",
   "theorems": [
    "C84_guess",
    "C84_nearest_refuted",
    "C84_uniform"
   ],
   "note": ""
  },
  {
   "property": "C85",
   "status": "proved",
   "theorems": [
    "C85_guess",
    "C85_uniform"
   ],
   "note": ""
  },
  {
   "property": "C86",
   "status": "proved",
   "theorems": [
    "C86_curve",
    "C86_surface",
    "C86_library_curve",
    "C86_library_surface",
    "C86_sorted_curve",
    "C86_sorted_surface"
   ],
   "note": ""
  },
  {
   "property": "C87",
   "status": "proved",
   "theorems": [
    "C87_grid",
    "C87_powers",
    "C87_default",
    "C87_surface"
   ],
   "note": ""
  },
  {
   "property": "C88",
   "status": "proved",
   "theorems": [
    "C88_insertion",
    "C88_new_knot",
    "C88_points",
    "C88_exact_refuted"
   ],
   "note": ""
  },
  {
   "property": "C89",
   "status": "proved",
   "theorems": [
    "C89_initial_curve",
    "C89_points",
    "C89_exact_refuted",
    "C89_between_refuted"
   ],
   "note": ""
  },
  {
   "property": "C90",
   "status": "proved",
   "theorems": [
    "C90_ruled_surface",
    "C90_top_refuted"
   ],
   "note": ""
  },
  {
   "property": "C91",
   "status": "proved",
   "theorems": [
    "C91_one_basis",
    "C91_not_finite",
    "C91_unity_refuted",
    "C91_gap_refuted"
   ],
   "note": ""
  },
  {
   "property": "C92",
   "status": "proved",
   "theorems": [
    "C92_curve",
    "C92_any_order",
    "C92_surface"
   ],
   "note": ""
  },
  {
   "property": "C93",
   "status": "proved",
   "theorems": [
    "C93_adaptive_fit"
   ],
   "note": ""
  },
  {
   "property": "C94",
   "status": "proved",
   "theorems": [
    "C94_boundary_fit"
   ],
   "note": ""
  },
  {
   "property": "C95",
   "status": "proved",
   "theorems": [
    "C95_start",
    "C95_end",
    "C95_uniform",
    "C95_uniform_refuted",
    "C95_fit"
   ],
   "note": ""
  },
  {
   "property": "C96",
   "status": "proved",
   "theorems": [
    "C96_corners",
    "C96_edges",
    "C96_corner_refuted"
   ],
   "note": ""
  },
  {
   "property": "C97",
   "status": "proved",
   "theorems": [
    "C97_interior_fit",
    "C97_bottom_refuted"
   ],
   "note": ""
  },
  {
   "property": "C98",
   "status": "proved",
   "theorems": [
    "C98_derivatives",
    "C98_first_column",
    "C98_narrow_span_refuted",
    "C98_exact_sum_refuted"
   ],
   "note": ""
  },
  {
   "property": "C99",
   "status": "proved",
   "theorems": [
    "C99_curve",
    "C99_uniform",
    "C99_exact_refuted"
   ],
   "note": ""
  },
  {
   "property": "C100",
   "status": "proved",
   "theorems": [
    "C100_surface",
    "C100_uniform",
    "C100_exact_refuted"
   ],
   "note": ""
  },
  {
   "property": "C101",
   "status": "proved",
   "theorems": [
    "C101_boundary",
    "C101_interior",
    "C101_frame",
    "C101_boundary_references",
    "C101_interior_references",
    "C101_owners",
    "C101_refused",
    "C101_new"
   ],
   "note": ""
  },
  {
   "property": "C102",
   "status": "proved",
   "theorems": [
    "C102_guards",
    "C102_vector",
    "C102_matrix",
    "C102_data",
    "C102_fixed_fit",
    "C102_curve",
    "C102_copied_refuted",
    "C102_independent_refuted"
   ],
   "note": ""
  },
  {
   "property": "C103",
   "status": "proved",
   "theorems": [
    "C103_top",
    "C103_bottom",
    "C103_knots",
    "C103_checked_refuted"
   ],
   "note": ""
  },
  {
   "property": "C104",
   "status": "proved",
   "theorems": [
    "C104_tables",
    "C104_next_order_refuted",
    "C104_smooth"
   ],
   "note": ""
  },
  {
   "property": "C105",
   "status": "proved",
   "theorems": [
    "C105_curve",
    "C105_surface"
   ],
   "note": ""
  },
  {
   "property": "C106",
   "status": "proved",
   "theorems": [
    "C106_curve",
    "C106_surface"
   ],
   "note": ""
  },
  {
   "property": "C107",
   "status": "proved",
   "theorems": [
    "C107_curve",
    "C107_surface",
    "C107_fewer_refuted"
   ],
   "note": ""
  },
  {
   "property": "C108",
   "status": "proved",
   "theorems": [
    "C108_curve_unique",
    "C108_curve_recovers",
    "C108_surface_unique",
    "C108_surface_recovers"
   ],
   "note": ""
  },
  {
   "property": "C109",
   "status": "proved",
   "theorems": [
    "C109_bilinear"
   ],
   "note": ""
  },
  {
   "property": "C110",
   "status": "proved",
   "theorems": [
    "C110_curve",
    "C110_surface",
    "C110_parameterize_curve",
    "C110_parameterize_surface",
    "C110_scaling_refuted"
   ],
   "note": ""
  },
  {
   "property": "C111",
   "status": "proved",
   "theorems": [
    "C111_curve",
    "C111_surface"
   ],
   "note": ""
  },
  {
   "property": "C112",
   "status": "proved",
   "theorems": [
    "C112_curve",
    "C112_injective",
    "C112_convex",
    "C112_surface_u",
    "C112_surface_v",
    "C112_narrow_refuted"
   ],
   "note": ""
  },
  {
   "property": "C113",
   "status": "proved",
   "theorems": [
    "C113_curve",
    "C113_surface",
    "C113_narrow_refuted"
   ],
   "note": ""
  },
  {
   "property": "C114",
   "status": "proved",
   "theorems": [
    "C114_curve_order",
    "C114_curve_reversed",
    "C114_surface_order",
    "C114_surface_exchanged",
    "C114_surface_reversed_u",
    "C114_surface_reversed_v"
   ],
   "note": ""
  },
  {
   "property": "C115",
   "status": "proved",
   "theorems": [
    "C115_smooth",
    "C115_top_row_refuted"
   ],
   "note": ""
  },
  {
   "property": "C116",
   "status": "proved",
   "theorems": [
    "C116_curve",
    "C116_surface_exchanged",
    "C116_surface_reversed_u",
    "C116_surface_reversed_v",
    "C116_knot_refuted"
   ],
   "note": ""
  },
  {
   "property": "C117",
   "status": "proved",
   "theorems": [
    "C117_orders",
    "C117_left_to_right",
    "C117_curve",
    "C117_surface",
    "C117_curve_derivatives",
    "C117_surface_derivatives",
    "C117_ends",
    "C117_corners",
    "C117_order_refuted"
   ],
   "note": ""
  },
  {
   "property": "C118",
   "status": "proved",
   "theorems": [
    "C118_contraction",
    "C118_quadratic",
    "C118_spline"
   ],
   "note": ""
  },
  {
   "property": "C119",
   "status": "proved",
   "theorems": [
    "C119_on_surface",
    "C119_off_surface_refuted",
    "C119_default_refuted"
   ],
   "note": ""
  },
  {
   "property": "C120",
   "status": "proved",
   "theorems": [
    "C120_adaptive",
    "C120_fixed",
    "C120_surface",
    "C120_boundary",
    "C120_interior",
    "C120_sparse_refuted"
   ],
   "note": ""
  },
  {
   "property": "C121",
   "status": "proved",
   "theorems": [
    "C121_compare",
    "C121_special",
    "C121_zero_division",
    "C121_unary",
    "C121_integers",
    "C121_finite",
    "C121_extremes",
    "C121_validate",
    "C121_negative_zero_refuted",
    "C121_rounding_refuted"
   ],
   "note": ""
  },
  {
   "property": "C122",
   "status": "proved",
   "theorems": [
    "C122_parse",
    "C122_words",
    "C122_others",
    "C122_underscores",
    "C122_format",
    "C122_format_special",
    "C122_roundtrip",
    "C122_faithful",
    "C122_surface_file",
    "C122_not_readable",
    "C122_int",
    "C122_int_others",
    "C122_int_underscores",
    "C122_constants"
   ],
   "note": ""
  },
  {
   "property": "C123",
   "status": "proved",
   "theorems": [
    "C123_qualifies",
    "C123_any_sort",
    "C123_parameterize",
    "C123_any_arithmetic",
    "C123_fit",
    "C123_boundary",
    "C123_interior",
    "C123_negative_zero_refuted"
   ],
   "note": ""
  },
  {
   "property": "C124",
   "status": "proved",
   "theorems": [
    "C124_left_to_right",
    "C124_left_objects",
    "C124_nan_orders",
    "C124_steps_curve",
    "C124_steps_surface",
    "C124_guess",
    "C124_guess_surface",
    "C124_order_refuted",
    "C124_uniform",
    "C124_uniform_surface",
    "C124_range_curve",
    "C124_range_surface",
    "C124_library_curve",
    "C124_library_surface",
    "C124_nan_refuted",
    "C124_sorted_curve",
    "C124_sorted_surface"
   ],
   "note": ""
  },
  {
   "property": "C125",
   "status": "proved",
   "theorems": [
    "C125_rows",
    "C125_unit",
    "C125_axis",
    "C125_direction",
    "C125_exact_refuted",
    "C125_large_refuted"
   ],
   "note": ""
  },
  {
   "property": "C126",
   "status": "proved",
   "theorems": [
    "C126_models",
    "C126_rows",
    "C126_unit",
    "C126_axis",
    "C126_direction",
    "C126_order_refuted"
   ],
   "note": ""
  },
  {
   "property": "C127",
   "status": "proved",
   "theorems": [
    "C127_left_to_right",
    "C127_adaptive",
    "C127_rounds",
    "C127_fixed",
    "C127_surface",
    "C127_check_curve",
    "C127_check_surface",
    "C127_round",
    "C127_data_order",
    "C127_order_refuted"
   ],
   "note": ""
  }
 ]
}
