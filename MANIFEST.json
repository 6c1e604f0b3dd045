{
 "claims": [
  {
   "property": "C01",
   "status": "proved",
   "theorems": [
    "C01_scalar_bounds",
    "C01_normalize_then_denormalize",
    "C01_denormalize_then_normalize",
    "C01_box_maps_to_unit_box",
    "C01_fast_variants_agree"
   ],
   "note": ""
  },
  {
   "property": "C02",
   "status": "proved",
   "theorems": [
    "C02_normalizeMatrix_row_by_row",
    "C02_normalizeMatrix_rejects"
   ],
   "note": ""
  },
  {
   "property": "C03",
   "status": "proved",
   "theorems": [
    "C03_after_successful_setBounds",
    "C03_stored_values",
    "C03_constructors",
    "C03_unset_generates_nothing",
    "C03_setVec_rejects",
    "C03_throwing_setBounds_keeps_old_bounds_refuted",
    "C03_setDimension_after_setBounds_refuted",
    "C03_nan_bounds_rejected_refuted",
    "C03_constructor_sizes_refuted"
   ],
   "note": ""
  },
  {
   "property": "C04",
   "status": "proved",
   "theorems": [
    "C04_mat_fillRandom",
    "C04_mat_fillRandom_bounds",
    "C04_mat_LHS_rejects",
    "C04_vec_fillRandom",
    "C04_vec_fillRandom_bounds",
    "C04_vec_randomBetween"
   ],
   "note": ""
  },
  {
   "property": "C05",
   "status": "proved",
   "theorems": [
    "C05_latin_hypercube"
   ],
   "note": ""
  },
  {
   "property": "C06",
   "status": "proved",
   "theorems": [
    "C06_head_tail",
    "C06_head_tail_throw",
    "C06_appendVector",
    "C06_appendVector_throws",
    "C06_copyVector",
    "C06_copyVector_throws",
    "C06_resize",
    "C06_push_back"
   ],
   "note": ""
  },
  {
   "property": "C07",
   "status": "proved",
   "theorems": [
    "C07_min_max_real",
    "C07_min_max_binary64",
    "C07_empty_throws",
    "C07_nan_refuted"
   ],
   "note": ""
  },
  {
   "property": "C08",
   "status": "proved",
   "theorems": [
    "C08_sort_real",
    "C08_sort_binary64",
    "C08_sort_nan_undefined",
    "C08_is_sorted_real",
    "C08_is_sorted_binary64",
    "C08_findInterval",
    "C08_findInterval_unordered"
   ],
   "note": ""
  },
  {
   "property": "C09",
   "status": "proved",
   "theorems": [
    "C09_quantile_between_extremes",
    "C09_quantile_monotone",
    "C09_quantile_endpoints",
    "C09_quantile_value",
    "C09_quantile_rejects"
   ],
   "note": ""
  },
  {
   "property": "C10",
   "status": "proved",
   "theorems": [
    "C10_norm_nonneg",
    "C10_norm_definite",
    "C10_norm_homogeneous",
    "C10_norm_triangle",
    "C10_norm_value",
    "C10_unit_vector"
   ],
   "note": ""
  },
  {
   "property": "C11",
   "status": "proved",
   "theorems": [
    "C11_row_edits_refine_list",
    "C11_add_then_delete_restores",
    "C11_getRow",
    "C11_rejected_addRow_breaks_storage_refuted"
   ],
   "note": ""
  },
  {
   "property": "C12",
   "status": "proved",
   "theorems": [
    "C12_addColumn",
    "C12_addColumn_to_empty",
    "C12_addColumn_throws",
    "C12_getCol",
    "C12_setCol"
   ],
   "note": ""
  },
  {
   "property": "C13",
   "status": "proved",
   "theorems": [
    "C13_submat",
    "C13_resize"
   ],
   "note": ""
  },
  {
   "property": "C14",
   "status": "proved",
   "theorems": [
    "C14_transpose",
    "C14_transpose_involutive",
    "C14_concat_rows",
    "C14_concat_cols",
    "C14_concat_associative"
   ],
   "note": ""
  },
  {
   "property": "C15",
   "status": "proved",
   "theorems": [
    "C15_matVec",
    "C15_matMat",
    "C15_product_then_vector",
    "C15_product_associative",
    "C15_transpose_of_product"
   ],
   "note": ""
  },
  {
   "property": "C16",
   "status": "proved",
   "theorems": [
    "C16_eye",
    "C16_eye_of_new_matrix_is_identity",
    "C16_eye_is_identity_refuted"
   ],
   "note": ""
  },
  {
   "property": "C17",
   "status": "proved",
   "theorems": [
    "C17_cholesky_sound",
    "C17_cholesky_complete",
    "C17_cholesky_success_means_posdef",
    "C17_cholesky_rejects_non_square"
   ],
   "note": ""
  },
  {
   "property": "C18",
   "status": "proved",
   "theorems": [
    "C18_accepted_singular_has_zero_pivot",
    "C18_success_implies_invertible_refuted",
    "C18_binary64_solution_not_finite_refuted"
   ],
   "note": ""
  },
  {
   "property": "C19",
   "status": "proved",
   "theorems": [
    "C19_cholesky_solve",
    "C19_cholesky_system_solves",
    "C19_wrong_sizes_rejected"
   ],
   "note": ""
  },
  {
   "property": "C20",
   "status": "proved",
   "theorems": [
    "C20_determinant_and_log"
   ],
   "note": ""
  },
  {
   "property": "C21",
   "status": "proved",
   "theorems": [
    "C21_lu",
    "C21_lu_rejects_non_square"
   ],
   "note": ""
  },
  {
   "property": "C22",
   "status": "proved",
   "theorems": [
    "C22_lu_solve",
    "C22_lu_system_solves",
    "C22_invert",
    "C22_invert_throws",
    "C22_invert_rejects_non_square"
   ],
   "note": ""
  },
  {
   "property": "C23",
   "status": "proved",
   "theorems": [
    "C23_invertible_rejected_refuted",
    "C23_small_first_column_rejected"
   ],
   "note": ""
  },
  {
   "property": "C24",
   "status": "proved",
   "theorems": [
    "C24_history_is_run",
    "C24_cholesky_flag",
    "C24_lu_flag",
    "C24_solve_without_factorisation",
    "C24_setMatrix_drops_factorisation",
    "C24_flag_after_setDimension_refuted",
    "C24_lu_flag_after_setDimension_refuted"
   ],
   "note": ""
  },
  {
   "property": "C25",
   "status": "proved",
   "theorems": [
    "C25_gaussian_matrix",
    "C25_exponential_matrix",
    "C25_correlation_vector",
    "C25_rejected",
    "C25_parameter_lengths_checked_refuted"
   ],
   "note": ""
  },
  {
   "property": "C26",
   "status": "proved",
   "theorems": [
    "C26_gaussian_kernel_psd",
    "C26_exponential_kernel_psd",
    "C26_gaussian_cholesky_succeeds",
    "C26_exponential_cholesky_succeeds"
   ],
   "note": ""
  },
  {
   "property": "C27",
   "status": "proved",
   "theorems": [
    "C27_gaussian_dot",
    "C27_gaussian_dotdot",
    "C27_mixed_derivative_is_negative",
    "C27_exponential_dot"
   ],
   "note": ""
  },
  {
   "property": "C28",
   "status": "proved",
   "theorems": [
    "C28_exponential_round_trip",
    "C28_gaussian_round_trip",
    "C28_check",
    "C28_setter_accepts_invalid_refuted"
   ],
   "note": ""
  },
  {
   "property": "C29",
   "status": "proved",
   "theorems": [
    "C29_prediction_at_training_points",
    "C29_interpolation",
    "C29_with_validation_split"
   ],
   "note": ""
  },
  {
   "property": "C30",
   "status": "proved",
   "theorems": [
    "C30_linear_in_outputs",
    "C30_affine_outputs",
    "C30_sample_order",
    "C30_shift_with_linear_part_refuted"
   ],
   "note": ""
  },
  {
   "property": "C31",
   "status": "proved",
   "theorems": [
    "C31_generalised_least_squares"
   ],
   "note": ""
  },
  {
   "property": "C32",
   "status": "proved",
   "theorems": [
    "C32_ridge_regression",
    "C32_any_regularisation",
    "C32_initialisation_resets_regularisation"
   ],
   "note": ""
  },
  {
   "property": "C33",
   "status": "proved",
   "theorems": [
    "C33_split_is_partition",
    "C33_no_validation",
    "C33_second_read_uses_old_validation_rows",
    "C33_partition_after_second_read_refuted",
    "C33_ratio_one_rejected"
   ],
   "note": ""
  },
  {
   "property": "C34",
   "status": "proved",
   "theorems": [
    "C34_column_layout",
    "C34_wrong_columns_rejected",
    "C34_normalization",
    "C34_gradient_chain_rule"
   ],
   "note": ""
  },
  {
   "property": "C35",
   "status": "proved",
   "theorems": [
    "C35_sequence_of_samples",
    "C35_no_duplicates",
    "C35_wrong_size_rejected"
   ],
   "note": ""
  },
  {
   "property": "C36",
   "status": "proved",
   "theorems": [
    "C36_reported_optimum",
    "C36_feasible_report_with_any_data",
    "C36_rejected",
    "C36_box_binding"
   ],
   "note": ""
  },
  {
   "property": "C37",
   "status": "proved",
   "theorems": [
    "C37_best_never_worsens"
   ],
   "note": ""
  },
  {
   "property": "C38",
   "status": "proved",
   "theorems": [
    "C38_update_appends_one_row",
    "C38_appending_many",
    "C38_round_trip",
    "C38_setData"
   ],
   "note": ""
  },
  {
   "property": "C39",
   "status": "proved",
   "theorems": [
    "C39_relative_to_initial_best",
    "C39_positive_exactly_when_better",
    "C39_first_feasible_becomes_reference",
    "C39_recorded_improvements"
   ],
   "note": ""
  },
  {
   "property": "C40",
   "status": "proved",
   "theorems": [
    "C40_evaluations_and_rows",
    "C40_nan_aborts",
    "C40_whole_run"
   ],
   "note": ""
  },
  {
   "property": "C41",
   "status": "proved",
   "theorems": [
    "C41_retraining_schedule",
    "C41_schedule_values",
    "C41_frequency_zero_refuted"
   ],
   "note": ""
  },
  {
   "property": "C42",
   "status": "proved",
   "theorems": [
    "C42_trust_region_is_sub_box",
    "C42_length_and_sigma",
    "C42_success_is_a_new_best_design",
    "C42_maximal_length_refuted",
    "C42_sigma_refuted"
   ],
   "note": ""
  },
  {
   "property": "C43",
   "status": "proved",
   "theorems": [
    "C43_grid",
    "C43_rounding"
   ],
   "note": ""
  },
  {
   "property": "C44",
   "status": "proved",
   "theorems": [
    "C44_single_thread",
    "C44_every_schedule_improves",
    "C44_best_candidate_refuted",
    "C44_loop_is_the_search"
   ],
   "note": ""
  },
  {
   "property": "C45",
   "status": "proved",
   "theorems": [
    "C45_ascent",
    "C45_ascent_binary64"
   ],
   "note": ""
  },
  {
   "property": "C46",
   "status": "proved",
   "theorems": [
    "C46_normal_cdf",
    "C46_monotone",
    "C46_below_and_above",
    "C46_density"
   ],
   "note": ""
  },
  {
   "property": "C47",
   "status": "proved",
   "theorems": [
    "C47_expected_improvement",
    "C47_monotone"
   ],
   "note": ""
  },
  {
   "property": "C48",
   "status": "proved",
   "theorems": [
    "C48_feasibility_weighting",
    "C48_user_constraints_are_a_switch"
   ],
   "note": ""
  },
  {
   "property": "C49",
   "status": "proved",
   "theorems": [
    "C49_feasible_design",
    "C49_initial_rows",
    "C49_evaluated_rows"
   ],
   "note": ""
  },
  {
   "property": "C50",
   "status": "proved",
   "theorems": [
    "C50_genes_in_box",
    "C50_solution",
    "C50_child"
   ],
   "note": ""
  },
  {
   "property": "C51",
   "status": "proved",
   "theorems": [
    "C51_fitness",
    "C51_equal_values_rejected",
    "C51_tiny_values_rejected",
    "C51_distinct_values_rejected_refuted"
   ],
   "note": ""
  },
  {
   "property": "C52",
   "status": "proved",
   "theorems": [
    "C52_probabilities",
    "C52_death",
    "C52_selection",
    "C52_binary64_selection_refuted"
   ],
   "note": ""
  },
  {
   "property": "C53",
   "status": "proved",
   "theorems": [
    "C53_identifiers",
    "C53_removal",
    "C53_removal_of_unknown",
    "C53_best_is_reported",
    "C53_best_child_refuted",
    "C53_best_removed_refuted",
    "C53_parent_search_stuck",
    "C53_endless_run_refuted"
   ],
   "note": ""
  },
  {
   "property": "C54",
   "status": "proved",
   "theorems": [
    "C54_extremes",
    "C54_extremes_of_run",
    "C54_no_positive_value_refuted",
    "C54_second_run_refuted"
   ],
   "note": ""
  },
  {
   "property": "C55",
   "status": "proved",
   "theorems": [
    "C55_sizes"
   ],
   "note": ""
  },
  {
   "property": "C56",
   "status": "proved",
   "theorems": [
    "C56_line_search",
    "C56_line_search_terminates_iff",
    "C56_terminates_with_gradient",
    "C56_endless_at_minimum_refuted",
    "C56_run",
    "C56_no_step_reports_default_refuted",
    "C56_box_ignored_refuted",
    "C56_budget_ignored_refuted",
    "C56_finite_difference_ascent_refuted"
   ],
   "note": ""
  },
  {
   "property": "C57",
   "status": "proved",
   "theorems": [
    "C57_central_error",
    "C57_central_exact",
    "C57_forward_dropped_refuted",
    "C57_forward_run_refuted",
    "C57_zero_coordinate_hangs_refuted"
   ],
   "note": ""
  },
  {
   "property": "C58",
   "status": "proved",
   "theorems": [
    "C58_extract",
    "C58_extract_fails",
    "C58_contents",
    "C58_contents_total",
    "C58_document",
    "C58_single",
    "C58_repeated_refuted"
   ],
   "note": ""
  },
  {
   "property": "C59",
   "status": "proved",
   "theorems": [
    "C59_string",
    "C59_string_roundtrip",
    "C59_int",
    "C59_int_roundtrip",
    "C59_double",
    "C59_double_roundtrip",
    "C59_small_lost_refuted",
    "C59_vector_roundtrip",
    "C59_nested_refuted",
    "C59_string_vector",
    "C59_string_vector_missing",
    "C59_string_vector_hidden_refuted"
   ],
   "note": ""
  },
  {
   "property": "C60",
   "status": "proved",
   "theorems": [
    "C60_int",
    "C60_double_absent_set",
    "C60_double_present",
    "C60_zero_missing_refuted",
    "C60_string",
    "C60_stale_refuted"
   ],
   "note": ""
  },
  {
   "property": "C61",
   "status": "proved",
   "theorems": [
    "C61_on",
    "C61_off",
    "C61_never_both",
    "C61_equal",
    "C61_equivalence"
   ],
   "note": ""
  },
  {
   "property": "C62",
   "status": "proved",
   "theorems": [
    "C62_parsed",
    "C62_value",
    "C62_refused",
    "C62_split_exists",
    "C62_garbage_refuted"
   ],
   "note": ""
  },
  {
   "property": "C63",
   "status": "proved",
   "theorems": [
    "C63_first_box",
    "C63_appends",
    "C63_blocked",
    "C63_retry_refuted"
   ],
   "note": ""
  },
  {
   "property": "C64",
   "status": "proved",
   "theorems": [
    "C64_ignored",
    "C64_stored",
    "C64_expected_refuted",
    "C64_samples_lost"
   ],
   "note": ""
  },
  {
   "property": "C65",
   "status": "proved",
   "theorems": [
    "C65_in_order",
    "C65_without_dimension",
    "C65_repeated_name",
    "C65_after_bounds"
   ],
   "note": ""
  },
  {
   "property": "C66",
   "status": "proved",
   "theorems": [
    "C66_objective_samples",
    "C66_objective_samples_rejected",
    "C66_constraint_samples",
    "C66_constraint_tangent_sample_uses_design_ID",
    "C66_tangent_row_is_the_constraints_refuted",
    "C66_reader_agrees"
   ],
   "note": ""
  },
  {
   "property": "C67",
   "status": "proved",
   "theorems": [
    "C67_evaluation_is_a_function",
    "C67_validation_objective",
    "C67_failing_candidate_preferred",
    "C67_likelihood_objective",
    "C67_candidates_factorise"
   ],
   "note": ""
  },
  {
   "property": "C68",
   "status": "proved",
   "theorems": [
    "C68_predictive_variance"
   ],
   "note": ""
  },
  {
   "property": "C69",
   "status": "proved",
   "theorems": [
    "C69_in_sample_error",
    "C69_in_sample_error_with_split_refuted"
   ],
   "note": ""
  },
  {
   "property": "C70",
   "status": "proved",
   "theorems": [
    "C70_probability_uses_stored_mean",
    "C70_second_call",
    "C70_probability_of_improvement_refuted"
   ],
   "note": ""
  },
  {
   "property": "C71",
   "status": "proved",
   "theorems": [
    "C71_evaluated_designs_are_admissible",
    "C71_in_box_binary64_refuted"
   ],
   "note": ""
  },
  {
   "property": "C72",
   "status": "proved",
   "theorems": [
    "C72_reported_optimum",
    "C72_optimum_in_box_refuted"
   ],
   "note": ""
  },
  {
   "property": "C73",
   "status": "proved",
   "theorems": [
    "C73_is_between",
    "C73_mean",
    "C73_standard_deviation",
    "C73_empty_throws"
   ],
   "note": ""
  },
  {
   "property": "C74",
   "status": "proved",
   "theorems": [
    "C74_test_data",
    "C74_wrong_columns_rejected",
    "C74_revert_to_full_data",
    "C74_test_results"
   ],
   "note": ""
  },
  {
   "property": "C75",
   "status": "proved",
   "theorems": [
    "C75_trained_model",
    "C75_thread_order",
    "C75_budget",
    "C75_budget_exhausted",
    "C75_second_training_throws",
    "C75_warm_start"
   ],
   "note": ""
  },
  {
   "property": "C76",
   "status": "proved",
   "theorems": [
    "C76_crowding_factor",
    "C76_zero_means_equal",
    "C76_few_rows_refuted"
   ],
   "note": ""
  },
  {
   "property": "C77",
   "status": "proved",
   "theorems": [
    "C77_design_dimension"
   ],
   "note": ""
  },
  {
   "property": "C78",
   "status": "proved",
   "theorems": [
    "C78_files",
    "C78_interrupted"
   ],
   "note": ""
  },
  {
   "property": "C79",
   "status": "proved",
   "theorems": [
    "C79_study",
    "C79_study_with_doe"
   ],
   "note": ""
  },
  {
   "property": "C80",
   "status": "proved",
   "theorems": [
    "C80_accepted",
    "C80_only",
    "C80_refused",
    "C80_added"
   ],
   "note": ""
  },
  {
   "property": "C81",
   "status": "proved",
   "theorems": [
    "C81_incomplete"
   ],
   "note": ""
  },
  {
   "property": "C82",
   "status": "proved",
   "theorems": [
    "C82_read",
    "C82_only",
    "C82_one"
   ],
   "note": ""
  },
  {
   "property": "C83",
   "status": "proved",
   "theorems": [
    "C83_one_line",
    "C83_unclosed",
    "C83_blocks",
    "C83_closing_line_refuted",
    "C83_unclosed_refuted"
   ],
   "note": ""
  },
  {
   "property": "C84",
   "status": "proved",
   "theorems": [
    "C84_refused",
    "C84_missing",
    "C84_other_type",
    "C84_second_reading_fails"
   ],
   "note": ""
  },
  {
   "property": "C85",
   "status": "proved",
   "theorems": [
    "C85_name",
    "C85_name_refuted"
   ],
   "note": ""
  },
  {
   "property": "C86",
   "status": "proved",
   "theorems": [
    "C86_constraint_iterations",
    "C86_own_iterations_refuted"
   ],
   "note": ""
  },
  {
   "property": "C87",
   "status": "proved",
   "theorems": [
    "C87_missing_bound",
    "C87_missing_bound_refuted",
    "C87_parameters"
   ],
   "note": ""
  },
  {
   "property": "C88",
   "status": "proved",
   "theorems": [
    "C88_command",
    "C88_value",
    "C88_failures",
    "C88_constraint",
    "C88_function",
    "C88_files",
    "C88_design_file",
    "C88_leftover",
    "C88_no_program",
    "C88_box_refuted",
    "C88_stale_refuted"
   ],
   "note": ""
  },
  {
   "property": "C89",
   "status": "proved",
   "theorems": [
    "C89_study"
   ],
   "note": ""
  },
  {
   "property": "C90",
   "status": "proved",
   "theorems": [
    "C90_objective",
    "C90_constraint"
   ],
   "note": ""
  },
  {
   "property": "C91",
   "status": "proved",
   "theorems": [
    "C91_likelihood_objective",
    "C91_validation_objective"
   ],
   "note": ""
  },
  {
   "property": "C92",
   "status": "proved",
   "theorems": [
    "C92_saved_and_read",
    "C92_kept_exactly",
    "C92_header_refused",
    "C92_not_writable",
    "C92_no_rows",
    "C92_box_refuted"
   ],
   "note": ""
  },
  {
   "property": "C93",
   "status": "proved",
   "theorems": [
    "C93_matrix",
    "C93_failures",
    "C93_garbage_refuted",
    "C93_blank_line",
    "C93_final_comma"
   ],
   "note": ""
  },
  {
   "property": "C94",
   "status": "proved",
   "theorems": [
    "C94_append",
    "C94_created",
    "C94_many",
    "C94_refused",
    "C94_read",
    "C94_sample_rounding",
    "C94_matrix_step",
    "C94_incomplete_line_refuted"
   ],
   "note": ""
  },
  {
   "property": "C95",
   "status": "proved",
   "theorems": [
    "C95_column",
    "C95_column_fails",
    "C95_saved_and_read",
    "C95_hyper_parameters",
    "C95_other_size_ignored",
    "C95_unreadable"
   ],
   "note": ""
  },
  {
   "property": "C96",
   "status": "proved",
   "theorems": [
    "C96_ea_accepts",
    "C96_ea_settings",
    "C96_ea_bounds",
    "C96_ea_refused",
    "C96_ea_started",
    "C96_mutation_unset_refuted",
    "C96_box_order_refuted",
    "C96_late_dimension_refuted",
    "C96_gradient_accepts",
    "C96_gradient_settings",
    "C96_gradient_bounds_and_start",
    "C96_gradient_refused",
    "C96_gradient_started",
    "C96_negative_budget_refuted"
   ],
   "note": ""
  },
  {
   "property": "C97",
   "status": "proved",
   "theorems": [
    "C97_gene"
   ],
   "note": ""
  },
  {
   "property": "C98",
   "status": "proved",
   "theorems": [
    "C98_meaning",
    "C98_unreadable_line",
    "C98_no_file",
    "C98_write_refused",
    "C98_round_trip",
    "C98_unrated_refuted",
    "C98_missing_genes_refuted",
    "C98_used_population_refuted",
    "C98_header"
   ],
   "note": ""
  },
  {
   "property": "C99",
   "status": "proved",
   "theorems": [
    "C99_restart_file",
    "C99_write_refused",
    "C99_warm_run",
    "C99_warm_refused",
    "C99_identifiers_refuted",
    "C99_outside_refuted",
    "C99_warm_used"
   ],
   "note": ""
  },
  {
   "property": "C100",
   "status": "proved",
   "theorems": [
    "C100_files_at_any_stop",
    "C100_every_moment",
    "C100_never_both_lost",
    "C100_files_read_back",
    "C100_unwritable",
    "C100_history_emptied_refuted"
   ],
   "note": ""
  },
  {
   "property": "C101",
   "status": "proved",
   "theorems": [
    "C101_study",
    "C101_early_stop",
    "C101_terminates",
    "C101_training",
    "C101_constraint_training"
   ],
   "note": ""
  },
  {
   "property": "C102",
   "status": "proved",
   "theorems": [
    "C102_kriging_test",
    "C102_ordinary_after_universal_refuted",
    "C102_linear_split",
    "C102_linear_test",
    "C102_second_test_refuted",
    "C102_file_names",
    "C102_refused",
    "C102_ratio",
    "C102_enhanced_refuted",
    "C102_unbound",
    "C102_linear_error_refuted"
   ],
   "note": ""
  },
  {
   "property": "C103",
   "status": "proved",
   "theorems": [
    "C103_no_argument",
    "C103_more_arguments",
    "C103_wrong_name",
    "C103_missing_file",
    "C103_unread",
    "C103_program",
    "C103_finishes",
    "C103_unwritable",
    "C103_derivatives",
    "C103_no_table"
   ],
   "note": ""
  },
  {
   "property": "C104",
   "status": "proved",
   "theorems": [
    "C104_vector",
    "C104_csv",
    "C104_refused",
    "C104_csv_empty_refuted",
    "C104_report_lost_refuted",
    "C104_report",
    "C104_report_unclear_refuted",
    "C104_heading",
    "C104_heading_negative",
    "C104_boxed",
    "C104_described",
    "C104_long_tag_refuted"
   ],
   "note": ""
  },
  {
   "property": "C105",
   "status": "proved",
   "theorems": [
    "C105_set_mode",
    "C105_evaluation",
    "C105_modes",
    "C105_multi_level_refuted",
    "C105_refused",
    "C105_added",
    "C105_derivatives_refused",
    "C105_gradient",
    "C105_gradient_refused",
    "C105_gradient_value_refuted",
    "C105_gradient_neighbour_refuted"
   ],
   "note": ""
  },
  {
   "property": "C106",
   "status": "proved",
   "theorems": [
    "C106_random_number",
    "C106_random_vector",
    "C106_random_matrix",
    "C106_latin_hypercube",
    "C106_latin_hypercube_refuted",
    "C106_denormalize",
    "C106_denormalize_refuted",
    "C106_discrete_values",
    "C106_upper_value_missing_refuted",
    "C106_value_above_refuted",
    "C106_chosen_design",
    "C106_run_above_upper_bound_refuted",
    "C106_local_search_skipped_refuted"
   ],
   "note": ""
  },
  {
   "property": "C107",
   "status": "proved",
   "theorems": [
    "C107_run_in_box",
    "C107_trust_region",
    "C107_history"
   ],
   "note": ""
  },
  {
   "property": "C108",
   "status": "proved",
   "theorems": [
    "C108_count",
    "C108_count_split",
    "C108_count_training_refuted",
    "C108_larger_box",
    "C108_count_refuses",
    "C108_predictions",
    "C108_prediction_fails",
    "C108_linear"
   ],
   "note": ""
  },
  {
   "property": "C109",
   "status": "proved",
   "theorems": [
    "C109_step",
    "C109_no_gradient",
    "C109_stays_off",
    "C109_never_in_a_run",
    "C109_five_steps",
    "C109_models_refuse",
    "C109_always_a_design_refuted"
   ],
   "note": ""
  },
  {
   "property": "C110",
   "status": "proved",
   "theorems": [
    "C110_value",
    "C110_refused",
    "C110_all_or_nothing",
    "C110_values_forgotten",
    "C110_not_normalised"
   ],
   "note": ""
  }
 ]
}