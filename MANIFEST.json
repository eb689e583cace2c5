{
 "claims": [
  {
   "property": "C01",
   "status": "proved",
   "theorems": [
    "C01_full_loops_visit_grid_in_order",
    "C01_grid_row_major",
    "C01_spatial_loop",
    "C01_spatio_temporal_loop"
   ],
   "note": "see DESIGN.md"
  },
  {
   "property": "C02",
   "status": "proved",
   "theorems": [
    "C02_break_shifts_next_loop",
    "C02_every_loop_is_complete_refuted"
   ],
   "note": "includes a refutation: the faithful model violates part of the naive claim, see the *_refuted theorem"
  },
  {
   "property": "C03",
   "status": "proved",
   "theorems": [
    "C03_decode_of_encode",
    "C03_encode_of_decode",
    "C03_index_to_absolute_point"
   ],
   "note": "see DESIGN.md"
  },
  {
   "property": "C04",
   "status": "proved",
   "theorems": [
    "C04_membership_of_points_agrees"
   ],
   "note": "see DESIGN.md"
  },
  {
   "property": "C05",
   "status": "proved",
   "theorems": [
    "C05_clusters_split_region",
    "C05_cluster_lengths_add_up",
    "C05_spatio_temporal_clusters"
   ],
   "note": "see DESIGN.md"
  },
  {
   "property": "C06",
   "status": "proved",
   "theorems": [
    "C06_cluster_value_at",
    "C06_cluster_series_at",
    "C06_all_point_indices"
   ],
   "note": "see DESIGN.md"
  },
  {
   "property": "C07",
   "status": "proved",
   "theorems": [
    "C07_merge_takes_value_of_own_cluster",
    "C07_split_then_merge_is_identity",
    "C07_other_index_lists_rejected"
   ],
   "note": "see DESIGN.md"
  },
  {
   "property": "C08",
   "status": "proved",
   "theorems": [
    "C08_order_does_not_matter_refuted"
   ],
   "note": "includes a refutation: the faithful model violates part of the naive claim, see the *_refuted theorem"
  },
  {
   "property": "C09",
   "status": "proved",
   "theorems": [
    "C09_representatives_replicated",
    "C09_foreign_representative_rejected"
   ],
   "note": "see DESIGN.md"
  },
  {
   "property": "C10",
   "status": "proved",
   "theorems": [
    "C10_intersecting_clusters",
    "C10_intersecting_medoids",
    "C10_out_of_range_rectangle_refuted"
   ],
   "note": "includes a refutation: the faithful model violates part of the naive claim, see the *_refuted theorem"
  },
  {
   "property": "C11",
   "status": "proved",
   "theorems": [
    "C11_block_labels",
    "C11_when_it_returns",
    "C11_partition_has_k_clusters"
   ],
   "note": "see DESIGN.md"
  },
  {
   "property": "C12",
   "status": "proved",
   "theorems": [
    "C12_divisors"
   ],
   "note": "see DESIGN.md"
  },
  {
   "property": "C13",
   "status": "proved",
   "theorems": [
    "C13_balanced_divisors",
    "C13_order_follows_lengths"
   ],
   "note": "see DESIGN.md"
  },
  {
   "property": "C14",
   "status": "proved",
   "theorems": [
    "C14_find_minimum",
    "C14_find_maximum"
   ],
   "note": "see DESIGN.md"
  },
  {
   "property": "C15",
   "status": "proved",
   "theorems": [
    "C15_minimum_value_and_index",
    "C15_maximum_value_and_index",
    "C15_when_it_returns"
   ],
   "note": "see DESIGN.md"
  },
  {
   "property": "C16",
   "status": "proved",
   "theorems": [
    "C16_scalar_on_region",
    "C16_scalar_on_cluster",
    "C16_series_to_scalar",
    "C16_series_to_series",
    "C16_shape_mismatch"
   ],
   "note": "see DESIGN.md"
  },
  {
   "property": "C17",
   "status": "proved",
   "theorems": [
    "C17_region_subset",
    "C17_spatial_region_subset",
    "C17_interval_subset",
    "C17_subset_is_both_in_either_order",
    "C17_region_subset_twice",
    "C17_interval_subset_twice",
    "C17_clusters"
   ],
   "note": "see DESIGN.md"
  },
  {
   "property": "C18",
   "status": "proved",
   "theorems": [
    "C18_repeat_series",
    "C18_repeat_series_on_cluster",
    "C18_repeat_series_over_region",
    "C18_repeat_value",
    "C18_as_list_in_index_order",
    "C18_as_list_is_list_of_time_series"
   ],
   "note": "see DESIGN.md"
  },
  {
   "property": "C19",
   "status": "proved",
   "theorems": [
    "C19_scaled_between_0_and_1",
    "C19_scaled_cluster",
    "C19_wrong_length_rejected"
   ],
   "note": "see DESIGN.md"
  },
  {
   "property": "C20",
   "status": "proved",
   "theorems": [
    "C20_descale_restores",
    "C20_every_series_restored_refuted"
   ],
   "note": "includes a refutation: the faithful model violates part of the naive claim, see the *_refuted theorem"
  },
  {
   "property": "C21",
   "status": "proved",
   "theorems": [
    "C21_descale_of_region_subset",
    "C21_descale_of_interval_subset",
    "C21_descale_pointwise"
   ],
   "note": "see DESIGN.md"
  },
  {
   "property": "C22",
   "status": "proved",
   "theorems": [
    "C22_sliding_window",
    "C22_every_fitting_start_present",
    "C22_stride_one_overlap",
    "C22_stride_zero_raises"
   ],
   "note": "see DESIGN.md"
  },
  {
   "property": "C23",
   "status": "proved",
   "theorems": [
    "C23_split",
    "C23_out_of_range",
    "C23_test_length_as_asked_refuted"
   ],
   "note": "includes a refutation: the faithful model violates part of the naive claim, see the *_refuted theorem"
  },
  {
   "property": "C24",
   "status": "proved",
   "theorems": [
    "C24_days_in_years",
    "C24_adjacent",
    "C24_out_of_calendar"
   ],
   "note": "see DESIGN.md"
  },
  {
   "property": "C25",
   "status": "proved",
   "theorems": [
    "C25_daily_means",
    "C25_other_lengths_rejected"
   ],
   "note": "see DESIGN.md"
  },
  {
   "property": "C26",
   "status": "proved",
   "theorems": [
    "C26_cost_never_increases",
    "C26_at_most_initial_cost"
   ],
   "note": "see DESIGN.md"
  },
  {
   "property": "C27",
   "status": "proved",
   "theorems": [
    "C27_result_consistent",
    "C27_total_is_sum_of_least_distances"
   ],
   "note": "see DESIGN.md"
  },
  {
   "property": "C28",
   "status": "proved",
   "theorems": [
    "C28_medoids_stay_valid"
   ],
   "note": "see DESIGN.md"
  },
  {
   "property": "C29",
   "status": "proved",
   "theorems": [
    "C29_terminates",
    "C29_local_optimum"
   ],
   "note": "see DESIGN.md"
  },
  {
   "property": "C30",
   "status": "proved",
   "theorems": [
    "C30_medoid_in_own_cluster",
    "C30_own_cluster_with_equal_samples_refuted"
   ],
   "note": "includes a refutation: the faithful model violates part of the naive claim, see the *_refuted theorem"
  },
  {
   "property": "C31",
   "status": "proved",
   "theorems": [
    "C31_memberships"
   ],
   "note": "see DESIGN.md"
  },
  {
   "property": "C32",
   "status": "proved",
   "theorems": [
    "C32_returns_iff_initial_medoids_improvable",
    "C32_result"
   ],
   "note": "see DESIGN.md"
  },
  {
   "property": "C33",
   "status": "proved",
   "theorems": [
    "C33_clone",
    "C33_member_iff",
    "C33_some_cluster",
    "C33_monotone",
    "C33_iteration_and_length",
    "C33_missing_membership",
    "C33_threshold_one",
    "C33_threshold_zero_is_crisp_refuted",
    "C33_from_memberships"
   ],
   "note": "includes a refutation: the faithful model violates part of the naive claim, see the *_refuted theorem"
  },
  {
   "property": "C34",
   "status": "proved",
   "theorems": [
    "C34_centroid_of_region",
    "C34_centroid_of_cluster",
    "C34_least_exists",
    "C34_no_matrix"
   ],
   "note": "see DESIGN.md"
  },
  {
   "property": "C35",
   "status": "proved",
   "theorems": [
    "C35_kmedoids_round_trip",
    "C35_regular_round_trip",
    "C35_classifier_label_round_trip",
    "C35_other_representation_refused",
    "C35_negative_seed_label_refused"
   ],
   "note": "see DESIGN.md"
  },
  {
   "property": "C36",
   "status": "proved",
   "theorems": [
    "C36_key_identifies_partially",
    "C36_keys_injective_refuted",
    "C36_key_ignores_parameters"
   ],
   "note": "includes a refutation: the faithful model violates part of the naive claim, see the *_refuted theorem"
  },
  {
   "property": "C37",
   "status": "proved",
   "theorems": [
    "C37_suite_is_cartesian_product",
    "C37_unknown_algorithm_refused",
    "C37_organised_by_seed"
   ],
   "note": "see DESIGN.md"
  },
  {
   "property": "C38",
   "status": "proved",
   "theorems": [
    "C38_medoid_string_round_trip",
    "C38_suite_csv_round_trip",
    "C38_missing_file"
   ],
   "note": "see DESIGN.md"
  },
  {
   "property": "C39",
   "status": "proved",
   "theorems": [
    "C39_elbow_is_largest_curvature",
    "C39_exact_on_quadratics",
    "C39_size_mismatch",
    "C39_repeated_k",
    "C39_nan_costs_return_last"
   ],
   "note": "see DESIGN.md"
  },
  {
   "property": "C40",
   "status": "proved",
   "theorems": [
    "C40_elbows_use_last_seed",
    "C40_single_seed_is_its_own_elbow",
    "C40_own_seed_elbow_refuted"
   ],
   "note": "includes a refutation: the faithful model violates part of the naive claim, see the *_refuted theorem"
  },
  {
   "property": "C41",
   "status": "proved",
   "theorems": [
    "C41_squared_DTW_is_least",
    "C41_small_matrix"
   ],
   "note": "see DESIGN.md"
  },
  {
   "property": "C42",
   "status": "proved",
   "theorems": [
    "C42_symmetric",
    "C42_nonnegative",
    "C42_at_most_pointwise",
    "C42_zero_to_itself"
   ],
   "note": "see DESIGN.md"
  },
  {
   "property": "C43",
   "status": "proved",
   "theorems": [
    "C43_update_is_mean_of_aligned",
    "C43_update_in_range",
    "C43_no_series"
   ],
   "note": "see DESIGN.md"
  },
  {
   "property": "C44",
   "status": "proved",
   "theorems": [
    "C44_medoid_is_best_candidate",
    "C44_exact_for_few_series"
   ],
   "note": "see DESIGN.md"
  },
  {
   "property": "C45",
   "status": "proved",
   "theorems": [
    "C45_serial_matrix",
    "C45_scaled_region",
    "C45_series_array",
    "C45_missing_values",
    "C45_cluster_has_no_matrix",
    "C45_matrix_is_kept",
    "C45_other_dimensions"
   ],
   "note": "see DESIGN.md"
  },
  {
   "property": "C46",
   "status": "proved",
   "theorems": [
    "C46_parallel_matrix",
    "C46_equals_serial_iff",
    "C46_missing_values_refuted",
    "C46_pool_result",
    "C46_pool_failure",
    "C46_pool_completes",
    "C46_pool_mutual_exclusion",
    "C46_old_queue"
   ],
   "note": "includes a refutation: the faithful model violates part of the naive claim, see the *_refuted theorem"
  },
  {
   "property": "C47",
   "status": "proved",
   "theorems": [
    "C47_distances_are_the_row",
    "C47_index_out_of_range",
    "C47_without_matrix_unsupported"
   ],
   "note": "see DESIGN.md"
  },
  {
   "property": "C48",
   "status": "proved",
   "theorems": [
    "C48_try_load",
    "C48_missing_file_refuted",
    "C48_load_raises",
    "C48_when_loading_raises",
    "C48_file_is_used"
   ],
   "note": "includes a refutation: the faithful model violates part of the naive claim, see the *_refuted theorem"
  },
  {
   "property": "C49",
   "status": "proved",
   "theorems": [
    "C49_first_load_is_weighted",
    "C49_weighting_is_idempotent",
    "C49_never_weighted_twice",
    "C49_later_loads_unweighted_refuted",
    "C49_missing_file_weights_old_matrix_refuted",
    "C49_weight_zero"
   ],
   "note": "includes a refutation: the faithful model violates part of the naive claim, see the *_refuted theorem"
  },
  {
   "property": "C50",
   "status": "proved",
   "theorems": [
    "C50_selects_k_nearest",
    "C50_too_few_neighbors",
    "C50_wrong_length"
   ],
   "note": "see DESIGN.md"
  },
  {
   "property": "C51",
   "status": "proved",
   "theorems": [
    "C51_asked_length",
    "C51_knn_forecast",
    "C51_within_bounds",
    "C51_too_short",
    "C51_forecasts_what_followed_refuted"
   ],
   "note": "includes a refutation: the faithful model violates part of the naive claim, see the *_refuted theorem"
  },
  {
   "property": "C52",
   "status": "proved",
   "theorems": [
    "C52_mean_of_past",
    "C52_within_bounds"
   ],
   "note": "see DESIGN.md"
  },
  {
   "property": "C53",
   "status": "proved",
   "theorems": [
    "C53_mse",
    "C53_mse_nothing_to_compare",
    "C53_mse_lengths",
    "C53_mase",
    "C53_mase_scale_free",
    "C53_smape_symmetric",
    "C53_smape_perfect",
    "C53_smape_bounds",
    "C53_smape_perfect_is_zero_refuted",
    "C53_smape_nonnegative_refuted"
   ],
   "note": "includes a refutation: the faithful model violates part of the naive claim, see the *_refuted theorem"
  },
  {
   "property": "C54",
   "status": "proved",
   "theorems": [
    "C54_root_mean_square",
    "C54_between_extremes",
    "C54_monotone",
    "C54_no_errors"
   ],
   "note": "see DESIGN.md"
  },
  {
   "property": "C55",
   "status": "proved",
   "theorems": [
    "C55_parallel_equals_serial",
    "C55_each_entry",
    "C55_completes"
   ],
   "note": "see DESIGN.md"
  },
  {
   "property": "C56",
   "status": "proved",
   "theorems": [
    "C56_summary_ordered",
    "C56_minimum_centroid_maximum"
   ],
   "note": "see DESIGN.md"
  },
  {
   "property": "C57",
   "status": "proved",
   "theorems": [
    "C57_train_at_representatives",
    "C57_train",
    "C57_training_succeeds"
   ],
   "note": "see DESIGN.md"
  },
  {
   "property": "C58",
   "status": "proved",
   "theorems": [
    "C58_in_sample",
    "C58_out_of_sample",
    "C58_auto_arima",
    "C58_fit_failures",
    "C58_no_model_is_nan",
    "C58_every_point_represented",
    "C58_succeeds",
    "C58_foreign_medoid"
   ],
   "note": "see DESIGN.md"
  },
  {
   "property": "C59",
   "status": "proved",
   "theorems": [
    "C59_coordinates",
    "C59_domain_points",
    "C59_rows",
    "C59_columns",
    "C59_summary_columns",
    "C59_headers",
    "C59_results_file",
    "C59_summary_file",
    "C59_rmse_summary",
    "C59_no_medoids_summary",
    "C59_lines",
    "C59_missing_label",
    "C59_solver_results",
    "C59_auto_arima_results",
    "C59_needs_clustering",
    "C59_two_files"
   ],
   "note": "see DESIGN.md"
  },
  {
   "property": "C60",
   "status": "proved",
   "theorems": [
    "C60_csv_names",
    "C60_basic_csv_names",
    "C60_csv_files",
    "C60_all_parameters_refuted",
    "C60_repr_distinguishes_refuted",
    "C60_repr_shows_parts",
    "C60_repr_ignores_test_len",
    "C60_arima_suite"
   ],
   "note": "includes a refutation: the faithful model violates part of the naive claim, see the *_refuted theorem"
  },
  {
   "property": "C61",
   "status": "proved",
   "theorems": [
    "C61_least_penalty",
    "C61_chooses_iff",
    "C61_missing_penalty_refuted"
   ],
   "note": "includes a refutation: the faithful model violates part of the naive claim, see the *_refuted theorem"
  },
  {
   "property": "C62",
   "status": "proved",
   "theorems": [
    "C62_histogram",
    "C62_no_threshold",
    "C62_capacity",
    "C62_negative_threshold"
   ],
   "note": "see DESIGN.md"
  },
  {
   "property": "C63",
   "status": "proved",
   "theorems": [
    "C63_random_integers",
    "C63_random_points"
   ],
   "note": "see DESIGN.md"
  },
  {
   "property": "C64",
   "status": "proved",
   "theorems": [
    "C64_zero_offset",
    "C64_offset_refuted"
   ],
   "note": "includes a refutation: the faithful model violates part of the naive claim, see the *_refuted theorem"
  },
  {
   "property": "C65",
   "status": "proved",
   "theorems": [
    "C65_labelled_windows",
    "C65_rejected"
   ],
   "note": "see DESIGN.md"
  },
  {
   "property": "C66",
   "status": "proved",
   "theorems": [
    "C66_cached_partition_is_returned",
    "C66_recomputed",
    "C66_without_pickle",
    "C66_without_metadata",
    "C66_pickle_home_ignored",
    "C66_homes_separate_refuted",
    "C66_medoids_on_demand_refuted"
   ],
   "note": "includes a refutation: the faithful model violates part of the naive claim, see the *_refuted theorem"
  },
  {
   "property": "C67",
   "status": "proved",
   "theorems": [
    "C67_any_history",
    "C67_interval_is_unique",
    "C67_years_rejected",
    "C67_samples_per_day_rejected",
    "C67_answered_from_the_file",
    "C67_missing_dataset",
    "C67_only_its_own_file",
    "C67_files_distinct",
    "C67_dataset_not_overwritten",
    "C67_replaced_dataset_refuted"
   ],
   "note": "includes a refutation: the faithful model violates part of the naive claim, see the *_refuted theorem"
  },
  {
   "property": "C68",
   "status": "proved",
   "theorems": [
    "C68_inherited_cluster_len_is_zero",
    "C68_any_partition_type",
    "C68_inherited_cluster_len_counts_members_refuted"
   ],
   "note": "includes a refutation: the faithful model violates part of the naive claim, see the *_refuted theorem"
  },
  {
   "property": "C69",
   "status": "proved",
   "theorems": [
    "C69_silhouette_best"
   ],
   "note": "see DESIGN.md"
  },
  {
   "property": "C70",
   "status": "proved",
   "theorems": [
    "C70_nested_loops_never_end"
   ],
   "note": "see DESIGN.md"
  },
  {
   "property": "C71",
   "status": "proved",
   "theorems": [
    "C71_repeat_point_on_region",
    "C71_repeat_point_on_decorated_refuted",
    "C71_which_error"
   ],
   "note": "includes a refutation: the faithful model violates part of the naive claim, see the *_refuted theorem"
  },
  {
   "property": "C72",
   "status": "proved",
   "theorems": [
    "C72_subset_descaled_with_wrong_point",
    "C72_subset_commutes_with_descale_refuted"
   ],
   "note": "includes a refutation: the faithful model violates part of the naive claim, see the *_refuted theorem"
  },
  {
   "property": "C73",
   "status": "proved",
   "theorems": [
    "C73_descale_cluster",
    "C73_scaled_region_descales_once",
    "C73_cluster_descales_once_refuted"
   ],
   "note": "includes a refutation: the faithful model violates part of the naive claim, see the *_refuted theorem"
  },
  {
   "property": "C74",
   "status": "proved",
   "theorems": [
    "C74_report_fails_exactly_on_empty_cluster"
   ],
   "note": "see DESIGN.md"
  },
  {
   "property": "C75",
   "status": "proved",
   "theorems": [
    "C75_equal_samples_raise"
   ],
   "note": "see DESIGN.md"
  },
  {
   "property": "C76",
   "status": "proved",
   "theorems": [
    "C76_intra_cluster_cost",
    "C76_missing_medoid"
   ],
   "note": "see DESIGN.md"
  },
  {
   "property": "C77",
   "status": "proved",
   "theorems": [
    "C77_update_never_worse",
    "C77_performDBA",
    "C77_inertia_exists"
   ],
   "note": "see DESIGN.md"
  },
  {
   "property": "C78",
   "status": "proved",
   "theorems": [
    "C78_forecasts_of_current_models",
    "C78_forecasts_follow_retraining_refuted"
   ],
   "note": "includes a refutation: the faithful model violates part of the naive claim, see the *_refuted theorem"
  },
  {
   "property": "C79",
   "status": "proved",
   "theorems": [
    "C79_files_are_distinct",
    "C79_save_then_load",
    "C79_history",
    "C79_missing_file",
    "C79_damaged_file",
    "C79_crash_during_save",
    "C79_partition_recomputed",
    "C79_whole_models_of_default_trainer",
    "C79_default_trainers_safe",
    "C79_test_lengths_independent_refuted"
   ],
   "note": "includes a refutation: the faithful model violates part of the naive claim, see the *_refuted theorem"
  },
  {
   "property": "C80",
   "status": "proved",
   "theorems": [
    "C80_report_rows",
    "C80_report_reads_back"
   ],
   "note": "see DESIGN.md"
  },
  {
   "property": "C81",
   "status": "proved",
   "theorems": [
    "C81_created_region",
    "C81_created_scaled",
    "C81_rejected",
    "C81_years_rejected",
    "C81_extent_refuted"
   ],
   "note": "includes a refutation: the faithful model violates part of the naive claim, see the *_refuted theorem"
  },
  {
   "property": "C82",
   "status": "proved",
   "theorems": [
    "C82_training_file",
    "C82_header",
    "C82_least_distance",
    "C82_succeeds"
   ],
   "note": "see DESIGN.md"
  },
  {
   "property": "C83",
   "status": "proved",
   "theorems": [
    "C83_medoid_series",
    "C83_foreign_medoid_refuted"
   ],
   "note": "includes a refutation: the faithful model violates part of the naive claim, see the *_refuted theorem"
  },
  {
   "property": "C84",
   "status": "proved",
   "theorems": [
    "C84_penalties",
    "C84_own_cluster"
   ],
   "note": "see DESIGN.md"
  },
  {
   "property": "C85",
   "status": "proved",
   "theorems": [
    "C85_from_labels",
    "C85_number_checked",
    "C85_all_clusters_present_refuted",
    "C85_every_point_in_a_cluster_refuted"
   ],
   "note": "includes a refutation: the faithful model violates part of the naive claim, see the *_refuted theorem"
  },
  {
   "property": "C86",
   "status": "proved",
   "theorems": [
    "C86_absolute_rectangle"
   ],
   "note": "see DESIGN.md"
  },
  {
   "property": "C87",
   "status": "proved",
   "theorems": [
    "C87_flat_arrays",
    "C87_round_trip"
   ],
   "note": "see DESIGN.md"
  },
  {
   "property": "C88",
   "status": "proved",
   "theorems": [
    "C88_symmetric",
    "C88_numbers",
    "C88_nan"
   ],
   "note": "see DESIGN.md"
  },
  {
   "property": "C89",
   "status": "proved",
   "theorems": [
    "C89_region_files",
    "C89_dataset_and_distances"
   ],
   "note": "see DESIGN.md"
  },
  {
   "property": "C90",
   "status": "proved",
   "theorems": [
    "C90_predictions",
    "C90_too_many_samples_refuted"
   ],
   "note": "includes a refutation: the faithful model violates part of the naive claim, see the *_refuted theorem"
  },
  {
   "property": "C91",
   "status": "proved",
   "theorems": [
    "C91_repeated_query",
    "C91_first_query_decides",
    "C91_failed_first_query",
    "C91_own_out_of_sample_region_refuted"
   ],
   "note": "includes a refutation: the faithful model violates part of the naive claim, see the *_refuted theorem"
  },
  {
   "property": "C92",
   "status": "proved",
   "theorems": [
    "C92_label",
    "C92_refused",
    "C92_units"
   ],
   "note": "see DESIGN.md"
  },
  {
   "property": "C93",
   "status": "proved",
   "theorems": [
    "C93_region_histogram",
    "C93_refused",
    "C93_get_centroid"
   ],
   "note": "see DESIGN.md"
  },
  {
   "property": "C94",
   "status": "proved",
   "theorems": [
    "C94_statistics",
    "C94_least_other",
    "C94_needs_two"
   ],
   "note": "see DESIGN.md"
  },
  {
   "property": "C95",
   "status": "proved",
   "theorems": [
    "C95_random_points",
    "C95_intersection"
   ],
   "note": "see DESIGN.md"
  },
  {
   "property": "C96",
   "status": "proved",
   "theorems": [
    "C96_panels",
    "C96_axis_covers_random_points_refuted",
    "C96_one_cluster",
    "C96_inherited_centroid_refuted",
    "C96_refused",
    "C96_file_names"
   ],
   "note": "includes a refutation: the faithful model violates part of the naive claim, see the *_refuted theorem"
  },
  {
   "property": "C97",
   "status": "proved",
   "theorems": [
    "C97_medoids",
    "C97_indices",
    "C97_both_or_none"
   ],
   "note": "see DESIGN.md"
  },
  {
   "property": "C98",
   "status": "proved",
   "theorems": [
    "C98_any_crash",
    "C98_at_most_once",
    "C98_every_schedule",
    "C98_returns",
    "C98_exceptions_reported_refuted"
   ],
   "note": "includes a refutation: the faithful model violates part of the naive claim, see the *_refuted theorem"
  },
  {
   "property": "C99",
   "status": "proved",
   "theorems": [
    "C99_best_run",
    "C99_first_failure",
    "C99_first_k_medoids",
    "C99_file_names",
    "C99_plot_name"
   ],
   "note": "see DESIGN.md"
  },
  {
   "property": "C100",
   "status": "proved",
   "theorems": [
    "C100_bands",
    "C100_every_sample_shown",
    "C100_every_sample_shown_refuted"
   ],
   "note": "includes a refutation: the faithful model violates part of the naive claim, see the *_refuted theorem"
  },
  {
   "property": "C101",
   "status": "proved",
   "theorems": [
    "C101_distance_pictures"
   ],
   "note": "see DESIGN.md"
  },
  {
   "property": "C102",
   "status": "proved",
   "theorems": [
    "C102_label_colors",
    "C102_marks",
    "C102_frame",
    "C102_frame_on_new_figure_refuted"
   ],
   "note": "includes a refutation: the faithful model violates part of the naive claim, see the *_refuted theorem"
  },
  {
   "property": "C103",
   "status": "proved",
   "theorems": [
    "C103_series_colors",
    "C103_too_many_colors",
    "C103_few_colors_suffice_refuted"
   ],
   "note": "includes a refutation: the faithful model violates part of the naive claim, see the *_refuted theorem"
  },
  {
   "property": "C104",
   "status": "proved",
   "theorems": [
    "C104_terminates",
    "C104_converged",
    "C104_distinct",
    "C104_random_start",
    "C104_no_medoids",
    "C104_best_of_its_cluster_refuted",
    "C104_labels_match_when_stopped_refuted",
    "C104_starting_medoids_kept_refuted"
   ],
   "note": "includes a refutation: the faithful model violates part of the naive claim, see the *_refuted theorem"
  },
  {
   "property": "C105",
   "status": "proved",
   "theorems": [
    "C105_best_models",
    "C105_nothing_missed",
    "C105_negative_values_refuted",
    "C105_sweep",
    "C105_best_of_all",
    "C105_no_models",
    "C105_logged_cost_refuted"
   ],
   "note": "includes a refutation: the faithful model violates part of the naive claim, see the *_refuted theorem"
  },
  {
   "property": "C106",
   "status": "proved",
   "theorems": [
    "C106_entries",
    "C106_csv",
    "C106_nothing_to_choose",
    "C106_reproducible_refuted"
   ],
   "note": "includes a refutation: the faithful model violates part of the naive claim, see the *_refuted theorem"
  },
  {
   "property": "C107",
   "status": "proved",
   "theorems": [
    "C107_delayed",
    "C107_short"
   ],
   "note": "see DESIGN.md"
  },
  {
   "property": "C108",
   "status": "proved",
   "theorems": [
    "C108_medoid_table",
    "C108_distances_of_series",
    "C108_symmetric",
    "C108_wrong_number_of_medoids"
   ],
   "note": "see DESIGN.md"
  },
  {
   "property": "C109",
   "status": "proved",
   "theorems": [
    "C109_rows_of_a_cluster",
    "C109_one_file_per_cluster",
    "C109_forecast_length_in_name_refuted"
   ],
   "note": "includes a refutation: the faithful model violates part of the naive claim, see the *_refuted theorem"
  },
  {
   "property": "C110",
   "status": "proved",
   "theorems": [
    "C110_errors_between_medoids",
    "C110_rows_before_a_failure",
    "C110_forecast_length_in_name_refuted"
   ],
   "note": "includes a refutation: the faithful model violates part of the naive claim, see the *_refuted theorem"
  },
  {
   "property": "C111",
   "status": "proved",
   "theorems": [
    "C111_training_error_table"
   ],
   "note": "see DESIGN.md"
  },
  {
   "property": "C112",
   "status": "proved",
   "theorems": [
    "C112_region_names",
    "C112_regions_distinguished",
    "C112_unknown_region",
    "C112_suites",
    "C112_which_suites",
    "C112_offered_suites_refuted",
    "C112_centroids",
    "C112_arima_suites",
    "C112_unknown_arima_suite"
   ],
   "note": "includes a refutation: the faithful model violates part of the naive claim, see the *_refuted theorem"
  },
  {
   "property": "C113",
   "status": "proved",
   "theorems": [
    "C113_predict_after_train",
    "C113_untrained_fails",
    "C113_in_sample_answers",
    "C113_out_of_sample_answers",
    "C113_auto_arima_answers",
    "C113_programs",
    "C113_later_training_refuted"
   ],
   "note": "includes a refutation: the faithful model violates part of the naive claim, see the *_refuted theorem"
  },
  {
   "property": "C114",
   "status": "proved",
   "theorems": [
    "C114_answers",
    "C114_auto_arima_answers",
    "C114_unknown_names",
    "C114_own_series_only"
   ],
   "note": "see DESIGN.md"
  },
  {
   "property": "C115",
   "status": "proved",
   "theorems": [
    "C115_experiments",
    "C115_arima_experiments",
    "C115_arima_experiments_run_refuted",
    "C115_answers",
    "C115_paths",
    "C115_same_paths",
    "C115_unknown_names",
    "C115_answers_kept_apart_refuted"
   ],
   "note": "includes a refutation: the faithful model violates part of the naive claim, see the *_refuted theorem"
  },
  {
   "property": "C116",
   "status": "proved",
   "theorems": [
    "C116_kmedoids",
    "C116_kmedoids_distinct",
    "C116_no_worse_than_start",
    "C116_regular",
    "C116_regular_medoids",
    "C116_regular_needs_matrix",
    "C116_matrix_of_the_region",
    "C116_equal_points",
    "C116_enough_points_refuted"
   ],
   "note": "includes a refutation: the faithful model violates part of the naive claim, see the *_refuted theorem"
  },
  {
   "property": "C117",
   "status": "proved",
   "theorems": [
    "C117_written",
    "C117_total_cost",
    "C117_failure_keeps_rows",
    "C117_run_again",
    "C117_nothing_written",
    "C117_missing_distances",
    "C117_kmedoids_suite",
    "C117_regular_suite"
   ],
   "note": "see DESIGN.md"
  },
  {
   "property": "C118",
   "status": "proved",
   "theorems": [
    "C118_elbows",
    "C118_run_again",
    "C118_failure_keeps_partitions",
    "C118_offered_suite_refuted",
    "C118_quick_fails",
    "C118_partitions_found"
   ],
   "note": "includes a refutation: the faithful model violates part of the naive claim, see the *_refuted theorem"
  },
  {
   "property": "C119",
   "status": "proved",
   "theorems": [
    "C119_named_errors",
    "C119_unknown_name",
    "C119_repeated_forecast",
    "C119_no_forecast",
    "C119_each_forecast"
   ],
   "note": "see DESIGN.md"
  },
  {
   "property": "C120",
   "status": "proved",
   "theorems": [
    "C120_run",
    "C120_closest",
    "C120_threshold",
    "C120_threshold_in_name_refuted",
    "C120_nothing_written",
    "C120_untrained",
    "C120_after_analysis",
    "C120_names"
   ],
   "note": "includes a refutation: the faithful model violates part of the naive claim, see the *_refuted theorem"
  },
  {
   "property": "C121",
   "status": "proved",
   "theorems": [
    "C121_after_any_history",
    "C121_loaded",
    "C121_pictures",
    "C121_nothing_written",
    "C121_pictures_kept_apart_refuted"
   ],
   "note": "includes a refutation: the faithful model violates part of the naive claim, see the *_refuted theorem"
  },
  {
   "property": "C122",
   "status": "proved",
   "theorems": [
    "C122_same_operations",
    "C122_same_creation",
    "C122_only_the_regions_own_data",
    "C122_saved_and_loaded",
    "C122_scaled_region_saved_refuted",
    "C122_scaled_save_never_succeeds",
    "C122_parts_not_saved",
    "C122_intervals_not_saved",
    "C122_pickled_and_read",
    "C122_cluster_pickle_refuted",
    "C122_interval_pickle_refuted",
    "C122_dataset_kept_refuted"
   ],
   "note": "includes a refutation: the faithful model violates part of the naive claim, see the *_refuted theorem"
  },
  {
   "property": "C123",
   "status": "proved",
   "theorems": [
    "C123_kmedoids",
    "C123_save",
    "C123_not_saved",
    "C123_distances",
    "C123_show_distances",
    "C123_other_regions",
    "C123_not_offered",
    "C123_scaled_regions_refuted",
    "C123_independent_analyses_refuted"
   ],
   "note": "includes a refutation: the faithful model violates part of the naive claim, see the *_refuted theorem"
  },
  {
   "property": "C124",
   "status": "proved",
   "theorems": [
    "C124_written",
    "C124_failure_keeps_tables",
    "C124_nothing_written",
    "C124_missing_distances",
    "C124_same_medoids_as_analysis",
    "C124_saved_medoids_refuted"
   ],
   "note": "includes a refutation: the faithful model violates part of the naive claim, see the *_refuted theorem"
  },
  {
   "property": "C125",
   "status": "proved",
   "theorems": [
    "C125_written",
    "C125_failure_keeps_tables",
    "C125_rows_before_a_failure",
    "C125_nothing_written"
   ],
   "note": "see DESIGN.md"
  },
  {
   "property": "C126",
   "status": "proved",
   "theorems": [
    "C126_written",
    "C126_failure_keeps_tables",
    "C126_nothing_written"
   ],
   "note": "see DESIGN.md"
  },
  {
   "property": "C127",
   "status": "proved",
   "theorems": [
    "C127_cluster",
    "C127_region",
    "C127_failed_models",
    "C127_bounds"
   ],
   "note": "see DESIGN.md"
  },
  {
   "property": "C128",
   "status": "proved",
   "theorems": [
    "C128_written",
    "C128_failure_keeps_tables",
    "C128_rows_before_a_failure",
    "C128_nothing_written"
   ],
   "note": "see DESIGN.md"
  },
  {
   "property": "C129",
   "status": "proved",
   "theorems": [
    "C129_written",
    "C129_failure_keeps_tables",
    "C129_rows_before_a_failure",
    "C129_nothing_written"
   ],
   "note": "see DESIGN.md"
  },
  {
   "property": "C130",
   "status": "proved",
   "theorems": [
    "C130_partitions_stay",
    "C130_same_results",
    "C130_saved_partitions",
    "C130_other_files",
    "C130_reports",
    "C130_runs_succeed",
    "C130_table_of_costs",
    "C130_training"
   ],
   "note": "see DESIGN.md"
  },
  {
   "property": "C131",
   "status": "proved",
   "theorems": [
    "C131_ends",
    "C131_result",
    "C131_order",
    "C131_start",
    "C131_steps",
    "C131_nan_never_ends",
    "C131_central_refuted",
    "C131_other_data_refuted",
    "C131_stopped_refuted"
   ],
   "note": "includes a refutation: the faithful model violates part of the naive claim, see the *_refuted theorem"
  },
  {
   "property": "C132",
   "status": "proved",
   "theorems": [
    "C132_counts",
    "C132_two_labels",
    "C132_three_refuted",
    "C132_species_refuted"
   ],
   "note": "includes a refutation: the faithful model violates part of the naive claim, see the *_refuted theorem"
  },
  {
   "property": "C133",
   "status": "proved",
   "theorems": [
    "C133_accepts",
    "C133_sound",
    "C133_no_unknown",
    "C133_programs",
    "C133_equals",
    "C133_abbreviation",
    "C133_subcommand",
    "C133_request",
    "C133_train_predict",
    "C133_log",
    "C133_log_refuted",
    "C133_random_refuted",
    "C133_unchecked_refuted"
   ],
   "note": "includes a refutation: the faithful model violates part of the naive claim, see the *_refuted theorem"
  },
  {
   "property": "C134",
   "status": "proved",
   "theorems": [
    "C134_picture",
    "C134_refused",
    "C134_names"
   ],
   "note": "see DESIGN.md"
  },
  {
   "property": "C135",
   "status": "proved",
   "theorems": [
    "C135_lines",
    "C135_all_or_nothing",
    "C135_failure"
   ],
   "note": "see DESIGN.md"
  },
  {
   "property": "C136",
   "status": "proved",
   "theorems": [
    "C136_written",
    "C136_stops",
    "C136_same_tables_refuted"
   ],
   "note": "includes a refutation: the faithful model violates part of the naive claim, see the *_refuted theorem"
  },
  {
   "property": "C137",
   "status": "proved",
   "theorems": [
    "C137_written",
    "C137_without_options",
    "C137_histograms_stop",
    "C137_silhouette_stops",
    "C137_missing_distances",
    "C137_best",
    "C137_number_of_bins_refuted"
   ],
   "note": "includes a refutation: the faithful model violates part of the naive claim, see the *_refuted theorem"
  },
  {
   "property": "C138",
   "status": "proved",
   "theorems": [
    "C138_partition",
    "C138_number_of_clusters_refuted",
    "C138_imported_refuted",
    "C138_spatial_refuted",
    "C138_saved",
    "C138_report_refuted",
    "C138_names",
    "C138_program"
   ],
   "note": "includes a refutation: the faithful model violates part of the naive claim, see the *_refuted theorem"
  },
  {
   "property": "C139",
   "status": "proved",
   "theorems": [
    "C139_written",
    "C139_stops",
    "C139_rows_before_a_failure",
    "C139_same_tables_refuted"
   ],
   "note": "includes a refutation: the faithful model violates part of the naive claim, see the *_refuted theorem"
  },
  {
   "property": "C140",
   "status": "proved",
   "theorems": [
    "C140_series",
    "C140_region",
    "C140_refusals",
    "C140_second_of_two",
    "C140_same_share_refuted",
    "C140_clusters",
    "C140_example_program",
    "C140_square_wave",
    "C140_bell"
   ],
   "note": "includes a refutation: the faithful model violates part of the naive claim, see the *_refuted theorem"
  },
  {
   "property": "C141",
   "status": "proved",
   "theorems": [
    "C141_best_clustering",
    "C141_refusals",
    "C141_example_program"
   ],
   "note": "see DESIGN.md"
  },
  {
   "property": "C142",
   "status": "proved",
   "theorems": [
    "C142_cut_row",
    "C142_interrupted_table",
    "C142_interruption_noticed_refuted"
   ],
   "note": "includes a refutation: the faithful model violates part of the naive claim, see the *_refuted theorem"
  },
  {
   "property": "C143",
   "status": "proved",
   "theorems": [
    "C143_one_run",
    "C143_concurrent_runs",
    "C143_suite_order_refuted",
    "C143_only_rows_refuted"
   ],
   "note": "includes a refutation: the faithful model violates part of the naive claim, see the *_refuted theorem"
  },
  {
   "property": "C144",
   "status": "proved",
   "theorems": [
    "C144_all_steps",
    "C144_reader_during_save",
    "C144_crash_while_saving_again",
    "C144_same_solver_again",
    "C144_old_or_new_refuted"
   ],
   "note": "includes a refutation: the faithful model violates part of the naive claim, see the *_refuted theorem"
  },
  {
   "property": "C145",
   "status": "proved",
   "theorems": [
    "C145_alone",
    "C145_all_get_the_partition",
    "C145_saved_partition",
    "C145_three_steps",
    "C145_saved_after_the_call_refuted"
   ],
   "note": "includes a refutation: the faithful model violates part of the naive claim, see the *_refuted theorem"
  },
  {
   "property": "C146",
   "status": "proved",
   "theorems": [
    "C146_triangle",
    "C146_combine",
    "C146_missing_left_out",
    "C146_any_lengths_refuted"
   ],
   "note": "includes a refutation: the faithful model violates part of the naive claim, see the *_refuted theorem"
  },
  {
   "property": "C147",
   "status": "proved",
   "theorems": [
    "C147_grid_distances"
   ],
   "note": "see DESIGN.md"
  },
  {
   "property": "C148",
   "status": "proved",
   "theorems": [
    "C148_between_0_and_1",
    "C148_order_and_ends",
    "C148_order_strict_refuted",
    "C148_greatest_sample_refuted"
   ],
   "note": "includes a refutation: the faithful model violates part of the naive claim, see the *_refuted theorem"
  },
  {
   "property": "C149",
   "status": "proved",
   "theorems": [
    "C149_minimum_restored",
    "C149_error_bound",
    "C149_exactly_restored_refuted"
   ],
   "note": "includes a refutation: the faithful model violates part of the naive claim, see the *_refuted theorem"
  },
  {
   "property": "C150",
   "status": "proved",
   "theorems": [
    "C150_monotone",
    "C150_order_irrelevant_refuted"
   ],
   "note": "includes a refutation: the faithful model violates part of the naive claim, see the *_refuted theorem"
  },
  {
   "property": "C151",
   "status": "proved",
   "theorems": [
    "C151_rounds_to_nearest",
    "C151_scaled",
    "C151_descaled",
    "C151_error_monotone",
    "C151_order_strict_refuted",
    "C151_no_missing_refuted",
    "C151_exactly_restored_refuted",
    "C151_order_irrelevant_refuted"
   ],
   "note": "includes a refutation: the faithful model violates part of the naive claim, see the *_refuted theorem"
  },
  {
   "property": "C152",
   "status": "proved",
   "theorems": [
    "C152_passes",
    "C152_local_optimum",
    "C152_lite_any_point_refuted"
   ],
   "note": "includes a refutation: the faithful model violates part of the naive claim, see the *_refuted theorem"
  },
  {
   "property": "C153",
   "status": "proved",
   "theorems": [
    "C153_search",
    "C153_local_optimum",
    "C153_exact_cost_never_increases_refuted"
   ],
   "note": "includes a refutation: the faithful model violates part of the naive claim, see the *_refuted theorem"
  },
  {
   "property": "C154",
   "status": "proved",
   "theorems": [
    "C154_total",
    "C154_exact_cost",
    "C154_exact_cost_double",
    "C154_no_overflow_double"
   ],
   "note": "see DESIGN.md"
  },
  {
   "property": "C155",
   "status": "proved",
   "theorems": [
    "C155_centroid_of_region",
    "C155_centroid_of_cluster",
    "C155_near_least",
    "C155_near_least_of_cluster",
    "C155_near_least_double",
    "C155_exact_least_refuted"
   ],
   "note": "includes a refutation: the faithful model violates part of the naive claim, see the *_refuted theorem"
  },
  {
   "property": "C156",
   "status": "proved",
   "theorems": [
    "C156_memberships",
    "C156_at_most_one",
    "C156_double",
    "C156_exact_sum_refuted"
   ],
   "note": "includes a refutation: the faithful model violates part of the naive claim, see the *_refuted theorem"
  },
  {
   "property": "C157",
   "status": "proved",
   "theorems": [
    "C157_memberships",
    "C157_returns",
    "C157_result",
    "C157_double"
   ],
   "note": "see DESIGN.md"
  },
  {
   "property": "C158",
   "status": "proved",
   "theorems": [
    "C158_member_iff",
    "C158_exact_members",
    "C158_some_cluster",
    "C158_thresholds",
    "C158_medoid",
    "C158_iteration_and_length",
    "C158_exact_members_only_refuted"
   ],
   "note": "includes a refutation: the faithful model violates part of the naive claim, see the *_refuted theorem"
  },
  {
   "property": "C159",
   "status": "proved",
   "theorems": [
    "C159_masks_after_search"
   ],
   "note": "see DESIGN.md"
  },
  {
   "property": "C160",
   "status": "proved",
   "theorems": [
    "C160_kmedoids",
    "C160_kmedoids_distinct",
    "C160_near_start_double",
    "C160_near_start_no_overflow"
   ],
   "note": "see DESIGN.md"
  },
  {
   "property": "C161",
   "status": "proved",
   "theorems": [
    "C161_no_overflow_double",
    "C161_exact_refuted",
    "C161_mean_squared",
    "C161_overall_error_double"
   ],
   "note": "includes a refutation: the faithful model violates part of the naive claim, see the *_refuted theorem"
  },
  {
   "property": "C162",
   "status": "proved",
   "theorems": [
    "C162_smape_bounds",
    "C162_smape_bounds_double",
    "C162_any_sign_refuted",
    "C162_smape_value"
   ],
   "note": "includes a refutation: the faithful model violates part of the naive claim, see the *_refuted theorem"
  }
 ]
}