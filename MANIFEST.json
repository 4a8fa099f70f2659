{
 "claims": [
  {
   "property": "C01",
   "status": "proved",
   "theorems": [
    "C01_constructed_configurations_are_wf",
    "C01_compatible_iff",
    "C01_compatible_refl",
    "C01_compatible_ignores",
    "C01_declaring_mutable_sub_components",
    "C01_declaring_dependent_sub_components"
   ],
   "note": ""
  },
  {
   "property": "C02",
   "status": "proved",
   "theorems": [
    "C02_symmetric",
    "C02_transitive",
    "C02_symmetric_refuted",
    "C02_transitive_refuted"
   ],
   "note": "Equivalence proved when nothing is declared mutable; symmetry and transitivity refuted in general, as the property states."
  },
  {
   "property": "C03",
   "status": "proved",
   "theorems": [
    "C03_configured_is_final",
    "C03_configured_iff_returned",
    "C03_configured_at_most_once",
    "C03_save_needs_configured"
   ],
   "note": ""
  },
  {
   "property": "C04",
   "status": "proved",
   "theorems": [
    "C04_effective_configuration",
    "C04_update_succeeds_iff",
    "C04_failing_update",
    "C04_failing_update_keeps_overlay_refuted"
   ],
   "note": "Includes the exact behaviour of a failing update; its atomicity is refuted by a witness, as the property states."
  },
  {
   "property": "C05",
   "status": "proved",
   "theorems": [
    "C05_arguments_recorded",
    "C05_component_recorded",
    "C05_list_names_distinct",
    "C05_empty_containers_recorded_refuted",
    "C05_shadowed_component_refuted"
   ],
   "note": "The two exceptions named by the property are proved by witnesses (_refuted)."
  },
  {
   "property": "C06",
   "status": "proved",
   "theorems": [
    "C06_save_load_identity",
    "C06_save_succeeds",
    "C06_configured_is_consistent"
   ],
   "note": "Also for overwriting saves; trees built by configure are shown to satisfy the hypothesis."
  },
  {
   "property": "C07",
   "status": "proved",
   "theorems": [
    "C07_existing_files_kept",
    "C07_existing_files_kept_at_end",
    "C07_refused",
    "C07_only_below_target",
    "C07_all_or_nothing_refuted"
   ],
   "note": "Protection holds at every crash point; the missing atomicity is proved by a witness."
  },
  {
   "property": "C08",
   "status": "proved",
   "theorems": [
    "C08_replacements",
    "C08_unknown_name_refused",
    "C08_incompatible_refused",
    "C08_base_class_refuses",
    "C08_records_agree",
    "C08_handler_follows_modules",
    "C08_manager_models_compatible"
   ],
   "note": ""
  },
  {
   "property": "C09",
   "status": "proved",
   "theorems": [
    "C09_crash_fresh",
    "C09_crash_overwrite_refuted"
   ],
   "note": "Fresh directory: proved for all crash points. Overwriting: refuted by a witness, as the property states."
  },
  {
   "property": "C10",
   "status": "proved",
   "theorems": [
    "C10_extension_dropped",
    "C10_dot_free_kept",
    "C10_same_target",
    "C10_same_source",
    "C10_targets_collide",
    "C10_siblings_collide",
    "C10_overwrite_siblings_refuted"
   ],
   "note": "Includes the sibling collision and the silent loss with overwrite, as the property states."
  },
  {
   "property": "C11",
   "status": "proved",
   "theorems": [
    "C11_version_mismatch_raises",
    "C11_version_mismatch_attribute_error",
    "C11_nested_mismatch_raises"
   ],
   "note": ""
  },
  {
   "property": "C12",
   "status": "proved",
   "theorems": [
    "C12_load_consumes",
    "C12_ensemble_only_first",
    "C12_ensemble_replaced_refuted"
   ],
   "note": ""
  },
  {
   "property": "C13",
   "status": "proved",
   "theorems": [
    "C13_fails_iff_duplicate",
    "C13_sorted_permutation",
    "C13_order_independent",
    "C13_lookups_inverse",
    "C13_copy_identity"
   ],
   "note": ""
  },
  {
   "property": "C14",
   "status": "proved",
   "theorems": [
    "C14_round_trip",
    "C14_round_trip_identity",
    "C14_clash_changes",
    "C14_defaults",
    "C14_required_arguments",
    "C14_log_flag_expanded"
   ],
   "note": ""
  },
  {
   "property": "C15",
   "status": "proved",
   "theorems": [
    "C15_split",
    "C15_batch_event_batch",
    "C15_event_batch_event",
    "C15_wrong_index_fails",
    "C15_no_rows_refuted"
   ],
   "note": "Holds for every batch whose tensors have rows; refuted for an event without rows, as the property states."
  },
  {
   "property": "C16",
   "status": "proved",
   "theorems": [
    "C16_filter",
    "C16_wrong_mask_fails",
    "C16_missing_event_tensor_fails",
    "C16_half_missing_vector_fails"
   ],
   "note": ""
  },
  {
   "property": "C17",
   "status": "proved",
   "theorems": [
    "C17_batches",
    "C17_rows_by_event",
    "C17_every_event_repeated",
    "C17_unshuffled_order"
   ],
   "note": ""
  },
  {
   "property": "C18",
   "status": "proved",
   "theorems": [
    "C18_no_invention",
    "C18_multiplicity",
    "C18_batches"
   ],
   "note": ""
  },
  {
   "property": "C19",
   "status": "proved",
   "theorems": [
    "C19_one_worker_complete",
    "C19_more_workers_lose"
   ],
   "note": "Completeness with one worker for all schedules; the loss with more workers for every number of workers, every content and all parameters."
  },
  {
   "property": "C20",
   "status": "proved",
   "theorems": [
    "C20_no_files_hang",
    "C20_incomplete_group_hangs",
    "C20_dead_batching_process",
    "C20_starved"
   ],
   "note": ""
  },
  {
   "property": "C21",
   "status": "proved",
   "theorems": [
    "C21_at_most_leftover",
    "C21_safe",
    "C21_leftover_missed_refuted"
   ],
   "note": "The missed batch is proved by a witness schedule; the safe part for all schedules."
  },
  {
   "property": "C22",
   "status": "proved",
   "theorems": [
    "C22_statistics",
    "C22_no_reduction",
    "C22_batching_irrelevant"
   ],
   "note": ""
  },
  {
   "property": "C23",
   "status": "proved",
   "theorems": [
    "C23_inverse_of_transform",
    "C23_transform_of_inverse",
    "C23_same_success"
   ],
   "note": ""
  },
  {
   "property": "C24",
   "status": "proved",
   "theorems": [
    "C24_divisor_positive",
    "C24_covariance",
    "C24_covariance_reduced"
   ],
   "note": ""
  },
  {
   "property": "C25",
   "status": "proved",
   "theorems": [
    "C25_records",
    "C25_files",
    "C25_latest",
    "C25_next_save",
    "C25_newest"
   ],
   "note": ""
  },
  {
   "property": "C26",
   "status": "proved",
   "theorems": [
    "C26_before_index",
    "C26_after_index",
    "C26_loads",
    "C26_latest_safe",
    "C26_latest_lost",
    "C26_records_lost"
   ],
   "note": "All crash points; Later covers any sequence of later, also interrupted, saves."
  },
  {
   "property": "C27",
   "status": "proved",
   "theorems": [
    "C27_zero_removes_nothing",
    "C27_negative",
    "C27_zero_keeps_none_refuted"
   ],
   "note": "The reading 'zero keeps none' is refuted by a witness."
  },
  {
   "property": "C28",
   "status": "proved",
   "theorems": [
    "C28_saves",
    "C28_success",
    "C28_no_iteration",
    "C28_exhausted",
    "C28_recorded"
   ],
   "note": ""
  },
  {
   "property": "C29",
   "status": "proved",
   "theorems": [
    "C29_interval",
    "C29_own_variables",
    "C29_three",
    "C29_late",
    "C29_single",
    "C29_four_refuted"
   ],
   "note": ""
  },
  {
   "property": "C30",
   "status": "proved",
   "theorems": [
    "C30_sum",
    "C30_density",
    "C30_exclusion",
    "C30_order",
    "C30_single",
    "C30_no_sources",
    "C30_missing_base"
   ],
   "note": ""
  },
  {
   "property": "C31",
   "status": "proved",
   "theorems": [
    "C31_partition",
    "C31_names",
    "C31_refuted"
   ],
   "note": ""
  },
  {
   "property": "C32",
   "status": "proved",
   "theorems": [
    "C32_appended",
    "C32_unusable",
    "C32_sources",
    "C32_usable"
   ],
   "note": ""
  },
  {
   "property": "C33",
   "status": "proved",
   "theorems": [
    "C33_speed",
    "C33_track",
    "C33_muon",
    "C33_shift",
    "C33_shift_energy",
    "C33_shift_positive",
    "C33_shift_zero"
   ],
   "note": ""
  },
  {
   "property": "C34",
   "status": "proved",
   "theorems": [
    "C34_charge",
    "C34_total",
    "C34_window",
    "C34_quantile",
    "C34_monotone",
    "C34_string_zero_refuted",
    "C34_wrapped",
    "C34_accepted"
   ],
   "note": ""
  },
  {
   "property": "C35",
   "status": "proved",
   "theorems": [
    "C35_rows",
    "C35_length",
    "C35_all_written",
    "C35_refuted",
    "C35_windows"
   ],
   "note": ""
  },
  {
   "property": "C36",
   "status": "proved",
   "theorems": [
    "C36_injective",
    "C36_onto",
    "C36_value"
   ],
   "note": ""
  },
  {
   "property": "C37",
   "status": "proved",
   "theorems": [
    "C37_success",
    "C37_errors",
    "C37_values",
    "C37_user",
    "C37_automatic",
    "C37_precision",
    "C37_copy",
    "C37_copy_exists"
   ],
   "note": ""
  },
  {
   "property": "C38",
   "status": "proved",
   "theorems": [
    "C38_sorted_sum",
    "C38_unsorted_sum",
    "C38_errors",
    "C38_exclusive",
    "C38_pulse_local",
    "C38_extended_norm",
    "C38_extended_norm_refuted",
    "C38_charge_norm"
   ],
   "note": ""
  },
  {
   "property": "C39",
   "status": "proved",
   "theorems": [
    "C39_excluded_ignored",
    "C39_excluded_zero",
    "C39_leaks",
    "C39_normalized_refuted",
    "C39_charge_norm_refuted"
   ],
   "note": ""
  },
  {
   "property": "C40",
   "status": "proved",
   "theorems": [
    "C40_scalar_sum",
    "C40_unsorted_concat",
    "C40_sorted_sum",
    "C40_order",
    "C40_order_sorted",
    "C40_empty",
    "C40_error"
   ],
   "note": ""
  },
  {
   "property": "C41",
   "status": "proved",
   "theorems": [
    "C41_fourier_raises"
   ],
   "note": ""
  },
  {
   "property": "C42",
   "status": "proved",
   "theorems": [
    "C42_inside",
    "C42_outside",
    "C42_increasing",
    "C42_symmetric",
    "C42_continuous",
    "C42_total",
    "C42_unknown"
   ],
   "note": ""
  },
  {
   "property": "C43",
   "status": "proved",
   "theorems": [
    "C43_values",
    "C43_never_worse",
    "C43_reported",
    "C43_stopped_at_once",
    "C43_more_iterations",
    "C43_returns",
    "C43_reported_refuted",
    "C43_initial_refuted"
   ],
   "note": ""
  },
  {
   "property": "C44",
   "status": "proved",
   "theorems": [
    "C44_sound",
    "C44_maximal",
    "C44_no_worse"
   ],
   "note": ""
  },
  {
   "property": "C45",
   "status": "proved",
   "theorems": [
    "C45_from_angles",
    "C45_from_coordinates",
    "C45_round_trip",
    "C45_reflection",
    "C45_involution",
    "C45_distance",
    "C45_equidistant",
    "C45_midpoint"
   ],
   "note": ""
  },
  {
   "property": "C46",
   "status": "proved",
   "theorems": [
    "C46_truncated",
    "C46_stops_at_once",
    "C46_refuted"
   ],
   "note": ""
  },
  {
   "property": "C47",
   "status": "proved",
   "theorems": [
    "C47_refused",
    "C47_failed_keeps",
    "C47_added",
    "C47_unique",
    "C47_default",
    "C47_execute",
    "C47_keys",
    "C47_error",
    "C47_default_refuted"
   ],
   "note": "Modules are functions of the batch and the earlier results; a module that mutates the earlier results in place is not modelled. An automatic name can clash with a given one (C47_default_refuted)."
  },
  {
   "property": "C48",
   "status": "proved",
   "theorems": [
    "C48_last",
    "C48_succeeds",
    "C48_no_names",
    "C48_best_refuted"
   ],
   "note": "The selection always returns the results of the last name (C48_last); the expectation that it returns the smallest loss is refuted (C48_best_refuted)."
  },
  {
   "property": "C49",
   "status": "proved",
   "theorems": [
    "C49_all_parameters",
    "C49_original_space",
    "C49_transformed_space"
   ],
   "note": "Entries and scaling in the transformed space (C49_transformed_space); in the original space the module always raises (C49_original_space)."
  },
  {
   "property": "C50",
   "status": "proved",
   "theorems": [
    "C50_lookup",
    "C50_nothing",
    "C50_twice",
    "C50_add",
    "C50_fetch",
    "C50_wrong_name"
   ],
   "note": "Comparison of settings is an arbitrary equivalence. Settings that raise when compared (numpy arrays) are not modelled."
  },
  {
   "property": "C51",
   "status": "proved",
   "theorems": [
    "C51_merge",
    "C51_held",
    "C51_fitted",
    "C51_point",
    "C51_start",
    "C51_none_fitted"
   ],
   "note": "Numpy and TensorFlow merges; the log domain of the seed and the absence of clipping are hypotheses."
  },
  {
   "property": "C52",
   "status": "proved",
   "theorems": [
    "C52_p_values",
    "C52_order",
    "C52_monotone",
    "C52_ties",
    "C52_two_sided_refuted",
    "C52_no_samples"
   ],
   "note": "np.searchsorted is modelled as binary search; exact reals. C52_two_sided_refuted: data equal to every sample gets 0."
  },
  {
   "property": "C53",
   "status": "proved",
   "theorems": [
    "C53_consistent",
    "C53_charge_terms"
   ],
   "note": "Loss, minimiser, model and random draws are arbitrary functions; bias and covariance of the sampled reconstructions are not modelled."
  },
  {
   "property": "C54",
   "status": "proved",
   "theorems": [
    "C54_several",
    "C54_none",
    "C54_single",
    "C54_skipped",
    "C54_frame",
    "C54_frame_skipped",
    "C54_particle",
    "C54_first_refuted"
   ],
   "note": "Files are closed in the finally clause of the first seed; access to the closed file is an exception caught by the loader."
  },
  {
   "property": "C55",
   "status": "proved",
   "theorems": [
    "C55_unknown",
    "C55_hdf",
    "C55_short",
    "C55_frame_ignores",
    "C55_frame_named",
    "C55_frame_kinds",
    "C55_refuted",
    "C55_index",
    "C55_negative"
   ],
   "note": "Named columns have one value per event (pandas' handling of other lengths is not modelled)."
  },
  {
   "property": "C56",
   "status": "proved",
   "theorems": [
    "C56_complete",
    "C56_shifted",
    "C56_not_removed",
    "C56_no_function",
    "C56_success"
   ],
   "note": ""
  },
  {
   "property": "C57",
   "status": "proved",
   "theorems": [
    "C57_order",
    "C57_too_many",
    "C57_empty"
   ],
   "note": ""
  },
  {
   "property": "C58",
   "status": "proved",
   "theorems": [
    "C58_direction",
    "C58_shape",
    "C58_parallel",
    "C58_geodesic",
    "C58_angles",
    "C58_length",
    "C58_length_refuted",
    "C58_negative"
   ],
   "note": "Exact reals; -90 degrees itself (tangent undefined) is not covered."
  },
  {
   "property": "C59",
   "status": "proved",
   "theorems": [
    "C59_density",
    "C59_symmetric",
    "C59_increasing",
    "C59_range",
    "C59_limits",
    "C59_quantile",
    "C59_quantile_back"
   ],
   "note": "Error function and its inverse are any functions with the defining properties (derivative and value at zero); existence is proved (erf_ex), as are the limits +-1 (Gaussian integral)."
  },
  {
   "property": "C60",
   "status": "proved",
   "theorems": [
    "C60_signs",
    "C60_value",
    "C60_no_variables",
    "C60_proportional_refuted"
   ],
   "note": ""
  },
  {
   "property": "C61",
   "status": "proved",
   "theorems": [
    "C61_filtered_without_rows_breaks_split"
   ],
   "note": ""
  },
  {
   "property": "C62",
   "status": "proved",
   "theorems": [
    "C62_missing_in_one_file"
   ],
   "note": ""
  },
  {
   "property": "C63",
   "status": "proved",
   "theorems": [
    "C63_every_input_can_hang"
   ],
   "note": ""
  },
  {
   "property": "C64",
   "status": "proved",
   "theorems": [
    "C64_reduced_deviation",
    "C64_pooled_deviation_refuted",
    "C64_configured"
   ],
   "note": ""
  },
  {
   "property": "C65",
   "status": "proved",
   "theorems": [
    "C65_consistent",
    "C65_stuck",
    "C65_failing_component",
    "C65_settings_recorded",
    "C65_update_steps",
    "C65_steps_without_training"
   ],
   "note": ""
  },
  {
   "property": "C66",
   "status": "proved",
   "theorems": [
    "C66_data",
    "C66_evaluation"
   ],
   "note": ""
  },
  {
   "property": "C67",
   "status": "proved",
   "theorems": [
    "C67_success",
    "C67_own",
    "C67_late",
    "C67_one_base",
    "C67_refuted"
   ],
   "note": ""
  },
  {
   "property": "C68",
   "status": "proved",
   "theorems": [
    "C68_readers",
    "C68_frame_windows"
   ],
   "note": ""
  },
  {
   "property": "C69",
   "status": "proved",
   "theorems": [
    "C69_hdf",
    "C69_frame",
    "C69_doms",
    "C69_skipped"
   ],
   "note": ""
  },
  {
   "property": "C70",
   "status": "proved",
   "theorems": [
    "C70_frame",
    "C70_discard",
    "C70_hdf"
   ],
   "note": ""
  },
  {
   "property": "C71",
   "status": "proved",
   "theorems": [
    "C71_mask",
    "C71_discard"
   ],
   "note": ""
  },
  {
   "property": "C72",
   "status": "proved",
   "theorems": [
    "C72_pass",
    "C72_resolved",
    "C72_forward_refuted"
   ],
   "note": ""
  },
  {
   "property": "C73",
   "status": "proved",
   "theorems": [
    "C73_name",
    "C73_any_name",
    "C73_distinct_refuted"
   ],
   "note": ""
  },
  {
   "property": "C74",
   "status": "proved",
   "theorems": [
    "C74_sorted_raises"
   ],
   "note": ""
  },
  {
   "property": "C75",
   "status": "proved",
   "theorems": [
    "C75_events"
   ],
   "note": ""
  },
  {
   "property": "C76",
   "status": "proved",
   "theorems": [
    "C76_scale"
   ],
   "note": ""
  },
  {
   "property": "C77",
   "status": "proved",
   "theorems": [
    "C77_mixed_thresholds"
   ],
   "note": ""
  },
  {
   "property": "C78",
   "status": "proved",
   "theorems": [
    "C78_call_limit",
    "C78_calls"
   ],
   "note": ""
  },
  {
   "property": "C79",
   "status": "proved",
   "theorems": [
    "C79_flags",
    "C79_converged",
    "C79_no_improvement",
    "C79_spread"
   ],
   "note": ""
  },
  {
   "property": "C80",
   "status": "proved",
   "theorems": [
    "C80_round_trip"
   ],
   "note": ""
  },
  {
   "property": "C81",
   "status": "proved",
   "theorems": [
    "C81_descends",
    "C81_all_models"
   ],
   "note": "Descends and KeepsLength are hypotheses about the external minimiser (scipy)."
  },
  {
   "property": "C82",
   "status": "proved",
   "theorems": [
    "C82_bounds",
    "C82_dropped",
    "C82_held"
   ],
   "note": "Infinite or missing bounds are None; integer dtypes of bounds (which truncate) are not modelled."
  },
  {
   "property": "C83",
   "status": "proved",
   "theorems": [
    "C83_held",
    "C83_all_fitted"
   ],
   "note": ""
  },
  {
   "property": "C84",
   "status": "proved",
   "theorems": [
    "C84_seven",
    "C84_never_worse",
    "C84_start"
   ],
   "note": "One event; the optimiser is the one of C43."
  },
  {
   "property": "C85",
   "status": "proved",
   "theorems": [
    "C85_original_space",
    "C85_held",
    "C85_box"
   ],
   "note": ""
  },
  {
   "property": "C86",
   "status": "proved",
   "theorems": [
    "C86_outer_product",
    "C86_sandwich",
    "C86_covariances"
   ],
   "note": ""
  },
  {
   "property": "C87",
   "status": "proved",
   "theorems": [
    "C87_derivative",
    "C87_integral"
   ],
   "note": "Riemann integral of the standard library; exact reals."
  },
  {
   "property": "C88",
   "status": "proved",
   "theorems": [
    "C88_distribution",
    "C88_normalisation",
    "C88_zero_mean"
   ],
   "note": "The log-gamma function is any function with the functional equation; its existence is shown in lgamma_ex. Exact reals extended by infinities and NaN for logarithms."
  },
  {
   "property": "C89",
   "status": "proved",
   "theorems": [
    "C89_accepted",
    "C89_moments",
    "C89_mean_refuted",
    "C89_small",
    "C89_poisson"
   ],
   "note": "numpy's negative_binomial(r, p) is taken to sample nb_pmf r (1-p); it raises ValueError for r <= 0 or p outside [0,1]. C89_mean_refuted shows that the requested mean is never met."
  },
  {
   "property": "C90",
   "status": "proved",
   "theorems": [
    "C90_derivative",
    "C90_integral",
    "C90_distribution",
    "C90_negative"
   ],
   "note": "Exact reals."
  },
  {
   "property": "C91",
   "status": "proved",
   "theorems": [
    "C91_pulses",
    "C91_quantiles",
    "C91_empty"
   ],
   "note": "np.argsort is any function returning sorting positions; uniform draws any lists of the requested length in range."
  },
  {
   "property": "C92",
   "status": "proved",
   "theorems": [
    "C92_component",
    "C92_time"
   ],
   "note": "Uses C59 for the inversion of the distribution function."
  },
  {
   "property": "C93",
   "status": "proved",
   "theorems": [
    "C93_held"
   ],
   "note": "Concrete TensorFlow functions check the number of columns of their arguments; TensorFlow tensors cannot be indexed with a list of flags."
  },
  {
   "property": "C94",
   "status": "proved",
   "theorems": [
    "C94_poisson",
    "C94_asymmetric_gauss",
    "C94_asymmetric_gauss_accepted",
    "C94_negative_binomial",
    "C94_negative_binomial_accepted"
   ],
   "note": "The generator of counts only returns values of positive probability (CountSupport)."
  },
  {
   "property": "C95",
   "status": "proved",
   "theorems": [
    "C95_angle",
    "C95_invariant",
    "C95_deviation",
    "C95_zero"
   ],
   "note": ""
  },
  {
   "property": "C96",
   "status": "proved",
   "theorems": [
    "C96_bisection",
    "C96_range",
    "C96_covariance",
    "C96_covariance_value",
    "C96_scan",
    "C96_events",
    "C96_sign"
   ],
   "note": "Values of the distribution function are an oracle for each step."
  },
  {
   "property": "C97",
   "status": "proved",
   "theorems": [
    "C97_faculty",
    "C97_extended",
    "C97_pulse_time",
    "C97_pulse_and_charge",
    "C97_quantile",
    "C97_dom_and_event",
    "C97_negative_binomial",
    "C97_negative_binomial_event",
    "C97_normalized_dom",
    "C97_per_term",
    "C97_poisson"
   ],
   "note": ""
  },
  {
   "property": "C98",
   "status": "proved",
   "theorems": [
    "C98_history"
   ],
   "note": ""
  },
  {
   "property": "C99",
   "status": "proved",
   "theorems": [
    "C99_hypotheses",
    "C99_compared",
    "C99_no_samples"
   ],
   "note": ""
  },
  {
   "property": "C100",
   "status": "proved",
   "theorems": [
    "C100_accepted",
    "C100_charge",
    "C100_no_exclusions",
    "C100_variance"
   ],
   "note": ""
  },
  {
   "property": "C101",
   "status": "proved",
   "theorems": [
    "C101_density",
    "C101_mass",
    "C101_no_exclusions",
    "C101_single",
    "C101_constant",
    "C101_excluded_refuted"
   ],
   "note": ""
  },
  {
   "property": "C102",
   "status": "proved",
   "theorems": [
    "C102_checks",
    "C102_reversed",
    "C102_no_time",
    "C102_overlap_refuted",
    "C102_double_refuted"
   ],
   "note": ""
  },
  {
   "property": "C103",
   "status": "proved",
   "theorems": [
    "C103_range",
    "C103_onto",
    "C103_start",
    "C103_nominal_refuted",
    "C103_dispersion"
   ],
   "note": ""
  },
  {
   "property": "C104",
   "status": "proved",
   "theorems": [
    "C104_accepted",
    "C104_names",
    "C104_rejected",
    "C104_translation",
    "C104_direction"
   ],
   "note": ""
  },
  {
   "property": "C105",
   "status": "proved",
   "theorems": [
    "C105_layout",
    "C105_rejected",
    "C105_modes"
   ],
   "note": ""
  },
  {
   "property": "C106",
   "status": "proved",
   "theorems": [
    "C106_mixture",
    "C106_density",
    "C106_pulses"
   ],
   "note": ""
  },
  {
   "property": "C107",
   "status": "proved",
   "theorems": [
    "C107_charge",
    "C107_share",
    "C107_double_refuted"
   ],
   "note": ""
  },
  {
   "property": "C108",
   "status": "proved",
   "theorems": [
    "C108_mass",
    "C108_other_doms",
    "C108_conditional_refuted"
   ],
   "note": ""
  },
  {
   "property": "C109",
   "status": "proved",
   "theorems": [
    "C109_sorted",
    "C109_ordered",
    "C109_density_refuted"
   ],
   "note": ""
  },
  {
   "property": "C110",
   "status": "proved",
   "theorems": [
    "C110_charge",
    "C110_positive",
    "C110_poisson",
    "C110_negative_binomial",
    "C110_overdispersed",
    "C110_asymmetric",
    "C110_negative_refuted",
    "C110_exceeds_refuted",
    "C110_uncertainty_refuted"
   ],
   "note": ""
  },
  {
   "property": "C111",
   "status": "proved",
   "theorems": [
    "C111_units",
    "C111_proportional_refuted"
   ],
   "note": ""
  },
  {
   "property": "C112",
   "status": "proved",
   "theorems": [
    "C112_configure",
    "C112_daq_fails",
    "C112_rows",
    "C112_uninitialised_refuted"
   ],
   "note": ""
  },
  {
   "property": "C113",
   "status": "proved",
   "theorems": [
    "C113_sources",
    "C113_errors",
    "C113_dropped_refuted"
   ],
   "note": ""
  },
  {
   "property": "C114",
   "status": "proved",
   "theorems": [
    "C114_frame",
    "C114_pulses",
    "C114_totals",
    "C114_success",
    "C114_distribution"
   ],
   "note": ""
  },
  {
   "property": "C115",
   "status": "proved",
   "theorems": [
    "C115_no_rows",
    "C115_evaluated",
    "C115_poisson",
    "C115_asymmetric",
    "C115_negative_binomial"
   ],
   "note": ""
  },
  {
   "property": "C116",
   "status": "proved",
   "theorems": [
    "C116_flags",
    "C116_flags_error",
    "C116_modules",
    "C116_duplicates",
    "C116_random",
    "C116_no_seeds"
   ],
   "note": ""
  },
  {
   "property": "C117",
   "status": "proved",
   "theorems": [
    "C117_events",
    "C117_columns",
    "C117_collision_refuted"
   ],
   "note": ""
  },
  {
   "property": "C118",
   "status": "proved",
   "theorems": [
    "C118_one_per_batch",
    "C118_uncertainties",
    "C118_p_values",
    "C118_samples",
    "C118_circular",
    "C118_failures",
    "C118_mcmc",
    "C118_misaligned_refuted"
   ],
   "note": ""
  },
  {
   "property": "C119",
   "status": "proved",
   "theorems": [
    "C119_configured",
    "C119_configurable",
    "C119_objects",
    "C119_no_overwriting",
    "C119_result",
    "C119_collision_refuted"
   ],
   "note": ""
  },
  {
   "property": "C120",
   "status": "proved",
   "theorems": [
    "C120_matrices",
    "C120_samples",
    "C120_collision_refuted"
   ],
   "note": ""
  },
  {
   "property": "C121",
   "status": "proved",
   "theorems": [
    "C121_particle",
    "C121_direction",
    "C121_unknown_parameter",
    "C121_doms",
    "C121_one_event",
    "C121_no_success"
   ],
   "note": ""
  },
  {
   "property": "C122",
   "status": "proved",
   "theorems": [
    "C122_rows",
    "C122_loaded",
    "C122_frame"
   ],
   "note": ""
  },
  {
   "property": "C123",
   "status": "proved",
   "theorems": [
    "C123_shift"
   ],
   "note": ""
  },
  {
   "property": "C124",
   "status": "proved",
   "theorems": [
    "C124_grouped",
    "C124_counts",
    "C124_no_events",
    "C124_order_refuted"
   ],
   "note": ""
  },
  {
   "property": "C125",
   "status": "proved",
   "theorems": [
    "C125_columns",
    "C125_flags",
    "C125_given",
    "C125_accepted",
    "C125_rejected",
    "C125_config_data",
    "C125_flags_refuted",
    "C125_unchecked_refuted"
   ],
   "note": ""
  },
  {
   "property": "C126",
   "status": "proved",
   "theorems": [
    "C126_total",
    "C126_frame_total",
    "C126_one_event",
    "C126_errors"
   ],
   "note": ""
  },
  {
   "property": "C127",
   "status": "proved",
   "theorems": [
    "C127_together"
   ],
   "note": ""
  },
  {
   "property": "C128",
   "status": "proved",
   "theorems": [
    "C128_named",
    "C128_segment"
   ],
   "note": ""
  },
  {
   "property": "C129",
   "status": "proved",
   "theorems": [
    "C129_on_track",
    "C129_order",
    "C129_error",
    "C129_symmetric",
    "C129_negative",
    "C129_fixed_refuted"
   ],
   "note": ""
  },
  {
   "property": "C130",
   "status": "proved",
   "theorems": [
    "C130_range",
    "C130_additive",
    "C130_linear",
    "C130_value",
    "C130_whole",
    "C130_negative",
    "C130_twice_refuted"
   ],
   "note": ""
  },
  {
   "property": "C131",
   "status": "proved",
   "theorems": [
    "C131_input",
    "C131_translation",
    "C131_zero_length",
    "C131_zero_position"
   ],
   "note": ""
  },
  {
   "property": "C132",
   "status": "proved",
   "theorems": [
    "C132_accepted",
    "C132_training",
    "C132_charge_assertion",
    "C132_negative_length_refuted",
    "C132_asserted",
    "C132_training_rejected",
    "C132_names",
    "C132_rejected",
    "C132_layout_rejected",
    "C132_logarithm",
    "C132_logarithm_needed"
   ],
   "note": ""
  },
  {
   "property": "C133",
   "status": "proved",
   "theorems": [
    "C133_density",
    "C133_layout",
    "C133_pulses",
    "C133_charge",
    "C133_positive",
    "C133_translation",
    "C133_direction"
   ],
   "note": ""
  },
  {
   "property": "C134",
   "status": "proved",
   "theorems": [
    "C134_together",
    "C134_result",
    "C134_no_directory"
   ],
   "note": ""
  },
  {
   "property": "C135",
   "status": "proved",
   "theorems": [
    "C135_single",
    "C135_several",
    "C135_refuted"
   ],
   "note": ""
  },
  {
   "property": "C136",
   "status": "proved",
   "theorems": [
    "C136_config"
   ],
   "note": ""
  },
  {
   "property": "C137",
   "status": "proved",
   "theorems": [
    "C137_model",
    "C137_not_rebuilt"
   ],
   "note": ""
  },
  {
   "property": "C138",
   "status": "proved",
   "theorems": [
    "C138_handler",
    "C138_loss",
    "C138_sum",
    "C138_manager",
    "C138_restore",
    "C138_held"
   ],
   "note": ""
  },
  {
   "property": "C139",
   "status": "proved",
   "theorems": [
    "C139_target"
   ],
   "note": ""
  },
  {
   "property": "C140",
   "status": "proved",
   "theorems": [
    "C140_start",
    "C140_first_value",
    "C140_refuted"
   ],
   "note": ""
  },
  {
   "property": "C141",
   "status": "proved",
   "theorems": [
    "C141_accepted",
    "C141_log_prob"
   ],
   "note": ""
  },
  {
   "property": "C142",
   "status": "proved",
   "theorems": [
    "C142_steps",
    "C142_adaptation",
    "C142_refuted"
   ],
   "note": ""
  },
  {
   "property": "C143",
   "status": "proved",
   "theorems": [
    "C143_needed",
    "C143_enough",
    "C143_seed"
   ],
   "note": ""
  },
  {
   "property": "C144",
   "status": "proved",
   "theorems": [
    "C144_accepted",
    "C144_no_systematics",
    "C144_twice",
    "C144_layout",
    "C144_extra_columns"
   ],
   "note": ""
  },
  {
   "property": "C145",
   "status": "proved",
   "theorems": [
    "C145_efficiency"
   ],
   "note": ""
  },
  {
   "property": "C146",
   "status": "proved",
   "theorems": [
    "C146_density",
    "C146_components",
    "C146_pulses",
    "C146_exclusions_refuted"
   ],
   "note": ""
  },
  {
   "property": "C147",
   "status": "proved",
   "theorems": [
    "C147_translation",
    "C147_direction",
    "C147_position",
    "C147_inputs"
   ],
   "note": ""
  },
  {
   "property": "C148",
   "status": "proved",
   "theorems": [
    "C148_charge",
    "C148_positive",
    "C148_poisson",
    "C148_negative_binomial",
    "C148_asymmetric"
   ],
   "note": ""
  },
  {
   "property": "C149",
   "status": "proved",
   "theorems": [
    "C149_accepted",
    "C149_layout",
    "C149_rows",
    "C149_efficiency"
   ],
   "note": ""
  },
  {
   "property": "C150",
   "status": "proved",
   "theorems": [
    "C150_default",
    "C150_charge",
    "C150_positive"
   ],
   "note": ""
  },
  {
   "property": "C151",
   "status": "proved",
   "theorems": [
    "C151_density",
    "C151_mixture",
    "C151_pulses"
   ],
   "note": ""
  },
  {
   "property": "C152",
   "status": "proved",
   "theorems": [
    "C152_components",
    "C152_causality_refuted"
   ],
   "note": ""
  },
  {
   "property": "C153",
   "status": "proved",
   "theorems": [
    "C153_translation",
    "C153_direction",
    "C153_charges"
   ],
   "note": ""
  },
  {
   "property": "C154",
   "status": "proved",
   "theorems": [
    "C154_combined"
   ],
   "note": ""
  },
  {
   "property": "C155",
   "status": "proved",
   "theorems": [
    "C155_skip",
    "C155_refused",
    "C155_delivered",
    "C155_module_error",
    "C155_method"
   ],
   "note": ""
  },
  {
   "property": "C156",
   "status": "proved",
   "theorems": [
    "C156_checked",
    "C156_wrong_shape",
    "C156_passed_on"
   ],
   "note": ""
  },
  {
   "property": "C157",
   "status": "proved",
   "theorems": [
    "C157_frame",
    "C157_signature",
    "C157_tensor",
    "C157_skipped_refuted"
   ],
   "note": ""
  },
  {
   "property": "C158",
   "status": "proved",
   "theorems": [
    "C158_write",
    "C158_round_trip"
   ],
   "note": ""
  },
  {
   "property": "C159",
   "status": "proved",
   "theorems": [
    "C159_configured",
    "C159_patterns",
    "C159_config_data_refuted",
    "C159_retry"
   ],
   "note": ""
  },
  {
   "property": "C160",
   "status": "proved",
   "theorems": [
    "C160_index",
    "C160_name",
    "C160_round_trip",
    "C160_columns",
    "C160_unconfigured"
   ],
   "note": ""
  },
  {
   "property": "C161",
   "status": "proved",
   "theorems": [
    "C161_unique",
    "C161_by_name",
    "C161_ambiguous_refuted"
   ],
   "note": ""
  },
  {
   "property": "C162",
   "status": "proved",
   "theorems": [
    "C162_configured",
    "C162_refused"
   ],
   "note": ""
  },
  {
   "property": "C163",
   "status": "proved",
   "theorems": [
    "C163_shared",
    "C163_reload",
    "C163_evaluate",
    "C163_used_refused",
    "C163_own_transformer_refuted",
    "C163_loadable_refuted",
    "C163_base_lost_refuted"
   ],
   "note": ""
  },
  {
   "property": "C164",
   "status": "proved",
   "theorems": [
    "C164_accepted",
    "C164_raises",
    "C164_other_parts",
    "C164_constant_refuted"
   ],
   "note": ""
  },
  {
   "property": "C165",
   "status": "proved",
   "theorems": [
    "C165_restored",
    "C165_scratch",
    "C165_declined",
    "C165_confirmed",
    "C165_unprepared",
    "C165_no_files"
   ],
   "note": ""
  },
  {
   "property": "C166",
   "status": "proved",
   "theorems": [
    "C166_confined",
    "C166_recorded",
    "C166_kept_refuted"
   ],
   "note": ""
  },
  {
   "property": "C167",
   "status": "proved",
   "theorems": [
    "C167_saved",
    "C167_continues",
    "C167_extension",
    "C167_moved_refuted",
    "C167_found_refuted"
   ],
   "note": ""
  },
  {
   "property": "C168",
   "status": "proved",
   "theorems": [
    "C168_declined",
    "C168_asks",
    "C168_exported",
    "C168_extension",
    "C168_lost",
    "C168_inputs",
    "C168_models",
    "C168_no_files"
   ],
   "note": ""
  },
  {
   "property": "C169",
   "status": "proved",
   "theorems": [
    "C169_declined",
    "C169_written"
   ],
   "note": ""
  },
  {
   "property": "C170",
   "status": "proved",
   "theorems": [
    "C170_reads_only",
    "C170_loaded",
    "C170_checked",
    "C170_scratch_refuted"
   ],
   "note": ""
  },
  {
   "property": "C171",
   "status": "proved",
   "theorems": [
    "C171_each",
    "C171_number",
    "C171_latest",
    "C171_next"
   ],
   "note": ""
  },
  {
   "property": "C172",
   "status": "proved",
   "theorems": [
    "C172_stopped",
    "C172_raised",
    "C172_crash_points",
    "C172_mixed",
    "C172_apart",
    "C172_numbers",
    "C172_newest",
    "C172_one_save_refuted"
   ],
   "note": ""
  },
  {
   "property": "C173",
   "status": "proved",
   "theorems": [
    "C173_parts",
    "C173_counters",
    "C173_half_loaded",
    "C173_atomic_refuted"
   ],
   "note": ""
  },
  {
   "property": "C174",
   "status": "proved",
   "theorems": [
    "C174_counted",
    "C174_counted_multi",
    "C174_lost",
    "C174_resumed",
    "C174_step_refuted"
   ],
   "note": ""
  },
  {
   "property": "C175",
   "status": "proved",
   "theorems": [
    "C175_steps",
    "C175_no_steps",
    "C175_inside",
    "C175_inside_raises",
    "C175_extension",
    "C175_extension_steps",
    "C175_extension_old",
    "C175_saved_loaded_refuted"
   ],
   "note": ""
  },
  {
   "property": "C176",
   "status": "proved",
   "theorems": [
    "C176_configured",
    "C176_loaded",
    "C176_saved_again_refuted"
   ],
   "note": ""
  },
  {
   "property": "C177",
   "status": "proved",
   "theorems": [
    "C177_figures",
    "C177_succeeds"
   ],
   "note": ""
  },
  {
   "property": "C178",
   "status": "proved",
   "theorems": [
    "C178_held",
    "C178_events",
    "C178_results"
   ],
   "note": ""
  },
  {
   "property": "C179",
   "status": "proved",
   "theorems": [
    "C179_range",
    "C179_best_fit_refuted"
   ],
   "note": ""
  },
  {
   "property": "C180",
   "status": "proved",
   "theorems": [
    "C180_original_space",
    "C180_truth_refuted"
   ],
   "note": ""
  },
  {
   "property": "C181",
   "status": "proved",
   "theorems": [
    "C181_names",
    "C181_clash_refuted",
    "C181_test_reconstruction",
    "C181_field",
    "C181_run",
    "C181_kept",
    "C181_overwritten",
    "C181_last_parameter"
   ],
   "note": ""
  },
  {
   "property": "C182",
   "status": "proved",
   "theorems": [
    "C182_shapes",
    "C182_dom_coords",
    "C182_documented_refuted"
   ],
   "note": ""
  },
  {
   "property": "C183",
   "status": "proved",
   "theorems": [
    "C183_inverse",
    "C183_places",
    "C183_mask",
    "C183_coordinates"
   ],
   "note": ""
  },
  {
   "property": "C184",
   "status": "proved",
   "theorems": [
    "C184_dictionary",
    "C184_distinct"
   ],
   "note": ""
  },
  {
   "property": "C185",
   "status": "proved",
   "theorems": [
    "C185_efficiencies",
    "C185_shapes",
    "C185_bad_doms"
   ],
   "note": ""
  },
  {
   "property": "C186",
   "status": "proved",
   "theorems": [
    "C186_dictionary",
    "C186_rates",
    "C186_zero",
    "C186_noise_refuted",
    "C186_expected"
   ],
   "note": ""
  },
  {
   "property": "C187",
   "status": "proved",
   "theorems": [
    "C187_outcome",
    "C187_layout",
    "C187_given_tensors",
    "C187_accepted"
   ],
   "note": ""
  },
  {
   "property": "C188",
   "status": "proved",
   "theorems": [
    "C188_compatible",
    "C188_updates",
    "C188_same_tensors",
    "C188_same_tensors_refuted"
   ],
   "note": ""
  },
  {
   "property": "C189",
   "status": "proved",
   "theorems": [
    "C189_settings",
    "C189_lookup",
    "C189_reading",
    "C189_removed",
    "C189_failed_update",
    "C189_takes_effect_refuted"
   ],
   "note": ""
  },
  {
   "property": "C190",
   "status": "proved",
   "theorems": [
    "C190_rows"
   ],
   "note": ""
  },
  {
   "property": "C191",
   "status": "proved",
   "theorems": [
    "C191_accepted",
    "C191_delivered",
    "C191_fixed_rows",
    "C191_missing",
    "C191_refused",
    "C191_missing_refuted"
   ],
   "note": ""
  },
  {
   "property": "C192",
   "status": "proved",
   "theorems": [
    "C192_between",
    "C192_recovered",
    "C192_no_growth",
    "C192_saturated",
    "C192_angle_zero",
    "C192_single"
   ],
   "note": ""
  },
  {
   "property": "C193",
   "status": "proved",
   "theorems": [
    "C193_sum",
    "C193_number_of_terms",
    "C193_copies"
   ],
   "note": ""
  },
  {
   "property": "C194",
   "status": "proved",
   "theorems": [
    "C194_shapes"
   ],
   "note": ""
  },
  {
   "property": "C195",
   "status": "proved",
   "theorems": [
    "C195_retry",
    "C195_left_behind",
    "C195_same_directory",
    "C195_recorded_only_refuted",
    "C195_modified_refuted"
   ],
   "note": ""
  },
  {
   "property": "C196",
   "status": "proved",
   "theorems": [
    "C196_saved_again"
   ],
   "note": ""
  },
  {
   "property": "C197",
   "status": "proved",
   "theorems": [
    "C197_consumed",
    "C197_repeated",
    "C197_requested_used_refuted"
   ],
   "note": ""
  }
 ]
}
