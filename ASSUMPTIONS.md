# `Print Assumptions` of every property theorem

Generated by `tools/assumptions.py`.  All axioms are those of the
Coq standard library.

## Closed under the global context

* T_Batch.v: C15_split, C15_batch_event_batch, C15_event_batch_event, C15_wrong_index_fails, C16_filter, C16_wrong_mask_fails, C16_missing_event_tensor_fails, C16_half_missing_vector_fails, C61_filtered_without_rows_breaks_split, C17_batches, C17_rows_by_event, C17_every_event_repeated, C17_unshuffled_order, C62_missing_in_one_file, C15_no_rows_refuted
* T_Build.v: C138_handler, C138_loss, C138_sum, C138_manager, C138_restore, C138_held, C137_model, C137_not_rebuilt, C134_together, C136_config, C134_result, C134_no_directory, C135_single, C135_several, C135_refuted
* T_Cascade.v: C104_names
* T_Checkpoint.v: C25_records, C25_files, C25_latest, C25_next_save, C25_newest, C26_before_index, C26_after_index, C26_loads, C26_latest_safe, C26_latest_lost, C26_records_lost, C27_zero_removes_nothing, C27_negative, C27_zero_keeps_none_refuted, C65_consistent, C65_stuck, C65_failing_component, C65_settings_recorded, C65_update_steps, C65_steps_without_training
* T_Component.v: C03_configured_is_final, C03_configured_iff_returned, C03_configured_at_most_once, C03_save_needs_configured, C05_arguments_recorded, C05_component_recorded, C05_list_names_distinct, C05_empty_containers_recorded_refuted, C05_shadowed_component_refuted, C06_save_load_identity, C06_save_succeeds, C06_configured_is_consistent, C07_existing_files_kept, C07_existing_files_kept_at_end, C07_refused, C07_only_below_target, C07_all_or_nothing_refuted, C08_replacements, C08_unknown_name_refused, C08_incompatible_refused, C08_base_class_refuses, C08_records_agree, C08_handler_follows_modules, C08_manager_models_compatible, C09_crash_fresh, C09_crash_overwrite_refuted, C10_extension_dropped, C10_dot_free_kept, C10_same_target, C10_same_source, C10_targets_collide, C10_siblings_collide, C10_overwrite_siblings_refuted, C11_version_mismatch_raises, C11_version_mismatch_attribute_error, C11_nested_mismatch_raises, C12_load_consumes, C12_ensemble_only_first, C12_ensemble_replaced_refuted
* T_Config.v: C01_constructed_configurations_are_wf, C01_compatible_iff, C01_compatible_refl, C01_compatible_ignores, C01_declaring_mutable_sub_components, C01_declaring_dependent_sub_components, C02_symmetric, C02_transitive, C02_symmetric_refuted, C02_transitive_refuted, C04_effective_configuration, C04_update_succeeds_iff, C04_failing_update, C04_failing_update_keeps_overlay_refuted
* T_Dataset.v: C190_rows, C191_accepted, C191_delivered, C191_fixed_rows, C191_missing, C191_refused, C191_missing_refuted
* T_Detector.v: C182_shapes, C182_dom_coords, C182_documented_refuted, C183_inverse, C183_places, C183_mask, C183_coordinates, C184_dictionary, C184_distinct, C185_efficiencies, C185_shapes, C185_bad_doms, C186_dictionary, C186_rates, C186_zero, C186_noise_refuted
* T_Frame.v: C119_configured, C119_configurable
* T_Handler.v: C154_combined, C155_skip, C155_refused, C155_delivered, C155_module_error, C155_method, C156_checked, C156_wrong_shape, C156_passed_on, C157_frame, C157_signature, C157_tensor, C157_skipped_refuted, C158_write, C158_round_trip, C159_configured, C159_patterns, C159_config_data_refuted, C159_retry
* T_Labels.v: C125_flags, C125_given, C125_accepted, C125_rejected, C125_config_data, C125_flags_refuted
* T_Loss.v: C38_exclusive
* T_Multi.v: C160_index, C160_name, C160_round_trip, C160_columns, C160_unconfigured, C161_unique, C161_by_name, C162_configured, C162_refused, C163_shared, C163_reload, C163_evaluate, C163_used_refused, C164_accepted, C164_raises, C164_other_parts, C161_ambiguous_refuted, C163_own_transformer_refuted, C163_loadable_refuted, C163_base_lost_refuted, C164_constant_refuted
* T_Pipeline.v: C18_no_invention, C18_multiplicity, C18_batches, C19_one_worker_complete, C19_more_workers_lose, C20_no_files_hang, C20_incomplete_group_hangs, C20_dead_batching_process, C20_starved, C63_every_input_can_hang, C21_at_most_leftover, C21_safe, C21_leftover_missed_refuted
* T_Pulse.v: C36_injective, C36_onto, C36_value
* T_PulseConfig.v: C187_outcome, C187_layout, C187_given_tensors, C187_accepted, C188_compatible, C188_updates, C188_same_tensors, C188_same_tensors_refuted, C189_settings
* T_Reco.v: C48_no_names, C49_all_parameters, C49_original_space
* T_Retry.v: C195_retry, C195_left_behind, C195_same_directory, C196_saved_again, C197_consumed, C197_repeated, C195_recorded_only_refuted, C197_requested_used_refuted, C195_modified_refuted
* T_Scan.v: C181_names, C181_clash_refuted, C181_test_reconstruction
* T_Scripts.v: C165_restored, C165_scratch, C165_declined, C165_confirmed, C165_unprepared, C165_no_files, C166_confined, C166_recorded, C167_saved, C167_continues, C167_extension, C168_declined, C168_asks, C168_exported, C168_extension, C168_lost, C168_inputs, C168_models, C168_no_files, C169_declined, C169_written, C170_reads_only, C170_loaded, C170_checked, C166_kept_refuted, C167_moved_refuted, C167_found_refuted, C170_scratch_refuted
* T_Seed.v: C54_particle
* T_Segment.v: C132_names
* T_Setup.v: C37_success, C37_errors, C37_values, C37_user, C37_automatic, C37_precision, C37_copy, C37_copy_exists, C72_pass, C72_resolved, C72_forward_refuted, C73_name, C73_distinct_refuted, C73_any_name
* T_Simulation.v: C112_configure
* T_Source.v: C31_partition, C31_names
* T_Tensor.v: C13_fails_iff_duplicate, C13_sorted_permutation, C13_order_independent, C13_lookups_inverse, C13_copy_identity, C14_round_trip, C14_round_trip_identity, C14_clash_changes, C14_defaults, C14_required_arguments, C14_log_flag_expanded
* T_TestReco.v: C116_flags
* T_Train.v: C28_saves, C28_success, C28_no_iteration, C28_exhausted, C28_recorded, C66_data, C66_evaluation, C29_interval, C29_three, C29_own_variables, C29_late, C29_single, C29_four_refuted, C56_complete, C56_shifted, C56_not_removed, C56_no_function, C56_success, C57_order, C57_too_many, C57_empty
* T_Tray.v: C47_refused, C47_failed_keeps, C47_added, C47_unique, C47_default, C47_execute, C47_keys, C47_error, C47_default_refuted, C50_lookup, C50_nothing, C50_twice, C50_add, C50_fetch, C50_wrong_name
* T_Weights.v: C171_each, C171_number, C171_latest, C171_next, C172_stopped, C172_raised, C172_crash_points, C172_mixed, C172_apart, C172_numbers, C172_newest, C173_parts, C173_counters, C173_half_loaded, C174_counted, C174_counted_multi, C174_lost, C174_resumed, C175_steps, C175_no_steps, C175_inside, C175_inside_raises, C175_extension, C175_extension_steps, C175_extension_old, C176_configured, C176_loaded, C172_one_save_refuted, C173_atomic_refuted, C174_step_refuted, C175_saved_loaded_refuted, C176_saved_again_refuted

## classic, functional_extensionality_dep, sig_forall_dec, sig_not_dec

* T_Angles.v: C58_direction, C58_angles, C58_length, C58_length_refuted, C58_negative, C95_angle, C95_invariant, C95_deviation, C95_zero, C96_scan, C96_events
* T_Basis.v: C59_density, C59_symmetric, C87_derivative, C87_integral, C59_increasing, C59_range, C59_limits, C59_quantile, C59_quantile_back, C88_distribution, C88_normalisation, C88_zero_mean, C89_moments, C89_mean_refuted, C89_small, C89_poisson, C90_derivative, C90_integral, C90_distribution, C90_negative
* T_Cascade.v: C104_accepted, C104_rejected, C104_translation, C104_direction, C105_layout, C105_rejected, C105_modes, C106_mixture, C106_density, C106_pulses, C107_charge, C107_share, C107_double_refuted, C108_mass, C108_other_doms, C109_sorted, C109_ordered, C110_charge, C110_positive, C110_poisson, C110_negative_binomial, C110_asymmetric, C111_units, C111_proportional_refuted, C108_conditional_refuted, C109_density_refuted, C110_negative_refuted, C110_exceeds_refuted, C110_uncertainty_refuted, C110_overdispersed
* T_Circular.v: C192_between, C192_recovered, C192_no_growth, C192_saturated, C192_single
* T_Ensemble.v: C193_copies
* T_Gof.v: C92_time, C53_charge_terms, C93_held, C94_poisson, C94_asymmetric_gauss, C99_hypotheses, C99_compared, C99_no_samples, C94_negative_binomial
* T_Labels.v: C122_rows, C122_loaded, C122_frame, C126_total, C126_frame_total, C126_one_event, C126_errors, C124_grouped, C124_counts, C124_no_events, C127_together, C125_columns, C128_named, C123_shift, C128_segment, C124_order_refuted, C125_unchecked_refuted
* T_Likelihood.v: C97_faculty, C97_extended, C97_pulse_time, C97_pulse_and_charge, C97_quantile, C97_dom_and_event, C97_negative_binomial, C97_negative_binomial_event, C97_normalized_dom, C97_per_term, C97_poisson
* T_Loss.v: C38_sorted_sum, C38_unsorted_sum, C38_errors, C38_pulse_local, C38_extended_norm, C38_extended_norm_refuted, C38_charge_norm, C39_excluded_ignored, C39_excluded_zero, C39_leaks, C39_normalized_refuted, C39_charge_norm_refuted, C41_fourier_raises, C42_outside, C42_increasing, C42_total, C42_unknown, C74_sorted_raises, C75_events, C76_scale
* T_Mcmc.v: C139_target, C140_start, C140_first_value, C141_accepted, C141_log_prob, C142_steps, C142_adaptation, C143_needed, C143_enough, C143_seed, C140_refuted, C142_refuted
* T_Noise.v: C100_accepted, C100_charge, C100_variance, C101_density, C101_mass, C101_no_exclusions, C102_checks, C101_excluded_refuted, C102_overlap_refuted, C102_double_refuted, C103_onto, C103_dispersion
* T_Opt.v: C43_values, C43_never_worse, C43_reported, C43_stopped_at_once, C43_more_iterations, C43_returns, C43_reported_refuted, C43_initial_refuted, C46_stops_at_once, C46_refuted, C77_mixed_thresholds, C78_call_limit, C78_calls, C79_flags, C79_converged
* T_Quantile.v: C149_accepted, C149_layout, C149_rows, C149_efficiency, C150_default, C150_charge, C150_positive, C151_density, C151_mixture, C151_pulses, C152_components, C152_causality_refuted, C153_translation, C153_direction, C153_charges
* T_Reco.v: C86_covariances, C49_transformed_space, C51_held, C51_fitted, C51_point, C51_start, C51_none_fitted, C81_descends, C82_bounds, C82_dropped, C82_held, C83_held, C83_all_fitted, C84_seven, C84_never_worse, C85_original_space, C85_held, C85_box, C81_all_models, C84_start
* T_Scan.v: C177_figures, C177_succeeds, C178_held, C178_events, C178_results, C179_range, C179_best_fit_refuted, C180_original_space, C180_truth_refuted, C181_field, C181_run, C181_kept, C181_overwritten, C181_last_parameter
* T_Segment.v: C129_on_track, C129_order, C129_error, C129_symmetric, C129_negative, C129_fixed_refuted, C130_range, C130_additive, C130_linear, C130_value, C130_whole, C130_negative, C130_twice_refuted, C131_input, C131_translation, C131_zero_length, C131_zero_position, C132_accepted, C132_training, C132_charge_assertion, C132_negative_length_refuted, C132_asserted, C132_training_rejected, C132_rejected, C132_layout_rejected, C132_logarithm, C132_logarithm_needed, C133_density, C133_layout, C133_pulses, C133_charge, C133_positive, C133_translation, C133_direction
* T_Simplex.v: C98_history, C79_no_improvement, C79_spread
* T_Simulation.v: C112_daq_fails, C114_pulses, C114_totals, C114_distribution, C115_no_rows, C115_poisson, C115_asymmetric, C115_negative_binomial, C115_evaluated
* T_Source.v: C33_shift, C33_shift_energy, C33_shift_positive, C33_shift_zero
* T_Sphere.v: C45_from_coordinates, C45_round_trip, C45_reflection, C45_involution, C45_distance, C45_equidistant, C45_midpoint
* T_Systematic.v: C144_accepted, C144_no_systematics, C144_twice, C144_layout, C144_extra_columns, C145_efficiency, C146_density, C146_components, C146_pulses, C146_exclusions_refuted, C147_translation, C147_direction, C147_position, C147_inputs, C148_charge, C148_positive, C148_poisson, C148_negative_binomial, C148_asymmetric
* T_Trafo.v: C22_statistics, C22_no_reduction, C22_batching_irrelevant, C23_inverse_of_transform, C23_transform_of_inverse, C23_same_success, C24_divisor_positive, C24_covariance, C24_covariance_reduced, C64_configured

## functional_extensionality_dep, sig_forall_dec

* T_Angles.v: C96_bisection, C96_range
* T_Basis.v: C89_accepted
* T_Ensemble.v: C193_sum, C193_number_of_terms, C194_shapes
* T_Frame.v: C119_collision_refuted, C120_collision_refuted
* T_Gof.v: C52_p_values, C52_order, C52_monotone, C52_ties, C52_two_sided_refuted, C52_no_samples, C92_component
* T_Loss.v: C40_scalar_sum, C40_sorted_sum, C40_order, C40_order_sorted
* T_Pulse.v: C34_charge, C34_total, C34_window, C35_rows, C35_length, C34_quantile, C34_monotone, C35_all_written, C35_refuted, C68_readers, C69_hdf, C69_frame, C69_doms, C70_frame, C70_discard, C70_hdf, C71_mask, C71_discard, C34_string_zero_refuted, C34_wrapped, C34_accepted, C35_windows, C68_frame_windows, C69_skipped
* T_PulseConfig.v: C189_lookup, C189_reading, C189_removed, C189_failed_update, C189_takes_effect_refuted
* T_Reco.v: C48_last, C48_succeeds, C48_best_refuted, C86_outer_product, C86_sandwich
* T_Seed.v: C55_unknown, C55_hdf, C55_short, C55_frame_ignores, C55_frame_named, C55_refuted, C55_index, C55_negative, C55_frame_kinds
* T_Source.v: C30_sum, C30_density, C30_exclusion, C30_order, C30_single, C30_no_sources, C67_own, C67_late, C67_one_base, C67_refuted, C30_missing_base, C67_success
* T_Sphere.v: C44_sound, C44_maximal, C44_no_worse
* T_TestReco.v: C116_modules
* T_Train.v: C60_signs, C60_value, C60_no_variables, C60_proportional_refuted

## functional_extensionality_dep, sig_forall_dec, sig_not_dec

* T_Angles.v: C58_shape, C58_parallel, C58_geodesic, C96_covariance, C96_sign, C96_covariance_value
* T_Circular.v: C192_angle_zero
* T_Detector.v: C186_expected
* T_Gof.v: C91_pulses, C91_quantiles, C91_empty, C53_consistent, C94_asymmetric_gauss_accepted, C94_negative_binomial_accepted
* T_Loss.v: C42_inside, C42_symmetric, C42_continuous
* T_Noise.v: C100_no_exclusions, C101_single, C102_reversed, C102_no_time, C103_range, C103_start, C103_nominal_refuted, C101_constant
* T_Opt.v: C46_truncated, C80_round_trip
* T_Simulation.v: C113_sources, C113_errors, C113_dropped_refuted, C114_success, C114_frame
* T_Source.v: C32_appended, C32_unusable, C32_usable, C33_speed, C33_track, C33_muon, C32_sources
* T_Sphere.v: C45_from_angles
* T_TestReco.v: C116_flags_error, C116_duplicates, C116_random, C116_no_seeds, C117_events, C117_columns, C118_one_per_batch, C118_uncertainties, C118_p_values, C118_circular, C118_failures, C118_mcmc, C117_collision_refuted, C118_misaligned_refuted, C118_samples
* T_Trafo.v: C64_reduced_deviation, C64_pooled_deviation_refuted

## sig_forall_dec

* T_Frame.v: C119_objects, C119_no_overwriting, C119_result, C120_matrices, C120_samples, C121_particle, C121_direction, C121_unknown_parameter, C121_doms, C121_one_event, C121_no_success
* T_Loss.v: C40_unsorted_concat, C40_empty, C40_error
* T_Reco.v: C51_merge
* T_Seed.v: C54_several, C54_none, C54_single, C54_skipped, C54_frame, C54_first_refuted, C54_frame_skipped
* T_Simulation.v: C112_rows, C112_uninitialised_refuted
* T_Source.v: C31_refuted
