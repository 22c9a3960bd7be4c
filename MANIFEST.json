{
 "claims": [
  {
   "property": "C01",
   "status": "proved",
   "theorems": [
    "C01_append_no_loop"
   ],
   "note": ""
  },
  {
   "property": "C02",
   "status": "proved",
   "theorems": [
    "C02_looped_append_minimal_cycles"
   ],
   "note": "For a cycle that is not the list object of the test itself; that case is C97."
  },
  {
   "property": "C03",
   "status": "proved",
   "theorems": [
    "C03_degenerate_appends_rejected"
   ],
   "note": ""
  },
  {
   "property": "C04",
   "status": "proved",
   "theorems": [
    "C04_warning_exact",
    "C04_float_quotient",
    "C04_float_unbounded_refuted",
    "C02_looped_append_minimal_cycles"
   ],
   "note": "Exact iff for the exact-arithmetic quotient (C02) and for the binary64 quotient up to 2^53 us; beyond that the float test is refuted."
  },
  {
   "property": "C05",
   "status": "proved",
   "theorems": [
    "C05_terminates_iff",
    "C05_diverges",
    "C05_always_terminates_refuted"
   ],
   "note": "Termination characterised exactly; \"always terminates\" is refuted. For unlimited timedeltas; C98 has the limits."
  },
  {
   "property": "C06",
   "status": "proved",
   "theorems": [
    "C06_samples_needed_max",
    "C06_samples_needed_none",
    "C06_samples_needed_order",
    "C06_samples_needed_grows"
   ],
   "note": ""
  },
  {
   "property": "C07",
   "status": "proved",
   "theorems": [
    "C07_full_iteration",
    "C07_nested_iteration_fails"
   ],
   "note": ""
  },
  {
   "property": "C08",
   "status": "proved",
   "theorems": [
    "C08_strs_duration_td",
    "C08_strs_duration_num"
   ],
   "note": ""
  },
  {
   "property": "C09",
   "status": "proved",
   "theorems": [
    "C09_own_lists_isolated",
    "C09_frame",
    "C09_shared_list_refuted"
   ],
   "note": "Isolation for separately built lists; shared list refuted."
  },
  {
   "property": "C10",
   "status": "proved",
   "theorems": [
    "C10_float_round_trip",
    "C10_units_accepted",
    "C10_to_number",
    "C10_to_timedelta",
    "C10_round_trip"
   ],
   "note": ""
  },
  {
   "property": "C11",
   "status": "proved",
   "theorems": [
    "C11_unit_of_a_used_mechanism",
    "C11_other_mechanisms_keep_theirs"
   ],
   "note": ""
  },
  {
   "property": "C12",
   "status": "proved",
   "theorems": [
    "C12_time_beyond_limit_is_ignored",
    "C12_unit_dependence_refuted"
   ],
   "note": "Mask for every evaluation; unit dependence of whole simulations shown by a refutation witness."
  },
  {
   "property": "C13",
   "status": "proved",
   "theorems": [
    "C13_layers_follow_assignments",
    "C13_construction"
   ],
   "note": ""
  },
  {
   "property": "C14",
   "status": "proved",
   "theorems": [
    "C14_latent_samples"
   ],
   "note": ""
  },
  {
   "property": "C15",
   "status": "proved",
   "theorems": [
    "C15_env_layers_follow_assignments",
    "C15_env_samples",
    "C15_no_layers_gives_base"
   ],
   "note": ""
  },
  {
   "property": "C16",
   "status": "proved",
   "theorems": [
    "C16_conditions_complete",
    "C16_chip_values_shared",
    "C16_device_draws_fresh"
   ],
   "note": ""
  },
  {
   "property": "C17",
   "status": "proved",
   "theorems": [
    "C17_report_same_for_every_order",
    "C17_shared_generator_refuted"
   ],
   "note": "For successful runs (with several faults, which exception comes first may depend on the order). Uses functional extensionality to identify generator states. Sharing a generator is a refutation witness."
  },
  {
   "property": "C18",
   "status": "proved",
   "theorems": [
    "C18_seed_reproducible",
    "C18_seed_zero_refuted"
   ],
   "note": ""
  },
  {
   "property": "C19",
   "status": "proved",
   "theorems": [
    "C19_export_restores",
    "C19_export_recentres",
    "C19_export_side_effect_refuted"
   ],
   "note": ""
  },
  {
   "property": "C20",
   "status": "proved",
   "theorems": [
    "C20_export_mean_and_spread"
   ],
   "note": ""
  },
  {
   "property": "C21",
   "status": "proved",
   "theorems": [
    "C21_within_limits",
    "C21_binary64"
   ],
   "note": ""
  },
  {
   "property": "C22",
   "status": "proved",
   "theorems": [
    "C22_significant_figures",
    "C22_idempotent",
    "C22_monotone"
   ],
   "note": ""
  },
  {
   "property": "C23",
   "status": "proved",
   "theorems": [
    "C23_order_of_effects",
    "C23_ideal_identity"
   ],
   "note": ""
  },
  {
   "property": "C24",
   "status": "proved",
   "theorems": [
    "C24_only_inside_the_bounds",
    "C24_result_and_budget"
   ],
   "note": ""
  },
  {
   "property": "C25",
   "status": "proved",
   "theorems": [
    "C25_best_evaluated_point"
   ],
   "note": ""
  },
  {
   "property": "C26",
   "status": "proved",
   "theorems": [
    "C26_unimodal_bracket_and_accuracy",
    "C26_convergence",
    "C26_vectorised_accuracy"
   ],
   "note": "Single problem and vectorised; over the reals."
  },
  {
   "property": "C27",
   "status": "proved",
   "theorems": [
    "C27_vectorised_leaves_the_bounds_refuted",
    "C27_excursion_is_bounded",
    "C27_excursion_small_tolerance"
   ],
   "note": "Refutation witness uses mach_eps=4; the bound is general, over the reals."
  },
  {
   "property": "C28",
   "status": "proved",
   "theorems": [
    "C28_equivalent_time_inverts",
    "C28_equivalent_times_invert_array",
    "C28_first_guess_is_exact"
   ],
   "note": "Over the reals; single sample and whole arrays; accuracy conditional on the search having converged, as claimed."
  },
  {
   "property": "C29",
   "status": "proved",
   "theorems": [
    "C29_failed_value_kept",
    "C29_failures_are_permanent"
   ],
   "note": "One evaluation and every sequence of steps."
  },
  {
   "property": "C30",
   "status": "proved",
   "theorems": [
    "C30_no_prior_stress",
    "C30_equation_sees_step_duration"
   ],
   "note": ""
  },
  {
   "property": "C31",
   "status": "proved",
   "theorems": [
    "C31_no_time_argument_no_equivalent_time",
    "C31_no_time_argument_no_degradation",
    "C31_stress_impossible_without_time",
    "C31_stress_raises_type_error"
   ],
   "note": "No simulation succeeds; the TypeError is exact for a first mechanism of kind degradation and for single evaluations."
  },
  {
   "property": "C32",
   "status": "proved",
   "theorems": [
    "C32_loop_calls_per_sample",
    "C32_loop_equals_array_evaluation",
    "C32_fallback_never_changes_a_result"
   ],
   "note": ""
  },
  {
   "property": "C33",
   "status": "proved",
   "theorems": [
    "C33_sequence_of_stresses",
    "C33_splitting_does_not_matter"
   ],
   "note": "Over the reals, with the relative error of the equivalent times as a parameter; error 0 is the exact case."
  },
  {
   "property": "C34",
   "status": "proved",
   "theorems": [
    "C34_fresh_sample_is_stressed_longer",
    "C34_equivalent_time_range"
   ],
   "note": ""
  },
  {
   "property": "C35",
   "status": "proved",
   "theorems": [
    "C35_first_devices_of_every_chip"
   ],
   "note": ""
  },
  {
   "property": "C36",
   "status": "proved",
   "theorems": [
    "C36_ideal_measurement",
    "C36_own_latents_applied_twice_refuted"
   ],
   "note": "Second half (own latents applied twice) is a refutation witness."
  },
  {
   "property": "C37",
   "status": "proved",
   "theorems": [
    "C37_C38_arguments_and_lots",
    "C37_number_of_values"
   ],
   "note": ""
  },
  {
   "property": "C38",
   "status": "proved",
   "theorems": [
    "C38_argument_order",
    "C38_missing_argument",
    "C37_C38_arguments_and_lots"
   ],
   "note": ""
  },
  {
   "property": "C39",
   "status": "proved",
   "theorems": [
    "C39_counts_are_the_least_sufficient",
    "C39_enough_samples",
    "C39_chained_circuits_refuted",
    "C39_report_counts_lowered_refuted"
   ],
   "note": "Under circuits_plain as stated; refuted for chained circuit parameters; also: a report given besides counts can have its counts lowered."
  },
  {
   "property": "C40",
   "status": "proved",
   "theorems": [
    "C40_every_parameter_needs_a_count",
    "C40_key_error"
   ],
   "note": ""
  },
  {
   "property": "C41",
   "status": "proved",
   "theorems": [
    "C41_latents_and_initial_values_constant",
    "C41_same_parameters_and_mechanisms",
    "C41_generated_states_match"
   ],
   "note": ""
  },
  {
   "property": "C42",
   "status": "proved",
   "theorems": [
    "C42_state_unchanged",
    "C42_generators_unchanged",
    "C42_measurements_do_not_disturb",
    "C42_runs_do_not_disturb"
   ],
   "note": ""
  },
  {
   "property": "C43",
   "status": "proved",
   "theorems": [
    "C43_summary_by_position",
    "C43_summary_table",
    "C43_column_collision_refuted"
   ],
   "note": "A condition named like a column is a refutation witness."
  },
  {
   "property": "C44",
   "status": "proved",
   "theorems": [
    "C44_measurement_times"
   ],
   "note": ""
  },
  {
   "property": "C45",
   "status": "proved",
   "theorems": [
    "C45_labels",
    "C45_order",
    "C45_conditions",
    "C45_scalars_rejected",
    "C45_high_rank_rejected"
   ],
   "note": ""
  },
  {
   "property": "C46",
   "status": "proved",
   "theorems": [
    "C46_exact_rows",
    "C46_rows_of_measurements",
    "C46_rows_from_state"
   ],
   "note": ""
  },
  {
   "property": "C47",
   "status": "proved",
   "theorems": [
    "C47_missing_param_error_unreachable",
    "C47_key_error",
    "C47_success_means_known"
   ],
   "note": ""
  },
  {
   "property": "C48",
   "status": "proved",
   "theorems": [
    "C48_generated",
    "C48_preserved",
    "C48_simulation",
    "C48_defaults"
   ],
   "note": ""
  },
  {
   "property": "C49",
   "status": "proved",
   "theorems": [
    "C49_elapsed_time",
    "C49_initial_time",
    "C49_numeric_time_fails",
    "C49_numeric_time_raises_type_error"
   ],
   "note": ""
  },
  {
   "property": "C50",
   "status": "proved",
   "theorems": [
    "C50_times_restored",
    "C50_days_within_4us",
    "C50_days_exact_refuted",
    "C50_beyond_317_years_refuted",
    "C50_simulated_reports"
   ],
   "note": ""
  },
  {
   "property": "C51",
   "status": "proved",
   "theorems": [
    "C51_values"
   ],
   "note": ""
  },
  {
   "property": "C52",
   "status": "proved",
   "theorems": [
    "C52_twice_restores",
    "C52_export_after_conversion",
    "C52_only_zero_survives",
    "C52_unknown_unit",
    "C52_no_measurements"
   ],
   "note": ""
  },
  {
   "property": "C53",
   "status": "proved",
   "theorems": [
    "C53_total_stress",
    "C53_single_stress",
    "C53_periodic_stress"
   ],
   "note": ""
  },
  {
   "property": "C54",
   "status": "proved",
   "theorems": [
    "C54_nondivisor",
    "C54_zero_interval",
    "C54_zero_duration",
    "C54_negative_interval_hangs",
    "C54_returns_iff"
   ],
   "note": ""
  },
  {
   "property": "C55",
   "status": "proved",
   "theorems": [
    "C55_latest_installed",
    "C55_at_most_one",
    "C55_supplied_installed",
    "C55_subclasses_accumulate",
    "C55_no_duplicates",
    "C55_level",
    "C55_default_replaced_refuted",
    "C55_file_as_stream_refuted"
   ],
   "note": ""
  },
  {
   "property": "C56",
   "status": "proved",
   "theorems": [
    "C56_parameter_translation",
    "C56_deterministic"
   ],
   "note": ""
  },
  {
   "property": "C57",
   "status": "proved",
   "theorems": [
    "C57_degradation_of_one_sample",
    "C57_stress_with_zero_equivalent_time",
    "C57_stress_with_exact_equivalent_time"
   ],
   "note": "For degradation mechanisms the equal equivalent times are a hypothesis, as in the statement; the vectorised search itself couples samples through np.all."
  },
  {
   "property": "C58",
   "status": "proved",
   "theorems": [
    "C58_instrument_lookup",
    "C58_variation_lookup",
    "C58_meas_breaks_everything",
    "C58_shared_object_refuted"
   ],
   "note": ""
  },
  {
   "property": "C59",
   "status": "proved",
   "theorems": [
    "C59_counts_not_augmented",
    "C59_unmeasured_fails",
    "C59_key_error",
    "C59_same_test_succeeds_without"
   ],
   "note": ""
  },
  {
   "property": "C60",
   "status": "proved",
   "theorems": [
    "C60_two_parts"
   ],
   "note": ""
  },
  {
   "property": "C61",
   "status": "proved",
   "theorems": [
    "C61_failed_export_side_effect_refuted"
   ],
   "note": ""
  },
  {
   "property": "C62",
   "status": "proved",
   "theorems": [
    "C62_export_names",
    "C62_late_layer_unnamed_refuted"
   ],
   "note": ""
  },
  {
   "property": "C63",
   "status": "proved",
   "theorems": [
    "C63_second_export_same",
    "C63_every_number_refuted"
   ],
   "note": ""
  },
  {
   "property": "C64",
   "status": "proved",
   "theorems": [
    "C64_conditions_as_requested",
    "C64_exact_measurements",
    "C64_measures_all_parameters_refuted"
   ],
   "note": "Generic number type; -0.0 excluded by the stated proviso. The 'meas' exception is a refutation witness."
  },
  {
   "property": "C65",
   "status": "proved",
   "theorems": [
    "C65_variation",
    "C65_temperature_readings",
    "C65_voltage_readings",
    "C65_stated_resolution_refuted"
   ],
   "note": "Readings over the reals; the comments about resolution are refutation witnesses over Q."
  },
  {
   "property": "C66",
   "status": "proved",
   "theorems": [
    "C66_law",
    "C66_acceleration",
    "C66_equivalent_time",
    "C66_latent_values"
   ],
   "note": "Over the reals. Positive voltages, temperatures, prefactors and exponents are assumed, as stated; the accuracy of the equivalent time is conditional on convergence, as in C28."
  },
  {
   "property": "C67",
   "status": "proved",
   "theorems": [
    "C67_degraded_value_is_the_sum",
    "C67_own_latents_unused",
    "C67_latent_called_mechs_is_added",
    "C67_mechanism_called_init_refuted",
    "C67_mechanism_called_cond_refuted",
    "C67_cond_latents_lost_refuted"
   ],
   "note": "Exceptions for reserved names are refutation witnesses."
  },
  {
   "property": "C68",
   "status": "proved",
   "theorems": [
    "C68_construction",
    "C68_samples_variables_as_given",
    "C68_shared_variable_refuted",
    "C68_export_names_distinct_refuted"
   ],
   "note": "Non-empty keywords. Sharing and name clashes are refutation witnesses."
  },
  {
   "property": "C69",
   "status": "proved",
   "theorems": [
    "C69_successful_export",
    "C69_export_succeeds",
    "C69_variables_after_export",
    "C69_default_observations_fail",
    "C69_pyro_fails",
    "C69_failed_export_refuted"
   ],
   "note": "Framework objects are symbolic: the model records the arguments handed to the equation and to the output distribution. That a sampled tensor has no to_event is part of the model."
  },
  {
   "property": "C70",
   "status": "proved",
   "theorems": [
    "C70_runs_to_the_end",
    "C70_environments",
    "C70_latent_variables",
    "C70_equations"
   ],
   "note": "Sufficient conditions, for simulations without init_state. The conditions on equations are semantic; formulas and the default equations are shown to meet them. Overflow and NaN are outside the number interface (has_digits)."
  },
  {
   "property": "C71",
   "status": "proved",
   "theorems": [
    "C71_value_of_the_equation",
    "C71_after_every_step",
    "C71_sum_of_the_parts",
    "C71_unstressed"
   ],
   "note": "For any equation of the parameter in terms of its evaluation; element by element for the default equation. Mechanisms called init or cond are excluded (see C67)."
  },
  {
   "property": "C72",
   "status": "proved",
   "theorems": [
    "C72_rows_of_a_measurement",
    "C72_rows_from_any_state",
    "C72_each_device",
    "C72_each_device_default",
    "C72_exact_readings"
   ],
   "note": "Device by device for formulas and the default equation; for other equations in terms of their evaluation. Circuit parameters in terms of their evaluation. Mechanisms called init or cond are excluded (see C67)."
  },
  {
   "property": "C73",
   "status": "proved",
   "theorems": [
    "C73_a_parameter_finds_its_parts",
    "C73_only_names_change",
    "C73_failures",
    "C73_a_circuit_parameter_finds_its_parts",
    "C73_a_device_finds_its_parameters",
    "C73_time_units",
    "C73_clashing_names_refuted"
   ],
   "note": "Any heap of objects. The clash of attribute names is characterised exactly and shown by a witness."
  },
  {
   "property": "C74",
   "status": "proved",
   "theorems": [
    "C74_basic_use",
    "C74_literals_binary64"
   ],
   "note": "Plotting, printing and files are not modelled. numpy accepting the parameters of the distributions is a hypothesis; the literal equations are proved for binary64."
  },
  {
   "property": "C75",
   "status": "proved",
   "theorems": [
    "C75_riverbed_erosion"
   ],
   "note": "As C74; absence of NaN is a hypothesis (has_digits)."
  },
  {
   "property": "C76",
   "status": "proved",
   "theorems": [
    "C76_presilicon_variability"
   ],
   "note": "As C74."
  },
  {
   "property": "C77",
   "status": "proved",
   "theorems": [
    "C77_tddb_model_sensitivity",
    "C77_other_numbers_of_samples",
    "C77_one_sample_refuted"
   ],
   "note": "As C74. Uniform() makes a new generator for each call; its draws are modelled as one arbitrary sequence. The failure for one sample is a refutation witness over Q."
  },
  {
   "property": "C78",
   "status": "proved",
   "theorems": [
    "C78_every_stress",
    "C78_history",
    "C78_total_stress_time",
    "C78_at_least_the_last_stress"
   ],
   "note": "The accuracy of the searches is a hypothesis of the bound on the total time (cf. C28 and C63); the bound on the last stress needs none. Equations that return shaped arrays (regular devices, cf. C48)."
  },
  {
   "property": "C79",
   "status": "proved",
   "theorems": [
    "C79_ageing_independent_of_measurements",
    "C79_measuring_again",
    "C79_shared_variation_refuted"
   ],
   "note": "The _refuted theorem exhibits the disturbance through a shared generator."
  },
  {
   "property": "C80",
   "status": "proved",
   "theorems": [
    "C80_further_parameter",
    "C80_shared_variation_refuted"
   ],
   "note": "The _refuted theorem exhibits the change through a shared generator. The generators a model uses are computed from its random variables; equations are confined by hypothesis (deterministic ones always are)."
  },
  {
   "property": "C81",
   "status": "proved",
   "theorems": [
    "C81_counts_agree",
    "C81_larger_request_elsewhere",
    "C81_value_error"
   ],
   "note": "Necessary condition for equations that are formulas; C70 states the sufficient one. Regular devices (cf. C48)."
  },
  {
   "property": "C82",
   "status": "proved",
   "theorems": [
    "C82_readings_at_constant_stress",
    "C82_bounds"
   ],
   "note": "Combines C71, C72 and C78. The accuracy of the searches is a hypothesis (cf. C28 and C63). Additive parameters without conditional shift; regular devices (cf. C48)."
  },
  {
   "property": "C83",
   "status": "proved",
   "theorems": [
    "C83_readings_never_recover",
    "C83_in_any_environment",
    "C83_small_errors_suffice",
    "C83_first_stress_needs_no_accuracy"
   ],
   "note": "The quality of the searches is a hypothesis (goes_on), with two sufficient conditions proved. Additive parameters without conditional shift; regular devices (cf. C48)."
  },
  {
   "property": "C84",
   "status": "proved",
   "theorems": [
    "C84_search_follows_brent",
    "C84_each_element_follows_brent",
    "C84_parabola",
    "C84_points_keep_apart"
   ],
   "note": "Over the reals. Ties between equal values: any of the tied points may be the second or third best. For several elements at once nothing is said about an element after its own bracket is short (cf. C27)."
  },
  {
   "property": "C85",
   "status": "proved",
   "theorems": [
    "C85_readings",
    "C85_reading_again",
    "C85_monotone",
    "C85_exact_logarithm",
    "C85_nearest_figure_refuted"
   ],
   "note": "IEEE operations of Flocq; np.round is multiply, rint, divide (or divide, rint, multiply) with correctly rounded powers of ten. Sizes between the two ranges are not covered: there the power of ten itself is rounded."
  },
  {
   "property": "C86",
   "status": "proved",
   "theorems": [
    "C86_part_of_a_device",
    "C86_order_of_parameters",
    "C86_shared_variation_refuted"
   ],
   "note": "Follows from C80 by leaving out one parameter after the other. The order theorem is about two simulations that both end; circuit parameters are excluded there. The order in which one measurement lists its names is kept."
  },
  {
   "property": "C87",
   "status": "proved",
   "theorems": [
    "C87_library_loads",
    "C87_installed",
    "C87_missing_package",
    "C87_missing_package_model",
    "C87_repeated_attempts",
    "C87_harmless_failure_refuted"
   ],
   "note": "The framework objects are modelled as in C19, C20, C62 and C69. Includes a refutation of the claim that a failed export has no effect."
  },
  {
   "property": "C88",
   "status": "proved",
   "theorems": [
    "C88_converged_searches_are_accurate",
    "C88_readings",
    "C88_nbti_in_htol"
   ],
   "note": "Convergence of the searches is a hypothesis on the run: whether 50 iterations suffice depends on the law (an example proves it for a logarithmic law). Ideal environment, additive parameters, regular devices as in C82."
  },
  {
   "property": "C89",
   "status": "proved",
   "theorems": [
    "C89_one_problem",
    "C89_one_problem_moderate",
    "C89_arrays",
    "C89_never_a_number",
    "C89_equivalent_times",
    "C89_degradation_not_a_number",
    "C89_tight_tolerance_refuted"
   ],
   "note": "IEEE operations of Flocq. log10 and 10**x are arbitrary functions, accurate at the stated points where (5) needs it; the correctly rounded ones are shown to be. A function that returns an array of another length is not modelled. Includes the refutation (6)."
  },
  {
   "property": "C90",
   "status": "proved",
   "theorems": [
    "C90_exceptions_pass_through",
    "C90_where_exceptions_come_from",
    "C90_sample_is_no_number",
    "C90_result_does_not_fit",
    "C90_value_error_refuted",
    "C90_all_these_occur"
   ],
   "note": "Behaviour left out of the model (Unmodelled) is a further outcome in (3). Includes the refutation for ValueError."
  },
  {
   "property": "C91",
   "status": "proved",
   "theorems": [
    "C91_exposure_decides",
    "C91_searches",
    "C91_readings",
    "C91_equal_exposure",
    "C91_order",
    "C91_nbti"
   ],
   "note": "Convergence of the searches is a hypothesis on the run in (2)-(4), as in C88; the example proves it for three searches. Ideal environment, additive parameters and regular devices in (3) and (4) as in C82."
  },
  {
   "property": "C92",
   "status": "proved",
   "theorems": [
    "C92_readings_of_a_device",
    "C92_no_other_rows",
    "C92_one_row_per_step"
   ],
   "note": "Regular equations (C48): those that return an array when given one. Circuit parameters and sensor rows are not numbered by this property (C46, C37 and C81 concern them)."
  },
  {
   "property": "C93",
   "status": "proved",
   "theorems": [
    "C93_basic_status",
    "C93_river_status",
    "C93_silicon_status",
    "C93_field_status",
    "C93_basic_given_file",
    "C93_river_given_file",
    "C93_basic_own_file",
    "C93_river_own_file",
    "C93_silicon_given_directory",
    "C93_field_given_directory",
    "C93_silicon_own_directory",
    "C93_field_own_directory"
   ],
   "note": "Rational numbers as in C74-C77; transcendental functions arbitrary. Parsing of the command line, printing, and failures to write are not modelled; a file that does not hold a saved report is one outcome (FileNotFound or a failure to read)."
  },
  {
   "property": "C94",
   "status": "proved",
   "theorems": [
    "C94_basic_drawing",
    "C94_basic_redrawing",
    "C94_river_drawing",
    "C94_river_averages",
    "C94_river_redrawing",
    "C94_silicon_drawing"
   ],
   "note": "The data handed to the plotting library; colours, labels and the library itself are not modelled. Rational numbers as in C74-C77."
  },
  {
   "property": "C95",
   "status": "proved",
   "theorems": [
    "C95_failures_last",
    "C95_oxides_break_once",
    "C95_field_drawing"
   ],
   "note": "(1) for measurements without an instrument for the parameter and regular devices as in C48. (2) and (3) over rational numbers as in C74-C77."
  },
  {
   "property": "C96",
   "status": "proved",
   "theorems": [
    "C96_read_by_the_instrument",
    "C96_within_limits",
    "C96_figures",
    "C96_saved_exactly"
   ],
   "note": "(4) over rational numbers, times as in C50; an example shows the digit that is lost below 10^(p-11)."
  },
  {
   "property": "C97",
   "status": "proved",
   "theorems": [
    "C97_tests_have_steps",
    "C97_another_list",
    "C97_own_list_doubles",
    "C97_own_list_loop",
    "C97_own_list_forever",
    "C97_loop_reaches_duration_refuted",
    "C97_cycles_share_their_steps"
   ],
   "note": "Durations assigned after construction are not checked, as in the code. The time quotient is exact here, as in C02."
  },
  {
   "property": "C98",
   "status": "proved",
   "theorems": [
    "C98_stress_duration",
    "C98_stress_unit",
    "C98_append_in_range",
    "C98_short_loops",
    "C98_append_overflows",
    "C98_backward_overflows",
    "C98_append_forever",
    "C98_append_duration",
    "C98_simulate_in_range",
    "C98_simulate_overflows",
    "C98_simulate_cases",
    "C98_simulate_ok"
   ],
   "note": "M_Range.v repeats the functions that make timedeltas with the check. pandas Timedeltas, which are narrower, are not modelled; nor are infinite or NaN durations."
  },
  {
   "property": "C99",
   "status": "proved",
   "theorems": [
    "C99_the_call",
    "C99_counts_grow_to_what_is_wanted",
    "C99_success_means_counted",
    "C99_failure_is_repeatable_refuted",
    "C99_reuse_is_harmless_refuted"
   ],
   "note": "About the dictionary of counts; for the counts of a report see C39. The two refuted statements are expectations a user may have, kept as theorems."
  },
  {
   "property": "C100",
   "status": "proved",
   "theorems": [
    "C100_steps",
    "C100_simulation",
    "C100_ways_of_writing",
    "C100_sum_in_place_refuted",
    "C100_times_in_place_refuted",
    "C100_latents_in_place_refuted",
    "C100_condition_named_time_refuted",
    "C100_other_shape_refuted"
   ],
   "note": "Numbers and dictionaries stay values in M_InPlace.v: equations that change a dictionary they are given are not modelled. The refuted statements are the same claim without one of the conditions. The witness for a returned array of another shape is about one evaluation of the search, not a whole test."
  },
  {
   "property": "C101",
   "status": "proved",
   "theorems": [
    "C101_latent_offset",
    "C101_latent_scaling",
    "C101_condition_offset",
    "C101_condition_scaling",
    "C101_readings",
    "C101_independent_are_uncorrelated",
    "C101_same_seed_refuted"
   ],
   "note": "Over the real numbers. That the draws of numpy have the moments asked for and are uncorrelated or independent is the hypothesis, not a theorem. Rounding and limits of instruments are excluded, since they change moments."
  },
  {
   "property": "C102",
   "status": "proved",
   "theorems": [
    "C102_states",
    "C102_first_readings"
   ],
   "note": "Over the real numbers, conditions on the draws as in C101. The moments are given in terms of the layers that a latent variable holds; that these are the ones the user assigned is C13 and C101. Later readings depend on the equations of the mechanisms and are not covered."
  },
  {
   "property": "C103",
   "status": "proved",
   "theorems": [
    "C103_saved_exactly_when",
    "C103_saved",
    "C103_refused",
    "C103_changes",
    "C103_exceptions_keep_files",
    "C103_several",
    "C103_scripts",
    "C103_nothing_left_behind_refuted"
   ],
   "note": "M_File.v: POSIX paths without symbolic links, permissions, full disks or other programs. Reports with exact rational numbers as in C50."
  },
  {
   "property": "C104",
   "status": "proved",
   "theorems": [
    "C104_no_chance",
    "C104_moments"
   ],
   "note": "The size of the shift is the subject of C82, C88 and C91."
  }
 ]
}