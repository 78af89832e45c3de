{
 "claims": [
  {
   "property": "C01",
   "status": "proved",
   "theorems": [
    "C01_settings_always_sound",
    "C01_iteration_sorted",
    "C01_find_all",
    "C01_nan_probability_refuted",
    "C01_one_is_stored_as_false_refuted"
   ],
   "note": "Invariant over all programs; nan in ci_prob and 1 stored as False are exhibited as findings. Counterexamples to the wider claim, named in the statement or in DESIGN.md section 5: C01_nan_probability_refuted, C01_one_is_stored_as_false_refuted."
  },
  {
   "property": "C02",
   "status": "proved",
   "theorems": [
    "C02_rejected_assignment_changes_nothing",
    "C02_unknown_key",
    "C02_accepted_assignment",
    "C02_valid_values_are_stored_unchanged",
    "C02_show_plot",
    "C02_ci_prob",
    "C02_ci_kind",
    "C02_no_deletion",
    "C02_interrupted_update"
   ],
   "note": ""
  },
  {
   "property": "C03",
   "status": "proved",
   "theorems": [
    "C03_context_restores",
    "C03_scoped_programs_leave_no_trace",
    "C03_failed_entry_leaks_refuted"
   ],
   "note": "Entered contexts always restore; a context that fails to be entered leaks (finding). Counterexamples to the wider claim, named in the statement or in DESIGN.md section 5: C03_failed_entry_leaks_refuted."
  },
  {
   "property": "C04",
   "status": "proved",
   "theorems": [
    "C04_file_settings",
    "C04_line_order_irrelevant",
    "C04_line_without_colon_fails",
    "C04_repeated_key_fails",
    "C04_warnings_fail_refuted"
   ],
   "note": "Counterexamples to the wider claim, named in the statement or in DESIGN.md section 5: C04_warnings_fail_refuted."
  },
  {
   "property": "C05",
   "status": "proved",
   "theorems": [
    "C05_first_existing_file",
    "C05_none_iff_no_file",
    "C05_documented_order"
   ],
   "note": ""
  },
  {
   "property": "C06",
   "status": "proved",
   "theorems": [
    "C06_mixed_sets_rejected",
    "C06_single_set_never_raises"
   ],
   "note": ""
  },
  {
   "property": "C07",
   "status": "proved",
   "theorems": [
    "C07_frozen_iff_complete",
    "C07_kumaraswamy",
    "C07_kumaraswamy_zero_refuted",
    "C07_zinb",
    "C07_zinb_without_psi_refuted",
    "C07_given_are_reported",
    "C07_wald_phi_dropped_refuted"
   ],
   "note": "Counterexamples to the wider claim, named in the statement or in DESIGN.md section 5: C07_kumaraswamy_zero_refuted, C07_zinb_without_psi_refuted, C07_wald_phi_dropped_refuted."
  },
  {
   "property": "C08",
   "status": "proved",
   "theorems": [
    "C08_reads_back",
    "C08_precision_bias",
    "C08_exact"
   ],
   "note": ""
  },
  {
   "property": "C09",
   "status": "proved",
   "theorems": [
    "C09_alternative_agrees",
    "C09_round_trip_bias",
    "C09_exact"
   ],
   "note": ""
  },
  {
   "property": "C10",
   "status": "proved",
   "theorems": [
    "C10_support_tracks",
    "C10_fixed_support",
    "C10_last_update_decides",
    "C10_parametrization_kept",
    "C10_bounds_kept",
    "C10_hypergeometric",
    "C10_hypergeometric_fraction_refuted"
   ],
   "note": "Counterexamples to the wider claim, named in the statement or in DESIGN.md section 5: C10_hypergeometric_fraction_refuted."
  },
  {
   "property": "C11",
   "status": "proved",
   "theorems": [
    "C11_mean_and_sd",
    "C11_mean",
    "C11_halfnormal_sd",
    "C11_studentt",
    "C11_halfstudentt",
    "C11_halfstudentt_overflow",
    "C11_logitnormal",
    "C11_uniform",
    "C11_discreteuniform",
    "C11_weibull_mean",
    "C11_studentt_default_nu_refuted",
    "C11_beta_clamp_refuted",
    "C11_exgaussian_mean_refuted",
    "C11_asymmetric_laplace_documented_refuted",
    "C11_modifier_forgets_its_parameters",
    "C11_truncated_bounds_lost_refuted",
    "C11_modifier_defined",
    "C11_rice",
    "C11_rice_rayleigh_refuted",
    "C11_weibull_exponential",
    "C11_weibull_valid",
    "C11_weibull_negative_refuted"
   ],
   "note": "Counterexamples to the wider claim, named in the statement or in DESIGN.md section 5: C11_studentt_default_nu_refuted, C11_beta_clamp_refuted, C11_exgaussian_mean_refuted, C11_asymmetric_laplace_documented_refuted, C11_truncated_bounds_lost_refuted, C11_rice_rayleigh_refuted, C11_weibull_negative_refuted."
  },
  {
   "property": "C12",
   "status": "proved",
   "theorems": [
    "C12_truncated_is_conditional",
    "C12_cdf_shape",
    "C12_pmf_sums_to_cdf",
    "C12_pmf_sums_to_one",
    "C12_nothing_outside",
    "C12_pdf_is_derivative",
    "C12_fractional_bound_refuted"
   ],
   "note": "Counterexamples to the wider claim, named in the statement or in DESIGN.md section 5: C12_fractional_bound_refuted."
  },
  {
   "property": "C13",
   "status": "proved",
   "theorems": [
    "C13_ppf_inverts",
    "C13_ppf_exact",
    "C13_ppf_nan",
    "C13_rvs_within",
    "C13_zero_refuted"
   ],
   "note": "Counterexamples to the wider claim, named in the statement or in DESIGN.md section 5: C13_zero_refuted."
  },
  {
   "property": "C14",
   "status": "proved",
   "theorems": [
    "C14_unbounded",
    "C14_nested",
    "C14_order_irrelevant"
   ],
   "note": ""
  },
  {
   "property": "C15",
   "status": "proved",
   "theorems": [
    "C15_cdf",
    "C15_cdf_at_upper_bound_refuted",
    "C15_cdf_monotone",
    "C15_pmf",
    "C15_pmf_sums_to_one",
    "C15_equal_bounds_refuted",
    "C15_density",
    "C15_ppf",
    "C15_rvs",
    "C15_median"
   ],
   "note": "Counterexamples to the wider claim, named in the statement or in DESIGN.md section 5: C15_cdf_at_upper_bound_refuted, C15_equal_bounds_refuted."
  },
  {
   "property": "C16",
   "status": "proved",
   "theorems": [
    "C16_mean_and_variance",
    "C16_unbounded",
    "C16_skewness_refuted",
    "C16_any_distribution"
   ],
   "note": "Counterexamples to the wider claim, named in the statement or in DESIGN.md section 5: C16_skewness_refuted."
  },
  {
   "property": "C17",
   "status": "proved",
   "theorems": [
    "C17_law_is_a_distribution",
    "C17_cdf_discrete",
    "C17_cdf_continuous",
    "C17_cdf_negative_refuted",
    "C17_cdf_gap_refuted",
    "C17_pmf",
    "C17_pmf_sums_to_cdf",
    "C17_pmf_sums_to_one",
    "C17_pmf_reaches_one",
    "C17_pdf_is_derivative",
    "C17_logpdf",
    "C17_ppf_inverts",
    "C17_ppf_nan",
    "C17_rvs",
    "C17_mean_and_variance",
    "C17_frozen_without_psi_refuted"
   ],
   "note": "Counterexamples to the wider claim, named in the statement or in DESIGN.md section 5: C17_cdf_negative_refuted, C17_cdf_gap_refuted, C17_frozen_without_psi_refuted."
  },
  {
   "property": "C18",
   "status": "proved",
   "theorems": [
    "C18_any_distribution",
    "C18_weights_and_support",
    "C18_empty_rejected",
    "C18_without_weights",
    "C18_mixed_kinds_rejected",
    "C18_cdf",
    "C18_pmf",
    "C18_pmf_sums",
    "C18_pdf_is_derivative",
    "C18_logpdf",
    "C18_mean_and_variance",
    "C18_moments_of_the_law",
    "C18_order_irrelevant",
    "C18_split_component",
    "C18_weight_scale",
    "C18_unfrozen_weights_not_normalised_refuted"
   ],
   "note": "Counterexamples to the wider claim, named in the statement or in DESIGN.md section 5: C18_unfrozen_weights_not_normalised_refuted."
  },
  {
   "property": "C19",
   "status": "proved",
   "theorems": [
    "C19_mixture_sizes",
    "C19_mixture_grouped_refuted",
    "C19_mixture_size_zero_refuted",
    "C19_combine_sizes",
    "C19_combine_size_not_exact_refuted"
   ],
   "note": "Counterexamples to the wider claim, named in the statement or in DESIGN.md section 5: C19_mixture_grouped_refuted, C19_mixture_size_zero_refuted, C19_combine_size_not_exact_refuted."
  },
  {
   "property": "C20",
   "status": "proved",
   "theorems": [
    "C20_survival",
    "C20_survival_decreases",
    "C20_isf_inverts",
    "C20_isf_exact"
   ],
   "note": ""
  },
  {
   "property": "C21",
   "status": "proved",
   "theorems": [
    "C21_covers",
    "C21_nested",
    "C21_default",
    "C21_format_irrelevant_for_discrete",
    "C21_rejected",
    "C21_mass_checked_refuted",
    "C21_default_format_refuted"
   ],
   "note": "Counterexamples to the wider claim, named in the statement or in DESIGN.md section 5: C21_mass_checked_refuted, C21_default_format_refuted."
  },
  {
   "property": "C22",
   "status": "proved",
   "theorems": [
    "C22_covers_with_fewest_points",
    "C22_too_little_mass",
    "C22_unimodal_shortest"
   ],
   "note": ""
  },
  {
   "property": "C23",
   "status": "proved",
   "theorems": [
    "C23_moments_in_order",
    "C23_other_letters_rejected",
    "C23_names_unambiguous",
    "C23_lmoments_in_order",
    "C23_lmoments_other_letters_rejected"
   ],
   "note": ""
  },
  {
   "property": "C24",
   "status": "proved",
   "theorems": [
    "C24_continuous_grid",
    "C24_discrete_grid",
    "C24_sampled_grid",
    "C24_inside_when_sampled_refuted",
    "C24_endpoints",
    "C24_unknown_support_rejected"
   ],
   "note": "Counterexamples to the wider claim, named in the statement or in DESIGN.md section 5: C24_inside_when_sampled_refuted."
  },
  {
   "property": "C25",
   "status": "proved",
   "theorems": [
    "C25_check_endpoints",
    "C25_check_endpoints_silent"
   ],
   "note": ""
  },
  {
   "property": "C26",
   "status": "proved",
   "theorems": [
    "C26_family_keeps_fixed",
    "C26_bounds_stay",
    "C26_params_cover_names",
    "C26_fixed_and_free",
    "C26_short_vector_raises",
    "C26_whole_optimisation"
   ],
   "note": ""
  },
  {
   "property": "C27",
   "status": "proved",
   "theorems": [
    "C27_best_feasible",
    "C27_none_feasible",
    "C27_nothing_completed",
    "C27_failed_start_hides_others_refuted",
    "C27_mass_reached",
    "C27_fixed_stat_refuted",
    "C27_starting_points"
   ],
   "note": "Counterexamples to the wider claim, named in the statement or in DESIGN.md section 5: C27_failed_start_hides_others_refuted, C27_fixed_stat_refuted."
  },
  {
   "property": "C28",
   "status": "proved",
   "theorems": [
    "C28_fit_to_sample",
    "C28_fit_to_epdf",
    "C28_fit_to_quartile",
    "C28_mle_order"
   ],
   "note": ""
  },
  {
   "property": "C29",
   "status": "proved",
   "theorems": [
    "C29_is_aicc",
    "C29_enough_data",
    "C29_too_few_data_refuted"
   ],
   "note": "Counterexamples to the wider claim, named in the statement or in DESIGN.md section 5: C29_too_few_data_refuted."
  },
  {
   "property": "C30",
   "status": "proved",
   "theorems": [
    "C30_quantile_exists",
    "C30_discrete_quantile",
    "C30_quantile_on_a_step",
    "C30_returns_the_quantile_refuted",
    "C30_discrete_mode",
    "C30_empty_grid"
   ],
   "note": "Counterexamples to the wider claim, named in the statement or in DESIGN.md section 5: C30_returns_the_quantile_refuted."
  },
  {
   "property": "C31",
   "status": "proved",
   "theorems": [
    "C31_every_iteration",
    "C31_returned_mode",
    "C31_reported_mode",
    "C31_validation",
    "C31_large_bound_diverges_refuted"
   ],
   "note": "Counterexamples to the wider claim, named in the statement or in DESIGN.md section 5: C31_large_bound_diverges_refuted."
  },
  {
   "property": "C32",
   "status": "proved",
   "theorems": [
    "C32_rejects",
    "C32_accepts",
    "C32_frozen_raises",
    "C32_second_call_raises",
    "C32_keeps_fixed",
    "C32_families_behave",
    "C32_fixed_params_persist_refuted",
    "C32_mode_accepted",
    "C32_partial_assignment",
    "C32_unknown_keyword",
    "C32_betascaled_fixed_ignored_refuted",
    "C32_nan_endpoint_refuted",
    "C32_missing_mode_freezes_refuted"
   ],
   "note": "Counterexamples to the wider claim, named in the statement or in DESIGN.md section 5: C32_fixed_params_persist_refuted, C32_betascaled_fixed_ignored_refuted, C32_nan_endpoint_refuted, C32_missing_mode_freezes_refuted."
  },
  {
   "property": "C33",
   "status": "proved",
   "theorems": [
    "C33_rejects",
    "C33_nan_rejected",
    "C33_keeps_fixed"
   ],
   "note": ""
  },
  {
   "property": "C34",
   "status": "proved",
   "theorems": [
    "C34_distribution_source",
    "C34_array_source",
    "C34_array_kurtosis_refuted",
    "C34_array_order_refuted",
    "C34_any_finite_refuted",
    "C34_some_target_finite"
   ],
   "note": "Counterexamples to the wider claim, named in the statement or in DESIGN.md section 5: C34_array_kurtosis_refuted, C34_array_order_refuted, C34_any_finite_refuted."
  },
  {
   "property": "C35",
   "status": "proved",
   "theorems": [
    "C35_pooled_is_weighted_mixture",
    "C35_pooled_moments",
    "C35_weight_scale_invariant",
    "C35_default_weights_equal",
    "C35_different_grids_rejected",
    "C35_negative_weight_rejected",
    "C35_short_weights_drop_experts_refuted"
   ],
   "note": "Counterexamples to the wider claim, named in the statement or in DESIGN.md section 5: C35_short_weights_drop_experts_refuted."
  },
  {
   "property": "C36",
   "status": "proved",
   "theorems": [
    "C36_picture_agrees",
    "C36_heights_bounded",
    "C36_heights_nonnegative",
    "C36_click_effect",
    "C36_outside_clicks_ignored",
    "C36_negative_chips_refuted"
   ],
   "note": "Counterexamples to the wider claim, named in the statement or in DESIGN.md section 5: C36_negative_chips_refuted."
  },
  {
   "property": "C37",
   "status": "proved",
   "theorems": [
    "C37_elicited_pdf",
    "C37_no_chips",
    "C37_x_values_are_shifted_refuted",
    "C37_negative_probability_refuted",
    "C37_limits_differ"
   ],
   "note": "Counterexamples to the wider claim, named in the statement or in DESIGN.md section 5: C37_x_values_are_shifted_refuted, C37_negative_probability_refuted."
  },
  {
   "property": "C38",
   "status": "proved",
   "theorems": [
    "C38_transparent",
    "C38_signature_exact",
    "C38_rng_transparent",
    "C38_key_error_runs_twice_refuted"
   ],
   "note": "Counterexamples to the wider claim, named in the statement or in DESIGN.md section 5: C38_key_error_runs_twice_refuted."
  },
  {
   "property": "C39",
   "status": "proved",
   "theorems": [
    "C39_reads_back",
    "C39_sound"
   ],
   "note": ""
  },
  {
   "property": "C40",
   "status": "proved",
   "theorems": [
    "C40_blocks",
    "C40_transformed"
   ],
   "note": ""
  },
  {
   "property": "C41",
   "status": "proved",
   "theorems": [
    "C41_one_line_each",
    "C41_bambi_lines",
    "C41_unwritable",
    "C41_flat_model",
    "C41_interleaved_refuted",
    "C41_bambi_unbalanced_refuted"
   ],
   "note": "Counterexamples to the wider claim, named in the statement or in DESIGN.md section 5: C41_interleaved_refuted, C41_bambi_unbalanced_refuted."
  },
  {
   "property": "C42",
   "status": "proved",
   "theorems": [
    "C42_never_shown_twice",
    "C42_titles",
    "C42_accepted",
    "C42_exhaustion",
    "C42_answers",
    "C42_fresh_batch",
    "C42_few_samples_refuted",
    "C42_empty_axis_refuted",
    "C42_target_refuted",
    "C42_clicks"
   ],
   "note": "Counterexamples to the wider claim, named in the statement or in DESIGN.md section 5: C42_few_samples_refuted, C42_empty_axis_refuted, C42_target_refuted."
  },
  {
   "property": "C43",
   "status": "proved",
   "theorems": [
    "C43_expit",
    "C43_logit",
    "C43_ends",
    "C43_monotone",
    "C43_symmetric",
    "C43_xlogx",
    "C43_xprody",
    "C43_mean_and_std",
    "C43_equivariant"
   ],
   "note": ""
  },
  {
   "property": "C44",
   "status": "proved",
   "theorems": [
    "C44_sum_to_one",
    "C44_to_cartesian",
    "C44_to_barycentric",
    "C44_exact",
    "C44_within",
    "C44_clipped_sum",
    "C44_clipped_sum_refuted",
    "C44_density",
    "C44_grid"
   ],
   "note": "Counterexamples to the wider claim, named in the statement or in DESIGN.md section 5: C44_clipped_sum_refuted."
  },
  {
   "property": "C45",
   "status": "proved",
   "theorems": [
    "C45_wrapped",
    "C45_eti",
    "C45_formatted",
    "C45_exception_refuted",
    "C45_format_refuted"
   ],
   "note": "Counterexamples to the wider claim, named in the statement or in DESIGN.md section 5: C45_exception_refuted, C45_format_refuted."
  },
  {
   "property": "C46",
   "status": "proved",
   "theorems": [
    "C46_both_rejected",
    "C46_from_cov",
    "C46_from_tau",
    "C46_same_distribution",
    "C46_frozen_iff",
    "C46_singular_refuted",
    "C46_variance",
    "C46_mean_refuted",
    "C46_rejected_variance_refuted",
    "C46_unset",
    "C46_stale_refuted",
    "C46_dirichlet_mode",
    "C46_mode_is_maximal",
    "C46_marginal_means",
    "C46_dirichlet_stale_refuted",
    "C46_no_fit_refuted"
   ],
   "note": "Counterexamples to the wider claim, named in the statement or in DESIGN.md section 5: C46_singular_refuted, C46_mean_refuted, C46_rejected_variance_refuted, C46_stale_refuted, C46_dirichlet_stale_refuted, C46_no_fit_refuted."
  },
  {
   "property": "C47",
   "status": "proved",
   "theorems": [
    "C47_quartile",
    "C47_quantiles",
    "C47_densities",
    "C47_moments",
    "C47_mean_sigma",
    "C47_relative_error",
    "C47_units_quartile",
    "C47_units_quantiles",
    "C47_units_mean_sigma",
    "C47_units_same_choice",
    "C47_moments_units_refuted"
   ],
   "note": "Counterexamples to the wider claim, named in the statement or in DESIGN.md section 5: C47_moments_units_refuted."
  },
  {
   "property": "C48",
   "status": "proved",
   "theorems": [
    "C48_bracket_found",
    "C48_find_ppf",
    "C48_find_ppf_ends",
    "C48_discrete_exact_root_refuted"
   ],
   "note": "Counterexamples to the wider claim, named in the statement or in DESIGN.md section 5: C48_discrete_exact_root_refuted."
  },
  {
   "property": "C49",
   "status": "proved",
   "theorems": [
    "C49_source_checked",
    "C49_keeps_fixed",
    "C49_quantiles_checked",
    "C49_nan_quantile_refuted"
   ],
   "note": "Counterexamples to the wider claim, named in the statement or in DESIGN.md section 5: C49_nan_quantile_refuted."
  },
  {
   "property": "C50",
   "status": "proved",
   "theorems": [
    "C50_contours"
   ],
   "note": ""
  },
  {
   "property": "C51",
   "status": "proved",
   "theorems": [
    "C51_normal",
    "C51_lognormal",
    "C51_logitnormal",
    "C51_constant_refuted",
    "C51_halfnormal",
    "C51_exponential",
    "C51_poisson",
    "C51_geometric",
    "C51_uniform",
    "C51_discrete_uniform",
    "C51_laplace",
    "C51_empty"
   ],
   "note": "Counterexamples to the wider claim, named in the statement or in DESIGN.md section 5: C51_constant_refuted."
  },
  {
   "property": "C52",
   "status": "proved",
   "theorems": [
    "C52_triangular",
    "C52_triangular_refuted",
    "C52_binomial",
    "C52_binomial_refuted",
    "C52_exgaussian",
    "C52_exgaussian_refuted",
    "C52_vonmises"
   ],
   "note": "Counterexamples to the wider claim, named in the statement or in DESIGN.md section 5: C52_triangular_refuted, C52_binomial_refuted, C52_exgaussian_refuted."
  },
  {
   "property": "C53",
   "status": "proved",
   "theorems": [
    "C53_search_stays_valid",
    "C53_hypergeometric_fixed",
    "C53_nothing_cut_off",
    "C53_logit_refuted",
    "C53_one_bound_each",
    "C53_default_names",
    "C53_default_start_inside",
    "C53_ml_installs",
    "C53_ml_valid",
    "C53_ml_alternative_refuted",
    "C53_vonmises_guess_refuted",
    "C53_binomial_guess"
   ],
   "note": "Counterexamples to the wider claim, named in the statement or in DESIGN.md section 5: C53_logit_refuted, C53_ml_alternative_refuted, C53_vonmises_guess_refuted."
  },
  {
   "property": "C54",
   "status": "proved",
   "theorems": [
    "C54_info",
    "C54_info_kinds",
    "C54_info_names",
    "C54_info_refuted",
    "C54_info_categorical_refuted",
    "C54_find",
    "C54_unknown_filter_refuted",
    "C54_bounded_missed_refuted",
    "C54_get",
    "C54_misnamed_refuted",
    "C54_documented",
    "C54_category_supports",
    "C54_category_support_refuted"
   ],
   "note": "Counterexamples to the wider claim, named in the statement or in DESIGN.md section 5: C54_info_refuted, C54_info_categorical_refuted, C54_unknown_filter_refuted, C54_bounded_missed_refuted, C54_misnamed_refuted, C54_category_support_refuted."
  },
  {
   "property": "C55",
   "status": "proved",
   "theorems": [
    "C55_params_dict",
    "C55_info",
    "C55_parametrizations",
    "C55_parametrizations_refuted",
    "C55_format",
    "C55_format_refuted"
   ],
   "note": "Counterexamples to the wider claim, named in the statement or in DESIGN.md section 5: C55_parametrizations_refuted, C55_format_refuted."
  },
  {
   "property": "C56",
   "status": "proved",
   "theorems": [
    "C56_same_law",
    "C56_rvs",
    "C56_zero_inflated_pdf",
    "C56_law_complete",
    "C56_methods",
    "C56_inherited",
    "C56_canonical_decides"
   ],
   "note": ""
  },
  {
   "property": "C57",
   "status": "proved",
   "theorems": [
    "C57_posterior_to_prior",
    "C57_shared_alternative_refuted",
    "C57_ppe_priors",
    "C57_ppe_auto_refuted",
    "C57_columns",
    "C57_matrix_refuted",
    "C57_unusable_candidates",
    "C57_unknown_prior"
   ],
   "note": "Counterexamples to the wider claim, named in the statement or in DESIGN.md section 5: C57_shared_alternative_refuted, C57_ppe_auto_refuted, C57_matrix_refuted."
  },
  {
   "property": "C58",
   "status": "proved",
   "theorems": [
    "C58_projection",
    "C58_random_state_refuted",
    "C58_weighted",
    "C58_model_restored",
    "C58_model_restored_refuted",
    "C58_engine_refuted",
    "C58_no_observed",
    "C58_engine",
    "C58_logs",
    "C58_logs_refuted"
   ],
   "note": "Counterexamples to the wider claim, named in the statement or in DESIGN.md section 5: C58_random_state_refuted, C58_model_restored_refuted, C58_engine_refuted, C58_logs_refuted."
  },
  {
   "property": "C59",
   "status": "proved",
   "theorems": [
    "C59_bound_arrays",
    "C59_truncated_bound_arrays",
    "C59_bound_arrays_refuted",
    "C59_from_pymc",
    "C59_mixed_inputs_refuted",
    "C59_censored",
    "C59_truncated",
    "C59_truncated_halfnormal_refuted",
    "C59_zero_inflated",
    "C59_mixture",
    "C59_hurdle",
    "C59_hurdle_truncated_refuted",
    "C59_from_prior",
    "C59_from_prior_unknown_name",
    "C59_from_prior_bounded",
    "C59_from_prior_hurdle",
    "C59_to_pymc",
    "C59_to_pymc_unknown",
    "C59_round_trip",
    "C59_to_pymc_bounded",
    "C59_to_pymc_mixture",
    "C59_to_pymc_context_refuted",
    "C59_to_bambi",
    "C59_to_bambi_modified",
    "C59_to_bambi_base_lost_refuted",
    "C59_uniform_bounds_overwritten_refuted",
    "C59_from_prior_mixture",
    "C59_to_bambi_mixture_refuted",
    "C59_bambi_round_trip_refuted"
   ],
   "note": "Counterexamples to the wider claim, named in the statement or in DESIGN.md section 5: C59_bound_arrays_refuted, C59_mixed_inputs_refuted, C59_truncated_halfnormal_refuted, C59_hurdle_truncated_refuted, C59_to_pymc_context_refuted, C59_to_bambi_base_lost_refuted, C59_uniform_bounds_overwritten_refuted, C59_to_bambi_mixture_refuted, C59_bambi_round_trip_refuted."
  },
  {
   "property": "C60",
   "status": "proved",
   "theorems": [
    "C60_no_wider_than_eti",
    "C60_shortest",
    "C60_highest_density",
    "C60_censored_refuted",
    "C60_discrete_covers",
    "C60_discrete_many",
    "C60_no_solution_refuted",
    "C60_hdi_requests",
    "C60_summary",
    "C60_unknown_interval_refuted"
   ],
   "note": "Counterexamples to the wider claim, named in the statement or in DESIGN.md section 5: C60_censored_refuted, C60_no_solution_refuted, C60_unknown_interval_refuted."
  },
  {
   "property": "C61",
   "status": "proved",
   "theorems": [
    "C61_moments",
    "C61_truncated",
    "C61_mixture",
    "C61_hurdle",
    "C61_hurdle_variance_refuted",
    "C61_sparse_grid_refuted",
    "C61_mode",
    "C61_median",
    "C61_entropy",
    "C61_entropy_nan_refuted",
    "C61_censored_entropy",
    "C61_censored_entropy_refuted",
    "C61_censored_kurtosis_refuted",
    "C61_censored_moments",
    "C61_censored_entropy_continuous",
    "C61_censored_entropy_open",
    "C61_trapezoid",
    "C61_continuous_mean",
    "C61_hurdle_continuous_variance_refuted"
   ],
   "note": "Counterexamples to the wider claim, named in the statement or in DESIGN.md section 5: C61_hurdle_variance_refuted, C61_sparse_grid_refuted, C61_entropy_nan_refuted, C61_censored_entropy_refuted, C61_censored_kurtosis_refuted, C61_hurdle_continuous_variance_refuted."
  },
  {
   "property": "C62",
   "status": "proved",
   "theorems": [
    "C62_priors_read",
    "C62_beta_refuted",
    "C62_modifier_refuted",
    "C62_comments",
    "C62_return_comment_refuted",
    "C62_return_tuple_refuted",
    "C62_bambi_refuted",
    "C62_boxes",
    "C62_unused_parameter_refuted",
    "C62_keyword_refuted",
    "C62_no_initial_values_refuted",
    "C62_nested_commas_refuted",
    "C62_nested_calls_refuted",
    "C62_limits_positive",
    "C62_expit_refuted",
    "C62_exp_probability_refuted",
    "C62_rows",
    "C62_rows_outside",
    "C62_box_supports",
    "C62_repeated_name_refuted",
    "C62_unreturned_prior_refuted"
   ],
   "note": "Counterexamples to the wider claim, named in the statement or in DESIGN.md section 5: C62_beta_refuted, C62_modifier_refuted, C62_return_comment_refuted, C62_return_tuple_refuted, C62_bambi_refuted, C62_unused_parameter_refuted, C62_keyword_refuted, C62_no_initial_values_refuted, C62_nested_commas_refuted, C62_nested_calls_refuted, C62_expit_refuted, C62_exp_probability_refuted, C62_repeated_name_refuted, C62_unreturned_prior_refuted."
  },
  {
   "property": "C63",
   "status": "proved",
   "theorems": [
    "C63_lines_ignore_history",
    "C63_float_histograms_ignore_history",
    "C63_custom_ignores_history",
    "C63_collected",
    "C63_ecdf_shows_clean_draws",
    "C63_kde_shows_clean_draws",
    "C63_ecdf_top_refuted",
    "C63_references",
    "C63_limits",
    "C63_integer_bins",
    "C63_line_after_histogram_refuted",
    "C63_histogram_after_line_refuted",
    "C63_stale_bins_refuted",
    "C63_user_style_refuted",
    "C63_nan_histogram_refuted",
    "C63_prior_histogram_refuted",
    "C63_prior_default_refuted",
    "C63_stats_kwargs_refuted",
    "C63_transparency",
    "C63_ticks"
   ],
   "note": "Counterexamples to the wider claim, named in the statement or in DESIGN.md section 5: C63_ecdf_top_refuted, C63_line_after_histogram_refuted, C63_histogram_after_line_refuted, C63_stale_bins_refuted, C63_user_style_refuted, C63_nan_histogram_refuted, C63_prior_histogram_refuted, C63_prior_default_refuted, C63_stats_kwargs_refuted."
  },
  {
   "property": "C64",
   "status": "proved",
   "theorems": [
    "C64_combinations",
    "C64_incompatible",
    "C64_guard",
    "C64_scalar_draws_once",
    "C64_undefined",
    "C64_family_curves",
    "C64_modifier_curves",
    "C64_drawing_keeps_refuted",
    "C64_discrete_style_refuted",
    "C64_numpy_scalar_refuted",
    "C64_mle_draws",
    "C64_mle_plot_kwargs_refuted"
   ],
   "note": "Counterexamples to the wider claim, named in the statement or in DESIGN.md section 5: C64_drawing_keeps_refuted, C64_discrete_style_refuted, C64_numpy_scalar_refuted, C64_mle_plot_kwargs_refuted."
  },
  {
   "property": "C65",
   "status": "proved",
   "theorems": [
    "C65_two_levels",
    "C65_one_level",
    "C65_quantiles",
    "C65_number_of_levels",
    "C65_defaults",
    "C65_circular",
    "C65_single_value_refuted",
    "C65_dot_is_median_refuted"
   ],
   "note": "Counterexamples to the wider claim, named in the statement or in DESIGN.md section 5: C65_single_value_refuted, C65_dot_is_median_refuted."
  },
  {
   "property": "C66",
   "status": "proved",
   "theorems": [
    "C66_range",
    "C66_float_slider",
    "C66_integer_slider",
    "C66_sliders",
    "C66_finite_opens",
    "C66_zero_refuted",
    "C66_infinite_refuted",
    "C66_integer_slider_refuted",
    "C66_starts",
    "C66_categorical",
    "C66_categorical_refuted",
    "C66_hurdle_refuted"
   ],
   "note": "Counterexamples to the wider claim, named in the statement or in DESIGN.md section 5: C66_zero_refuted, C66_infinite_refuted, C66_integer_slider_refuted, C66_categorical_refuted, C66_hurdle_refuted."
  },
  {
   "property": "C67",
   "status": "proved",
   "theorems": [
    "C67_given_p",
    "C67_given_logit_p",
    "C67_both",
    "C67_history",
    "C67_logit_p_refuted",
    "C67_sliders_checked",
    "C67_sliders",
    "C67_one_slider_refuted",
    "C67_logit_p_sliders_refuted",
    "C67_same_law",
    "C67_each_method",
    "C67_no_lmoments",
    "C67_without_arguments",
    "C67_fit_refuted",
    "C67_fit_outcome"
   ],
   "note": "Counterexamples to the wider claim, named in the statement or in DESIGN.md section 5: C67_logit_p_refuted, C67_one_slider_refuted, C67_logit_p_sliders_refuted, C67_fit_refuted."
  },
  {
   "property": "C68",
   "status": "proved",
   "theorems": [
    "C68_names",
    "C68_all_names_refuted",
    "C68_names_refused",
    "C68_default_names",
    "C68_opens",
    "C68_boxes",
    "C68_current",
    "C68_release",
    "C68_some_text",
    "C68_failure",
    "C68_params_refuted"
   ],
   "note": "Counterexamples to the wider claim, named in the statement or in DESIGN.md section 5: C68_all_names_refuted, C68_params_refuted."
  },
  {
   "property": "C69",
   "status": "proved",
   "theorems": [
    "C69_release",
    "C69_boxes",
    "C69_own_control",
    "C69_lower_limit",
    "C69_resize",
    "C69_checkboxes",
    "C69_none_excludes",
    "C69_picture",
    "C69_resize_refuted",
    "C69_empty_selection_refuted",
    "C69_none_sticky_refuted",
    "C69_dimensions_refuted",
    "C69_upper_limit_refuted"
   ],
   "note": "Counterexamples to the wider claim, named in the statement or in DESIGN.md section 5: C69_resize_refuted, C69_empty_selection_refuted, C69_none_sticky_refuted, C69_dimensions_refuted, C69_upper_limit_refuted."
  },
  {
   "property": "C70",
   "status": "proved",
   "theorems": [
    "C70_original",
    "C70_failure",
    "C70_no_draws",
    "C70_new_families",
    "C70_categorical_refuted",
    "C70_ask_for_more",
    "C70_button"
   ],
   "note": "Counterexamples to the wider claim, named in the statement or in DESIGN.md section 5: C70_categorical_refuted."
  },
  {
   "property": "C71",
   "status": "proved",
   "theorems": [
    "C71_text",
    "C71_modifiers",
    "C71_total",
    "C71_injective",
    "C71_pastes",
    "C71_code",
    "C71_mixture",
    "C71_modifier_name",
    "C71_modifier",
    "C71_html",
    "C71_multivariate",
    "C71_catalog",
    "C71_hurdle_refuted",
    "C71_nested_refuted",
    "C71_truncated_normal_refuted"
   ],
   "note": "Counterexamples to the wider claim, named in the statement or in DESIGN.md section 5: C71_hurdle_refuted, C71_nested_refuted, C71_truncated_normal_refuted."
  },
  {
   "property": "C72",
   "status": "proved",
   "theorems": [
    "C72_dispatch",
    "C72_errors",
    "C72_same_as_method",
    "C72_given_axes",
    "C72_panels",
    "C72_interactive",
    "C72_limits",
    "C72_joint",
    "C72_keywords_refuted",
    "C72_defaults_refuted",
    "C72_axes_title_refuted",
    "C72_one_dimension_refuted",
    "C72_limits_refuted"
   ],
   "note": "Counterexamples to the wider claim, named in the statement or in DESIGN.md section 5: C72_keywords_refuted, C72_defaults_refuted, C72_axes_title_refuted, C72_one_dimension_refuted, C72_limits_refuted."
  },
  {
   "property": "C73",
   "status": "proved",
   "theorems": [
    "C73_all_parameters_estimated",
    "C73_maximum_likelihood",
    "C73_better_than_moments",
    "C73_closed_forms",
    "C73_refit_refuted",
    "C73_skewed_refuted",
    "C73_loss_is_likelihood",
    "C73_candidate",
    "C73_stale_support_refuted",
    "C73_counts_refuted",
    "C73_closest_moments",
    "C73_vonmises",
    "C73_kappa",
    "C73_rows"
   ],
   "note": "Counterexamples to the wider claim, named in the statement or in DESIGN.md section 5: C73_refit_refuted, C73_skewed_refuted, C73_stale_support_refuted, C73_counts_refuted."
  },
  {
   "property": "C74",
   "status": "proved",
   "theorems": [
    "C74_discrete_mass",
    "C74_maxent_mass",
    "C74_maxent_integers",
    "C74_numpy_integers_refuted",
    "C74_nan_mass_refuted",
    "C74_fractional_bound_refuted",
    "C74_quartile",
    "C74_quartile_exact",
    "C74_quartile_shifted_refuted",
    "C74_quartile_discrete_refuted",
    "C74_match_lines",
    "C74_match_silent",
    "C74_match_not_finite",
    "C74_match_quantiles_silent",
    "C74_zero_target_refuted",
    "C74_infinite_target_refuted",
    "C74_repeated_letter_refuted",
    "C74_mle_warning",
    "C74_defined_candidate_refuted"
   ],
   "note": "Counterexamples to the wider claim, named in the statement or in DESIGN.md section 5: C74_numpy_integers_refuted, C74_nan_mass_refuted, C74_fractional_bound_refuted, C74_quartile_shifted_refuted, C74_quartile_discrete_refuted, C74_zero_target_refuted, C74_infinite_target_refuted, C74_repeated_letter_refuted, C74_defined_candidate_refuted."
  },
  {
   "property": "C75",
   "status": "proved",
   "theorems": [
    "C75_roulette_best",
    "C75_quartile_best",
    "C75_exception_ends",
    "C75_roulette_keeps_fixed",
    "C75_quartile_keeps_fixed",
    "C75_truncated_keeps_fixed",
    "C75_unknown_name",
    "C75_roulette_betascaled_ignored_refuted",
    "C75_quartile_betascaled_one_bound_refuted",
    "C75_quartile_betascaled_shape_ignored_refuted",
    "C75_roulette_betascaled_bounds_refuted",
    "C75_quartile_betascaled_bounds",
    "C75_other_names"
   ],
   "note": "Counterexamples to the wider claim, named in the statement or in DESIGN.md section 5: C75_roulette_betascaled_ignored_refuted, C75_quartile_betascaled_one_bound_refuted, C75_quartile_betascaled_shape_ignored_refuted, C75_roulette_betascaled_bounds_refuted."
  },
  {
   "property": "C76",
   "status": "proved",
   "theorems": [
    "C76_discrete_exact",
    "C76_sampled_too_low_refuted",
    "C76_continuous",
    "C76_quantiles",
    "C76_mass",
    "C76_nan_mass",
    "C76_stems",
    "C76_censored",
    "C76_upper_unmarked_refuted",
    "C76_mark_height_refuted",
    "C76_panel"
   ],
   "note": "Counterexamples to the wider claim, named in the statement or in DESIGN.md section 5: C76_sampled_too_low_refuted, C76_upper_unmarked_refuted, C76_mark_height_refuted."
  },
  {
   "property": "C77",
   "status": "proved",
   "theorems": [
    "C77_panels",
    "C77_given_axes_refuted",
    "C77_few_axes_refuted",
    "C77_one_component_refuted",
    "C77_joint",
    "C77_dirichlet_ppf_refuted",
    "C77_interactive_pdf",
    "C77_interactive_cdf",
    "C77_mvnormal_ppf",
    "C77_ppf_limits_refuted",
    "C77_other_kinds",
    "C77_joint_grid",
    "C77_narrow_normal_refuted",
    "C77_levels",
    "C77_nothing",
    "C77_outcomes",
    "C77_concentrated_refuted",
    "C77_mvnormal_sliders",
    "C77_dirichlet_sliders",
    "C77_unset",
    "C77_xvals_refuted",
    "C77_xvals_pair",
    "C77_interactive_joint"
   ],
   "note": "Counterexamples to the wider claim, named in the statement or in DESIGN.md section 5: C77_given_axes_refuted, C77_few_axes_refuted, C77_one_component_refuted, C77_dirichlet_ppf_refuted, C77_ppf_limits_refuted, C77_narrow_normal_refuted, C77_concentrated_refuted, C77_xvals_refuted."
  },
  {
   "property": "C78",
   "status": "proved",
   "theorems": [
    "C78_variables",
    "C78_two_levels",
    "C78_three_levels_refuted"
   ],
   "note": "Counterexamples to the wider claim, named in the statement or in DESIGN.md section 5: C78_three_levels_refuted."
  },
  {
   "property": "C79",
   "status": "proved",
   "theorems": [
    "C79_written_sequence",
    "C79_sequence",
    "C79_not_a_sequence",
    "C79_written_sequence_refuted",
    "C79_text",
    "C79_reads_back",
    "C79_reading",
    "C79_built"
   ],
   "note": "Counterexamples to the wider claim, named in the statement or in DESIGN.md section 5: C79_written_sequence_refuted."
  },
  {
   "property": "C80",
   "status": "proved",
   "theorems": [
    "C80_share",
    "C80_truncated",
    "C80_censored",
    "C80_hurdle",
    "C80_mixture"
   ],
   "note": ""
  },
  {
   "property": "C81",
   "status": "proved",
   "theorems": [
    "C81_all",
    "C81_cited",
    "C81_methods",
    "C81_unknown_key",
    "C81_default",
    "C81_arguments",
    "C81_name_refuted",
    "C81_shipped"
   ],
   "note": "Counterexamples to the wider claim, named in the statement or in DESIGN.md section 5: C81_name_refuted."
  },
  {
   "property": "C82",
   "status": "proved",
   "theorems": [
    "C82_panels",
    "C82_ranges",
    "C82_choices",
    "C82_accepted_panel",
    "C82_clicked",
    "C82_return_few",
    "C82_return_refuted",
    "C82_references_refuted",
    "C82_nothing_within_refuted",
    "C82_only_first_refuted"
   ],
   "note": "Counterexamples to the wider claim, named in the statement or in DESIGN.md section 5: C82_return_refuted, C82_references_refuted, C82_nothing_within_refuted, C82_only_first_refuted."
  },
  {
   "property": "C83",
   "status": "proved",
   "theorems": [
    "C83_moments",
    "C83_one",
    "C83_new_axes",
    "C83_history",
    "C83_fresh",
    "C83_rows",
    "C83_raises",
    "C83_left_behind_refuted",
    "C83_figsize_refuted",
    "C83_other_letters_refuted",
    "C83_true_refuted",
    "C83_notice",
    "C83_goes_on_refuted",
    "C83_unnamed_refuted",
    "C83_terminal_refuted"
   ],
   "note": "Counterexamples to the wider claim, named in the statement or in DESIGN.md section 5: C83_left_behind_refuted, C83_figsize_refuted, C83_other_letters_refuted, C83_true_refuted, C83_goes_on_refuted, C83_unnamed_refuted, C83_terminal_refuted."
  },
  {
   "property": "C84",
   "status": "proved",
   "theorems": [
    "C84_boxes",
    "C84_received",
    "C84_redrawn",
    "C84_layout",
    "C84_session",
    "C84_array_refuted",
    "C84_unused_refuted",
    "C84_integer_default_refuted",
    "C84_limits_refuted"
   ],
   "note": "Counterexamples to the wider claim, named in the statement or in DESIGN.md section 5: C84_array_refuted, C84_unused_refuted, C84_integer_default_refuted, C84_limits_refuted."
  },
  {
   "property": "C85",
   "status": "proved",
   "theorems": [
    "C85_chips",
    "C85_stacked",
    "C85_no_chips",
    "C85_equal_weights_refuted"
   ],
   "note": "Counterexamples to the wider claim, named in the statement or in DESIGN.md section 5: C85_equal_weights_refuted."
  },
  {
   "property": "C86",
   "status": "proved",
   "theorems": [
    "C86_mle",
    "C86_mle_inplace",
    "C86_mle_parameters_lost_refuted",
    "C86_elicit",
    "C86_default",
    "C86_default_fixed_refuted",
    "C86_match"
   ],
   "note": "Counterexamples to the wider claim, named in the statement or in DESIGN.md section 5: C86_mle_parameters_lost_refuted, C86_default_fixed_refuted."
  },
  {
   "property": "C87",
   "status": "proved",
   "theorems": [
    "C87_maxent",
    "C87_quartile",
    "C87_match",
    "C87_new_open",
    "C87_outside_bounds",
    "C87_new_complete",
    "C87_fixed_params_refuted",
    "C87_hurdle_without_psi_refuted",
    "C87_families",
    "C87_inner_fixed_refuted",
    "C87_keyword_names_refuted",
    "C87_mixture_fit",
    "C87_mixture_stale_refuted",
    "C87_mixture_new",
    "C87_mixture_values",
    "C87_mixture_elicit_refuted",
    "C87_mle_refuted",
    "C87_fixed_mode"
   ],
   "note": "Counterexamples to the wider claim, named in the statement or in DESIGN.md section 5: C87_fixed_params_refuted, C87_hurdle_without_psi_refuted, C87_inner_fixed_refuted, C87_keyword_names_refuted, C87_mixture_stale_refuted, C87_mixture_elicit_refuted, C87_mle_refuted."
  },
  {
   "property": "C88",
   "status": "proved",
   "theorems": [
    "C88_truncated_cdf",
    "C88_truncated_ppf",
    "C88_truncated_ppf_refuted",
    "C88_hurdle_cdf",
    "C88_hurdle_cdf_refuted",
    "C88_hurdle_ppf",
    "C88_hurdle_ppf_refuted",
    "C88_mixture_weights",
    "C88_mixture_cdf",
    "C88_mixture_cdf_refuted",
    "C88_sf",
    "C88_isf",
    "C88_eti",
    "C88_logit",
    "C88_expit",
    "C88_constant_sample_refuted",
    "C88_std",
    "C88_combine",
    "C88_combine_refuted"
   ],
   "note": "Counterexamples to the wider claim, named in the statement or in DESIGN.md section 5: C88_truncated_ppf_refuted, C88_hurdle_cdf_refuted, C88_hurdle_ppf_refuted, C88_mixture_cdf_refuted, C88_constant_sample_refuted, C88_combine_refuted."
  },
  {
   "property": "C89",
   "status": "proved",
   "theorems": [
    "C89_exponential",
    "C89_exponential_refuted",
    "C89_gamma",
    "C89_wald",
    "C89_precision",
    "C89_precision_refuted",
    "C89_beta",
    "C89_negativebinomial",
    "C89_beta_refuted",
    "C89_negativebinomial_refuted"
   ],
   "note": "Counterexamples to the wider claim, named in the statement or in DESIGN.md section 5: C89_exponential_refuted, C89_precision_refuted, C89_beta_refuted, C89_negativebinomial_refuted."
  },
  {
   "property": "C90",
   "status": "proved",
   "theorems": [
    "C90_truncated",
    "C90_censored",
    "C90_hurdle",
    "C90_hurdle_list_refuted",
    "C90_hurdle_ppf",
    "C90_hurdle_ppf_refuted",
    "C90_mixture",
    "C90_mixture_ppf",
    "C90_mixture_ppf_stuck",
    "C90_mixture_ppf_refuted",
    "C90_bounds",
    "C90_bounds_refuted",
    "C90_quantiles_any_shape",
    "C90_mixture_matrix_refuted"
   ],
   "note": "Counterexamples to the wider claim, named in the statement or in DESIGN.md section 5: C90_hurdle_list_refuted, C90_hurdle_ppf_refuted, C90_mixture_ppf_refuted, C90_bounds_refuted, C90_mixture_matrix_refuted."
  },
  {
   "property": "C91",
   "status": "proved",
   "theorems": [
    "C91_grid",
    "C91_grid_places",
    "C91_grid_ties_refuted",
    "C91_variance",
    "C91_variance_on_grid",
    "C91_integrals",
    "C91_sums",
    "C91_mixture",
    "C91_mixture_var_refuted"
   ],
   "note": "Counterexamples to the wider claim, named in the statement or in DESIGN.md section 5: C91_grid_ties_refuted, C91_mixture_var_refuted."
  },
  {
   "property": "C92",
   "status": "proved",
   "theorems": [
    "C92_shape",
    "C92_vector",
    "C92_mixture",
    "C92_mixture_shape_refuted",
    "C92_truncated_mixture_refuted",
    "C92_reshaped",
    "C92_seed",
    "C92_generator",
    "C92_no_seed",
    "C92_state",
    "C92_censored",
    "C92_components"
   ],
   "note": "Counterexamples to the wider claim, named in the statement or in DESIGN.md section 5: C92_mixture_shape_refuted, C92_truncated_mixture_refuted."
  }
 ]
}