{
 "claims": [
  {
   "property": "C01",
   "status": "proved",
   "theorems": [
    "C01_poi_save_load_roundtrip",
    "C01_poi_save_load_exact",
    "C01_poi_unset_field_lost_refuted"
   ],
   "note": "The intended unrestricted property (field 'intended' in properties.jsonl) is false of the code, as the _refuted theorems prove; the statement is the exact behaviour. Round trip proved for every POI with min, max and initial value set; refuted for unset fields (reloaded as 0)."
  },
  {
   "property": "C02",
   "status": "proved",
   "theorems": [
    "C02_aux_save_load_roundtrip",
    "C02_np_save_load_roundtrip",
    "C02_np_loaded_is_consistent",
    "C02_np_load_save_load_stable",
    "C02_np_values_read",
    "C02_np_inconsistent_lost_refuted"
   ],
   "note": "Round trip for all consistent NPs and all auxiliary observables; an NP object with aux_obs but no constraint is lost (refuted case)."
  },
  {
   "property": "C03",
   "status": "proved",
   "theorems": [
    "C03_scaled_of_unscaled",
    "C03_unscaled_of_scaled",
    "C03_scale_anchors_and_pulls",
    "C03_zero_variation_rejected"
   ],
   "note": ""
  },
  {
   "property": "C04",
   "status": "proved",
   "theorems": [
    "C04_load_field_contract",
    "C04_documented_default_on_wrong_type_refuted"
   ],
   "note": "The docstring claim that a wrong type gives the default is refuted."
  },
  {
   "property": "C05",
   "status": "proved",
   "theorems": [
    "C05_values_are_denotation",
    "C05_gradient_is_derivative",
    "C05_parameter_gradient"
   ],
   "note": "All expression types except Formula (evaluates Python source text)."
  },
  {
   "property": "C06",
   "status": "proved",
   "theorems": [
    "C06_hessian_is_second_derivative",
    "C06_hessian_vanishing_factor_refuted"
   ],
   "note": "The intended unrestricted property (field 'intended' in properties.jsonl) is false of the code, as the _refuted theorems prove; the statement is the exact behaviour. True second derivatives wherever no numerator factor vanishes; the code yields NaN at a vanishing factor (refuted)."
  },
  {
   "property": "C07",
   "status": "proved",
   "theorems": [
    "C07_expression_save_load_roundtrip",
    "C07_formula_reload_refuted",
    "C07_untyped_formula_refuted"
   ],
   "note": "The intended unrestricted property (field 'intended' in properties.jsonl) is false of the code, as the _refuted theorems prove; the statement is the exact behaviour. Every type but Formula; formulas cannot be reloaded (refuted)."
  },
  {
   "property": "C08",
   "status": "proved",
   "theorems": [
    "C08_replace_preserves_values",
    "C08_replace_removes_dependence",
    "C08_product_replace_refuted",
    "C08_no_value_is_rejected"
   ],
   "note": "The intended unrestricted property (field 'intended' in properties.jsonl) is false of the code, as the _refuted theorems prove; the statement is the exact behaviour. Every successful replacement; replacing a factor of a product always raises TypeError (refuted)."
  },
  {
   "property": "C09",
   "status": "proved",
   "theorems": [
    "C09_absent_norm_is_one",
    "C09_number_norm",
    "C09_null_norm_is_null_number",
    "C09_string_norm",
    "C09_other_norm_rejected",
    "C09_numerical_string_rejected",
    "C09_norm_save_load_roundtrip"
   ],
   "note": "A string that parses as a number is rejected on loading (documented as a theorem), so the round trip is for the norms a load can produce."
  },
  {
   "property": "C10",
   "status": "proved",
   "theorems": [
    "C10_interpolation_exact",
    "C10_unbalanced_variations_refuted",
    "C10_large_impact_clipped",
    "C10_large_positive_impact_clipped"
   ],
   "note": "The intended unrestricted property (field 'intended' in properties.jsonl) is false of the code, as the _refuted theorems prove; the statement is the exact behaviour. Exact reproduction for equal numbers of positive and negative variations and impacts within [1/100,100] in exponential mode; unbalanced tables are refuted, clipping proved."
  },
  {
   "property": "C11",
   "status": "proved",
   "theorems": [
    "C11_no_impact_is_zero",
    "C11_single_number_is_proportional",
    "C11_common_table_lookup",
    "C11_per_bin_table_lookup",
    "C11_missing_variation_rejected",
    "C11_symmetric_impact",
    "C11_symmetric_impact_antisymmetric",
    "C11_symmetric_impact_fallback",
    "C11_pos_neg_keys_refuted"
   ],
   "note": "The intended unrestricted property (field 'intended' in properties.jsonl) is false of the code, as the _refuted theorems prove; the statement is the exact behaviour. All representations; the documented 'pos'/'neg' keys cannot be used for the coefficients (refuted)."
  },
  {
   "property": "C12",
   "status": "proved",
   "theorems": [
    "C12_nominal_yields_reproduced",
    "C12_yields_linear_in_norm",
    "C12_default_nominal_norm",
    "C12_default_norm_reproduces_yields",
    "C12_expression_norm_default_refuted"
   ],
   "note": "The intended unrestricted property (field 'intended' in properties.jsonl) is false of the code, as the _refuted theorems prove; the statement is the exact behaviour. Numerical and parameter norms; when no nominal norm is given and the norm is an expression the default is 1 (refuted)."
  },
  {
   "property": "C13",
   "status": "proved",
   "theorems": [
    "C13_sample_save_load_roundtrip"
   ],
   "note": "Guard: the norm expression name is not a number."
  },
  {
   "property": "C14",
   "status": "proved",
   "theorems": [
    "C14_dataset_roundtrip",
    "C14_dataset_roundtrip_truncates",
    "C14_noninteger_counts_refuted",
    "C14_gaussian_refuted",
    "C14_wrong_size_rejected"
   ],
   "note": "The intended unrestricted property (field 'intended' in properties.jsonl) is false of the code, as the _refuted theorems prove; the statement is the exact behaviour. Round trip of the counts for every single-bin, binned and multi-bin channel (binned counts must be the bins of the channel); non-integer counts are truncated by binned channels, and a Gaussian channel cannot be reloaded (refuted cases)."
  },
  {
   "property": "C15",
   "status": "proved",
   "theorems": [
    "C15_named_bins_load_iff",
    "C15_binned_range_load_iff",
    "C15_single_bin_load_iff",
    "C15_load_keeps_size",
    "C15_rejected_load_changes_counts_refuted",
    "C15_rejected_channel_keeps_later_counts"
   ],
   "note": "The intended unrestricted property (field 'intended' in properties.jsonl) is false of the code, as the _refuted theorems prove; the statement is the exact behaviour. Exact acceptance conditions per channel; a rejected load may leave the first bins of the same channel overwritten (refuted). At dataset level: after a rejected channel the counts of all later channels are unchanged (C15_rejected_channel_keeps_later_counts)."
  },
  {
   "property": "C16",
   "status": "proved",
   "theorems": [
    "C16_bins_partitioned_among_channels",
    "C16_channel_slice_is_its_block",
    "C16_reordering_refuted"
   ],
   "note": "The intended unrestricted property (field 'intended' in properties.jsonl) is false of the code, as the _refuted theorems prove; the statement is the exact behaviour. Layout proved for every model that can be built; a Gaussian channel listed before a Poisson one, which the code means to reorder, makes construction fail (refuted)."
  },
  {
   "property": "C17",
   "status": "proved",
   "theorems": [
    "C17_model_save_load_roundtrip",
    "C17_reloaded_object_is_identical",
    "C17_everything_declared_is_loaded",
    "C17_options_not_saved_refuted",
    "C17_gaussian_channels_lost_refuted"
   ],
   "note": "The intended unrestricted property (field 'intended' in properties.jsonl) is false of the code, as the _refuted theorems prove; the statement is the exact behaviour. Round trip proved for the models markup can express (savable: distinct names, POI fields set, no formula expression, no Gaussian channel); the reloaded complete object is identical including its internal variables. Refuted: options (cutoff, impact modes) are not saved, and Gaussian channels come back as Poisson channels."
  },
  {
   "property": "C18",
   "status": "proved",
   "theorems": [
    "C18_expected_yield_formula",
    "C18_given_samples_kept",
    "C18_floor",
    "C18_real_values"
   ],
   "note": "The intended unrestricted property (field 'intended' in properties.jsonl) is false of the code, as the _refuted theorems prove; the statement is the exact behaviour. Formula proved for every model that can be built whose impact tables have the shapes the code assumes (tables_ok: the first NP processed has the largest number of variations, all samples of a channel one coefficient per bin); outside, C19 has the refuting cases."
  },
  {
   "property": "C19",
   "status": "proved",
   "theorems": [
    "C19_impact_factor",
    "C19_one_at_nominal",
    "C19_positive_in_exponential_mode",
    "C19_tabulated_variation_reproduced",
    "C19_sides",
    "C19_effect_continuous",
    "C19_exponential_mode_factorizes",
    "C19_symmetric_mode",
    "C19_more_variations_in_later_np_refuted",
    "C19_uneven_variations_refuted",
    "C19_ragged_samples_refuted"
   ],
   "note": "The intended unrestricted property (field 'intended' in properties.jsonl) is false of the code, as the _refuted theorems prove; the statement is the exact behaviour. Continuity, sides, positivity, factor 1 at nominal, symmetric mode proved for all tables; reproduction of tabulated impacts for balanced tables; uneven tables, more variations in a later NP and ragged samples refuted."
  },
  {
   "property": "C20",
   "status": "proved",
   "theorems": [
    "C20_no_cutoff_is_identity",
    "C20_within_cutoff",
    "C20_increasing",
    "C20_sign_and_size_of_deviation",
    "C20_unit_slope_at_one",
    "C20_applies_to_every_bin"
   ],
   "note": ""
  },
  {
   "property": "C21",
   "status": "proved",
   "theorems": [
    "C21_offset_is_a_constant",
    "C21_differences_unchanged",
    "C21_zero_reference_yield_refuted"
   ],
   "note": "The intended unrestricted property (field 'intended' in properties.jsonl) is false of the code, as the _refuted theorems prove; the statement is the exact behaviour. Poisson and Gaussian channels, every dataset and point, for positive reference yields; refuted for a zero reference yield."
  },
  {
   "property": "C22",
   "status": "proved",
   "theorems": [
    "C22_asimov_is_minimal",
    "C22_empty_bin_refuted"
   ],
   "note": "The intended unrestricted property (field 'intended' in properties.jsonl) is false of the code, as the _refuted theorems prove; the statement is the exact behaviour. Every model with positive yields at the generation point; refuted for an empty bin (NaN at the generation point itself)."
  },
  {
   "property": "C23",
   "status": "proved",
   "theorems": [
    "C23_gradient_is_derivative",
    "C23_gaussian_channels_refuted"
   ],
   "note": "The intended unrestricted property (field 'intended' in properties.jsonl) is false of the code, as the _refuted theorems prove; the statement is the exact behaviour. Poisson channels at every point with finite likelihood, with and without offset; refuted for Gaussian channels."
  },
  {
   "property": "C24",
   "status": "proved",
   "theorems": [
    "C24_hessian_is_second_derivative",
    "C24_hessian_symmetric",
    "C24_gaussian_channels_refuted"
   ],
   "note": "The intended unrestricted property (field 'intended' in properties.jsonl) is false of the code, as the _refuted theorems prove; the statement is the exact behaviour. Second derivatives for Poisson channels at every point with finite likelihood; symmetry for all models; refuted for Gaussian channels."
  },
  {
   "property": "C25",
   "status": "proved",
   "theorems": [
    "C25_built_vectors_have_model_sizes",
    "C25_built_from_dict",
    "C25_set_get",
    "C25_set_get_unscaled",
    "C25_missing_nps_are_zero",
    "C25_contains",
    "C25_unknown_rejected",
    "C25_any_assignment_history",
    "C25_clone",
    "C25_np_number_refuted"
   ],
   "note": "The intended unrestricted property (field 'intended' in properties.jsonl) is false of the code, as the _refuted theorems prove; the statement is the exact behaviour. All construction, access and assignment histories; giving a single number for the NPs, which the documentation allows, raises AttributeError (refuted)."
  },
  {
   "property": "C26",
   "status": "proved",
   "theorems": [
    "C26_dict_roundtrip",
    "C26_dict_values",
    "C26_missing_parameter_rejected",
    "C26_default_arguments_refuted",
    "C26_partial_dict_refuted",
    "C26_set_from_aux_refuted",
    "C26_nominal_pois_only_refuted"
   ],
   "note": "The intended unrestricted property (field 'intended' in properties.jsonl) is false of the code, as the _refuted theorems prove; the statement is the exact behaviour. Round trips through dictionaries with matching options; default arguments, partial dictionaries and set_from_aux refuted."
  },
  {
   "property": "C27",
   "status": "proved",
   "theorems": [
    "C27_aux_obs_placement",
    "C27_default_aux_not_nominal_refuted",
    "C27_counts_size",
    "C27_aux_obs_sizes"
   ],
   "note": "The intended unrestricted property (field 'intended' in properties.jsonl) is false of the code, as the _refuted theorems prove; the statement is the exact behaviour. Placement proved when the number of declared auxiliary observables equals the number of constrained NPs. Refuted: the default and the free NPs get the unscaled nominal value instead of 0; for a constrained NP of nominal value 1 the likelihood is then not minimal at nominal. Wrong counts size raises NameError (C27_counts_size)."
  },
  {
   "property": "C28",
   "status": "proved",
   "theorems": [
    "C28_load_order_independent",
    "C28_dataset_save_load_roundtrip",
    "C28_fractional_counts_lost_refuted"
   ],
   "note": "The intended unrestricted property (field 'intended' in properties.jsonl) is false of the code, as the _refuted theorems prove; the statement is the exact behaviour. Order independence proved in full for distinct names. Round trip proved for whole counts, no Gaussian channels, distinct auxiliary observables. Refuted for fractional counts, which are truncated."
  },
  {
   "property": "C29",
   "status": "proved",
   "theorems": [
    "C29_profile_is_stationary",
    "C29_system_is_second_order_expansion",
    "C29_profile_minimizes_expansion",
    "C29_expansion_of_model_likelihood",
    "C29_exact_for_gaussian_linear",
    "C29_gaussian_lognormal_refuted",
    "C29_restart_refuted",
    "C29_small_determinant_refuted",
    "C29_exact_impacts_refuted"
   ],
   "note": "The intended unrestricted property (field 'intended' in properties.jsonl) is false of the code, as the _refuted theorems prove; the statement is the exact behaviour. Proved: the system solved is the exact second-order expansion of the code's likelihood (Poisson channels, and Gaussian channels without the log-normal terms), the profiled NPs minimize it, and equal the true minimum for Gaussian linear models started at zero. Refuted: Gaussian channels with log-normal terms (factor 2), restarts from non-zero NPs, small determinants, exact impacts."
  },
  {
   "property": "C30",
   "status": "proved",
   "theorems": [
    "C30_profile_keeps_pois",
    "C30_degenerate_returns_nps",
    "C30_iterations_keep_pois"
   ],
   "note": ""
  },
  {
   "property": "C31",
   "status": "proved",
   "theorems": [
    "C31_initial_values_in_bounds",
    "C31_valid_values_kept",
    "C31_fixed_hypothesis",
    "C31_model_range_kept",
    "C31_initialization_succeeds",
    "C31_one_sided_range_refuted",
    "C31_empty_range_refuted",
    "C31_set_constant_refuted",
    "C31_unbounded_poi_refuted"
   ],
   "note": "The intended unrestricted property (field 'intended' in properties.jsonl) is false of the code, as the _refuted theorems prove; the statement is the exact behaviour. Proved for all non-empty ranges: initial values in bounds, valid values kept, fixed hypotheses, model ranges kept, success for two-sided ranges. Refuted: one-sided ranges, inverted ranges, set_constant, unbounded POIs."
  },
  {
   "property": "C32",
   "status": "proved",
   "theorems": [
    "C32_tmu_value",
    "C32_never_negative",
    "C32_failed_fit_refuted",
    "C32_infinite_refuted",
    "C32_stored_fits",
    "C32_second_attempt",
    "C32_alternative_method"
   ],
   "note": "The intended unrestricted property (field 'intended' in properties.jsonl) is false of the code, as the _refuted theorems prove; the statement is the exact behaviour. Value and non-negativity proved; a failed fit does not give None and infinite likelihoods give NaN (refuted)."
  },
  {
   "property": "C33",
   "status": "proved",
   "theorems": [
    "C33_history",
    "C33_all_fixed_refuted",
    "C33_method_switch_refuted",
    "C33_recovery_refuted"
   ],
   "note": "The intended unrestricted property (field 'intended' in properties.jsonl) is false of the code, as the _refuted theorems prove; the statement is the exact behaviour. Proved for all histories of minimize/tmu calls with default settings and a method that suits the number of free POIs; refuted after an all-fixed call, after the automatic method switch, and for both recovery modes."
  },
  {
   "property": "C34",
   "status": "proved",
   "theorems": [
    "C34_clone_keeps_configuration",
    "C34_derivatives_and_verbosity_refuted"
   ],
   "note": "The intended unrestricted property (field 'intended' in properties.jsonl) is false of the code, as the _refuted theorems prove; the statement is the exact behaviour. Method, iterations, floor, rebound and alternative method proved; derivative choice and verbosity refuted."
  },
  {
   "property": "C35",
   "status": "proved",
   "theorems": [
    "C35_calculator_values",
    "C35_signed_sqrt",
    "C35_values",
    "C35_calculator_ignores_t0_refuted"
   ],
   "note": "The intended unrestricted property (field 'intended' in properties.jsonl) is false of the code, as the _refuted theorems prove; the statement is the exact behaviour. Values, signs and the signed square root are proved for all reals. False part, proved: the q~ calculator never passes the t_0 of the best-fit hypothesis 0, so its value for a negative best fit is t_mu and not t_0."
  },
  {
   "property": "C36",
   "status": "proved",
   "theorems": [
    "C36_qmu_pvalue",
    "C36_qmutilda_pvalue",
    "C36_qmutilda_zero_threshold_refuted"
   ],
   "note": "The intended unrestricted property (field 'intended' in properties.jsonl) is false of the code, as the _refuted theorems prove; the statement is the exact behaviour. q_mu: proved for every survival function (the normal one is shown to be one) and every non-centrality. q~_mu: proved for a positive threshold, with agreement of the two branches; a zero threshold raises ZeroDivisionError (proved)."
  },
  {
   "property": "C37",
   "status": "proved",
   "theorems": [
    "C37_qmu_inverse",
    "C37_qmutilda_inverse",
    "C37_qmutilda_inverse_refuted",
    "C37_tmu_inverse_refuted"
   ],
   "note": "The intended unrestricted property (field 'intended' in properties.jsonl) is false of the code, as the _refuted theorems prove; the statement is the exact behaviour. q_mu: both round trips proved. q~_mu: the code compares the quantile with the threshold instead of its square root; the exact set of p-values where the round trip holds and fails is proved, with a witness. t_mu uses the normal quantile instead of chi2 (refuted)."
  },
  {
   "property": "C38",
   "status": "proved",
   "theorems": [
    "C38_qmu_cls",
    "C38_qmutilda_cls",
    "C38_qmutilda_t0_refuted",
    "C38_zero_clb"
   ],
   "note": "The intended unrestricted property (field 'intended' in properties.jsonl) is false of the code, as the _refuted theorems prove; the statement is the exact behaviour. Proved for q_mu and q~_mu as built by the calculators (A_0 > 0 for q~). With an explicit t_0, CLb ignores it and CLs can exceed 1 (refuted)."
  },
  {
   "property": "C39",
   "status": "proved",
   "theorems": [
    "C39_common_best_fit",
    "C39_more_points"
   ],
   "note": "Non-negativity, zero at the best point, and monotonicity in the set of hypotheses, for all lists of hypotheses that are not confused by the hash."
  },
  {
   "property": "C40",
   "status": "proved",
   "theorems": [
    "C40_mid_p",
    "C40_monotone",
    "C40_order_independent",
    "C40_error",
    "C40_unsorted_file_refuted",
    "C40_saved_mid_p"
   ],
   "note": "The intended unrestricted property (field 'intended' in properties.jsonl) is false of the code, as the _refuted theorems prove; the statement is the exact behaviour. Mid-p definition, range, monotonicity, order independence and error proved for in-memory samples and for files saved with the default sorting, with numpy's binary search modelled. False for files saved with sort_before_saving=False (refuted)."
  },
  {
   "property": "C41",
   "status": "proved",
   "theorems": [
    "C41_quantile",
    "C41_monotone",
    "C41_fraction_one_refuted",
    "C41_invalid_fraction"
   ],
   "note": "The intended unrestricted property (field 'intended' in properties.jsonl) is false of the code, as the _refuted theorems prove; the statement is the exact behaviour. Proved for fractions in [0,1); the fraction 1 always raises IndexError (refuted)."
  },
  {
   "property": "C42",
   "status": "proved",
   "theorems": [
    "C42_cut",
    "C42_zero_bound_refuted"
   ],
   "note": "The intended unrestricted property (field 'intended' in properties.jsonl) is false of the code, as the _refuted theorems prove; the statement is the exact behaviour. Proved for non-zero bounds; a bound equal to zero is ignored (refuted)."
  },
  {
   "property": "C43",
   "status": "proved",
   "theorems": [
    "C43_roundtrip",
    "C43_requested_number",
    "C43_truncation_bias",
    "C43_truncation_refuted"
   ],
   "note": "The intended unrestricted property (field 'intended' in properties.jsonl) is false of the code, as the _refuted theorems prove; the statement is the exact behaviour. Round trip and requested number proved. The values kept when the file has more than requested are the smallest ones, so p-values are biased upwards (direction proved, refuted as unbiased)."
  },
  {
   "property": "C44",
   "status": "proved",
   "theorems": [
    "C44_all_finished_complete",
    "C44_exclusive_once",
    "C44_race_refuted",
    "C44_stale_look_refuted",
    "C44_load_incomplete_refuted",
    "C44_stale_lock_refuted",
    "C44_incomplete_file_refuted",
    "C44_break_locks_recovers"
   ],
   "note": "The intended unrestricted property (field 'intended' in properties.jsonl) is false of the code, as the _refuted theorems prove; the statement is the exact behaviour. Transition system with any number of jobs, schedules and crashes. Proved: if all jobs end, all files are complete; under exclusive check-and-lock, at most one production. Refuted: race, stale look, load of a file being written, stale lock never produced, incomplete file never repaired."
  },
  {
   "property": "C45",
   "status": "proved",
   "theorems": [
    "C45_same_file_iff",
    "C45_distinct_files",
    "C45_collision_refuted"
   ],
   "note": "The intended unrestricted property (field 'intended' in properties.jsonl) is false of the code, as the _refuted theorems prove; the statement is the exact behaviour. '%g' modelled down to characters. Proved: same file iff the values agree to six significant digits, hence distinct files when they differ by more than 1e-5 relative. Refuted for closer values."
  },
  {
   "property": "C46",
   "status": "proved",
   "theorems": [
    "C46_cls",
    "C46_error",
    "C46_bands_ordered"
   ],
   "note": "Ratio, range, errors and ordered bands."
  },
  {
   "property": "C47",
   "status": "proved",
   "theorems": [
    "C47_values_are_the_first_successes",
    "C47_terminates_with_enough_successes",
    "C47_gives_up_refuted",
    "C47_samplers_refuted"
   ],
   "note": "The intended unrestricted property (field 'intended' in properties.jsonl) is false of the code, as the _refuted theorems prove; the statement is the exact behaviour. Exact number and identity of the values, and retries, proved for all sequences of outcomes; giving up after the maximum number of tries is refuted (the loop never ends), as is the use of the scan and limit samplers."
  },
  {
   "property": "C48",
   "status": "proved",
   "theorems": [
    "C48_crossings",
    "C48_crossings_with_errors",
    "C48_limit",
    "C48_requested_level_refuted",
    "C48_other_orders_refuted",
    "C48_few_points_refuted"
   ],
   "note": "The intended unrestricted property (field 'intended' in properties.jsonl) is false of the code, as the _refuted theorems prove; the statement is the exact behaviour. Crossings lie on the interpolated curve and increase, under the stated contract of scipy's cubic roots; the requested confidence level of the limit is ignored, other orders and few points give no crossing (refuted)."
  },
  {
   "property": "C49",
   "status": "proved",
   "theorems": [
    "C49_minimum",
    "C49_maximum",
    "C49_minima_fallback_refuted"
   ],
   "note": "The intended unrestricted property (field 'intended' in properties.jsonl) is false of the code, as the _refuted theorems prove; the statement is the exact behaviour. Minimum and maximum over the points proved; the fallback of the list of minima is refuted."
  },
  {
   "property": "C50",
   "status": "proved",
   "theorems": [
    "C50_interval",
    "C50_two_sided",
    "C50_more_crossings_refuted",
    "C50_four_points_refuted"
   ],
   "note": "The intended unrestricted property (field 'intended' in properties.jsonl) is false of the code, as the _refuted theorems prove; the statement is the exact behaviour. Errors from the first two crossings, and positivity of both errors for a two-sided interval (intermediate value theorem), proved; more than two crossings and four-point scans refuted."
  },
  {
   "property": "C51",
   "status": "proved",
   "theorems": [
    "C51_equality_is_same_contents",
    "C51_same_order_found",
    "C51_different_not_confused",
    "C51_other_order_refuted"
   ],
   "note": "The intended unrestricted property (field 'intended' in properties.jsonl) is false of the code, as the _refuted theorems prove; the statement is the exact behaviour. Equality, lookup with same insertion order, and no confusion proved; lookup with another order refuted when the hashes differ."
  },
  {
   "property": "C52",
   "status": "proved",
   "theorems": [
    "C52_roundtrip",
    "C52_fit_roundtrip",
    "C52_fit_with_hypo_roundtrip",
    "C52_ranges_refuted"
   ],
   "note": "The intended unrestricted property (field 'intended' in properties.jsonl) is false of the code, as the _refuted theorems prove; the statement is the exact behaviour. Round trip proved for saved results; parameter ranges become 0 (refuted)."
  },
  {
   "property": "C53",
   "status": "proved",
   "theorems": [
    "C53_global_option_has_no_effect",
    "C53_tmu_from_own_fits",
    "C53_common_free_fit",
    "C53_global_best_fit_refuted"
   ],
   "note": "The intended unrestricted property (field 'intended' in properties.jsonl) is false of the code, as the _refuted theorems prove; the statement is the exact behaviour. Test statistics from each point's own fits proved; the global best-fit option has no effect (refuted)."
  },
  {
   "property": "C54",
   "status": "proved",
   "theorems": [
    "C54_is_filled",
    "C54_restricted_refuted"
   ],
   "note": "The intended unrestricted property (field 'intended' in properties.jsonl) is false of the code, as the _refuted theorems prove; the statement is the exact behaviour. Unrestricted test proved; the restricted flags always give true (refuted)."
  },
  {
   "property": "C55",
   "status": "proved",
   "theorems": [
    "C55_test_value",
    "C55_intersection",
    "C55_commutative",
    "C55_associative",
    "C55_idempotent",
    "C55_unset_neutral",
    "C55_fixed_free",
    "C55_unset_is_fixed_refuted",
    "C55_parameter_test"
   ],
   "note": "All stated laws proved. Additionally refuted: is_fixed reports an unset bound as fixed (C55_unset_is_fixed_refuted)."
  },
  {
   "property": "C56",
   "status": "proved",
   "theorems": [
    "C56_removes_exactly_the_designated",
    "C56_predictions",
    "C56_prune",
    "C56_pruned_are_small",
    "C56_linear_refuted",
    "C56_default_value_refuted",
    "C56_pattern_value_refuted",
    "C56_zero_norm_refuted",
    "C56_expression_refuted",
    "C56_prune_missing_impact_refuted",
    "C56_prune_same_sign_refuted",
    "C56_auxiliary_observables"
   ],
   "note": "The intended unrestricted property (field 'intended' in properties.jsonl) is false of the code, as the _refuted theorems prove; the statement is the exact behaviour. Proved for all models with the exponential form and no cutoff: exactly the designated NPs are removed, and all bin yields of the reduced model equal those of the original with the removed NPs at the removal values (also for prune, with pruned NPs at 0); pruned NPs have small symmetric impact. Refuted in the code: linear form, default removal value (unscaled nominal used as scaled), values given with a pattern ignored, zero reference normalization, NPs in expressions, prune with a missing impact, prune of same-sign impacts."
  },
  {
   "property": "C57",
   "status": "proved",
   "theorems": [
    "C57_prunes_exactly_the_negligible",
    "C57_large_sample_kept",
    "C57_predictions",
    "C57_all_samples_pruned_refuted"
   ],
   "note": "The intended unrestricted property (field 'intended' in properties.jsonl) is false of the code, as the _refuted theorems prove; the statement is the exact behaviour. Proved for all models: a sample is dropped exactly when its significance in its channel is below the threshold, all others are kept unchanged, and the predictions are those of the original model without the dropped samples. Refuted: when every sample of a channel is below the threshold, the channel becomes empty (C57_all_samples_pruned_refuted)."
  },
  {
   "property": "C58",
   "status": "proved",
   "theorems": [
    "C58_common_impact_refuted",
    "C58_norms_refuted",
    "C58_cutoff_refuted",
    "C58_unknown_channel",
    "C58_merged_yields",
    "C58_other_channels",
    "C58_merged_data"
   ],
   "note": "The intended unrestricted property (field 'intended' in properties.jsonl) is false of the code, as the _refuted theorems prove; the statement is the exact behaviour. Proved for counting channels with bin-wise +1/-1 impact tables and equal norms for samples of the same name, zero cutoff. False without these: refuted for common impacts of multi-bin channels (the merge raises ValueError), different norms, cutoff (lost), unknown first channel (KeyError instead of None)."
  },
  {
   "property": "C59",
   "status": "proved",
   "theorems": [
    "C59_removes_exactly_the_designated",
    "C59_predictions",
    "C59_direct_norm_refuted",
    "C59_constant_expression_refuted",
    "C59_two_pois_refuted",
    "C59_product_refuted"
   ],
   "note": "The intended unrestricted property (field 'intended' in properties.jsonl) is false of the code, as the _refuted theorems prove; the statement is the exact behaviour. Proved: exactly the designated POIs are removed, and predictions are preserved for replacements in expressions that remain expressions. Refuted in the code: a POI used directly as a normalization, an expression that becomes constant, two removed POIs in one expression, and a POI in a product all raise or give wrong results."
  },
  {
   "property": "C60",
   "status": "proved",
   "theorems": [
    "C60_every_channel_present",
    "C60_distinct_channels_kept",
    "C60_predictions",
    "C60_check_refuted",
    "C60_overlap_accepted_refuted",
    "C60_parameters_dropped_refuted",
    "C60_bin_count_refuted",
    "C60_merged_object_unusable_refuted",
    "C60_offsets",
    "C60_offsets_refuted"
   ],
   "note": "The intended unrestricted property (field 'intended' in properties.jsonl) is false of the code, as the _refuted theorems prove; the statement is the exact behaviour. Proved: every channel of the inputs is present in the merged model, distinct channels are kept unchanged; predictions of a model rebuilt from the merged channels agree. Refuted: check reads a missing attribute; overlapping channels are accepted and overwritten; extra parameters are dropped; bins are over-counted; the merged object cannot be evaluated."
  },
  {
   "property": "C61",
   "status": "proved",
   "theorems": [
    "C61_nothing_missing",
    "C61_command_line",
    "C61_full_grid",
    "C61_grid_members",
    "C61_grid_size",
    "C61_nothing_else",
    "C61_distinct_parameters",
    "C61_linear_range",
    "C61_several_ranges",
    "C61_single_value",
    "C61_log_range_refuted"
   ],
   "note": "The intended unrestricted property (field 'intended' in properties.jsonl) is false of the code, as the _refuted theorems prove; the statement is the exact behaviour. Full grid, exact members and size, for every list of assignments and every range given with a number of points; log ranges, which are documented, are always refused (math not imported): refuted. The recursion depth is an explicit bound in the hypotheses."
  },
  {
   "property": "C62",
   "status": "proved",
   "theorems": [
    "C62_assignments",
    "C62_unknown_parameters_refused",
    "C62_one_np_scaled",
    "C62_second_np_refuted"
   ],
   "note": "The intended unrestricted property (field 'intended' in properties.jsonl) is false of the code, as the _refuted theorems prove; the statement is the exact behaviour. Without scaling: every sequence of assignments. With scaling: one matching NP (guarded); with two matching NPs the second gets the scaled value of the scaled value of the first: refuted."
  },
  {
   "property": "C63",
   "status": "proved",
   "theorems": [
    "C63_ranges",
    "C63_untouched",
    "C63_last_assignment_wins",
    "C63_not_atomic_refuted",
    "C63_bad_number_refused"
   ],
   "note": "The intended unrestricted property (field 'intended' in properties.jsonl) is false of the code, as the _refuted theorems prove; the statement is the exact behaviour. Exact bounds for every sequence of valid assignments; an invalid assignment leaves the effect of the ones before it in the model: refuted atomicity."
  },
  {
   "property": "C64",
   "status": "proved",
   "theorems": [
    "C64_conversion",
    "C64_varied_yields",
    "C64_same_sign_refuted",
    "C64_overall_after_by_bin_refuted",
    "C64_normfactor_undeclared_refuted",
    "C64_modifier_named_as_normfactor_refuted",
    "C64_empty_bin_refuted",
    "C64_lumi_of_first_measurement_refuted",
    "C64_auxdata_ignored_refuted"
   ],
   "note": "The intended unrestricted property (field 'intended' in properties.jsonl) is false of the code, as the _refuted theorems prove; the statement is the exact behaviour. Proved for valid inputs (up and down variations of opposite signs, no overall variation after a bin-by-bin variation of the same parameter in more than two bins, non-zero yields, normfactor names distinct from those of the other modifiers). Refuted outside: a same-sign bin zeroes or inverts the impacts of all bins, truncation to two bins, undeclared normfactors, dropped modifiers named as the normfactor, empty bins make the conversion fail, the lumi uncertainty of the first measurement is used, auxdata is ignored."
  },
  {
   "property": "C65",
   "status": "proved",
   "theorems": [
    "C65_explicit_impacts_kept",
    "C65_implicit_impact_of_np",
    "C65_implicit_impact_expression_refuted"
   ],
   "note": "The intended unrestricted property (field 'intended' in properties.jsonl) is false of the code, as the _refuted theorems prove; the statement is the exact behaviour. Norms given directly by the NP; other expressions are refuted."
  },
  {
   "property": "C66",
   "status": "proved",
   "theorems": [
    "C66_channel_save_load_roundtrip",
    "C66_gaussian_becomes_poisson_refuted",
    "C66_clone_is_identical",
    "C66_gaussian_clone_refuted"
   ],
   "note": "The intended unrestricted property (field 'intended' in properties.jsonl) is false of the code, as the _refuted theorems prove; the statement is the exact behaviour. All kinds but Gaussian, which cannot be reloaded (refuted)."
  },
  {
   "property": "C67",
   "status": "proved",
   "theorems": [
    "C67_clone_is_identical",
    "C67_clone_loses_cutoff_refuted",
    "C67_gaussian_clone_refuted"
   ],
   "note": "The intended unrestricted property (field 'intended' in properties.jsonl) is false of the code, as the _refuted theorems prove; the statement is the exact behaviour. Clone of a complete model without Gaussian channels is identical, internal variables included, except for the cutoff. Refuted: the cutoff is reset to 0, and Gaussian channels with samples cannot be cloned."
  },
  {
   "property": "C68",
   "status": "proved",
   "theorems": [
    "C68_load_ignores_previous_contents",
    "C68_expressions_not_reset_refuted"
   ],
   "note": "The intended unrestricted property (field 'intended' in properties.jsonl) is false of the code, as the _refuted theorems prove; the statement is the exact behaviour. Loading depends on the previous contents only through the expressions and options. Refuted: expressions are not reset, so a name present in both makes loading fail and the others are kept."
  },
  {
   "property": "C69",
   "status": "proved",
   "theorems": [
    "C69_profile_parameters",
    "C69_profile_other_formats_refuted"
   ],
   "note": "The intended unrestricted property (field 'intended' in properties.jsonl) is false of the code, as the _refuted theorems prove; the statement is the exact behaviour. Refuted: any format other than a Parameters object raises NameError. Only the Parameters format works (C29, C30)."
  },
  {
   "property": "C70",
   "status": "proved",
   "theorems": [
    "C70_parameters_match_likelihood",
    "C70_last_evaluation_refuted",
    "C70_cg_verbose_refuted"
   ],
   "note": "The intended unrestricted property (field 'intended' in properties.jsonl) is false of the code, as the _refuted theorems prove; the statement is the exact behaviour. Proved when the optimization routine ends at its result; refuted otherwise, and for CG with positive verbosity."
  },
  {
   "property": "C71",
   "status": "proved",
   "theorems": [
    "C71_selection",
    "C71_kept_toys_pass_the_tests",
    "C71_failing_toys_are_dropped",
    "C71_bounds_test_the_shifts_refuted"
   ],
   "note": "The intended unrestricted property (field 'intended' in properties.jsonl) is false of the code, as the _refuted theorems prove; the statement is the exact behaviour. The selection logic is proved; the tested values are refuted: they are the NP shifts with opposite sign, not the best fit."
  },
  {
   "property": "C72",
   "status": "proved",
   "theorems": [
    "C72_asimov_same_order",
    "C72_asimov_wrong_size",
    "C72_asimov_other_order_refuted"
   ],
   "note": "The intended unrestricted property (field 'intended' in properties.jsonl) is false of the code, as the _refuted theorems prove; the statement is the exact behaviour. Proved when both rasters have the same order; refuted otherwise (values attached by position)."
  },
  {
   "property": "C73",
   "status": "proved",
   "theorems": [
    "C73_raster_roundtrip",
    "C73_pv_with_error_refuted",
    "C73_value_type_changes_refuted",
    "C73_full_hypothesis_refuted",
    "C73_single_point_refuted"
   ],
   "note": "The intended unrestricted property (field 'intended' in properties.jsonl) is false of the code, as the _refuted theorems prove; the statement is the exact behaviour. Proved for numeric values; refuted: pairs become lists, nuisance parameters of the full hypothesis are lost, rasters of one point."
  },
  {
   "property": "C74",
   "status": "proved",
   "theorems": [
    "C74_reported_level",
    "C74_level_required"
   ],
   "note": ""
  },
  {
   "property": "C75",
   "status": "proved",
   "theorems": [
    "C75_common_parameters",
    "C75_two_parameters",
    "C75_named_parameters",
    "C75_find_poi",
    "C75_unknown_name_refuted",
    "C75_single_point_refuted",
    "C75_best_fit_fallback"
   ],
   "note": "The intended unrestricted property (field 'intended' in properties.jsonl) is false of the code, as the _refuted theorems prove; the statement is the exact behaviour. Proved for known names and positions and for the fallback; unknown names give NameError instead of KeyError, and single-point rasters have no parameter (refuted)."
  },
  {
   "property": "C76",
   "status": "proved",
   "theorems": [
    "C76_own_fits",
    "C76_single_fit",
    "C76_unknown_mode"
   ],
   "note": "Default mode: own fits of each point, independent of the other points when the method suits the number of free POIs; single mode: one common free fit."
  },
  {
   "property": "C77",
   "status": "proved",
   "theorems": [
    "C77_single_test_not_negative",
    "C77_pvalues_consistent",
    "C77_single_test_consistent",
    "C77_negative_tmu_refuted",
    "C77_stored_fits"
   ],
   "note": "The intended unrestricted property (field 'intended' in properties.jsonl) is false of the code, as the _refuted theorems prove; the statement is the exact behaviour. Consistency proved for all points; non-negativity proved for single tests and refuted for rasters, which recompute t_mu."
  },
  {
   "property": "C78",
   "status": "proved",
   "theorems": [
    "C78_bounds_used",
    "C78_tmu_drops_bounds_refuted",
    "C78_plain_hypotheses_refuted"
   ],
   "note": "The intended unrestricted property (field 'intended' in properties.jsonl) is false of the code, as the _refuted theorems prove; the statement is the exact behaviour. Bounds used by the general method; refuted for the t_mu calculator, as are plain dictionaries."
  },
  {
   "property": "C79",
   "status": "proved",
   "theorems": [
    "C79_merged_markup_refuted",
    "C79_reload_with_description"
   ],
   "note": "The intended unrestricted property (field 'intended' in properties.jsonl) is false of the code, as the _refuted theorems prove; the statement is the exact behaviour. False in the code: the description of the merged model is the verbosity integer and load_dict refuses it; the refutation is proved for all models."
  },
  {
   "property": "C80",
   "status": "proved",
   "theorems": [
    "C80_merge_changes_original_refuted",
    "C80_rest_unchanged"
   ],
   "note": "The intended unrestricted property (field 'intended' in properties.jsonl) is false of the code, as the _refuted theorems prove; the statement is the exact behaviour. False in the code for the impacts (refuted); proved for everything else: the other channels, names, norms, nominal norms and yields."
  },
  {
   "property": "C81",
   "status": "proved",
   "theorems": [
    "C81_likelihood_is_product",
    "C81_yields_of_the_channels",
    "C81_inverse_covariance"
   ],
   "note": ""
  },
  {
   "property": "C82",
   "status": "proved",
   "theorems": [
    "C82_added_pois",
    "C82_duplicate_pois_are_refused",
    "C82_refuted_collision_with_an_np",
    "C82_added_expressions",
    "C82_duplicate_expressions_are_refused",
    "C82_updated_norms",
    "C82_ambiguous_norms"
   ],
   "note": "The intended unrestricted property (field 'intended' in properties.jsonl) is false of the code, as the _refuted theorems prove; the statement is the exact behaviour. Holds for POIs against POIs, expressions against expressions, and for the normalizations; false for a new POI that has the name of an NP (refuted theorem). The in-place changes made before an error are not modelled."
  },
  {
   "property": "C83",
   "status": "proved",
   "theorems": [
    "C83_three_fields",
    "C83_two_fields_refuted",
    "C83_value_alone_refuted",
    "C83_names"
   ],
   "note": "The intended unrestricted property (field 'intended' in properties.jsonl) is false of the code, as the _refuted theorems prove; the statement is the exact behaviour. value:min:max with optional fields is exact, and names are checked; the documented value:min is read as min:max and the documented value alone is refused: refuted."
  },
  {
   "property": "C84",
   "status": "proved",
   "theorems": [
    "C84_observed_data"
   ],
   "note": "For every pyhf input that converts and loads (channels with at least one bin, an observation of the right size for every channel). The central values 'auxdata' of the pyhf file are not used by the code (C64_auxdata_ignored_refuted)."
  },
  {
   "property": "C85",
   "status": "proved",
   "theorems": [
    "C85_optimization",
    "C85_after_initialization",
    "C85_np_range_refuted"
   ],
   "note": "The intended unrestricted property (field 'intended' in properties.jsonl) is false of the code, as the _refuted theorems prove; the statement is the exact behaviour. What is handed to the optimizer: x0, bounds, gradient choice and objective. The refuted part: a range given for a nuisance parameter is counted as a free POI (IndexError). Not modelled: the internals of scipy.optimize; the Jacobian having one component per POI also when some POIs are fixed."
  },
  {
   "property": "C86",
   "status": "proved",
   "theorems": [
    "C86_poisson_counts",
    "C86_gaussian_counts",
    "C86_auxiliary_observables",
    "C86_constraint_term",
    "C86_standard_pulls",
    "C86_width_refuted",
    "C86_gaussian_channels_refuted"
   ],
   "note": "The intended unrestricted property (field 'intended' in properties.jsonl) is false of the code, as the _refuted theorems prove; the statement is the exact behaviour. Counts: means proved for all models. Auxiliary observables: draws around the NP value proved; their width is the unscaled constraint while the likelihood uses the scaled one, so pulls are standard only for unit variations (general formula proved, refuted otherwise). Gaussian channels: drawn with the inverse covariance (refuted)."
  },
  {
   "property": "C87",
   "status": "proved",
   "theorems": [
    "C87_covariance_is_inverse",
    "C87_errors",
    "C87_correlations",
    "C87_one_poi",
    "C87_no_covariance"
   ],
   "note": "For every model, point and dataset where the second derivatives of the likelihood in the POIs (at fixed NPs, which is what the code inverts) are positive definite, under the contract that np.linalg.inv returns an inverse. If the matrix cannot be inverted an AttributeError is raised (C87_no_covariance)."
  },
  {
   "property": "C88",
   "status": "proved",
   "theorems": [
    "C88_set_constraint_refuted",
    "C88_set_constraint_exact"
   ],
   "note": "The intended unrestricted property (field 'intended' in properties.jsonl) is false of the code, as the _refuted theorems prove; the statement is the exact behaviour. False in the code: the loop variable hides the argument and is a string; an exception is raised for every model with NPs (refuted for all models)."
  },
  {
   "property": "C89",
   "status": "proved",
   "theorems": [
    "C89_saved_file_is_loaded",
    "C89_last_save_wins",
    "C89_interrupted_save",
    "C89_save_destroys_file_refuted",
    "C89_explicit_flavor_forgotten_refuted",
    "C89_save_with_model",
    "C89_model_and_data_roundtrip"
   ],
   "note": "The intended unrestricted property (field 'intended' in properties.jsonl) is false of the code, as the _refuted theorems prove; the statement is the exact behaviour. Files: completed saves are read back whatever the history, a kill leaves a prefix in that file only; saving is not atomic and an unsupported flavor empties the file before it is reported (refuted); an explicit flavor is forgotten by the file name (refuted). The round trip of model and data in one file holds for the models and datasets of C17 and C28. dump_markup always raises (it reads the name it assigns), load_markup in yaml depends on the PyYAML version: both outside."
  },
  {
   "property": "C90",
   "status": "proved",
   "theorems": [
    "C90_band_keys",
    "C90_results",
    "C90_bands",
    "C90_bands_misaligned_refuted"
   ],
   "note": "The intended unrestricted property (field 'intended' in properties.jsonl) is false of the code, as the _refuted theorems prove; the statement is the exact behaviour. Positions and results exactly as stated; the bands need the condition of C90_bands (a file with bands but no result shifts them: refuted)."
  },
  {
   "property": "C91",
   "status": "proved",
   "theorems": [
    "C91_bounds",
    "C91_bounds_used",
    "C91_bad_number_refused",
    "C91_malformed_ignored_refuted",
    "C91_documented_form_refuted",
    "C91_unbounded_is_fixed_refuted"
   ],
   "note": "The intended unrestricted property (field 'intended' in properties.jsonl) is false of the code, as the _refuted theorems prove; the statement is the exact behaviour. Reading as documented with ':' (the help text says '#': refuted); extra fields are silently ignored and name=: fixes the parameter (refuted)."
  },
  {
   "property": "C92",
   "status": "proved",
   "theorems": [
    "C92_recomputed",
    "C92_history",
    "C92_stale_results_refuted"
   ],
   "note": "The intended unrestricted property (field 'intended' in properties.jsonl) is false of the code, as the _refuted theorems prove; the statement is the exact behaviour. What every run of any history uses; results are stale when the inputs change without -x (refuted)."
  },
  {
   "property": "C93",
   "status": "proved",
   "theorems": [
    "C93_logint_positions",
    "C93_linear_positions",
    "C93_log_positions",
    "C93_log_count_refuted",
    "C93_listed_positions",
    "C93_invalid_form_refuted",
    "C93_commands",
    "C93_file_names"
   ],
   "note": "The intended unrestricted property (field 'intended' in properties.jsonl) is false of the code, as the _refuted theorems prove; the statement is the exact behaviour. Linear, listed and log positions and the generated commands; the log form gives one value too many and refuses ranges from 1, unknown forms are not refused (refuted)."
  },
  {
   "property": "C94",
   "status": "proved",
   "theorems": [
    "C94_removed_expressions",
    "C94_predictions",
    "C94_unknown_refused",
    "C94_norm_refuted",
    "C94_other_expressions_refuted"
   ],
   "note": "Exact set of removed expressions, predictions, refusals. The documented replacement in normalizations and in other expressions does not happen (C94_norm_refuted, C94_other_expressions_refuted)."
  },
  {
   "property": "C95",
   "status": "proved",
   "theorems": [
    "C95_qmu_density",
    "C95_qmt_density",
    "C95_qmt_zero_threshold",
    "C95_default_argument",
    "C95_at_zero",
    "C95_tmu_density_refuted"
   ],
   "note": "all asymptotic_pdf methods; t_mu returns a distribution object instead of a density (C95_tmu_density_refuted)"
  },
  {
   "property": "C96",
   "status": "proved",
   "theorems": [
    "C96_tabulated_yields",
    "C96_no_failure",
    "C96_separated_terms",
    "C96_samples_add_up",
    "C96_shared_parameter_refuted",
    "C96_out_of_range_refuted"
   ],
   "note": "the ROOT functions are arbitrary functions of the workspace variables; sharing of a normalization parameter and variations beyond the range are refuted as stated in 'intended'"
  },
  {
   "property": "C97",
   "status": "proved",
   "theorems": [
    "C97_packed_within_tolerance",
    "C97_packing_rule",
    "C97_dropped_above_tolerance_refuted"
   ],
   "note": "pack of convert_ws.py; an impact of up to twice the tolerance may be dropped"
  },
  {
   "property": "C98",
   "status": "proved",
   "theorems": [
    "C98_converted_sample",
    "C98_interpolated_yields",
    "C98_normalization_scaling",
    "C98_zero_norm_sample_dropped",
    "C98_samples_with_yields",
    "C98_default_sample_scaling_refuted"
   ],
   "note": "conversion, packing, markup and loading by sample.py composed; default sample with a normalization parameter refuted"
  },
  {
   "property": "C99",
   "status": "proved",
   "theorems": [
    "C99_rows_of_kept_samples",
    "C99_two_empty_samples_refuted"
   ],
   "note": "exact behaviour: right with at most one empty sample, wrong with two or more"
  },
  {
   "property": "C100",
   "status": "proved",
   "theorems": [
    "C100_binning_read",
    "C100_equal_bins",
    "C100_last_bin_missing_refuted",
    "C100_contiguous_ranges",
    "C100_log_bins",
    "C100_log_from_one_rejected"
   ],
   "note": "string parsing of --binning included; numbers are read by arbitrary functions"
  },
  {
   "property": "C101",
   "status": "proved",
   "theorems": [
    "C101_output_file",
    "C101_output_name",
    "C101_np_removed_at_value",
    "C101_dataset_needed_refuted",
    "C101_data_source",
    "C101_counts_truncated_refuted"
   ],
   "note": "the whole run of the command from the input file to the files on disk: C101_output_file (reloading the output gives the pruned model, and the dataset with truncated counts), C101_np_removed_at_value; the intended statement fails for models without dataset (C101_dataset_needed_refuted) and non-integer counts (C101_counts_truncated_refuted)"
  },
  {
   "property": "C102",
   "status": "proved",
   "theorems": [
    "C102_output_file",
    "C102_predictions",
    "C102_files_in_order",
    "C102_missing_file_ignored_refuted",
    "C102_leading_star_refuted",
    "C102_numeric_sort",
    "C102_sort_permutation",
    "C102_sort_as_text_refuted",
    "C102_sort_mixed_refuted"
   ],
   "note": "whole run of the command: C102_output_file, C102_predictions, C102_files_in_order, C102_numeric_sort, C102_sort_permutation; the intended statement fails for names matching nothing, patterns starting with a star, and sorting of numbers next to letters or underscores (C102_*_refuted)"
  },
  {
   "property": "C103",
   "status": "proved",
   "theorems": [
    "C103_specification",
    "C103_partial_ranges",
    "C103_output_unreadable_refuted",
    "C103_files_touched",
    "C103_unknown_channel",
    "C103_model_file",
    "C103_data_file"
   ],
   "note": "whole run of the command: C103_specification, C103_partial_ranges, C103_model_file, C103_data_file, C103_files_touched, C103_unknown_channel; the intended statement fails since the output model cannot be loaded (C103_output_unreadable_refuted)"
  },
  {
   "property": "C104",
   "status": "proved",
   "theorems": [
    "C104_removed",
    "C104_file_replacements",
    "C104_pois_of_the_file",
    "C104_pois_kept",
    "C104_added_poi_dropped_refuted",
    "C104_pattern_refuted",
    "C104_number_norm_refuted",
    "C104_formula_refuted",
    "C104_unreadable_file_refuted",
    "C104_line_replacement_refuted",
    "C104_dangling_refuted"
   ],
   "note": "whole run of the command: C104_removed, C104_pois_of_the_file; the intended statement fails for POIs given both by file and command line (C104_added_poi_dropped_refuted, C104_dangling_refuted), patterns, replacement values, numeric norms and formulas of the command line and unreadable option files (C104_*_refuted)"
  },
  {
   "property": "C105",
   "status": "proved",
   "theorems": [
    "C105_model",
    "C105_results",
    "C105_dataset"
   ],
   "note": "Batch mode. The likelihood fits are the ones of the model of the calculators; splines, quantiles and repr() of floats are parameters. The interval itself is the subject of C50, the computation of t_mu of C39 and C76."
  },
  {
   "property": "C106",
   "status": "proved",
   "theorems": [
    "C106_stored_hypotheses",
    "C106_rerun_same",
    "C106_mismatch_reported",
    "C106_recomputed",
    "C106_damaged_reported",
    "C106_stale_results_refuted",
    "C106_repeated_hypothesis_refuted",
    "C106_force_without_hypotheses_refuted"
   ],
   "note": "Batch mode. The rerun theorem is for scans of one POI with distinct hypotheses; the false parts (stale results, repeated hypotheses, forced run without hypotheses) are the _refuted theorems."
  },
  {
   "property": "C107",
   "status": "proved",
   "theorems": [
    "C107_two_parameters_best_fit",
    "C107_only_two_files",
    "C107_too_many_parameters_refused",
    "C107_regularize_refuted",
    "C107_documented_mode_refuted",
    "C107_documented_separator_refuted",
    "C107_timing_refuted",
    "C107_invalid_level_refuted",
    "C107_incompatible_hypotheses_refuted",
    "C107_two_parameters_no_results_refuted",
    "C107_asimov_nps_ignored_refuted"
   ],
   "note": "Batch mode. The options that do not do what their help says are the _refuted theorems."
  },
  {
   "property": "C108",
   "status": "proved",
   "theorems": [
    "C108_init",
    "C108_first_run",
    "C108_resumed_run",
    "C108_later_session",
    "C108_clb_files_distinct",
    "C108_cls",
    "C108_generate_refuted",
    "C108_load_missing_refuted",
    "C108_locked_refuted",
    "C108_failure_leaves_lock_refuted",
    "C108_shared_file_refuted",
    "C108_no_samplers",
    "C108_cut"
   ],
   "note": "One process at a time (several: C44). Proved for any set of hypotheses that give values to the same parameters and differ within six significant digits. False in the code and stated as such: generate() always fails, load() hides the missing file behind a NameError, locked hypotheses are skipped and their p-values are then missing, a failure leaves its lock, hypotheses that agree to six digits share their samples."
  },
  {
   "property": "C109",
   "status": "proved",
   "theorems": [
    "C109_model",
    "C109_bounds",
    "C109_results",
    "C109_limit_is_crossing",
    "C109_only_two_files",
    "C109_reads_only",
    "C109_dataset",
    "C109_asimov_other_names_refuted",
    "C109_rerun_same",
    "C109_stale_refuted",
    "C109_overwrite_recomputes",
    "C109_damaged_refuted",
    "C109_level_refuted",
    "C109_iterations_refuted",
    "C109_refused",
    "C109_regularize_refuted",
    "C109_np_bound_refuted",
    "C109_single_hypothesis_refuted",
    "C109_few_points_refuted"
   ],
   "note": "Batch mode, one process, argparse and printing not modelled; the limits from toys are in C110. Proved for any libraries (minimizer that evaluates its objective, hash, spline, distribution functions), models and files. False in the code and stated as such: a stored raster is used whatever the data and hypotheses asked for; --cl changes nothing but the recorded level; -i changes nothing without toys; --regularize always fails; a bound on a nuisance parameter fails; a single hypothesis fails after the raster is written; fewer than four hypotheses give nulls with a success status; a damaged raster file ends the run even with -x."
  },
  {
   "property": "C110",
   "status": "proved",
   "theorems": [
    "C110_results",
    "C110_locked_refuted",
    "C110_rerun_same"
   ],
   "note": "C110_results: model of compute_fast_limits.run with --ntoys > 0 (LimitCommand.v) for one parameter of interest; what an OptiSampler draws (ll_toys), the spline, norm.cdf and the optimizers are arbitrary functions. C110_rerun_same: a second run with any other toys changes no file. C110_locked_refuted: the intended behaviour with a lock left behind (missing sample skipped, the rest used) does not hold: the run fails and writes no results."
  },
  {
   "property": "C111",
   "status": "proved",
   "theorems": [
    "C111_results",
    "C111_missing_sample_refuted",
    "C111_first_toy_refuted",
    "C111_data_refuted",
    "C111_refused",
    "C111_single_hypothesis_refuted",
    "C111_no_samples_refuted",
    "C111_no_results_refuted",
    "C111_inputs_kept",
    "C111_regularize_refuted",
    "C111_sethypo_refuted",
    "C111_asimov_refuted",
    "C111_bounds_refuted",
    "C111_inputs"
   ],
   "note": "compute_limits.py run in batch mode, from the fits file and the stored samples to the results file: values written (C111_results), inputs kept, refused requests; the intended toy generation, --regularize, --sethypo, --asimov, --bounds, --iterations, --data-file, single-hypothesis files and runs without toys are refuted. Distributions, splines, fits of the linear model and the toy generator are parameters; argparse, printing, plotting and --debug are not modelled."
  },
  {
   "property": "C112",
   "status": "proved",
   "theorems": [
    "C112_results",
    "C112_minimum",
    "C112_model",
    "C112_dataset",
    "C112_only_output",
    "C112_hypothesis_kept_apart",
    "C112_hypothesis_loses_results_refuted",
    "C112_hypothesis_test",
    "C112_iterations_refuted",
    "C112_regularize_refuted",
    "C112_failed_fit",
    "C112_singular_refuted",
    "C112_name_clash_refuted"
   ],
   "note": "The fits, np.linalg.inv, scipy.stats and the JSON codec are parameters; at_result/finds_minimum state what is assumed of scipy.optimize. Options read from argv, --plot-result and the contents of the plots are not modelled. False parts are the _refuted theorems."
  },
  {
   "property": "C113",
   "status": "proved",
   "theorems": [
    "C113_results",
    "C113_agreement",
    "C113_inputs",
    "C113_options_refuted",
    "C113_refused",
    "C113_single_hypothesis_refuted",
    "C113_batch"
   ],
   "note": "The fits, scipy.stats and the JSON codec are parameters. The printed table is modelled by its numbers for verbosity up to 1 in the theorem, the plots by their curves. False parts are the _refuted theorems."
  },
  {
   "property": "C114",
   "status": "proved",
   "theorems": [
    "C114_impacts",
    "C114_one_sigma",
    "C114_units_refuted",
    "C114_order",
    "C114_package_minimizers_refuted",
    "C114_plot_file",
    "C114_command_refuted",
    "C114_command_no_nps",
    "C114_output_name"
   ],
   "note": "Impacts.v models PlotImpacts.impacts, the file of PlotImpacts.plot and plot_impacts.run. The fits are a parameter (any function of the model and the dataset); drawing is taken to succeed. Units and clone call are refuted."
  },
  {
   "property": "C115",
   "status": "proved",
   "theorems": [
    "C115_saved",
    "C115_missing",
    "C115_unknown_markup_refuted",
    "C115_extension_refuted"
   ],
   "note": "Snapshot.v models import_snapshot.run; what ROOT returns for a file is a parameter."
  }
 ]
}