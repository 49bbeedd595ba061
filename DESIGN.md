# Formal model of fastprof in Rocq (Coq 8.16.1)

## Approach

The repository is read as text and transcribed function by function into small total Gallina functions.
`/verif/rocq/theories/` contains, for every source file `X.py` that is modelled,

* `X.v`       the model (definitions only; each definition cites the file and lines it models),
* `XFacts.v`  lemmas,
* `XProps.v`  the property theorems (one line proofs from the lemmas, `Print Assumptions` below each), next to
              `Example`s showing that their hypotheses are met by a concrete non-trivial case.

Conventions

* Python exceptions are values: `res A := Ok a | Err e` with `e` the exception class.
* Python dictionaries are insertion-ordered association lists with string keys.
* Python and numpy floats are exact real numbers (`R`).  Rounding, overflow, NaN and infinities are NOT modelled,
  except where the code branches on NaN, where NaN is an explicit case.
* Mutation becomes returning the new value. Loops become structural recursion or recursion on explicit fuel.
* Calls to numerical libraries (`np.linalg.solve`, `scipy.optimize.minimize`, `scipy.stats`, random generators) are
  universally quantified functions; what is assumed of them is an explicit hypothesis of each theorem.
* If the unchanged code violates a property, the violation is a theorem `..._refuted : exists ...` and what is true is
  proved as a positive theorem with the precise guard.

## Properties: what is modelled and how each is proved

* **C01 POI save/load round trip** - Records POI, markup values as a tree type; load after fill by computation on the association list; refutation for unset fields.
* **C02 Nuisance parameter and auxiliary observable save/load round trip** - Same as C01 with the conditional fields of NPs.
* **C03 Scaled and physical NP values are inverse of each other** - Field arithmetic over R.
* **C04 Markup field loading contract** - Case analysis on lookup and type list.
* **C05 Gradients of expressions are the true derivatives** - Environment semantics of expressions evaluated in order; Coquelicot is_derive by induction over the expression list.
* **C06 Hessians of expressions are the true second derivatives** - Same, second derivatives; refutation at a vanishing numerator factor.
* **C07 Expression save/load round trip** - load after fill by case analysis.
* **C08 Replacing a parameter by a number preserves the value** - Fold over the coefficient dictionary; substitution lemma.
* **C09 Normalization terms: choice of type and round trip** - Case analysis on markup value, oracle for float-parsable strings.
* **C10 Impact parametrization reproduces every tabulated variation** - Vandermonde system solved by an oracle returning a solution; polynomial evaluation is the matrix row.
* **C11 Impact lookup and symmetrization** - Case analysis over impact representations.
* **C12 Nominal yields are reproduced at nominal parameters** - Field arithmetic over lists.
* **C13 Sample save/load round trip** - load after fill.
* **C14 Dataset save/load round trip** - Per-channel-type save/load; Z truncation of reals.
* **C15 Loading a dataset is all-or-nothing per channel** - Induction on the bin list.
* **C16 Channel bin layout** - Offsets as prefix sums over the ordered channel list; induction.
* **C17 Model save/load round trip** - Composition of the component round trips.
* **C18 Expected yields formula** - Sum over samples of block vectors; induction on channels.
* **C19 NP impact factors** - Real analysis of exp/linear factors.
* **C20 Regularized impact factors stay within the cutoff** - tanh inequalities.
* **C21 Offsetting does not change likelihood differences** - Algebra on sums, symmetric form.
* **C22 Asimov datasets are maximally likely at their generation point** - n log n inequality per bin, positive semidefinite constraint form.
* **C23 Likelihood gradient is correct** - Coquelicot is_derive on finite sums.
* **C24 Likelihood Hessian is correct** - Coquelicot is_derive on the gradient.
* **C25 Parameter vector construction and access** - Case analysis over constructor input; induction over assignment histories.
* **C26 Parameter dictionary round trip** - Induction over parameter names.
* **C27 Auxiliary observables are placed at their constrained NPs** - Induction over the constrained pattern.
* **C28 Dataset loading does not depend on the order of the entries** - Permutation argument on updates at distinct offsets.
* **C29 NP profiling solves the quadratic approximation exactly** - Bilinear algebra; convexity of quadratic forms.
* **C30 NP profiling keeps the POIs and handles degenerate systems** - Case analysis.
* **C31 POI minimizer initialization stays within bounds** - Case analysis over bounds, induction over the POI list.
* **C32 The profile likelihood ratio is never negative** - Case analysis.
* **C33 Minimizer results do not depend on its previous use** - State machine for the minimizer object; refutation by a two-call history.
* **C34 Minimizer copies keep their configuration** - Record comparison; refutation.
* **C35 Sign and definition of the test statistics** - Case analysis over reals.
* **C36 Asymptotic p-values are probabilities and decrease** - Gaussian survival function built from RInt (or hypotheses: decreasing, in [0,1]).
* **C37 Asymptotic test statistic value inverts the p-value** - Inverse function algebra; refutation in the band.
* **C38 CLs is a probability and is conservative** - Monotonicity of the survival function.
* **C39 Scans with a common best fit are non-negative** - Induction over list minimum.
* **C40 Sampling p-values** - Counting over lists, permutation invariance.
* **C41 Sampling quantiles** - Sorted lists, counting; refutation at fraction 1.
* **C42 Cutting a sampling distribution** - List filter; refutation at bound 0.
* **C43 Sampling distribution files** - List prefix.
* **C44 Concurrent and interrupted sample production** - Interleaving transition system with crashes; invariant by induction on traces; refutations by explicit traces.
* **C45 Distinct hypotheses use distinct sample files** - Refutation with %g rounding model; positive part for injective formatting.
* **C46 CLs from sampling** - Case analysis and inequalities.
* **C47 Pseudo-experiment production terminates with exactly the requested number of values** - Fuelled loop over an outcome stream; refutation: no fuel suffices.
* **C48 Scan crossings and limits** - Model of crossing selection; refutation for the ignored confidence level.
* **C49 Scan minimum** - argmin over lists; refutation in fallback.
* **C50 Profile-likelihood intervals** - Case analysis over crossing lists.
* **C51 Equal hypotheses are the same dictionary key** - Dictionary equality vs hash of ordered key list; refutation.
* **C52 Fit results save/load round trip** - load after fill with NP scaling.
* **C53 Global best fit of a raster** - State update model; refutation.
* **C54 Raster completeness test** - Boolean algebra over lists; refutation.
* **C55 Parameter bounds algebra** - Case analysis over optional reals.
* **C56 Removing nuisance parameters preserves the predictions** - Sum and factor algebra.
* **C57 Pruning samples keeps the significant ones** - List filtering with weights.
* **C58 Merging channels preserves the predictions and the data** - Block rearrangement.
* **C59 Removing POIs from a model** - Exception path analysis; refutation.
* **C60 Merging models** - Exception path analysis; refutation.
* **C61 Hypothesis grids are the full cartesian product** - Recursion with a measure (number of unexpanded entries); cartesian product spec.
* **C62 Assignments to several nuisance parameters** - Fold over matches; refutation.
* **C63 Range assignments** - Fold over matches.
* **C64 pyhf conversion keeps yields and impacts** - Model of the conversion function over the pyhf tree.
* **C65 Implicit NP impacts of normalizations** - Gradient of the norm; refutation for general expressions.
* **C66 Channel save/load round trip and copies** - Per-kind computation; Gaussian refuted.
* **C67 Copies of models** - The copy is built by the constructor from the same lists; field by field comparison; refutation for models with options that the copy loses.
* **C68 Loading a model replaces the previous contents** - load_dict as a function of (previous model, markup); independence of the previous contents; refutation.
* **C69 Profiling accepts the documented hypothesis formats** - Case analysis over the formats; NameError for all but Parameters.
* **C70 Best-fit parameters belong to the best-fit likelihood** - The optimizer is an arbitrary caller of the objective; the state it leaves is compared to the result; refutation by an optimizer whose last call is not its best.
* **C71 Toy selection bounds apply to the best-fit parameters** - Case analysis over the bounds; refutation of the values that are tested.
* **C72, C73 Asimov reference and files of rasters** - List and dictionary algebra, load after dump.
* **C74, C75 Scan attributes and two-dimensional best fit** - Case analysis; argmin over lists.
* **C76-C78 Calculators** - State passing through the minimizer; each point depends on its own inputs; refutations for rasters, bounds and dictionaries.
* **C79, C80 Merged models** - Composition of ChannelMerger with save/load; aliasing of impacts as explicit sharing.
* **C81 Likelihood factorization** - Sum over channels of block sums plus quadratic constraint.
* **C82, C94 Reparameterization** - Dictionary algebra, exact sets of changed normalizations, denotational equality of predictions.
* **C83, C91, C93, C100 Command-line specifications** - Strings and a model of str.split, with float() and int() as arbitrary functions; written specifications are read back.
* **C84 pyhf observed data** - Composition of the converter with Data.load_dict.
* **C85 What the minimizer hands to the optimization routine** - The arguments of the call are part of the result of the model.
* **C86 Pseudo-data follow the model** - Random generators as arbitrary functions of their parameters; the parameters are what is characterized.
* **C87 Covariance and correlations** - Positive definite matrices, Cauchy-Schwarz; contract for the matrix inversion.
* **C88 Changing the constraints of a model** - Exception path analysis.
* **C89, C90, C92 Files and histories of runs** - A file system as a map from names to contents, runs as transitions including crashes; invariants over all histories.
* **C95 Asymptotic densities** - Coquelicot derivatives of the p-value functions of C36.
* **C96 Conversion of a workspace channel** - The workspace is an environment with setVal (ranges included), its functions are arbitrary; the loops with their settings and restorings are shown equal to a stateless program, by a projection lemma for each loop, which is then evaluated in closed form.
* **C97 Packing** - Closed form of the averages and of the in-place rounding; triangle inequalities.
* **C98 Converted and loaded channel** - C96, C97, the markup, Sample.load_dict and C10 composed.
* **C99 Validation rows** - Induction over the list of samples with a growing prefix.

## Statements

`properties.jsonl` holds in `statement` what the code does, exactly, and in `intended`, where the two differ, what a user would expect.
Status `proved` means that every clause of `statement` is a theorem; the deviation from `intended` is a theorem with suffix `_refuted`
(the negation, or a concrete execution of the model).  Status `partial` is kept for properties whose statement is not proved in full:

<!-- partial -->
(none at present)
<!-- end partial -->

## Trusted base

* Coq's kernel (8.16.1), and `coqc` reading the sources.  No native_compute or vm_compute-only shortcuts outside of the kernel, no plugins.
* The standard library axioms listed below for each theorem by `Print Assumptions`; no other axioms.  Coquelicot is used, and adds none.
* The transcription from Python to Gallina, which is by hand: each definition cites the lines it models and says what it leaves out.
* Real numbers in the place of floats.  A theorem about equality of results says nothing about rounding.
* The contracts on libraries that appear as hypotheses: `inv_ok` (np.linalg.inv returns an inverse of every invertible matrix), solutions
  of linear systems, `scipy.stats.norm` as a survival function with its derivative, optimizers that only call the objective,
  float()/int()/%g/re.match as arbitrary functions with the stated properties (e.g. `float_of (fmt v) = Some v`).

### Axioms of each theorem (Print Assumptions)

<!-- axioms -->
* **no axioms (closed under the global context)** (93): C07_formula_reload_refuted, C07_untyped_formula_refuted, C25_contains, C26_partial_dict_refuted, C26_set_from_aux_refuted, C44_all_finished_complete, C44_exclusive_once, C44_race_refuted, C44_stale_look_refuted, C44_load_incomplete_refuted, C44_stale_lock_refuted, C44_incomplete_file_refuted, C44_break_locks_recovers, C47_values_are_the_first_successes, C47_terminates_with_enough_successes, C47_gives_up_refuted, C47_samplers_refuted, C54_is_filled, C54_restricted_refuted, C59_constant_expression_refuted, C59_product_refuted, C60_every_channel_present, C60_distinct_channels_kept, C60_check_refuted, C60_bin_count_refuted, C61_nothing_missing, C61_full_grid, C61_grid_members, C61_grid_size, C61_nothing_else, C63_ranges, C63_untouched, C63_last_assignment_wins, C63_not_atomic_refuted, C63_bad_number_refused, C66_clone_is_identical, C66_gaussian_clone_refuted, C69_profile_other_formats_refuted, C72_asimov_same_order, C72_asimov_wrong_size, C73_pv_with_error_refuted, C73_single_point_refuted, C75_find_poi, C75_unknown_name_refuted, C78_plain_hypotheses_refuted, C82_added_pois, C82_duplicate_pois_are_refused, C82_refuted_collision_with_an_np, C82_added_expressions, C82_duplicate_expressions_are_refused, C82_updated_norms, C82_ambiguous_norms, C83_three_fields, C83_two_fields_refuted, C83_value_alone_refuted, C83_names, C89_saved_file_is_loaded, C89_last_save_wins, C89_interrupted_save, C89_save_destroys_file_refuted, C89_explicit_flavor_forgotten_refuted, C90_band_keys, C91_bounds, C91_bounds_used, C91_bad_number_refused, C91_malformed_ignored_refuted, C91_documented_form_refuted, C92_recomputed, C92_history, C92_stale_results_refuted, C93_commands, C93_file_names, C94_removed_expressions, C94_unknown_refused, C94_norm_refuted, C99_rows_of_kept_samples, C99_two_empty_samples_refuted, C101_output_name, C102_files_in_order, C102_numeric_sort, C102_sort_permutation, C102_sort_as_text_refuted, C102_sort_mixed_refuted, C103_specification, C103_partial_ranges, C108_init, C108_generate_refuted, C114_plot_file, C114_output_name, C115_saved, C115_missing, C115_unknown_markup_refuted, C115_extension_refuted

* **`ClassicalDedekindReals.sig_forall_dec`** (52): C01_poi_save_load_roundtrip, C01_poi_save_load_exact, C01_poi_unset_field_lost_refuted, C02_aux_save_load_roundtrip, C02_np_save_load_roundtrip, C02_np_loaded_is_consistent, C02_np_load_save_load_stable, C02_np_values_read, C02_np_inconsistent_lost_refuted, C04_load_field_contract, C04_documented_default_on_wrong_type_refuted, C07_expression_save_load_roundtrip, C09_absent_norm_is_one, C09_number_norm, C09_null_norm_is_null_number, C09_string_norm, C09_other_norm_rejected, C09_numerical_string_rejected, C09_norm_save_load_roundtrip, C11_no_impact_is_zero, C11_single_number_is_proportional, C11_common_table_lookup, C11_per_bin_table_lookup, C11_missing_variation_rejected, C13_sample_save_load_roundtrip, C17_model_save_load_roundtrip, C17_everything_declared_is_loaded, C17_options_not_saved_refuted, C17_gaussian_channels_lost_refuted, C25_built_vectors_have_model_sizes, C25_built_from_dict, C25_missing_nps_are_zero, C25_clone, C25_np_number_refuted, C27_counts_size, C34_clone_keeps_configuration, C34_derivatives_and_verbosity_refuted, C43_requested_number, C52_ranges_refuted, C53_global_option_has_no_effect, C64_auxdata_ignored_refuted, C66_channel_save_load_roundtrip, C66_gaussian_becomes_poisson_refuted, C68_expressions_not_reset_refuted, C74_level_required, C75_common_parameters, C75_two_parameters, C75_named_parameters, C75_single_point_refuted, C90_results, C90_bands, C90_bands_misaligned_refuted

* **`ClassicalDedekindReals.sig_forall_dec`, `FunctionalExtensionality.functional_extensionality_dep`** (130): C03_scaled_of_unscaled, C03_unscaled_of_scaled, C03_scale_anchors_and_pulls, C03_zero_variation_rejected, C11_symmetric_impact, C11_symmetric_impact_antisymmetric, C11_symmetric_impact_fallback, C12_nominal_yields_reproduced, C12_yields_linear_in_norm, C14_dataset_roundtrip, C14_dataset_roundtrip_truncates, C14_noninteger_counts_refuted, C14_gaussian_refuted, C14_wrong_size_rejected, C15_named_bins_load_iff, C15_binned_range_load_iff, C15_single_bin_load_iff, C15_load_keeps_size, C15_rejected_load_changes_counts_refuted, C15_rejected_channel_keeps_later_counts, C25_set_get, C25_set_get_unscaled, C25_unknown_rejected, C25_any_assignment_history, C26_dict_roundtrip, C26_dict_values, C26_missing_parameter_rejected, C26_default_arguments_refuted, C26_nominal_pois_only_refuted, C28_load_order_independent, C31_initial_values_in_bounds, C31_valid_values_kept, C31_fixed_hypothesis, C31_model_range_kept, C31_unbounded_poi_refuted, C32_tmu_value, C32_never_negative, C32_stored_fits, C32_second_attempt, C32_alternative_method, C33_history, C33_all_fixed_refuted, C33_method_switch_refuted, C35_calculator_values, C35_values, C35_calculator_ignores_t0_refuted, C37_tmu_inverse_refuted, C38_zero_clb, C40_mid_p, C40_monotone, C40_order_independent, C40_unsorted_file_refuted, C40_saved_mid_p, C41_quantile, C41_monotone, C41_fraction_one_refuted, C41_invalid_fraction, C42_cut, C42_zero_bound_refuted, C43_roundtrip, C43_truncation_bias, C43_truncation_refuted, C46_cls, C46_bands_ordered, C49_minimum, C49_maximum, C49_minima_fallback_refuted, C51_equality_is_same_contents, C51_same_order_found, C51_different_not_confused, C51_other_order_refuted, C52_roundtrip, C52_fit_roundtrip, C52_fit_with_hypo_roundtrip, C53_tmu_from_own_fits, C53_common_free_fit, C53_global_best_fit_refuted, C55_test_value, C55_intersection, C55_commutative, C55_associative, C55_idempotent, C55_unset_neutral, C55_fixed_free, C55_unset_is_fixed_refuted, C55_parameter_test, C60_merged_object_unusable_refuted, C61_command_line, C61_distinct_parameters, C61_linear_range, C61_several_ranges, C61_single_value, C61_log_range_refuted, C62_assignments, C62_unknown_parameters_refused, C62_one_np_scaled, C62_second_np_refuted, C64_conversion, C64_varied_yields, C64_same_sign_refuted, C64_overall_after_by_bin_refuted, C64_normfactor_undeclared_refuted, C64_modifier_named_as_normfactor_refuted, C64_empty_bin_refuted, C64_lumi_of_first_measurement_refuted, C70_parameters_match_likelihood, C71_selection, C71_kept_toys_pass_the_tests, C71_failing_toys_are_dropped, C72_asimov_other_order_refuted, C73_raster_roundtrip, C73_value_type_changes_refuted, C73_full_hypothesis_refuted, C74_reported_level, C75_best_fit_fallback, C77_single_test_not_negative, C77_stored_fits, C78_bounds_used, C85_optimization, C91_unbounded_is_fixed_refuted, C96_separated_terms, C96_samples_add_up, C96_shared_parameter_refuted, C97_packed_within_tolerance, C97_packing_rule, C97_dropped_above_tolerance_refuted, C98_normalization_scaling, C98_samples_with_yields, C98_default_sample_scaling_refuted, C107_documented_separator_refuted

* **`ClassicalDedekindReals.sig_forall_dec`, `ClassicalDedekindReals.sig_not_dec`, `FunctionalExtensionality.functional_extensionality_dep`** (42): C05_values_are_denotation, C05_gradient_is_derivative, C05_parameter_gradient, C06_hessian_is_second_derivative, C06_hessian_vanishing_factor_refuted, C08_replace_preserves_values, C08_replace_removes_dependence, C08_product_replace_refuted, C08_no_value_is_rejected, C12_default_nominal_norm, C12_default_norm_reproduces_yields, C12_expression_norm_default_refuted, C20_no_cutoff_is_identity, C20_within_cutoff, C35_signed_sqrt, C36_qmu_pvalue, C36_qmutilda_pvalue, C36_qmutilda_zero_threshold_refuted, C37_qmu_inverse, C37_qmutilda_inverse, C37_qmutilda_inverse_refuted, C38_qmu_cls, C38_qmutilda_cls, C38_qmutilda_t0_refuted, C39_common_best_fit, C39_more_points, C40_error, C46_error, C59_removes_exactly_the_designated, C59_direct_norm_refuted, C59_two_pois_refuted, C65_explicit_impacts_kept, C65_implicit_impact_of_np, C65_implicit_impact_expression_refuted, C76_own_fits, C76_single_fit, C76_unknown_mode, C78_tmu_drops_bounds_refuted, C87_no_covariance, C95_default_argument, C95_tmu_density_refuted, C113_agreement

* **`ClassicalDedekindReals.sig_forall_dec`, `ClassicalDedekindReals.sig_not_dec`, `Classical_Prop.classic`, `FunctionalExtensionality.functional_extensionality_dep`** (283): C10_interpolation_exact, C10_unbalanced_variations_refuted, C10_large_impact_clipped, C10_large_positive_impact_clipped, C11_pos_neg_keys_refuted, C16_bins_partitioned_among_channels, C16_channel_slice_is_its_block, C16_reordering_refuted, C17_reloaded_object_is_identical, C18_expected_yield_formula, C18_given_samples_kept, C18_floor, C18_real_values, C19_impact_factor, C19_one_at_nominal, C19_positive_in_exponential_mode, C19_tabulated_variation_reproduced, C19_sides, C19_effect_continuous, C19_exponential_mode_factorizes, C19_symmetric_mode, C19_more_variations_in_later_np_refuted, C19_uneven_variations_refuted, C19_ragged_samples_refuted, C20_increasing, C20_sign_and_size_of_deviation, C20_unit_slope_at_one, C20_applies_to_every_bin, C21_offset_is_a_constant, C21_differences_unchanged, C21_zero_reference_yield_refuted, C22_asimov_is_minimal, C22_empty_bin_refuted, C23_gradient_is_derivative, C23_gaussian_channels_refuted, C24_hessian_is_second_derivative, C24_hessian_symmetric, C24_gaussian_channels_refuted, C27_aux_obs_placement, C27_default_aux_not_nominal_refuted, C27_aux_obs_sizes, C28_dataset_save_load_roundtrip, C28_fractional_counts_lost_refuted, C29_profile_is_stationary, C29_system_is_second_order_expansion, C29_profile_minimizes_expansion, C29_expansion_of_model_likelihood, C29_exact_for_gaussian_linear, C29_gaussian_lognormal_refuted, C29_restart_refuted, C29_small_determinant_refuted, C29_exact_impacts_refuted, C30_profile_keeps_pois, C30_degenerate_returns_nps, C30_iterations_keep_pois, C31_initialization_succeeds, C31_one_sided_range_refuted, C31_empty_range_refuted, C31_set_constant_refuted, C32_failed_fit_refuted, C32_infinite_refuted, C33_recovery_refuted, C45_same_file_iff, C45_distinct_files, C45_collision_refuted, C48_crossings, C48_crossings_with_errors, C48_limit, C48_requested_level_refuted, C48_other_orders_refuted, C48_few_points_refuted, C50_interval, C50_two_sided, C50_more_crossings_refuted, C50_four_points_refuted, C56_removes_exactly_the_designated, C56_predictions, C56_prune, C56_pruned_are_small, C56_linear_refuted, C56_default_value_refuted, C56_pattern_value_refuted, C56_zero_norm_refuted, C56_expression_refuted, C56_prune_missing_impact_refuted, C56_prune_same_sign_refuted, C56_auxiliary_observables, C57_prunes_exactly_the_negligible, C57_large_sample_kept, C57_predictions, C57_all_samples_pruned_refuted, C58_common_impact_refuted, C58_norms_refuted, C58_cutoff_refuted, C58_unknown_channel, C58_merged_yields, C58_other_channels, C58_merged_data, C59_predictions, C60_predictions, C60_overlap_accepted_refuted, C60_parameters_dropped_refuted, C60_offsets, C60_offsets_refuted, C67_clone_is_identical, C67_clone_loses_cutoff_refuted, C67_gaussian_clone_refuted, C68_load_ignores_previous_contents, C69_profile_parameters, C70_last_evaluation_refuted, C70_cg_verbose_refuted, C71_bounds_test_the_shifts_refuted, C77_pvalues_consistent, C77_single_test_consistent, C77_negative_tmu_refuted, C79_merged_markup_refuted, C79_reload_with_description, C80_merge_changes_original_refuted, C80_rest_unchanged, C81_likelihood_is_product, C81_yields_of_the_channels, C81_inverse_covariance, C84_observed_data, C85_after_initialization, C85_np_range_refuted, C86_poisson_counts, C86_gaussian_counts, C86_auxiliary_observables, C86_constraint_term, C86_standard_pulls, C86_width_refuted, C86_gaussian_channels_refuted, C87_covariance_is_inverse, C87_errors, C87_correlations, C87_one_poi, C88_set_constraint_refuted, C88_set_constraint_exact, C89_save_with_model, C89_model_and_data_roundtrip, C93_logint_positions, C93_linear_positions, C93_log_positions, C93_log_count_refuted, C93_listed_positions, C93_invalid_form_refuted, C94_predictions, C94_other_expressions_refuted, C95_qmu_density, C95_qmt_density, C95_qmt_zero_threshold, C95_at_zero, C96_tabulated_yields, C96_no_failure, C96_out_of_range_refuted, C98_converted_sample, C98_interpolated_yields, C98_zero_norm_sample_dropped, C100_binning_read, C100_equal_bins, C100_last_bin_missing_refuted, C100_contiguous_ranges, C100_log_bins, C100_log_from_one_rejected, C101_output_file, C101_np_removed_at_value, C101_dataset_needed_refuted, C101_data_source, C101_counts_truncated_refuted, C102_output_file, C102_predictions, C102_missing_file_ignored_refuted, C102_leading_star_refuted, C103_output_unreadable_refuted, C103_files_touched, C103_unknown_channel, C103_model_file, C103_data_file, C104_removed, C104_file_replacements, C104_pois_of_the_file, C104_pois_kept, C104_added_poi_dropped_refuted, C104_pattern_refuted, C104_number_norm_refuted, C104_formula_refuted, C104_unreadable_file_refuted, C104_line_replacement_refuted, C104_dangling_refuted, C105_model, C105_results, C105_dataset, C106_stored_hypotheses, C106_rerun_same, C106_mismatch_reported, C106_recomputed, C106_damaged_reported, C106_stale_results_refuted, C106_repeated_hypothesis_refuted, C106_force_without_hypotheses_refuted, C107_two_parameters_best_fit, C107_only_two_files, C107_too_many_parameters_refused, C107_regularize_refuted, C107_documented_mode_refuted, C107_timing_refuted, C107_invalid_level_refuted, C107_incompatible_hypotheses_refuted, C107_two_parameters_no_results_refuted, C107_asimov_nps_ignored_refuted, C108_first_run, C108_resumed_run, C108_later_session, C108_clb_files_distinct, C108_cls, C108_load_missing_refuted, C108_locked_refuted, C108_failure_leaves_lock_refuted, C108_shared_file_refuted, C108_no_samplers, C108_cut, C109_model, C109_bounds, C109_results, C109_limit_is_crossing, C109_only_two_files, C109_reads_only, C109_dataset, C109_asimov_other_names_refuted, C109_rerun_same, C109_stale_refuted, C109_overwrite_recomputes, C109_damaged_refuted, C109_level_refuted, C109_iterations_refuted, C109_refused, C109_regularize_refuted, C109_np_bound_refuted, C109_single_hypothesis_refuted, C109_few_points_refuted, C110_results, C110_locked_refuted, C110_rerun_same, C111_results, C111_missing_sample_refuted, C111_first_toy_refuted, C111_data_refuted, C111_refused, C111_single_hypothesis_refuted, C111_no_samples_refuted, C111_no_results_refuted, C111_inputs_kept, C111_regularize_refuted, C111_sethypo_refuted, C111_asimov_refuted, C111_bounds_refuted, C111_inputs, C112_results, C112_minimum, C112_model, C112_dataset, C112_only_output, C112_hypothesis_kept_apart, C112_hypothesis_loses_results_refuted, C112_hypothesis_test, C112_iterations_refuted, C112_regularize_refuted, C112_failed_fit, C112_singular_refuted, C112_name_clash_refuted, C113_results, C113_inputs, C113_options_refuted, C113_refused, C113_single_hypothesis_refuted, C113_batch, C114_impacts, C114_one_sigma, C114_units_refuted, C114_order, C114_package_minimizers_refuted, C114_command_refuted, C114_command_no_nps

<!-- end axioms -->

## What is modelled

Every file of src/fastprof except plot_tools.py, and of the rest: fastprof_utils/tools.py, compute_limits.py and compute_fast_limits.py (options, bounds,
file names and histories), test_hypos.py (same), collect_results.py, iterate.py, and the whole run, from the
input files to those written, of prune_model.py, merge_models.py, merge_channels.py, reparam_model.py and poi_scan.py; fastprof_import/convert_pyhf_json.py, convert_ws.py
(yields, packing, markup of samples, bins, validation rows), tools.py.

## What is not modelled

* Rounding, overflow, NaN and infinity (except where a branch of the code tests for them).
* Printing, string representations, plots, progress output, argparse.
* ROOT itself, and the parts of convert_ws.py, fit_ws.py, import_snapshot.py and inspect_ws.py that navigate ROOT objects.
* The numerical routines of numpy and scipy: linear algebra, optimizers, splines, root finding, random generators.
* fastprof_import/convert_pyhf.py, and the remaining command-line programs except for the parts above.
* Performance and memory; threads (there are none), processes only where they share files (C44, C89, C92).

## Checking the theorems against wrong programs

`seeded/LOG.jsonl` records edits of the model in scratch copies (wrong boundary, missed case, swapped argument, dropped update), the claims they break, and the
theorems that failed.  Theorems that survived an edit that breaks their claim were tightened, as recorded.
