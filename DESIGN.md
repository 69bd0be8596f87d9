# Formal model of coniii in Rocq: design

Subject: the Python package in /repo (coniii) and its C++ extension.  The
model is written by hand from the source text; nothing in /repo is executed.

## Conventions of the model

* numpy vectors are lists, matrices are lists of rows.  Integers are `nat`/`Z`.
* Floating point numbers are modelled by the real numbers of the Coq standard
  library.  Rounding, overflow and NaN are outside the model except where a
  function branches on them explicitly (log 0, float logarithm estimates), and
  in `M_Float`, `M_FloatEnum` and `M_Size`, which round every operation to binary64 (with Flocq, which adds
  no axioms).
* Python exceptions are values (`Err e` of the type `result`); loops are folds,
  structural recursion, or recursion on fuel with an explicit `OutOfFuel`
  outcome which the theorems exclude.
* Random numbers, optimisers, root finders, eigenvalue routines, set iteration
  order, module availability and floating point logarithms are explicit function
  arguments ("oracles"); every theorem quantifies over them, with their
  documented contract as a hypothesis where one is needed.
* Arrays modified in place are modelled by the new value; where aliasing is
  observable the model returns the modified argument as well.
* Model files (`M_*.v`) contain definitions only, each with the file and lines
  modelled.  `Spec.v` and `Spec2.v` hold the independent specifications (states,
  energies, Boltzmann distribution, entropies, derivatives).  Proofs are in
  `P_*.v`; property theorems, examples meeting their hypotheses and
  `Print Assumptions` are in `Props_*.v`.
* A theorem named `..._refuted` shows that a documented or expected behaviour
  does not hold of the code as it stands; the positive theorems beside it state
  what does hold.

## Files

| model | code | properties |
|---|---|---|
| `M_Index` | utils.py: index maps, state enumeration, base_repr, unravel_index, split_concat_params | C01-C07 |
| `M_Params` | utils.py: vec2mat, mat2vec, convert_params, ising_convert_params, convert_corr, squareform | C08-C11 |
| `M_Corr` | utils.py: pair_corr, k_corr, state_probs, unique_rows, calc_overlap, mch_approximation | C12-C14, C19, C63 |
| `M_Energy` | utils.py: energies, observables, pseudolikelihood helpers, adj, calc_de | C15-C18, C20 |
| `M_Enum` | enumerate.py, enumerate_potts.py: generators as functions to a term language with an evaluator; fast_logsumexp | C21-C23, C59, C60, C65, C98-C100 |
| `M_Sampler` | samplers.py Metropolis, Potts3, conditional and parallel sampling; cpp/samplers.cpp | C25-C31, C62, C95 |
| `M_Temper` | samplers.py ParallelTempering; utils.py coarse_grain_with_func | C24, C32, C33 |
| `M_Models` | models.py; solvers.py basic_setup, fill_in, Enumerate, SparseEnumerate, logp | C34-C36, C58, C64 |
| `M_MPF` | solvers.py MPF | C37, C38, C66 |
| `M_MCH` | solvers.py MCH, SparseMCH | C39, C67, C68, C97 |
| `M_Pseudo` | solvers.py Pseudo | C40-C43, C69 |
| `M_Cluster` | solvers.py ClusterExpansion | C44-C47, C70, C71 |
| `M_MeanField` | mean_field_ising.py | C50-C52, C61, C74 |
| `M_RMF` | mean_field_ising.py mean field inversion; solvers.py RegularizedMeanField | C48, C49, C72, C73, C75 |
| `M_Ising` | ising/utils.py, ising/automaton.py | C53-C55 |
| `M_Wolff` | samplers.py WolffIsing, SWIsing helpers, iter_cluster | C56, C57, C76, C96 |
| `M_PseudoDep` | solvers.py Pseudo._solve_ising_deprecated; pseudo_inverse_ising.py | C77 |
| `M_Heisenberg` | samplers.py calc_e, grad_e, grad_e_theta, jit_sample, Heisenberg3DSampler helpers | C78, C79 |
| `M_Front` | `Model.setup_sampler`, `set_rng`, `generate_sample` for Ising and Triplet (models.py 33-129), `Metropolis.__init__` dispatch and `update_parameters` (samplers.py 1144-1190, 1718-1721), `sample_ising` (2413-2463) | C80 |
| `M_EqnText`, `D_Eqn*` | enumerate.py 40-272, 411-469 as text: `write_eqns`, `write_py`, `_write_energy_terms`, numpy's printing of coefficient arrays and the replacements 195, 203; a reader for the written Python (lexer, parser, interpreter); `D_Eqn*`: verbatim lines of the 18 files in coniii/ising_eqn (written by tools/eqn_files.py) | C81 |
| `M_Wolff` (second half) | samplers.py SWIsing.one_step, get_clusters, randomly_flip_clusters, generate_sample, pairwise_prod, sample_bonds | C82 |
| `M_Homog` | mean_field_ising.py: specificHeat, FHomogeneous .. independentEntropyHomogeneous2, meanFieldStability, seedGenerator | C83, C84 |
| `M_Helpers` | utils.py: _expand_binomial, multinomial; enumerate.py: get_3idx, get_nidx; samplers.py: spec_cluster; solvers.py: MPF._K | C85 |
| `M_Incomplete` | solvers.py: MCHIncompleteData | C86 |
| `M_Pool` | Pool.map: chunks, workers, schedules, killed workers; the functions that samplers.py and solvers.py send to it; samplers.py: WolffIsing and SWIsing generate_sample_parallel | C89 |
| `M_Float` | utils.py: fast_sum, calc_e; samplers.py: Metropolis.sample_metropolis and its runs; samplers.cpp: Ising::sample_metropolis, all in binary64 | C90 |
| `M_FloatEnum` | enumerate.py: fast_logsumexp and the written calc_observables and p, in binary64 | C91 |
| `M_Potts3` | samplers.py Potts3 (constructor, bound and inherited methods), models.py Potts3.setup_sampler/generate_sample | C92 |
| `M_PottsText` | enumerate_potts.py 53-219 as text; importing a module and calling a function of it, also for damaged files | C93, C94 |
| `M_EqnCut` | calling a function of a damaged equation file of enumerate.py | C94 |
| `M_Rest` | utils.py signatures of compiled helpers; samplers.py HamiltonianMC.sample and generate_sample, Heisenberg3DSampler.sample_metropolis, equilibrate_samples | C106, C107, C108 |
| `M_Types` | element types of samples and data in MCH, SparseMCH, MPF (solvers.py), Metropolis (samplers.py) | C109 |
| `M_Memory` | arrays as memory: readin_multipliers, fetch_sample (cpp/samplers.cpp), Metropolis.__init__, update_parameters, boost methods (samplers.py) | C110 |
| `M_PseudoSetup` | Pseudo.__init__, Pseudo.solve (solvers.py) | C111 |
| `M_ConvertCall` | arguments of convert_corr (utils.py) | C112 |
| `M_Narrow` | integer matrix products in pair_corr, calc_overlap (utils.py), cooccurrence_matrix, isingDeltaCooc (mean_field_ising.py), residuals of RegularizedMeanField (solvers.py) | C113 |
| `M_Size` | float computation of the number of spins: vec2mat (utils.py), Ising, Potts3 (models.py), sample_ising (samplers.py), scipy's squareform | C114 |
| `M_PottsSolve` | solvers.py: Pseudo._solve_potts as a whole | C118 |
| `M_IntGuess` | solvers.py: Pseudo._solve_ising, _solve_general, _solve_potts and MCH.solve with integer typed guesses | C119 |
| `M_TemperObj` | ParallelTempering as an object: constructor, update_replica_parameters, generate_sample (samplers.py 615-791), the inherited update_parameters and generate_sample_parallel (samplers.py 184-201) | C123 |
| `M_Dispatch` | the sampler classes of samplers.py as method tables, attribute lookup, the end of Metropolis.__init__ (1170-1191), Potts3.__init__ (1787-1817), Metropolis.update_parameters (1718-1721) | C124 |

## Trusted base

* Coq 8.16.1's kernel and its standard library; Coquelicot (Riemann integrals,
  derivatives), whose results are proved from the standard library's axioms.
* No axiom is declared in this development, no kernel check is switched off,
  there are no admitted proofs, no functors or module types.
* The reading of the code: that each definition of `M_*.v` describes the lines
  it cites.  Every definition names its lines; deviations are stated in its
  comment.
* numpy, scipy, numba, multiprocess, mpmath and boost are not modelled beyond
  the operations used: elementwise arithmetic, `dot`, indexing, slicing,
  `squareform`, `unique`, `nonzero`, `argsort`.  Optimisers and random number
  generators are oracles.

### Assumptions of each statement (output of Print Assumptions)

`tools/assumptions.py` regenerates this list.  All axioms belong to the Coq
standard library: the construction of the reals (`ClassicalDedekindReals`),
functional extensionality, and, through Coquelicot or the standard library's
analysis, classical logic.

<!-- assumptions -->
* no axioms (closed under the global context) — 95 statements:
  C01_equal_indices_raise, C01_example, C01_injective, C01_inverse_left, C01_inverse_right, C01_out_of_range_is_None, C01_range, C01_sub_to_ind_is_combinations_position, C01_symmetric, C02_bin_states_enumerates, C02_bin_states_row_value, C02_example, C02_out_of_range_raises, C02_sym_is_relabelling, C02_xbin_agrees, C02_xbin_states_enumerates, C03_bad_base_raises, C03_base_repr_canonical, C03_base_repr_overestimate, C03_base_repr_zero, C03_example, C04_alphabet_refuted, C04_example, C04_large_base_without_18_19, C05_example, C05_xpotts_bad_arguments_raise, C05_xpotts_states_enumerates, C05_xpotts_states_letters, C06_bad_tuples_raise, C06_combinations_spec, C06_example, C06_unravel_index_bijective, C06_unravel_index_is_combinations_position, C07_example, C07_split_concat_round_trip, C07_too_long_input_diverges_refuted, C08_position_is_sub_to_ind, C110_fetch, C113_example, C124_cond_samples_refuted, C124_empty_methods, C124_example, C124_metropolis, C124_potts3, C124_potts3_cond_refuted, C124_unusable_refuted, C13_example, C14_example, C20_random_neighbours_differ, C22_triplet_small_raises, C23_bad_arguments_raise, C23_example, C23_many_states_refuted, C28_example, C28_free_spins_in_order, C29_example, C30_define_jit_cond_calc_e_refuted, C30_single_fixed_spin_refuted, C31_example, C34_potts, C34_potts_pair, C34_refuted, C34_triplet, C35_fill, C35_refuted, C35_setup, C44_caller_lists_untouched, C44_example, C44_repeated_elements_raise, C44_sort_flag, C44_subsets_complete, C45_parts_are_the_subsets, C50_flat_index_bijection, C54_sweep_sites, C55_coarse_grain, C55_example, C55_raises, C55_single_row_refuted, C55_spins, C57_swendsen_wang_refuted, C58_one_state_refuted, C78_classes_unavailable, C80_ising_size, C84_seeds, C85_K_refuted, C89_chunks, C89_killed_worker_refuted, C89_map, C89_map_returns, C89_schedule, C89_shared_generator_refuted, C89_swendsen_wang_refuted, C92_constructor, C92_setup, C93_example.
* `ClassicalDedekindReals.sig_forall_dec` — 30 statements:
  C08_bad_length_raises, C08_example, C08_example_bad, C08_separate_bad_length_refuted, C08_separate_fields, C09_example, C106_sym_refuted, C10_example, C15_ternary_refuted, C16_out_of_range_raises, C17_example, C18_example, C20_example, C29_proposals, C35_example, C45_memo_hit, C47_unsorted_subclusters_requested_refuted, C50_flat_layout, C50_without_diagonal, C52_embed_cluster, C57_matrix_refuted, C57_vector, C67_example, C71_analytic_branch_refuted, C77_class_total_refuted, C80_lengths, C80_set_rng_refuted, C85_nidx_refuted, C85_third_order, C86_solve_refuted.
* `ClassicalDedekindReals.sig_forall_dec`, `FunctionalExtensionality.functional_extensionality_dep` — 146 statements:
  C08_asymmetric_raises, C08_mat2vec_vec2mat, C08_vec2mat_entries, C08_vec2mat_mat2vec, C09_inverse, C09_matrix_form, C09_to_01, C09_to_11, C09_unknown_basis_raises, C104_example, C105_example, C106_accepted_types, C106_example, C109_python_jacobian_refuted, C10_agrees_with_convert_params, C10_to_01, C10_to_11, C111_example, C111_own_helpers, C112_call, C112_deprecated_refuted, C112_example, C112_unknown_keyword, C113_overlap_fits, C113_overlap_int8_refuted, C113_pair_corr_bool_refuted, C113_pair_corr_fits, C113_pair_corr_int8_refuted, C113_pair_corr_row_weights, C113_rmf_int8_refuted, C113_rmf_residuals, C11_example, C11_inverse, C11_to_01, C11_to_11, C12_bounds, C12_example, C12_exclude_empty, C12_laplace, C12_mean_entries, C12_rejects, C12_subtract_mean, C12_weighted_entries, C12_wrong_weights_raise, C13_exclude_empty_ignored_refuted, C13_exclude_empty_refuted, C13_k_corr_entries, C13_second_order_is_pair_corr, C14_given_states, C14_given_states_complete, C14_state_probs, C15_example, C15_ising_energy, C15_ising_energy_rows, C15_ising_sym_energy, C15_potts_energy, C15_triplet_energy, C16_calc_de_is_derivative, C16_calc_de_is_increment, C16_example, C17_pseudo_ising_local_field, C20_adj_lists_single_flips, C20_adj_sym_lists_single_flips, C20_neighbour_symmetric, C22_example, C24_bins_partition, C24_example, C24_greedy_pairs, C24_nonpositive_refuted, C27_example, C27_same_energy, C32_example, C33_example, C33_initial_ladder, C33_iterate_beta, C33_iterate_beta_rejects, C33_positive_refuted, C34_asymmetric, C34_example, C34_formats, C34_int, C34_vector_iff, C36_all, C36_example, C36_refuted, C36_root, C37_example, C42_example, C42_starting_point, C42_starting_point_refuted, C45_contributions_add_up, C45_example, C45_history_independent, C47_example, C47_sorted_cluster_reads_the_data, C48_bracket, C48_cases, C48_example, C48_strict_right_refuted, C50_example, C50_flat_inverts_unflatten, C50_unflatten_inverts_flat, C52_bayesian_mean, C52_cooccurrence, C52_example, C52_fourth_order, C52_matrix_helpers, C53_example, C53_find_basin, C53_list_arguments_refuted, C53_neighbor_dE, C53_steepest_descent, C53_wrong_size, C54_energy_change, C54_example, C54_field_convention_refuted, C54_float_field, C54_thin_lattice_refuted, C56_components, C56_example, C56_order_irrelevant, C59_example, C63_example, C63_hamming, C63_overlap, C64_data, C64_example, C64_refuted, C65_example, C65_refuted, C65_set, C66_example, C67_estimate_jac, C68_example, C70_states, C74_covariance_matrix_refuted, C74_example, C75_example, C75_residual_ignores_frequencies_refuted, C78_leapfrog_reversible, C79_cross, C85_expand_binomial, C85_spectral_clusters, C85_spectral_tolerance, C86_estimate, C99_example.
* `ClassicalDedekindReals.sig_forall_dec`, `ClassicalDedekindReals.sig_not_dec`, `FunctionalExtensionality.functional_extensionality_dep` — 135 statements:
  C09_probabilities_to_01, C09_probabilities_to_11, C100_example, C101_compiled, C101_compiled_potts, C101_conditional, C101_example, C101_python, C101_python_frozen, C101_python_refuted, C102_example, C107_example, C107_generate_sample, C107_history_start_refuted, C107_sample_transitions, C107_slow_fast_agree_refuted, C109_compiled_sampler, C109_example, C109_python_sampler_refuted, C109_sparse, C115_example, C119_mch, C123_example, C123_history, C123_reparameterise, C123_two_replicas, C123_update_parameters_refuted, C17_pseudo_ising_conditional, C18_pseudo_potts_conditional, C19_example, C25_after_parallel_refuted, C25_example, C25_first_call_succeeds, C25_generate_sample, C25_generate_sample_potts, C25_single_update, C25_single_update_potts, C25_zero_burn_in_example, C25_zero_burn_in_refuted, C26_systematic_irreducible_refuted, C27_ising_update, C27_jit_update, C27_potts_update, C27_running_energy, C27_running_energy_potts, C28_bad_arguments_raise, C28_cond_sample, C29_cond_sample_boost, C29_cond_sample_boost_refused, C31_parallel_boost, C31_parallel_py, C32_burn_and_exchange, C32_exchange_detailed_balance, C32_history, C33_constructor, C39_example, C39_learning, C39_learning_terminates, C39_solve, C39_solve_terminates, C39_sparse_keeps_zeros, C39_sparse_solve, C47_unsorted_pair_refuted, C49_cluster_output_conversion, C49_example, C49_rmf_doubles_energies_refuted, C50_symmetrize_keeps_weights, C51_exact_expectations, C51_expectations_are_frequencies, C51_no_states, C51_weights, C52_stdevs_positive, C53_parameters, C54_field_arguments_refuted, C54_random_sites, C54_rounds, C61_root_bracketed, C62_readin_multipliers_refuted, C68_missing_eta_refuted, C68_sparse_default_constraints_refuted, C68_zero_tolerance_refuted, C73_prior_shrinks_to_independence, C76_detailed_balance, C76_example, C76_stationary, C76_unique, C77_module_solver_hessian_refuted, C77_solver_hessian_refuted, C78_energy, C78_energy_bounds, C78_energy_turned, C78_linear_energy_never_rejects_refuted, C78_rejected_proposals_are_kept_refuted, C79_nearby, C79_no_width_refuted, C80_before_setup_refuted, C80_boost_reproducible, C80_example, C80_generate, C80_history_settings, C80_python_reproducible_refuted, C80_sample_ising, C80_sample_ising_defaults, C80_sample_ising_history_refuted, C80_sample_ising_initial_refuted, C80_size_mismatch, C82_bonds, C82_clusters, C82_flip_probability, C82_one_step, C84_example, C84_shapes, C84_stability, C85_potts_sampler, C85_spectral_clusters_refuted, C86_learning, C87_zero_parameters_boost_refuted, C89_boost, C89_boost_potts, C89_example, C89_python, C89_replicas, C89_wolff, C92_cond_refuted, C92_cond_update, C92_cond_values, C92_couplings_ignored, C92_example, C92_few_processors, C92_history, C92_parallel, C92_sequential, C92_sequential_refuted, C92_set_multipliers, C95_example.
* `ClassicalDedekindReals.sig_forall_dec`, `Classical_Prop.classic`, `FunctionalExtensionality.functional_extensionality_dep` — 1 statements:
  C85_spectral_count.
* `ClassicalDedekindReals.sig_forall_dec`, `ClassicalDedekindReals.sig_not_dec`, `Classical_Prop.classic`, `FunctionalExtensionality.functional_extensionality_dep` — 272 statements:
  C100_consistent, C102_boost, C102_python, C103_compiled, C103_compiled_potts, C103_example, C103_python, C103_python_potts, C104_single_chain, C105_replica, C105_tempering, C108_example, C108_invariant, C108_pole_refuted, C108_update, C109_mpf_data, C110_alias_refuted, C110_contiguous, C110_example, C110_integers, C110_integers_refuted, C110_parallel, C110_reversed_refuted, C110_strided_refuted, C110_update, C111_dispatch, C111_other_models, C111_triplet_refuted, C114_example, C114_potts3_size, C114_sample_ising_size, C114_squareform_size, C114_triangular, C114_vector_size, C115_boost, C115_near_data, C115_python, C116_boost, C116_near_data, C116_python, C117_enumerate, C117_example, C117_recovers_refuted, C117_same_distribution, C118_cost, C118_gradient, C118_maximum, C118_prior, C118_solver, C118_zero_mean, C119_float, C119_general, C119_ising_objective, C119_potts_gradient, C119_potts_refuted, C120_example, C120_solver, C120_stability, C121_boost, C121_example, C121_python, C122_data, C122_degenerate_refuted, C122_example, C122_solvable, C19_exact, C19_mch_reweights, C19_potts_mch_reweights, C19_zero_step, C21_bad_input_raises, C21_example, C21_no_nan, C21_no_overflow, C21_shift, C21_unweighted, C21_weighted, C22_agrees_with_pair_corr, C22_pairwise, C22_triplet, C22_write_eqns, C23_potts_file, C23_wrong_size_raises, C26_detailed_balance, C26_example, C26_irreducible, C26_stationary, C26_stationary_potts, C26_unique_stationary, C26_update_probabilities, C32_round_stationary, C37_K_gradient, C37_exponents_example, C37_logK_exponents, C37_logK_gradient_refuted, C37_objective_values, C38_solve_recovers_parameters, C38_true_parameters_stationary, C38_true_parameters_unique_minimum, C40_example, C40_general_gradient, C40_general_objective, C40_spin_objective, C40_spin_objective_history, C41_example, C41_potts_objective, C43_example, C43_solve_ising, C46_example, C46_negative_threshold_reproduces_data, C46_nothing_discarded_is_exact, C46_reference_flags, C46_selected_clusters_are_summed, C46_single_spin_refuted, C49_rmf_example, C49_rmf_flags, C49_rmf_uncorrelated_data_refuted, C51_entropy, C51_example, C53_correlations, C53_correlations_example, C54_stationary, C54_update, C57_build_cluster, C57_example, C57_history, C57_no_bonds, C57_no_history, C57_one_step, C57_single_chain, C57_site_zero_refuted, C57_zero_separation, C58_example, C58_logp, C58_rejects, C59_max_entropy, C59_solution, C60_example, C60_recovers, C60_unique, C61_example, C61_independent_entropies_agree, C61_log_cosh, C61_root_unique_when_repulsive, C66_custom_arguments_refuted, C66_not_all_connected_refuted, C66_one_parameter_logK_gradient_refuted, C67_convex, C67_fixed_points, C67_update_is_gradient, C69_convex, C69_exact_data_unique_minimum, C69_solve_general_recovers, C69_solve_ising_recovers, C70_example, C70_fit_is_exact_iff_residual_vanishes, C71_example, C71_one_spin_closed_form, C71_two_spin_closed_form, C71_unsorted_pair_swaps_fields_refuted, C72_dmdT_refuted, C72_energy_sign_refuted, C72_example, C72_magnetisation_is_stationary, C72_susceptibility_refuted, C73_example, C73_prior_needs_sample_size, C73_regularised_and_direct_agree, C73_shape_and_entropy_bound, C73_uncorrelated_exact, C73_unsorted_pair_refuted, C75_objective_never_vanishes_refuted, C75_sampled_magnetisation_has_wrong_sign_refuted, C77_class_likelihood, C77_class_rows, C77_conditional_likelihood, C77_documented_sign_refuted, C77_example, C77_gradient, C77_hessian, C77_module_result, C77_module_total_refuted, C77_no_data, C77_returned_model, C77_rows_example, C77_start, C77_stationary_is_optimal, C78_acceptance, C78_coupling_gradient, C78_example, C78_gradient, C79_azimuth_gradient_refuted, C79_example, C79_gradient, C79_nearby_vector, C79_no_width_one_sample, C79_polar_angles, C79_pole_refuted, C81_example, C81_pairwise, C81_shipped_pairwise, C81_shipped_triplet, C81_text, C81_triplet, C82_detailed_balance, C82_example, C82_independent, C82_stationary, C82_unique, C83_entropy, C83_example, C83_independent_entropy, C83_magnetisation, C83_multi_information, C83_partition, C83_specific_heat_refuted, C83_temperature_derivative, C85_example, C85_multinomial, C85_multinomial_rounding_refuted, C85_spectral_example, C86_example, C86_likelihood_gradient, C86_maximum_likelihood_refuted, C87_example, C87_ising_iff, C87_ising_parameters, C87_ising_rate, C87_potts, C87_swendsen_wang, C87_zero_parameters_refuted, C88_boost_ising, C88_boost_potts, C88_example, C88_ising, C88_potts, C90_cpp_difference, C90_cpp_limit, C90_decision, C90_energy, C90_energy_exact, C90_exact_run, C90_example, C90_limit, C90_no_drift, C90_runs, C91_example, C91_file_observables, C91_logsumexp, C91_pairwise, C91_relative_refuted, C91_write_eqns, C93_failed_write_refuted, C93_potts_text, C93_wrong_size, C94_example, C94_interrupted_ising, C94_interrupted_potts, C95_boost, C95_python, C96_example, C96_rate, C96_zero_parameters_refuted, C97_default_rate_refuted, C97_example, C97_no_worse, C97_rate, C98_certificate, C98_example, C98_stability, C99_data, C99_degenerate_refuted, C99_solvable.
* `ClassicalDedekindReals.sig_forall_dec`, `ClassicalDedekindReals.sig_not_dec`, `ClassicalEpsilon.constructive_indefinite_description`, `Classical_Prop.classic`, `FunctionalExtensionality.functional_extensionality_dep` — 7 statements:
  C116_example, C118_example, C118_fields_refuted, C119_example, C119_ising_refuted, C38_example, C69_example.
<!-- /assumptions -->

## Not modelled

* Floating point rounding outside `M_Float`, `M_FloatEnum` and `M_Size` (energies and Metropolis
  updates of the Ising model and the written equation files are modelled with it), overflow, mpmath precision, dtype conversions that
  lose information, performance and memory use.
* Process pools: scheduling, copying of arguments and killed workers are modelled
  (`M_Pool`), from the documented behaviour of the library; elsewhere a pool is a
  map over the workers, which C89 justifies. What pickling can fail on is not.
* samplers.py: the methods of HamiltonianMC and Heisenberg3DSampler not listed
  above (the deprecated _sample_nearby_vector, sample_energy_min, to_dict; their constructors
  raise), the commented out class at 912-1120.
* enumerate.py: Matlab output. Python itself: only the statements that occur in
  equation files are read (`M_EqnText`, `M_PottsText`); a tab at the beginning of a
  line is read as eight blanks; in damaged files a line of another form does whatever
  an oracle says (`C94`).
* cpp/py.cpp: conversion between Python and C++ values other than the arrays of `M_Memory`.

## Findings

Behaviour that contradicts the documentation or the evident intention; each has
a theorem with a witness or a general statement.

<!-- findings -->
* `C04_alphabet_refuted`: base_repr for bases 11 to 36: the alphabet is not 0-9A-Z in order (digits 18 and 19 are wrong).
* `C07_too_long_input_diverges_refuted`: The loop does not terminate on an input with more than 2^n-1 entries: no amount of fuel suffices.
* `C08_separate_bad_length_refuted`: but separate_fields=True accepts lengths that fit no n: the couplings then describe one spin more than the fields.
* `C101_python_refuted`: "If True, iterate through each element of system" (documentation of systematic_iter) does not hold in the Python sampler when n_iters is smaller than the number of spins: some spins are left out of every row.
* `C106_sym_refuted`: define_ising_helper_functions_sym should return functions for the model without fields. It always raises: the signature of fast_sum lists the types int64[:], float64[:,:] (element types of vector and matrix exchanged), so the compilation of calc_e, which calls it with a float64 vector and an int64 matrix, fails; no array types give energies.
* `C107_history_start_refuted`: The initial state should be the first entry of history. It is overwritten with the final position: free motion by 1 per pass from 0, nBurn=0, gives history 2, 1, 2.
* `C107_slow_fast_agree_refuted`: The slow and the fast method should agree: sample(x0, nBurn) and jit_sample with nBurn rows, from the same random numbers. They do not: sample makes two transitions more.
* `C108_pole_refuted`: A chain should stay in the space of states. From a state with a vector on the polar axis (a legal unit vector) the first update gives nan whatever is drawn; the comparison with nan counts as acceptance, and no further update leaves that state.
* `C109_python_jacobian_refuted`: So does estimate_jac, for every sample and at least one parameter.
* `C109_python_sampler_refuted`: MCH.solve should work with the pure Python sampler, to which a model falls back when the extension is not installed. It raises TypeError for all data, guesses and settings, right after the first sample: parallel sampling returns 8-bit integers, and mch_approximation needs 64-bit integers. (The hypotheses say that this first sample is drawn and its observables have the right number, and that the settings name eta, as the defaults do.)
* `C110_alias_refuted`: The constructor keeps the caller's array itself: an assignment to it afterwards changes the samples, without any call on the sampler.
* `C110_integers_refuted`: Integer parameters: h = (0, 0), J = 1 as an int64 array. The energy in Python sees J = 1; the C++ run behaves as without a coupling.
* `C110_reversed_refuted`: A reversed array (theta[::-1]) is read beyond the end of its buffer, for every size above 1.
* `C110_strided_refuted`: Three parameter vectors stored as the columns of a matrix: the sampler built for one column reads the rows of the matrix instead. The column (0, 1, 0) has no coupling, but the run uses the coupling 1; with the same random numbers the samples differ.
* `C111_triplet_refuted`: "Pseudo maximises the pseudolikelihood of the model it was given" does not hold for a Triplet model: at a triplet interaction of 1 the objective is that of no interaction at all.
* `C112_deprecated_refuted`: "The deprecated keyword convertTo is still accepted, with a warning" does not hold: no call that uses it returns, whether or not convert_to is given as well.
* `C113_overlap_int8_refuted`: A state of m spins up has the overlap 1 with itself; in int8 it is -1 for m = 128.
* `C113_pair_corr_bool_refuted`: With data of type bool every number of samples above one gives a wrong correlation: m samples of two spins that are always on have the correlation 1/m.
* `C113_pair_corr_int8_refuted`: "pair_corr returns the averages of the data" fails for int8 data with more than 127 samples when exclude_empty is set: 128 samples of two spins that are always up have the correlation -1 (256 have the correlation 0).
* `C113_rmf_int8_refuted`: Without the extension the residuals of EVERY sample of the default size 1000 are wrong: the average of s_i^2, which is 1, comes out as -3/125.
* `C117_recovers_refuted`: "Enumerate gives back the parameters of a Potts model" does not hold: for every model there is another vector that solves the equations (here the fields of the first spin are all larger by 1), so that the equations have no isolated solution.
* `C118_fields_refuted`: "The solver gives back the fields" does not hold: for every t there is a minimiser that finds minima and with which the first field is larger than the true one by t.
* `C119_ising_refuted`: "The parameters found do not depend on the element type of the guess" does not hold, even for exact data and a minimiser that finds minima: with it the float guess gives the true parameters and the same guess as integers gives another field.
* `C119_potts_refuted`: "The minimiser receives the gradient" does not hold for a guess of integers: for every data set of one row and all parameters the gradient is not zero, but the one computed is zero in all components, so that every starting point looks like a minimum.
* `C122_degenerate_refuted`: Expected: every data set can be fitted. If some spin is never seen in one of its states, or two spins are in the same state in all rows or in none, there are no parameters: the error is at least exp(-2 R) / k^n where R is the sum of the moduli of the parameters, and the function handed to the minimiser is nowhere zero.
* `C123_update_parameters_refuted`: A user who follows the protocol of the other samplers, update_parameters(x) and then generate_sample(m), does not sample x: for every x other than the original parameters the replicas still run with the original ones, replica i at theta*beta_i and not at x*beta_i, and the object is the one that would have resulted without the call.
* `C124_cond_samples_refuted`: coniii/solvers.py:1629 calls generate_cond_samples on its sampler. No sampler object of any class has that name, so the call raises AttributeError whatever sampler the user supplies.
* `C124_potts3_cond_refuted`: A user expects of a Potts3 sampler, a subclass of Metropolis, the conditional samples of Metropolis under the same name. The name is never bound: it raises AttributeError on every constructed object after every sequence of updates, although both implementations are inherited.
* `C124_unusable_refuted`: SWIsing, HamiltonianMC and Heisenberg3DSampler are public and documented but no object of these classes exists.
* `C13_exclude_empty_ignored_refuted`: The switch exclude_empty never changes the result...
* `C13_exclude_empty_refuted`: although the average over the nonzero products is different in general.
* `C15_ternary_refuted`: The ternary helpers read columns 0..3n-1 of an n-column array: out of range for every n>0.
* `C23_many_states_refuted`: The constructor accepts more states, but writing fails: a digit above 9 is a letter and int() of a letter raises; above 36 states base_repr raises.
* `C24_nonpositive_refuted`: With no positive similarity the first column is paired with itself and the last column disappears: three columns, all similarities -1 (or 0).
* `C25_after_parallel_refuted`: Not every call succeeds: after a parallel run the sampler holds one replica per worker, and a following generate_sample_py of exactly that many samples raises.
* `C25_zero_burn_in_refuted`: burn_in=0 does not switch the burn in off: it means n_iters updates.
* `C26_systematic_irreducible_refuted`: Systematic scans are not irreducible: with all parameters zero and one scan between samples, two spins that start equal stay equal for ever, whatever the random numbers.
* `C30_define_jit_cond_calc_e_refuted`: Values are read from the wrong slot: with spins 1 and 2 fixed at -1 and 1, site 1 gets the value 2.
* `C30_single_fixed_spin_refuted`: With a single fixed spin it works only for site 0: for every other site the read is out of bounds.
* `C33_positive_refuted`: It does not keep the inverse temperatures positive.
* `C34_refuted`: The documented matrix format never works for two spins: every 2x2 matrix is taken for a pair [fields, couplings] and fails the size check.
* `C35_refuted`: One index which is not the last parameter: the constructor crashes.
* `C36_refuted`: Any proper subset of the parameters: the default constraints are rejected.
* `C37_logK_gradient_refuted`: The gradient returned with logK misses the gradient of logK by ln(number of samples) in every component: it is the gradient only for a single sample.
* `C42_starting_point_refuted`: The claim for all spins is false: three spins with different couplings of spin 2.
* `C46_single_spin_refuted`: A single spin: the loop never evaluates the contribution of [0], which is then looked up.
* `C47_unsorted_pair_refuted`: Asked for the same two spins in decreasing order, the code reads a zero joint frequency off the empty lower triangle, whatever the data; no parameters can then make the residual vanish.
* `C47_unsorted_subclusters_requested_refuted`: deltaS of an unsorted cluster asks for unsorted subclusters, which hit the case above.
* `C48_strict_right_refuted`: "f(b) < f(a) and f(c)": the second inequality fails for ties, however long the grid.
* `C49_rmf_doubles_energies_refuted`: The conversion at the end of RegularizedMeanField.solve doubles all energies of the mean field model (up to a constant), i.e. it samples at half the temperature.
* `C49_rmf_uncorrelated_data_refuted`: For uncorrelated data the mean field matrix is exact for every prior strength, yet the multipliers returned have the frequencies p^2/(p^2+(1-p)^2).
* `C53_list_arguments_refuted`: Documented "list-like" arguments: a Python list of the right length raises AttributeError; with the shipped modules, so does every system of ten spins or more (the missing module raises).
* `C54_field_arguments_refuted`: An array of fields (documented) with more than one element raises ValueError in the constructor, and a nonzero integer field makes every non-empty iteration raise.
* `C54_field_convention_refuted`: The convention of the other modules (a positive field favours spin +1) is refuted: on every lattice, for every nonzero field.
* `C54_thin_lattice_refuted`: A dimension of length one: the site is its own neighbour and the energy change is wrong whenever J is not zero.
* `C55_single_row_refuted`: except a lattice of one row of blocks and several columns of blocks: the broadcast repeats the first block, and the result is silently wrong.
* `C57_matrix_refuted`: WolffIsing documents couplings "as vector or matrix"; a matrix is rejected for every n except 0 and 3.
* `C57_site_zero_refuted`: Asking for site 0 has no effect: the site is drawn at random.
* `C57_swendsen_wang_refuted`: SWIsing cannot be constructed.
* `C58_one_state_refuted`: The estimate for a single state raises.
* `C62_readin_multipliers_refuted`: readin_multipliers, which Python can call, leaves the coupling matrix of the old parameters behind: the reported energy change is then wrong.
* `C64_refuted`: Built from a system size the solver cannot be run, not even with explicit constraints and initial guess.
* `C65_refuted`: Assigning the attribute leaves the default evaluation at the old parameters.
* `C66_custom_arguments_refuted`: A user-supplied neighbour function or energy derivative is not usable: the constructor does not store it, and solve fails with AttributeError.
* `C66_not_all_connected_refuted`: solve(..., all_connected=False) raises NameError on every non-empty sample.
* `C66_one_parameter_logK_gradient_refuted`: With gradients, logK of a one-parameter model raises.
* `C68_missing_eta_refuted`: learn_params_kwargs without eta is rejected although eta has a default; a missing maxdlamda is not noticed by the same assertion.
* `C68_sparse_default_constraints_refuted`: SparseMCH.solve() and SparseEnumerate.solve() without explicit constraints: the constraints of the data are for all parameters, so a proper subset always fails.
* `C68_zero_tolerance_refuted`: A tolerance of exactly zero is ignored: it selects the default tolerance.
* `C71_analytic_branch_refuted`: But the code never gets there: the logarithm it calls is not defined in its module.
* `C71_unsorted_pair_swaps_fields_refuted`: And were it reached for an unsorted pair, the two fields would be exchanged: row 0 of the two-spin matrix belongs to the smaller index but is written to the first spin of the cluster.
* `C72_dmdT_refuted`: Already without interaction (J=0) dmdT is minus the derivative of m in T, and (below) susc at h=0 is off by a factor T from the derivative of -m in h.
* `C72_energy_sign_refuted`: avgE reports the interaction with the opposite sign.
* `C72_susceptibility_refuted`: susc at h=0 is off by a factor T from the derivative of -m in h.
* `C73_unsorted_pair_refuted`: A pair given in decreasing order: the joint frequency stored above the diagonal is ignored, so that data with any correlation give the same answer.
* `C74_covariance_matrix_refuted`: Off the diagonal coocSampleCovariance holds E[pq](1-E[pq]), not the covariance.
* `C75_objective_never_vanishes_refuted`: Hence the objective stays above a positive constant even if the sample reproduces the data exactly.
* `C75_residual_ignores_frequencies_refuted`: The sample consists of -1,1 spins while the target holds frequencies of 1: the residual of every frequency is 1-p whatever the sample, and the pair residuals compare a correlation with a joint frequency.
* `C75_sampled_magnetisation_has_wrong_sign_refuted`: For uncorrelated data, whose mean field model is exact, the model that is sampled has magnetisations of the wrong sign.
* `C77_class_total_refuted`: The method of the class always raises NameError.
* `C77_documented_sign_refuted`: The documentation says the Jacobian is the derivative of the log likelihood itself: it has the opposite sign.
* `C77_module_solver_hessian_refuted`: The same for the module function.
* `C77_module_total_refuted`: The module function adds the likelihood of every column under every row of the matrix: n times too many terms. The documented value is the sum over r of the likelihood of column r under row r.
* `C77_solver_hessian_refuted`: The solvers pass precomputed products of undoubled data. The Hessian given to the minimiser is then a quarter of the true one for two couplings, half of it for a coupling and the field, and right for the field only; it is wrong as soon as another column holds a one.
* `C78_linear_energy_never_rejects_refuted`: With a constant gradient (a linear energy) the whole run ignores the tests: the position after any number of steps is the start moved by all proposals.
* `C78_rejected_proposals_are_kept_refuted`: Metropolis rule for Hamiltonian Monte Carlo: the array holds the proposal if the test succeeds and the old position otherwise. jit_sample does not follow it: after one step the position does not depend on the uniform number at all; it is the proposal even if the test fails.
* `C79_azimuth_gradient_refuted`: Hence the second column ("Gradient wrt theta and phi") is not the derivative in phi: it lacks the factor sin theta, and is wrong whenever it is not zero and the spin is not on the equator.
* `C79_no_width_refuted`: sigma = 0 asks for copies of v; with more than one sample the array of angles is read out of bounds.
* `C79_pole_refuted`: A vector on the polar axis (a legal spin) gives nan.
* `C80_before_setup_refuted`: Calling generate_sample before setup_sampler is meant to fail the assertion "Must call setup_sampler() first."; it raises AttributeError instead, since the attribute does not exist.
* `C80_python_reproducible_refuted`: In pure Python it does not hold: the sampler keeps the last state of every chain and starts the next call from there, so that replacing the generator by an identical one does not reproduce the sample.
* `C80_sample_ising_history_refuted`: The documented keyword saveHistory is not accepted with parallel=True (the default), in either implementation: TypeError.
* `C80_sample_ising_initial_refuted`: Nor is the documented keyword initial_sample with the compiled extension: TypeError.
* `C80_set_rng_refuted`: Replacing the generator before setup_sampler raises AttributeError although the replacement has been made: a set_rng that succeeds is not the only one to take effect.
* `C83_specific_heat_refuted`: The value named specific heat is h*h without interaction, whatever the temperature; the derivative of the energy in the temperature is smaller than h*h/(2T)^2.
* `C85_K_refuted`: The test objective _K of the MPF solver never returns, whatever the data and parameters.
* `C85_multinomial_rounding_refuted`: For every relative error eps>0, however small, there is a rounding within it for which the result of multinomial is wrong for all arguments (whose value is at most 1/eps).
* `C85_nidx_refuted`: get_nidx does not return the indices where get_3idx is non-zero: for every n>3 it raises instead (and for n<3 it returns None).
* `C85_spectral_clusters_refuted`: They need not be the components themselves: for two vertices without an edge an exact eig may return the vectors (1,1) and (1,-1) over the square root of 2, and spec_cluster returns the pair twice although the vertices are not joined.
* `C86_maximum_likelihood_refuted`: The docstring derives the update from likelihood maximisation. It is not: at parameters where the derivative of the log-likelihood of the visible spins vanishes, with the constraints documented and samples that represent the model and every conditional distribution exactly, learning moves on (the prediction averages conditional means, which belong with the data, and compares them with constraints taken from the data alone).
* `C86_solve_refuted`: The public method never returns a solution: solve calls generate_sample, which reads an attribute [sampler] that no solver object has.
* `C87_zero_parameters_boost_refuted`: The compiled sampler has the same defect.
* `C87_zero_parameters_refuted`: Expected: drawing many rows from the sampler of a model whose parameters are all zero (the start of every solver) gives all spin vectors equally often. With an even number of updates between rows, whether default (1000), systematic or random, all rows of one call have the same product of spins, for every generator: the average of the product is 1 or -1 while its expectation is 0. For two spins the sampled correlation is 1 or -1.
* `C89_killed_worker_refuted`: When a worker that works on a chunk is killed, map never returns, whatever happens afterwards.
* `C89_shared_generator_refuted`: Where the workers draw from a generator of the objects they share (the conditional samples of MCHIncompleteData), every chunk starts from a copy of the same generator. With at most four rows per process all rows are drawn from the same stream, and the generator of the caller does not advance.
* `C89_swendsen_wang_refuted`: SWIsing.generate_sample_parallel raises NameError for all arguments.
* `C91_relative_refuted`: Small averages have no relative accuracy: with correctly rounded exp and log, a field of magnitude at most 2^-56 gives the mean 0 exactly, although it is not 0.
* `C92_cond_refuted`: "Conditional samples of a Potts3 object are states 0, 1, 2" does not hold: the chain starts from values -1 and 1, and -1 stays wherever no update was accepted.
* `C92_sequential_refuted`: "generate_sample of a Potts3 object returns states 0, 1, 2" does not hold with the extension: Potts3 binds generate_sample to the method inherited from Metropolis, which builds a BoostIsing sampler from the Potts parameters (samplers.py:1220, 1810).
* `C93_failed_write_refuted`: With more than ten states the constructor succeeds and write() raises in the middle: the file, whatever it contained before, is left with an open bracket, and every attempt to import it and call a function raises.
* `C96_zero_parameters_refuted`: Expected: rows drawn with all parameters zero take every spin vector equally often in the long run. Every step then reverses exactly one spin, so for every generator the product of the spins of a returned row is that of the initial row times (-1)^n_iters: started from equal rows, its average over the sample is 1 or -1 for every number of steps, while its expectation is 0.
* `C97_default_rate_refuted`: The default learning rate is 1 whatever the number of parameters, and C97_no_worse is false for it: with three spins that are aligned in every sampled state and slightly biased constraints, one learning step overshoots so far that the prediction is further from the constraints than the sample was.
* `C99_degenerate_refuted`: Expected: for every data set there are parameters with its means and correlations (solve can succeed). If a spin, or the product of two spins, is the same in all rows, there are none: the error is at least exp(-2 R) where R is the sum of the moduli of the parameters, and the function handed to the minimiser is nowhere zero.
<!-- /findings -->

## Proof idea per property

* **C01 sub_to_ind and ind_to_sub are inverse bijections.** Model both functions over nat with the loops as folds. Prove equality with the position in the lexicographic list of pairs by induction on n.
* **C02 bin_states enumerates every state once, in binary order.** Digit functions on nat; rows as lists of Z. Prove Horner value of row i is i, NoDup and completeness.
* **C03 base_repr returns the base-b digits of i whatever rounding the logarithm does.** The truncated float logarithm is a function argument. Prove by induction on the exponent loop that the digits evaluate to i.
* **C04 base_repr digit alphabet for bases above 10.** Same loop with the alphabet constant as a list of characters. Refute with digit 18; prove the restricted positive statement.
* **C05 xpotts_states enumerates the k^n Potts states once, in order.** Map of base_repr over range(k^n) with padding; corollary of the C03 lemma.
* **C06 unravel_index is the lexicographic rank of a k-tuple.** Recursive rank with binomials; prove equality with the position in the list of combinations by induction on n and k.
* **C07 split_concat_params undoes concatenation.** Loop with a 'consumed' counter and fuel; round trip by induction on the number of orders; non-termination = out of fuel for every fuel.
* **C08 vec2mat and mat2vec are inverse.** Matrices as functions with sizes / lists of lists; index lemmas from C01.
* **C09 convert_params changes basis without changing the model.** Real valued energies as list sums; algebra over symmetric double sums.
* **C10 ising_convert_params preserves the model at every interaction order.** Subset expansion of products of (2x-1); sums over combinations.
* **C11 convert_corr commutes with converting the data.** Linear algebra of list sums over data rows.
* **C12 pair_corr computes weighted means and pair correlations in combinations order.** List sums over the columns; bounds from |x|<=1.
* **C13 k_corr agrees with direct averaging but ignores exclude_empty.** As C12; refutation on a concrete matrix with zeros.
* **C14 state_probs returns a probability distribution over the observed states.** Data rows as lists of Z, unique rows via nodup; counting lemmas.
* **C15 Ising energy is minus observables dot parameters.** Loops as folds with running parameter index; induction.
* **C16 calc_de is the derivative of the energy.** Linear dependence of the energy on one parameter.
* **C17 pseudolikelihood helpers give the conditional energy of spin r.** Slices of the parameter vector as index lists; algebra and exp lemmas.
* **C18 Potts pseudolikelihood helpers.** As C17 with k colours.
* **C19 MCH approximation is exact histogram reweighting.** Weighted averages; cancellation of the partition function.
* **C20 adj and adj_sym list the single flip neighbours.** List update functions, the in-place writes are modelled by a state.
* **C21 fast_logsumexp returns log and sign of the weighted sum of exponentials.** R-valued fold; ln/exp lemmas.
* **C22 generated Ising equations are the exact Boltzmann distribution.** The generator is modelled as a function from n to a list of symbolic terms (an abstract syntax), with an evaluator for the generated code. Semantics proved for all n.
* **C23 generated Potts equations are the exact Boltzmann distribution.** As C22 for the Potts generator.
* **C24 coarse_grain_with_func partitions the columns.** Greedy pairing loop with an abstract similarity matrix; permutation invariant.
* **C25 Metropolis keeps the recorded energy equal to the energy of the recorded sample.** State machine with an oracle list of (site, uniform) pairs; invariant by induction.
* **C26 Metropolis satisfies detailed balance and leaves Boltzmann stationary.** Transition kernel derived from the acceptance test on uniforms (length of acceptance interval); sums over the finite state space; stationarity by induction over steps.
* **C27 C++ incremental energies equal Python energy differences.** C++ loops as folds; equality of the incremental difference with calc_e differences.
* **C28 Python conditional sampling keeps fixed spins and reports consistent energies.** np.insert as list function; explicit interleaving; induction over fixed positions.
* **C29 C++ conditional sampling never changes a fixed spin.** Complement computation loop + chain; invariant.
* **C30 define_jit_cond_calc_e evaluates the conditional energy.** Direct model; witness.
* **C31 parallel sampling returns exactly the requested number of samples.** Ceil division and truncation; list lemmas.
* **C32 replica exchange keeps replica bookkeeping consistent.** State = list of replica records; invariant over exchanges; detailed balance algebra.
* **C33 temperature ladder update keeps the coldest replica and the ordering.** Loop over the ladder from the right; induction.
* **C34 Ising model constructor accepts all documented formats equivalently.** Constructor on a sum type of inputs; round trips via C08.
* **C35 sparse parameter filling.** np.insert semantics on lists; induction.
* **C36 default constraints of SparseEnumerate.** Direct model of size checks.
* **C37 MPF objective, its logarithm and their gradients.** K, logK and gradients as list sums; stdlib derivable_pt_lim.
* **C38 MPF objective vanishing flow.** Sum over the hypercube with detailed pairing of neighbours.
* **C39 MCH learning loop respects its limits and terminates.** Loop with fuel = step limit; invariant on trace.
* **C40 pseudolikelihood objective and gradient.** Objective as list sum; derivative via derivable_pt_lim.
* **C41 Potts pseudolikelihood gradient.** As C40.
* **C42 Pseudo initial guess is handed to the right parameters.** Index list model of the swap; witness for r=2 and positive statement for r<=1.
* **C43 Pseudo symmetrisation.** Matrix assembly; index lemmas.
* **C44 ClusterExpansion.subsets lists every subset of given size once.** Recursive model with fuel = size; multiset of subsets.
* **C45 cluster entropies satisfy inclusion-exclusion.** Memo dictionaries as association lists with consistency invariant; inclusion-exclusion over the lattice of subsets.
* **C46 cluster expansion with threshold below every |deltaS| is exact.** Loop over cluster sizes; sums over subset lattice.
* **C47 sub-cluster correlations are read in sorted order.** Direct model; witness.
* **C48 bracket1d returns a bracketing triple.** argmin/min over lists; order lemmas.
* **C49 conversion of solver output to the {-1,1} basis.** Algebra on energies; witness for the doubling.
* **C50 aboveDiagFlat and unflatten are inverse.** Index arithmetic by induction.
* **C51 mean field module: exact expectations.** Finite sums, Gibbs inequality for the bound.
* **C52 co-occurrence matrix.** List sums and entry lemmas.
* **C53 find_basin terminates in a local minimum.** Fuel by strictly decreasing energy over a finite state space; well-founded argument.
* **C54 lattice Metropolis energy change.** Periodic sums over the torus with single site change.
* **C55 block spin coarse graining.** Block sums as list functions, tie choices as oracle.
* **C56 iter_cluster returns the connected components.** BFS with pick oracle; reachability invariant.
* **C57 Wolff cluster growth.** Stack loop with oracle; invariant.
* **C58 log-likelihood estimate of incomplete states.** Counting model.
* **C59 maximum entropy.** Gibbs inequality over finite lists.
* **C60 uniqueness of the inverse Ising solution.** Convexity / Gibbs inequality equality case plus linear independence of the monomials on the hypercube.
* **C61 log cosh and mean field scalar identities.** Real analysis with stdlib.
* **C62 replacing parameters of a C++ sampler.** Alias model of the buffers; witness.
* **C63 calc_overlap.** List sums; Cauchy-Schwarz.
* **C64 Enumerate.solve.** Direct model of the starting point and constraint handling, root finder as oracle.
* **C65 default parameters of generated functions.** Evaluator on the generated defaults.
* **C66 optional arguments of MPF.** Direct model; witnesses.
* **C67 MCH update.** Convexity of the log partition function (Jensen / Gibbs inequality).
* **C68 MCH settings.** Direct model of the settings record.
* **C69 consistency of the pseudolikelihood.** Conditional Gibbs inequality summed over the data distribution.
* **C70, C71 cluster fits.** Residual zero gives the moments; closed forms by algebra with ln/exp.
* **C72, C73 mean field thermodynamics and inversion.** Fixed point equation; matrix algebra with the eigenvalue routine as oracle.
* **C74, C75 covariance and objective of the regularised mean field.** Expectation algebra; general refutations.
* **C76 Wolff detailed balance.** The average over the uniform numbers of the model's growth loop equals a recursion over random subsets; the probability of a given ordered cluster changes by the product over its boundary when the cluster is reversed, which matches the energy difference.
* **C77 Deprecated pseudolikelihood.** The energy of the 0/1 matrix model is affine in each site, with the local field of the code as slope; softplus gives value, gradient, Hessian and the tangent inequality, for arbitrary nonnegative sample weights, which covers both implementations.
* **C78 Heisenberg energy.** The counter loops become a sum over pairs with pair_index; the derivative of a pair splits into the two ordered contributions which the gradient's double loop adds.  Leapfrog: one step composed with momentum reversal is an involution; induction on the number of steps.
* **C79 Nearby vectors.** Rodrigues' formula is written as a 3x3 matrix whose columns are orthonormal (six polynomial identities), which preserves inner products and maps the pole to v.
* **C80 Front end.** Invariant over call histories: the sampler's n is the model's, the compiled implementation is bound only with n+n(n-1)/2 parameters, and the stored chains are rows of n spins; reproducibility: in the compiled implementation the stored chains are never read.
* **C81 Text.** Lexing what was printed gives the tokens of the statements: inserted line breaks fall inside brackets; every separator numpy prints becomes a comma; the parser inverts the token printer; executing the statements is `run_p`/`run_calc_observables` of C22. Shipped files: equality of characters with the generator's output by computation, then the theorem for all parameters.
* **C82 Swendsen-Wang.** The joint weight exp(-E(s)) P(bonds | s) is exp(h.s) times a product over pairs that does not change when a set of sites crossed by no bond is reversed; so reversing a cluster with the heat bath probability is symmetric for the joint weight, reversals of disjoint clusters commute, and summing over bonds gives detailed balance. Without bonds every state is reached, so a stationary distribution is constant relative to the Boltzmann weights (maximum principle).
* **C83 homogeneous system** The Gauss integral is proved with the derivative of `int_0^1 exp(-x^2(1+t^2))/(1+t^2)`; moments of shifted Gaussians follow from primitives; `(2 cosh y)^N` and its products with `tanh` are expanded into sums over states, each state then gives one Gaussian integral. Gibbs' inequality with its equality case gives the sign of the multi-information. `quad` is an oracle assumed to return the improper integral.
* **C84 stability** Derivatives of the logistic iteration at a fixed point; A D and D A have the same complex eigenvalues for invertible diagonal D (eigenvectors by real and imaginary parts).
* **C85 helpers** The product of binomials is expanded by induction into elementary symmetric sums, each a sum over `combinations`; symmetry of the binomial coefficients matches the coefficient blocks with the monomials. Null vectors of a Laplacian are constant along edges because their quadratic form is a sum of squares.
* **C86 incomplete data** The counts of the distinct incomplete rows turn the sum over patterns into a sum over rows (`sumf_count`). The gradient of the log-likelihood is computed with Coquelicot from two log-partition functions per row.
* **C87 long runs** A step is an averaging operator on functions of states. Some power of it is at least eps times the sum over all states (Doeblin's condition), so that it contracts the range of every function by 1 - eps. For Ising updates, two moves per site suffice once one rejection has positive probability, which is the case unless the energy is constant.
* **C88 sample averages** The expectation over the whole list of draws that the sampler consumes is an iterate of the operator of C87 (`generate_tape`). The variance of a sum of m rows is a sum over pairs of rows, and pairs k rows apart contribute at most a geometric sequence in k (`average_converges`).
* **C89 pools** The invariant numbers the chunks: each is in the queue, at one worker or reported, and a worker holds the results of a prefix of its chunk. Work left decreases with every action, so that fair schedules end; killing a worker removes a number for good.
* **C90 rounding** Products with spins are exact, so that only sums round; every way to add them up is a tree, and the error of a tree grows with its depth. The running energy is corrected towards the new energy in every step. The float chain is a perturbation of the exact one; since the exact one forgets its start (C87), the errors of early steps die out.
* **C91 rounding in equation files** The shifted exponentials are at most 1 and one is 1, so that their sum S is at least 1 and has a relative error of order N eps; the logarithm turns it into an absolute error, and its own relative error is harmless because x exp(-x) is bounded. Energies are left-to-right trees; a perturbation xi of all energies changes every probability by a factor within exp(2 xi).
* **C92 Potts3 objects** The C++ Ising run reads only the first n + n(n-1)/2 parameters: the coupling matrix and every update agree for two vectors that agree there, by induction over the run. The invariant of a model is that its sampler has the right number of parameters and its replicas are Potts states.
* **C93 text of Potts files** The lexer is run over the printed pieces (each ends in the state it began in), the tokens parse to the statements of the file, and running these gives the values of C23. For a write that raised, the open bracket never closes, so the tokenizer reports it.
* **C94 interrupted writes** The tokens of a prefix of a text are the lines of the text up to some line and one line that may be anything, or the tokenizer fails on an open bracket or string. A function found in the prefix therefore has the body of the complete file, or its first lines and one unknown line; since the values are assigned before the only return, which is the last line, a value is returned only by complete bodies.
* **C95 conditional samples** Inserting the fixed spins is a bijection from states of the free spins to the states that agree with the fixed values; it carries the chain of the free spins (C88) to the rows returned. The C++ loop runs on full states and flips free sites only, which is the same chain.
* **C96 Wolff samples.** Single-site clusters have positive probability, so all states communicate; a non-zero field lets a step be refused, a non-zero coupling gives a two-site cluster and a cycle of length three, so 2n+2 steps reach every state from every state. The rows of generate_sample consume disjoint parts of the random numbers, hence are independent.
* **C97 Small learning rates.** Hoeffding's lemma bounds the curvature of the reweighted log-likelihood by the number of parameters (observables lie in [-1,1]); hence the descent lemma, and co-coercivity of the gradient makes the error non-increasing. The likelihood is bounded below when the constraints are a weighted mean of sampled observables, which gives the rate.
* **C98 Stability of the inverse problem.** Spin products are orthogonal over all states, so the symmetrised relative entropy of two models is at least the smallest probability times 2^n times the squared distance of the parameters: the gradient of the log partition function is strongly monotone with an explicit constant. With co-coercivity (C97), a projected gradient step is a contraction of a ball; its fixed point is the exact solution.
* **C99 Existence.** For moments of a distribution with probabilities at least omega the negative log-likelihood grows like omega times the norm of the parameters; on a large sphere the gradient points outwards and the fixed point argument of C98 gives a zero. If an observable is constant in the data, its expectation misses the constant by at least twice the probability of the states where it differs.
* **C100 Consistency.** Mean square error of sample means over the product distribution, Markov's inequality, and the certificate of C98 read from the true parameters.
* **C101 Scan order.** The runs are folds over explicit lists of sites; a spin that is not in the list is unchanged (C25).
* **C102 Round trip.** The mean square errors of C88 for all observables together, Markov's inequality and the certificate of C98.
* **C103 Systematic scans.** Flipping every visited site is always possible and is an involution T on states; at each visit of site i one of a state and its flipped twin may stay, so one of s -> T(flip s), flip s -> T s is possible. A chain with a positive invariant distribution can always return (`reach_back`), so all states communicate; the lowest state can be kept, which excludes periodicity. Potts: two sweeps reach everything.
* **C104 One Wolff chain.** The loop on independent draws is one step, then rows sep steps apart (`chain_tape`, induction with the distance to the next recorded step); the first row is split off by (a+b)^2 <= 2a^2+2b^2 and C96's minorisation bounds the rest.
* **C105 Replica exchange.** The program on independent streams of uniform numbers (`Estreams`; an update may or may not draw, `slaw_pull`/`slaw_le`) has the law of a product of Metropolis moves on tuples of states. Single flips commute, so every flip can be reached (`reach_move`); the tuple of lowest (for a negative temperature highest) states can stay; the product of Boltzmann weights is invariant; marginals factor.
* **C106 Types.** Element type and number of dimensions of each argument; a compiled function with a signature accepts exactly these.
* **C107 Counting passes.** The while loop is a fold over nBurn+2 draws; aliases of the position array are resolved in the model.
* **C108 Heisenberg chain.** Invariant over the updates; the proposal by C79.
* **C109 Types of samples.** The typed programs are the untyped ones with a guard; with int64 the guard is transparent, otherwise it is the first thing to fail in the first learning step.
* **C110 Arrays in memory.** numpy reads word off + i*stride, the C++ code word off + i; they agree for stride 1, and a copy has stride 1 in a fresh buffer that no old view reaches. Small integers are the bit patterns of subnormal doubles.
* **C111 Pseudo and other models.** The index lists of the Ising helpers stay below n+n(n-1)/2, so a longer parameter vector changes neither the objective nor the first gradient entries.
* **C112 Calls of convert_corr.** The loops write the first n(n-1)/2 entries of a zero vector and read no others.
* **C113 Narrow integers.** Adding products in a type of b bits gives the exact scalar product modulo 2^b; with entries -1, 0, 1 it is at most the number of terms.
* **C114 Sizes in floats.** For N <= 2^52 not a square, sqrt N is farther than 2^-27 from the nearest integers and the rounding error is at most 2^-28; subtracting a smaller integer and halving are exact.
* **C115 Pseudolikelihood of noisy data.** The objective is a weighted sum of logistic losses of linear forms. Its gradient is co-coercive everywhere and strongly monotone in a ball; at the true parameters it vanishes for exact weights (pairing each state with its flip), so it is small for nearby weights. The zero of C98's argument is then the only minimum. The frequencies of all 2^n states are averages of indicator functions, to which the error bound of C102 applies.
* **C116 Probability flow of noisy data.** In the basis {-1,1} the flow is a weighted sum of exponentials of linear forms, half of those of C115. The exponential has no co-coercive gradient, so its argument is clipped to the interval it takes on the ball around the true parameters; the zero found there is a zero of the true gradient, and convexity makes it the only minimum. The change of basis moves parameters by at most four times the largest change of an energy, which gives the room the box needs.
* **C117 Gauge freedom of Potts models.** Two energies that differ by a constant on all states have equal single-site differences; setting the other spins to two different patterns isolates one coupling. Equal observables give equal expected energies under both models, and Gibbs' inequality (C05's argument) then forces equal distributions.
* **C118 Potts pseudolikelihood.** Each spin's part is an average of cross entropies of conditional distributions, so Gibbs' inequality gives the maximum and the case of equality; C117 turns equal conditionals into equal parameters up to constants. The sum over states of the field derivatives telescopes to one minus one; the invariant of all points reached by gradient steps follows. A prior breaks the tie by moving the fields of one spin by minus their average.
* **C119 Integer guesses.** The typed solver is the float solver given a minimiser that drops fractions first, so C43 describes its objective. For the refutation two numbers with the same integer part give the same value, so one of two minima has a field different from the true one. In the Potts gradient each element is written once per spin, and truncation of a truncated number changes nothing.
* **C120 Potts stability.** The sum of (p-q)(ln p - ln q) over the states equals the inner product of the differences of observables and of centred parameters. It is at least the smallest probability times the sum of (ln p - ln q)^2. With centred fields and the indicator of equal states centred too, all terms of the energy difference are orthogonal over the k^n states, so that sum is explicit.
* **C121 Potts sampling and fitting.** The chain of C88 gives the mean square error of every average; added up they bound the probability that the averages are farther than d from the expectations. C120 turns that distance into a distance of parameters.
* **C122 Potts solvability.** Add to (correlations - constraints) the mean field of every spin. The sum is cocoercive and, in every ball, strongly monotone (C120 for the centred part), and points outwards on a large sphere because the negative log likelihood grows linearly; so it has a zero (the contraction argument of C98). Adding up over the states of a spin shows that the mean fields of the zero vanish, so its correlations are the constraints.
* **C123 tempering object.** Invariant over the calls: replica i holds beta_i times the running parameters and no or one valid state, the indices are a permutation; energies may be out of date until the next burn in. A round restores the consistency of C32.
* **C124 method lookup.** Case distinction over constructors; update_parameters leaves class, stored methods and size unchanged.
