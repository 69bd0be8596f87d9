{
 "claims": [
  {
   "property": "C01",
   "status": "proved",
   "theorems": [
    "C01_sub_to_ind_is_combinations_position",
    "C01_inverse_left",
    "C01_inverse_right",
    "C01_range",
    "C01_injective",
    "C01_symmetric",
    "C01_equal_indices_raise",
    "C01_out_of_range_is_None"
   ],
   "note": ""
  },
  {
   "property": "C02",
   "status": "proved",
   "theorems": [
    "C02_bin_states_enumerates",
    "C02_bin_states_row_value",
    "C02_sym_is_relabelling",
    "C02_out_of_range_raises",
    "C02_xbin_states_enumerates",
    "C02_xbin_agrees"
   ],
   "note": ""
  },
  {
   "property": "C03",
   "status": "proved",
   "theorems": [
    "C03_base_repr_canonical",
    "C03_base_repr_zero",
    "C03_base_repr_overestimate",
    "C03_bad_base_raises"
   ],
   "note": ""
  },
  {
   "property": "C04",
   "status": "proved",
   "theorems": [
    "C04_alphabet_refuted",
    "C04_large_base_without_18_19"
   ],
   "note": "The alphabet claim is false; C04_alphabet_refuted gives the witness and C04_large_base_without_18_19 the part that holds."
  },
  {
   "property": "C05",
   "status": "proved",
   "theorems": [
    "C05_xpotts_states_enumerates",
    "C05_xpotts_states_letters",
    "C05_xpotts_bad_arguments_raise"
   ],
   "note": ""
  },
  {
   "property": "C06",
   "status": "proved",
   "theorems": [
    "C06_unravel_index_is_combinations_position",
    "C06_combinations_spec",
    "C06_unravel_index_bijective",
    "C06_bad_tuples_raise"
   ],
   "note": ""
  },
  {
   "property": "C07",
   "status": "proved",
   "theorems": [
    "C07_split_concat_round_trip",
    "C07_too_long_input_diverges_refuted"
   ],
   "note": "Round trip proved; totality refuted by C07_too_long_input_diverges_refuted."
  },
  {
   "property": "C08",
   "status": "proved",
   "theorems": [
    "C08_vec2mat_entries",
    "C08_position_is_sub_to_ind",
    "C08_mat2vec_vec2mat",
    "C08_vec2mat_mat2vec",
    "C08_separate_fields",
    "C08_asymmetric_raises",
    "C08_bad_length_raises",
    "C08_separate_bad_length_refuted"
   ],
   "note": ""
  },
  {
   "property": "C09",
   "status": "proved",
   "theorems": [
    "C09_to_01",
    "C09_to_11",
    "C09_probabilities_to_01",
    "C09_probabilities_to_11",
    "C09_inverse",
    "C09_matrix_form",
    "C09_unknown_basis_raises"
   ],
   "note": ""
  },
  {
   "property": "C10",
   "status": "proved",
   "theorems": [
    "C10_to_01",
    "C10_to_11",
    "C10_agrees_with_convert_params"
   ],
   "note": ""
  },
  {
   "property": "C11",
   "status": "proved",
   "theorems": [
    "C11_to_01",
    "C11_to_11",
    "C11_inverse"
   ],
   "note": ""
  },
  {
   "property": "C12",
   "status": "proved",
   "theorems": [
    "C12_weighted_entries",
    "C12_mean_entries",
    "C12_subtract_mean",
    "C12_exclude_empty",
    "C12_laplace",
    "C12_bounds",
    "C12_rejects",
    "C12_wrong_weights_raise"
   ],
   "note": ""
  },
  {
   "property": "C13",
   "status": "proved",
   "theorems": [
    "C13_k_corr_entries",
    "C13_second_order_is_pair_corr",
    "C13_exclude_empty_ignored_refuted",
    "C13_exclude_empty_refuted"
   ],
   "note": ""
  },
  {
   "property": "C14",
   "status": "proved",
   "theorems": [
    "C14_state_probs",
    "C14_given_states",
    "C14_given_states_complete"
   ],
   "note": ""
  },
  {
   "property": "C15",
   "status": "proved",
   "theorems": [
    "C15_ising_energy",
    "C15_ising_energy_rows",
    "C15_ising_sym_energy",
    "C15_triplet_energy",
    "C15_potts_energy",
    "C15_ternary_refuted"
   ],
   "note": ""
  },
  {
   "property": "C16",
   "status": "proved",
   "theorems": [
    "C16_calc_de_is_increment",
    "C16_calc_de_is_derivative",
    "C16_out_of_range_raises"
   ],
   "note": ""
  },
  {
   "property": "C17",
   "status": "proved",
   "theorems": [
    "C17_pseudo_ising_conditional",
    "C17_pseudo_ising_local_field"
   ],
   "note": ""
  },
  {
   "property": "C18",
   "status": "proved",
   "theorems": [
    "C18_pseudo_potts_conditional"
   ],
   "note": ""
  },
  {
   "property": "C19",
   "status": "proved",
   "theorems": [
    "C19_mch_reweights",
    "C19_zero_step",
    "C19_exact",
    "C19_potts_mch_reweights"
   ],
   "note": ""
  },
  {
   "property": "C20",
   "status": "proved",
   "theorems": [
    "C20_adj_lists_single_flips",
    "C20_adj_sym_lists_single_flips",
    "C20_neighbour_symmetric",
    "C20_random_neighbours_differ"
   ],
   "note": ""
  },
  {
   "property": "C21",
   "status": "proved",
   "theorems": [
    "C21_weighted",
    "C21_unweighted",
    "C21_shift",
    "C21_no_overflow",
    "C21_bad_input_raises",
    "C21_no_nan"
   ],
   "note": ""
  },
  {
   "property": "C22",
   "status": "proved",
   "theorems": [
    "C22_write_eqns",
    "C22_pairwise",
    "C22_agrees_with_pair_corr",
    "C22_triplet",
    "C22_triplet_small_raises"
   ],
   "note": "Proved for any index lists (at most 23 orders), pairwise and triplet, both bases; triplet(n<=2) raises AttributeError."
  },
  {
   "property": "C23",
   "status": "proved",
   "theorems": [
    "C23_potts_file",
    "C23_many_states_refuted",
    "C23_bad_arguments_raise",
    "C23_wrong_size_raises"
   ],
   "note": "Proved for n>2, 2<=k<=10; for k>10 the writer raises although the constructor accepts k (C23_many_states_refuted)."
  },
  {
   "property": "C24",
   "status": "proved",
   "theorems": [
    "C24_bins_partition",
    "C24_greedy_pairs",
    "C24_nonpositive_refuted"
   ],
   "note": "Partition, bin counts/sizes and greedy choice proved for positive similarities; C24_nonpositive_refuted gives the loss of a column otherwise."
  },
  {
   "property": "C25",
   "status": "proved",
   "theorems": [
    "C25_single_update",
    "C25_single_update_potts",
    "C25_generate_sample",
    "C25_generate_sample_potts",
    "C25_first_call_succeeds",
    "C25_after_parallel_refuted",
    "C25_zero_burn_in_refuted"
   ],
   "note": "Single updates and whole runs proved for Ising and Potts; the refuted theorems give the calls that raise or ignore burn_in=0."
  },
  {
   "property": "C26",
   "status": "proved",
   "theorems": [
    "C26_update_probabilities",
    "C26_detailed_balance",
    "C26_stationary",
    "C26_stationary_potts",
    "C26_irreducible",
    "C26_unique_stationary",
    "C26_systematic_irreducible_refuted"
   ],
   "note": "Probabilities are Riemann integrals over the uniform number and averages over the drawn site (Coquelicot). Irreducibility of systematic scans refuted."
  },
  {
   "property": "C27",
   "status": "proved",
   "theorems": [
    "C27_same_energy",
    "C27_ising_update",
    "C27_potts_update",
    "C27_jit_update",
    "C27_running_energy",
    "C27_running_energy_potts"
   ],
   "note": ""
  },
  {
   "property": "C28",
   "status": "proved",
   "theorems": [
    "C28_cond_sample",
    "C28_free_spins_in_order",
    "C28_bad_arguments_raise"
   ],
   "note": ""
  },
  {
   "property": "C29",
   "status": "proved",
   "theorems": [
    "C29_proposals",
    "C29_cond_sample_boost",
    "C29_cond_sample_boost_refused"
   ],
   "note": ""
  },
  {
   "property": "C30",
   "status": "proved",
   "theorems": [
    "C30_define_jit_cond_calc_e_refuted",
    "C30_single_fixed_spin_refuted"
   ],
   "note": "The claim is false; both theorems are refutations."
  },
  {
   "property": "C31",
   "status": "proved",
   "theorems": [
    "C31_parallel_py",
    "C31_parallel_boost"
   ],
   "note": ""
  },
  {
   "property": "C32",
   "status": "proved",
   "theorems": [
    "C32_burn_and_exchange",
    "C32_history",
    "C32_exchange_detailed_balance",
    "C32_round_stationary"
   ],
   "note": "Proved for energies linear in the parameters and non-zero betas, any number of replicas and rounds; stationarity of a full round for the product distribution included."
  },
  {
   "property": "C33",
   "status": "proved",
   "theorems": [
    "C33_constructor",
    "C33_iterate_beta",
    "C33_iterate_beta_rejects",
    "C33_positive_refuted",
    "C33_initial_ladder"
   ],
   "note": "Ladder update, initial ladder and constructor proved; positivity refuted by C33_positive_refuted."
  },
  {
   "property": "C34",
   "status": "proved",
   "theorems": [
    "C34_formats",
    "C34_int",
    "C34_vector_iff",
    "C34_asymmetric",
    "C34_refuted",
    "C34_triplet",
    "C34_potts",
    "C34_potts_pair"
   ],
   "note": "Proved for Ising, Triplet and Potts3 constructors; the 2x2 matrix format is refuted (C34_refuted)."
  },
  {
   "property": "C35",
   "status": "proved",
   "theorems": [
    "C35_fill",
    "C35_setup",
    "C35_refuted"
   ],
   "note": "Proved for at least two indices or the last one; a single other index crashes (C35_refuted)."
  },
  {
   "property": "C36",
   "status": "proved",
   "theorems": [
    "C36_all",
    "C36_refuted",
    "C36_root"
   ],
   "note": "The default is only usable with all parameters (C36_all); refuted for proper subsets (C36_refuted)."
  },
  {
   "property": "C37",
   "status": "proved",
   "theorems": [
    "C37_objective_values",
    "C37_K_gradient",
    "C37_logK_gradient_refuted",
    "C37_logK_exponents"
   ],
   "note": "Values and the gradient of K proved; the gradient returned with logK is off by ln(number of samples) in every component (C37_logK_gradient_refuted)."
  },
  {
   "property": "C38",
   "status": "proved",
   "theorems": [
    "C38_true_parameters_stationary",
    "C38_true_parameters_unique_minimum",
    "C38_solve_recovers_parameters"
   ],
   "note": "Stationarity, unique global minimum and the end-to-end recovery by solve; scipy's minimiser is an oracle assumed to find the minimum when one exists."
  },
  {
   "property": "C39",
   "status": "proved",
   "theorems": [
    "C39_learning",
    "C39_learning_terminates",
    "C39_solve",
    "C39_sparse_keeps_zeros",
    "C39_sparse_solve",
    "C39_solve_terminates"
   ],
   "note": "Limits, trace, termination and exit conditions for arbitrary prediction functions and samplers; the sampler and the prediction function are oracles."
  },
  {
   "property": "C40",
   "status": "proved",
   "theorems": [
    "C40_general_objective",
    "C40_general_gradient",
    "C40_spin_objective",
    "C40_spin_objective_history"
   ],
   "note": "Both the per-spin and the summed objective; C40_general_gradient is for arbitrary helpers."
  },
  {
   "property": "C41",
   "status": "proved",
   "theorems": [
    "C41_potts_objective"
   ],
   "note": ""
  },
  {
   "property": "C42",
   "status": "proved",
   "theorems": [
    "C42_starting_point",
    "C42_starting_point_refuted"
   ],
   "note": "The claim for all spins is false (C42_starting_point_refuted); C42_starting_point characterises exactly when it holds."
  },
  {
   "property": "C43",
   "status": "proved",
   "theorems": [
    "C43_solve_ising"
   ],
   "note": ""
  },
  {
   "property": "C44",
   "status": "proved",
   "theorems": [
    "C44_subsets_complete",
    "C44_repeated_elements_raise",
    "C44_caller_lists_untouched",
    "C44_sort_flag"
   ],
   "note": "Lists of naturals as sets of spins; sort flag included."
  },
  {
   "property": "C45",
   "status": "proved",
   "theorems": [
    "C45_history_independent",
    "C45_parts_are_the_subsets",
    "C45_contributions_add_up",
    "C45_memo_hit"
   ],
   "note": ""
  },
  {
   "property": "C46",
   "status": "proved",
   "theorems": [
    "C46_selected_clusters_are_summed",
    "C46_nothing_discarded_is_exact",
    "C46_negative_threshold_reproduces_data",
    "C46_single_spin_refuted",
    "C46_reference_flags"
   ],
   "note": "The fitting routine is an argument: any routine returning a symmetric square matrix. The mean field reference always raises (C46_reference_flags); one spin raises KeyError (C46_single_spin_refuted)."
  },
  {
   "property": "C47",
   "status": "proved",
   "theorems": [
    "C47_sorted_cluster_reads_the_data",
    "C47_unsorted_pair_refuted",
    "C47_unsorted_subclusters_requested_refuted"
   ],
   "note": "Order independence is false (refuted); true for sorted clusters."
  },
  {
   "property": "C48",
   "status": "proved",
   "theorems": [
    "C48_bracket",
    "C48_cases",
    "C48_strict_right_refuted"
   ],
   "note": "Proved; the documented strict right inequality refuted for ties."
  },
  {
   "property": "C49",
   "status": "proved",
   "theorems": [
    "C49_cluster_output_conversion",
    "C49_rmf_doubles_energies_refuted",
    "C49_rmf_flags",
    "C49_rmf_uncorrelated_data_refuted"
   ],
   "note": "Conversion proved for ClusterExpansion; for RegularizedMeanField the claim is false (energies doubled) and refuted, also end to end on uncorrelated data."
  },
  {
   "property": "C50",
   "status": "proved",
   "theorems": [
    "C50_flat_index_bijection",
    "C50_flat_layout",
    "C50_without_diagonal",
    "C50_unflatten_inverts_flat",
    "C50_flat_inverts_unflatten",
    "C50_symmetrize_keeps_weights"
   ],
   "note": ""
  },
  {
   "property": "C51",
   "status": "proved",
   "theorems": [
    "C51_weights",
    "C51_exact_expectations",
    "C51_expectations_are_frequencies",
    "C51_no_states",
    "C51_entropy"
   ],
   "note": ""
  },
  {
   "property": "C52",
   "status": "proved",
   "theorems": [
    "C52_cooccurrence",
    "C52_bayesian_mean",
    "C52_stdevs_positive",
    "C52_matrix_helpers",
    "C52_embed_cluster",
    "C52_fourth_order"
   ],
   "note": ""
  },
  {
   "property": "C53",
   "status": "proved",
   "theorems": [
    "C53_parameters",
    "C53_list_arguments_refuted",
    "C53_neighbor_dE",
    "C53_find_basin",
    "C53_steepest_descent",
    "C53_wrong_size",
    "C53_correlations"
   ],
   "note": "Constructor arguments, neighbor_dE, termination and local minimality proved; list arguments refuted."
  },
  {
   "property": "C54",
   "status": "proved",
   "theorems": [
    "C54_energy_change",
    "C54_field_convention_refuted",
    "C54_thin_lattice_refuted",
    "C54_update",
    "C54_stationary",
    "C54_sweep_sites",
    "C54_rounds",
    "C54_field_arguments_refuted",
    "C54_float_field",
    "C54_random_sites"
   ],
   "note": "Energy change, sweep stationarity and site schedule proved; field sign, thin lattices and field arguments refuted."
  },
  {
   "property": "C55",
   "status": "proved",
   "theorems": [
    "C55_coarse_grain",
    "C55_spins",
    "C55_raises",
    "C55_single_row_refuted"
   ],
   "note": "Block signs and errors proved; single block row refuted."
  },
  {
   "property": "C56",
   "status": "proved",
   "theorems": [
    "C56_components",
    "C56_order_irrelevant"
   ],
   "note": "Proved for every order in which sets are popped and iterated."
  },
  {
   "property": "C57",
   "status": "proved",
   "theorems": [
    "C57_build_cluster",
    "C57_no_bonds",
    "C57_one_step",
    "C57_site_zero_refuted",
    "C57_vector",
    "C57_matrix_refuted",
    "C57_history",
    "C57_no_history",
    "C57_single_chain",
    "C57_zero_separation",
    "C57_swendsen_wang_refuted"
   ],
   "note": "Cluster growth, steps, histories and single chains proved for every random history; initialsite=0, matrix couplings and SWIsing refuted."
  },
  {
   "property": "C58",
   "status": "proved",
   "theorems": [
    "C58_logp",
    "C58_rejects",
    "C58_one_state_refuted"
   ],
   "note": "Proved for 2-D samples; a 1-D sample raises (C58_one_state_refuted)."
  },
  {
   "property": "C59",
   "status": "proved",
   "theorems": [
    "C59_solution",
    "C59_max_entropy"
   ],
   "note": "Proved for the pairwise equation files in both bases; scipy's root finder is an oracle."
  },
  {
   "property": "C60",
   "status": "proved",
   "theorems": [
    "C60_unique",
    "C60_recovers"
   ],
   "note": "Proved for both bases."
  },
  {
   "property": "C61",
   "status": "proved",
   "theorems": [
    "C61_log_cosh",
    "C61_root_bracketed",
    "C61_root_unique_when_repulsive",
    "C61_independent_entropies_agree"
   ],
   "note": ""
  },
  {
   "property": "C62",
   "status": "proved",
   "theorems": [
    "C62_readin_multipliers_refuted"
   ],
   "note": "The claim is false; witness given."
  },
  {
   "property": "C63",
   "status": "proved",
   "theorems": [
    "C63_overlap",
    "C63_hamming"
   ],
   "note": ""
  },
  {
   "property": "C64",
   "status": "proved",
   "theorems": [
    "C64_data",
    "C64_refuted"
   ],
   "note": "With data proved (C64_data); without data the documented use is refuted (C64_refuted)."
  },
  {
   "property": "C65",
   "status": "proved",
   "theorems": [
    "C65_set",
    "C65_refuted"
   ],
   "note": "Proved for set_multipliers; attribute assignment refuted (C65_refuted)."
  },
  {
   "property": "C66",
   "status": "proved",
   "theorems": [
    "C66_custom_arguments_refuted",
    "C66_not_all_connected_refuted",
    "C66_one_parameter_logK_gradient_refuted"
   ],
   "note": "The claim is false: custom adj/calc_de raise AttributeError, all_connected=False raises NameError."
  },
  {
   "property": "C67",
   "status": "proved",
   "theorems": [
    "C67_update_is_gradient",
    "C67_convex",
    "C67_fixed_points",
    "C67_estimate_jac"
   ],
   "note": "Real arithmetic."
  },
  {
   "property": "C68",
   "status": "proved",
   "theorems": [
    "C68_sparse_default_constraints_refuted",
    "C68_zero_tolerance_refuted",
    "C68_missing_eta_refuted"
   ],
   "note": "The claim is false: zero tolerance, missing eta and default sparse constraints."
  },
  {
   "property": "C69",
   "status": "proved",
   "theorems": [
    "C69_convex",
    "C69_exact_data_unique_minimum",
    "C69_solve_ising_recovers",
    "C69_solve_general_recovers"
   ],
   "note": "Convexity, unique minimum and end-to-end recovery for an external minimiser assumed to find a global minimum when one exists."
  },
  {
   "property": "C70",
   "status": "proved",
   "theorems": [
    "C70_fit_is_exact_iff_residual_vanishes",
    "C70_states"
   ],
   "note": "leastsq is an oracle."
  },
  {
   "property": "C71",
   "status": "proved",
   "theorems": [
    "C71_two_spin_closed_form",
    "C71_one_spin_closed_form",
    "C71_analytic_branch_refuted",
    "C71_unsorted_pair_swaps_fields_refuted"
   ],
   "note": "Formulas are right but the code path raises NameError."
  },
  {
   "property": "C72",
   "status": "proved",
   "theorems": [
    "C72_magnetisation_is_stationary",
    "C72_energy_sign_refuted",
    "C72_dmdT_refuted",
    "C72_susceptibility_refuted"
   ],
   "note": "Stationarity proved for every root finder meeting its contract; the energy sign, dm/dT and susceptibility claims are refuted."
  },
  {
   "property": "C73",
   "status": "proved",
   "theorems": [
    "C73_uncorrelated_exact",
    "C73_regularised_and_direct_agree",
    "C73_shape_and_entropy_bound",
    "C73_prior_shrinks_to_independence",
    "C73_prior_needs_sample_size",
    "C73_unsorted_pair_refuted"
   ],
   "note": "eig, inv and svdvals are oracles with their contract as hypothesis at the matrix concerned."
  },
  {
   "property": "C74",
   "status": "proved",
   "theorems": [
    "C74_covariance_matrix_refuted"
   ],
   "note": "Diagonal proved, off-diagonal claim refuted."
  },
  {
   "property": "C75",
   "status": "proved",
   "theorems": [
    "C75_sampled_magnetisation_has_wrong_sign_refuted",
    "C75_residual_ignores_frequencies_refuted",
    "C75_objective_never_vanishes_refuted"
   ],
   "note": "All theorems are refutations of the intended meaning."
  },
  {
   "property": "C76",
   "status": "proved",
   "theorems": [
    "C76_stationary",
    "C76_detailed_balance",
    "C76_unique"
   ],
   "note": "Expectations are iterated Riemann integrals over the uniform numbers consumed by the model; the generator of the model is a script of those numbers."
  },
  {
   "property": "C77",
   "status": "proved",
   "theorems": [
    "C77_conditional_likelihood",
    "C77_class_likelihood",
    "C77_gradient",
    "C77_documented_sign_refuted",
    "C77_hessian",
    "C77_solver_hessian_refuted",
    "C77_module_solver_hessian_refuted",
    "C77_stationary_is_optimal",
    "C77_start",
    "C77_returned_model",
    "C77_class_rows",
    "C77_module_result",
    "C77_no_data",
    "C77_class_total_refuted",
    "C77_module_total_refuted"
   ],
   "note": "Refuted parts: the Jacobian has the opposite sign of the documented one; the precomputed products given to the Hessian by both solvers are of undoubled data, so the minimiser gets a wrong Hessian; the class method for the total raises NameError and the module function adds n times too many terms. fmin_ncg is an oracle."
  },
  {
   "property": "C78",
   "status": "proved",
   "theorems": [
    "C78_energy",
    "C78_energy_bounds",
    "C78_energy_turned",
    "C78_gradient",
    "C78_coupling_gradient",
    "C78_leapfrog_reversible",
    "C78_acceptance",
    "C78_rejected_proposals_are_kept_refuted",
    "C78_linear_energy_never_rejects_refuted",
    "C78_classes_unavailable"
   ],
   "note": "Refuted: rejected proposals stay in the array because the proposal is computed in place; both constructors raise NotImplementedError."
  },
  {
   "property": "C79",
   "status": "proved",
   "theorems": [
    "C79_cross",
    "C79_nearby",
    "C79_no_width_refuted",
    "C79_polar_angles",
    "C79_pole_refuted",
    "C79_nearby_vector",
    "C79_no_width_one_sample",
    "C79_gradient",
    "C79_azimuth_gradient_refuted"
   ],
   "note": "Refuted: a vector on the polar axis gives nan; sigma=0 with several samples reads out of bounds; the phi column of grad_E lacks the factor sin theta."
  },
  {
   "property": "C80",
   "status": "proved",
   "theorems": [
    "C80_generate",
    "C80_boost_reproducible",
    "C80_python_reproducible_refuted",
    "C80_size_mismatch",
    "C80_before_setup_refuted",
    "C80_set_rng_refuted",
    "C80_ising_size",
    "C80_sample_ising",
    "C80_sample_ising_history_refuted",
    "C80_sample_ising_initial_refuted",
    "C80_history_settings",
    "C80_sample_ising_defaults"
   ],
   "note": "Refuted: in pure Python a sample is not reproducible by set_rng (chains continue from the last state); generate_sample before setup_sampler raises AttributeError instead of the assertion; set_rng before setup_sampler raises after taking effect; sample_ising rejects the documented keywords saveHistory (parallel) and initial_sample (extension)."
  },
  {
   "property": "C81",
   "status": "proved",
   "theorems": [
    "C81_text",
    "C81_pairwise",
    "C81_triplet",
    "C81_shipped_pairwise",
    "C81_shipped_triplet"
   ],
   "note": "Python is represented by a lexer, a parser and an interpreter for the statements that occur in these files (M_EqnText); text they do not understand is an error."
  },
  {
   "property": "C82",
   "status": "proved",
   "theorems": [
    "C82_bonds",
    "C82_clusters",
    "C82_one_step",
    "C82_flip_probability",
    "C82_stationary",
    "C82_detailed_balance",
    "C82_unique",
    "C82_independent"
   ],
   "note": "Statements about the methods; the constructor of the class raises NotImplementedError (C57_swendsen_wang_refuted), so the methods are reached only through objects made without it. Expectations are iterated integrals over uniform numbers."
  },
  {
   "property": "C83",
   "status": "proved",
   "theorems": [
    "C83_partition",
    "C83_magnetisation",
    "C83_entropy",
    "C83_temperature_derivative",
    "C83_independent_entropy",
    "C83_multi_information",
    "C83_specific_heat_refuted"
   ],
   "note": "Gaussian integral proved from the derivative of a parameter integral; quad is an oracle assumed exact. specificHeat refuted."
  },
  {
   "property": "C84",
   "status": "proved",
   "theorems": [
    "C84_stability",
    "C84_shapes",
    "C84_seeds"
   ],
   "note": "eigvals is an oracle, assumed right on the one matrix it is called with."
  },
  {
   "property": "C85",
   "status": "proved",
   "theorems": [
    "C85_expand_binomial",
    "C85_multinomial",
    "C85_multinomial_rounding_refuted",
    "C85_third_order",
    "C85_nidx_refuted",
    "C85_K_refuted",
    "C85_spectral_clusters",
    "C85_spectral_clusters_refuted",
    "C85_spectral_count",
    "C85_spectral_tolerance",
    "C85_potts_sampler"
   ],
   "note": "eig is an oracle assumed exact with real eigenvectors of length one; the rounding of multinomial is an arbitrary function. get_nidx, multinomial (rounding), spec_cluster and _K refuted."
  },
  {
   "property": "C86",
   "status": "proved",
   "theorems": [
    "C86_estimate",
    "C86_likelihood_gradient",
    "C86_learning",
    "C86_maximum_likelihood_refuted",
    "C86_solve_refuted"
   ],
   "note": "Samples are arguments. Maximum likelihood and solve refuted: the class reads self.sampler, which is never set, so that only learn_parameters_mch can be used."
  },
  {
   "property": "C87",
   "status": "proved",
   "theorems": [
    "C87_ising_rate",
    "C87_ising_iff",
    "C87_ising_parameters",
    "C87_potts",
    "C87_zero_parameters_refuted",
    "C87_zero_parameters_boost_refuted",
    "C87_swendsen_wang"
   ],
   "note": "Random site updates; ideal independent uniform draws. Refuted at zero parameters with an even number of iterations: every update flips, so that the parity of the rows is frozen."
  },
  {
   "property": "C88",
   "status": "proved",
   "theorems": [
    "C88_ising",
    "C88_potts",
    "C88_boost_ising",
    "C88_boost_potts"
   ],
   "note": "Random site updates from a given initial state; draws are independent, uniform sites and uniform numbers in [0,1] (expectations as iterated integrals)."
  },
  {
   "property": "C89",
   "status": "proved",
   "theorems": [
    "C89_schedule",
    "C89_map",
    "C89_map_returns",
    "C89_killed_worker_refuted",
    "C89_chunks",
    "C89_boost",
    "C89_boost_potts",
    "C89_python",
    "C89_wolff",
    "C89_replicas",
    "C89_swendsen_wang_refuted",
    "C89_shared_generator_refuted"
   ],
   "note": "The pool of the multiprocess library is modelled from its documented behaviour. Refuted: a killed worker blocks the call; SWIsing raises; conditional samples share a stream (code that is not reachable, see C86)."
  },
  {
   "property": "C90",
   "status": "proved",
   "theorems": [
    "C90_energy",
    "C90_energy_exact",
    "C90_no_drift",
    "C90_decision",
    "C90_runs",
    "C90_limit",
    "C90_cpp_difference",
    "C90_cpp_limit",
    "C90_exact_run"
   ],
   "note": "Binary64 with rounding to nearest and gradual underflow (Flocq); no overflow; the random numbers are real."
  },
  {
   "property": "C91",
   "status": "proved",
   "theorems": [
    "C91_logsumexp",
    "C91_file_observables",
    "C91_write_eqns",
    "C91_pairwise",
    "C91_relative_refuted"
   ],
   "note": "Binary64 with rounding to nearest and gradual underflow (Flocq); no overflow; exp and log are any functions within eps; rounding to nearest is shown to be one (eps = 4 2^-53)."
  },
  {
   "property": "C92",
   "status": "proved",
   "theorems": [
    "C92_constructor",
    "C92_parallel",
    "C92_sequential",
    "C92_sequential_refuted",
    "C92_couplings_ignored",
    "C92_history",
    "C92_set_multipliers",
    "C92_setup",
    "C92_few_processors",
    "C92_cond_values",
    "C92_cond_update",
    "C92_cond_refuted"
   ],
   "note": "Refuted for generate_sample with the extension (Potts3 inherits Metropolis.generate_sample_boost, which builds BoostIsing) and for conditional samples; proved for parallel and pure Python sampling and for all histories of a model."
  },
  {
   "property": "C93",
   "status": "proved",
   "theorems": [
    "C93_potts_text",
    "C93_wrong_size",
    "C93_failed_write_refuted"
   ],
   "note": "Python is represented by the lexer of M_EqnText, a model of modules and functions (M_PottsText) and statements that occur in these files; lines it does not know are arbitrary functions (oracles), so nothing is assumed about them. Refuted for more than 10 states."
  },
  {
   "property": "C94",
   "status": "proved",
   "theorems": [
    "C94_interrupted_ising",
    "C94_interrupted_potts"
   ],
   "note": "The prefix may end inside a token or a string; what Python does with such a line is an oracle."
  },
  {
   "property": "C95",
   "status": "proved",
   "theorems": [
    "C95_python",
    "C95_boost"
   ],
   "note": "Random sites, one process; draws are independent, uniform sites and uniform numbers in [0,1] (expectations as iterated integrals)."
  },
  {
   "property": "C96",
   "status": "proved",
   "theorems": [
    "C96_rate",
    "C96_zero_parameters_refuted"
   ],
   "note": "Without histories, so that sites are drawn; every step has an independent, uniform site and independent, uniform numbers in [0,1] (expectations as iterated integrals)."
  },
  {
   "property": "C97",
   "status": "proved",
   "theorems": [
    "C97_no_worse",
    "C97_rate",
    "C97_default_rate_refuted"
   ],
   "note": "Exact real arithmetic; the Ising helpers. The distance is the Euclidean norm the code computes."
  },
  {
   "property": "C98",
   "status": "proved",
   "theorems": [
    "C98_stability",
    "C98_certificate"
   ],
   "note": "-1,1 basis, exact real arithmetic (C91 bounds the rounding of calc_observables)."
  },
  {
   "property": "C99",
   "status": "proved",
   "theorems": [
    "C99_solvable",
    "C99_data",
    "C99_degenerate_refuted"
   ],
   "note": "-1,1 basis, exact real arithmetic."
  },
  {
   "property": "C100",
   "status": "proved",
   "theorems": [
    "C100_consistent"
   ],
   "note": "Independent draws (C88 treats the chains of the samplers); -1,1 basis; exact real arithmetic."
  },
  {
   "property": "C101",
   "status": "proved",
   "theorems": [
    "C101_compiled",
    "C101_compiled_potts",
    "C101_conditional",
    "C101_python",
    "C101_python_frozen",
    "C101_python_refuted"
   ],
   "note": "Includes a refuted documented claim for the Python sampler."
  },
  {
   "property": "C102",
   "status": "proved",
   "theorems": [
    "C102_boost",
    "C102_python"
   ],
   "note": "-1,1 basis; exact real arithmetic; independent uniform draws. C is not computed."
  },
  {
   "property": "C103",
   "status": "proved",
   "theorems": [
    "C103_python",
    "C103_python_potts",
    "C103_compiled",
    "C103_compiled_potts"
   ],
   "note": "Exact real arithmetic; independent uniform draws. rho, m0, C depend on energy and n (C in Python also on n_iters)."
  },
  {
   "property": "C104",
   "status": "proved",
   "theorems": [
    "C104_single_chain"
   ],
   "note": "Exact real arithmetic; independent uniform draws; C depends on fields and couplings only."
  },
  {
   "property": "C105",
   "status": "proved",
   "theorems": [
    "C105_tempering",
    "C105_replica"
   ],
   "note": "Exact real arithmetic; every generator returns independent uniform numbers; the inverse temperatures are those after the constructor's optimisation."
  },
  {
   "property": "C106",
   "status": "proved",
   "theorems": [
    "C106_accepted_types",
    "C106_sym_refuted"
   ],
   "note": "numba's rule for explicit signatures (exact types, no compilation for others) is modelled from its documentation; numba itself is not."
  },
  {
   "property": "C107",
   "status": "proved",
   "theorems": [
    "C107_sample_transitions",
    "C107_slow_fast_agree_refuted",
    "C107_generate_sample",
    "C107_history_start_refuted"
   ],
   "note": "The methods are modelled although the constructor raises NotImplementedError (C78_classes_unavailable)."
  },
  {
   "property": "C108",
   "status": "proved",
   "theorems": [
    "C108_update",
    "C108_invariant",
    "C108_pole_refuted"
   ],
   "note": "Exact real arithmetic; nan is one extra state; the energy is an arbitrary function. The constructor raises NotImplementedError (C78_classes_unavailable)."
  },
  {
   "property": "C109",
   "status": "proved",
   "theorems": [
    "C109_compiled_sampler",
    "C109_sparse",
    "C109_python_sampler_refuted",
    "C109_python_jacobian_refuted",
    "C109_mpf_data"
   ],
   "note": "int is taken as 64 bits (all platforms but Windows with numpy 1). The claim that MCH runs with both samplers is refuted for the Python one. numba's rule for explicit signatures is modelled from its documentation."
  },
  {
   "property": "C110",
   "status": "proved",
   "theorems": [
    "C110_contiguous",
    "C110_update",
    "C110_parallel",
    "C110_fetch",
    "C110_integers",
    "C110_strided_refuted",
    "C110_reversed_refuted",
    "C110_integers_refuted",
    "C110_alias_refuted"
   ],
   "note": "Arrays are views of buffers of 64-bit words, doubles are decoded with Flocq's b64_of_bits. The claim for arbitrary arrays is refuted (strided, reversed, integer arrays; aliasing). NaN and infinities are outside the model."
  },
  {
   "property": "C111",
   "status": "proved",
   "theorems": [
    "C111_other_models",
    "C111_own_helpers",
    "C111_dispatch",
    "C111_triplet_refuted"
   ],
   "note": "The claim for Triplet models is refuted. minimize and _solve_potts are arguments."
  },
  {
   "property": "C112",
   "status": "proved",
   "theorems": [
    "C112_call",
    "C112_deprecated_refuted",
    "C112_unknown_keyword"
   ],
   "note": "The claim about the deprecated keyword is refuted (NameError, or TypeError without convert_to)."
  },
  {
   "property": "C113",
   "status": "proved",
   "theorems": [
    "C113_pair_corr_fits",
    "C113_pair_corr_row_weights",
    "C113_pair_corr_int8_refuted",
    "C113_pair_corr_bool_refuted",
    "C113_overlap_fits",
    "C113_overlap_int8_refuted",
    "C113_rmf_residuals",
    "C113_rmf_int8_refuted"
   ],
   "note": "numpy's dot of two arrays of one integer type is modelled as addition and multiplication in that type (or/and for bool). The unrestricted claims are refuted. Sums in 64 bits are taken as exact."
  },
  {
   "property": "C114",
   "status": "proved",
   "theorems": [
    "C114_vector_size",
    "C114_triangular",
    "C114_sample_ising_size",
    "C114_potts3_size",
    "C114_squareform_size"
   ],
   "note": "np.sqrt of an integer is modelled as the correctly rounded square root (IEEE 754) and every later operation is rounded. This discharges, within the bound, the simplification in M_Params, M_Models and M_Front that the square roots are exact."
  },
  {
   "property": "C115",
   "status": "proved",
   "theorems": [
    "C115_near_data",
    "C115_boost",
    "C115_python"
   ],
   "note": "Real arithmetic. The minimiser is any function that returns a global minimum when there is one (finds_minimum). The sampler reads its random numbers from a tape of independent draws, as in C102. Strengthens C69, which needs exact frequencies."
  },
  {
   "property": "C116",
   "status": "proved",
   "theorems": [
    "C116_near_data",
    "C116_boost",
    "C116_python"
   ],
   "note": "Real arithmetic. The minimiser is any function that returns a minimum in the box when there is one (exact_minimiser). The sampler reads its random numbers from a tape of independent draws, as in C102. Strengthens C38, which needs exact frequencies."
  },
  {
   "property": "C117",
   "status": "proved",
   "theorems": [
    "C117_same_distribution",
    "C117_enumerate",
    "C117_recovers_refuted"
   ],
   "note": "Real arithmetic; the file is the one of C23, with its hypothesis on the float logarithm. C117_recovers_refuted: the fields are not determined."
  },
  {
   "property": "C118",
   "status": "proved",
   "theorems": [
    "C118_maximum",
    "C118_solver",
    "C118_fields_refuted",
    "C118_gradient",
    "C118_zero_mean",
    "C118_prior",
    "C118_cost"
   ],
   "note": "Real arithmetic; scipy's minimiser is any function that returns a minimum when there is one. C118_zero_mean takes a minimiser whose steps are combinations of gradients at points it has reached. C118_fields_refuted: the fields are not determined without that."
  },
  {
   "property": "C119",
   "status": "proved",
   "theorems": [
    "C119_float",
    "C119_ising_objective",
    "C119_ising_refuted",
    "C119_general",
    "C119_mch",
    "C119_potts_gradient",
    "C119_potts_refuted"
   ],
   "note": "Real arithmetic; numpy's rules for assigning floats to elements of integer arrays and for += are modelled in M_IntGuess, the integer type has no range. C119_ising_refuted and C119_potts_refuted: the result does depend on the element type."
  },
  {
   "property": "C120",
   "status": "proved",
   "theorems": [
    "C120_stability",
    "C120_solver"
   ],
   "note": "Real arithmetic; same hypothesis on the float logarithm as C23. The bound holds for whatever vector the optimiser returns; that it reaches a small residual is not claimed."
  },
  {
   "property": "C121",
   "status": "proved",
   "theorems": [
    "C121_boost",
    "C121_python"
   ],
   "note": "Real arithmetic, ideal independent draws, same hypothesis on the float logarithm as C23. That the optimiser reaches a small residual is not claimed; the bound holds for whatever it returns."
  },
  {
   "property": "C122",
   "status": "proved",
   "theorems": [
    "C122_solvable",
    "C122_data",
    "C122_degenerate_refuted"
   ],
   "note": "Real arithmetic, same hypothesis on the float logarithm as C23. C122_degenerate_refuted: data in which a state of a spin is missing cannot be fitted, contrary to what a user expects of solve."
  },
  {
   "property": "C123",
   "status": "proved",
   "theorems": [
    "C123_history",
    "C123_update_parameters_refuted",
    "C123_reparameterise",
    "C123_two_replicas"
   ],
   "note": "C123_update_parameters_refuted: ParallelTempering inherits the empty Sampler.update_parameters, so the protocol of the other samplers (update_parameters, then generate_sample) silently samples the old parameters. That no inverse temperature is zero is a hypothesis (C33_positive_refuted shows it cannot be dropped in general); C123_two_replicas proves it for two replicas."
  },
  {
   "property": "C124",
   "status": "proved",
   "theorems": [
    "C124_metropolis",
    "C124_potts3",
    "C124_potts3_cond_refuted",
    "C124_cond_samples_refuted",
    "C124_empty_methods",
    "C124_unusable_refuted"
   ],
   "note": "Classes as tables of methods with Python's attribute lookup. Refuted: conditional samples of Potts3, generate_cond_samples, usability of three classes. Assigning to sampler.theta directly is not covered here (C110, C123)."
  }
 ]
}