{
 "C04": {
  "note": "The alphabet claim is false; C04_alphabet_refuted gives the witness and C04_large_base_without_18_19 the part that holds."
 },
 "C07": {
  "note": "Round trip proved; totality refuted by C07_too_long_input_diverges_refuted."
 },
 "C22": {
  "note": "Proved for any index lists (at most 23 orders), pairwise and triplet, both bases; triplet(n<=2) raises AttributeError."
 },
 "C23": {
  "note": "Proved for n>2, 2<=k<=10; for k>10 the writer raises although the constructor accepts k (C23_many_states_refuted)."
 },
 "C25": {
  "note": "Single updates and whole runs proved for Ising and Potts; the refuted theorems give the calls that raise or ignore burn_in=0."
 },
 "C26": {
  "note": "Probabilities are Riemann integrals over the uniform number and averages over the drawn site (Coquelicot). Irreducibility of systematic scans refuted."
 },
 "C30": {
  "note": "The claim is false; both theorems are refutations."
 },
 "C62": {
  "note": "The claim is false; witness given."
 },
 "C24": {
  "note": "Partition, bin counts/sizes and greedy choice proved for positive similarities; C24_nonpositive_refuted gives the loss of a column otherwise."
 },
 "C32": {
  "note": "Proved for energies linear in the parameters and non-zero betas, any number of replicas and rounds; stationarity of a full round for the product distribution included."
 },
 "C33": {
  "note": "Ladder update, initial ladder and constructor proved; positivity refuted by C33_positive_refuted."
 },
 "C34": {
  "note": "Proved for Ising, Triplet and Potts3 constructors; the 2x2 matrix format is refuted (C34_refuted)."
 },
 "C35": {
  "note": "Proved for at least two indices or the last one; a single other index crashes (C35_refuted)."
 },
 "C36": {
  "note": "The default is only usable with all parameters (C36_all); refuted for proper subsets (C36_refuted)."
 },
 "C58": {
  "note": "Proved for 2-D samples; a 1-D sample raises (C58_one_state_refuted)."
 },
 "C59": {
  "note": "Proved for the pairwise equation files in both bases; scipy's root finder is an oracle."
 },
 "C60": {
  "note": "Proved for both bases."
 },
 "C64": {
  "note": "With data proved (C64_data); without data the documented use is refuted (C64_refuted)."
 },
 "C65": {
  "note": "Proved for set_multipliers; attribute assignment refuted (C65_refuted)."
 },
 "C37": {
  "note": "Values and the gradient of K proved; the gradient returned with logK is off by ln(number of samples) in every component (C37_logK_gradient_refuted)."
 },
 "C38": {
  "note": "Stationarity, unique global minimum and the end-to-end recovery by solve; scipy's minimiser is an oracle assumed to find the minimum when one exists."
 },
 "C66": {
  "note": "The claim is false: custom adj/calc_de raise AttributeError, all_connected=False raises NameError."
 },
 "C39": {
  "note": "Limits, trace, termination and exit conditions for arbitrary prediction functions and samplers; the sampler and the prediction function are oracles."
 },
 "C67": {
  "note": "Real arithmetic."
 },
 "C68": {
  "note": "The claim is false: zero tolerance, missing eta and default sparse constraints."
 },
 "C40": {
  "note": "Both the per-spin and the summed objective; C40_general_gradient is for arbitrary helpers."
 },
 "C42": {
  "note": "The claim for all spins is false (C42_starting_point_refuted); C42_starting_point characterises exactly when it holds."
 },
 "C69": {
  "note": "Convexity, unique minimum and end-to-end recovery for an external minimiser assumed to find a global minimum when one exists."
 },
 "C44": {
  "note": "Lists of naturals as sets of spins; sort flag included."
 },
 "C46": {
  "note": "The fitting routine is an argument: any routine returning a symmetric square matrix. The mean field reference always raises (C46_reference_flags); one spin raises KeyError (C46_single_spin_refuted)."
 },
 "C47": {
  "note": "Order independence is false (refuted); true for sorted clusters."
 },
 "C49": {
  "note": "Conversion proved for ClusterExpansion; for RegularizedMeanField the claim is false (energies doubled) and refuted, also end to end on uncorrelated data."
 },
 "C70": {
  "note": "leastsq is an oracle."
 },
 "C71": {
  "note": "Formulas are right but the code path raises NameError."
 },
 "C48": {
  "note": "Proved; the documented strict right inequality refuted for ties."
 },
 "C72": {
  "note": "Stationarity proved for every root finder meeting its contract; the energy sign, dm/dT and susceptibility claims are refuted."
 },
 "C73": {
  "note": "eig, inv and svdvals are oracles with their contract as hypothesis at the matrix concerned."
 },
 "C74": {
  "note": "Diagonal proved, off-diagonal claim refuted."
 },
 "C75": {
  "note": "All theorems are refutations of the intended meaning."
 },
 "C53": {
  "note": "Constructor arguments, neighbor_dE, termination and local minimality proved; list arguments refuted."
 },
 "C54": {
  "note": "Energy change, sweep stationarity and site schedule proved; field sign, thin lattices and field arguments refuted."
 },
 "C55": {
  "note": "Block signs and errors proved; single block row refuted."
 },
 "C56": {
  "note": "Proved for every order in which sets are popped and iterated."
 },
 "C57": {
  "note": "Cluster growth, steps, histories and single chains proved for every random history; initialsite=0, matrix couplings and SWIsing refuted."
 },
 "C76": {
  "note": "Expectations are iterated Riemann integrals over the uniform numbers consumed by the model; the generator of the model is a script of those numbers."
 },
 "C77": {
  "note": "Refuted parts: the Jacobian has the opposite sign of the documented one; the precomputed products given to the Hessian by both solvers are of undoubled data, so the minimiser gets a wrong Hessian; the class method for the total raises NameError and the module function adds n times too many terms. fmin_ncg is an oracle."
 },
 "C78": {
  "note": "Refuted: rejected proposals stay in the array because the proposal is computed in place; both constructors raise NotImplementedError."
 },
 "C79": {
  "note": "Refuted: a vector on the polar axis gives nan; sigma=0 with several samples reads out of bounds; the phi column of grad_E lacks the factor sin theta."
 },
 "C80": {
  "note": "Refuted: in pure Python a sample is not reproducible by set_rng (chains continue from the last state); generate_sample before setup_sampler raises AttributeError instead of the assertion; set_rng before setup_sampler raises after taking effect; sample_ising rejects the documented keywords saveHistory (parallel) and initial_sample (extension)."
 },
 "C81": {
  "note": "Python is represented by a lexer, a parser and an interpreter for the statements that occur in these files (M_EqnText); text they do not understand is an error."
 },
 "C82": {
  "note": "Statements about the methods; the constructor of the class raises NotImplementedError (C57_swendsen_wang_refuted), so the methods are reached only through objects made without it. Expectations are iterated integrals over uniform numbers."
 },
 "C83": {
  "note": "Gaussian integral proved from the derivative of a parameter integral; quad is an oracle assumed exact. specificHeat refuted."
 },
 "C84": {
  "note": "eigvals is an oracle, assumed right on the one matrix it is called with."
 },
 "C85": {
  "note": "eig is an oracle assumed exact with real eigenvectors of length one; the rounding of multinomial is an arbitrary function. get_nidx, multinomial (rounding), spec_cluster and _K refuted."
 },
 "C86": {
  "note": "Samples are arguments. Maximum likelihood and solve refuted: the class reads self.sampler, which is never set, so that only learn_parameters_mch can be used."
 },
 "C87": {
  "note": "Random site updates; ideal independent uniform draws. Refuted at zero parameters with an even number of iterations: every update flips, so that the parity of the rows is frozen."
 },
 "C88": {
  "note": "Random site updates from a given initial state; draws are independent, uniform sites and uniform numbers in [0,1] (expectations as iterated integrals)."
 },
 "C89": {
  "note": "The pool of the multiprocess library is modelled from its documented behaviour. Refuted: a killed worker blocks the call; SWIsing raises; conditional samples share a stream (code that is not reachable, see C86)."
 },
 "C90": {
  "note": "Binary64 with rounding to nearest and gradual underflow (Flocq); no overflow; the random numbers are real."
 },
 "C91": {
  "note": "Binary64 with rounding to nearest and gradual underflow (Flocq); no overflow; exp and log are any functions within eps; rounding to nearest is shown to be one (eps = 4 2^-53)."
 },
 "C92": {
  "note": "Refuted for generate_sample with the extension (Potts3 inherits Metropolis.generate_sample_boost, which builds BoostIsing) and for conditional samples; proved for parallel and pure Python sampling and for all histories of a model."
 },
 "C93": {
  "note": "Python is represented by the lexer of M_EqnText, a model of modules and functions (M_PottsText) and statements that occur in these files; lines it does not know are arbitrary functions (oracles), so nothing is assumed about them. Refuted for more than 10 states."
 },
 "C94": {
  "note": "The prefix may end inside a token or a string; what Python does with such a line is an oracle."
 },
 "C95": {
  "note": "Random sites, one process; draws are independent, uniform sites and uniform numbers in [0,1] (expectations as iterated integrals)."
 },
 "C96": {
  "note": "Without histories, so that sites are drawn; every step has an independent, uniform site and independent, uniform numbers in [0,1] (expectations as iterated integrals)."
 },
 "C97": {
  "note": "Exact real arithmetic; the Ising helpers. The distance is the Euclidean norm the code computes."
 },
 "C98": {
  "note": "-1,1 basis, exact real arithmetic (C91 bounds the rounding of calc_observables)."
 },
 "C99": {
  "note": "-1,1 basis, exact real arithmetic."
 },
 "C100": {
  "note": "Independent draws (C88 treats the chains of the samplers); -1,1 basis; exact real arithmetic."
 },
 "C101": {
  "note": "Includes a refuted documented claim for the Python sampler."
 },
 "C102": {
  "note": "-1,1 basis; exact real arithmetic; independent uniform draws. C is not computed."
 },
 "C103": {
  "note": "Exact real arithmetic; independent uniform draws. rho, m0, C depend on energy and n (C in Python also on n_iters)."
 },
 "C104": {
  "note": "Exact real arithmetic; independent uniform draws; C depends on fields and couplings only."
 },
 "C105": {
  "note": "Exact real arithmetic; every generator returns independent uniform numbers; the inverse temperatures are those after the constructor's optimisation."
 },
 "C106": {
  "note": "numba's rule for explicit signatures (exact types, no compilation for others) is modelled from its documentation; numba itself is not."
 },
 "C107": {
  "note": "The methods are modelled although the constructor raises NotImplementedError (C78_classes_unavailable)."
 },
 "C108": {
  "note": "Exact real arithmetic; nan is one extra state; the energy is an arbitrary function. The constructor raises NotImplementedError (C78_classes_unavailable)."
 },
 "C109": {
  "note": "int is taken as 64 bits (all platforms but Windows with numpy 1). The claim that MCH runs with both samplers is refuted for the Python one. numba's rule for explicit signatures is modelled from its documentation."
 },
 "C110": {
  "note": "Arrays are views of buffers of 64-bit words, doubles are decoded with Flocq's b64_of_bits. The claim for arbitrary arrays is refuted (strided, reversed, integer arrays; aliasing). NaN and infinities are outside the model."
 },
 "C111": {
  "note": "The claim for Triplet models is refuted. minimize and _solve_potts are arguments."
 },
 "C112": {
  "note": "The claim about the deprecated keyword is refuted (NameError, or TypeError without convert_to)."
 },
 "C113": {
  "note": "numpy's dot of two arrays of one integer type is modelled as addition and multiplication in that type (or/and for bool). The unrestricted claims are refuted. Sums in 64 bits are taken as exact."
 },
 "C114": {
  "note": "np.sqrt of an integer is modelled as the correctly rounded square root (IEEE 754) and every later operation is rounded. This discharges, within the bound, the simplification in M_Params, M_Models and M_Front that the square roots are exact."
 },
 "C115": {
  "note": "Real arithmetic. The minimiser is any function that returns a global minimum when there is one (finds_minimum). The sampler reads its random numbers from a tape of independent draws, as in C102. Strengthens C69, which needs exact frequencies."
 },
 "C116": {
  "note": "Real arithmetic. The minimiser is any function that returns a minimum in the box when there is one (exact_minimiser). The sampler reads its random numbers from a tape of independent draws, as in C102. Strengthens C38, which needs exact frequencies."
 },
 "C117": {
  "note": "Real arithmetic; the file is the one of C23, with its hypothesis on the float logarithm. C117_recovers_refuted: the fields are not determined."
 },
 "C118": {
  "note": "Real arithmetic; scipy's minimiser is any function that returns a minimum when there is one. C118_zero_mean takes a minimiser whose steps are combinations of gradients at points it has reached. C118_fields_refuted: the fields are not determined without that."
 },
 "C119": {
  "note": "Real arithmetic; numpy's rules for assigning floats to elements of integer arrays and for += are modelled in M_IntGuess, the integer type has no range. C119_ising_refuted and C119_potts_refuted: the result does depend on the element type."
 },
 "C120": {
  "note": "Real arithmetic; same hypothesis on the float logarithm as C23. The bound holds for whatever vector the optimiser returns; that it reaches a small residual is not claimed."
 },
 "C121": {
  "note": "Real arithmetic, ideal independent draws, same hypothesis on the float logarithm as C23. That the optimiser reaches a small residual is not claimed; the bound holds for whatever it returns."
 },
 "C122": {
  "note": "Real arithmetic, same hypothesis on the float logarithm as C23. C122_degenerate_refuted: data in which a state of a spin is missing cannot be fitted, contrary to what a user expects of solve."
 },
 "C123": {
  "note": "C123_update_parameters_refuted: ParallelTempering inherits the empty Sampler.update_parameters, so the protocol of the other samplers (update_parameters, then generate_sample) silently samples the old parameters. That no inverse temperature is zero is a hypothesis (C33_positive_refuted shows it cannot be dropped in general); C123_two_replicas proves it for two replicas."
 },
 "C124": {
  "note": "Classes as tables of methods with Python's attribute lookup. Refuted: conditional samples of Potts3, generate_cond_samples, usability of three classes. Assigning to sampler.theta directly is not covered here (C110, C123)."
 }
}