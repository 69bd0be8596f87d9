{"id": "C01", "title": "sub_to_ind and ind_to_sub are inverse bijections", "statement": "For every system size n, sub_to_ind(n,i,j) for i<j<n is exactly the position of (i,j) in itertools.combinations(range(n),2), it lies in [0,n(n-1)/2), distinct pairs get distinct indices, it is symmetric in i and j, it raises for i==j, and ind_to_sub(n,.) returns the pair back; ind_to_sub returns None exactly for out-of-range indices.", "quantifier": "all n, all i,j<n, all flat indices", "why_tests_cant": "the tests compare n in {2,3,4} only; the claim is about every system size", "anchors": ["coniii/utils.py:sub_to_ind", "coniii/utils.py:ind_to_sub"]}
{"id": "C02", "title": "bin_states enumerates every state once, in binary order", "statement": "bin_states(n) has 2^n rows; row i is the n-digit big-endian binary expansion of i; every {0,1} state of n spins occurs exactly once; bin_states(n,sym=True) is the same table under 0->-1, 1->1; n<0 and n>30 raise.", "quantifier": "all n with 0<n<=30 (and all n>0 for the state generator xbin_states)", "why_tests_cant": "the number of rows is exponential and tests only look at n=3,4,5", "anchors": ["coniii/utils.py:bin_states", "coniii/utils.py:xbin_states"]}
{"id": "C03", "title": "base_repr returns the base-b digits of i whatever rounding the logarithm does", "statement": "For every i>=0 and every base 2<=b<=10, with b^e' <= i < b^(e'+1), if the floating point estimate e of log_b(i) is exact (e=e'), or one too small for i just above a power (e=e'-1 and i < b^e' + b^(e'-1)), base_repr(i,b) is the canonical big-endian digit string of i (no leading zero unless i=0, Horner evaluation gives i back); if the estimate is one too large the result has exactly one extra leading zero and still evaluates to i.", "quantifier": "all i, all bases, all outcomes of the float logarithm within one unit", "why_tests_cant": "tests try i in 50..80, four bases and small powers; rounding at other powers of the base is platform dependent", "anchors": ["coniii/utils.py:base_repr", "coniii/utils.py:_small_base", "coniii/utils.py:_large_base"]}
{"id": "C04", "title": "base_repr digit alphabet for bases above 10", "statement": "For bases 11..36 the digit string uses the alphabet 0-9A-Z in order (agrees with numpy.base_repr). This fails: digits 18 and 19 are printed as 'J' and 'I' (the constant has I and J swapped), so base_repr(18,20) is wrong; it holds for every number whose digits avoid 18 and 19.", "quantifier": "all i>=0 and bases 11..36", "why_tests_cant": "the only tested large bases are 18 and pure powers, which never print digit 18 or 19", "anchors": ["coniii/utils.py:_large_base", "coniii/utils.py:ALPHANUM"]}
{"id": "C05", "title": "xpotts_states enumerates the k^n Potts states once, in order", "statement": "xpotts_states(n,k) yields exactly k^n states, the m-th being the n-digit base-k representation of m left-padded with '0'; no state is missing or repeated (for k>18 the digits 18 and 19 are printed as J and I).", "quantifier": "all n>0, 2<=k<=36, under a log estimate that is exact or one too small", "why_tests_cant": "k^n states; tests use n=3,4 and k=3", "anchors": ["coniii/utils.py:xpotts_states", "coniii/utils.py:base_repr"]}
{"id": "C06", "title": "unravel_index is the lexicographic rank of a k-tuple", "statement": "For every n and every strictly increasing tuple t of elements of range(n), of any length k>=1, unravel_index(t,n) is the position of t in itertools.combinations(range(n),k); it is therefore a bijection onto [0,binom(n,k)); non increasing or out of range tuples of length >=2 raise.", "quantifier": "all n, all k, all increasing tuples", "why_tests_cant": "tests check n=9,k<=4", "anchors": ["coniii/utils.py:unravel_index"]}
{"id": "C07", "title": "split_concat_params undoes concatenation", "statement": "If vectors v_1..v_m with len(v_k)=binom(n,k) (m<=n) are concatenated, split_concat_params(concat,n) returns exactly [v_1..v_m]. When the input is longer than 2^n-1 the function never returns (refutation of totality).", "quantifier": "all n, all orders m<=n, all parameter vectors", "why_tests_cant": "termination and all-order round trip quantify over unbounded n and lengths", "anchors": ["coniii/utils.py:split_concat_params"]}
{"id": "C08", "title": "vec2mat and mat2vec are inverse", "statement": "mat2vec(vec2mat(x))=x for every x of length n+n(n-1)/2, vec2mat(mat2vec(A))=A for every symmetric A, and vec2mat(x,separate_fields=True) returns the first n entries and the zero-diagonal matrix; entry (i,j), i<j, of the matrix is x[n+sub_to_ind(n,i,j)]. (n>=1; vectors whose length is not n+n(n-1)/2 raise.)", "quantifier": "all n>=2 and all real vectors", "why_tests_cant": "tests are random vectors for n<100", "anchors": ["coniii/utils.py:vec2mat", "coniii/utils.py:mat2vec"]}
{"id": "C09", "title": "convert_params changes basis without changing the model", "statement": "For every fields h and couplings J, the parameters returned by convert_params(h,J,'01') give, for every state, the same energy at (s+1)/2 as (h,J) at s up to a constant independent of s, so Boltzmann probabilities agree state by state; same for '11'; the two conversions are inverse of each other.", "quantifier": "all n, all real h,J, all 2^n states", "why_tests_cant": "infinitely many parameters and exponentially many states", "anchors": ["coniii/utils.py:convert_params"]}
{"id": "C10", "title": "ising_convert_params preserves the model at every interaction order", "statement": "For a model with interactions of every order up to m, ising_convert_params to '01' or '11' preserves the energy of every state up to a state independent constant, returns one vector per order of length binom(n,k), and agrees with convert_params in the pairwise case.", "quantifier": "all n, all orders m<=n, all real parameters, all states", "why_tests_cant": "tests check pairwise n=9 only, higher orders are never tested", "anchors": ["coniii/utils.py:ising_convert_params", "coniii/utils.py:unravel_index"]}
{"id": "C11", "title": "convert_corr commutes with converting the data", "statement": "For every {-1,1} data set X and every normalised weighting, convert_corr(*pair_corr(X),'01') = pair_corr((X+1)/2) and conversely for '11'; the two directions are mutually inverse for all means and pair correlations.", "quantifier": "all data sets, all weights summing to one, all n", "why_tests_cant": "a test uses one random 100x3 matrix", "anchors": ["coniii/utils.py:convert_corr", "coniii/utils.py:pair_corr"]}
{"id": "C12", "title": "pair_corr computes weighted means and pair correlations in combinations order", "statement": "pair_corr(X) returns in position i the mean of column i and in position n+sub_to_ind(n,i,j) the mean of the product of columns i,j (optionally minus the product of means); with weights the weighted sums; with exclude_empty each entry is averaged over the rows where the spin(s) are nonzero; for {-1,0,1} data with normalised nonnegative weights all entries lie in [-1,1].", "quantifier": "all data matrices over {-1,0,1}, all weights", "why_tests_cant": "tests check one 5x3 example", "anchors": ["coniii/utils.py:pair_corr"]}
{"id": "C13", "title": "k_corr agrees with direct averaging but ignores exclude_empty", "statement": "k_corr(X,k) lists the averages of the products over combinations(range(n),k) in order, and k_corr(X,2) equals the second part of pair_corr(X). The documented switch exclude_empty must change the normalisation for rows with zeros; it has no effect (refuted).", "quantifier": "all data matrices, all k>=1", "why_tests_cant": "no test exercises k_corr", "anchors": ["coniii/utils.py:k_corr"]}
{"id": "C14", "title": "state_probs returns a probability distribution over the observed states", "statement": "state_probs(X) returns every distinct row of X exactly once, with frequency equal to its number of occurrences over the number of rows, so the frequencies are positive and sum to one; with allstates given the k-th value is the (weighted) count of allstates[k], normalised by the total of counted rows.", "quantifier": "all data matrices, all lists of states", "why_tests_cant": "tests only use the complete list of states for n=5", "anchors": ["coniii/utils.py:state_probs", "coniii/utils.py:unique_rows"]}
{"id": "C15", "title": "Ising energy is minus observables dot parameters", "statement": "For every sample and parameter vector, calc_e(s,hJ) from define_ising_helper_functions equals -calc_observables(s).hJ, which equals -(sum_i h_i s_i + sum_{i<j} J_ij s_i s_j); same for the triplet and Potts helper functions with their observables.", "quantifier": "all n, all states, all parameters", "why_tests_cant": "finite tests at n=3 only", "anchors": ["coniii/utils.py:define_ising_helper_functions", "coniii/utils.py:define_triplet_helper_functions", "coniii/utils.py:define_potts_helper_functions"]}
{"id": "C16", "title": "calc_de is the derivative of the energy", "statement": "calc_de(s,k) equals dE(s)/d(parameter k) for every k<n+n(n-1)/2 and every state; increasing parameter k by t changes the Ising energy by exactly t*calc_de(s,k).", "quantifier": "all n, states, parameter indices and increments", "why_tests_cant": "tests check n=10 and one state", "anchors": ["coniii/utils.py:calc_de", "coniii/utils.py:define_ising_helper_functions"]}
{"id": "C17", "title": "pseudolikelihood helpers give the conditional energy of spin r", "statement": "For every spin r, calc_observables_r(r,X).get_multipliers_r(r,hJ)[0] is s_r times the local field on r, so flipping s_r changes the energy by exactly twice this value and p(s_r|rest) = 1/(1+exp(-2E_r)) is the exact conditional Boltzmann probability.", "quantifier": "all n, r<n, states, parameters", "why_tests_cant": "never tested directly", "anchors": ["coniii/utils.py:define_pseudo_ising_helper_functions"]}
{"id": "C18", "title": "Potts pseudolikelihood helpers", "statement": "For the k-state Potts model, the observables and counterfactual observables returned for spin r give energies which differ from the full energy of the state (with spin r replaced by each of the other k-1 values) by a term not depending on s_r, so the ratio of exponentials is the exact conditional distribution of spin r.", "quantifier": "all n, k, r, states in range(k)^n, parameters", "why_tests_cant": "no test for the Potts helpers", "anchors": ["coniii/utils.py:define_pseudo_potts_helper_functions", "coniii/utils.py:define_potts_helper_functions"]}
{"id": "C19", "title": "MCH approximation is exact histogram reweighting", "statement": "mch_approximation(samples,dlamda) is the average of the observables over the samples with normalised weights proportional to exp(-calc_e(s,dlamda)); with dlamda=0 it is the plain sample mean; if the sample frequencies are exactly the Boltzmann distribution at lamda it returns the exact observables at lamda+dlamda; all values stay in [-1,1].", "quantifier": "all samples, all dlamda, all n", "why_tests_cant": "tests check dlamda=0 and one numerical Jacobian", "anchors": ["coniii/utils.py:define_ising_helper_functions"]}
{"id": "C20", "title": "adj and adj_sym list the single flip neighbours", "statement": "adj(s) (no random neighbours) returns n rows, row i equal to s with entry i flipped in the {0,1} basis and every other entry unchanged, and the caller's array is unchanged on return; adj_sym the same in the {-1,1} basis; the neighbour relation is symmetric.", "quantifier": "all n and all states", "why_tests_cant": "tested on one random state of length 10", "anchors": ["coniii/utils.py:adj", "coniii/utils.py:adj_sym"]}
{"id": "C21", "title": "fast_logsumexp returns log and sign of the weighted sum of exponentials", "statement": "fast_logsumexp(X,coeffs) returns (log|y|,sign y) with y=sum_i c_i exp(x_i), for every X and coefficients with y nonzero, independently of the shift by the maximum; adding a constant to X adds it to the result; with y=0 the value is -inf and generated code maps the correlation to 0.", "quantifier": "all vectors and coefficient vectors", "why_tests_cant": "tested on one vector of length 10", "anchors": ["coniii/enumerate.py:fast_logsumexp"]}
{"id": "C22", "title": "generated Ising equations are the exact Boltzmann distribution", "statement": "For every n the code produced by enumerate.py (pairwise, both bases) computes p(params) which is positive, sums to one, has its k-th entry equal to the Boltzmann probability of row k of bin_states(n) in the same basis, and calc_observables(params) equals the exact expectation of each mean and pair product in combinations order, i.e. pair_corr(bin_states, weights=p). The triplet files (n>=3) have the same property for means, pairs and triples; triplet with n<=2 raises AttributeError.", "quantifier": "all n, all parameters", "why_tests_cant": "files for each n are different programs; tests check n=3,4 at one parameter vector", "anchors": ["coniii/enumerate.py:write_eqns", "coniii/enumerate.py:pairwise", "coniii/enumerate.py:get_terms11", "coniii/enumerate.py:get_terms01", "coniii/enumerate.py:_compute_signs", "coniii/ising_eqn/*.py"]}
{"id": "C23", "title": "generated Potts equations are the exact Boltzmann distribution", "statement": "For every n>2 and 2<=k<=10 the code produced by SpecificFieldGenericCouplings computes the Boltzmann probabilities of the states in xpotts_states order and the exact means and agreement correlations; for k>10 generation fails (int('A') raises) although the constructor accepts k.", "quantifier": "all n,k, all parameters", "why_tests_cant": "tests use n=3,4, k=3", "anchors": ["coniii/enumerate_potts.py:SpecificFieldGenericCouplings.energy_terms_generator", "coniii/enumerate_potts.py:PythonFileWriterBase._write_correlations", "coniii/enumerate_potts.py:insert_newlines"]}
{"id": "C24", "title": "coarse_grain_with_func partitions the columns", "statement": "When all pair similarities are positive, each pass of coarse_grain_with_func pairs up the columns, every original column index appears in exactly one bin, and bin sizes double per pass; with non positive similarities the greedy step can pair a column with itself and lose another column (refuted).", "quantifier": "all similarity functions and data matrices", "why_tests_cant": "no test; depends on the sign of data dependent similarities", "anchors": ["coniii/utils.py:coarse_grain_with_func"]}
{"id": "C25", "title": "Metropolis keeps the recorded energy equal to the energy of the recorded sample", "statement": "For every calc_e, initial state, sequence of proposed sites and random numbers, after generate_sample the energy stored for sample i equals calc_e of sample i, spins stay in {-1,1} (Potts: {0,1,2}), and sample_metropolis either returns 0 and leaves the state unchanged or flips exactly one site and returns the energy difference. A following call on the same sampler should work for every sample size (refuted: after a parallel run, asking for as many samples as there were workers raises), and burn_in=0 should mean no burn in (refuted: it means n_iters updates).", "quantifier": "all energies functions, states, rng streams, numbers of iterations", "why_tests_cant": "random histories of arbitrary length", "anchors": ["coniii/samplers.py:Metropolis.sample_metropolis", "coniii/samplers.py:Metropolis.generate_sample_py", "coniii/samplers.py:Potts3.sample_metropolis"]}
{"id": "C26", "title": "Metropolis satisfies detailed balance and leaves Boltzmann stationary", "statement": "The single site update accepts with probability min(1,exp(-dE)), so exp(-E(s))P(s->s') = exp(-E(s'))P(s'->s); the random-site and the systematic-scan chains of any length leave the Boltzmann distribution invariant; with random sites every state can be reached from every other state with positive probability in at most n steps and the Boltzmann distribution is the only invariant one. Systematic scans need not reach every state (refuted: with zero parameters two equal spins stay equal for ever).", "quantifier": "all n, all energy functions, all step counts", "why_tests_cant": "stationarity is a statement about all states and all step counts", "anchors": ["coniii/samplers.py:Metropolis.sample_metropolis", "coniii/samplers.py:Metropolis.generate_sample_py", "cpp/samplers.cpp:Ising::sample_metropolis"]}
{"id": "C27", "title": "C++ incremental energies equal Python energy differences", "statement": "For every state and site, the energy change computed by the C++ Ising sampler (and Potts3 sampler) for a proposal equals calc_e(new)-calc_e(old), C++ calc_e equals Python calc_e, and given the same proposals and uniforms the C++ and Python updates make identical decisions; the running energy of the sampler is always the energy of the state.", "quantifier": "all n, parameters, states, sites, random streams", "why_tests_cant": "the C++ extension is compared with Python in no test", "anchors": ["cpp/samplers.cpp:Ising::calc_e", "cpp/samplers.cpp:Ising::sample_metropolis", "cpp/samplers.cpp:Potts3::calc_e", "cpp/samplers.cpp:Potts3::sample_metropolis", "coniii/samplers.py:_jit_sample_metropolis"]}
{"id": "C28", "title": "Python conditional sampling keeps fixed spins and reports consistent energies", "statement": "For every sorted list of fixed (index,value) pairs with at least one free spin, each row of the sample returned by generate_cond_sample_py has the fixed values at the fixed indices and the free spins in order elsewhere, and the reported energy of each row is calc_e of that row.", "quantifier": "all n, all fixed subsets, all sample sizes, all histories", "why_tests_cant": "no test calls it; index arithmetic of repeated np.insert depends on all sizes", "anchors": ["coniii/samplers.py:Metropolis.generate_cond_sample_py"]}
{"id": "C29", "title": "C++ conditional sampling never changes a fixed spin", "statement": "For every strictly increasing list of fixed indices, generate_cond_sample only ever proposes free spins, every free spin can be proposed, and all returned rows have the prescribed values at the fixed indices.", "quantifier": "all n, fixed subsets, histories", "why_tests_cant": "random histories of arbitrary length", "anchors": ["cpp/samplers.cpp:Sampler::generate_cond_sample"]}
{"id": "C30", "title": "define_jit_cond_calc_e evaluates the conditional energy", "statement": "define_jit_cond_calc_e should evaluate calc_e of the state with the fixed spins inserted. It does not: the loop variable is overwritten before the value is read, so the fixed value is read from the wrong slot (refuted by a concrete fixed subset).", "quantifier": "all fixed subsets and states", "why_tests_cant": "no test calls it", "anchors": ["coniii/samplers.py:define_jit_cond_calc_e"]}
{"id": "C31", "title": "parallel sampling returns exactly the requested number of samples", "statement": "For every sample_size>0 and number of workers>0, the workers together produce at least sample_size rows and the returned sample has exactly sample_size rows, each of which was produced by some worker started from its own replica.", "quantifier": "all sample sizes and cpu counts", "why_tests_cant": "depends on the machine", "anchors": ["coniii/samplers.py:Metropolis.generate_sample_parallel_py", "coniii/samplers.py:Metropolis.generate_sample_parallel_boost"]}
{"id": "C32", "title": "replica exchange keeps replica bookkeeping consistent", "statement": "For every sequence of exchanges in ParallelTempering, after each burn_and_exchange the stored energy of replica i equals the energy of its sample at inverse temperature beta_i, the replica indices are a permutation of 0..n-1, the multiset of samples is preserved, and the exchange acceptance satisfies detailed balance for the product distribution.", "quantifier": "all numbers of replicas, temperatures, energies, random streams", "why_tests_cant": "random histories", "anchors": ["coniii/samplers.py:ParallelTempering.burn_and_exchange", "coniii/samplers.py:ParallelTempering._acceptance_ratio"]}
{"id": "C33", "title": "temperature ladder update keeps the coldest replica and the ordering", "statement": "iterate_beta leaves the last beta (T=lowest) unchanged, keeps the ladder strictly increasing whenever all acceptance ratios are positive, and is the identity when all ratios are equal. It does not keep betas positive (refuted).", "quantifier": "all ladders and acceptance ratios", "why_tests_cant": "acceptance ratios are random", "anchors": ["coniii/samplers.py:ParallelTempering.iterate_beta", "coniii/samplers.py:ParallelTempering.optimize_beta"]}
{"id": "C34", "title": "Ising model constructor accepts all documented formats equivalently", "statement": "models.Ising built from [h,J], from the concatenated vector, or from the symmetric n x n matrix with the fields on the diagonal stores the same n and the same multipliers vector, for n>=3; vectors of impossible length are rejected; the documented 2x2 matrix format fails (refuted for n=2).", "quantifier": "all n and all parameters", "why_tests_cant": "format dispatch over all sizes; the n=2 case slips through tests", "anchors": ["coniii/models.py:Ising.__init__"]}
{"id": "C35", "title": "sparse parameter filling", "statement": "For SparseEnumerate/SparseMCH and every set of at least two parameter indices, fill_in(x) has the full number of parameters, holds x at the chosen indices in order and the fill value elsewhere; with exactly one index which is not the last the constructor crashes (refuted).", "quantifier": "all parameter index sets, all numbers of parameters", "why_tests_cant": "tests only use the complete index set", "anchors": ["coniii/solvers.py:Solver.set_insertion_ix", "coniii/solvers.py:Solver.fill_in"]}
{"id": "C36", "title": "default constraints of SparseEnumerate", "statement": "SparseEnumerate(sample,parameter_ix=ix).solve() without explicit constraints should fit the chosen observables of the sample; the size assertion fails for every proper subset ix (refuted), and succeeds only when all parameters are selected.", "quantifier": "all samples and index sets", "why_tests_cant": "tests pass constraints explicitly", "anchors": ["coniii/solvers.py:SparseEnumerate.solve", "coniii/solvers.py:Solver.basic_setup"]}
{"id": "C37", "title": "MPF objective, its logarithm and their gradients", "statement": "logK = log K for all data and parameters; the gradient returned by K is the exact gradient of K; the gradient returned by logK is not the gradient of logK unless there is a single data point (refuted), because log(number of samples) is subtracted from every component. The exponents that logK's gradient exponentiates are never positive and one of them is zero, so, when every sampled state has a positive count, the sum it divides by is at least the smallest count.", "quantifier": "all data sets, parameters, neighbour lists", "why_tests_cant": "the gradient branch is disabled by default and untested", "anchors": ["coniii/solvers.py:MPF.K", "coniii/solvers.py:MPF.logK"]}
{"id": "C38", "title": "Exact data: MPF finds the true parameters", "statement": "If the frequencies of the samples are exactly those of an Ising model, the gradient of the minimum probability flow objective K vanishes at its parameters, they are the only global minimum of K and of logK, and MPF.solve returns them whenever its numerical minimiser finds the minimum and the parameters are within the limits.", "quantifier": "all n, all parameters", "why_tests_cant": "a statement about the infinite-data limit", "anchors": ["coniii/solvers.py:MPF.K", "coniii/utils.py:adj"]}
{"id": "C39", "title": "MCH learning loop respects its limits and terminates", "statement": "learn_parameters_mch performs at most maxLearningSteps+1 updates; every intermediate dlamda before the last respects both maxdlamda and maxdlamdaNorm; the multipliers change by exactly the final dlamda. solve() performs at most maxiter+1 rounds, returns errflag 0 exactly when the last error is within both tolerances, and the error log has one row per sampling round.", "quantifier": "all approximation functions, samples, settings", "why_tests_cant": "depends on random samples and on arbitrary user functions", "anchors": ["coniii/solvers.py:MCH.learn_parameters_mch", "coniii/solvers.py:MCH.solve", "coniii/solvers.py:SparseMCH.solve"]}
{"id": "C40", "title": "pseudolikelihood objective and gradient", "statement": "The function minimised by Pseudo (Ising, per spin and summed) is minus the sum over data of log p(s_r|rest), it is nonnegative, and the gradient handed to the optimiser is its exact gradient with respect to every parameter.", "quantifier": "all data sets, all parameters, all r", "why_tests_cant": "gradients are handed to an external optimiser and never checked", "anchors": ["coniii/solvers.py:Pseudo._solve_ising", "coniii/solvers.py:Pseudo._solve_general"]}
{"id": "C41", "title": "Potts pseudolikelihood gradient", "statement": "The objective in Pseudo._solve_potts is minus the sum of log conditional probabilities and the gradient returned is its exact gradient, for every number of states k.", "quantifier": "all data sets over range(k), all parameters", "why_tests_cant": "the gradient check is commented out in the source", "anchors": ["coniii/solvers.py:Pseudo._solve_potts"]}
{"id": "C42", "title": "Pseudo initial guess is handed to the right parameters", "statement": "In Pseudo.solve for the Ising model, the r-th optimisation should start from the caller's initial guess for field r and couplings of r in the order used by get_multipliers_r. For r>=2 the couplings are permuted (refuted); it holds for r<=1.", "quantifier": "all n, all initial guesses", "why_tests_cant": "tests use an all zero guess", "anchors": ["coniii/solvers.py:Pseudo._solve_ising", "coniii/utils.py:define_pseudo_ising_helper_functions"]}
{"id": "C43", "title": "Pseudo symmetrisation", "statement": "The multipliers assembled by Pseudo.solve from the n per-spin solutions are the per-spin fields and, for each pair i<j in combinations order, the average of the two estimates of J_ij.", "quantifier": "all n and all per-spin solutions", "why_tests_cant": "index juggling over all n", "anchors": ["coniii/solvers.py:Pseudo._solve_ising", "coniii/utils.py:zero_diag"]}
{"id": "C44", "title": "ClusterExpansion.subsets lists every subset of given size once", "statement": "For a list without repetition, subsets(thisSet,size) contains exactly the size-element subsets, each once (as a set); it returns [] for size<=0 or size>len and raises on repeated elements; the caller's list is unchanged.", "quantifier": "all lists, all sizes", "why_tests_cant": "exponentially many subsets", "anchors": ["coniii/solvers.py:ClusterExpansion.subsets"]}
{"id": "C45", "title": "cluster entropies satisfy inclusion-exclusion", "statement": "For every cluster, the sum of deltaS over all its nonempty subsets equals S(cluster)-S0(cluster), where S,S0 are the cluster and reference entropies (assumed to depend on the set only); memoised values in deltaSdict never disagree with recomputation, for any order of calls. Same for the couplings deltaJ.", "quantifier": "all clusters, all histories of memoisation", "why_tests_cant": "memoisation histories and subsets are unbounded", "anchors": ["coniii/solvers.py:ClusterExpansion.deltaS"]}
{"id": "C46", "title": "cluster expansion with threshold below every |deltaS| is exact", "statement": "If every deltaS exceeds the threshold in absolute value, ClusterExpansion.solve accumulates every nonempty cluster exactly once and its entropy and couplings equal those of the full cluster; in general the result is the reference plus the sum over the selected clusters, each selected at most once, and the loop terminates.", "quantifier": "all n, all entropy functions, all thresholds", "why_tests_cant": "combinatorial set of clusters", "anchors": ["coniii/solvers.py:ClusterExpansion.solve"]}
{"id": "C47", "title": "sub-cluster correlations are read in sorted order", "statement": "ClusterExpansion.S must fit the pairwise correlations of its cluster irrespective of the order of the indices. The co-occurrence matrix is upper triangular, and subsets() produces unsorted clusters, for which the extracted correlations are zero (refuted); for sorted clusters the extracted upper triangle is the right one.", "quantifier": "all clusters and data", "why_tests_cant": "only shows for specific selection histories with >=4 spins", "anchors": ["coniii/solvers.py:ClusterExpansion.S", "coniii/mean_field_ising.py:coocCluster", "coniii/solvers.py:ClusterExpansion.subsets"]}
{"id": "C48", "title": "bracket1d returns a bracketing triple", "statement": "For increasing grid points, bracket1d returns a<b<c with f(b)<f(a) and f(b)<=f(c), b a global minimiser on the grid, a and c minimisers on each side, and raises exactly when the first global minimum is at an end; the documented strict inequality f(b)<f(c) fails for ties (refuted).", "quantifier": "all grids and function values", "why_tests_cant": "function values are random", "anchors": ["coniii/solvers.py:RegularizedMeanField.bracket1d"]}
{"id": "C49", "title": "conversion of solver output to the {-1,1} basis", "statement": "ClusterExpansion.solve converts its symmetric 01-basis matrix J so that the returned multipliers define the same Boltzmann distribution as unsummedZ(J). RegularizedMeanField.solve applies J+J.T first and therefore returns parameters whose energies are twice those of the mean field model (refuted).", "quantifier": "all symmetric matrices, all states", "why_tests_cant": "no numerical test of the mean field solver", "anchors": ["coniii/solvers.py:ClusterExpansion.solve", "coniii/solvers.py:RegularizedMeanField.solve", "coniii/mean_field_ising.py:unsummedLogZ"]}
{"id": "C50", "title": "aboveDiagFlat and unflatten are inverse", "statement": "For every upper triangular matrix, unflatten(aboveDiagFlat(A,keepDiag=True),ell)=A, and aboveDiagFlat(unflatten(x,ell))=x; entry (i,j) sits at diagFlatIndex(i,j,ell), which is a bijection of {i<=j} onto [0,ell(ell+1)/2); symmetrize=True leaves the unnormalised probabilities unchanged.", "quantifier": "all sizes and matrices", "why_tests_cant": "no test", "anchors": ["coniii/mean_field_ising.py:aboveDiagFlat", "coniii/mean_field_ising.py:unflatten", "coniii/mean_field_ising.py:diagFlatIndex", "coniii/mean_field_ising.py:unsummedLogZ"]}
{"id": "C51", "title": "mean field module: exact expectations", "statement": "coocExpectations(J) returns, on and above the diagonal, the exact expectation of f_i f_j under the Boltzmann distribution with unsummedZ(J), over states with at least minSize ones; analyticEntropy(J) is the Shannon entropy of that distribution, is nonnegative and at most ell*log 2.", "quantifier": "all J, ell, minSize", "why_tests_cant": "exponential state space", "anchors": ["coniii/mean_field_ising.py:coocExpectations", "coniii/mean_field_ising.py:unsummedZ", "coniii/mean_field_ising.py:analyticEntropy", "coniii/mean_field_ising.py:fightPossibilities"]}
{"id": "C52", "title": "co-occurrence matrix", "statement": "cooccurrence_matrix(samples) has in (i,j), i<=j, the mean of the product of columns i,j and zero below the diagonal; coocMatBayesianMean maps frequencies in [0,1] strictly inside (0,1), so the standard deviations used to weight residuals are positive; symmetrizeUsingUpper, replaceDiag, zeroDiag, JfullFromCluster have the entries their names promise; fourthOrderCoocMat fills all its entries with the mean of the four-spin products.", "quantifier": "all data sets and sizes", "why_tests_cant": "no test", "anchors": ["coniii/mean_field_ising.py:cooccurrence_matrix", "coniii/mean_field_ising.py:coocMatBayesianMean", "coniii/mean_field_ising.py:coocStdevsFlat", "coniii/mean_field_ising.py:symmetrizeUsingUpper", "coniii/mean_field_ising.py:JfullFromCluster", "coniii/mean_field_ising.py:fourthOrderCoocMat"]}
{"id": "C53", "title": "find_basin terminates in a local minimum", "statement": "For every state and parameters, Ising.find_basin terminates, returns a state whose energy is not larger than that of the input and is not larger than that of any single flip neighbour, leaves a local minimum unchanged and never modifies the caller's array; neighbor_dE(s)[i] is exactly E(flip_i s)-E(s). The constructor accepts None, numbers and arrays for h and J (documented list-like arguments raise, refuted). correlations('1') returns the means and pair correlations over -1,1 states and correlations('0') those of the same distribution over 0,1 states, which are what the 0,1 equation file gives for fields('0') and couplings('0').", "quantifier": "all n, parameters, states", "why_tests_cant": "termination over unbounded parameters", "anchors": ["coniii/ising/utils.py:Ising.find_basin", "coniii/ising/utils.py:Ising.neighbor_dE", "coniii/ising/utils.py:Ising.correlations"]}
{"id": "C54", "title": "lattice Metropolis energy change", "statement": "Ising2D.flip_metropolis uses exactly the change of the periodic nearest neighbour energy for every lattice of at least 2x2 sites, with the convention that a positive field favours spin -1 (opposite to the sign convention of every other module: the -h.s convention is refuted; lattices of a single row or column use a wrong change, refuted); the Boltzmann distribution of that energy is stationary under a systematic sweep, which visits each site exactly once; the number of single site updates made by iterate is exactly characterised; array and integer valued fields raise (refuted).", "quantifier": "all lattice sizes, spins, fields, couplings", "why_tests_cant": "no test", "anchors": ["coniii/ising/automaton.py:Ising2D.flip_metropolis", "coniii/ising/automaton.py:Ising2D.iterate"]}
{"id": "C55", "title": "block spin coarse graining", "statement": "coarse_grain(lattice,factor) returns the lattice of +/-1 in which every entry is the sign of the block sum, ties being broken by the random choice; lattices whose second dimension is not a multiple of factor raise, except that a single row of blocks is silently filled with wrong sums (refuted).", "quantifier": "all L, factor, lattices, tie breaking choices", "why_tests_cant": "no test", "anchors": ["coniii/ising/automaton.py:coarse_grain"]}
{"id": "C56", "title": "iter_cluster returns the connected components", "statement": "iter_cluster(adj) terminates and returns non-empty clusters which contain every site exactly once, two sites being in the same cluster iff they are connected in the (symmetric) bond graph; the clusters as sets do not depend on the set iteration order.", "quantifier": "all bond graphs, all set orders", "why_tests_cant": "set order is implementation defined", "anchors": ["coniii/samplers.py:iter_cluster"]}
{"id": "C57", "title": "Wolff cluster growth", "statement": "WolffIsing.build_cluster terminates, returns the initial site first, no site twice; every other site is joined to an earlier one by a satisfied bond (J s s'>0), so for zero or frustrated bonds no site is added; a step reverses exactly one such cluster or nothing; histories start at the given state, end at the returned one and move by cluster reversals; _generate_sample records the states after 1, 1+sep, 1+2 sep, ... steps. Passing site 0 explicitly is not honoured, the documented matrix argument is rejected unless n=3, SWIsing cannot be constructed (refuted).", "quantifier": "all couplings, states and random numbers", "why_tests_cant": "random histories", "anchors": ["coniii/samplers.py:WolffIsing.build_cluster", "coniii/samplers.py:WolffIsing.one_step", "coniii/samplers.py:iterate_neighbors"]}
{"id": "C58", "title": "log-likelihood estimate of incomplete states", "statement": "Solver.logp(sample)[i] is the log of the fraction of model samples agreeing with row i on its nonzero spins, for every row, including repeated rows.", "quantifier": "all data sets and model samples", "why_tests_cant": "no test", "anchors": ["coniii/solvers.py:Solver.logp"]}
{"id": "C59", "title": "maximum entropy", "statement": "The distribution with p(s) proportional to exp(-E(s)) computed by calc_p has the largest entropy among all distributions on the same states with the same observables; any solution of the equations that Enumerate.solve hands to the root finder is such a maximum.", "quantifier": "all n, all parameters, all competing distributions", "why_tests_cant": "a statement about all distributions", "anchors": ["coniii/solvers.py:Enumerate.solve", "coniii/enumerate.py:write_eqns", "coniii/models.py:Ising.set_multipliers"]}
{"id": "C60", "title": "uniqueness of the inverse Ising solution", "statement": "If two parameter vectors (Ising, {-1,1} basis) give the same observables then they are equal; hence an exact solution found by Enumerate.solve with constraints computed from parameters hJ can only be hJ.", "quantifier": "all n, all pairs of parameter vectors", "why_tests_cant": "tests recover one hJ numerically", "anchors": ["coniii/solvers.py:Enumerate.solve", "coniii/utils.py:define_ising_helper_functions"]}
{"id": "C61", "title": "log cosh and mean field scalar identities", "statement": "logCosh(x)=log(cosh(x)) for every x; the function whose root is taken in m() changes sign on [0,1] for all h,J,ell and T>0, so the root finder's precondition always holds; the two expressions for the independent entropy of a homogeneous system agree for every magnetisation in (-1,1).", "quantifier": "all real arguments", "why_tests_cant": "real analysis identities", "anchors": ["coniii/mean_field_ising.py:logCosh", "coniii/mean_field_ising.py:m", "coniii/mean_field_ising.py:independentEntropyHomogeneous", "coniii/mean_field_ising.py:independentEntropyHomogeneous2"]}
{"id": "C62", "title": "replacing the parameters of a C++ sampler keeps its energy changes right", "statement": "After readin_multipliers on a C++ Ising sampler, the energy change of an update should be the difference of the new energies. It is not: the coupling matrix is only built by the constructor and stays at the old parameters (refuted).", "quantifier": "all n, old and new parameters", "why_tests_cant": "no test; depends on the order of calls on one object", "anchors": ["cpp/samplers.cpp:Ising::readin_multipliers", "cpp/py.cpp"]}
{"id": "C63", "title": "calc_overlap is a normalised overlap matrix", "statement": "For every sample with entries -1, 0, 1, calc_overlap is symmetric with entries in [-1,1]; for spin states an entry is 1-2d/N with d the Hamming distance (so it is 1 only for equal states); with ignore_zeros an entry is the scalar product over the smaller number of recorded spins and the diagonal is exactly 1.", "quantifier": "all samples and pairs of rows", "why_tests_cant": "no test; must hold for every pattern of missing spins", "anchors": ["coniii/utils.py:calc_overlap"]}
{"id": "C64", "title": "Enumerate.solve starting point and constraints", "statement": "Enumerate.solve starts from the given guess (default: zeros, one per observable) and fits the given constraints (default: those of the sample); 'Can specify constraints directly instead of using the ones calculated from the sample' should also work for a solver built from a system size, but that call raises for every guess and every constraints (refuted).", "quantifier": "all samples, guesses and constraints", "why_tests_cant": "tests always build the solver from a sample", "anchors": ["coniii/solvers.py:Enumerate.solve", "coniii/solvers.py:Solver.basic_setup"]}
{"id": "C65", "title": "default parameters of calc_p and calc_observables", "statement": "After any sequence of set_multipliers calls, model.calc_p() and model.calc_observables() without argument evaluate at the last multipliers set; assigning model.multipliers directly leaves them at the previous ones (refuted for assignment).", "quantifier": "all models and all call histories", "why_tests_cant": "histories of calls are unbounded", "anchors": ["coniii/models.py:Ising.set_multipliers", "coniii/models.py:Ising.__init__"]}
{"id": "C66", "title": "Optional arguments of MPF", "statement": "MPF(..., adj=f), MPF(..., calc_de=f) and solve(all_connected=False) use the supplied neighbour function, energy derivative and connectivity repair (refuted: the first two make solve raise AttributeError, the last NameError; logK with gradients raises for one-parameter models).", "quantifier": "all samples, functions and parameters", "why_tests_cant": "the defaults are the only configuration exercised", "anchors": ["coniii/solvers.py:MPF.__init__", "coniii/solvers.py:MPF.list_adjacent_states", "coniii/solvers.py:MPF.logK"]}
{"id": "C67", "title": "MCH update is convex gradient descent", "statement": "The difference between histogram predictions and constraints, which MCH subtracts at each learning step, is the gradient of the negative log-likelihood of the constraints in the family of reweighted samples; that function is convex, the learning loop rests exactly when predictions equal constraints, and the parameters are then globally optimal. The numerical Jacobian is the central difference of the predictions.", "quantifier": "all samples, constraints, parameter changes and step sizes", "why_tests_cant": "quantifies over samples and a continuum of parameters", "anchors": ["coniii/solvers.py:MCH.learn_parameters_mch", "coniii/solvers.py:MCH.estimate_jac", "coniii/ising_eqn/*:mch_approximation"]}
{"id": "C68", "title": "MCH settings take effect", "statement": "solve() honours every value of tol and tolNorm, uses the default learning rate when learn_params_kwargs has no eta, and SparseMCH.solve() can be called without constraints after construction from data (all refuted: zero tolerances select the default, missing eta raises AssertionError, SparseMCH with a proper subset of the parameters raises AssertionError).", "quantifier": "all samplers, data, subsets of parameters and settings", "why_tests_cant": "tests only use default settings and explicit constraints", "anchors": ["coniii/solvers.py:MCH.solve", "coniii/solvers.py:SparseMCH.solve"]}
{"id": "C69", "title": "pseudolikelihood is consistent: exact data give back the parameters", "statement": "The pseudolikelihood objective is convex in the parameters. When the frequencies in the data equal the Boltzmann probabilities of an Ising model, each per-spin objective and their sum have the true parameters as unique minimum, so Pseudo.solve (both the per-spin and the general algorithm) returns exactly those parameters from any initial guess whenever the external minimiser finds a global minimum.", "quantifier": "all n, all parameters, all samples with exact frequencies, all initial guesses, all correct minimisers", "why_tests_cant": "a statement about global minima over all parameters and about every sample", "anchors": ["coniii/solvers.py:Pseudo._solve_ising", "coniii/solvers.py:Pseudo._solve_general"]}
{"id": "C70", "title": "the least squares fit of a cluster is exact when its residual vanishes", "statement": "findJmatrixAnalytic_CoocMat without prior returns a symmetric matrix; the residual at the point returned by the external least squares routine is zero exactly when the Boltzmann distribution of that matrix over the {0,1} states with at least minSize ones reproduces all frequencies and joint frequencies passed in.", "quantifier": "all matrices, all minSize, all least squares routines", "why_tests_cant": "the least squares routine and the matrices are arbitrary", "anchors": ["coniii/solvers.py:ClusterExpansion.S", "coniii/mean_field_ising.py:findJmatrixAnalytic_CoocMat"]}
{"id": "C71", "title": "closed form solutions for one and two spins", "statement": "With useAnalyticResults the couplings given for one spin and for a sorted pair reproduce the frequencies and the joint frequency exactly. The branch is however unreachable (it raises NameError for every input, refuted) and for a pair in decreasing order it would exchange the two fields (refuted).", "quantifier": "all frequencies with positive cell probabilities, all pairs", "why_tests_cant": "a continuum of frequencies", "anchors": ["coniii/solvers.py:ClusterExpansion.S"]}
{"id": "C72", "title": "scalar mean field thermodynamics", "statement": "With a root finder that honours its contract, m(h,J,ell,T) lies strictly between 0 and 1 and is a stationary point of the mean field free energy h m + (ell-1) J m^2 - T S(m). avgE reports the interaction part of that energy with the opposite sign (refuted); dmdT is minus the temperature derivative of m already for J=0 (refuted); susc differs from the field derivative of m by a factor T at h=J=0 (refuted).", "quantifier": "all fields, couplings, sizes, temperatures and root finders", "why_tests_cant": "derivatives over a continuum of parameters and an external root finder", "anchors": ["coniii/mean_field_ising.py:m", "coniii/mean_field_ising.py:avgE", "coniii/mean_field_ising.py:dmdT", "coniii/mean_field_ising.py:susc"]}
{"id": "C73", "title": "mean field inversion of a cluster", "statement": "SmeanField on uncorrelated data returns exactly the independent model and its entropy for every prior strength; without a prior the regularised and the direct equation return the same result when the correlation matrix is positive definite; couplings are symmetric and zero outside the cluster; the entropy never exceeds that of independent spins; the prior moves every eigenvalue towards 1; a prior without numSamples raises TypeError; a pair listed in decreasing order ignores the joint frequency (refuted).", "quantifier": "all clusters, frequencies, priors and linear algebra routines meeting their contract", "why_tests_cant": "matrices of any size and external eigenvalue routines", "anchors": ["coniii/mean_field_ising.py:SmeanField", "coniii/mean_field_ising.py:JmeanField"]}
{"id": "C74", "title": "covariance matrix of co-occurrences", "statement": "coocSampleCovariance returns the variances of the products on its diagonal, but off the diagonal it holds E[pq](1-E[pq]) instead of the covariance, which is positive even for uncorrelated products (refuted).", "quantifier": "all binary samples", "why_tests_cant": "all samples of any size", "anchors": ["coniii/mean_field_ising.py:coocSampleCovariance", "coniii/mean_field_ising.py:fourthOrderCoocMat"]}
{"id": "C75", "title": "objective of RegularizedMeanField", "statement": "The objective compares the sampled model with the data. It does not (refuted): for uncorrelated data the sampled model has magnetisations of the opposite sign; the residual of every frequency is 1-p whatever is sampled, because -1,1 samples are compared with 0,1 frequencies; the objective is bounded away from zero even if the sample equals the data.", "quantifier": "all data, samples and prior strengths", "why_tests_cant": "the sampler is random and the data arbitrary", "anchors": ["coniii/solvers.py:RegularizedMeanField.solve", "coniii/mean_field_ising.py:isingDeltaCooc"]}
{"id": "C76", "title": "Wolff steps sample the Boltzmann distribution", "statement": "One step of WolffIsing with the acceptance test exp(-2 h.s_cluster) satisfies detailed balance with respect to exp(-E), for couplings of either sign and any fields; the Boltzmann distribution is stationary for drawn and for given first sites, and it is the only stationary distribution when the site is drawn.", "quantifier": "all n, fields, couplings; law of the random numbers: independent uniform", "why_tests_cant": "a statement about probabilities of unboundedly many growth histories", "anchors": ["coniii/samplers.py:WolffIsing.one_step", "coniii/samplers.py:WolffIsing.build_cluster"]}
{"id": "C77", "title": "deprecated pseudolikelihood solver", "statement": "cond_log_likelihood and conditionalLogLikelihood return the log probability of one column given the others, in the 0/1 model whose matrix has the given row (for the module function: restricted to samples with at least minSize ones); the Jacobian is the gradient of minus that value and the Hessian its second derivative; a zero of the Jacobian is a global maximum; the start is the independent model; the solver returns the parameters of the fitted model in the -1,1 basis; the sum over columns is the pseudolikelihood.", "quantifier": "all data matrices, all parameter rows, all minSize, any minimiser", "why_tests_cant": "statements about derivatives and optima at all real parameters and all data sets", "anchors": ["coniii/solvers.py:Pseudo._solve_ising_deprecated", "coniii/solvers.py:Pseudo.cond_log_likelihood", "coniii/solvers.py:Pseudo.cond_jac", "coniii/solvers.py:Pseudo.cond_hess", "coniii/pseudo_inverse_ising.py:pseudoInverseIsing", "coniii/pseudo_inverse_ising.py:pseudoLogLikelihood"]}
{"id": "C78", "title": "Heisenberg energy, its gradients and Hamiltonian Monte Carlo", "statement": "calc_e of samplers.py is minus the sum over pairs of coupling times the inner product of the two unit vectors, bounded by the sum of the absolute couplings and unchanged by a common rotation about the polar axis; grad_e and grad_e_theta are its gradients in the angles and in the couplings; the leapfrog integrator of jit_sample is time reversible; a proposal that fails the Metropolis test leaves the position unchanged; HamiltonianMC and Heisenberg3DSampler can be constructed.", "quantifier": "all numbers of spins, angles, couplings, step sizes, numbers of steps, energy functions and gradients", "why_tests_cant": "derivatives at all real angles, all trajectories", "anchors": ["coniii/samplers.py:calc_e", "coniii/samplers.py:grad_e", "coniii/samplers.py:grad_e_theta", "coniii/samplers.py:jit_sample", "coniii/samplers.py:HamiltonianMC", "coniii/samplers.py:Heisenberg3DSampler"]}
{"id": "C79", "title": "random vectors near a given vector and angular gradient", "statement": "cross is the vector product; sample_nearby_vector and jit_sample_nearby_vector return the requested number of unit vectors, each at the drawn polar angle from the given vector and at the drawn azimuth in a frame around it; the angles computed for a vector are its polar angles; with sigma=0 the vector itself is returned; grad_E returns the derivatives of the energy in theta and phi.", "quantifier": "all vectors, angles, widths, numbers of samples, random numbers, couplings", "why_tests_cant": "identities over all real vectors and angles", "anchors": ["coniii/samplers.py:cross", "coniii/samplers.py:jit_sample_nearby_vector", "coniii/samplers.py:Heisenberg3DSampler.sample_nearby_vector", "coniii/samplers.py:Heisenberg3DSampler.grad_E"]}
{"id": "C80", "title": "sampling front end of models and sample_ising", "statement": "After any sequence of set_multipliers, setup_sampler, set_rng and generate_sample calls on a model (including calls that raised), a successful generate_sample stores the requested number of states (the size given to setup_sampler if none or 0 is requested), each with n spins of +-1, drawn with the parameters of this call or the model's current ones, and leaves the model's parameters unchanged; parameters of a different number raise AssertionError and change nothing; with the compiled extension the sample depends only on the generator set by set_rng, the parameters and the arguments, not on earlier calls. sample_ising accepts a parameter vector iff its length is n(n+1)/2 and returns n_samples rows of n spins; the pair form equals the concatenated vector.", "quantifier": "all call histories, sizes, parameters, generators, numbers of cores, with and without extension", "why_tests_cant": "quantifies over all histories of calls on an object and all states of the random number generator", "anchors": ["coniii/models.py:Model.setup_sampler", "coniii/models.py:Model.set_rng", "coniii/models.py:Model.generate_sample", "coniii/samplers.py:Metropolis.update_parameters", "coniii/samplers.py:sample_ising"]}
{"id": "C81", "title": "text of equation files", "statement": "The Python text that write_eqns, pairwise and triplet write (license and date comments, imports, numerals, line breaks of the energy list, printed coefficient arrays with inserted commas, both spin conventions, both precisions), read back as Python and called, returns for all parameters exactly the Boltzmann probabilities of all states and the expectations of all products; every one of the 18 files shipped in coniii/ising_eqn is, character for character, the output of the generator and so returns exactly these values.", "quantifier": "all sizes, index sets with at least one parameter, license texts, dates, precisions and parameters; all shipped files", "why_tests_cant": "quantifies over all sizes and real parameters; a test of a shipped file samples finitely many parameters", "anchors": ["coniii/enumerate.py:write_eqns", "coniii/enumerate.py:write_py", "coniii/enumerate.py:_write_energy_terms", "coniii/enumerate.py:pairwise", "coniii/enumerate.py:triplet", "coniii/ising_eqn"]}
{"id": "C82", "title": "Swendsen-Wang steps", "statement": "In a Swendsen-Wang step the bond of a pair is set exactly when its coupling is satisfied (J s s'>0) and its random number is below 1-exp(-2|J|); the clusters are the connected components of the set bonds and contain every site once; the step always returns a spin state in which every cluster was reversed as a whole or left alone, a cluster being reversed with the heat bath probability exp(-a)/(exp(a)+exp(-a)) of its field a. Averaged over the random numbers, any number of steps leaves the Boltzmann distribution of the couplings and fields unchanged, one step is in detailed balance, and no other distribution is stationary. The rows of generate_sample are independent chains.", "quantifier": "all sizes, couplings of either sign, fields, states, random numbers, numbers of iterations and rows, and orders in which Python sets are traversed", "why_tests_cant": "statement about distributions; a test of samples is statistical and covers one parameter set", "anchors": ["coniii/samplers.py:SWIsing.one_step", "coniii/samplers.py:SWIsing.get_clusters", "coniii/samplers.py:SWIsing.randomly_flip_clusters", "coniii/samplers.py:SWIsing.generate_sample", "coniii/samplers.py:pairwise_prod", "coniii/samplers.py:sample_bonds", "coniii/samplers.py:iter_cluster"]}
{"id": "C83", "title": "Thermodynamics of a homogeneous system", "statement": "For every number of spins N, field h and coupling J>0, with exact integration: the auxiliary-field integral is the partition function of the pairwise model with all fields h and all couplings 2J (times exp(NJ)); avgxHomogeneous and avgmHomogeneous both equal the mean of every single spin; SHomogeneous is the entropy of its Boltzmann distribution; the two independent entropies agree and are the sum of the single-spin entropies; multiInfoHomogeneous is their difference, zero for one spin and positive for two or more; dFdT is the temperature derivative of FHomogeneous. specificHeat is not the derivative of the energy in the temperature (refuted).", "quantifier": "all N>=1, all real h, J>0, every exact integrator", "why_tests_cant": "an identity between an improper integral and a sum over 2^N states for all N and all real parameters", "anchors": ["coniii/mean_field_ising.py:FHomogeneous", "coniii/mean_field_ising.py:dFdT", "coniii/mean_field_ising.py:SHomogeneous", "coniii/mean_field_ising.py:avgmHomogeneous", "coniii/mean_field_ising.py:avgxHomogeneous", "coniii/mean_field_ising.py:multiInfoHomogeneous", "coniii/mean_field_ising.py:independentEntropyHomogeneous", "coniii/mean_field_ising.py:independentEntropyHomogeneous2", "coniii/mean_field_ising.py:specificHeat"]}
{"id": "C84", "title": "Stability of a mean field solution; stream of seeds", "statement": "For a square coupling matrix and frequencies that solve the mean field equations, meanFieldStability returns the spectral radius (largest absolute value of a complex eigenvalue) of the matrix of derivatives of the self-consistency iteration at the solution, although it scales columns instead of rows; frequencies of another length raise. The k-th seed of seedGenerator is seedStart + k deltaSeed and seeds never repeat unless deltaSeed is 0.", "quantifier": "all sizes, couplings, fields and solutions; all starts, steps and numbers of draws", "why_tests_cant": "equality of two spectra for every matrix; freshness over unbounded histories", "anchors": ["coniii/mean_field_ising.py:meanFieldStability", "coniii/mean_field_ising.py:seedGenerator"]}
{"id": "C85", "title": "Combinatorial helpers, third order indices, spectral clusters, C++ Potts samples", "statement": "For every a, b and x the coefficients of _expand_binomial times the monomials of x (most factors first) sum to the product of the binomials a*x_i+b; there are 2^n of them and they sum to (a+b)^n. multinomial(n,k1..kr) is the m with m*k1!..kr!=n! if the floating point value is not below it, and m-1 if it is rounded below by however little. get_3idx(n) is 1 exactly at i<j<k. get_nidx raises below the full order. spec_cluster of a graph Laplacian with an exact eig returns unions of connected components, the whole graph if it is connected, but not always the components; for an orthogonal matrix of eigenvectors there are as many lists as components and, below 10^8 vertices, every vertex is in one. exact=False changes nothing unless an eigenvalue is tiny but not zero. Samples of BoostPotts3 have the requested shape and states 0,1,2. MPF._K never returns.", "quantifier": "all real a, b, all vectors x, all arguments and roundings, all n, all weighted graphs and exact eigen-decompositions, all generators and parameters", "why_tests_cant": "identities for all sizes and reals; the effect of rounding and of the choice of eigenvectors is not visible in a run on one machine", "anchors": ["coniii/utils.py:_expand_binomial", "coniii/utils.py:multinomial", "coniii/enumerate.py:get_3idx", "coniii/enumerate.py:get_nidx", "coniii/samplers.py:spec_cluster", "coniii/solvers.py:MPF._K", "cpp/samplers.cpp:Potts3::init_sample"]}
{"id": "C86", "title": "Monte Carlo histogram solver for incomplete data", "statement": "The prediction that MCHIncompleteData learns from is, for all data and changes of parameters, the average over the data rows of one prediction each: that of the model's sample for a complete row, that of its conditional sample for an incomplete one. On complete data it is the prediction of MCH. Parameters for which it equals the constraints stay. The derivative of the log-likelihood of the visible spins is the sum over rows of conditional minus unconditional means. Learning does not maximise this likelihood: exact samples at a critical point do not keep the parameters there. solve never returns.", "quantifier": "all data sets with hidden spins, all samples, all changes of parameters and keyword arguments; all arguments of solve", "why_tests_cant": "an identity over all data sets and multiplicities; sampling noise hides whether the fixed point is the maximum of the likelihood", "anchors": ["coniii/solvers.py:MCHIncompleteData.solve", "coniii/solvers.py:MCHIncompleteData.learn_parameters_mch", "coniii/solvers.py:MCHIncompleteData.generate_sample"]}
{"id": "C87", "title": "Long runs reach the Boltzmann distribution", "statement": "From every initial state, the distribution after t random site updates of the Ising sampler converges to the Boltzmann distribution, at a geometric rate that does not depend on the start or the observable, if and only if the energy is not constant, that is, some field or coupling is not zero. For the Potts sampler it always converges. Swendsen-Wang steps converge at a geometric rate for all fields and couplings and whatever order sets are iterated in. With all parameters zero and an even number of iterations between rows, both the Python and the C++ Ising sampler return rows that all have the same parity: the average of the product of all spins is 1 or -1 in every sample although its expectation is 0.", "quantifier": "all system sizes, energies, initial states, observables and run lengths; for the refutation all generators, sample sizes, burn-ins and site orders", "why_tests_cant": "a limit over run lengths; detailed balance alone does not give it, and a test at a few parameters never meets the periodic case", "anchors": ["coniii/samplers.py:Metropolis.generate_sample_py", "coniii/samplers.py:Metropolis.sample_metropolis", "coniii/samplers.py:Potts3.sample_metropolis", "coniii/samplers.py:SWIsing.one_step", "cpp/samplers.cpp:Sampler::generate_sample"]}
{"id": "C88", "title": "Sample averages estimate Boltzmann expectations", "statement": "For every function F of states bounded by B, the average of F over the m rows that a Metropolis sampler returns has a mean square distance from the Boltzmann expectation of at most C B^2 / m, and is further than d from it with probability at most C B^2 / (m d^2). C depends on the energy only, not on F, m, the initial state, the burn-in or the number of iterations between rows (at least 1). This holds for the Python and the C++ Ising sampler when the energy is not constant, and for the Python and the C++ Potts sampler always. With these arguments a run never raises.", "quantifier": "all system sizes, energies, observables, initial states, burn-ins, spacings and sample sizes", "why_tests_cant": "a bound on a probability over all random draws, uniform in sample size and initial state", "anchors": ["coniii/samplers.py:Metropolis.generate_sample_py", "coniii/samplers.py:Potts3.sample_metropolis", "cpp/samplers.cpp:Sampler::generate_sample"]}
{"id": "C89", "title": "Parallel sampling does not depend on scheduling", "statement": "Whatever the order in which worker processes take, run and report their chunks, and whatever these processes did before, the parallel Ising samplers (C++ and Python), the parallel Potts sampler, the parallel Wolff sampler and the replicas of parallel tempering get the same results: those of running every argument on its own, in the order of the arguments, or one of the exceptions raised. The arguments reach the workers each exactly once. If no worker is killed and all go on working, the call returns. If a worker is killed while it holds a chunk, the call never returns. SWIsing.generate_sample_parallel always raises NameError. Conditional sampling for incomplete data would draw every row from a copy of one generator, so that rows share one stream.", "quantifier": "all schedules, all numbers of processes, all ways to cut the arguments into chunks, all states of the worker processes, all points at which workers are killed", "why_tests_cant": "a test sees a few schedules; the claim is about all interleavings and kill points", "anchors": ["coniii/samplers.py:Metropolis.generate_sample_parallel_boost", "coniii/samplers.py:Metropolis.generate_sample_parallel_py", "coniii/samplers.py:Potts3.generate_sample_parallel_boost", "coniii/samplers.py:WolffIsing.generate_sample_parallel", "coniii/samplers.py:SWIsing.generate_sample_parallel", "coniii/samplers.py:ParallelTempering.burn_in_replicas", "coniii/solvers.py:MCHIncompleteData.generate_sample"]}
{"id": "C90", "title": "Rounding in energies and Metropolis runs stays bounded", "statement": "For parameters that are double precision numbers, the energy of the Ising helpers differs from the documented energy by at most 2 m 2^-53 times the sum of the magnitudes of the m parameters, whatever order np.sum adds in; it is exact when the parameters are multiples of a power of two and not too large. The running energy of the Python sampler does not drift: its distance from the energy of the current state is bounded whatever the number of updates. A float decision differs from the exact one only if the random number is within that error of the threshold. Expected values after k updates at any sites differ from the exact ones by at most k times the error; for random sites and parameters that are not all zero, the distance from the Boltzmann expectation goes down geometrically to a multiple of the error that does not depend on the length of the run. The same holds for the C++ sampler, whose energy differences only carry the error of one row. On the coarse grid, a float run is the exact run.", "quantifier": "all sizes, parameters, states, summation orders, exponential functions within d of the exact one, run lengths, generators", "why_tests_cant": "a test sees rounding for a few parameters and short runs; the claim bounds it for all of them and for runs of any length", "anchors": ["coniii/utils.py:define_ising_helper_functions", "coniii/samplers.py:Metropolis.sample_metropolis", "coniii/samplers.py:Metropolis.generate_sample", "cpp/samplers.cpp:Ising::sample_metropolis"]}
{"id": "C91", "title": "Rounding in the written equation files stays bounded", "statement": "For N double precision energies of magnitude at most M, fast_logsumexp in floats never returns NaN or -inf for the partition function, and its logarithm is right up to (18 N + M) eps however large the exponentials are, where eps bounds the unit roundoff and the errors of exp and log and (N + M) eps is small. A written equation file run in floats with double precision parameters of magnitude at most P returns the Boltzmann probabilities and the expectations of the constraints up to 150 (2^n + m m P) eps, with m the number of parameters plus the number of orders, and no NaN. Only the absolute error is bounded: a field below 2^-56 gives the mean 0 exactly although the mean is not 0.", "quantifier": "all sizes, constraint lists, bases, parameters, orders of summation, exp and log functions within eps", "why_tests_cant": "a test sees rounding for a few parameters on one machine; the bound is for all parameters, sizes, summation orders and math libraries", "anchors": ["coniii/enumerate.py:fast_logsumexp", "coniii/enumerate.py:write_eqns", "coniii/enumerate.py:write_py", "coniii/enumerate.py:pairwise"]}
{"id": "C92", "title": "Potts3 objects: which methods sample the three-state model", "statement": "Potts3(n, theta) accepts exactly 3n+n(n-1)/2 parameters. With the extension generate_sample_parallel returns the requested number of rows of states 0, 1, 2, each from a C++ Potts sampler with the object's parameters, and raises AssertionError for fewer than two processes or not more samples than processes; in pure Python both methods return such rows. After any calls on a models.Potts3 the stored sample of a parallel or pure Python call consists of such states and the sampler holds the parameters asked for. The claim fails for generate_sample with the extension: it is the method of the Ising sampler, which ends the process if compiled with assertions and otherwise returns rows of -1 and 1 drawn from an Ising model with misread parameters; up to five sites the couplings have no influence. Conditional samples: state 0 or 2 cannot be fixed and rows may contain -1.", "quantifier": "all sizes, parameters, generators, numbers of samples and processes, histories of calls", "why_tests_cant": "the tests of the package run generate_sample and compare two runs with the same seed; which states and parameters enter for every size and history is not visible from that", "anchors": ["coniii/samplers.py:Potts3", "coniii/samplers.py:Metropolis.generate_sample_boost", "coniii/samplers.py:Metropolis.generate_cond_sample_py", "coniii/models.py:Potts3", "coniii/models.py:Model.setup_sampler", "coniii/models.py:Model.generate_sample", "cpp/samplers.cpp:Ising::readin_multipliers"]}
{"id": "C93", "title": "The text of Potts equation files means the Potts model", "statement": "For n>2 spins and 2 to 10 states, the characters written by enumerate_potts, read back and run as Python, define p and calc_observables: p(params) returns the Boltzmann probabilities of all states in base-k counting order and calc_observables(params) the exact averages of the state indicators and pair agreements; params of any other size raise AssertionError in both. The claim fails for more than 10 states: the constructor accepts them, write() raises ValueError (up to 36 states) or AssertionError after it has replaced the file, and the file left behind cannot be imported.", "quantifier": "all sizes, numbers of states, parameters, license texts and dates without line breaks inside a line", "why_tests_cant": "a test imports the files of a few sizes; the claim is about the text of every size, and about files left by a failed write", "anchors": ["coniii/enumerate_potts.py:Potts", "coniii/enumerate_potts.py:Potts.write", "coniii/enumerate_potts.py:Potts.calc_observables"]}
{"id": "C94", "title": "Equation files cut short never give wrong numbers", "statement": "If writing an equation file (pairwise, triplet or any index arrays in enumerate.py, in normal or high precision; or a Potts file) is interrupted after any number of characters, then importing what is on disk and calling p or calc_observables raises, returns None, or returns exactly what the complete file returns, which are the Boltzmann probabilities and the expectations; no partial file returns wrong numbers.", "quantifier": "all sizes, parameters and all positions at which the write is interrupted; any behaviour of Python on the incomplete last line", "why_tests_cant": "one crash point per character of files of every size", "anchors": ["coniii/enumerate.py:write_eqns", "coniii/enumerate.py:write_py", "coniii/enumerate.py:_write_energy_terms", "coniii/enumerate_potts.py:Potts.write"]}
{"id": "C95", "title": "Conditional samples estimate conditional expectations", "statement": "generate_cond_sample_py and generate_cond_sample_boost with some spins fixed draw the other spins from the distribution of the model given the fixed values: for independent uniform draws, whatever the initial row and the burn in, the mean square distance between the average of a function over the m returned rows and its expectation given the fixed spins is at most C/m, and the probability of an error above d at most C/(m d^2), with C independent of m, provided the energy is not constant on the states that agree with the fixed values.", "quantifier": "all sizes, energies (Python) or parameters (C++), sets of fixed spins with at least one free spin, functions, sample sizes, numbers of iterations, burn ins and initial rows", "why_tests_cant": "a statement about probabilities in the limit of many samples; a test sees one run with a tolerance", "anchors": ["coniii/samplers.py:Metropolis.generate_cond_sample_py", "coniii/samplers.py:Metropolis.generate_cond_sample_boost", "cpp/samplers.cpp:Sampler::generate_cond_sample"]}
{"id": "C96", "title": "Wolff samples approach the Boltzmann distribution unless all parameters are zero", "statement": "WolffIsing.generate_sample advances every row of the initial sample independently: whatever the initial sample, if some field or coupling is not zero, the expectation of a function bounded by B in every returned row differs from the Boltzmann expectation by at most 2 B rho^(n_iters/(2n+2)) with rho < 1, and the mean square error of its average over m returned rows is at most 4 B^2/m plus the square of that bias. If all parameters are zero every step reverses exactly one spin: the product of the spins never equilibrates.", "quantifier": "all sizes, fields, couplings, functions, initial samples and numbers of iterations; the failure for every generator", "why_tests_cant": "a statement about probabilities for every model and every number of steps; a test sees one run with a tolerance", "anchors": ["coniii/samplers.py:WolffIsing.generate_sample", "coniii/samplers.py:WolffIsing.one_step", "coniii/samplers.py:WolffIsing.build_cluster", "coniii/samplers.py:WolffIsing.find_neighbors"]}
{"id": "C97", "title": "Learning from a sample never worsens the fit when the learning rate is small", "statement": "MCH.learn_parameters_mch called with the mean observables of its sample and a learning rate eta of at most 1/P for P parameters: the reweighted negative log-likelihood of the constraints decreases by at least eta/2 times the squared error of the sample, and the returned prediction is not further from the constraints than the sample. If the constraints are a weighted mean of the observables of sampled states, then either learning stops at a limit on the change of the multipliers or the error e of the returned prediction satisfies min(e,1) e^2 <= 2 ln(sample size) / (eta (maxLearningSteps+1)). The default learning rate 1 does not have this property: one step can move the prediction away from the constraints.", "quantifier": "all samples, sizes, constraints, multipliers, limits and numbers of learning steps", "why_tests_cant": "an inequality for every sample and every learning rate below the bound, and a rate in the number of steps; tests compare one fit with a tolerance", "anchors": ["coniii/solvers.py:MCH.learn_parameters_mch", "coniii/utils.py:define_ising_helper_functions (mch_approximation)"]}
{"id": "C98", "title": "Small errors of the correlations mean small errors of the parameters", "statement": "For the calc_observables of a generated -1,1 equation file with n spins and P parameters: two parameter vectors p, q whose correlations are at Euclidean distance r are at distance at most exp(2R) r, where R is the larger of the sums of moduli of p and q; conversely the correlations differ by at most P times the distance of the parameters. Hence a solution returned by Enumerate.solve certifies itself: if the residual of params times exp(2(|params|_1 + sqrt(P) rho)) is below rho, then the constraints have an exact solution, exactly one, and it is closer to params than rho.", "quantifier": "all system sizes, parameter vectors, constraints and accuracies", "why_tests_cant": "a bound on an unknown exact solution, and its existence, from the residual of an approximate one, for all models; a test only compares with parameters it knows", "anchors": ["coniii/solvers.py:Enumerate.solve", "coniii/enumerate.py:write_eqns", "coniii/ising_eqn/ising_eqn_*_sym.py:calc_observables"]}
{"id": "C99", "title": "Which correlations have parameters", "statement": "A vector of means and pair correlations is returned by calc_observables of the -1,1 equation file for some parameters if and only if it consists of the means and pair correlations of a distribution that gives every state a positive probability. Data in which every state occurs therefore have exactly one solution, with Euclidean norm at most (number of rows) n ln 2. If a spin or a product of two spins is the same in all rows of the data there is no solution: every parameter vector leaves an error of at least exp(-2 R), R the sum of the moduli of its entries, so that the function Enumerate.solve hands to the minimiser is never zero.", "quantifier": "all system sizes, data sets, constraints and parameter vectors", "why_tests_cant": "existence and non-existence over all real parameter vectors", "anchors": ["coniii/solvers.py:Enumerate.solve", "coniii/enumerate.py:write_eqns", "coniii/ising_eqn/ising_eqn_*_sym.py:calc_observables", "coniii/solvers.py:Solver.basic_setup"]}
{"id": "C100", "title": "Parameters fitted to many samples are close to the true ones", "statement": "Draw m states independently from the Boltzmann distribution of parameters q and give them to the exact solver. For every accuracy rho and every delta, if m >= P/(delta r^2) with r = rho exp(-2(|q|_1 + sqrt(P) rho)), then with probability at least 1-delta the constraints computed from the sample have exactly one solution, and it is closer to q than rho.", "quantifier": "all system sizes, parameters, accuracies, confidence levels and sample sizes above the bound", "why_tests_cant": "a statement about the probability over all samples with an explicit sample size", "anchors": ["coniii/solvers.py:Enumerate.solve", "coniii/solvers.py:Solver.basic_setup"]}
{"id": "C101", "title": "Which spins systematic iteration updates", "statement": "With systematic_iter=True the compiled Ising and Potts samplers update spin u mod n at the u-th update, counting through burn-in and all rows; row j is the state after burn_in+(j+1)n_iters updates; conditional sampling goes through the free spins in increasing order in the same way. The Python sampler starts again at spin 0 before every row, so that with n_iters < n the spins n_iters..n-1 have the same value in all rows, whatever the generator returns: the documented promise to iterate through each element of the system is refuted for it.", "quantifier": "all sizes, parameters, energies, generators, burn-in lengths and row counts", "why_tests_cant": "an order of updates over arbitrarily long runs; a test sees one run and cannot tell an unvisited spin from one that was not flipped", "anchors": ["coniii/samplers.py:Metropolis.generate_sample_py", "cpp/samplers.cpp:Sampler::generate_sample", "cpp/samplers.cpp:Sampler::generate_cond_sample"]}
{"id": "C102", "title": "Sampling a model and fitting the sample gives the model back", "statement": "Draw m rows with the Metropolis sampler (compiled or Python, random sites, any start, burn-in and number of updates between rows) at parameters q that are not all zero, and give their means and pair correlations to the exact solver. There is a constant C depending on q only such that for every accuracy rho and confidence 1-delta, m >= P C / (delta r^2) rows, r = rho exp(-2(|q|_1 + sqrt(P) rho)), are enough: with probability at least 1-delta the constraints have exactly one solution, and it is closer to q than rho.", "quantifier": "all system sizes, parameters, starts, burn-in lengths, thinning intervals, accuracies and confidence levels", "why_tests_cant": "a probability over all random sequences of a Markov chain, for all models, combined with the existence of an exact solution", "anchors": ["coniii/samplers.py:Metropolis.generate_sample", "cpp/samplers.cpp:Sampler::generate_sample", "coniii/solvers.py:Enumerate.solve"]}
{"id": "C103", "title": "Systematic scans sample the Boltzmann distribution when no single flip leaves the energy unchanged", "statement": "With systematic_iter=True the Ising samplers (Python and compiled) converge to the Boltzmann distribution whenever flipping any one spin of any state changes the energy: every row has the right expectations up to 2 B rho^(sweeps/m0) (sweeps = complete sweeps made before it: of the burn-in in Python, of burn-in and rows in the compiled sampler), and sample averages have mean square error at most C B^2/m, if at least n updates (Python) or a multiple of n updates (compiled, one C for all burn-ins and multiples) lie between rows. The Potts samplers do so for every energy. (Without the condition the claim fails: C26_systematic_irreducible_refuted.)", "quantifier": "all sizes, energies (parameters) without ties, starts, burn-in lengths, numbers of updates between rows, sample sizes, observables", "why_tests_cant": "a limit over all run lengths and a probability over all random sequences, for all parameters; the chain is not reversible and single updates at favourable flips are deterministic", "anchors": ["coniii/samplers.py:Metropolis.generate_sample_py", "coniii/samplers.py:Potts3.generate_sample_py", "cpp/samplers.cpp:Sampler::generate_sample"]}
{"id": "C104", "title": "The single-chain Wolff sampler estimates Boltzmann averages", "statement": "If some field or coupling is not zero, the states recorded by WolffIsing's single-chain sampler (after cluster steps 1, 1+sep, 1+2 sep, ...) average any bounded observable to its Boltzmann expectation: from every initial state and for every separation the mean square error over m states is at most C B^2/m, and the probability of an error above d is at most C B^2/(m d^2).", "quantifier": "all sizes, fields, couplings (not all zero), initial states, separations, sample sizes, observables", "why_tests_cant": "a probability over all random sequences and a limit over sample sizes, for all parameters", "anchors": ["coniii/samplers.py:WolffIsing._generate_sample", "coniii/samplers.py:WolffIsing.one_step"]}
{"id": "C105", "title": "Parallel tempering samples estimate Boltzmann averages at every temperature", "statement": "If no flip of one spin leaves the energy unchanged, no inverse temperature is 0 and the burn-in of a round visits every spin, then averages over M rows of ParallelTempering.generate_sample estimate expectations under the product of the Boltzmann distributions of the replicas, and in particular the states of replica i estimate Boltzmann averages at its own inverse temperature: the mean square error is at most C B^2/M and the probability of an error above d at most C B^2/(M d^2), from every consistent set of replicas.", "quantifier": "all sizes, parameters, ladders of inverse temperatures, replicas, sample sizes, observables of one or of all replicas", "why_tests_cant": "a probability over all random sequences of all generators and a limit over sample sizes, for all parameters", "anchors": ["coniii/samplers.py:ParallelTempering.generate_sample", "coniii/samplers.py:ParallelTempering.burn_and_exchange", "coniii/samplers.py:ParallelTempering.burn_in_replicas"]}
{"id": "C106", "title": "The compiled Ising energy accepts int64 states and float64 parameters; the field-free helpers cannot be built", "statement": "calc_e of define_ising_helper_functions returns the Ising energies of every int64 matrix of states under every float64 parameter vector and raises TypeError on arrays with any other element types or numbers of dimensions. define_ising_helper_functions_sym is expected to return helper functions; it raises at every call.", "quantifier": "all element types and dimensions of both arguments, all states and parameters", "why_tests_cant": "all combinations of types and all values; the field-free helpers have no test", "anchors": ["coniii/utils.py:define_ising_helper_functions", "coniii/utils.py:define_ising_helper_functions_sym"]}
{"id": "C107", "title": "The slow Hamiltonian Monte Carlo sampler makes two transitions more than the fast one", "statement": "HamiltonianMC.sample(x0, nBurn) always returns after exactly nBurn+2 transitions; entry k>=1 of its history is the position after k transitions, but entry 0 is the final position and not the initial state. generate_sample returns one run per starting point in the fast mode with one process (nBurn transitions) and in the slow mode with several (nBurn+2); it raises in the other two modes.", "quantifier": "all energies, gradients, step sizes, numbers of steps, burn-ins, random numbers and starting points", "why_tests_cant": "all random sequences and all sizes; the class has no tests", "anchors": ["coniii/samplers.py:HamiltonianMC.sample", "coniii/samplers.py:HamiltonianMC.generate_sample", "coniii/samplers.py:jit_sample"]}
{"id": "C108", "title": "The Heisenberg chain keeps unit vectors and energies, except on the polar axis", "statement": "Every number of Metropolis updates of Heisenberg3DSampler leaves either as many unit vectors as before together with the energy of the present state, or a state with nan. From vectors off the polar axis an update proposes unit vectors at the drawn angles and takes them with probability min(1, exp(-dE)). From a state with a vector on the polar axis the chain moves to nan with certainty and stays there.", "quantifier": "all energies, numbers of spins, states, numbers of updates and random numbers", "why_tests_cant": "all random sequences and all numbers of updates", "anchors": ["coniii/samplers.py:Heisenberg3DSampler.sample_metropolis", "coniii/samplers.py:Heisenberg3DSampler.equilibrate_samples", "coniii/samplers.py:Heisenberg3DSampler.sample_nearby_sample"]}
{"id": "C109", "title": "MCH works on samples of the C++ sampler and raises TypeError on those of the Python sampler", "statement": "With the C++ extension MCH.solve runs as if array types did not matter; SparseMCH.solve does so with both samplers because it converts the sample. With the pure Python sampler, whose parallel method returns 8-bit integers, MCH.solve and estimate_jac raise TypeError for all data, guesses and settings. MPF evaluates its objective on data stored as 64-bit integers and raises TypeError on any other element type.", "quantifier": "all samplers' outcomes, data, guesses, tolerances, settings and sizes; all element types", "why_tests_cant": "failure for every input rather than one; no test solves with MCH and the Python sampler", "anchors": ["coniii/solvers.py:MCH.learn_parameters_mch", "coniii/solvers.py:SparseMCH.learn_parameters_mch", "coniii/solvers.py:MCH.estimate_jac", "coniii/solvers.py:MPF.K", "coniii/samplers.py:Metropolis.generate_sample_parallel_py", "coniii/utils.py:define_ising_helper_functions"]}
{"id": "C110", "title": "The C++ sampler runs with the parameters that the caller's array shows, if it is a float64 array without gaps", "statement": "For a contiguous float64 array the samples of the C++ sampler are those for the values numpy shows. After update_parameters, and in parallel runs, the layout does not matter, and after update_parameters no later assignment to the caller's arrays changes the samples. A new sampler that was given a column of a matrix, a reversed array or an integer array samples another model (or reads outside the array); one that was given an array keeps sharing it. fetch_sample returns exactly the stored rows.", "quantifier": "all heaps, arrays, layouts, sizes, generators and run lengths", "why_tests_cant": "depends on the memory layout and element type of the argument, which look the same in Python; every layout must be covered", "anchors": ["cpp/samplers.cpp:Ising::readin_multipliers", "cpp/samplers.cpp:Sampler::fetch_sample", "coniii/samplers.py:Metropolis.__init__", "coniii/samplers.py:Metropolis.update_parameters", "coniii/samplers.py:Metropolis.generate_sample_boost", "coniii/samplers.py:Metropolis.generate_sample_parallel_boost"]}
{"id": "C111", "title": "Pseudo maximises the pseudolikelihood of the model it was given", "statement": "Pseudo fits an Ising model by its pseudolikelihood, with force_general by the general objective. For every other class except Potts3, and no functions supplied by the caller, it fits the pairwise Ising model instead: the objective depends on the first n+n(n-1)/2 parameters only and its gradient is zero in all others, so triplet interactions are never fitted. Functions supplied by the caller are used as they are, if the sample is not empty and has no entry above k-1.", "quantifier": "all sizes, samples, starting points, parameter vectors and minimisers", "why_tests_cant": "the fit returns without an error and with the right number of parameters; that the objective is flat in the higher interactions must be shown for every sample and parameter vector", "anchors": ["coniii/solvers.py:Pseudo.__init__", "coniii/solvers.py:Pseudo.solve", "coniii/solvers.py:Pseudo._solve_general", "coniii/utils.py:define_pseudo_ising_helper_functions"]}
{"id": "C112", "title": "convert_corr accepts the documented arguments and refuses all others", "statement": "convert_corr returns the converted means and correlations, as two vectors or, with concat, as one. Missing correlations raise IndexError; a basis other than '01' and '11', and unknown keywords, raise an error. Surplus correlations are accepted and come back as zeros. The deprecated keyword convertTo, which the code claims to accept with a warning, makes every call fail.", "quantifier": "all vectors, lengths, bases and keyword lists", "why_tests_cant": "the outcome must be known for every pair of lengths and every set of keywords", "anchors": ["coniii/utils.py:convert_corr"]}
{"id": "C113", "title": "Correlations and overlaps do not depend on the integer type of the data", "statement": "pair_corr, calc_overlap and the residuals that RegularizedMeanField minimises are those of the values in the arrays, for every integer type in which the number of samples (of spins for calc_overlap) can be represented; pair_corr with weights per sample, or none, for every type. Beyond that they are wrong: int8 data with 128 samples and exclude_empty has correlation -1 instead of 1, data of type bool 1/m instead of 1. Without the C++ extension the model's samples are int8, and RegularizedMeanField computes wrong residuals from every sample of the default size 1000: the averages of s_i^2 are -3/125 instead of 1.", "quantifier": "all samples, sizes, integer types, weights and options", "why_tests_cant": "depends on the element type and on the number of samples together; small test samples and 64-bit data do not overflow", "anchors": ["coniii/utils.py:pair_corr", "coniii/utils.py:calc_overlap", "coniii/mean_field_ising.py:cooccurrence_matrix", "coniii/mean_field_ising.py:isingDeltaCooc", "coniii/solvers.py:RegularizedMeanField.solve", "coniii/samplers.py:Metropolis.generate_sample_parallel_py"]}
{"id": "C114", "title": "The number of spins is read correctly from a parameter vector despite floating point", "statement": "vec2mat, the Ising and Potts3 constructors, sample_ising and squareform compute the number of spins from the length of a vector with a rounded square root. The result is that of exact arithmetic for all lengths below 2^49: n + n(n-1)/2 parameters give n, and the checks n == int(n) accept exactly the lengths of parameter vectors.", "quantifier": "all vector lengths L with 25 + 8L <= 2^52 (more than ten million spins)", "why_tests_cant": "a square root rounded up to an integer would show only for particular large lengths; a vector of such a length does not fit a test", "anchors": ["coniii/utils.py:vec2mat", "coniii/models.py:Ising.__init__", "coniii/models.py:Potts3.__init__", "coniii/samplers.py:sample_ising"]}
{"id": "C115", "title": "Maximising the pseudolikelihood of samples returns parameters near the true ones", "statement": "If the frequencies of the states in a sample are near the probabilities of an Ising model, both routines of Pseudo for that model return parameters near those of the model, whatever the guess and whichever minimiser finds the minimum; the needed distance is explicit. If the sample comes from the Python or the compiled Metropolis sampler, this happens with probability at least 1 - delta once there are enough rows, for every start, burn-in and thinning.", "quantifier": "all numbers of spins, parameters (not all zero for the sampled data), accuracies, confidences, guesses and minimisers; all samples near the model", "why_tests_cant": "a test sees single data sets and single minimisers; that the whole pipeline is consistent is a statement about all accuracies and the probability over all draws", "anchors": ["coniii/solvers.py:Pseudo._solve_ising", "coniii/solvers.py:Pseudo._solve_general", "coniii/samplers.py:Metropolis.generate_sample", "coniii/samplers.py:Metropolis.generate_sample_py"]}
{"id": "C116", "title": "Minimising the probability flow of samples returns parameters near the true ones", "statement": "If the frequencies of the states in a sample are near the probabilities of an Ising model, MPF.solve returns parameters near those of the model, whatever the guess, with and without the logarithm, and whichever minimiser finds the minimum in the box of allowed parameters, as long as that box leaves room around the true parameters; distance and room are explicit. If the sample comes from the Python or the compiled Metropolis sampler, this happens with probability at least 1 - delta once there are enough rows, for every start, burn-in and thinning.", "quantifier": "all numbers of spins, parameters (not all zero for the sampled data), accuracies, confidences, guesses, limits and minimisers; all samples near the model", "why_tests_cant": "a test sees single data sets and single minimisers; that the whole pipeline, with its two changes of basis, is consistent is a statement about all accuracies and the probability over all draws", "anchors": ["coniii/solvers.py:MPF.solve", "coniii/solvers.py:MPF.K", "coniii/solvers.py:MPF.logK", "coniii/samplers.py:Metropolis.generate_sample", "coniii/samplers.py:Metropolis.generate_sample_py"]}
{"id": "C117", "title": "Potts correlations determine the parameters up to one constant per spin", "statement": "Two Potts parameter vectors give the same probabilities of all states exactly if they have the same couplings and, for every spin, fields that differ by a constant over the states. The correlations computed by the written enumeration file are equal in exactly the same cases. So a solver that reproduces given correlations finds the true couplings and the true field differences, but it need not find the fields themselves.", "quantifier": "all numbers of spins and states, all parameter vectors", "why_tests_cant": "a test compares single parameter vectors; that no other pair of vectors is confused, and that every shift is invisible, is a statement about all of them", "anchors": ["coniii/enumerate_potts.py:write_eqns", "coniii/utils.py:define_potts_helper_functions", "coniii/solvers.py:Enumerate"]}
{"id": "C118", "title": "Potts pseudolikelihood of exact data gives back the model", "statement": "If the frequencies in the sample are the probabilities of a Potts model, the Potts pseudolikelihood is maximal exactly at the parameters with the same probabilities of all states, so Pseudo.solve returns the true couplings and the true fields up to a constant per spin, for every guess and every minimiser that finds a minimum. It need not return the fields themselves. The derivatives with respect to the fields of a spin add up to zero for all data and parameters, so a minimiser that moves along gradients returns the fields whose average per spin is that of the guess (zero by default). With the cost of a Gaussian prior every minimum has fields that average to zero. A cost function given with its Jacobian is added to the objective and to the gradient; one without a Jacobian is refused.", "quantifier": "all numbers of spins and states, parameters, samples with exact frequencies, guesses and minimisers; the gradient and prior statements for all samples", "why_tests_cant": "a test runs one minimiser on one data set; which of the equivalent vectors comes out depends on the path, and only a statement about all paths settles it", "anchors": ["coniii/solvers.py:Pseudo._solve_potts", "coniii/solvers.py:Pseudo.solve", "coniii/utils.py:define_pseudo_potts_helper_functions"]}
{"id": "C119", "title": "An initial guess given as integers", "statement": "A guess held in a float array gives the solvers described by the other properties. With the same numbers in an integer array, Pseudo.solve for Ising models minimises the negative log-likelihood of the parameters with their fractions dropped, a function that is constant between integers, so even exact data and a perfect minimiser need not give the true parameters. For Potts models the value is right, but every contribution to the gradient loses its fraction; for a single data row the gradient is zero everywhere. Pseudo for other models and MCH.solve raise TypeError whenever the float version would have given a result.", "quantifier": "all sizes, samples, guesses, parameters and minimisers; all samplers, constraints and settings for MCH", "why_tests_cant": "tests pass float guesses; how far the objective seen with an integer guess differs depends on every parameter and data set", "anchors": ["coniii/solvers.py:Pseudo._solve_ising", "coniii/solvers.py:Pseudo._solve_general", "coniii/solvers.py:Pseudo._solve_potts", "coniii/solvers.py:MCH.solve"]}
{"id": "C120", "title": "Close Potts correlations mean close parameters up to a constant per spin", "statement": "For the Potts equation files, if two parameter vectors give correlations at Euclidean distance D, then after subtracting from the fields of every spin their mean over the k states, the vectors are at distance at most k^2/(k-1) exp(2R) D, where R bounds the sums of absolute values. So when Enumerate.solve on a Potts model ends with residual norm r and the constraints are within e of the true correlations, every coupling is within k^2/(k-1) exp(2R)(r+e) of the true one and every difference of two fields of a spin within twice that.", "quantifier": "all sizes n > 2, 2 <= k <= 10, all parameter vectors, constraints and residuals", "why_tests_cant": "a test shows the error for a few models; the bound concerns all parameters and all sizes and says when a small residual is enough", "anchors": ["coniii/enumerate_potts.py:SpecificFieldGenericCouplings", "coniii/enumerate_potts.py:PythonFileWriterBase._write_correlations", "coniii/solvers.py:Enumerate.solve"]}
{"id": "C121", "title": "Sampling a three-state Potts model and fitting the sample gives the model back up to a constant per spin", "statement": "For every three-state Potts model q there is a constant C such that a sample of m rows drawn with random single-site updates, by the compiled or by the Python sampler, from any start, with any burn-in and any positive number of updates between rows, is good with probability at least 1 - delta as soon as m >= P C / (delta d^2), P being the number of parameters. For a good sample, with its averages as constraints, every parameter vector for which Enumerate.solve reports residual norm r and whose absolute values add up to at most M has couplings within 9/2 exp(2M)(r+d) of those of q and differences of fields of a spin within twice that.", "quantifier": "all sizes n > 2, all parameters, accuracies, confidences, starts, burn-ins, spacings and sample sizes; all results of the optimiser", "why_tests_cant": "a statement on the distribution of the results of random runs for all models; a test sees a few runs", "anchors": ["coniii/samplers.py:Potts3.generate_sample_py", "cpp/samplers.cpp:Sampler::generate_sample", "coniii/solvers.py:Enumerate.solve", "coniii/enumerate_potts.py:PythonFileWriterBase._write_correlations"]}
{"id": "C122", "title": "Which Potts correlations have parameters", "statement": "For a Potts model with n > 2 spins and 2 to 10 states, a vector is returned by calc_observables of the written equation file for some parameters if and only if it consists of the probabilities that spin i is in state v and that spins i and j agree, under a distribution that gives every configuration a positive probability. Data in which every configuration occurs therefore have a solution; one has fields adding up to zero for every spin and Euclidean norm at most (number of rows) n k ln k / sqrt(k-1), and the others are exactly those with the same couplings and the same differences of fields. If a spin is never seen in one of its states, or two spins agree in all rows or in none, there is no solution: every parameter vector leaves an error of at least exp(-2 R)/k^n, R the sum of the moduli of its entries, so that the function Enumerate.solve hands to the minimiser is never zero.", "quantifier": "all system sizes n > 2, numbers of states 2 to 10, data sets, constraints and parameter vectors", "why_tests_cant": "existence and non-existence over all real parameter vectors", "anchors": ["coniii/enumerate_potts.py:PythonFileWriterBase._write_correlations", "coniii/solvers.py:Enumerate.solve"]}
{"id": "C123", "title": "A parallel tempering sampler over a history of calls", "statement": "For every history of calls of update_parameters, generate_sample, generate_sample_parallel, update_replica_parameters and assignments of theta on a constructed ParallelTempering object, every call succeeds, the inverse temperatures stay the same, the stored sample has the size of the last generate_sample and valid states, and replica i runs with beta_i times the value that theta had at the last update_replica_parameters. Assigning theta, updating the replicas and sampling gives replicas, states and energies that belong to the new parameters. update_parameters(x) however changes nothing: the sampler goes on sampling the old parameters. With two replicas the inverse temperatures are never moved from 1/Tbds[1] and 1/Tbds[0].", "quantifier": "all system sizes, parameters, numbers of replicas > 1, temperature ranges, random numbers and histories of calls; energies linear in the parameters, no inverse temperature zero", "why_tests_cant": "every history of calls and every sequence of random numbers", "anchors": ["coniii/samplers.py:ParallelTempering", "coniii/samplers.py:Sampler.update_parameters", "coniii/samplers.py:ParallelTempering.update_replica_parameters", "coniii/samplers.py:ParallelTempering.generate_sample"]}
{"id": "C124", "title": "What the methods of a sampler object run", "statement": "On every Metropolis object generate_sample, generate_sample_parallel and generate_cond_sample run code of the same kind: compiled if and only if it was wanted, is available and the parameters have the size of an Ising model, otherwise Python, for which calc_e must have been given. This stays true after every sequence of update_parameters, which accepts arrays of the original size only. A Potts3 object samples with the code of Metropolis and its own single updates, but has no generate_cond_sample. No sampler of any class has the method generate_cond_samples that the solver for incomplete data calls. update_parameters and generate_sample_parallel are empty on ParallelTempering objects. SWIsing, HamiltonianMC and Heisenberg3DSampler objects cannot be made.", "quantifier": "all sampler classes, constructor arguments, system and parameter sizes, with and without the extension, and all sequences of updates", "why_tests_cant": "every combination of installation, class, arguments and history of updates; absence of a method on every object", "anchors": ["coniii/samplers.py:Metropolis.__init__", "coniii/samplers.py:Potts3.__init__", "coniii/samplers.py:Metropolis.update_parameters", "coniii/solvers.py:MCHIncompleteData.generate_sample"]}
