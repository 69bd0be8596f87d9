(** * Property theorems C109: which samples the solvers can use with the compiled energy. *)
From Verif Require Import Prelude M_Params M_Models M_MCH M_MPF M_Corr M_Front M_Rest M_Types.
Import ListNotations.
Local Open Scope R_scope.

(** With the C++ extension, and an Ising model, the types are right: MCH.solve does
    what it does when types are disregarded (to which C39 and C97 apply). *)
Theorem C109_compiled_sampler : forall Smp W gen mean_obs approx n theta c0 guess constraints tol tolNorm maxiter c kw size w,
  length theta = (n * (n - 1) / 2 + n)%nat ->
  @mch_solve_typed Smp W gen mean_obs approx true n theta c0 guess constraints tol tolNorm maxiter c kw size w =
  mch_solve gen mean_obs approx c0 guess constraints tol tolNorm maxiter c kw size w.
Proof.
  intros. unfold mch_solve_typed, model_sample_type, metropolis_new. cbn [sa_boost]. rewrite H, Nat.eqb_refl. reflexivity.
Qed.
Print Assumptions C109_compiled_sampler.

(** SparseMCH.solve converts the sample; the types are right with both implementations of
    the sampler. *)
Theorem C109_sparse : forall Smp W gen mean_obs approx ext n theta pix iix sv guess constraints tol tolNorm maxiter c kw size w,
  @sparse_mch_solve_typed Smp W gen mean_obs approx ext n theta pix iix sv guess constraints tol tolNorm maxiter c kw size w =
  sparse_mch_solve gen mean_obs approx pix iix sv guess constraints tol tolNorm maxiter c kw size w.
Proof.
  intros. unfold sparse_mch_solve_typed, model_sample_type, sample_type.
  destruct (sa_boost (metropolis_new ext n theta)); reflexivity.
Qed.
Print Assumptions C109_sparse.

Lemma typed_error {Smp} t (approx : Smp -> list R -> result (list R)) s d : t <> (Int64, 2%nat) -> typed_approximation t approx s d = Err TypeError.
Proof.
  intros H. unfold typed_approximation, define_ising_helper_functions, numba_call. cbn [bind].
  destruct t as [[| |k] m]; cbn [types_eqb calc_e_signature dtype_eqb fst snd]; cbn [andb bind]; try reflexivity.
  destruct (Nat.eqb_spec 2 m) as [<-|]; [congruence|reflexivity].
Qed.

(** MCH.solve should work with the pure Python sampler, to which a model falls back when the
    extension is not installed.  It raises TypeError for all data, guesses and settings, right after the
    first sample: parallel sampling returns 8-bit integers, and mch_approximation needs
    64-bit integers.  (The hypotheses say that this first sample is drawn and its observables
    have the right number, and that the settings name eta, as the defaults do.) *)
Theorem C109_python_sampler_refuted : forall Smp W gen mean_obs approx n theta guess constraints tol tolNorm maxiter c kw size w s w',
  let start := match guess with Some g => g | None => repeat 0 (length constraints) end in
  length start = length constraints -> kw_eta (fst (conv_at c kw size 0)) <> None ->
  gen w start size = Ok (s, w') -> length (mean_obs s) = length constraints ->
  @mch_solve_typed Smp W gen mean_obs approx false n theta None guess (Some constraints) tol tolNorm maxiter c kw size w = Err TypeError /\
  @mch_solve_typed Smp W gen mean_obs approx false n theta (Some constraints) guess None tol tolNorm maxiter c kw size w = Err TypeError.
Proof.
  intros Smp W gen mean_obs approx n theta guess constraints tol tolNorm maxiter c kw size w s w' start Ls He Hg Lm.
  assert (Q : mch_run gen (fun s => Ok (mean_obs s)) (typed_approximation (model_sample_type false n theta) approx) Ok true start constraints tol tolNorm maxiter c kw size w = Err TypeError).
  { unfold mch_run. destruct (kw_eta _) as [eta|]; [|congruence]. rewrite Hg. cbn [bind fst snd]. unfold vsub at 1. rewrite Lm, Nat.eqb_refl. cbn [bind mch_loop].
    unfold learn_parameters_mch. cbn [learn_loop]. unfold vsub at 1. rewrite Lm, Nat.eqb_refl. cbn [bind].
    unfold viadd at 1. rewrite !map_length, combine_length, repeat_length, Lm, Nat.min_id, Nat.eqb_refl. cbn [bind].
    rewrite typed_error by (unfold model_sample_type, metropolis_new, sample_type; cbn; discriminate). reflexivity. }
  unfold mch_solve_typed, mch_solve. split; unfold start in *; destruct guess as [g|]; cbn [bind]; try exact Q; rewrite Ls, Nat.eqb_refl; exact Q.
Qed.
Print Assumptions C109_python_sampler_refuted.

(** So does estimate_jac, for every sample and at least one parameter. *)
Theorem C109_python_jacobian_refuted : forall Smp approx n theta s p eps, (0 < p)%nat ->
  @estimate_jac_typed Smp approx false n theta s p eps = Err TypeError.
Proof.
  intros Smp approx n theta s [|p] eps H; [lia|]. unfold estimate_jac_typed, estimate_jac, range. cbn [seq foldM].
  rewrite typed_error by (unfold model_sample_type, metropolis_new, sample_type; cbn; discriminate). reflexivity.
Qed.
Print Assumptions C109_python_jacobian_refuted.

(** MPF needs data stored as 64-bit integers: then the objective is the one of C37, for any
    other element type (floats or 8-bit integers) and any nonempty data it raises TypeError. *)
Theorem C109_mpf_data : forall calc_e calc_de Xuniq Xcount adjacentStates params t, Xuniq <> [] ->
  let K := mpf_K calc_e calc_de Xuniq Xcount adjacentStates in let logK := mpf_logK calc_e calc_de Xuniq Xcount adjacentStates in
  (t = Int64 -> mpf_objective_typed t (length Xuniq) K params = K params /\ mpf_objective_typed t (length Xuniq) logK params = logK params) /\
  (t <> Int64 -> mpf_objective_typed t (length Xuniq) K params = Err TypeError /\ mpf_objective_typed t (length Xuniq) logK params = Err TypeError).
Proof.
  intros calc_e calc_de Xuniq Xcount adjs params t Hx K logK. unfold mpf_objective_typed, define_ising_helper_functions, numba_call. cbn [bind].
  destruct Xuniq as [|x X]; [congruence|]. cbn [length]. split; [intros ->; split; reflexivity|].
  intros Ht. destruct t; [congruence| |]; split; reflexivity.
Qed.
Print Assumptions C109_mpf_data.

(** A sampler that always returns one sample with means 0: the hypotheses hold with the default settings. *)
Example C109_example : forall (approx : unit -> list R -> result (list R)) theta,
  mch_solve_typed (fun w _ _ => Ok (tt, w)) (fun _ => [0; 0; 0]) approx false 2 theta (Some [/ 2; / 2; / 4]) None None None None 10 ConvNone
    {| kw_maxdlamda := Some 1; kw_maxdlamdaNorm := None; kw_maxLearningSteps := None; kw_eta := Some 1 |} 1000 tt = Err TypeError.
Proof.
  intros. eapply (C109_python_sampler_refuted unit unit (fun w _ _ => Ok (tt, w))); try reflexivity. discriminate.
Qed.
Print Assumptions C109_example.
