(** * Element types of the arrays that reach the compiled Ising energy (M_Rest) from the samplers
    and the data: MCH, SparseMCH and MPF in coniii/solvers.py. *)
From Verif Require Import Prelude M_Params M_Models M_MCH M_Front M_Rest.
Import ListNotations.
Local Open Scope R_scope.

(** np.int8 *)
Definition Int8 : dtype := OtherType 0.

(** coniii/samplers.py: the type of the array [sample] after generate_sample and
    generate_sample_parallel: .astype(int) with the extension (1225, 1356); dtype=int in
    generate_sample_py (1268), dtype=np.int8 in generate_sample_parallel_py (1410, 1426).
    int is taken as 64 bits. *)
Definition sample_type (boost parallel : bool) : aty :=
  if boost then (Int64, 2%nat) else if parallel then (Int8, 2%nat) else (Int64, 2%nat).

(** coniii/utils.py:965-974 [mch_approximation] of the Ising helpers: its first statement is
    calc_e(samples, dlamda); dlamda is an array made by np.zeros. *)
Definition typed_approximation {Smp} (t : aty) (approx : Smp -> list R -> result (list R)) (s : Smp) (dlamda : list R) : result (list R) :=
  bind define_ising_helper_functions (fun calc_e =>
  bind (numba_call calc_e [t; (Float64, 1%nat)] tt) (fun _ => approx s dlamda)).

Section Typed.
Context {Smp W : Type}.
(** As in M_MCH: the sampler, the means of the observables, the histogram prediction. *)
Variable gen : W -> list R -> nat -> result (Smp * W).
Variable mean_obs : Smp -> list R.
Variable approx : Smp -> list R -> result (list R).
(** IMPORTED_SAMPLERS_EXT; size of the system; multipliers of the model when the sampler is set up. *)
Variable ext : bool.
Variable n : nat.
Variable theta : list R.

(** coniii/models.py:112-126: the model samples with parallel=True (the solvers do not pass
    the argument). *)
Definition model_sample_type : aty := sample_type (sa_boost (metropolis_new ext n theta)) true.

(** coniii/solvers.py:1018: mch_approximation(self.model.sample, dlamda). *)
Definition mch_solve_typed := mch_solve gen mean_obs (typed_approximation model_sample_type approx).

(** coniii/solvers.py:968, 971 [estimate_jac]: likewise. *)
Definition estimate_jac_typed (s : Smp) := estimate_jac (typed_approximation model_sample_type approx s).

(** coniii/solvers.py:1313: mch_approximation(self.model.sample.astype(np.int64), ...). *)
Definition sparse_mch_solve_typed := sparse_mch_solve gen mean_obs (typed_approximation (Int64, snd model_sample_type) approx).
End Typed.

(** coniii/solvers.py:502-623: K and logK call calc_e on each distinct data state before
    anything else; the data (sample+1)//2 (689) and its rows keep the element type of the
    sample.  [objective]: K or logK as in M_MPF; [states]: number of distinct states. *)
Definition mpf_objective_typed {A} (t : dtype) (states : nat) (objective : list R -> result A) (params : list R) : result A :=
  bind define_ising_helper_functions (fun calc_e =>
  match states with
  | O => objective params
  | S _ => bind (numba_call calc_e [(t, 2%nat); (Float64, 1%nat)] tt) (fun _ => objective params)
  end).
