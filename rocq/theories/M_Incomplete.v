(** * Model of the Monte Carlo histogram solver for incomplete data,
    coniii/solvers.py:1332-1645 [MCHIncompleteData].  Data rows hold -1, 1 and 0 for an
    unobserved spin. *)
From Verif Require Import Prelude M_Corr M_Params M_Models M_MCH.
Import ListNotations.
Local Open Scope R_scope.

(** coniii/solvers.py:1431: [(X==0).any(1)] of one row. *)
Definition incomplete (row : list Z) : bool := existsb (Z.eqb 0) row.
(** coniii/solvers.py:1431-1436: the distinct incomplete rows, how often each occurs, and
    the fraction of complete rows.  [lt]: the order of numpy's unique (see [unique_rows]). *)
Definition inc_rows (X : list (list Z)) : list (list Z) := filter incomplete X.
Definition inc_states lt (X : list (list Z)) : list (list Z) :=
  map (fun i => nth i (inc_rows X) []) (unique_rows lt (inc_rows X)).
Definition inc_counts lt (X : list (list Z)) : list nat := bincount (unique_rows_inverse lt (inc_rows X)).
Definition full_fraction (X : list (list Z)) : R := (INR (length X) - INR (length (inc_rows X))) / INR (length X).

Section Estimate.
Context {Smp : Type}.
(** self.mch_approximation *)
Variable approx : Smp -> list R -> result (list R).

(** coniii/solvers.py:1541-1554: the prediction for changed parameters. *)
Definition inc_estimate (fullFraction : R) (counts : list nat) (samples : Smp) (condSamples : list Smp) (dlamda : list R)
  : result (list R) :=
  bind (if Rltb 0 fullFraction
        then bind (approx samples dlamda) (fun e => Ok (map (fun x => x * fullFraction) e))
        else Ok (repeat 0 (length dlamda))) (fun est =>
  foldM (fun est (is : nat * Smp) =>
      bind (get counts (fst is)) (fun ci =>
      bind (approx (snd is) dlamda) (fun e =>
      viadd est (map (fun x => (1 - fullFraction) * (INR ci / INR (sumN counts)) * x) e))))
    (combine (range (length condSamples)) condSamples) est).

(** coniii/solvers.py:1490-1567 [learn_parameters_mch]: the loop and the defaults are those
    of MCH, the prediction is the one above. *)
Definition inc_learn (fullFraction : R) (counts : list nat) (samples : Smp) (condSamples : list Smp)
  (multipliers estConstraints constraints : list R) (kw : learn_kw) : result (list R * list R) :=
  learn_parameters_mch (inc_estimate fullFraction counts samples condSamples) Ok multipliers estConstraints constraints kw.
End Estimate.

(** cond_sample_size and cond_sample_iters: an int, a function or something else. *)
Inductive int_or_fun := AnInt (k : Z) | AFunction (f : Z -> Z) | SomethingElse.
Definition bound (a : int_or_fun) : bool := match a with SomethingElse => false | _ => true end.

(** coniii/solvers.py:1569-1600 [generate_sample]: reads self.sampler first; neither this
    class nor MCH nor Solver ever sets the attribute (the sampler belongs to self.model). *)
Definition inc_generate_sample : result unit := Err AttributeError.

(** coniii/solvers.py:1351-1488 [solve], as far as it gets. *)
Definition inc_solve (X : option (list (list Z))) (constraints initial_guess : option (list R)) (cond_sample_size cond_sample_iters : int_or_fun)
  : result (list R) :=
  match X, constraints with
  | Some X, Some constraints =>
    bind (match initial_guess with
          | Some g => if Nat.eqb (length g) (length constraints) then Ok g else Err AssertionError
          | None => Ok (repeat 0 (length constraints))
          end) (fun multipliers =>
    if bound cond_sample_size && bound cond_sample_iters then bind inc_generate_sample (fun _ => Ok multipliers)
    else Err UnboundLocalError)
  | _, _ => Err AssertionError
  end.
