(** * Model of Pseudo._solve_potts as a whole (coniii/solvers.py:1852-1974).
    scipy's minimiser is an oracle that receives the objective (value and gradient) and the
    starting point.  Not modelled: full_output, solver_kwargs, and the warning about a bad
    Jacobian of the cost function (1898-1900), which changes nothing. *)
From Verif Require Import Prelude M_Pseudo.
Import ListNotations.
Local Open Scope R_scope.

(** coniii/solvers.py:1852-1974 [_solve_potts]; [nobs]: the number of observables of one row
    (line 1884, which reads the first row of the sample).  [cost]: cost_fcn with cost_fcn_jac;
    without a cost function both are the constant 0, added to a vector as zeros. *)
Definition solve_potts (get_multipliers_r : nat -> list R -> result (list R * list nat))
  (calc_observables_r : nat -> list nat -> list R * list (list R) * list nat) (n k nobs : nat) (sample : list (list nat))
  (initial_guess : option (list R)) (cost : option ((list R -> R) * option (list R -> list R)))
  (minimize : (list R -> result (R * list R)) -> list R -> list R) : result (list R) :=
  bind (match initial_guess, sample with
        | Some g, _ => Ok g
        | None, [] => Err IndexError
        | None, _ => Ok (repeat 0 nobs)
        end) (fun guess =>
  bind (match cost with
        | None => Ok (fun _ => 0, fun _ => [])
        | Some (c, Some j) => Ok (c, j)
        | Some (_, None) => Err AssertionError
        end) (fun cj =>
  Ok (minimize (pseudo_potts_f get_multipliers_r calc_observables_r n k (length guess) sample (fst cj) (snd cj)) guess))).
