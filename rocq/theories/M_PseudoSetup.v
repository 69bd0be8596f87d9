(** * Constructor and dispatch of the class Pseudo: coniii/solvers.py:1654-1726. *)
From Verif Require Import Prelude M_Index M_Params M_Energy M_Corr M_Pseudo.
Import ListNotations.
Local Open Scope R_scope.

(** [type(self.model)]: Ising, Potts3, any other class (Triplet for instance). *)
Inductive model_class := ClsIsing | ClsPotts3 | ClsOther.

Definition helper_pair : Type := (nat -> list R -> result (list R * list nat)) * (nat -> list R -> list R).

(** coniii/solvers.py:1693-1698 [Pseudo.__init__]: unless both functions are given, those of the
    Ising model are used, whatever the model; otherwise no entry of the sample may exceed k-1
    (the maximum of no entries raises ValueError). *)
Definition pseudo_helpers (n k : nat) (get_r : option (nat -> list R -> result (list R * list nat)))
  (obs_r : option (nat -> list R -> list R)) (sample : list (list R)) : result helper_pair :=
  match get_r, obs_r with
  | Some g, Some o =>
    match concat sample with
    | [] => Err ValueError
    | xs => if forallb (fun x => if Rle_dec x (INR k - 1) then true else false) xs then Ok (g, o) else Err AssertionError
    end
  | _, _ => Ok (pseudo_ising_get_multipliers_r n, pseudo_ising_calc_observables_r n)
  end.

(** coniii/solvers.py:1700-1726 [Pseudo.solve]; [nobs]: number of observables of the model;
    [solve_potts]: result of _solve_potts. *)
Definition pseudo_solve (cls : model_class) (force_general : bool) (hp : helper_pair) (solve_potts : result (list R))
  (n nobs : nat) (sample : list (list R)) (initial_guess : option (list R))
  (minimize : (list R -> result (R * list R)) -> list R -> list R) : result (list R) :=
  match cls, force_general with
  | ClsIsing, false => solve_ising (fst hp) (snd hp) n nobs sample initial_guess minimize
  | ClsPotts3, _ => solve_potts
  | _, _ => Ok (solve_general (fst hp) (snd hp) n nobs sample initial_guess minimize)
  end.
