(** * Initial guesses given as integer arrays: Pseudo and MCH (coniii/solvers.py).
    numpy keeps the element type of an array when elements are assigned; a float stored in an
    integer array loses its fraction, and += of a float array raises UFuncTypeError, a
    TypeError.  scipy's minimiser makes its starting point a float array, so the objective
    receives floats.  The range of the integer type is taken as unlimited. *)
From Coq Require Import R_Ifp.
From Verif Require Import Prelude M_Index M_Params M_Energy M_Corr M_Pseudo M_PottsSolve M_MCH.
Import ListNotations.
Local Open Scope R_scope.

(** Element type of initial_guess. *)
Inductive guess_type := FloatGuess | IntGuess.

(** The float-to-integer cast of C: the fraction is dropped, towards zero. *)
Definition cut (x : R) : R := if Rle_dec 0 x then IZR (Int_part x) else - IZR (Int_part (- x)).

(** The value found in an array element after [x] was assigned to it. *)
Definition store (t : guess_type) (x : R) : R := match t with FloatGuess => x | IntGuess => cut x end.

Section Ising.
Variable t : guess_type.
Variable get_multipliers_r : nat -> list R -> result (list R * list nat).
Variable calc_observables_r : nat -> list R -> list R.

(** coniii/solvers.py:1769-1778: [guess] is a copy of initial_guess and has its type; line 1773
    assigns the parameters to it. *)
Definition pseudo_ising_f_typed (r : nat) (obs : list (list R)) (multipliersrix : list nat) (guess params : list R)
  : result (R * list R * list R) :=
  bind (scatter guess multipliersrix (map (store t) params)) (fun guess =>
  bind (get_multipliers_r r guess) (fun mi =>
  let '(ll, dll) := pl_terms obs (length (fst mi)) (fst mi) in
  Ok (- ll, dll, guess))).

(** coniii/solvers.py:1728-1791 [_solve_ising] with a guess of type [t]; the matrix of starting
    points (1755-1759) holds sums and copies of the guess, Jmat (1763) is a float array. *)
Definition solve_ising_typed (n : nat) (sample : list (list R)) (guess : list R)
  (minimize : (list R -> result (R * list R)) -> list R -> list R) : result (list R) :=
  bind (initial_guess_mat n guess) (fun gmat =>
  bind (mapM (fun r =>
      bind (get_multipliers_r r guess) (fun mi =>
      let obs := map (calc_observables_r r) sample in
      let f := fun params => bind (pseudo_ising_f_typed r obs (snd mi) guess params) (fun u => Ok (fst u)) in
      pseudo_row n r (minimize f (nth r gmat [])))) (range n)) (fun Jmat =>
  pseudo_assemble n Jmat)).

(** [a[ix] += v] for an array of type [t] and a float vector. *)
Definition scatter_add_typed (a : list R) (ix : list nat) (v : list R) : result (list R) :=
  match t with FloatGuess => scatter_add a ix v | IntGuess => Err TypeError end.

(** coniii/solvers.py:1832-1844: the objective of _solve_general; dloglikelihood has the type of
    the guess (1834). *)
Definition pseudo_general_f_typed (n m : nat) (sample : list (list R)) (params : list R) : result (R * list R) :=
  bind (foldM (fun st r =>
      let '(ll, dll) := st in
      bind (get_multipliers_r r params) (fun mi =>
      let '(l, d) := pl_terms (map (calc_observables_r r) sample) (length (fst mi)) (fst mi) in
      bind (scatter_add_typed dll (snd mi) d) (fun dll => Ok (ll + l, dll))))
    (range n) (0, repeat 0 m)) (fun st => Ok (- fst st, snd st)).
End Ising.

Section Potts.
Variable t : guess_type.
Variable get_multipliers_r : nat -> list R -> result (list R * list nat).
Variable calc_observables_r : nat -> list nat -> list R * list (list R) * list nat.

(** [a[i] += v] for one element and a float: the sum is a float, which is then assigned. *)
Definition add_to_typed (a : list R) (i : nat) (v : R) : result (list R) :=
  bind (get a i) (fun y => Ok (upd a i (store t (y + v)))).

(** coniii/solvers.py:1902-1960: the objective of _solve_potts; dloglikelihood has the type of
    the guess (1905), the elements are added to one by one (1942, 1959). *)
Definition pseudo_potts_f_typed (n k m : nat) (sample : list (list nat)) (cost : list R -> R) (cost_jac : list R -> list R)
  (params : list R) : result (R * list R) :=
  bind (foldM (fun st r =>
      let '(ll, dll) := st in
      bind (get_multipliers_r r params) (fun mi =>
      let mult := fst mi in let rix := snd mi in
      let obs := fun x => calc_observables_r r x in
      let ll := ll + sumf sample (fun x => potts_ll mult (obs x)) in
      let den := fun x => - exp (- potts_ll mult (obs x)) in
      bind (foldM (fun dll hix =>
              bind (get rix hix) (fun i =>
              add_to_typed dll i (sumf sample (fun x => potts_num_field k r hix mult x (obs x) / den x))))
            (range k) dll) (fun dll =>
      bind (foldM (fun dll ij =>
              bind (get rix (fst ij + k)) (fun i =>
              add_to_typed dll i (sumf sample (fun x => potts_num_coupling k r (snd ij) mult x (obs x) / den x))))
            (combine (range (n - 1)) (filter (fun j => negb (Nat.eqb j r)) (range n))) dll) (fun dll =>
      Ok (ll, dll)))))
    (range n) (0, repeat 0 m)) (fun st =>
  Ok (- fst st + cost params, map (fun i => - nthR (snd st) i + nthR (cost_jac params) i) (range m))).
End Potts.

(** coniii/solvers.py:1030, 1326: [self._multipliers += ...] at the end of learn_parameters_mch.
    _multipliers is a copy of initial_guess (874), or fill_in of it (1204), and has its type;
    the vector added is a float array.  The error is raised where the vector is made, which is
    the step before. *)
Definition embed_typed (t : guess_type) (embed : list R -> result (list R)) (d : list R) : result (list R) :=
  match t with FloatGuess => embed d | IntGuess => bind (embed d) (fun _ => Err TypeError) end.

(** coniii/solvers.py:787-947 [MCH.solve] with a guess of type [t]. *)
Definition mch_solve_typed {Smp W : Type} (t : guess_type) (gen : W -> list R -> nat -> result (Smp * W)) (mean_obs : Smp -> list R)
  (approx : Smp -> list R -> result (list R)) (guess constraints : list R) (tol tolNorm : option R) (maxiter : nat)
  (c : conv) (kw : learn_kw) (size : nat) (w : W) : result (list R * nat * list (list R)) :=
  if Nat.eqb (length guess) (length constraints)
  then mch_run gen (fun s => Ok (mean_obs s)) approx (embed_typed t Ok) true guess constraints tol tolNorm maxiter c kw size w
  else Err AssertionError.
