(** * Model of the class Pseudo in coniii/solvers.py:1649-2133.
    Observables of one spin are the rows returned by calc_observables_r.  scipy's
    minimiser is an oracle that receives the objective (value and gradient) and the
    starting point.  Not modelled here: floating point, integer valued initial guesses
    (M_IntGuess), warnings. *)
From Verif Require Import Prelude M_Index M_Params M_Energy M_Corr.
Import ListNotations.
Local Open Scope R_scope.

(** numpy [a[ix] = v]: fancy assignment; sizes must agree (a vector of size one would be
    broadcast; not modelled: Err) and indices must be in range. *)
Definition scatter (a : list R) (ix : list nat) (v : list R) : result (list R) :=
  if negb (Nat.eqb (length ix) (length v)) then Err ValueError
  else if negb (forallb (fun i => Nat.ltb i (length a)) ix) then Err IndexError
  else Ok (fold_left (fun a iv => upd a (fst iv) (snd iv)) (combine ix v) a).

(** numpy [a[ix] += v]: read, add, fancy assignment. *)
Definition scatter_add (a : list R) (ix : list nat) (v : list R) : result (list R) :=
  if negb (Nat.eqb (length ix) (length v)) then Err ValueError
  else scatter a ix (map (fun iv => nthR a (fst iv) + snd iv) (combine ix v)).

(** coniii/solvers.py:1775-1777, 1839-1843: log-likelihood of the observables of one spin
    and the vector called dloglikelihood there (which is minus the gradient). *)
Definition pl_terms (obs : list (list R)) (p : nat) (multipliers : list R) : R * list R :=
  let E := fun o => - dot o multipliers in
  (- sumf obs (fun o => ln (1 + exp (2 * E o))),
   map (fun k => sumf obs (fun o => - (1 / (1 + exp (2 * E o)) * exp (2 * E o)) * 2 * nthR o k)) (range p)).

Section Ising.
(** The functions returned by define_pseudo_ising_helper_functions(n), or those of the
    caller. *)
Variable get_multipliers_r : nat -> list R -> result (list R * list nat).
Variable calc_observables_r : nat -> list R -> list R.

(** coniii/solvers.py:1769-1778: the objective of spin r.  [guess] is the array captured
    by the closure; it is modified in place by every call, its new value is the third
    component. *)
Definition pseudo_ising_f (r : nat) (obs : list (list R)) (multipliersrix : list nat) (guess params : list R)
  : result (R * list R * list R) :=
  bind (scatter guess multipliersrix params) (fun guess =>
  bind (get_multipliers_r r guess) (fun mi =>
  let '(ll, dll) := pl_terms obs (length (fst mi)) (fst mi) in
  Ok (- ll, dll, guess))).

(** coniii/solvers.py:1755-1759: fields on the diagonal, then in each row i>=1 entries i
    and 0 are exchanged. *)
Definition initial_guess_mat (n : nat) (initial_guess : list R) : result (list (list R)) :=
  bind (squareform_vec (skipn n initial_guess)) (fun A =>
  bind (replace_diag A (firstn n initial_guess)) (fun M =>
  Ok (fold_left (fun M i =>
        let row := nth i M [] in
        let tmp := nthR row i in
        let row := upd row i (nthR row 0) in
        upd M i (upd row 0 tmp)) (range2 1 n) M))).

(** coniii/solvers.py:1781-1783: row r of Jmat from the solution of spin r. *)
Definition pseudo_row (n r : nat) (x : list R) : result (list R) :=
  if Nat.eqb (length x) n && Nat.ltb r n then
    scatter (upd (repeat 0 n) r (nthR x 0)) (filter (fun i => negb (Nat.eqb i r)) (range n)) (skipn 1 x)
  else Err ValueError.

(** coniii/solvers.py:1786-1787: symmetrised couplings, flattened. *)
Definition pseudo_assemble (n : nat) (Jmat : list (list R)) : result (list R) :=
  let J := mk_mat n n (fun i j => (entry Jmat i j + entry Jmat j i) / 2) in
  bind (zero_diag J) (fun Z =>
  bind (squareform_mat Z) (fun v => Ok (map (fun i => entry J i i) (range n) ++ v))).

(** coniii/solvers.py:1728-1791 [_solve_ising]; [nobs]: number of parameters.  The minimiser
    sees the objective with the array captured by the closure in its initial state
    (Props_Pseudo shows that the values do not depend on that state). *)
Definition solve_ising (n nobs : nat) (sample : list (list R)) (initial_guess : option (list R))
  (minimize : (list R -> result (R * list R)) -> list R -> list R) : result (list R) :=
  let guess := match initial_guess with None => repeat 0 nobs | Some g => g end in
  bind (initial_guess_mat n guess) (fun gmat =>
  bind (mapM (fun r =>
      bind (get_multipliers_r r guess) (fun mi =>
      let obs := map (calc_observables_r r) sample in
      let f := fun params => bind (pseudo_ising_f r obs (snd mi) guess params) (fun t => Ok (fst t)) in
      pseudo_row n r (minimize f (nth r gmat [])))) (range n)) (fun Jmat =>
  pseudo_assemble n Jmat)).

(** coniii/solvers.py:1831-1844: the objective of _solve_general; [m]: size of the initial
    guess. *)
Definition pseudo_general_f (n m : nat) (sample : list (list R)) (params : list R) : result (R * list R) :=
  bind (foldM (fun st r =>
      let '(ll, dll) := st in
      bind (get_multipliers_r r params) (fun mi =>
      let '(l, d) := pl_terms (map (calc_observables_r r) sample) (length (fst mi)) (fst mi) in
      bind (scatter_add dll (snd mi) d) (fun dll => Ok (ll + l, dll))))
    (range n) (0, repeat 0 m)) (fun st => Ok (- fst st, snd st)).

(** coniii/solvers.py:1793-1850 [_solve_general]. *)
Definition solve_general (n nobs : nat) (sample : list (list R)) (initial_guess : option (list R))
  (minimize : (list R -> result (R * list R)) -> list R -> list R) : list R :=
  let guess := match initial_guess with None => repeat 0 nobs | Some g => g end in
  minimize (pseudo_general_f n (length guess) sample) guess.
End Ising.

Section Potts.
Variable get_multipliers_r : nat -> list R -> result (list R * list nat).
Variable calc_observables_r : nat -> list nat -> list R * list (list R) * list nat.

(** coniii/solvers.py:1912-1916: energies of the other states minus the energy of the data,
    for one row of the data. *)
Definition potts_edelta (mult : list R) (o : list R * list (list R) * list nat) : list R :=
  map (fun oo => - dot oo mult - - dot (fst (fst o)) mult) (snd (fst o)).

(** coniii/solvers.py:1917: log-likelihood of one row. *)
Definition potts_ll (mult : list R) (o : list R * list (list R) * list nat) : R :=
  - logsumexp (map (fun e => - e) (potts_edelta mult o ++ [0])).

(** coniii/solvers.py:1929-1941: num for one field and one row; the three masks are the
    cases of the conditional. *)
Definition potts_num_field (k r hix : nat) (mult : list R) (x : list nat) (o : list R * list (list R) * list nat) : R :=
  sumf (range (k - 1)) (fun ix =>
    (if Nat.eqb (nth r x 0%nat) hix then -1
     else if negb (Nat.eqb (nth ix (snd o) 0%nat) hix) then 0 else 1) * exp (- nthR (potts_edelta mult o) ix)).

(** coniii/solvers.py:1945-1958: num for one coupling and one row. *)
Definition potts_num_coupling (k r jix : nat) (mult : list R) (x : list nat) (o : list R * list (list R) * list nat) : R :=
  sumf (range (k - 1)) (fun ix =>
    (if Nat.eqb (nth r x 0%nat) (nth jix x 0%nat) then -1
     else if Nat.eqb (nth ix (snd o) 0%nat) (nth jix x 0%nat) then 1 else 0) * exp (- nthR (potts_edelta mult o) ix)).

(** [a[i] += v] with a range check. *)
Definition add_to (a : list R) (i : nat) (v : R) : result (list R) :=
  bind (get a i) (fun y => Ok (upd a i (y + v))).

(** coniii/solvers.py:1902-1960: the objective of _solve_potts; cost and its Jacobian are
    functions of the parameters. *)
Definition pseudo_potts_f (n k m : nat) (sample : list (list nat)) (cost : list R -> R) (cost_jac : list R -> list R)
  (params : list R) : result (R * list R) :=
  bind (foldM (fun st r =>
      let '(ll, dll) := st in
      bind (get_multipliers_r r params) (fun mi =>
      let mult := fst mi in let rix := snd mi in
      let obs := fun x => calc_observables_r r x in
      let ll := ll + sumf sample (fun x => potts_ll mult (obs x)) in
      let den := fun x => - exp (- potts_ll mult (obs x)) in
      bind (foldM (fun dll hix =>
              bind (get rix hix) (fun i =>
              add_to dll i (sumf sample (fun x => potts_num_field k r hix mult x (obs x) / den x))))
            (range k) dll) (fun dll =>
      bind (foldM (fun dll ij =>
              bind (get rix (fst ij + k)) (fun i =>
              add_to dll i (sumf sample (fun x => potts_num_coupling k r (snd ij) mult x (obs x) / den x))))
            (combine (range (n - 1)) (filter (fun j => negb (Nat.eqb j r)) (range n))) dll) (fun dll =>
      Ok (ll, dll)))))
    (range n) (0, repeat 0 m)) (fun st =>
  Ok (- fst st + cost params, map (fun i => - nthR (snd st) i + nthR (cost_jac params) i) (range m))).
End Potts.
