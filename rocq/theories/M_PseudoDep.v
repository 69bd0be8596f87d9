(** * Model of the deprecated pseudolikelihood solver: coniii/solvers.py:1975-2132
    ([Pseudo._solve_ising_deprecated] and its helpers) and
    coniii/pseudo_inverse_ising.py:40-222.
    Data matrices are lists of rows (one row per sample, all of the same length; ragged
    data is not modelled); the self.n of the class is the number of columns. *)
From Verif Require Import Prelude M_Params.
Import ListNotations.
Local Open Scope R_scope.

(** coniii/solvers.py:2044, 2063, 2090: sigmaRtilde of one sample. *)
Definition sigma_tilde (r : nat) (x : list R) : R := 2 * nthR x r - 1.
(** coniii/solvers.py:2045-2046: the row of samplesRhat belonging to one sample. *)
Definition rhat (r : nat) (x : list R) : list R := upd (map (fun v => 2 * v) x) r 1.
(** coniii/solvers.py:2047-2048: localFields and energies. *)
Definition dep_energy (r : nat) (x Jr : list R) : R := sigma_tilde r x * dot Jr (rhat r x).

(** The array operations fail on wrong shapes: X[:,r] (IndexError) and np.dot
    (ValueError). *)
Definition dep_shapes (r : nat) (X : list (list R)) (Jr : list R) : result unit :=
  match X with
  | [] => Err IndexError
  | x :: _ => if negb (Nat.ltb r (length x)) then Err IndexError
              else if negb (Nat.eqb (length Jr) (length x)) then Err ValueError else Ok tt
  end.

(** coniii/solvers.py:2023-2053 [Pseudo.cond_log_likelihood]. *)
Definition cond_log_likelihood (r : nat) (X : list (list R)) (Jr : list R) : result R :=
  bind (dep_shapes r X Jr) (fun _ =>
  Ok (- sumf X (fun x => ln (1 + exp (dep_energy r x Jr))))).

(** coniii/solvers.py:2055-2071 [Pseudo.cond_jac]. *)
Definition cond_jac (r : nat) (X : list (list R)) (Jr : list R) : result (list R) :=
  bind (dep_shapes r X Jr) (fun _ =>
  Ok (map (fun i => sumf X (fun x => sigma_tilde r x * nthR (rhat r x) i * (1 / (1 + exp (- dep_energy r x Jr)))))
          (range (length Jr)))).

(** coniii/solvers.py:2104-2116 [Pseudo.pair_cooc_mat], the outer products before the
    transposition, which only moves the sample axis to where np.dot sums over it. *)
Definition pair_cooc_mat (X : list (list R)) : list (list (list R)) :=
  map (fun f => mk_mat (length f) (length f) (fun i j => nthR f i * nthR f j)) X.

(** coniii/solvers.py:2073-2102 [Pseudo.cond_hess]. *)
Definition cond_hess (r : nat) (X : list (list R)) (Jr : list R) (pairCoocRhat : option (list (list (list R))))
  : result (list (list R)) :=
  bind (dep_shapes r X Jr) (fun _ =>
  let pc := match pairCoocRhat with Some p => p | None => pair_cooc_mat (map (rhat r) X) end in
  if negb (Nat.eqb (length pc) (length X)) then Err ValueError
  else Ok (mk_mat (length Jr) (length Jr) (fun i j =>
         sumf (combine X pc) (fun xp =>
           exp (- dep_energy r (fst xp) Jr) / (1 + exp (- dep_energy r (fst xp) Jr)) ^ 2 * entry (snd xp) i j)))).

(** coniii/solvers.py:2118-2132 [Pseudo.pseudo_log_likelihood]: the helper is named
    without its class, and no function of that name exists in the module. *)
Definition pseudo_log_likelihood (X J : list (list R)) : result R :=
  match J with [] => Ok 0 | _ => Err NameError end.

(** coniii/solvers.py:1994-1995 and pseudo_inverse_ising.py:51-52: start at the
    independent model (frequencies 0 and 1 give infinities in numpy, which are not
    modelled). *)
Definition dep_start (r : nat) (X : list (list R)) : list R :=
  let n := length (nth 0 X []) in
  let f := sumf X (fun x => nthR x r) / INR (length X) in
  upd (repeat 0 n) r (- ln (f / (1 - f))).

(** The data the Hessian is given by the solvers (coniii/solvers.py:2002-2005,
    pseudo_inverse_ising.py:64-67): column r replaced by ones, but the other columns not
    doubled. *)
Definition dep_pc (r : nat) (X : list (list R)) : list (list (list R)) := pair_cooc_mat (map (fun x => upd x r 1) X).

(** scipy.optimize.fmin_ncg as an oracle: objective, start, gradient, Hessian. *)
Definition ncg_oracle := (list R -> result R) -> list R -> (list R -> result (list R)) -> (list R -> result (list (list R))) -> result (list R).

(** coniii/solvers.py:1998-2012: one call of the minimiser per spin. *)
Definition dep_rows (fmin_ncg : ncg_oracle) (X : list (list R)) : result (list (list R)) :=
  mapM (fun r =>
    fmin_ncg (fun Jr => bind (cond_log_likelihood r X Jr) (fun l => Ok (- l))) (dep_start r X)
             (cond_jac r X) (fun Jr => cond_hess r X Jr (Some (dep_pc r X))))
    (range (length (nth 0 X []))).

(** coniii/solvers.py:1975-2021 [_solve_ising_deprecated]; [n] is self.n. *)
Definition solve_ising_deprecated (fmin_ncg : ncg_oracle) (sample : list (list R)) : result (list R) :=
  let X := map (map (fun v => (v + 1) / 2)) sample in
  let n := length (nth 0 X []) in
  bind (dep_rows fmin_ncg X) (fun J =>
  let J2 := mk_mat n n (fun i j => - / 2 * (entry J i j + entry J j i)) in
  let h := map (fun i => entry J2 i i) (range n) in
  bind (zero_diag J2) (fun Z =>
  bind (squareform_mat Z) (fun v =>
  bind (convert_params h (map (fun x => x * 2) v) To11) (fun p => Ok (fst p ++ snd p))))).

(** ** coniii/pseudo_inverse_ising.py *)
(** filterVec (lines 107, 129, 161) of one sample. *)
Definition filter_vec (r : nat) (minSize : R) (x : list R) : R :=
  1 - nthR x r * (if Rle_dec (sumR x) minSize then 1 else 0).

(** coniii/pseudo_inverse_ising.py:89-112 [conditionalLogLikelihood], Jr a vector. *)
Definition conditionalLogLikelihood (r : nat) (X : list (list R)) (Jr : list R) (minSize : R) : result R :=
  bind (dep_shapes r X Jr) (fun _ =>
  Ok (sumf X (fun x => - filter_vec r minSize x * ln (1 + exp (dep_energy r x Jr))))).

(** The same function given a matrix (as [pseudoLogLikelihood] does): np.dot gives one
    row of local fields per row of the matrix, and the final sum runs over all rows. *)
Definition conditionalLogLikelihood_mat (r : nat) (X J : list (list R)) (minSize : R) : result R :=
  bind (mapM (fun Jk => conditionalLogLikelihood r X Jk minSize) J) (fun l => Ok (sumR l)).

(** coniii/pseudo_inverse_ising.py:114-133 [conditionalJacobian]. *)
Definition conditionalJacobian (r : nat) (X : list (list R)) (Jr : list R) (minSize : R) : result (list R) :=
  bind (dep_shapes r X Jr) (fun _ =>
  Ok (map (fun i => sumf X (fun x => sigma_tilde r x * nthR (rhat r x) i * (filter_vec r minSize x * 1 / (1 + exp (- dep_energy r x Jr)))))
          (range (length Jr)))).

(** coniii/pseudo_inverse_ising.py:135-168 [conditionalHessian]. *)
Definition conditionalHessian (r : nat) (X : list (list R)) (Jr : list R) (minSize : R) (pairCoocRhat : option (list (list (list R))))
  : result (list (list R)) :=
  bind (dep_shapes r X Jr) (fun _ =>
  let pc := match pairCoocRhat with Some p => p | None => pair_cooc_mat (map (rhat r) X) end in
  if negb (Nat.eqb (length pc) (length X)) then Err ValueError
  else Ok (mk_mat (length Jr) (length Jr) (fun i j =>
         sumf (combine X pc) (fun xp =>
           filter_vec r minSize (fst xp)
           * (exp (- dep_energy r (fst xp) Jr) / (1 + exp (- dep_energy r (fst xp) Jr)) ^ 2) * entry (snd xp) i j)))).

(** coniii/pseudo_inverse_ising.py:212-222 [pseudoLogLikelihood]. *)
Definition pseudoLogLikelihood (X J : list (list R)) (minSize : R) : result R :=
  bind (mapM (fun r => conditionalLogLikelihood_mat r X J minSize) (range (length J))) (fun l => Ok (sumR l)).

(** coniii/pseudo_inverse_ising.py:40-85 [pseudoInverseIsing]. *)
Definition pseudoInverseIsing (fmin_ncg : ncg_oracle) (samples : list (list R)) (minSize : R) : result (list (list R)) :=
  let data := filter (fun f => if Rle_dec minSize (sumR f) then true else false) samples in
  match data with
  | [] => Err IndexError
  | x0 :: _ =>
    let ell := length x0 in
    bind (mapM (fun r =>
      fmin_ncg (fun Jr => bind (conditionalLogLikelihood r data Jr minSize) (fun l => Ok (- l))) (dep_start r data)
               (fun Jr => conditionalJacobian r data Jr minSize)
               (fun Jr => conditionalHessian r data Jr minSize (Some (dep_pc r data)))) (range ell)) (fun J =>
    Ok (mk_mat ell ell (fun i j => / 2 * (entry J i j + entry J j i))))
  end.
