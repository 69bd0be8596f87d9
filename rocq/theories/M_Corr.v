(** * Model of the correlation and counting functions of coniii/utils.py.
    Data matrices are lists of integer rows with an explicit number of columns. *)
From Verif Require Import Prelude M_Index M_Energy M_Params.
Import ListNotations.
Local Open Scope R_scope.

(** Element (row, column) of a data row. *)
Definition xat (row : list Z) (i : nat) : Z := nth i row 0%Z.

(** coniii/utils.py:152, 238: [assert frozenset(np.unique(X))<=frozenset([-1,0,1])]. *)
Definition spins_ok (X : list (list Z)) : bool :=
  forallb (forallb (fun x => Z.eqb x (-1) || Z.eqb x 0 || Z.eqb x 1)) X.

(** The [weights] argument of pair_corr. *)
Inductive weights_arg :=
| WNone | WArray (w : list R) | WTuple (w1 w2 : list R) | WScalar (c : R).

(** coniii/utils.py:156-173: the resolved weights, per row or per observable. *)
Inductive weights_res := PerRow (w : list R) | PerObs (w1 w2 : list R).

(** [(X!=0).sum(0)[i]]. *)
Definition nonzero_count (X : list (list Z)) (i : nat) : nat :=
  length (filter (fun r => negb (Z.eqb (xat r i) 0)) X).

(** [(X!=0).astype(int).T.dot(X!=0)[i,j]]: the right operand is boolean, the product
    of an int and a bool array is an int array. *)
Definition nonzero_count2 (X : list (list Z)) (i j : nat) : nat :=
  length (filter (fun r => negb (Z.eqb (xat r i) 0) && negb (Z.eqb (xat r j) 0)) X).

Definition resolve_weights (X : list (list Z)) (N : nat) (weights : weights_arg)
  (exclude_empty laplace_count : bool) : result weights_res :=
  if exclude_empty && negb laplace_count then
    Ok (PerObs (map (fun i => 1 / INR (nonzero_count X i)) (range N))
               (map (fun p => 1 / INR (nonzero_count2 X (fst p) (snd p))) (loop_ij N)))
  else if exclude_empty && laplace_count then
    Ok (PerObs (map (fun i => 1 / INR (nonzero_count X i + 2)) (range N))
               (map (fun p => 1 / INR (nonzero_count2 X (fst p) (snd p) + 4)) (loop_ij N)))
  else match weights with
  | WNone => Ok (PerRow (map (fun _ => 1 / INR (length X)) X))
  | WTuple w1 w2 =>
    if negb (Nat.eqb (length w1) N) then Err AssertionError
    else if negb (Nat.eqb (length w2) (N * (N - 1) / 2)) then Err AssertionError
    else Ok (PerObs w1 w2)
  | WArray w => if negb (Nat.eqb (length w) (length X)) then Err AssertionError else Ok (PerRow w)
  | WScalar c => Ok (PerRow (map (fun _ => 0 + c) X))
  end.

(** coniii/utils.py:118-185 [pair_corr] without concat: (si, sisj).  [N] is
    X.shape[1]; the upper triangle [np.triu_indices(N,k=1)] is read row-major. *)
Definition pair_corr (X : list (list Z)) (N : nat) (weights : weights_arg)
  (exclude_empty subtract_mean laplace_count : bool) : result (list R * list R) :=
  if negb (spins_ok X) then Err AssertionError
  else
  bind (resolve_weights X N weights exclude_empty laplace_count) (fun w =>
  let '(si, sisj) :=
    match w with
    | PerObs w1 w2 =>
      (map (fun i => sumf X (fun r => IZR (xat r i)) * nthR w1 i) (range N),
       map (fun kp => let '(k, p) := kp in
              sumf X (fun r => IZR (xat r (fst p)) * IZR (xat r (snd p))) * nthR w2 k)
           (combine (range (length (loop_ij N))) (loop_ij N)))
    | PerRow w =>
      (map (fun i => sumf (combine X w) (fun rw => IZR (xat (fst rw) i) * snd rw)) (range N),
       map (fun p => sumf (combine X w) (fun rw =>
              IZR (xat (fst rw) (fst p)) * (IZR (xat (fst rw) (snd p)) * snd rw))) (loop_ij N))
    end in
  let sisj := if subtract_mean then
      map (fun kp => let '(k, p) := kp in nthR sisj k - nthR si (fst p) * nthR si (snd p))
          (combine (range (length (loop_ij N))) (loop_ij N))
    else sisj in
  Ok (si, sisj)).

(** [np.prod(X[:,ijk],axis=1)] of one row. *)
Definition row_prod (r : list Z) (ijk : list nat) : Z := fold_right Z.mul 1%Z (map (xat r) ijk).

(** coniii/utils.py:213-251 [k_corr].  The first loop (exclude_empty) writes kcorr,
    the second loop overwrites every entry. *)
Definition k_corr (X : list (list Z)) (N k : nat) (weights : option (list R))
  (exclude_empty : bool) : result (list R) :=
  if negb (spins_ok X) then Err AssertionError
  else
  let kcorr := repeat 0 (binom N k) in
  let combs := combinations (range N) k in
  let kcorr := if exclude_empty then
      fst (write_seq (fun ijk =>
             let p := filter (fun x => negb (Z.eqb x 0)) (map (fun r => row_prod r ijk) X) in
             sumR (map IZR p) / INR (length p)) combs (kcorr, 0%nat))
    else kcorr in
  let w := match weights with None => map (fun _ => 1 / INR (length X)) X | Some w => w end in
  if negb (Nat.eqb (length w) (length X)) then Err ValueError
  else Ok (fst (write_seq (fun ijk => dot (map (fun r => IZR (row_prod r ijk)) X) w) combs (kcorr, 0%nat))).

(** Equality of rows ([vote==v].sum(1)==n, and bytewise equality in np.unique). *)
Definition row_eqb (a b : list Z) : bool :=
  if list_eq_dec Z.eq_dec a b then true else false.

(** numpy.unique on rows viewed as bytes: sorted without duplicates.  [lt] is the
    byte order, left abstract. *)
Fixpoint insert_uniq (lt : list Z -> list Z -> bool) (a : list Z) (l : list (list Z)) : list (list Z) :=
  match l with
  | [] => [a]
  | b :: l' => if row_eqb a b then l else if lt a b then a :: l else b :: insert_uniq lt a l'
  end.

Definition np_unique lt (X : list (list Z)) : list (list Z) := fold_right (insert_uniq lt) [] X.

(** Position of the first row equal to [a]. *)
Fixpoint first_index (a : list Z) (X : list (list Z)) : nat :=
  match X with
  | [] => 0%nat
  | b :: X' => if row_eqb a b then 0%nat else S (first_index a X')
  end.

(** coniii/utils.py:74-98 [unique_rows], return_index and return_inverse cases. *)
Definition unique_rows lt (X : list (list Z)) : list nat :=
  map (fun u => first_index u X) (np_unique lt X).

Definition unique_rows_inverse lt (X : list (list Z)) : list nat :=
  map (fun r => first_index r (np_unique lt X)) X.

(** [np.bincount(ix)]: counts of 0..max(ix). *)
Definition bincount (ix : list nat) : list nat :=
  map (fun k => length (filter (Nat.eqb k) ix)) (range (fold_right Nat.max 0%nat (map S ix))).

(** coniii/utils.py:645-671 [state_probs] with allstates=None, normalized=True:
    (freq, allstates). *)
Definition state_probs lt (v : list (list Z)) : list R * list (list Z) :=
  let allstates := map (fun i => nth i v []) (unique_rows lt v) in
  let freq := map INR (bincount (unique_rows_inverse lt v)) in
  (map (fun f => f / sumR freq) freq, allstates).

(** coniii/utils.py:655-671 [state_probs] with allstates given (warnings are not
    modelled). *)
Definition state_probs_given (v allstates : list (list Z)) (weights : option (list R)) (normalized : bool)
  : list R :=
  let w := match weights with None => map (fun _ => 1) v | Some w => w end in
  let freq := map (fun vote => sumf (combine v w) (fun rw => b2R (row_eqb vote (fst rw)) * snd rw)) allstates in
  if normalized then map (fun f => f / sumR freq) freq else freq.

(** scipy.special.logsumexp. *)
Definition logsumexp (l : list R) : R := ln (sumf l exp).

Definition Rltb (x y : R) : bool := if Rlt_dec x y then true else false.

(** coniii/utils.py:964-972 [mch_approximation] of the Ising helpers. *)
Definition mch_approximation (samples : list (list Z)) (N : nat) (dlamda : list R) : result (list R) :=
  let dE := map (fun s => ising_calc_e_row (map IZR s) dlamda) samples in
  let ZFraction := INR (length dE) / exp (logsumexp (map Ropp dE)) in
  bind (pair_corr samples N (WArray (map (fun e => exp (- e) / INR (length dE)) dE)) false false false)
    (fun c =>
  let predsisj := map (fun x => x * ZFraction) (fst c ++ snd c) in
  if existsb (fun x => Rltb x (- 1.00000001) || Rltb 1.000000001 x) predsisj
  then Err AssertionError
  else Ok predsisj).

(** coniii/utils.py:1187-1209 [mch_approximation] of the Potts helpers. *)
Definition potts_mch_approximation (k : nat) (sample : list (list nat)) (N : nat) (dlamda : list R)
  : result (list R) :=
  let dE := map (fun s => potts_calc_e_row k s dlamda) sample in
  let ZFraction := INR (length dE) / exp (logsumexp (map Ropp dE)) in
  let predsisj := map (fun c =>
      sumf (combine sample dE) (fun se =>
        exp (- snd se) / INR (length dE) * nthR (potts_calc_observables_row k (fst se)) c) * ZFraction)
    (range (N * k + N * (N - 1) / 2)) in
  if existsb (fun x => Rltb x 0) predsisj || existsb (fun x => Rltb (1 + 1 / 10 ^ 10) x) predsisj
  then Err AssertionError
  else Ok predsisj.

(** coniii/utils.py:100-116 [calc_overlap], entry (a,b), ignore_zeros=False /
    True. *)
Definition calc_overlap (sample : list (list Z)) (N a b : nat) (ignore_zeros : bool) : R :=
  let ra := nth a sample [] in let rb := nth b sample [] in
  let overlap := sumf (range N) (fun i => IZR (xat ra i) * IZR (xat rb i)) in
  if ignore_zeros then
    let z := fun r => length (filter (Z.eqb 0) r) in
    overlap / INR (N - Nat.max (z ra) (z rb))
  else overlap / INR N.
