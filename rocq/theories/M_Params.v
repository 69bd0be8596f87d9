(** * Model of the parameter conversions of coniii/utils.py.
    Matrices are lists of rows; [entry A i j] reads one element. *)
From Verif Require Import Prelude M_Index.
Import ListNotations.
Local Open Scope R_scope.

(** [numpy.sqrt] followed by a floor or a ceiling, on an integer argument.  The
    float square root is taken as exact. *)
Definition ceil_sqrt (m : nat) : nat :=
  if Nat.eqb (Nat.sqrt m * Nat.sqrt m) m then Nat.sqrt m else (Nat.sqrt m + 1)%nat.

(** scipy.spatial.distance.squareform, vector argument: the empty vector gives the
    1x1 zero matrix; otherwise the size is ceil(sqrt(2*len)), ValueError when the
    length is not a triangular number; element (i,j), i<j, comes from the running
    position in combinations order; symmetric, zero diagonal. *)
Definition tri_pos (n i j : nat) : nat := (n * (n - 1) / 2 - (n - i) * (n - i - 1) / 2 + (j - i - 1))%nat.

Definition squareform_vec (v : list R) : result (list (list R)) :=
  if Nat.eqb (length v) 0 then Ok [[0]]
  else
    let d := ceil_sqrt (2 * length v) in
    if negb (Nat.eqb (d * (d - 1)) (2 * length v)) then Err ValueError
    else Ok (mk_mat d d (fun i j => if Nat.ltb i j then nthR v (tri_pos d i j)
                                    else if Nat.ltb j i then nthR v (tri_pos d j i) else 0)).

(** Is the matrix square with [n] rows? *)
Definition is_square (A : list (list R)) : bool :=
  forallb (fun r => Nat.eqb (length r) (length A)) A.

(** Decidable equality of reals as a boolean (numpy [==]). *)
Definition Reqb (x y : R) : bool := if Req_EM_T x y then true else false.

(** scipy squareform, matrix argument, with its default [checks=True]: symmetric and
    zero diagonal required, upper triangle returned in row-major order. *)
Definition squareform_mat (A : list (list R)) : result (list R) :=
  if negb (is_square A) then Err ValueError
  else
    let n := length A in
    if negb (forallb (fun i => forallb (fun j => Reqb (entry A i j) (entry A j i)) (range n)) (range n))
    then Err ValueError
    else if negb (forallb (fun i => Reqb (entry A i i) 0) (range n)) then Err ValueError
    else Ok (map (fun p => entry A (fst p) (snd p)) (loop_ij n)).

(** coniii/utils.py:673-690 [replace_diag]; [mat - np.diag(mat.diagonal()) +
    np.diag(newdiag)] entrywise. *)
Definition replace_diag (mat : list (list R)) (newdiag : list R) : result (list (list R)) :=
  if negb (is_square mat && Nat.eqb (length mat) (length newdiag)) then Err GenericException
  else
    let n := length mat in
    Ok (mk_mat n n (fun i j => entry mat i j - (if Nat.eqb i j then entry mat i i else 0)
                               + (if Nat.eqb i j then nthR newdiag i else 0))).

(** coniii/utils.py:692-704 [zero_diag]. *)
Definition zero_diag (mat : list (list R)) : result (list (list R)) :=
  replace_diag mat (repeat 0 (length mat)).

(** coniii/utils.py:1389 [(np.sqrt(1+8*multipliers.size)-1)//2]: floor of the real
    number (sqrt(1+8m)-1)/2, which is the integer (floor(sqrt(1+8m))-1)/2. *)
Definition vec2mat_size (m : nat) : nat := ((Nat.sqrt (1 + 8 * m) - 1) / 2)%nat.

(** coniii/utils.py:1368-1396 [vec2mat], separate_fields=False.  The assertion
    [(n%1)==0] on line 1390 tests an already floored number and always holds. *)
Definition vec2mat (multipliers : list R) : result (list (list R)) :=
  let n := vec2mat_size (length multipliers) in
  bind (squareform_vec (skipn n multipliers)) (fun A => replace_diag A (firstn n multipliers)).

(** coniii/utils.py:1394-1395 [vec2mat], separate_fields=True. *)
Definition vec2mat_separate (multipliers : list R) : result (list R * list (list R)) :=
  let n := vec2mat_size (length multipliers) in
  bind (squareform_vec (skipn n multipliers)) (fun A => Ok (firstn n multipliers, A)).

(** coniii/utils.py:1398-1414 [mat2vec]. *)
Definition mat2vec (A : list (list R)) : result (list R) :=
  bind (zero_diag A) (fun Z =>
  bind (squareform_mat Z) (fun v =>
  Ok (map (fun i => entry A i i) (range (length A)) ++ v))).

(** Argument [convert_to]. *)
Inductive basis := To11 | To01 | ToOther.

(** coniii/utils.py:401-418 [convert_params] once J (vector) and Jmat are known.
    [h/2 + np.sum(Jmat,1)/4.] broadcasts h against the rows of Jmat; different sizes
    raise ValueError (a size-1 h or Jmat would broadcast; not modelled: Err). *)
Definition convert_params_core (h J : list R) (Jmat : list (list R)) (convert_to : basis)
  : result (list R * list R) :=
  if negb (Nat.eqb (length h) (length Jmat)) then Err ValueError
  else match convert_to with
  | To11 => Ok (map (fun i => nthR h i / 2 + sumR (nth i Jmat []) / 4) (range (length h)),
                map (fun x => x / 4) J)
  | To01 => Ok (map (fun i => 2 * (nthR h i - sumR (nth i Jmat []))) (range (length h)),
                map (fun x => x * 4) J)
  | ToOther => Err GenericException
  end.

(** coniii/utils.py:379-420 [convert_params], J a vector. *)
Definition convert_params (h J : list R) (convert_to : basis) : result (list R * list R) :=
  bind (squareform_vec J) (fun Jmat => convert_params_core h J Jmat convert_to).

(** coniii/utils.py:379-420 [convert_params], J a matrix. *)
Definition convert_params_mat (h : list R) (Jmat : list (list R)) (convert_to : basis)
  : result (list R * list R) :=
  bind (squareform_mat Jmat) (fun J => convert_params_core h J Jmat convert_to).

(** [params[c][ix] += v] on a list of vectors. *)
Definition add_at (params : list (list R)) (c ix : nat) (v : R) : list (list R) :=
  upd params c (upd (nth c params []) ix (nthR (nth c params []) ix + v)).

(** A loop whose body may raise. *)
Fixpoint foldM {A S} (f : S -> A -> result S) (l : list A) (st : S) : result S :=
  match l with
  | [] => Ok st
  | a :: l' => bind (f st a) (fun st' => foldM f l' st')
  end.

(** coniii/utils.py:449-477: body of the two nested loops over orders and tuples.
    [w order] is the factor of the same-order term, [sub order suborder] that of the
    lower order terms; [sub_orders] is [range(order-1,0,-1)] with its enumeration. *)
Definition convert_term (n : nat) (w : nat -> R) (sub : nat -> nat -> R)
  (counter order : nat) (coeff : R) (ijkcounter : nat) (ijk : list nat)
  (params : list (list R)) : result (list (list R)) :=
  let params := add_at params counter ijkcounter (w order * coeff) in
  foldM (fun params so =>
      let '(subcounter, suborder) := so in
      foldM (fun params subijk =>
          bind (unravel_index subijk n) (fun ix =>
          Ok (add_at params (subcounter + counter + 1) ix (coeff * sub order suborder))))
        (combinations ijk suborder) params)
    (combine (range (order - 1)) (map (fun t => (order - 1 - t)%nat) (range (order - 1)))) params.

(** coniii/utils.py:422-483 [ising_convert_params] without concat; [oparams] lists the
    interaction vectors by increasing order.  Reads past the end of a coefficient
    vector raise IndexError. *)
Definition ising_convert_params (oparams : list (list R)) (convert_to : basis)
  : result (list (list R)) :=
  let o := rev oparams in
  let m := length o in
  match oparams with
  | [] => Err IndexError
  | h :: _ =>
    let n := length h in
    let orders := map (fun t => (m - t)%nat) (range m) in
    let params := map (fun i => repeat 0 (binom n i)) orders in
    let run := fun w sub =>
      foldM (fun params co =>
          let '(counter, order) := co in
          foldM (fun params ct =>
              let '(ijkcounter, ijk) := ct in
              bind (get (nth counter o []) ijkcounter) (fun coeff =>
              convert_term n w sub counter order coeff ijkcounter ijk params))
            (combine (range (binom n order)) (combinations (range n) order)) params)
        (combine (range m) orders) params in
    match convert_to with
    | To01 => bind (run (fun order => 2 ^ order)
                        (fun order suborder => 2 ^ suborder * (-1) ^ (order - suborder)))
                   (fun p => Ok (rev p))
    | To11 => bind (run (fun order => / 2 ^ order) (fun order _ => / 2 ^ order))
                   (fun p => Ok (rev p))
    | ToOther => Err GenericException
    end
  end.

(** coniii/utils.py:594-612 [convert_corr]; loops write consecutive entries of
    newsisj: [sisj] shorter than the number of pairs raises IndexError, longer leaves the
    tail zero. *)
Definition convert_corr (si sisj : list R) (convert_to : basis) : result (list R * list R) :=
  let n := length si in
  let loop := fun f =>
    if Nat.ltb (length sisj) (n * (n - 1) / 2) then Err IndexError
    else Ok (fst (fold_left (fun st p => let '(new, k) := st in
             (upd new k (f (nthR sisj k) (nthR si (fst p)) (nthR si (snd p))), (k + 1)%nat))
           (loop_ij n) (repeat 0 (length sisj), 0%nat))) in
  match convert_to with
  | To11 => bind (loop (fun q a b => 4 * q - 2 * a - 2 * b + 1)) (fun newsisj => Ok (map (fun x => x * 2 - 1) si, newsisj))
  | To01 => bind (loop (fun q a b => (q + a + b + 1) / 4)) (fun newsisj => Ok (map (fun x => (x + 1) / 2) si, newsisj))
  | ToOther => Err GenericException
  end.
