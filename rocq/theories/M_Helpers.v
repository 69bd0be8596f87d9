(** * Model of the combinatorial helpers of coniii/utils.py and coniii/enumerate.py, of
    the spectral clusters of coniii/samplers.py and of the test objective [MPF._K]. *)
From Verif Require Import Prelude.
Import ListNotations.
Local Open Scope R_scope.

(** coniii/utils.py:523-537 [_expand_binomial]; [int(binom(n,i))] is taken exact. *)
Definition expand_binomial (a b : R) (n : nat) : list R :=
  flat_map (fun i => repeat (a ^ (n - i) * b ^ i) (binom n i)) (range (n + 1)).

(** Python's [int(x)] of a float: truncation towards zero. *)
Definition truncR (x : R) : Z := if Rle_dec 0 x then Int_part x else (- Int_part (- x))%Z.

(** coniii/utils.py:518-521 [multinomial].  [rnd] is the rounding of the floating point
    computation of the exponential of the difference of logarithms. *)
Definition multinomial (rnd : R -> R) (args : list nat) : result Z :=
  match args with
  | [] => Err IndexError
  | n :: ks =>
    if negb (Nat.eqb (sumN ks) n) then Err AssertionError
    else Ok (truncR (rnd (exp (ln (INR (fact n)) - sumf ks (fun a => ln (INR (fact a)))))))
  end.

(** coniii/enumerate.py:373: [np.triu(np.ones((m,m))==1,1)]. *)
Definition triu1 (m : nat) : list (list R) := mk_mat m m (fun j k => b2R (Nat.ltb j k)).
(** [c[:-i,:-i]] for i>0. *)
Definition drop_last (i : nat) (c : list (list R)) : list (list R) :=
  map (fun r => firstn (length r - i) r) (firstn (length c - i) c).
(** [plane[a:,a:] = c]: the block must have the shape of the destination. *)
Definition assign_block (plane : list (list R)) (a : nat) (c : list (list R)) : result (list (list R)) :=
  let n := length plane in
  if negb (Nat.eqb (length c) (n - a)) || negb (forallb (fun r => Nat.eqb (length r) (n - a)) c) then Err ValueError
  else Ok (firstn a plane ++ map (fun rc => firstn a (fst rc) ++ snd rc) (combine (skipn a plane) c)).

(** coniii/enumerate.py:365-381 [get_3idx]; n=0 asks numpy for an array of negative
    dimensions. *)
Definition get_3idx (n : nat) : result (list (list (list R))) :=
  match n with
  | O => Err ValueError
  | S m =>
    fold_left (fun acc i => bind acc (fun b =>
        bind (assign_block (nth i b []) (1 + i) (if Nat.eqb i 0 then triu1 m else drop_last i (triu1 m))) (fun p =>
        Ok (upd b i p))))
      (range m) (Ok (repeat (repeat (repeat 0 n) n) n))
  end.

(** coniii/enumerate.py:383-409 [get_nidx]: no name bin_states is defined in or imported
    into the module (lines 5-12), and k>n falls through to None. *)
Definition get_nidx (k n : nat) : result (option (list (list nat))) :=
  if Nat.eqb k n then Ok (Some (map (fun i => [i]) (range n)))
  else if Nat.ltb k n then Err NameError
  else Ok None.

(** [np.isclose(x,0)] with the default tolerances. *)
Definition isclose0 (x : R) : bool := if Rle_dec (Rabs x) (/ 10 ^ 8) then true else false.

(** coniii/samplers.py:593-611 [spec_cluster]; scipy.linalg.eig is the argument [eig],
    its result a list of eigenvalues with their eigenvectors (real, as for every
    symmetric matrix). *)
Definition spec_cluster (eig : list (list R) -> list (R * list R)) (L : list (list R)) (exact : bool) : list (list nat) :=
  map (fun ev => filter (fun i => negb (isclose0 (nthR (snd ev) i))) (range (length (snd ev))))
    (filter (fun ev => if exact then (if Req_EM_T (fst ev) 0 then true else false) else isclose0 (fst ev)) (eig L)).

(** coniii/solvers.py:551-576 [MPF._K]: squareform fails unless the number of couplings
    is a triangular number, and diag_indices is neither defined in nor imported into the
    module (lines 5-20). *)
Definition mpf_K (X : list (list R)) (J : list R) : result R :=
  let ndims := length (nth 0 X []) in
  let m := length (skipn ndims J) in
  if existsb (fun d => Nat.eqb (d * (d - 1) / 2) m) (range (m + 2)) then Err NameError else Err ValueError.
