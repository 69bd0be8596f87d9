(** * Further independent specifications: binary (0,1) models with a coupling matrix.
    Nothing here refers to the model of the code. *)
From Verif Require Import Prelude Spec.
Import ListNotations.
Local Open Scope R_scope.

(** E(y) = sum_i J_ii y_i + sum_{i<>j} J_ij y_i y_j, each unordered pair counted with
    both of its entries. *)
Definition energy01 (n : nat) (J : list (list R)) (y : list R) : R :=
  sumf (seq 0 n) (fun i => entry J i i * nthR y i) +
  sumf (seq 0 n) (fun i => sumf (seq 0 n) (fun j =>
    if Nat.eqb i j then 0 else entry J i j * (nthR y i * nthR y j))).

(** The binary states with at least k ones. *)
Definition states01 (n : nat) (k : Z) : list (list R) :=
  filter (fun s => if Rle_dec (IZR k) (sumR s) then true else false) (all_states [0; 1] n).

(** Entropy of one spin that is 1 with probability p. *)
Definition binary_entropy (p : R) : R := - (p * ln p) - (1 - p) * ln (1 - p).

(** Mean of an observable over a sample. *)
Definition sample_mean {A} (X : list A) (f : A -> R) : R := sumf X f / INR (length X).
