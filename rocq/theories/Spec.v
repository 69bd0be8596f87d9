(** * Independent specifications used in the statements of the theorems.
    Nothing here refers to the model of the code. *)
From Verif Require Import Prelude.
Import ListNotations.

(** All assignments of values from [vals] to [n] sites, in lexicographic
    order (first site is most significant). *)
Fixpoint all_states {A} (vals : list A) (n : nat) : list (list A) :=
  match n with
  | 0 => [[]]
  | S m => flat_map (fun v => map (cons v) (all_states vals m)) vals
  end.

(** Positional value of a big-endian digit list. *)
Definition horner (b : nat) (ds : list nat) : nat :=
  fold_left (fun acc d => acc * b + d) ds 0.

(** Strictly increasing list of numbers below [n]. *)
Definition incr_below (n : nat) (l : list nat) : Prop :=
  (forall a b, a < b -> b < length l -> nth a l 0 < nth b l 0) /\
  (forall x, In x l -> x < n).

(** Lexicographic order on lists of naturals of equal length. *)
Fixpoint lex_lt (a b : list nat) : Prop :=
  match a, b with
  | x :: a', y :: b' => x < y \/ (x = y /\ lex_lt a' b')
  | _, _ => False
  end.

(** Standard digit symbols: 0..9 then A..Z (ASCII codes 48.. and 65..). *)
Definition std_digit (d : nat) : Ascii.ascii :=
  Ascii.ascii_of_nat (if Nat.ltb d 10 then 48 + d else 55 + d).

(** [e] is the integer part of the base-b logarithm of i. *)
Definition is_floor_log (b i e : nat) : Prop := b ^ e <= i < b ^ (e + 1).

(** Strict total order given by a boolean test. *)
Definition strict_total {A} (lt : A -> A -> bool) : Prop :=
  (forall a, lt a a = false) /\
  (forall a b c, lt a b = true -> lt b c = true -> lt a c = true) /\
  (forall a b, a <> b -> lt a b = true \/ lt b a = true).

(** ** Energies *)
Local Open Scope R_scope.

(** Position of the pair (i,j), i<j<n, in combinations(range(n),2). *)
Definition pair_index (n i j : nat) : nat := (i * (2 * n - i - 1) / 2 + (j - i - 1))%nat.

(** Coupling between i and j in a vector (fields, couplings in combinations order). *)
Definition coupling (n : nat) (params : list R) (i j : nat) : R :=
  nthR params (n + if Nat.ltb i j then pair_index n i j else pair_index n j i)%nat.

(** The pairwise Hamiltonian
    E(s) = - sum_i h_i s_i - sum_{i<j} J_ij s_i s_j. *)
Definition ising_energy (n : nat) (params : list R) (s : list R) : R :=
  - sumf (seq 0 n) (fun i => nthR params i * nthR s i)
  - sumf (seq 0 n) (fun i => sumf (seq (S i) (n - S i)) (fun j =>
        coupling n params i j * (nthR s i * nthR s j))).

(** Means and pair products of a single state, in the documented order. *)
Definition ising_obs (s : list R) : list R :=
  s ++ map (fun p => fst p * snd p) (pairs s).

(** Products of all k-subsets of spins, in combinations order. *)
Definition corr_obs (k : nat) (s : list R) : list R := map prodR (combinations s k).

(** Energy of a model with interactions of orders 1..m: [ps] lists, for each order k,
    one coefficient per k-subset of sites in combinations order. *)
Definition multi_energy (ps : list (list R)) (s : list R) : R :=
  - sumf (seq 0 (length ps)) (fun k => dot (corr_obs (S k) s) (nth k ps [])).

(** Model with one coefficient per listed subset of sites (in any order, of any
    size): E(s) = - sum_j params_j prod_{i in cs_j} s_i. *)
Definition subset_energy (cs : list (list nat)) (params : list R) (s : list R) : R :=
  - sumf (seq 0 (length cs)) (fun j => nthR params j * prodR (map (nthR s) (nth j cs []))).

(** Potts: one indicator per (state, site), state-major, then pair agreement. *)
Definition potts_obs (k : nat) (s : list nat) : list R :=
  flat_map (fun c => map (fun x => b2R (Nat.eqb x c)) s) (seq 0 k) ++
  map (fun p => b2R (Nat.eqb (fst p) (snd p))) (pairs s).

(** E(s) = - sum_i h_i(s_i) - sum_{i<j} J_ij [s_i = s_j]. *)
Definition potts_energy (n k : nat) (params : list R) (s : list nat) : R :=
  - sumf (seq 0 n) (fun i => nthR params (nth i s 0 * n + i)%nat)
  - sumf (seq 0 n) (fun i => sumf (seq (S i) (n - S i)) (fun j =>
       nthR params (k * n + pair_index n i j)%nat * b2R (Nat.eqb (nth i s 0%nat) (nth j s 0%nat)))).

(** ** Probability *)

(** Partition function and Boltzmann probability over a finite list of states. *)
Definition partition {A} (E : A -> R) (states : list A) : R := sumf states (fun s => exp (- E s)).
Definition boltzmann {A} (E : A -> R) (states : list A) (s : A) : R := exp (- E s) / partition E states.

(** Expectation of an observable under weights [p]. *)
Definition expectation {A} (p : A -> R) (states : list A) (f : A -> R) : R :=
  sumf states (fun s => p s * f s).

(** Weighted sum over the rows of a data matrix. *)
Definition weighted (X : list (list Z)) (w : list R) (f : list Z -> R) : R :=
  sumf (seq 0 (length X)) (fun t => nthR w t * f (nth t X [])).

(** Average of [f] over a sample, reweighted by exp(-dE). *)
Definition reweighted {A} (dE : A -> R) (sample : list A) (f : A -> R) : R :=
  sumf sample (fun s => exp (- dE s) * f s) / sumf sample (fun s => exp (- dE s)).

(** Entrywise sum of two parameter vectors. *)
Definition vadd (p q : list R) : list R := map (fun xy => fst xy + snd xy) (combine p q).

(** Number of occurrences over number of elements. *)
Definition frequency {A} (dec : forall a b : A, {a = b} + {a <> b}) (sample : list A) (s : A) : R :=
  INR (count_occ dec sample s) / INR (length sample).

(** Probability of value [v] at site [r] given the values of all other sites of [s],
    for the distribution proportional to exp(-E), site values ranging over [vals]. *)
Definition cond_prob {V} (E : list V -> R) (vals : list V) (s : list V) (r : nat) (v : V) : R :=
  exp (- E (upd s r v)) / sumf vals (fun w => exp (- E (upd s r w))).

Close Scope R_scope.
