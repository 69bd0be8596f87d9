(** * Independent specification of the classical Heisenberg model. *)
From Verif Require Import Prelude Spec.
Import ListNotations.
Local Open Scope R_scope.

(** Vectors of three components. *)
Definition vec3 : Type := R * R * R.
Definition inner3 (a b : vec3) : R := fst (fst a) * fst (fst b) + snd (fst a) * snd (fst b) + snd a * snd b.

(** Unit vector with polar angle theta and azimuth phi. *)
Definition unit_vector (theta phi : R) : vec3 := (sin theta * cos phi, sin theta * sin phi, cos theta).

(** Spin number a of a configuration theta_0, phi_0, theta_1, phi_1, ... *)
Definition spin_of (x : list R) (a : nat) : vec3 := unit_vector (nthR x (2 * a)) (nthR x (2 * a + 1)).

(** E = - sum_{a<b} J_ab s_a.s_b, couplings in combinations order. *)
Definition heisenberg_energy (n : nat) (J x : list R) : R :=
  - sumf (seq 0 n) (fun a => sumf (seq (S a) (n - S a)) (fun b =>
      nthR J (pair_index n a b) * inner3 (spin_of x a) (spin_of x b))).
