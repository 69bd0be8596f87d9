(** * Model of the thermodynamics of a homogeneous system and of the remaining scalar
    functions of coniii/mean_field_ising.py (lines 101-112, 242-248, 258-326, 511-514).
    Numbers are reals; [scipy.integrate.quad(f,-inf,inf)[0]] and [scipy.linalg.eigvals] are
    oracles.  [scipy.integrate] is not imported by the file; the model takes it to be there
    (scipy loads it with scipy.optimize or on demand). *)
From Coquelicot Require Import Complex.
From Verif Require Import Prelude M_Params M_MeanField M_RMF.
Import ListNotations.
Local Open Scope R_scope.

(** coniii/mean_field_ising.py:101-112 [specificHeat]: the quotient that follows the
    returned product in the file is inside a string literal after the return statement. *)
Definition specificHeat (brentq : (R -> R) -> R -> R -> R) (h J ell T : R) : R :=
  let mr := m_root brentq h J ell T in
  let hloc := (ell - 1) * mr * J - h in
  hloc * (2 * (ell - 1) * mr * J - h).

(** coniii/mean_field_ising.py:258-267 [FHomogeneous].  For N*N*J < 0 numpy's square root is
    nan and for 0 the division fails; the theorems take 0 < N and 0 < J. *)
Definition FHomogeneous (h J : R) (N : nat) (m : R) : R :=
  let Jbar := INR N * J in
  let s := sqrt (PI / (INR N * Jbar)) in
  let L := Jbar * m * m - ln 2 - logCosh (2 * Jbar * m + h) in
  INR N * L + ln s.

(** coniii/mean_field_ising.py:270-272 [dFdT]. *)
Definition dFdT (h J : R) (N : nat) (m : R) : R :=
  let Jbar := INR N * J in
  - INR N * Jbar * m * m + INR N * (2 * Jbar * m + h) * tanh (2 * Jbar * m + h) + / 2.

Section Quad.
(** [scipy.integrate.quad(f,-scipy.inf,scipy.inf)[0]]. *)
Variable quad : (R -> R) -> R.

(** coniii/mean_field_ising.py:280-281, 290-291, 300-301. *)
Definition Zhom (h J : R) (N : nat) : R := quad (fun m => exp (- FHomogeneous h J N m)).

(** coniii/mean_field_ising.py:275-286 [SHomogeneous]. *)
Definition SHomogeneous (h J : R) (N : nat) : R :=
  let Z := Zhom h J N in
  let avgdFdT := quad (fun m => dFdT h J N m * exp (- FHomogeneous h J N m)) / Z in
  ln Z - avgdFdT.

(** coniii/mean_field_ising.py:289-296 [avgmHomogeneous]. *)
Definition avgmHomogeneous (h J : R) (N : nat) : R :=
  quad (fun m => m * exp (- FHomogeneous h J N m)) / Zhom h J N.

(** coniii/mean_field_ising.py:299-307 [avgxHomogeneous]. *)
Definition avgxHomogeneous (h J : R) (N : nat) : R :=
  let Jbar := INR N * J in
  quad (fun m => tanh (2 * Jbar * m + h) * exp (- FHomogeneous h J N m)) / Zhom h J N.

(** coniii/mean_field_ising.py:316-320 [independentEntropyHomogeneous] and 323-326
    [independentEntropyHomogeneous2]. *)
Definition independentEntropyHomogeneous (h J : R) (N : nat) : R :=
  independentEntropy1 (avgxHomogeneous h J N) (INR N).
Definition independentEntropyHomogeneous2 (h J : R) (N : nat) : R :=
  independentEntropy2 (avgxHomogeneous h J N) (INR N).

(** coniii/mean_field_ising.py:310-313 [multiInfoHomogeneous]. *)
Definition multiInfoHomogeneous (h J : R) (N : nat) : R :=
  independentEntropyHomogeneous h J N - SHomogeneous h J N.
End Quad.

(** coniii/mean_field_ising.py:242-248 [meanFieldStability].  [eigvals] returns complex
    numbers; python's [max] of an empty sequence raises ValueError. *)
Definition stability_matrix (Jz : list (list R)) (freqs : list R) : list (list R) :=
  let n := length freqs in
  mk_mat n n (fun i j => -2 * entry Jz i j * nthR freqs j * (1 - nthR freqs j)).
Definition meanFieldStability (eigvals : list (list R) -> list Complex.C) (J : list (list R)) (freqs : list R) : result R :=
  bind (zeroDiag J) (fun Jz =>
  if Nat.eqb (length Jz) (length freqs) then
    match map Cmod (eigvals (stability_matrix Jz freqs)) with
    | [] => Err ValueError
    | x :: l => Ok (fold_left Rmax l x)
    end
  else Err ValueError).

(** coniii/mean_field_ising.py:511-514 [seedGenerator]: the first [k] values drawn. *)
Fixpoint seedGenerator (seedStart deltaSeed : Z) (k : nat) : list Z :=
  match k with
  | O => []
  | S k => (seedStart + deltaSeed)%Z :: seedGenerator (seedStart + deltaSeed) deltaSeed k
  end.
