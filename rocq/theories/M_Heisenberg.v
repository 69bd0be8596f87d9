(** * Model of the continuous-spin code of coniii/samplers.py: the Heisenberg energy and its
    derivatives (104-164), HamiltonianMC and jit_sample (1911-2102), Heisenberg3DSampler and
    its helper functions (2105-2390).
    Compiled functions do not check bounds; a read outside an array is modelled by 0
    ([nthR]) in the energy functions, whose theorems assume matching lengths, and by
    IndexError in [nearby_vector]. *)
From Verif Require Import Prelude M_Index M_Params.
Import ListNotations.
Local Open Scope R_scope.

(** coniii/samplers.py:122-124 (also 159-160), the product of the unit vectors of spins a and b;
    [x] holds theta_0, phi_0, theta_1, phi_1, ... *)
Definition spin_product (x : list R) (i j : nat) : R :=
  sin (nthR x i) * sin (nthR x j)
    * (cos (nthR x (i + 1)) * cos (nthR x (j + 1)) + sin (nthR x (i + 1)) * sin (nthR x (j + 1)))
  + cos (nthR x i) * cos (nthR x j).

(** coniii/samplers.py:104-126 [calc_e]; the loops over even i and j run over pairs of spins. *)
Definition heis_calc_e (theta x : list R) : R :=
  let n := (length x / 2)%nat in
  - fst (fold_left (fun Ek ab => let '(E, k) := Ek in
           (E + nthR theta k * spin_product x (2 * fst ab) (2 * snd ab), (k + 1)%nat))
         (loop_ij n) (0, 0%nat)).

(** coniii/samplers.py:128-147 [grad_e]. *)
Definition heis_grad_e (theta x : list R) : result (list R) :=
  let n := (length x / 2)%nat in
  bind (foldM (fun g a => foldM (fun g b =>
          if Nat.eqb a b then Ok g else
          bind (sub_to_ind (Z.of_nat n) (Z.of_nat a) (Z.of_nat b)) (fun k =>
          let J := nthR theta (Z.to_nat k) in
          let i := (2 * a)%nat in let j := (2 * b)%nat in
          let g := upd g i (nthR g i + J * (cos (nthR x i) * sin (nthR x j)
                     * (cos (nthR x (i + 1)) * cos (nthR x (j + 1)) + sin (nthR x (i + 1)) * sin (nthR x (j + 1)))
                     - sin (nthR x i) * cos (nthR x j))) in
          Ok (upd g (i + 1) (nthR g (i + 1) + J * (sin (nthR x i) * sin (nthR x j)
                     * (- sin (nthR x (i + 1)) * cos (nthR x (j + 1)) + cos (nthR x (i + 1)) * sin (nthR x (j + 1))))))))
          (range n) g) (range n) (repeat 0 (length x))) (fun g => Ok (map Ropp g)).

(** coniii/samplers.py:149-164 [grad_e_theta]. *)
Definition heis_grad_e_theta (theta x : list R) : list R :=
  let n := (length x / 2)%nat in
  map Ropp (fst (fold_left (fun gk ab => let '(g, k) := gk in
           (upd g k (spin_product x (2 * fst ab) (2 * snd ab)), (k + 1)%nat))
         (loop_ij n) (repeat 0 (length theta), 0%nat))).

(** ** Hamiltonian Monte Carlo *)
(** coniii/samplers.py:1911-1938, 2116-2131: both constructors raise before doing anything. *)
Definition HamiltonianMC_new (n : nat) (theta : list R) (dt : R) (leapfrogN : nat) : result (list R) := Err NotImplementedError.
Definition Heisenberg3DSampler_new (J : list R) : result (list R) := Err NotImplementedError.

Definition vec_axpy (c : R) (y x : list R) : list R := map (fun p => fst p + c * snd p) (combine x y).

Section HMC.
Variable calc_e : list R -> R.
Variable grad_e : list R -> list R.

(** coniii/samplers.py:2084-2089, one leapfrog step: half step of the momentum, step of the
    position, half step of the momentum. *)
Definition leapfrog (dt : R) (st : list R * list R * list R) : list R * list R * list R :=
  let '(x, p, g) := st in
  let p := vec_axpy (- (dt / 2)) g p in
  let x := vec_axpy dt p x in
  let g := grad_e x in
  (x, vec_axpy (- (dt / 2)) g p, g).
Definition leapfrogs (dt : R) (N : nat) (st : list R * list R * list R) : list R * list R * list R :=
  fold_left (fun st _ => leapfrog dt st) (range N) st.

(** coniii/samplers.py:2074-2101, one pass of the loop.  [xnew = x] (line 2082) binds a second
    name to the array of the caller and [xnew += dt*p] changes it in place, so the array holds
    the proposed position whether or not the test succeeds; energy and gradient are replaced
    only if it does. *)
Definition hmc_step (dt : R) (leapfrogN : nat) (st : list R * R * list R) (r : list R * R) : list R * R * list R :=
  let '(x, E, g) := st in
  let p := fst r in
  let H := dot p p / 2 + E in
  let '(xnew, pnew, gnew) := leapfrogs dt leapfrogN (x, p, g) in
  let Enew := calc_e xnew in
  let dH := dot pnew pnew / 2 + Enew - H in
  if Rlt_dec dH 0 then (xnew, Enew, gnew)
  else if Rlt_dec (snd r) (exp (- dH)) then (xnew, Enew, gnew)
  else (xnew, E, g).

(** coniii/samplers.py:2049-2102 [jit_sample]: returns None; the value here is the content of
    the array [x0] afterwards.  [rs]: the rows of randNormal with the entries of randUnif. *)
Definition jit_sample (x0 : list R) (dt : R) (leapfrogN : nat) (rs : list (list R * R)) : list R :=
  fst (fst (fold_left (hmc_step dt leapfrogN) rs (x0, calc_e x0, grad_e x0))).
End HMC.

(** ** Heisenberg helper functions *)
(** coniii/samplers.py:2339-2357 [cross], [cross_]. *)
Definition cross3 (a b : list R) : list R :=
  [nthR a 1 * nthR b 2 - nthR a 2 * nthR b 1;
   nthR a 2 * nthR b 0 - nthR a 0 * nthR b 2;
   nthR a 0 * nthR b 1 - nthR a 1 * nthR b 0].

(** coniii/samplers.py:2381-2389: Rodrigues' formula about the axis k by the angle otheta. *)
Definition rodrigues (ophi otheta : R) (r : list R) : list R :=
  let k := [- sin ophi; cos ophi; 0] in
  map (fun j => nthR r j * cos otheta + nthR (cross3 k r) j * sin otheta + nthR k j * dot k r * (1 - cos otheta)) (range 3).

(** coniii/samplers.py:2359-2388 [jit_sample_nearby_vector]; [randn], [rand]: the numbers drawn
    after seeding.  With sigma=0 the array of polar angles has one element only. *)
Definition nearby_vector (randn rand : nat -> R) (nSamples : nat) (otheta ophi sigma : R) : result (list (list R)) :=
  let theta := if Reqb sigma 0 then [0] else map (fun i => randn i * sigma) (range nSamples) in
  let phi := map (fun i => rand i * 2 * PI) (range nSamples) in
  bind (mapM (fun i => bind (get theta i) (fun t => bind (get phi i) (fun f =>
          Ok [sin t * cos f; sin t * sin f; cos t]))) (range nSamples)) (fun randv =>
  Ok (map (rodrigues ophi otheta) randv)).

(** coniii/samplers.py:2209-2215 (and 2234-2241): polar angles of a vector.  On the polar axis
    v[0]/r is 0/0, the angle is nan and so is every vector computed from it: [None]. *)
Definition polar_angles (v : list R) : option (R * R) :=
  let r := sqrt (nthR v 0 * nthR v 0 + nthR v 1 * nthR v 1) in
  if Reqb r 0 then None else
  let otheta := PI / 2 - atan (nthR v 2 / r) in
  let ophi := if Rle_dec 0 (nthR v 1) then acos (nthR v 0 / r) else 2 * PI - acos (nthR v 0 / r) in
  Some (otheta, ophi).

(** coniii/samplers.py:2182-2213 [sample_nearby_vector] without given angles. *)
Definition sample_nearby_vector (randn rand : nat -> R) (v : list R) (nSamples : nat) (sigma : R) : result (option (list (list R))) :=
  match polar_angles v with
  | Some (otheta, ophi) => bind (nearby_vector randn rand nSamples otheta ophi sigma) (fun l => Ok (Some l))
  | None => Ok None
  end.

(** coniii/samplers.py:2266-2287 [grad_E]; [X]: rows (theta, phi). *)
Definition heis_grad_E (Jmat X : list (list R)) : list (list R) :=
  let n := length X in
  map (fun i => fold_left (fun g j => if Nat.eqb i j then g else
        [nthR g 0 + - (entry Jmat i j * (cos (entry X i 0) * sin (entry X j 0) * cos (entry X i 1 - entry X j 1)
                                      - sin (entry X i 0) * cos (entry X j 0)));
         nthR g 1 + entry Jmat i j * sin (entry X j 0) * sin (entry X i 1 - entry X j 1)]) (range n) [0; 0]) (range n).
