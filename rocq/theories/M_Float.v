(** * Binary64 versions of the Ising energy and of the Metropolis updates.
    The other M_ files use exact reals for Python/numpy/C++ floats.  Here every
    addition, subtraction and multiplication is rounded to the nearest binary64 number,
    ties to even, with gradual underflow.  Simplification: there is no largest float
    (overflow to infinity and NaN are not modelled); random numbers stay real. *)
From Flocq Require Import Core.
From Verif Require Import Prelude M_Index M_Energy M_Sampler.
Import ListNotations.
Local Open Scope R_scope.

(** numpy float64 / C++ double: 53 bits, smallest positive number 2^-1074. *)
Definition fexp64 : Z -> Z := FLT_exp (-1074) 53.
Definition float64 (x : R) : Prop := generic_format radix2 fexp64 x.
Definition rnd (x : R) : R := round radix2 fexp64 ZnearestE x.
Definition fadd (x y : R) : R := rnd (x + y).
Definition fsub (x y : R) : R := rnd (x - y).
Definition fmul (x y : R) : R := rnd (x * y).

(** np.sum adds in an order of its own (sequential, unrolled, pairwise or vectorized):
    any binary tree whose leaves are the summands. *)
Inductive sum_tree : Type := Leaf (x : R) | Node (l r : sum_tree).

Fixpoint tree_sum (t : sum_tree) : R :=
  match t with Leaf x => x | Node l r => fadd (tree_sum l) (tree_sum r) end.

Fixpoint leaves (t : sum_tree) : list R :=
  match t with Leaf x => [x] | Node l r => leaves l ++ leaves r end.

(** coniii/utils.py:933-943 [fast_sum], one row, in floats. *)
Definition fl_fast_sum (J s : list R) : R :=
  fst (fold_left (fun st p => let '(e, k) := st in
         (fadd e (fmul (fmul (nthR J k) (nthR s (fst p))) (nthR s (snd p))), (k + 1)%nat))
       (loop_ij (length s)) (0, 0%nat)).

(** coniii/utils.py:945-962 [calc_e], one row, in floats; [order] is np.sum's order. *)
Definition fl_calc_e (order : list R -> sum_tree) (s params : list R) : R :=
  let n := length s in
  let e := - fl_fast_sum (skipn n params) s in
  fsub e (tree_sum (order (map (fun p => fmul (fst p) (snd p)) (combine s (firstn n params))))).

(** coniii/samplers.py:1673-1713 [Metropolis.sample_metropolis], in floats; [fexp] is
    the exponential function of the C library. *)
Definition fl_sample_metropolis {T} (g : rng T) (fexp : R -> R) (calc_e : list Z -> R) (flip_site : option nat)
  (sample0 : list Z) (E0 : R) (t : T) : list Z * R * T :=
  let '(site, t) := match flip_site with
                    | Some i => (i, t)
                    | None => randint g t 0%nat (length sample0) end in
  let s1 := flip sample0 site in
  let E1 := calc_e s1 in
  let de := fsub E1 E0 in
  if Rlt_dec 0 de then
    let '(u, t) := rand g t in
    if Rlt_dec (fexp (- de)) u then (flip s1 site, 0, t) else (s1, de, t)
  else (s1, de, t).

(** coniii/samplers.py:1271-1279 and 1281-1323: [de = self.sample_metropolis(...); E += de]
    over a list of sites, in floats: final state, energy and generator. *)
Fixpoint fl_run {T} (step : option nat -> list Z -> R -> T -> list Z * R * T) (fs : list (option nat))
  (s : list Z) (E : R) (t : T) : list Z * R * T :=
  match fs with
  | [] => (s, E, t)
  | f :: fs' => let '(s1, de, t1) := step f s E t in fl_run step fs' s1 (fadd E de) t1
  end.

(** cpp/samplers.cpp:351-356: the energy difference of a proposal, in floats; [s1] is the
    state after the flip. *)
Definition fl_cpp_de (n : nat) (multipliers : list R) (couplingMat : list (list R)) (s1 : list Z) (randix : nat) : R :=
  let at_ := fun i => IZR (nth i s1 0%Z) in
  fold_left (fun de i => fsub de (fmul (fmul (fmul 2 (entry couplingMat randix i)) (at_ randix)) (at_ i)))
    (range n) (fmul (fmul (-2) (nthR multipliers randix)) (at_ randix)).

(** cpp/samplers.cpp:347-362 [Ising::sample_metropolis], in floats. *)
Definition fl_cpp_sample_metropolis {T} (g : rng T) (fexp : R -> R) (n : nat) (multipliers : list R) (couplingMat : list (list R))
  (s : list Z) (randix : nat) (t : T) : list Z * R * T :=
  let s1 := flip s randix in
  let de := fl_cpp_de n multipliers couplingMat s1 randix in
  if Rlt_dec 0 de then
    let '(u, t) := rand g t in
    if Rlt_dec (fexp (- de)) u then (flip s1 randix, 0, t) else (s1, de, t)
  else (s1, de, t).
