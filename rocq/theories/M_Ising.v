(** * Model of the front end coniii/ising/utils.py ([Ising]) and of the lattice
    simulation coniii/ising/automaton.py ([Ising2D], [coarse_grain]).
    Reals stand for floats; integer widths (int8 spins, int16 block sums) are not
    modelled, spins are integers. *)
From Verif Require Import Prelude M_Index M_Params M_RMF M_Sampler.
Import ListNotations.
Local Open Scope R_scope.

(** The constructor arguments h and J: None, a number, a Python list or a numpy
    vector. *)
Inductive vec_arg := ANone | ANumber (x : R) | APyList (l : list R) | AArray (l : list R).

(** coniii/ising/utils.py:52-63, the same treatment for h (length n) and J (length
    n(n-1)/2); the result of a Python list stays a Python list. *)
Definition fill_arg (len : nat) (a : vec_arg) : result vec_arg :=
  match a with
  | ANone => Ok (AArray (repeat 0 len))
  | ANumber x => Ok (AArray (map (fun z => z + x) (repeat 0 len)))
  | APyList l => if Nat.eqb (length l) len then Ok (APyList l) else Err AssertionError
  | AArray l => if Nat.eqb (length l) len then Ok (AArray l) else Err AssertionError
  end.

(** Reading the attribute [ndim] (coniii/ising/utils.py:64): Python lists have none. *)
Definition as_vector (a : vec_arg) : result (list R) :=
  match a with AArray l => Ok l | _ => Err AttributeError end.

(** The attributes of an [Ising] object that are modelled. *)
Record ising := MkIsing { is_n : nat; is_hJ : list R; is_Jmat : list (list R); is_hJ01 : list R }.

(** coniii/ising/utils.py:38-71 [Ising.__init__].  [have n] says whether the generated
    module ising_eqn_n_sym is installed (ModuleNotFoundError, rendered as
    GenericException, otherwise); the repository ships n = 2..9.  The energy function
    of line 71 is [calc_e] of M_Energy and not repeated here. *)
Definition ising_init (have : nat -> bool) (n : nat) (h J : vec_arg) : result ising :=
  if negb (Nat.ltb 1 n) then Err AssertionError
  else
    bind (fill_arg n h) (fun h =>
    bind (fill_arg (n * (n - 1) / 2) J) (fun J =>
    bind (as_vector h) (fun h =>
    bind (as_vector J) (fun J =>
    bind (squareform_vec J) (fun Jmat =>
    bind (convert_params h J To01) (fun p =>
    if have n then Ok (MkIsing n (h ++ J) Jmat (fst p ++ snd p)) else Err GenericException)))))).

(** coniii/ising/utils.py:90-104, 106-120 [Ising.fields], [Ising.couplings]; [plus] is
    [basis=='1']. *)
Definition ising_fields (self : ising) (plus : bool) : list R :=
  if plus then firstn (is_n self) (is_hJ self) else firstn (is_n self) (is_hJ01 self).
Definition ising_couplings (self : ising) (plus : bool) : list R :=
  if plus then skipn (is_n self) (is_hJ self) else skipn (is_n self) (is_hJ01 self).

(** coniii/ising/utils.py:73-88 [Ising.correlations]; [calc_observables] is that of the
    imported module ising_eqn_n_sym (see M_Enum and M_EqnText). *)
Definition ising_correlations (calc_observables : list R -> result (list R)) (self : ising) (plus : bool)
  : result (list R) :=
  bind (calc_observables (is_hJ self)) (fun sisj =>
  if plus then Ok sisj
  else bind (convert_corr (firstn (is_n self) sisj) (skipn (is_n self) sisj) To01) (fun p => Ok (fst p ++ snd p))).

(** coniii/ising/utils.py:147-153 [Ising.neighbor_dE]. *)
Definition neighbor_dE (self : ising) (state : list Z) : list R :=
  map (fun i => 2 * IZR (nth i state 0%Z) * nthR (is_hJ self) i
                + 2 * IZR (nth i state 0%Z)
                  * sumR (map (fun j => IZR (nth j state 0%Z) * entry (is_Jmat self) i j) (range (length state))))
      (range (is_n self)).

(** coniii/ising/utils.py:138-145, the while loop. *)
Fixpoint basin_loop (self : ising) (fuel : nat) (thisState : list Z) : result (list Z) :=
  match fuel with
  | 0%nat => Err OutOfFuel
  | S fuel' =>
    let dE := neighbor_dE self thisState in
    if existsb (fun x => if Rlt_dec x 0 then true else false) dE
    then bind (argmin dE) (fun ix => basin_loop self fuel' (flip thisState ix))
    else Ok thisState
  end.

(** coniii/ising/utils.py:122-145 [Ising.find_basin].  [astype] copies, so the caller's
    array is not touched: the result is a new list. *)
Definition find_basin (self : ising) (fuel : nat) (s : list Z) : result (list Z) :=
  if negb (Nat.eqb (length s) (is_n self)) then Err AssertionError
  else basin_loop self fuel s.

(** ** Lattice *)
(** [lattice[i,j]] and [lattice[i,j] *= -1]; a lattice is a list of rows. *)
Definition site (L : list (list Z)) (i j : nat) : Z := nth j (nth i L []) 0%Z.
Definition flip_site (L : list (list Z)) (i j : nat) : list (list Z) :=
  upd L i (flip (nth i L []) j).

(** [lattice.shape]; a lattice without rows has no second dimension in this
    representation (taken as 0). *)
Definition dim0 (L : list (list Z)) : nat := length L.
Definition dim1 (L : list (list Z)) : nat := length (nth 0 L []).

(** [(i-1)%dim] in Python for 0 <= i. *)
Definition pred_mod (i d : nat) : nat := Z.to_nat ((Z.of_nat i - 1) mod Z.of_nat d)%Z.

(** coniii/ising/automaton.py:82-105: the energy change accumulated by
    [flip_metropolis]. *)
Definition lattice_dE (i j : nat) (h J : R) (L : list (list Z)) : R :=
  let same a b := if Z.eqb (site L a b) (site L i j) then 2 * J else - (2 * J) in
  0 + same (pred_mod i (dim0 L)) j + same ((i + 1) mod dim0 L)%nat j
    + same i ((j + 1) mod dim1 L)%nat + same i (pred_mod j (dim1 L))
    - 2 * IZR (site L i j) * h.

(** coniii/ising/automaton.py:72-111 [Ising2D.flip_metropolis].  The random number
    comes from numba's generator, not from [self.rng]. *)
Definition flip_metropolis {T} (g : rng T) (i j : nat) (h J : R) (L : list (list Z)) (t : T)
  : list (list Z) * T :=
  let dE := lattice_dE i j h J L in
  if Rle_dec dE 0 then (flip_site L i j, t)
  else let '(u, t) := rand g t in
       if Rlt_dec u (exp (- dE)) then (flip_site L i j, t) else (L, t).

(** The argument h of [Ising2D]: a float, an int or an array. *)
Inductive field_arg := FFloat (x : R) | FInt (z : Z) | FArray (A : list (list R)).

(** The attribute [self.h] after the constructor: an array or (for a nonzero int) the
    int itself. *)
Inductive field_attr := HArray (A : list (list R)) | HInt (z : Z).

(** coniii/ising/automaton.py:31-34.  [type(h) is type(int)] compares with [type] and
    is false for every number; [h or ...] on an array with more than one element
    raises ValueError, on one element tests that element, on none (deprecated) is
    false. *)
Definition ising2d_h (d0 d1 : nat) (h : field_arg) : result field_attr :=
  match h with
  | FFloat x => Ok (HArray (mk_mat d0 d1 (fun _ _ => 0 + x)))
  | FInt z => if Z.eqb z 0 then Ok (HArray (mk_mat d0 d1 (fun _ _ => 0))) else Ok (HInt z)
  | FArray A =>
    match concat A with
    | [] => Ok (HArray (mk_mat d0 d1 (fun _ _ => 0)))
    | [x] => if Req_EM_T x 0 then Ok (HArray (mk_mat d0 d1 (fun _ _ => 0))) else Ok (HArray A)
    | _ => Err ValueError
    end
  end.

(** [h[i,j]]: indexing an int raises TypeError (at compile time in numba). *)
Definition field_at (h : field_attr) (i j : nat) : result R :=
  match h with HArray A => Ok (entry A i j) | HInt _ => Err TypeError end.

(** The body shared by both sweeps: flip the listed sites in turn. *)
Definition flip_all {T} (g : rng T) (h : field_attr) (J : R) (sites : list (nat * nat))
  (st : list (list Z) * T) : result (list (list Z) * T) :=
  foldM (fun st p => bind (field_at h (fst p) (snd p)) (fun hij =>
           Ok (flip_metropolis g (fst p) (snd p) hij J (fst st) (snd st)))) sites st.

(** coniii/ising/automaton.py:56-62, one systematic sweep; [perm t m] is
    [np.random.permutation(np.arange(m))]. *)
Definition sweep_sites (d0 d1 : nat) (ix : list nat) : list (nat * nat) :=
  map (fun k => (k / d1, k mod d1)%nat) (firstn (d0 * d1) ix).
Definition sweep_systematic {T} (g : rng T) (perm : T -> nat -> list nat * T) (d0 d1 : nat)
  (h : field_attr) (J : R) (st : list (list Z) * T) : result (list (list Z) * T) :=
  let '(ix, t) := perm (snd st) (d0 * d1)%nat in
  flip_all g h J (sweep_sites d0 d1 ix) (fst st, t).

(** coniii/ising/automaton.py:49-53, the unsystematic [single_iteration]: [n_iters]
    random sites. *)
Definition random_flips {T} (g : rng T) (d0 d1 n_iters : nat) (h : field_attr) (J : R)
  (st : list (list Z) * T) : result (list (list Z) * T) :=
  foldM (fun st _ =>
           let '(i, t) := randint g (snd st) 0%nat d0 in
           let '(j, t) := randint g t 0%nat d1 in
           bind (field_at h i j) (fun hij => Ok (flip_metropolis g i j hij J (fst st) t)))
        (range n_iters) st.

(** coniii/ising/automaton.py:66-69, the while loop around [single_iteration]. *)
Fixpoint iterate_loop {S} (single : S -> result S) (fuel size n_iters counter : nat) (st : S)
  : result S :=
  match fuel with
  | 0%nat => Err OutOfFuel
  | Datatypes.S fuel' =>
    if Nat.ltb counter n_iters
    then bind (single st) (fun st => iterate_loop single fuel' size n_iters (counter + size) st)
    else Ok st
  end.

(** coniii/ising/automaton.py:37-69 [Ising2D.iterate]. *)
Definition iterate {T} (g : rng T) (perm : T -> nat -> list nat * T) (fuel : nat) (h : field_attr) (J : R)
  (n_iters : nat) (systematic : bool) (st : list (list Z) * T) : result (list (list Z) * T) :=
  let d0 := dim0 (fst st) in
  let d1 := dim1 (fst st) in
  iterate_loop (if systematic then sweep_systematic g perm d0 d1 h J else random_flips g d0 d1 n_iters h J)
    fuel (d0 * d1) n_iters 0 st.

(** ** Coarse graining *)
(** [A += B] for two dimensional arrays: B must have the shape of A up to axes of
    length one, which are repeated; otherwise ValueError. *)
Definition zmat (r c : nat) (f : nat -> nat -> Z) : list (list Z) :=
  map (fun i => map (f i) (range c)) (range r).
Definition iadd (r c : nat) (A : list (list Z)) (br bc : nat) (B : nat -> nat -> Z) : result (list (list Z)) :=
  if ((Nat.eqb br r || Nat.eqb br 1) && (Nat.eqb bc c || Nat.eqb bc 1))%bool
  then Ok (zmat r c (fun a b => site A a b + B (if Nat.eqb br 1 then 0%nat else a) (if Nat.eqb bc 1 then 0%nat else b))%Z)
  else Err ValueError.

(** Number of elements of the slice [i::step] of an axis of length d. *)
Definition slice_len (d i step : nat) : nat := ((d - i + (step - 1)) / step)%nat.

(** coniii/ising/automaton.py:113-136 [coarse_grain].  [choice m] are the m random
    signs that replace the ties, in row-major order. *)
Fixpoint fill_ties (ties : list Z) (l : list Z) : list Z * list Z :=
  match l with
  | [] => ([], ties)
  | x :: l' =>
    if Z.eqb x 0 then
      match ties with
      | t :: ties' => let '(r, rest) := fill_ties ties' l' in (t :: r, rest)
      | [] => let '(r, rest) := fill_ties [] l' in (x :: r, rest)
      end
    else let '(r, rest) := fill_ties ties l' in (x :: r, rest)
  end.
Fixpoint fill_rows (ties : list Z) (L : list (list Z)) : list (list Z) :=
  match L with
  | [] => []
  | row :: L' => let '(r, rest) := fill_ties ties row in r :: fill_rows rest L'
  end.
Definition block_sums (L : list (list Z)) (factor : nat) : result (list (list Z)) :=
  let r := (dim0 L / factor)%nat in
  let c := (dim1 L / factor)%nat in
  let reL := r in
  foldM (fun A ij =>
           let '(i, j) := ij in
           iadd r c A (Nat.min reL (slice_len (dim0 L) i factor)) (Nat.min reL (slice_len (dim1 L) j factor))
             (fun a b => site L (i + factor * a) (j + factor * b)))
        (list_prod (range factor) (range factor)) (zmat r c (fun _ _ => 0%Z)).
Definition coarse_grain (choice : nat -> list Z) (L : list (list Z)) (factor : nat) : result (list (list Z)) :=
  if Nat.eqb factor 0 then Err ZeroDivisionError
  else
    bind (block_sums L factor) (fun A =>
    let S := map (map Z.sgn) A in
    Ok (fill_rows (choice (length (filter (fun z => Z.eqb z 0) (concat S)))) S)).
