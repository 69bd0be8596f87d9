(** * Model of compiled signatures (coniii/utils.py), of HamiltonianMC.sample and
    generate_sample and of the chain of Heisenberg3DSampler (coniii/samplers.py). *)
From Verif Require Import Prelude M_Index M_Params M_Energy M_Heisenberg.
Import ListNotations.
Local Open Scope R_scope.

(** ** numba signatures *)
(** Element type and number of dimensions of an array. *)
Inductive dtype : Set := Int64 | Float64 | OtherType (k : nat).
Definition aty : Set := (dtype * nat)%type.
Definition dtype_eqb (a b : dtype) : bool :=
  match a, b with
  | Int64, Int64 | Float64, Float64 => true
  | OtherType j, OtherType k => Nat.eqb j k
  | _, _ => false
  end.
Fixpoint types_eqb (a b : list aty) : bool :=
  match a, b with
  | [], [] => true
  | x :: a', y :: b' => dtype_eqb (fst x) (fst y) && Nat.eqb (snd x) (snd y) && types_eqb a' b'
  | _, _ => false
  end.

(** A function decorated with a signature is compiled at once for these argument types and
    for no others; arrays are never converted.  Without one it is compiled on demand. *)
Inductive compiled : Set := OnDemand | Signature (types : list aty).

(** A call; numba's TypingError at compile time is [TypeError] here as well. *)
Definition numba_call {A} (f : compiled) (args : list aty) (value : A) : result A :=
  match f with
  | OnDemand => Ok value
  | Signature sig => if types_eqb sig args then Ok value else Err TypeError
  end.

(** coniii/utils.py:933-962: fast_sum has no signature, calc_e has
    "float64[:](int64[:,:],float64[:])"; its body, compiled with the decorator, calls
    fast_sum(params[s.shape[1]:], s). *)
Definition calc_e_signature : list aty := [(Int64, 2%nat); (Float64, 1%nat)].
Definition define_ising_helper_functions : result compiled :=
  bind (numba_call OnDemand [(Float64, 1%nat); (Int64, 2%nat)] tt) (fun _ => Ok (Signature calc_e_signature)).

(** coniii/utils.py:990-1027, 1056: here fast_sum has the signature
    "float64[:](int64[:],float64[:,:])" and calc_e calls fast_sum(params, s). *)
Definition fast_sum_sym_signature : list aty := [(Int64, 1%nat); (Float64, 2%nat)].
Definition define_ising_helper_functions_sym : result compiled :=
  bind (numba_call (Signature fast_sum_sym_signature) [(Float64, 1%nat); (Int64, 2%nat)] tt) (fun _ => Ok (Signature calc_e_signature)).

(** coniii/utils.py:945-962: calc_e(s, params) on arrays of the given types. *)
Definition ising_calc_e_typed (ts tp : aty) (S : list (list R)) (params : list R) : result (list R) :=
  bind define_ising_helper_functions (fun f => numba_call f [ts; tp] (ising_calc_e S params)).
Definition ising_sym_calc_e_typed (ts tp : aty) (S : list (list R)) (params : list R) : result (list R) :=
  bind define_ising_helper_functions_sym (fun f => numba_call f [ts; tp] (map (fun s => ising_sym_calc_e_row s params) S)).

(** ** HamiltonianMC *)
Section HMC.
Variable calc_e : list R -> R.
Variable grad_e : list R -> list R.

(** coniii/samplers.py:1954-1995, the loop of [sample]: [draw c] are momentum and uniform
    number of pass c.  As in [hmc_step], [xnew = x] (1973) is the array of the caller and is
    changed in place whether or not the proposal is accepted.  The loop ends after the first
    pass with counter>nBurn. *)
Fixpoint hmc_sample_loop (fuel : nat) (dt : R) (leapfrogN nBurn counter : nat) (draw : nat -> list R * R)
  (st : list R * R * list R) (copies : list (list R)) : result (list R * list (list R)) :=
  match fuel with
  | O => Err OutOfFuel
  | S fuel' =>
    let st := hmc_step calc_e grad_e dt leapfrogN st (draw counter) in
    let copies := copies ++ [fst (fst st)] in
    if Nat.ltb nBurn counter then Ok (fst (fst st), copies)
    else hmc_sample_loop fuel' dt leapfrogN nBurn (S counter) draw st copies
  end.

(** coniii/samplers.py:1950-1999 [sample] with saveHistory: history[0] is not a copy but the
    array x0 itself (1955), which holds the final position at the end. *)
Definition hmc_sample (dt : R) (leapfrogN nBurn : nat) (draw : nat -> list R * R) (x0 : list R) : result (list R * list (list R)) :=
  bind (hmc_sample_loop (nBurn + 2) dt leapfrogN nBurn 0 draw (x0, calc_e x0, grad_e x0) []) (fun r =>
  Ok (fst r, fst r :: snd r)).

(** coniii/samplers.py:2001-2045 [generate_sample] with x0 given, nSamples = len(x0).  In one
    process the slow branch (2024-2027) uses the local name [samples] before any assignment; with
    several processes the fast one (2035-2038) uses it inside the closure f, whose result is to
    be assigned to it (a NameError of Python; that numba may report the empty closure cell
    by an exception of another class is not modelled).  np.vstack of no rows raises ValueError. *)
Definition hmc_generate_sample (dt : R) (leapfrogN nBurn nCpus : nat) (fast : bool) (draw : nat -> nat -> list R * R) (x0 : list (list R))
  : result (list (list R)) :=
  let rows := combine (range (length x0)) x0 in
  match nCpus, fast with
  | O, true => Ok (map (fun ix => jit_sample calc_e grad_e (snd ix) dt leapfrogN (map (draw (fst ix)) (range nBurn))) rows)
  | O, false => Err UnboundLocalError
  | S _, true => match x0 with [] => Err ValueError | _ => Err NameError end
  | S _, false => match x0 with [] => Err ValueError | _ => mapM (fun ix => bind (hmc_sample dt leapfrogN nBurn (draw (fst ix)) (snd ix)) (fun r => Ok (fst r))) rows end
  end.
End HMC.

(** ** Heisenberg3DSampler *)
(** coniii/samplers.py:2258-2264 [sample_nearby_sample]: one new vector per vector; [draw i] are
    the numbers drawn for vector i.  None: some component is nan. *)
Fixpoint sample_nearby_sample (draw : nat -> (nat -> R) * (nat -> R)) (i : nat) (X : list (list R)) (sigma : R) : result (option (list (list R))) :=
  match X with
  | [] => Ok (Some [])
  | x :: X' =>
    bind (sample_nearby_vector (fst (draw i)) (snd (draw i)) x 1 sigma) (fun r =>
    bind (sample_nearby_sample draw (S i) X' sigma) (fun rest =>
    Ok (match r, rest with Some l, Some l' => Some (l ++ l') | _, _ => None end)))
  end.

Section Chain.
Variable calc_e : list (list R) -> R.

(** coniii/samplers.py:2180-2190 [sample_metropolis] (oldState is overwritten on acceptance);
    the state None holds a nan.  Comparisons with nan are false, so such a proposal is
    accepted and never left; the first component of the draws are those of the proposal. *)
Definition heis_metropolis (st : option (list (list R)) * option R) (r : (nat -> (nat -> R) * (nat -> R)) * R)
  : result (option (list (list R)) * option R) :=
  match fst st with
  | None => Ok (None, None)
  | Some old =>
    bind (sample_nearby_sample (fst r) 0 old (3 / 10)) (fun new =>
    match new with
    | None => Ok (None, None)
    | Some newState =>
      let E1 := calc_e newState in
      match snd st with
      | Some E0 =>
        let de := E1 - E0 in
        if Rlt_dec 0 de then (if Rlt_dec (exp (- de)) (snd r) then Ok (Some old, Some E0) else Ok (Some newState, Some E1))
        else Ok (Some newState, Some E1)
      | None => Ok (Some newState, Some E1)
      end
    end)
  end.

(** coniii/samplers.py:2156-2169 [equilibrate_samples] in one process, one sample: n_iters
    updates starting from its energy; [generate_sample] (2143-2147) applies it to random
    samples and returns them. *)
Definition heis_equilibrate (s : list (list R)) (rs : list ((nat -> (nat -> R) * (nat -> R)) * R)) : result (option (list (list R)) * option R) :=
  foldM heis_metropolis rs (Some s, Some (calc_e s)).
End Chain.
