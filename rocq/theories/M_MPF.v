(** * Model of the class MPF in coniii/solvers.py:453-724.
    States are real vectors; [calc_e s params] is the energy of one state (one row of
    model.calc_e), [calc_de s j] one row of calc_de.  Counts are real numbers.
    Not modelled: floating point, scipy's minimiser (an oracle returning the point). *)
From Verif Require Import Prelude M_Index M_Params M_Energy M_Corr.
Import ListNotations.
Local Open Scope R_scope.

Section MPF.
Variable calc_e : list R -> list R -> R.

(** coniii/solvers.py:526-527: contributions of one data state. *)
Definition dobj (params : list R) (s : list R) (c : R) (adjs : list (list R)) : list R :=
  map (fun a => c * exp (/ 2 * (calc_e s params - calc_e a params))) adjs.

(** coniii/solvers.py:528-533: the loop over parameters for one data state.  The size
    test on line 530 always passes because dobj has one entry per adjacent state. *)
Definition grad_step (calc_de : list R -> nat -> result R) (params s : list R) (d : list R) (adjs : list (list R)) (objGrad : list R)
  : result (list R) :=
  mapM (fun j =>
    bind (calc_de s j) (fun d0 =>
    bind (mapM (fun a => calc_de a j) adjs) (fun ds =>
    Ok (nthR objGrad j + / 2 * sumf (combine d ds) (fun p => fst p * (d0 - snd p)))))) (range (length params)).

(** coniii/solvers.py:503-549 [K]: objective and, when calc_de is set, gradient. *)
Definition mpf_K (calc_de : option (list R -> nat -> result R)) (Xuniq : list (list R)) (Xcount : list R)
  (adjacentStates : list (list (list R))) (params : list R) : result (R * option (list R)) :=
  bind (foldM (fun st i =>
      let '(obj, objGrad) := st in
      bind (get Xuniq i) (fun s =>
      bind (get Xcount i) (fun c =>
      bind (get adjacentStates i) (fun adjs =>
      let d := dobj params s c adjs in
      bind (match calc_de with
            | None => Ok objGrad
            | Some de => grad_step de params s d adjs objGrad
            end) (fun objGrad =>
      Ok (obj + sumR d, objGrad))))))
    (range (length Xuniq)) (0, repeat 0 (length params))) (fun st =>
  Ok (fst st / sumR Xcount, match calc_de with None => None | Some _ => Some (map (fun g => g / sumR Xcount) (snd st)) end)).

(** Maximum of a list of reals, 0 when empty (numpy raises). *)
Definition rmax (l : list R) : R := match l with [] => 0 | x :: l' => fold_left Rmax l' x end.

(** coniii/solvers.py:598-602: energy differences.  All states must have as many
    neighbours as the first one (rows of size one, which would be broadcast, are not
    modelled). *)
Definition power_rows (params : list R) (Xuniq : list (list R)) (adjacentStates : list (list (list R))) : result (list (list R)) :=
  bind (get adjacentStates 0) (fun a0 =>
  mapM (fun i =>
    bind (get Xuniq i) (fun s =>
    bind (get adjacentStates i) (fun adjs =>
    if Nat.eqb (length adjs) (length a0)
    then Ok (map (fun a => / 2 * (calc_e s params - calc_e a params)) adjs)
    else Err ValueError))) (range (length Xuniq))).

(** coniii/solvers.py:613-615: rows of gradcoef for one parameter. *)
Definition gradcoef_rows (calc_de : list R -> nat -> result R) (i : nat) (Xuniq : list (list R)) (adjacentStates : list (list (list R)))
  : result (list (list R)) :=
  mapM (fun j =>
    bind (get Xuniq j) (fun s =>
    bind (get adjacentStates j) (fun adjs =>
    bind (calc_de s i) (fun d0 =>
    bind (mapM (fun a => calc_de a i) adjs) (fun ds =>
    Ok (map (fun d => / 2 * (d0 - d)) ds)))))) (range (length Xuniq)).

(** Sum over all entries of gradcoef*exp(power)*Xcount[:,None], resp. exp(power)*Xcount. *)
Definition weighted_sum (Xcount : list R) (power gradcoef : list (list R)) : R :=
  sumf (combine Xcount (combine power gradcoef)) (fun t =>
    sumf (combine (fst (snd t)) (snd (snd t))) (fun pg => snd pg * exp (fst pg) * fst t)).

Definition weight_sum (Xcount : list R) (power : list (list R)) : R :=
  sumf (combine Xcount power) (fun t => sumf (snd t) (fun p => exp p * fst t)).

(** coniii/solvers.py:616 [power -= power.max()]. *)
Definition shift_power (power : list (list R)) : list (list R) := map (map (fun p => p - rmax (concat power))) power.

(** coniii/solvers.py:578-623 [logK]; [power] is shifted by its maximum in every turn of
    the loop over parameters, the logarithm of the number of samples is subtracted from
    the gradient on line 619. *)
Definition mpf_logK (calc_de : option (list R -> nat -> result R)) (Xuniq : list (list R)) (Xcount : list R)
  (adjacentStates : list (list (list R))) (params : list R) : result (R * option (list R)) :=
  bind (power_rows params Xuniq adjacentStates) (fun power =>
  if negb (Nat.eqb (length Xcount) (length Xuniq)) then Err ValueError else
  let obj := logsumexp (concat (map (fun t => map (fun p => p + ln (fst t) - ln (sumR Xcount)) (snd t)) (combine Xcount power))) in
  match calc_de with
  | None => Ok (obj, None)
  | Some de =>
    bind (foldM (fun st i =>
        let '(power, objGrad) := st in
        bind (gradcoef_rows de i Xuniq adjacentStates) (fun gradcoef =>
        let power := shift_power power in
        Ok (power, objGrad ++ [weighted_sum Xcount power gradcoef / weight_sum Xcount power])))
      (range (length params)) (power, [])) (fun st =>
    let objGrad := map (fun g => g - ln (sumR Xcount)) (snd st) in
    if Nat.eqb (length objGrad) 1 then Err GenericException else Ok (obj, Some objGrad))
  end).
End MPF.

(** coniii/solvers.py:625-651 [list_adjacent_states]; with all_connected=False the loop
    body reads the name X, which is not defined in this method. *)
Definition list_adjacent_states (adjf : list R -> list (list R)) (all_connected : bool) (Xuniq : list (list R))
  : result (list (list (list R))) :=
  if all_connected then Ok (map adjf Xuniq)
  else match Xuniq with [] => Ok [] | _ => Err NameError end.

(** The attributes adj and calc_de of the object; None: the attribute does not exist. *)
Record mpf := { mpf_adj : option (list R -> list (list R)); mpf_calc_de : option (option (list R -> nat -> result R)) }.

(** coniii/solvers.py:454-496 [MPF.__init__]: the attributes are only set when the
    arguments are None (adj: the function of utils.py, calc_de: None). *)
Definition mpf_new (adj_arg : option (list R -> list (list R))) (calc_de_arg : option (list R -> nat -> result R)) : mpf :=
  {| mpf_adj := match adj_arg with None => Some (fun s => fst (adj s)) | Some _ => None end;
     mpf_calc_de := match calc_de_arg with None => Some None | Some _ => None end |}.

Definition attr {A} (x : option A) : result A := match x with Some a => Ok a | None => Err AttributeError end.

(** ising_convert_params(split_concat_params(x, n), b, True). *)
Definition convert_concat (n : nat) (x : list R) (b : basis) : result (list R) :=
  bind (split_concat_params (S (length x)) x n) (fun ps => bind (ising_convert_params ps b) (fun ps => Ok (concat ps))).

(** coniii/solvers.py:653-723 [solve]; [sample] in {-1,1}; [minimize f guess limit] is
    the point returned by scipy. *)
Definition mpf_solve (calc_e : list R -> list R -> R) (obs : list R -> list R) (lt : list Z -> list Z -> bool) (o : mpf)
  (n : nat) (sample : list (list Z)) (initial_guess : option (list R)) (all_connected : bool) (parameter_limits : R) (uselog : bool)
  (minimize : (list R -> result (R * option (list R))) -> list R -> R -> list R) : result (list R) :=
  if negb (Rltb 0 parameter_limits) then Err AssertionError else
  let X := map (map (fun x => ((x + 1) / 2)%Z)) sample in
  bind (attr (mpf_calc_de o)) (fun calc_de =>
  bind (match initial_guess with
        | None => Ok (map (fun k => sumf X (fun r => nthR (obs (map IZR r)) k) / INR (length X)) (range (length (obs (repeat 0 n)))))
        | Some g => convert_concat n g To01
        end) (fun guess =>
  let us := np_unique lt X in
  let Xuniq := map (map IZR) us in
  let Xcount := map (fun u => INR (length (filter (row_eqb u) X))) us in
  bind (match Xuniq with [] => Ok (fun _ => []) | _ => attr (mpf_adj o) end) (fun adjf =>
  bind (list_adjacent_states adjf all_connected Xuniq) (fun adjacentStates =>
  let f := fun params => if uselog then mpf_logK calc_e calc_de Xuniq Xcount adjacentStates params
                         else mpf_K calc_e calc_de Xuniq Xcount adjacentStates params in
  convert_concat n (minimize f guess parameter_limits) To11)))).
