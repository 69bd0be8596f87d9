(** * Binary64 execution of the written equation files (enumerate.py), see M_Float.
    [fexp] and [flog] are numpy's exp and log; [osum] and [odot] are the orders in which
    np.sum and np.dot add. *)
From Coq Require Import Ascii String.
From Verif Require Import Prelude M_Index M_Enum M_Float.
Import ListNotations.
Local Open Scope R_scope.

(** ['+H[0]-J[1]...']: Python adds from left to right, the first sign is unary. *)
Fixpoint fl_eval_from (e : env) (acc : R) (l : list term) : result R :=
  match l with
  | [] => Ok acc
  | (neg, a) :: l' => bind (eval_atom e a) (fun x => fl_eval_from e (fadd acc (if neg then - x else x)) l')
  end.

Definition fl_eval_terms (e : env) (l : list term) : result R :=
  match l with
  | [] => Ok 0
  | (neg, a) :: l' => bind (eval_atom e a) (fun x => fl_eval_from e (if neg then - x else x) l')
  end.

Definition fl_log (flog : R -> R) (y : R) : lval := if Req_EM_T y 0 then NegInf else Fin (flog y).
Definition fl_ladd (a : lval) (x : R) : lval := match a with NegInf => NegInf | Fin y => Fin (fadd y x) end.

(** coniii/enumerate.py:522-549 [fast_logsumexp] in floats. *)
Definition fl_fast_logsumexp (fexp flog : R -> R) (osum odot : list R -> sum_tree) (X : list R) (coeffs : option (list R)) : result (lval * R) :=
  match X with
  | [] => Err ValueError
  | x0 :: X' =>
    let Xmx := max_from x0 X' in
    let es := map (fun x => fexp (fsub x Xmx)) X in
    bind (match coeffs with
          | None => Ok (tree_sum (osum es))
          | Some c => if negb (Nat.eqb (length c) (length X)) then Err ValueError
                      else Ok (tree_sum (odot (map (fun p => fmul (fst p) (snd p)) (combine es c))))
          end) (fun y =>
    if Rlt_dec y 0 then Ok (fl_ladd (fl_log flog (Rabs y)) Xmx, - 1)
    else Ok (fl_ladd (fl_log flog y) Xmx, 1))
  end.

(** [exp(a-b)] in floats. *)
Definition fl_exp_diff (fexp : R -> R) (a b : lval) : option R :=
  match a, b with
  | Fin x, Fin y => Some (fexp (fsub x y))
  | NegInf, Fin _ => Some 0
  | _, NegInf => None
  end.

(** The written [calc_observables] (enumerate.py:191-221) in floats. *)
Definition fl_run_calc_observables (fexp flog : R -> R) (osum odot : list R -> sum_tree) (f : eqn_file) (params : list R) : result (list R) :=
  bind (mapM (fl_eval_terms (make_env f params)) (ef_terms f)) (fun energyTerms =>
  bind (fl_fast_logsumexp fexp flog osum odot energyTerms None) (fun z =>
  mapM (fun c => bind (fl_fast_logsumexp fexp flog osum odot energyTerms (Some (map IZR c))) (fun num =>
        Ok (nan_to_0 (option_map (fun x => fmul x (snd num)) (fl_exp_diff fexp (fst num) (fst z))))))
       (ef_coeffs f))).

(** The written [p] (enumerate.py:224-246) in floats. *)
Definition fl_run_p (fexp flog : R -> R) (osum odot : list R -> sum_tree) (f : eqn_file) (params : list R) : result (list (option R)) :=
  let e := make_env f params in
  bind (mapM (fl_eval_terms e) (ef_terms f)) (fun energyTerms =>
  bind (fl_fast_logsumexp fexp flog osum odot energyTerms None) (fun z =>
  bind (mapM (fun t => bind (fl_eval_terms e t) (fun x => Ok (fl_exp_diff fexp (Fin x) (fst z)))) (ef_probs f))
       (fun Pout => Ok (if ef_rev f then rev Pout else Pout)))).
