(** * The arguments of convert_corr: coniii/utils.py:563-616. *)
From Coq Require Import String.
From Verif Require Import Prelude M_Index M_Params.
Import ListNotations.

(** coniii/utils.py:563, 588-616 [convert_corr] as it is called: [convert_to = None] for a call
    without this argument, [kwargs] the names of the further keyword arguments.  The deprecated
    name is read as a variable, which does not exist. *)
Definition convert_corr_call (si sisj : list R) (convert_to : option basis) (concat : bool) (kwargs : list string)
  : result (list R * list R + list R) :=
  match convert_to with
  | None => Err TypeError
  | Some b =>
    if existsb (String.eqb "convertTo") kwargs then Err NameError
    else match kwargs with
         | _ :: _ => Err TypeError
         | [] => bind (convert_corr si sisj b) (fun r => Ok (if concat then inr (fst r ++ snd r) else inl r))
         end
  end.
