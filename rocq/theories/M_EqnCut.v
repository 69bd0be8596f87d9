(** * Damaged equation files
    What Python does with any text in place of an equation file of coniii/enumerate.py (124-246),
    in particular with a file whose writing was interrupted.  Lexer and statements: [M_EqnText];
    modules and functions: [M_PottsText]. *)
From Coq Require Import Ascii String.
From Verif Require Import Prelude M_Enum M_EqnText M_PottsText.
Import ListNotations.
Local Open Scope char_scope.
Local Open Scope list_scope.

(** coniii/enumerate.py:171-177. *)
Definition eqn_imps (hp : bool) : list string :=
  if hp then ["from numpy import zeros, array, prod"; "from ..enumerate import mp_fast_logsumexp as fast_logsumexp"; "from mpmath import exp, isnan"]%string
  else ["from numpy import zeros, exp, array, prod, isnan"; "from ..enumerate import fast_logsumexp"]%string.

(** The rest of a line that begins with return. *)
Definition return_of (l : list tok) : option (list tok) :=
  match l with TName r :: l' => if text_eqb r (lit "return") then Some l' else None | _ => None end.

(** One line.  [other k l fr]: the effect of a line of another form, indented by k. *)
Definition xstep (other : nat -> list tok -> frame -> result frame) (params : list R) (fr : frame) (k : nat) (l : list tok)
  : result (frame + list (option R)) :=
  match parse_stmt l with Some s => exec params fr s | None => bind (other k l fr) (fun fr => Ok (inl fr)) end.

(** The lines of a function; [None] is Python's None.  The loop that replaces NaN (lines 216-217 of
    coniii/enumerate.py) takes three lines.  Lines of other nested blocks are run one after another (they do not
    occur in these files, except in an incomplete loop at the very end). *)
Fixpoint xrun (other : nat -> list tok -> frame -> result frame) (params : list R) (fr : frame) (ls : list (nat * list tok))
  : result (option (list (option R))) :=
  match ls with
  | [] => Ok None
  | (k, l) :: rest =>
    match return_of l with
    | Some [] => Ok None
    | Some [TOp "("; TName x; TOp ")"] =>
        if text_eqb x (lit "Cout") then bind (var (fr_cout fr)) (fun c => Ok (Some c))
        else if text_eqb x (lit "Pout") then bind (var (fr_pout fr)) (fun p => Ok (Some p))
        else Err NameError
    | Some _ => Err GenericException
    | None =>
      let one := fun rest' => bind (xstep other params fr k l) (fun x => match x with inl fr' => xrun other params fr' rest' | inr v => Ok (Some v) end) in
      match rest with
      | (9, l2) :: (13, l3) :: rest' =>
        match nan_loop l l2 l3 with
        | Some _ => bind (exec params fr SNan) (fun x => match x with inl fr' => xrun other params fr' rest' | inr v => Ok (Some v) end)
        | None => one rest
        end
      | _ => one rest
      end
    end
  end.

(** Import of a file with the given text and call of one of its functions. *)
Definition call_eqn (hp : bool) (other_top : list tok -> option exn) (other : nat -> list tok -> frame -> result frame)
  (t : text) (name : string) (params : list R) : result (option (list (option R))) :=
  bind (import_fun (eqn_imps hp) other_top t name) (fun ls => xrun other params frame0 ls).
