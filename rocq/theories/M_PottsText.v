(** * Model of the text of the files written by coniii/enumerate_potts.py (character by
    character, with the point at which writing stops when an exception is raised) and of the
    import of such a file, complete or cut off, and the call of its functions. *)
From Coq Require Import Ascii String.
From Verif Require Import Prelude M_Index M_Enum M_EqnText.
Import ListNotations.
Local Open Scope char_scope.
Local Open Scope list_scope.

Definition tb : ascii := "009".

(** ** Printing *)
(** coniii/enumerate_potts.py:217-226: the text of an expression; the last sign is dropped. *)
Definition print_patom (a : patom) : text :=
  match a with Ph i => lit "h[" ++ str_nat i ++ lit "]" | PJ i => lit "J[" ++ str_nat i ++ lit "]" end.
Definition print_potts_term (t : list patom) : text := drop_end 1 (flat_map (fun a => print_patom a ++ ["+"]) t).

(** Characters of the coefficients (enumerate_potts.py:144-150). *)
Definition ctok_char (c : ctok) : ascii := match c with CDig true => "1" | CDig false => "0" | CNL => nl | CComma => "," end.

(** coniii/enumerate_potts.py:113-119: the lines of LICENSE.txt, complete lines and the rest after
    the last newline ([None]: file not found). *)
Definition print_potts_license (lic : option (list text * text)) : text :=
  match lic with
  | None => []
  | Some (ls, r) => flat_map (fun l => lit "# " ++ l ++ [nl]) ls ++ match r with [] => [] | _ => lit "# " ++ r end
  end.

(** coniii/enumerate_potts.py:93-120 [_write_header]. *)
Definition potts_header (lic : option (list text * text)) (date : text) (n k : nat) : text :=
  lit "# This file contains equations for the Potts model with " ++ str_nat n ++ lit " spins and " ++ str_nat k ++ line " states."
  ++ line "# Provided as part of ConIII package."
  ++ lit "# Written on " ++ date ++ line "."
  ++ line "#" ++ line "#"
  ++ print_potts_license lic ++ line "#"
  ++ line "from numpy import zeros, exp" ++ line "from ..enumerate import fast_logsumexp" ++ [nl].

(** coniii/enumerate_potts.py:126-134, 175-182: the first lines of either function, up to the
    bracket that opens the list of energies. *)
Definition potts_nparam (n k : nat) : nat := (n * k + n * (n - 1) / 2)%nat.
Definition potts_open (n k : nat) (name : string) (size : nat) : text :=
  tb :: lit "assert params.size==" ++ str_nat (potts_nparam n k) ++ [nl]
  ++ tb :: lit "h = params[:" ++ str_nat (n * k) ++ line "]"
  ++ tb :: lit "J = params[" ++ str_nat (n * k) ++ line ":]"
  ++ tb :: lit name ++ lit " = zeros(" ++ str_nat size ++ line ")"
  ++ tb :: lit "energies = [".

(** coniii/enumerate_potts.py:135-136, 183-184. *)
Definition potts_energy_line (t : list patom) : text := tb :: tb :: print_potts_term t ++ [","; nl].
(** coniii/enumerate_potts.py:138-141, 185-188. *)
Definition potts_close : text := tb :: tb :: line "]" ++ tb :: line "logZ = fast_logsumexp(energies)[0]".

(** coniii/enumerate_potts.py:155, 168. *)
Definition potts_obs_line (kc : nat * list ctok) : text :=
  tb :: lit "observables[" ++ str_nat (fst kc) ++ lit "] = exp(fast_logsumexp(energies, [" ++ map ctok_char (snd kc) ++ line "])[0] - logZ)".
(** coniii/enumerate_potts.py:191-192. *)
Definition potts_p_line (i : nat) : text :=
  tb :: lit "p[" ++ str_nat i ++ lit "] = exp(energies[" ++ str_nat i ++ line "] - logZ)".

(** coniii/enumerate_potts.py:122-193: the text of a file that is written completely. *)
Definition potts_text (lic : option (list text * text)) (date : text) (f : potts_file) : text :=
  let n := pf_n f in let k := pf_k f in
  potts_header lic date n k
  ++ line "def calc_observables(params):" ++ potts_open n k "observables" (potts_nparam n k)
  ++ flat_map potts_energy_line (pf_energies f) ++ potts_close
  ++ flat_map potts_obs_line (number (pf_coeffs f))
  ++ tb :: lit "return observables" ++ [nl; nl]
  ++ line "def p(params):" ++ potts_open n k "p" (k ^ n)
  ++ flat_map potts_energy_line (pf_energies f) ++ potts_close
  ++ flat_map potts_p_line (range (length (pf_energies f)))
  ++ tb :: line "return p".

(** One value of the generator (enumerate_potts.py:206-226, utils.py:280-303). *)
Definition potts_item (logest : nat -> nat -> nat) (n k i : nat) : result (list patom) :=
  bind (base_repr logest i k) (fun state => potts_term n (repeat "0" (n - length state) ++ state)).

(** coniii/enumerate_potts.py:132-134: lines are written until the generator raises. *)
Fixpoint lines_until (l : list (result (list patom))) : text * result unit :=
  match l with
  | [] => ([], Ok tt)
  | Err e :: _ => ([], Err e)
  | Ok t :: l' => let '(s, r) := lines_until l' in (potts_energy_line t ++ s, r)
  end.

(** coniii/enumerate_potts.py:83-91 [write]: what the file contains afterwards, and the exception
    if there is one (the constructor's assertions hold, and neither the disk nor LICENSE.txt
    makes trouble). *)
Definition write_potts_file (logest : nat -> nat -> nat) (lic : option (list text * text)) (date : text) (n k : nat) : text * result unit :=
  let '(s, r) := lines_until (map (potts_item logest n k) (seq 0 (k ^ n))) in
  let left := potts_header lic date n k ++ line "def calc_observables(params):" ++ potts_open n k "observables" (potts_nparam n k) ++ s in
  match r with
  | Err e => (left, Err e)
  | Ok _ => match write_potts logest n k with Ok f => (potts_text lic date f, Ok tt) | Err e => (left, Err e) end
  end.

(** ** Import *)
(** A tab at the beginning of a line counts as eight blanks; other tabs only separate tokens.
    (Exact here: the files contain no line with blanks before a tab.) *)
Definition untab (t : text) : text := flat_map (fun c => if Ascii.eqb c tb then lit "        " else [c]) t.

(** The tokens of a file.  The end of the file ends a line; there, no bracket and no string may
    be open: this is observed by adding two lines with a mark, which an open bracket would join
    and an open string swallow.  A syntax error is a GenericException. *)
Definition py_tokens (t : text) : result (list tok) :=
  match rev (lex (LBol 0) 0 (untab t ++ [nl; "$"; nl; "$"])) with
  | TOp "$" :: TLine 0 :: TOp "$" :: TLine 0 :: r => Ok (rev r)
  | _ => Err GenericException
  end.

(** Lines that are not indented, each with the indented lines that follow it; and the indented
    lines before the first of them. *)
Fixpoint blocks (ls : list (nat * list tok)) : list (nat * list tok) * list (list tok * list (nat * list tok)) :=
  match ls with
  | [] => ([], [])
  | (k, l) :: r => let '(body, bs) := blocks r in if Nat.eqb k 0 then ([], (l, body) :: bs) else ((k, l) :: body, bs)
  end.

(** [def f(params):]. *)
Definition def_name (l : list tok) : option text :=
  match l with
  | TName d :: TName f :: r => if text_eqb d (lit "def") then opt_bind (eat (T "(params):") r) (fun r => done r f) else None
  | _ => None
  end.

(** A function body is not empty and no line of it is indented less than the first (deeper lines
    belong to statements that are not modelled one by one). *)
Definition body_ok (b : list (nat * list tok)) : bool :=
  match b with [] => false | (k, _) :: b' => forallb (fun kl => Nat.leb k (fst kl)) b' end.

(** One of the given import lines. *)
Definition is_import (imps : list string) (l : list tok) : bool :=
  existsb (fun s => match eat (T s) l with Some [] => true | _ => false end) imps.

(** Execution of the lines of a module: the functions defined so far, the latest first, and the
    number of import lines.  [other l] is the effect of a line that is not an import of this kind
    of file nor a function definition: an exception or none. *)
Fixpoint run_module (imps : list string) (other : list tok -> option exn) (bs : list (list tok * list (nat * list tok)))
  (imported : nat) (fs : list (text * list (nat * list tok))) : result (nat * list (text * list (nat * list tok))) :=
  match bs with
  | [] => Ok (imported, fs)
  | (l, body) :: r =>
    match def_name l with
    | Some f => if body_ok body then run_module imps other r imported ((f, body) :: fs) else Err GenericException
    | None =>
      match body with
      | _ :: _ => Err GenericException
      | [] =>
        if is_import imps l then run_module imps other r (S imported) fs
        else match other l with Some e => Err e | None => run_module imps other r imported fs end
      end
    end
  end.

Definition find_fun (name : text) (fs : list (text * list (nat * list tok))) : option (list (nat * list tok)) :=
  option_map snd (find (fun f => text_eqb (fst f) name) fs).

(** The body of a function of an imported file; all import lines are needed (otherwise the
    first use of an imported name raises). *)
Definition import_fun (imps : list string) (other : list tok -> option exn) (t : text) (name : string) : result (list (nat * list tok)) :=
  bind (py_tokens t) (fun ts =>
  match blocks (snd (tok_lines ts)) with
  | ([], bs) => bind (run_module imps other bs 0 []) (fun m =>
      match find_fun (lit name) (snd m) with
      | None => Err AttributeError
      | Some body => if Nat.ltb (fst m) (length imps) then Err NameError else Ok body
      end)
  | _ => Err GenericException
  end).

(** ** Statements *)
Inductive pstmt :=
| PSAssert (k : nat)                       (* assert params.size==k *)
| PSh (k : nat)                            (* h = params[:k] *)
| PSJ (k : nat)                            (* J = params[k:] *)
| PSZeros (obs : bool) (k : nat)           (* observables = zeros(k); false: p *)
| PSEnergies (ts : list (list patom))      (* energies = [...] *)
| PSLogZ                                   (* logZ = fast_logsumexp(energies)[0] *)
| PSObs (k : nat) (cs : list nat)          (* observables[k] = exp(fast_logsumexp(energies, [...])[0] - logZ) *)
| PSP (k j : nat)                          (* p[k] = exp(energies[j] - logZ) *)
| PSReturn (l : list tok)                  (* return ... *)
| PSOther (l : list tok).                  (* anything else *)

(** A sum of atoms. *)
Fixpoint parse_patoms (l : list tok) : option (list patom * list tok) :=
  match l with
  | TName [c] :: TOp "[" :: TNum i :: TOp "]" :: r =>
    match (if Ascii.eqb c "h" then Some (Ph i) else if Ascii.eqb c "J" then Some (PJ i) else None) with
    | None => None
    | Some a => match r with TOp "+" :: r' => opt_bind (parse_patoms r') (fun x => Some (a :: fst x, snd x)) | _ => Some ([a], r) end
    end
  | _ => None
  end.
(** Sums, each followed by a comma, up to a closing bracket. *)
Fixpoint parse_psums (fuel : nat) (l : list tok) : option (list (list patom) * list tok) :=
  match fuel with
  | O => None
  | S f =>
    match l with
    | TOp "]" :: _ => Some ([], l)
    | _ => opt_bind (parse_patoms l) (fun x =>
           match snd x with TOp "," :: r => opt_bind (parse_psums f r) (fun y => Some (fst x :: fst y, snd y)) | _ => None end)
    end
  end.
(** Numbers separated by commas, one comma at the end allowed, up to a closing bracket. *)
Fixpoint parse_nums (l : list tok) : option (list nat * list tok) :=
  match l with
  | TOp "]" :: _ => Some ([], l)
  | TNum k :: TOp "," :: r => opt_bind (parse_nums r) (fun x => Some (k :: fst x, snd x))
  | TNum k :: TOp "]" :: r => Some ([k], TOp "]" :: r)
  | _ => None
  end.

Definition pp_assert (l : list tok) : option pstmt := opt_bind (eat (T "assert params.size==") l) (fun l => num l (fun k l => done l (PSAssert k))).
Definition pp_h (l : list tok) : option pstmt := opt_bind (eat (T "h = params[:") l) (fun l => num l (fun k l => opt_bind (eat (T "]") l) (fun l => done l (PSh k)))).
Definition pp_J (l : list tok) : option pstmt := opt_bind (eat (T "J = params[") l) (fun l => num l (fun k l => opt_bind (eat (T ":]") l) (fun l => done l (PSJ k)))).
Definition pp_zeros (obs : bool) (l : list tok) : option pstmt :=
  opt_bind (eat (T (if obs then "observables = zeros(" else "p = zeros(")) l) (fun l => num l (fun k l => opt_bind (eat (T ")") l) (fun l => done l (PSZeros obs k)))).
Definition pp_energies (l : list tok) : option pstmt :=
  opt_bind (eat (T "energies = [") l) (fun l => opt_bind (parse_psums (length l) l) (fun x => opt_bind (eat (T "]") (snd x)) (fun l => done l (PSEnergies (fst x))))).
Definition pp_logz (l : list tok) : option pstmt := opt_bind (eat (T "logZ = fast_logsumexp(energies)[0]") l) (fun l => done l PSLogZ).
Definition pp_obs (l : list tok) : option pstmt :=
  opt_bind (eat (T "observables[") l) (fun l => num l (fun k l => opt_bind (eat (T "] = exp(fast_logsumexp(energies, [") l) (fun l =>
  opt_bind (parse_nums l) (fun x => opt_bind (eat (T "])[0] - logZ)") (snd x)) (fun l => done l (PSObs k (fst x))))))).
Definition pp_p (l : list tok) : option pstmt :=
  opt_bind (eat (T "p[") l) (fun l => num l (fun k l => opt_bind (eat (T "] = exp(energies[") l) (fun l => num l (fun j l =>
  opt_bind (eat (T "] - logZ)") l) (fun l => done l (PSP k j)))))).

Definition parse_pstmt (l : list tok) : pstmt :=
  match l with
  | TName r :: l' => if text_eqb r (lit "return") then PSReturn l' else
    match or_else (pp_assert l) (or_else (pp_h l) (or_else (pp_J l) (or_else (pp_zeros true l) (or_else (pp_zeros false l)
          (or_else (pp_energies l) (or_else (pp_logz l) (or_else (pp_obs l) (pp_p l)))))))) with
    | Some s => s
    | None => PSOther l
    end
  | _ => PSOther l
  end.

(** ** Execution *)
Record pframe := { pv_h : option (list R); pv_J : option (list R); pv_energies : option (list R); pv_logz : option lval;
                   pv_obs : option (list (option R)); pv_p : option (list (option R)) }.
Definition pframe0 : pframe := {| pv_h := None; pv_J := None; pv_energies := None; pv_logz := None; pv_obs := None; pv_p := None |}.

(** One statement: the new frame, or the returned value ([None] is Python's None).  [other] is
    the effect of a statement that is none of the above and does not begin with return: it
    changes the frame in some way or raises.  (h and J are looked up even if no atom needs them.) *)
Definition pexec (other : list tok -> pframe -> result pframe) (params : list R) (fr : pframe) (s : pstmt)
  : result (pframe + option (list (option R))) :=
  match s with
  | PSAssert k => if Nat.eqb (length params) k then Ok (inl fr) else Err AssertionError
  | PSh k => Ok (inl {| pv_h := Some (firstn k params); pv_J := pv_J fr; pv_energies := pv_energies fr; pv_logz := pv_logz fr; pv_obs := pv_obs fr; pv_p := pv_p fr |})
  | PSJ k => Ok (inl {| pv_h := pv_h fr; pv_J := Some (skipn k params); pv_energies := pv_energies fr; pv_logz := pv_logz fr; pv_obs := pv_obs fr; pv_p := pv_p fr |})
  | PSZeros true k => Ok (inl {| pv_h := pv_h fr; pv_J := pv_J fr; pv_energies := pv_energies fr; pv_logz := pv_logz fr; pv_obs := Some (repeat (Some 0%R) k); pv_p := pv_p fr |})
  | PSZeros false k => Ok (inl {| pv_h := pv_h fr; pv_J := pv_J fr; pv_energies := pv_energies fr; pv_logz := pv_logz fr; pv_obs := pv_obs fr; pv_p := Some (repeat (Some 0%R) k) |})
  | PSEnergies ts => bind (var (pv_h fr)) (fun h => bind (var (pv_J fr)) (fun J => bind (mapM (eval_potts h J) ts) (fun e =>
      Ok (inl {| pv_h := pv_h fr; pv_J := pv_J fr; pv_energies := Some e; pv_logz := pv_logz fr; pv_obs := pv_obs fr; pv_p := pv_p fr |}))))
  | PSLogZ => bind (var (pv_energies fr)) (fun e => bind (fast_logsumexp e None) (fun z =>
      Ok (inl {| pv_h := pv_h fr; pv_J := pv_J fr; pv_energies := pv_energies fr; pv_logz := Some (fst z); pv_obs := pv_obs fr; pv_p := pv_p fr |})))
  | PSObs k cs => bind (var (pv_energies fr)) (fun e => bind (fast_logsumexp e (Some (map INR cs))) (fun x => bind (var (pv_logz fr)) (fun z =>
      bind (var (pv_obs fr)) (fun o => bind (set_item o k (exp_diff (fst x) z)) (fun o =>
      Ok (inl {| pv_h := pv_h fr; pv_J := pv_J fr; pv_energies := pv_energies fr; pv_logz := pv_logz fr; pv_obs := Some o; pv_p := pv_p fr |}))))))
  | PSP k j => bind (var (pv_energies fr)) (fun e => bind (get e j) (fun x => bind (var (pv_logz fr)) (fun z =>
      bind (var (pv_p fr)) (fun p => bind (set_item p k (exp_diff (Fin x) z)) (fun p =>
      Ok (inl {| pv_h := pv_h fr; pv_J := pv_J fr; pv_energies := pv_energies fr; pv_logz := pv_logz fr; pv_obs := pv_obs fr; pv_p := Some p |}))))))
  | PSReturn [] => Ok (inr None)
  | PSReturn [TName x] =>
      if text_eqb x (lit "observables") then bind (var (pv_obs fr)) (fun o => Ok (inr (Some o)))
      else if text_eqb x (lit "p") then bind (var (pv_p fr)) (fun p => Ok (inr (Some p)))
      else Err NameError
  | PSReturn _ => Err GenericException
  | PSOther l => bind (other l fr) (fun fr => Ok (inl fr))
  end.

Fixpoint prun (other : list tok -> pframe -> result pframe) (params : list R) (fr : pframe) (ss : list pstmt) : result (option (list (option R))) :=
  match ss with
  | [] => Ok None
  | s :: r => bind (pexec other params fr s) (fun x => match x with inl fr' => prun other params fr' r | inr v => Ok v end)
  end.

Definition potts_imps : list string := ["from numpy import zeros, exp"; "from ..enumerate import fast_logsumexp"]%string.

(** Import of a file with the given text and call of one of its functions. *)
Definition call_potts (other_top : list tok -> option exn) (other : list tok -> pframe -> result pframe)
  (t : text) (name : string) (params : list R) : result (option (list (option R))) :=
  bind (import_fun potts_imps other_top t name) (fun ls => prun other params pframe0 (map (fun kl => parse_pstmt (snd kl)) ls)).
