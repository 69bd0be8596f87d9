(** * Model of the text of the files written by coniii/enumerate.py (printer, character by
    character) and of its execution by Python (lexer, parser and interpreter for the
    statements that occur in such files).  The expressions and coefficients are those of
    [M_Enum]. *)
From Coq Require Import Ascii String.
From Verif Require Import Prelude M_Index M_Enum.
Import ListNotations.
Local Open Scope char_scope.

Definition text := list ascii.
Definition lit (s : string) : text := list_ascii_of_string s.
Definition nl : ascii := "010".
Definition line (s : string) : text := lit s ++ [nl].

(** ** Printing *)
Definition digit (d : nat) : ascii := ascii_of_nat (48 + d).
Fixpoint digits (fuel n : nat) : text :=
  match fuel with
  | O => []
  | S f => if Nat.ltb n 10 then [digit n] else (digits f (n / 10) ++ [digit (n mod 10)])%list
  end.
(** Python's [str] of a natural number and of an integer. *)
Definition str_nat (n : nat) : text := digits (S n) n.
Definition str_int (z : Z) : text := if Z.ltb z 0 then "-" :: str_nat (Z.to_nat (- z)) else str_nat (Z.to_nat z).

(** coniii/enumerate.py:319-325, 337-344: the text of an expression. *)
Definition print_term (t : term) : text :=
  (if fst t then "-" else "+") :: match snd t with AZero => ["0"] | AVar c i => c :: "[" :: str_nat i ++ ["]"] end.
Definition print_terms (l : list term) : text := flat_map print_term l.

(** coniii/enumerate.py:89: [re.sub(r'\+0\+','+',s)]. *)
Fixpoint re_sub_plus0 (s : text) : text :=
  match s with
  | [] => []
  | c1 :: r1 =>
    match r1 with
    | c2 :: c3 :: r => if (Ascii.eqb c1 "+" && Ascii.eqb c2 "0" && Ascii.eqb c3 "+")%bool then "+" :: re_sub_plus0 r else c1 :: re_sub_plus0 r1
    | _ => c1 :: re_sub_plus0 r1
    end
  end.

(** coniii/enumerate.py:90: [re.sub(r'\)\+0',')',s)]. *)
Fixpoint re_sub_paren (s : text) : text :=
  match s with
  | [] => []
  | c1 :: r1 =>
    match r1 with
    | c2 :: c3 :: r => if (Ascii.eqb c1 ")" && Ascii.eqb c2 "+" && Ascii.eqb c3 "0")%bool then ")" :: re_sub_paren r else c1 :: re_sub_paren r1
    | _ => c1 :: re_sub_paren r1
    end
  end.

(** coniii/enumerate.py:75-91: [expterms[state]]. *)
Definition expterm_text (n : nat) (sym : bool) (cts : list (list (list nat))) (state : nat) : text :=
  let bs := binstate n state in
  re_sub_paren (re_sub_plus0 (print_terms (flat_map (fun ci => let '(c, subix) := ci in
     if sym then get_terms11 subix c bs else get_terms01 subix c bs) (combine abc cts)))) ++ lit ", ".

(** [s[:-k]]. *)
Definition drop_end (k : nat) (s : text) : text := firstn (length s - k) s.

(** coniii/enumerate.py:263-266: the text of a line (reversed) and the rest; [last] is the last
    character of the line. *)
Fixpoint extend_to_plus (last : ascii) (a : text) (b : text) : text * text :=
  match b with
  | [] => (a, [])
  | c :: b' => if Ascii.eqb last "+" then (a, b) else extend_to_plus c (c :: a) b'
  end.

(** coniii/enumerate.py:261-272: loop over lines; [Z] is the text from position i on. *)
Fixpoint energy_lines (fuel : nat) (Z : text) : result text :=
  match fuel with
  | O => Err OutOfFuel
  | S f =>
    match Z with
    | [] => Ok []
    | _ =>
      let a := rev (firstn 100 Z) in
      let '(a, b) := extend_to_plus (hd " " a) a (skipn 100 Z) in
      match b with
      | [] => Ok (lit "            " ++ drop_end 1 Z ++ line "])" ++ line "    logZ = fast_logsumexp(energyTerms)[0]")%list
      | _ => bind (energy_lines f b) (fun rest => Ok (lit "    " ++ rev a ++ nl :: rest)%list)
      end
    end
  end.

(** coniii/enumerate.py:248-272 [_write_energy_terms]. *)
Definition write_energy_terms (Z : text) : result text :=
  bind (energy_lines (S (length Z)) Z) (fun t => Ok (lit "    energyTerms = array([" ++ t)%list).

(** [str] of a one-dimensional integer array (numpy >= 1.14, line width 75, no summarisation:
    enumerate.py:37): entries padded to a common width, separated by blanks, lines wrapped. *)
Definition pad (w : nat) (s : text) : text := (repeat " " (w - length s) ++ s)%list.
Fixpoint lstrip (s : text) : text := match s with c :: r => if Ascii.eqb c " " then lstrip r else s | [] => [] end.
Definition rstrip (s : text) : text := rev (lstrip (rev s)).
Definition extend_line (s line word : text) : text * text :=
  if (Nat.ltb 74 (length line + length word) && Nat.ltb 1 (length line))%bool
  then ((s ++ rstrip line ++ [nl])%list, " " :: word)
  else (s, (line ++ word)%list).
Fixpoint np_loop (s line : text) (words : list text) : text :=
  match words with
  | [] => (s ++ line)%list
  | x :: r =>
    let '(s, line) := extend_line s line x in
    match r with [] => (s ++ line)%list | _ => np_loop s (line ++ [" "])%list r end
  end.
Definition np_str (a : list Z) : text :=
  let words := map str_int a in
  let w := list_max (map (@length _) words) in
  ("[" :: skipn 1 (np_loop [] [" "] (map (pad w) words)) ++ ["]"])%list.

(** [s.replace(xy, by)] for a pattern of two different characters. *)
Fixpoint replace2 (x y : ascii) (by_ : text) (s : text) : text :=
  match s with
  | [] => []
  | c1 :: r1 =>
    match r1 with
    | c2 :: r => if (Ascii.eqb c1 x && Ascii.eqb c2 y)%bool then (by_ ++ replace2 x y by_ r)%list else c1 :: replace2 x y by_ r1
    | [] => [c1]
    end
  end.

(** coniii/enumerate.py:197, 205. *)
Definition print_coeffs (sym : bool) (a : list Z) : text :=
  if sym then replace2 "1" nl ["1"; ","; nl] (replace2 "1" " " ["1"; ","] (np_str a))
  else replace2 "1" nl ["1"; ","; nl] (replace2 "0" nl ["0"; ","; nl] (replace2 "1" " " ["1"; ","] (replace2 "0" " " ["0"; ","] (np_str a)))).

(** coniii/enumerate.py:192-207: [eqns]. *)
Definition print_eqn (sym : bool) (ka : nat * list Z) : text :=
  (lit "    num = fast_logsumexp(energyTerms, " ++ print_coeffs sym (snd ka) ++ line ")"
   ++ lit "    Cout[" ++ str_nat (fst ka) ++ line "] = exp( num[0] - logZ ) * num[1]")%list.

(** coniii/enumerate.py:189-190: [H = params[a:b]]. *)
Definition print_slice (cs : ascii * (nat * nat)) : text :=
  (lit "    " ++ [fst cs] ++ lit " = params[" ++ str_nat (fst (snd cs)) ++ [":"] ++ str_nat (snd (snd cs)) ++ line "]")%list.

Definition print_zeros (name : string) (k : nat) (hp : bool) : text :=
  (lit "    " ++ lit name ++ lit " = zeros((" ++ str_nat k ++ (if hp then line "), dtype=object)" else line "))"))%list.

Definition number {A} (l : list A) : list (nat * A) := combine (range (length l)) l.

(** coniii/enumerate.py:158-166: license text ([None]: file not found). *)
Definition print_license (license : option (list text)) : text :=
  match license with
  | None => []
  | Some ls => (flat_map (fun l => lit "# " ++ l ++ [nl]) ls ++ [nl])%list
  end.

(** coniii/enumerate.py:119-246 [write_py]. *)
Definition write_py (license : option (list text)) (date : text) (hp : bool) (n : nat) (sym : bool)
  (slices : list (ascii * (nat * nat))) (coeffs : list (list Z)) (expterms : list text) (Z extra : text) : result text :=
  bind (write_energy_terms Z) (fun eterms =>
  let slices_text := flat_map print_slice slices in
  let vardec := (print_zeros "Cout" (length coeffs) hp ++ slices_text)%list in
  Ok (print_license license
   ++ lit "# Equations for " ++ str_nat n ++ line "-spin Ising model." ++ [nl]
   ++ lit "# " ++ date ++ [nl]
   ++ (if hp then line "from numpy import zeros, array, prod" ++ line "from ..enumerate import mp_fast_logsumexp as fast_logsumexp"
                  ++ line "from mpmath import exp, isnan" ++ [nl]
       else line "from numpy import zeros, exp, array, prod, isnan" ++ line "from ..enumerate import fast_logsumexp" ++ [nl])
   ++ line "def calc_observables(params):"
   ++ line "    """"""" ++ line "    Give all parameters concatenated into one array from lowest to highest order."
   ++ line "    Returns all correlations." ++ line "    """""""
   ++ vardec ++ eterms ++ flat_map (print_eqn sym) (number coeffs)
   ++ (if hp then line "    for i in range(Cout.size):" ++ line "         if isnan(Cout[i]):" ++ line "             Cout[i] = 0."
       else line "    Cout[isnan(Cout)] = 0.")
   ++ line "    return(Cout)" ++ [nl]
   ++ line "def p(params):"
   ++ line "    """"""" ++ line "    Give all parameters concatenated into one array from lowest to highest order."
   ++ line "    Returns probabilities of all configurations." ++ line "    """""""
   ++ vardec ++ slices_text ++ print_zeros "Pout" (2 ^ n) hp ++ eterms
   ++ flat_map (fun ke => lit "    Pout[" ++ str_nat (fst ke) ++ lit "] = exp( " ++ drop_end 2 (snd ke) ++ line " - logZ )") (number expterms)
   ++ extra ++ [nl] ++ line "    return(Pout)")%list).

(** coniii/enumerate.py:40-117 [write_eqns]: the text of the file. *)
Definition write_eqns_text (license : option (list text)) (date : text) (hp : bool) (n : nat) (sym : bool) (cts : list (list (list nat))) : result text :=
  if Nat.ltb (length abc) (length cts) then Err IndexError
  else
  bind (mapM (signs_of n sym) cts) (fun signs =>
  let expterms := map (expterm_text n sym cts) (seq 0 (2 ^ n)) in
  write_py license date hp n sym (combine abc (cum_slices 0 (map (@length _) signs))) (concat signs)
    expterms (concat expterms) (if sym then nl :: lit "    Pout = Pout[::-1]" else [])).

(** coniii/enumerate.py:411-469. *)
Definition pairwise_text license date hp n sym :=
  write_eqns_text license date hp n sym [ [range n]; [map fst (where_triu n); map snd (where_triu n)] ].
Definition triplet_text license date hp n sym :=
  write_eqns_text license date hp n sym [ [range n]; zip_star 2 (combinations (range n) 2); zip_star 3 (combinations (range n) 3) ].

(** ** Reading: lexer *)
(** Tokens; [TLine k] begins a logical line indented by k blanks. *)
Inductive tok := TName (s : text) | TNum (k : nat) | TOp (c : ascii) | TStr | TLine (k : nat) | TBad.

Inductive lstate :=
| LBol (k : nat)      (* start of a logical line, k blanks read *)
| LMid | LName (s : text) | LNum (v : nat)
| LComment (bol : bool) | LQuote (k : nat) | LStr (q : nat).

Definition is_digit (c : ascii) : bool := (Nat.leb 48 (nat_of_ascii c) && Nat.leb (nat_of_ascii c) 57)%bool.
Definition is_letter (c : ascii) : bool :=
  let m := nat_of_ascii c in
  (Nat.leb 65 m && Nat.leb m 90 || Nat.leb 97 m && Nat.leb m 122 || Nat.eqb m 95)%bool.
Definition digit_val (c : ascii) : nat := nat_of_ascii c - 48.

(** The first character of a token, or a character between tokens; [d] is the number of open
    brackets: inside brackets a newline is white space. *)
Definition lex_start (d : nat) (c : ascii) : list tok * (lstate * nat) :=
  if Ascii.eqb c nl then ([], (if Nat.eqb d 0 then LBol 0 else LMid, d))
  else if Ascii.eqb c " " then ([], (LMid, d))
  else if Ascii.eqb c "#" then ([], (LComment false, d))
  else if Ascii.eqb c """" then ([], (LQuote 1, d))
  else if is_letter c then ([], (LName [c], d))
  else if is_digit c then ([], (LNum (digit_val c), d))
  else if (Ascii.eqb c "(" || Ascii.eqb c "[")%bool then ([TOp c], (LMid, S d))
  else if (Ascii.eqb c ")" || Ascii.eqb c "]")%bool then ([TOp c], (LMid, d - 1))
  else ([TOp c], (LMid, d)).

Definition emit (ts : list tok) (x : list tok * (lstate * nat)) : list tok * (lstate * nat) := (ts ++ fst x, snd x)%list.

Definition lex_step (st : lstate) (d : nat) (c : ascii) : list tok * (lstate * nat) :=
  match st with
  | LBol k =>
    if Ascii.eqb c " " then ([], (LBol (S k), d))
    else if Ascii.eqb c nl then ([], (LBol 0, d))
    else if Ascii.eqb c "#" then ([], (LComment true, d))
    else emit [TLine k] (lex_start d c)
  | LMid => lex_start d c
  | LName s => if (is_letter c || is_digit c)%bool then ([], (LName (c :: s), d)) else emit [TName (rev s)] (lex_start d c)
  | LNum v => if is_digit c then ([], (LNum (10 * v + digit_val c), d)) else emit [TNum v] (lex_start d c)
  | LComment _ => if Ascii.eqb c nl then ([], (if Nat.eqb d 0 then LBol 0 else LMid, d)) else ([], (st, d))
  | LQuote k => if Ascii.eqb c """" then if Nat.eqb k 2 then ([TStr], (LStr 0, d)) else ([], (LQuote (S k), d)) else ([TBad], (LMid, d))
  | LStr q => if Ascii.eqb c """" then if Nat.eqb q 2 then ([], (LMid, d)) else ([], (LStr (S q), d)) else ([], (LStr 0, d))
  end.

Fixpoint lex (st : lstate) (d : nat) (s : text) : list tok :=
  match s with
  | [] => match st with LName s => [TName (rev s)] | LNum v => [TNum v] | LQuote _ | LStr _ => [TBad] | _ => [] end
  | c :: r => let '(out, (st', d')) := lex_step st d c in (out ++ lex st' d' r)%list
  end.

(** Tokens grouped by logical line. *)
Fixpoint tok_lines (l : list tok) : list tok * list (nat * list tok) :=
  match l with
  | [] => ([], [])
  | t :: r => let '(h, ls) := tok_lines r in match t with TLine k => ([], (k, h) :: ls) | _ => (t :: h, ls) end
  end.

(** ** Parser *)
Inductive stmt :=
| SZeros (cout : bool) (k : nat)                  (* Cout = zeros((k)); false: Pout *)
| SSlice (c : ascii) (a b : nat)                  (* H = params[a:b] *)
| SEnergies (ts : list (list term))               (* energyTerms = array([...]) *)
| SLogZ                                           (* logZ = fast_logsumexp(energyTerms)[0] *)
| SNum (a : list Z)                               (* num = fast_logsumexp(energyTerms, [...]) *)
| SCout (k : nat)                                 (* Cout[k] = exp( num[0] - logZ ) * num[1] *)
| SNan                                            (* Cout[isnan(Cout)] = 0. *)
| SPout (k : nat) (t : list term)                 (* Pout[k] = exp( ... - logZ ) *)
| SReverse                                        (* Pout = Pout[::-1] *)
| SReturn (cout : bool)
| SDoc.                                           (* a string *)

Fixpoint text_eqb (a b : text) : bool :=
  match a, b with
  | [], [] => true
  | c :: a', d :: b' => (Ascii.eqb c d && text_eqb a' b')%bool
  | _, _ => false
  end.
Definition tok_eqb (a b : tok) : bool :=
  match a, b with
  | TName s, TName t => text_eqb s t
  | TNum k, TNum m => Nat.eqb k m
  | TOp c, TOp d => Ascii.eqb c d
  | TStr, TStr => true
  | TLine k, TLine m => Nat.eqb k m
  | _, _ => false
  end.

(** The tokens of a fixed text. *)
Definition T (s : string) : list tok := lex LMid 1 (lit s).

(** Strip a fixed prefix. *)
Fixpoint eat (p l : list tok) : option (list tok) :=
  match p with
  | [] => Some l
  | a :: p' => match l with b :: l' => if tok_eqb a b then eat p' l' else None | [] => None end
  end.
Definition num {A} (l : list tok) (k : nat -> list tok -> option A) : option A :=
  match l with TNum v :: l' => k v l' | _ => None end.
Definition opt_bind {A B} (o : option A) (f : A -> option B) : option B := match o with Some a => f a | None => None end.
Definition or_else {A} (a b : option A) : option A := match a with Some _ => a | None => b end.
Definition done {A} (l : list tok) (a : A) : option A := match l with [] => Some a | _ => None end.

(** A sum of signed atoms [+H[3]-J[0]+0], as far as it goes; a sign that is followed by the
    name logZ is not part of it. *)
Fixpoint parse_terms (l : list tok) : list term * list tok :=
  match l with
  | TOp s :: r =>
    if (Ascii.eqb s "+" || Ascii.eqb s "-")%bool then
      match r with
      | TName [c] :: TOp "[" :: TNum i :: TOp "]" :: r' => let '(ts, r'') := parse_terms r' in ((Ascii.eqb s "-", AVar c i) :: ts, r'')
      | TNum 0 :: r' => let '(ts, r'') := parse_terms r' in ((Ascii.eqb s "-", AZero) :: ts, r'')
      | _ => ([], l)
      end
    else ([], l)
  | _ => ([], l)
  end.

(** Expressions, each followed by a comma, up to a closing bracket. *)
Fixpoint parse_sums (fuel : nat) (l : list tok) : option (list (list term) * list tok) :=
  match fuel with
  | O => None
  | S f =>
    match l with
    | TOp "]" :: _ => Some ([], l)
    | _ => let '(ts, r) := parse_terms l in
           match ts, r with
           | _ :: _, TOp "," :: r' => opt_bind (parse_sums f r') (fun x => Some (ts :: fst x, snd x))
           | _, _ => None
           end
    end
  end.

(** Integers separated by commas up to a closing bracket. *)
Fixpoint parse_ints (l : list tok) : option (list Z * list tok) :=
  match l with
  | TOp "-" :: TNum k :: TOp "," :: r => opt_bind (parse_ints r) (fun x => Some ((- Z.of_nat k)%Z :: fst x, snd x))
  | TOp "-" :: TNum k :: TOp "]" :: r => Some ([(- Z.of_nat k)%Z], TOp "]" :: r)
  | TNum k :: TOp "," :: r => opt_bind (parse_ints r) (fun x => Some (Z.of_nat k :: fst x, snd x))
  | TNum k :: TOp "]" :: r => Some ([Z.of_nat k], TOp "]" :: r)
  | _ => None
  end.

Definition p_zeros (cout : bool) (l : list tok) : option stmt :=
  opt_bind (eat (T (if cout then "Cout = zeros((" else "Pout = zeros((")) l) (fun l => num l (fun k l =>
  or_else (opt_bind (eat (T "))") l) (fun l => done l (SZeros cout k)))
          (opt_bind (eat (T "), dtype=object)") l) (fun l => done l (SZeros cout k))))).
Definition p_slice (l : list tok) : option stmt :=
  match l with
  | TName [c] :: l => opt_bind (eat (T "= params[") l) (fun l => num l (fun a l => opt_bind (eat (T ":") l) (fun l => num l (fun b l =>
                      opt_bind (eat (T "]") l) (fun l => done l (SSlice c a b))))))
  | _ => None
  end.
Definition p_energies (l : list tok) : option stmt :=
  opt_bind (eat (T "energyTerms = array([") l) (fun l => opt_bind (parse_sums (length l) l) (fun x =>
  opt_bind (eat (T "])") (snd x)) (fun l => done l (SEnergies (fst x))))).
Definition p_logz (l : list tok) : option stmt := opt_bind (eat (T "logZ = fast_logsumexp(energyTerms)[0]") l) (fun l => done l SLogZ).
Definition p_num (l : list tok) : option stmt :=
  opt_bind (eat (T "num = fast_logsumexp(energyTerms, [") l) (fun l => opt_bind (parse_ints l) (fun x =>
  opt_bind (eat (T "])") (snd x)) (fun l => done l (SNum (fst x))))).
Definition p_cout (l : list tok) : option stmt :=
  opt_bind (eat (T "Cout[") l) (fun l => num l (fun k l => opt_bind (eat (T "] = exp( num[0] - logZ ) * num[1]") l) (fun l => done l (SCout k)))).
Definition p_nan (l : list tok) : option stmt := opt_bind (eat (T "Cout[isnan(Cout)] = 0.") l) (fun l => done l SNan).
Definition p_pout (l : list tok) : option stmt :=
  opt_bind (eat (T "Pout[") l) (fun l => num l (fun k l => opt_bind (eat (T "] = exp(") l) (fun l =>
  let '(ts, r) := parse_terms l in
  match ts with [] => None | _ => opt_bind (eat (T "- logZ )") r) (fun l => done l (SPout k ts)) end))).
Definition p_reverse (l : list tok) : option stmt := opt_bind (eat (T "Pout = Pout[::-1]") l) (fun l => done l SReverse).
Definition p_return (cout : bool) (l : list tok) : option stmt :=
  opt_bind (eat (T (if cout then "return(Cout)" else "return(Pout)")) l) (fun l => done l (SReturn cout)).
Definition p_doc (l : list tok) : option stmt := match l with [TStr] => Some SDoc | _ => None end.

Definition parse_stmt (l : list tok) : option stmt :=
  or_else (p_zeros true l) (or_else (p_zeros false l) (or_else (p_energies l) (or_else (p_logz l) (or_else (p_num l)
  (or_else (p_cout l) (or_else (p_nan l) (or_else (p_pout l) (or_else (p_reverse l) (or_else (p_return true l)
  (or_else (p_return false l) (or_else (p_doc l) (p_slice l)))))))))))).

(** The body of a function: logical lines indented by 4; the loop that replaces NaN in the high
    precision files takes three lines. *)
Definition nan_loop (l l2 l3 : list tok) : option unit :=
  opt_bind (eat (T "for i in range(Cout.size):") l) (fun l => opt_bind (eat (T "if isnan(Cout[i]):") l2) (fun l2 =>
  opt_bind (eat (T "Cout[i] = 0.") l3) (fun l3 => done (l ++ l2 ++ l3)%list tt))).
Fixpoint parse_body (ls : list (nat * list tok)) : option (list stmt * list (nat * list tok)) :=
  match ls with
  | (4, l) :: rest =>
    match rest with
    | (9, l2) :: (13, l3) :: rest' => opt_bind (nan_loop l l2 l3) (fun _ => opt_bind (parse_body rest') (fun x => Some (SNan :: fst x, snd x)))
    | _ => opt_bind (parse_stmt l) (fun s => opt_bind (parse_body rest) (fun x => Some (s :: fst x, snd x)))
    end
  | _ => Some ([], ls)
  end.

(** Imports: each name has the expected meaning. *)
Definition imports (ls : list (nat * list tok)) : option (list (nat * list tok)) :=
  match ls with
  | (0, l1) :: (0, l2) :: ls' =>
    or_else
      (opt_bind (eat (T "from numpy import zeros, exp, array, prod, isnan") l1) (fun l1 => opt_bind (eat (T "from ..enumerate import fast_logsumexp") l2) (fun l2 =>
       done (l1 ++ l2)%list ls')))
      (match ls' with
       | (0, l3) :: ls'' => opt_bind (eat (T "from numpy import zeros, array, prod") l1) (fun l1 =>
                            opt_bind (eat (T "from ..enumerate import mp_fast_logsumexp as fast_logsumexp") l2) (fun l2 =>
                            opt_bind (eat (T "from mpmath import exp, isnan") l3) (fun l3 => done (l1 ++ l2 ++ l3)%list ls'')))
       | _ => None
       end)
  | _ => None
  end.

Definition header (s : string) (ls : list (nat * list tok)) : option (list (nat * list tok)) :=
  match ls with (0, l) :: ls' => opt_bind (eat (T s) l) (fun l => done l ls') | _ => None end.

(** The two functions of a file. *)
Definition read_file (s : text) : option (list stmt * list stmt) :=
  opt_bind (imports (snd (tok_lines (lex (LBol 0) 0 s)))) (fun ls =>
  opt_bind (header "def calc_observables(params):" ls) (fun ls => opt_bind (parse_body ls) (fun x =>
  opt_bind (header "def p(params):" (snd x)) (fun ls => opt_bind (parse_body ls) (fun y =>
  match snd y with [] => Some (fst x, fst y) | _ => None end))))).

(** ** Execution *)
(** Local variables; an entry of Cout or Pout is None when it is NaN. *)
Record frame := { fr_vars : env; fr_energies : option (list R); fr_logz : option lval; fr_num : option (lval * R);
                  fr_cout : option (list (option R)); fr_pout : option (list (option R)) }.

Definition var {A} (o : option A) : result A := match o with Some a => Ok a | None => Err UnboundLocalError end.

(** [l[k] = x] of an array. *)
Definition set_item {A} (l : list A) (k : nat) (x : A) : result (list A) := if Nat.ltb k (length l) then Ok (upd l k x) else Err IndexError.

(** One statement: the new frame, or the returned array. *)
Definition exec (params : list R) (fr : frame) (s : stmt) : result (frame + list (option R)) :=
  match s with
  | SDoc => Ok (inl fr)
  | SZeros true k => Ok (inl {| fr_vars := fr_vars fr; fr_energies := fr_energies fr; fr_logz := fr_logz fr; fr_num := fr_num fr;
                                fr_cout := Some (repeat (Some 0%R) k); fr_pout := fr_pout fr |})
  | SZeros false k => Ok (inl {| fr_vars := fr_vars fr; fr_energies := fr_energies fr; fr_logz := fr_logz fr; fr_num := fr_num fr;
                                 fr_cout := fr_cout fr; fr_pout := Some (repeat (Some 0%R) k) |})
  | SSlice c a b => Ok (inl {| fr_vars := (c, slice params a b) :: fr_vars fr; fr_energies := fr_energies fr; fr_logz := fr_logz fr; fr_num := fr_num fr;
                               fr_cout := fr_cout fr; fr_pout := fr_pout fr |})
  | SEnergies ts => bind (mapM (eval_terms (fr_vars fr)) ts) (fun e =>
      Ok (inl {| fr_vars := fr_vars fr; fr_energies := Some e; fr_logz := fr_logz fr; fr_num := fr_num fr; fr_cout := fr_cout fr; fr_pout := fr_pout fr |}))
  | SLogZ => bind (var (fr_energies fr)) (fun e => bind (fast_logsumexp e None) (fun z =>
      Ok (inl {| fr_vars := fr_vars fr; fr_energies := fr_energies fr; fr_logz := Some (fst z); fr_num := fr_num fr; fr_cout := fr_cout fr; fr_pout := fr_pout fr |})))
  | SNum a => bind (var (fr_energies fr)) (fun e => bind (fast_logsumexp e (Some (map IZR a))) (fun z =>
      Ok (inl {| fr_vars := fr_vars fr; fr_energies := fr_energies fr; fr_logz := fr_logz fr; fr_num := Some z; fr_cout := fr_cout fr; fr_pout := fr_pout fr |})))
  | SCout k => bind (var (fr_num fr)) (fun nm => bind (var (fr_logz fr)) (fun z => bind (var (fr_cout fr)) (fun c =>
      bind (set_item c k (option_map (fun x => x * snd nm)%R (exp_diff (fst nm) z))) (fun c =>
      Ok (inl {| fr_vars := fr_vars fr; fr_energies := fr_energies fr; fr_logz := fr_logz fr; fr_num := fr_num fr; fr_cout := Some c; fr_pout := fr_pout fr |})))))
  | SNan => bind (var (fr_cout fr)) (fun c =>
      Ok (inl {| fr_vars := fr_vars fr; fr_energies := fr_energies fr; fr_logz := fr_logz fr; fr_num := fr_num fr;
                 fr_cout := Some (map (fun x => Some (nan_to_0 x)) c); fr_pout := fr_pout fr |}))
  | SPout k t => bind (eval_terms (fr_vars fr) t) (fun x => bind (var (fr_logz fr)) (fun z => bind (var (fr_pout fr)) (fun p =>
      bind (set_item p k (exp_diff (Fin x) z)) (fun p =>
      Ok (inl {| fr_vars := fr_vars fr; fr_energies := fr_energies fr; fr_logz := fr_logz fr; fr_num := fr_num fr; fr_cout := fr_cout fr; fr_pout := Some p |})))))
  | SReverse => bind (var (fr_pout fr)) (fun p =>
      Ok (inl {| fr_vars := fr_vars fr; fr_energies := fr_energies fr; fr_logz := fr_logz fr; fr_num := fr_num fr; fr_cout := fr_cout fr; fr_pout := Some (rev p) |}))
  | SReturn true => bind (var (fr_cout fr)) (fun c => Ok (inr c))
  | SReturn false => bind (var (fr_pout fr)) (fun p => Ok (inr p))
  end.

Definition frame0 : frame := {| fr_vars := []; fr_energies := None; fr_logz := None; fr_num := None; fr_cout := None; fr_pout := None |}.

(** A function body; without a return statement the result is None (not a value here). *)
Fixpoint exec_body (params : list R) (fr : frame) (ss : list stmt) : result (list (option R)) :=
  match ss with
  | [] => Err GenericException
  | s :: rest => bind (exec params fr s) (fun x => match x with inl fr' => exec_body params fr' rest | inr v => Ok v end)
  end.

(** Import of a file and call of one of its functions; a text that is not understood is a
    syntax error. *)
Definition call_calc_observables (s : text) (params : list R) : result (list (option R)) :=
  match read_file s with Some (c, _) => exec_body params frame0 c | None => Err GenericException end.
Definition call_p (s : text) (params : list R) : result (list (option R)) :=
  match read_file s with Some (_, p) => exec_body params frame0 p | None => Err GenericException end.
