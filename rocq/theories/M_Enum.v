(** * Model of coniii/enumerate.py and coniii/enumerate_potts.py: the programs that
    write Python files with the equations of a model, and the meaning of the
    written files.  A written file is a data structure (the parts of the text that
    vary with the size) and [run_*] is its execution.  The text itself (numerals, spaces,
    license header, line breaks, numpy's printing of coefficient arrays) is modelled in
    M_EqnText for enumerate.py and in M_PottsText for enumerate_potts.py. *)
From Coq Require Import Ascii String.
From Verif Require Import Prelude M_Index.
Import ListNotations.
Local Open Scope R_scope.

(** A float that may be -infinity, the possible values of np.log(y), y>=0. *)
Inductive lval := NegInf | Fin (x : R).

(** [np.log(y)] for y >= 0: log 0 = -inf. *)
Definition np_log (y : R) : lval := if Req_EM_T y 0 then NegInf else Fin (ln y).

Definition ladd (a : lval) (x : R) : lval := match a with NegInf => NegInf | Fin y => Fin (y + x) end.

(** Python [max(X)] of a non-empty list. *)
Fixpoint max_from (m : R) (l : list R) : R :=
  match l with [] => m | x :: l' => max_from (if Rlt_dec m x then x else m) l' end.

(** coniii/enumerate.py:541-545: the arguments of exp. *)
Definition lse_args (X : list R) (Xmx : R) : list R := map (fun x => x - Xmx) X.

(** coniii/enumerate.py:522-549 [fast_logsumexp] (551-577 [mp_fast_logsumexp] is the
    same computation on mpmath numbers). *)
Definition fast_logsumexp (X : list R) (coeffs : option (list R)) : result (lval * R) :=
  match X with
  | [] => Err ValueError
  | x0 :: X' =>
    let Xmx := max_from x0 X' in
    bind (match coeffs with
          | None => Ok (sumR (map exp (lse_args X Xmx)))
          | Some c => if negb (Nat.eqb (length c) (length X)) then Err ValueError
                      else Ok (dot (map exp (lse_args X Xmx)) c)
          end) (fun y =>
    if Rlt_dec y 0 then Ok (ladd (np_log (Rabs y)) Xmx, - 1)
    else Ok (ladd (np_log y) Xmx, 1))
  end.

(** [exp(a-b)] on such floats; None is NaN. *)
Definition exp_diff (a b : lval) : option R :=
  match a, b with
  | Fin x, Fin y => Some (exp (x - y))
  | NegInf, Fin _ => Some 0
  | _, NegInf => None
  end.

(** ** enumerate.py *)

(** A signed atom of an energy expression: ['+H[3]'], ['-J[0]'] or ['+0'].
    [true] is the minus sign. *)
Inductive atom := AZero | AVar (letter : ascii) (ix : nat).
Definition term := (bool * atom)%type.

(** coniii/enumerate.py:64, 151. *)
Definition abc : list ascii := list_ascii_of_string "HJKLMNOPQRSTUVWXYZABCDE".

(** coniii/enumerate.py:76-78: binary digits of [state], zero-filled to n. *)
Definition binstate (n : nat) (state : nat) : list Z :=
  let b := match N.of_nat state with N0 => [0%Z] | Npos p => pos_bits p [] end in
  repeat 0%Z (n - length b) ++ b.

(** [binstate[k[j]]=="1"] for each array k of [subix]. *)
Definition ones_at (subix : list (list nat)) (bs : list Z) (j : nat) : list bool :=
  map (fun k => Z.eqb (nth (nth j k 0%nat) bs 0%Z) 1) subix.

Definition count_true (l : list bool) : nat := length (filter (fun b => b) l).

(** coniii/enumerate.py:310-326 [get_terms11]. *)
Definition get_terms11 (subix : list (list nat)) (prefix : ascii) (bs : list Z) : list term :=
  match subix with
  | [] => []
  | k0 :: _ => map (fun j => (Nat.eqb (count_true (ones_at subix bs j) mod 2) 1, AVar prefix j))
                   (range (length k0))
  end.

(** coniii/enumerate.py:328-345 [get_terms01]. *)
Definition get_terms01 (subix : list (list nat)) (prefix : ascii) (bs : list Z) : list term :=
  match subix with
  | [] => []
  | k0 :: _ =>
    let s := flat_map (fun j => if forallb (fun b => b) (ones_at subix bs j)
                                then [(false, AVar prefix j)] else [])
                      (range (length k0)) in
    match s with [] => [(false, AZero)] | _ => s end
  end.

(** coniii/enumerate.py:89: [re.sub(r'\+0\+','+',...)]: leftmost non-overlapping
    matches of '+0+'; the '+' that ends a match is not looked at again.  Line 90
    never matches (no parenthesis is ever written). *)
Fixpoint re_sub0 (l : list term) : list term :=
  match l with
  | (false, AZero) :: l' =>
    match l' with
    | (false, a) :: l'' => (false, a) :: re_sub0 l''
    | _ => (false, AZero) :: re_sub0 l'
    end
  | t :: l' => t :: re_sub0 l'
  | [] => []
  end.

(** coniii/enumerate.py:274-308 [_compute_signs]; [None] when it returns None. *)
Definition compute_signs (subix : list (list nat)) (bs : list Z) (sym : bool) : option (list Z) :=
  match subix with
  | [] => None
  | k0 :: _ => Some (map (fun j =>
      if sym then (if Nat.eqb (count_true (ones_at subix bs j) mod 2) 1 then -1 else 1)%Z
      else (if existsb negb (ones_at subix bs j) then 0 else 1)%Z) (range (length k0)))
  end.

(** A written file: the slices [H = params[a:b]], the expressions of energyTerms,
    the coefficient vectors of the correlations, the expressions of the
    probabilities, and whether Pout is reversed. *)
Record eqn_file := {
  ef_slices : list (ascii * (nat * nat));
  ef_terms : list (list term);
  ef_coeffs : list (list Z);
  ef_probs : list (list term);
  ef_rev : bool }.

(** coniii/enumerate.py:81-91: the expression of one state. *)
Definition expterm (n : nat) (sym : bool) (cts : list (list (list nat))) (state : nat) : list term :=
  let bs := binstate n state in
  re_sub0 (flat_map (fun ci => let '(c, subix) := ci in
             if sym then get_terms11 subix c bs else get_terms01 subix c bs) (combine abc cts)).

(** coniii/enumerate.py:93-109: [signs[i][j]] collects the sign of term j of order i
    over all states. *)
Definition signs_of (n : nat) (sym : bool) (subix : list (list nat)) : result (list (list Z)) :=
  bind (mapM (fun state => match compute_signs subix (binstate n state) sym with
                           | None => Err AttributeError
                           | Some s => Ok s end) (seq 0 (2 ^ n))) (fun per_state =>
  let size := length (nth 0 per_state []) in
  Ok (map (fun j => map (fun s => nth j s 0%Z) per_state) (range size))).

(** [np.hstack((0,np.cumsum(lens)))], as consecutive (start,stop) pairs. *)
Fixpoint cum_slices (start : nat) (lens : list nat) : list (nat * nat) :=
  match lens with [] => [] | l :: ls => (start, (start + l)%nat) :: cum_slices (start + l) ls end.

(** coniii/enumerate.py:40-247 [write_eqns] and [write_py].  More orders than
    letters raise IndexError (abc[i]). *)
Definition write_eqns (n : nat) (sym : bool) (cts : list (list (list nat))) : result eqn_file :=
  if Nat.ltb (length abc) (length cts) then Err IndexError
  else
  bind (mapM (signs_of n sym) cts) (fun signs =>
  let terms := map (expterm n sym cts) (seq 0 (2 ^ n)) in
  Ok {| ef_slices := combine abc (cum_slices 0 (map (@length _) signs));
        ef_terms := terms;
        ef_coeffs := concat signs;
        ef_probs := terms;
        ef_rev := sym |}).

(** [np.where(np.triu(np.ones((n,n)),k=1)==1)]: indices of the strict upper triangle,
    row by row. *)
Definition where_triu (n : nat) : list (nat * nat) :=
  filter (fun p => Nat.ltb (fst p) (snd p)) (list_prod (range n) (range n)).

(** coniii/enumerate.py:411-438 [pairwise]. *)
Definition pairwise (n : nat) (sym : bool) : result eqn_file :=
  write_eqns n sym [ [range n]; [map fst (where_triu n); map snd (where_triu n)] ].

(** [list(zip( *L))] for a list L of k-tuples. *)
Definition zip_star (k : nat) (L : list (list nat)) : list (list nat) :=
  match L with [] => [] | _ => map (fun d => map (fun t => nth d t 0%nat) L) (range k) end.

(** coniii/enumerate.py:440-469 [triplet]. *)
Definition triplet (n : nat) (sym : bool) : result eqn_file :=
  write_eqns n sym [ [range n]; zip_star 2 (combinations (range n) 2); zip_star 3 (combinations (range n) 3) ].

(** *** Execution of a written file *)

(** The local variables H, J, ...: later assignments shadow earlier ones. *)
Definition env := list (ascii * list R).
Fixpoint lookup (e : env) (c : ascii) : result (list R) :=
  match e with [] => Err NameError | (d, v) :: e' => if Ascii.eqb c d then Ok v else lookup e' c end.

(** coniii/enumerate.py:189-190: [H = params[a:b]]. *)
Definition make_env (f : eqn_file) (params : list R) : env :=
  rev (map (fun cs => (fst cs, slice params (fst (snd cs)) (snd (snd cs)))) (ef_slices f)).

Definition eval_atom (e : env) (a : atom) : result R :=
  match a with
  | AZero => Ok 0
  | AVar c i => bind (lookup e c) (fun v => get v i)
  end.

Fixpoint eval_terms (e : env) (l : list term) : result R :=
  match l with
  | [] => Ok 0
  | (neg, a) :: l' => bind (eval_atom e a) (fun x => bind (eval_terms e l') (fun y =>
                      Ok ((if neg then - x else x) + y)))
  end.

(** [Cout[isnan(Cout)] = 0.] *)
Definition nan_to_0 (x : option R) : R := match x with Some y => y | None => 0 end.

(** The written [calc_observables] (enumerate.py:191-221). *)
Definition run_calc_observables (f : eqn_file) (params : list R) : result (list R) :=
  bind (mapM (eval_terms (make_env f params)) (ef_terms f)) (fun energyTerms =>
  bind (fast_logsumexp energyTerms None) (fun z =>
  mapM (fun c => bind (fast_logsumexp energyTerms (Some (map IZR c))) (fun num =>
        Ok (nan_to_0 (option_map (fun x => x * snd num) (exp_diff (fst num) (fst z))))))
       (ef_coeffs f))).

(** The written [p] (enumerate.py:224-246). *)
Definition run_p (f : eqn_file) (params : list R) : result (list (option R)) :=
  let e := make_env f params in
  bind (mapM (eval_terms e) (ef_terms f)) (fun energyTerms =>
  bind (fast_logsumexp energyTerms None) (fun z =>
  bind (mapM (fun t => bind (eval_terms e t) (fun x => Ok (exp_diff (Fin x) (fst z)))) (ef_probs f))
       (fun Pout => Ok (if ef_rev f then rev Pout else Pout)))).

(** ** enumerate_potts.py *)

(** Tokens of a written coefficient list: '0'/'1', newline, comma. *)
Inductive ctok := CDig (b : bool) | CNL | CComma.

(** coniii/enumerate_potts.py:53-60 [insert_newlines], with fuel for the while loop. *)
Fixpoint insert_newlines (fuel : nat) (s : list ctok) (n i : nat) : result (list ctok) :=
  match fuel with
  | O => Err OutOfFuel
  | S f => if Nat.ltb i (length s) then insert_newlines f (firstn i s ++ CNL :: skipn i s) n (i + n + 2)
           else Ok s
  end.

(** [','.join(s)]. *)
Fixpoint join_comma (s : list ctok) : list ctok :=
  match s with [] => [] | [t] => [t] | t :: s' => t :: CComma :: join_comma s' end.

(** [.replace('\n,','\n')]. *)
Fixpoint replace_nl (s : list ctok) : list ctok :=
  match s with
  | CNL :: s' => CNL :: match s' with CComma :: s'' => replace_nl s'' | _ => replace_nl s' end
  | t :: s' => t :: replace_nl s'
  | [] => []
  end.

(** Python's reading of the elements of a list literal (newlines ignored, trailing
    comma allowed). *)
Fixpoint read_elems (s : list ctok) : result (list bool) :=
  match s with
  | [] => Ok []
  | CDig b :: s' =>
    match s' with
    | [] => Ok [b]
    | CComma :: s'' => bind (read_elems s'') (fun l => Ok (b :: l))
    | _ => Err GenericException
    end
  | _ => Err GenericException
  end.
Definition is_nl (t : ctok) : bool := match t with CNL => true | _ => false end.
Definition read_list (s : list ctok) : result (list bool) :=
  read_elems (filter (fun t => negb (is_nl t)) s).

(** [int(c)] of a one-character string. *)
Definition int_of_char (c : ascii) : result nat :=
  let m := nat_of_ascii c in
  if Nat.leb 48 m && Nat.leb m 57 then Ok (m - 48)%nat else Err ValueError.

(** [s[i]==str(k)] for a one-character string s[i]. *)
Definition char_is (c : ascii) (k : nat) : bool :=
  Nat.ltb k 10 && Ascii.eqb c (ascii_of_nat (48 + k)).

(** An atom of a Potts energy: h[a] or J[a]. *)
Inductive patom := Ph (a : nat) | PJ (a : nat).

(** coniii/enumerate_potts.py:206-226 [energy_terms_generator]: expression and state. *)
Definition potts_term (n : nat) (s : list ascii) : result (list patom) :=
  bind (mapM (fun i => bind (get s i) (fun c => bind (int_of_char c) (fun v => Ok (Ph (v * n + i)))))
             (range n)) (fun hs =>
  let js := flat_map (fun kp => let '(counter, (i, j)) := kp in
              if Ascii.eqb (nth i s "0"%char) (nth j s "0"%char) then [PJ counter] else [])
            (combine (range (length (pairs (range n)))) (pairs (range n))) in
  Ok (hs ++ js)).

Definition energy_terms_generator (logest : nat -> nat -> nat) (n k : nat)
  : result (list (list patom * list ascii)) :=
  bind (xpotts_states logest n k) (fun states =>
  mapM (fun s => bind (potts_term n s) (fun t => Ok (t, s))) states).

(** A written Potts file. *)
Record potts_file := {
  pf_n : nat; pf_k : nat;
  pf_energies : list (list patom);
  pf_coeffs : list (list ctok) }.

(** coniii/enumerate_potts.py:153-154, 166-167: coefficients, wrapped and joined. *)
Definition coeff_text (l : list bool) : result (list ctok) :=
  bind (insert_newlines (S (length l)) (map CDig l) 55 55) (fun s => Ok (replace_nl (join_comma s))).

(** coniii/enumerate_potts.py:63-193: constructor and [write]. *)
Definition write_potts (logest : nat -> nat -> nat) (n k : nat) : result potts_file :=
  if negb (Nat.ltb 2 n) then Err AssertionError
  else if negb (Nat.leb 2 k) then Err AssertionError
  else
  bind (energy_terms_generator logest n k) (fun terms =>
  let allStates := map snd terms in
  bind (mapM (fun ki => let '(c, i) := ki in
          coeff_text (map (fun s => char_is (nth i s "0"%char) c) allStates))
        (flat_map (fun c => map (fun i => (c, i)) (range n)) (range k))) (fun means =>
  bind (mapM (fun p => coeff_text (map (fun s => Ascii.eqb (nth (fst p) s "0"%char) (nth (snd p) s "0"%char)) allStates))
        (pairs (range n))) (fun corrs =>
  Ok {| pf_n := n; pf_k := k; pf_energies := map fst terms; pf_coeffs := means ++ corrs |}))).

Definition potts_nparams (f : potts_file) : nat := (pf_n f * pf_k f + pf_n f * (pf_n f - 1) / 2)%nat.

Definition eval_patom (h J : list R) (a : patom) : result R :=
  match a with Ph i => get h i | PJ i => get J i end.

Definition eval_potts (h J : list R) (t : list patom) : result R :=
  bind (mapM (eval_patom h J) t) (fun l => Ok (sumR l)).

Definition potts_energies (f : potts_file) (params : list R) : result (list R) :=
  let h := firstn (pf_n f * pf_k f) params in
  let J := skipn (pf_n f * pf_k f) params in
  if negb (Nat.eqb (length params) (potts_nparams f)) then Err AssertionError
  else mapM (eval_potts h J) (pf_energies f).

(** The written [calc_observables] (enumerate_potts.py:125-172). *)
Definition run_potts_observables (f : potts_file) (params : list R) : result (list (option R)) :=
  bind (potts_energies f params) (fun energies =>
  bind (fast_logsumexp energies None) (fun z =>
  mapM (fun c => bind (read_list c) (fun bs =>
        bind (fast_logsumexp energies (Some (map b2R bs))) (fun num =>
        Ok (exp_diff (fst num) (fst z))))) (pf_coeffs f))).

(** The written [p] (enumerate_potts.py:174-193). *)
Definition run_potts_p (f : potts_file) (params : list R) : result (list (option R)) :=
  bind (potts_energies f params) (fun energies =>
  bind (fast_logsumexp energies None) (fun z =>
  Ok (map (fun e => exp_diff (Fin e) (fst z)) energies))).
