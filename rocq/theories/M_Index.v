(** * Model of the indexing and state enumeration functions of coniii/utils.py. *)
From Coq Require Import Ascii String.
From Verif Require Import Prelude.
Import ListNotations.
Local Open Scope Z_scope.

(** coniii/utils.py:17-48 [sub_to_ind].  Branch by branch; the loop
    [for l in range(1,i+2): k += n-l] is the sum over that range. *)
Definition sub_to_ind (n i j : Z) : result Z :=
  if i <? j then
    let k := sumZ (map (fun l => n - l) (Zrange 1 (i + 2))) in
    if k <? 0 then Err AssertionError else Ok (k - n + j)
  else if j <? i then
    let k := sumZ (map (fun l => n - l) (Zrange 1 (j + 2))) in
    if k <? 0 then Err AssertionError else Ok (k - n + i)
  else Err GenericException.

(** coniii/utils.py:68-72, the iteration order of the two nested loops
    [for i in range(n-1): for j in range(i+1,n)]. *)
Definition ind_to_sub_order (n : Z) : list (Z * Z) :=
  flat_map (fun i => map (fun j => (i, j)) (Zrange (i + 1) n)) (Zrange 0 (n - 1)).

(** coniii/utils.py:67-72, loop body: return the first pair whose running count
    [k] equals [ix]. *)
Fixpoint ind_to_sub_scan (ix k : Z) (l : list (Z * Z)) : option (Z * Z) :=
  match l with
  | [] => None
  | p :: l' => if k =? ix then Some p else ind_to_sub_scan ix (k + 1) l'
  end.

(** coniii/utils.py:51-72 [ind_to_sub].  [None] is Python's implicit None when
    the loops finish. *)
Definition ind_to_sub (n ix : Z) : option (Z * Z) :=
  ind_to_sub_scan ix 0 (ind_to_sub_order n).

(** [bin(p)[2:]] of a positive number, most significant digit first (Python
    runtime, used by numpy.binary_repr). *)
Fixpoint pos_bits (p : positive) (acc : list Z) : list Z :=
  match p with
  | xH => 1 :: acc
  | xO p' => pos_bits p' (0 :: acc)
  | xI p' => pos_bits p' (1 :: acc)
  end.

(** [numpy.binary_repr(i,width=n)] for i>=0: '0'*(width or 1) for zero, else
    zero-filled on the left to [width]. *)
Definition binary_repr (i : N) (width : nat) : list Z :=
  match i with
  | N0 => repeat 0 (if Nat.eqb width 0 then 1%nat else width)
  | Npos p => let b := pos_bits p [] in repeat 0 (width - length b) ++ b
  end.

(** coniii/utils.py:206 (and 272,274): the rows [list(np.binary_repr(i,width=n))]
    for i in range(2**n), as integers. *)
Definition binary_rows (n : nat) : list (list Z) :=
  map (fun i => binary_repr (N.of_nat i) n) (seq 0 (2 ^ n)).

(** coniii/utils.py:211: [v*2-1]. *)
Definition to_sym (r : list Z) : list Z := map (fun v => v * 2 - 1) r.

(** coniii/utils.py:187-211 [bin_states]. *)
Definition bin_states (n : Z) (sym : bool) : result (list (list Z)) :=
  if n <? 0 then Err GenericException
  else if 30 <? n then Err GenericException
  else
    let v := binary_rows (Z.to_nat n) in
    Ok (if sym then map to_sym v else v).

(** coniii/utils.py:253-277 [xbin_states]; the generator is the list of the
    values it yields. *)
Definition xbin_states (n : Z) (sym : bool) : result (list (list Z)) :=
  if n <=? 0 then Err AssertionError
  else
    let m := Z.to_nat n in
    Ok (map (fun i => if sym then to_sym (binary_repr (N.of_nat i) m)
                      else binary_repr (N.of_nat i) m) (seq 0 (2 ^ m))).

Close Scope Z_scope.

(** coniii/utils.py:12 [NUMERALS]. *)
Definition NUMERALS : list ascii := list_ascii_of_string "0123456789".

(** coniii/utils.py:356 [ALPHANUM] (copied verbatim, including "HJIK"). *)
Definition ALPHANUM : list ascii :=
  list_ascii_of_string "0123456789ABCDEFGHJIKLMNOPQRSTUVWXYZ".

(** coniii/utils.py:342-351 and 367-376: the [while exponent>=0] loop.  [e] is
    exponent+1, so the loop runs for exponent = e-1, ..., 0.  Simplification:
    [int(i/baseToExp)] is a float division in the source, exact for i < 2^52;
    modelled by exact integer division. *)
Fixpoint base_loop (alphabet : list ascii) (base : nat) (e : nat) (i : nat)
  : result (list ascii) :=
  match e with
  | 0 => Ok []
  | S e' =>
    let baseToExp := base ^ e' in
    if Nat.ltb i baseToExp then
      bind (base_loop alphabet base e' i) (fun r => Ok ("0"%char :: r))
    else
      let term := i / baseToExp in
      bind (get alphabet term) (fun c =>
      bind (base_loop alphabet base e' (i - term * baseToExp)) (fun r => Ok (c :: r)))
  end.

(** coniii/utils.py:331-352 [_small_base] and 355-377 [_large_base], which
    differ only in the alphabet.  [est] is the value of
    [int(np.log(i)/np.log(base))], a float computation, left as a parameter. *)
Definition generic_base (alphabet : list ascii) (est : nat) (i base : nat)
  : result (list ascii) :=
  let term0 := i / base ^ est in
  let exponent := if Nat.eqb term0 base then est + 1 else est in
  let term := if Nat.eqb term0 base then 1 else term0 in
  bind (get alphabet term) (fun c =>
  bind (base_loop alphabet base exponent (i - term * base ^ exponent))
       (fun r => Ok (c :: r))).

(** coniii/utils.py:306-328 [base_repr].  [logest i base] is the float estimate
    [int(np.log(i)/np.log(base))]. *)
Definition base_repr (logest : nat -> nat -> nat) (i base : nat) : result (list ascii) :=
  if Nat.ltb base 2 then Err AssertionError
  else if Nat.eqb i 0 then Ok ["0"%char]
  else if Nat.leb base 10 then generic_base NUMERALS (logest i base) i base
  else if Nat.leb base 36 then generic_base ALPHANUM (logest i base) i base
  else Err AssertionError.

(** coniii/utils.py:280-303 [xpotts_states]; list of yielded values.  Python's
    ['0']*m is [] for m<0, as is [repeat] with truncated subtraction. *)
Definition xpotts_states (logest : nat -> nat -> nat) (n k : nat)
  : result (list (list ascii)) :=
  if Nat.leb n 0 then Err AssertionError
  else if Nat.ltb k 2 then Err AssertionError
  else mapM (fun i => bind (base_repr logest i k) (fun state =>
         Ok (repeat "0"%char (n - length state) ++ state))) (seq 0 (k ^ n)).

(** coniii/utils.py:506 [(np.diff(ijk)>0).all()]. *)
Fixpoint strictly_increasing (l : list nat) : bool :=
  match l with
  | x :: ((y :: _) as l') => Nat.ltb x y && strictly_increasing l'
  | _ => true
  end.

(** coniii/utils.py:485-516 [unravel_index] for a tuple argument (the case of a
    bare int returns it unchanged).  Indices are taken non-negative; binom is
    exact (scipy's binom is a float, truncated with int()). *)
Definition unravel_index (ijk : list nat) (n : nat) : result nat :=
  match ijk with
  | [x] => Ok x
  | _ =>
    if negb (strictly_increasing ijk) then Err AssertionError
    else if negb (forallb (fun i => Nat.ltb i n) ijk) then Err AssertionError
    else match ijk with
    | [] => Err IndexError
    | x0 :: _ =>
      let len := length ijk in
      let at_ := fun d => nth d ijk 0 in
      let ix0 := sumN (map (fun i => binom (n - 1 - i) (len - 1)) (range x0)) in
      let ix1 := fold_left (fun ix d =>
          if Nat.ltb 1 (at_ d - at_ (d - 1)) then
            ix + sumN (map (fun i => binom (n - i - 1) (len - d - 1))
                           (range2 (at_ (d - 1) + 1) (at_ d)))
          else ix) (range2 1 (len - 1)) ix0 in
      Ok (ix1 + (at_ (len - 1) - at_ (len - 2) - 1))
    end
  end.

(** coniii/utils.py:552-561 [split_concat_params]: the [while counter<len(p)]
    loop, with fuel. *)
Fixpoint split_loop {A} (fuel : nat) (p : list A) (n counter i : nat) (splitp : list (list A))
  : result (list (list A)) :=
  match fuel with
  | 0 => Err OutOfFuel
  | S f =>
    if Nat.ltb counter (length p) then
      split_loop f p n (counter + binom n i) (i + 1)
                 (splitp ++ [slice p counter (counter + binom n i)])
    else Ok splitp
  end.

(** coniii/utils.py:539-561 [split_concat_params]. *)
Definition split_concat_params {A} (fuel : nat) (p : list A) (n : nat) :=
  split_loop fuel p n 0 1 [].
