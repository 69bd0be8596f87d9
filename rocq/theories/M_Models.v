(** * Model of coniii/models.py (constructors) and of the solver base class, Enumerate
    and SparseEnumerate in coniii/solvers.py.
    Not modelled: warnings, generators, the import machinery (an oracle says which
    equation files exist), scipy's root finder and minimiser (an oracle returns a point). *)
From Verif Require Import Prelude M_Index M_Params M_Corr M_Enum.
Import ListNotations.
Local Open Scope R_scope.

(** The argument [multipliers]: an int, a Python list of vectors, a 1-D or a 2-D array. *)
Inductive mult_arg := MInt (z : Z) | MVecs (vs : list (list R)) | MVec (v : list R) | MMat (m : list (list R)).

(** [len(multipliers)] after line 151. *)
Definition arg_len (m : mult_arg) : nat :=
  match m with MInt _ => 0%nat | MVecs vs => length vs | MVec v => length v | MMat m => length m end.

(** coniii/models.py:154-159, the branch [len(multipliers)==2]; [multipliers[0]] of a
    1-D array is a float, which has no length. *)
Definition read_pair (m : mult_arg) : result (nat * list R) :=
  match m with
  | MVecs [h; J] | MMat [h; J] =>
    if Nat.eqb (length h * (length h - 1) / 2) (length J) then Ok (length h, h ++ J) else Err AssertionError
  | _ => Err TypeError
  end.

(** coniii/models.py:148-172: (n, concatenated multipliers).  The floating square root
    is taken as exact. *)
Definition read_multipliers (m : mult_arg) : result (nat * list R) :=
  bind (match m with
        | MInt z => if (1 <? z)%Z then Ok (MVec (repeat 0 (Z.to_nat z + Z.to_nat z * (Z.to_nat z - 1) / 2))) else Err AssertionError
        | _ => Ok m
        end) (fun m =>
  if Nat.eqb (arg_len m) 2 then read_pair m
  else
    match m with
    | MMat A =>
      let n := length A in
      if existsb (fun r => Nat.ltb (length r) n) A then Err IndexError
      else
        let h := map (fun i => entry A i i) (range n) in
        let A0 := map (fun i => upd (nth i A []) i 0) (range n) in
        bind (squareform_mat A0) (fun J => Ok (n, h ++ J))
    | MVec v =>
      let n := vec2mat_size (length v) in
      if Nat.eqb (length v) (n + (n - 1) * n / 2) then Ok (n, v) else Err AssertionError
    | _ => Err GenericException
    end).

(** A model object: [m_default] is the value captured by the default argument of the
    lambdas calc_observables and calc_p, None when there is no equation file. *)
Record model := { m_n : nat; m_multipliers : list R; m_default : option (list R) }.

(** coniii/models.py:190-200 [Ising.set_multipliers] (the same text at 244-254 and
    299-309): the lambdas are defined again when there is an equation file. *)
Definition set_multipliers (o : model) (x : list R) : model :=
  {| m_n := m_n o; m_multipliers := x;
     m_default := match m_default o with None => None | Some _ => Some x end |}.

(** coniii/models.py:137-188 [Ising.__init__]; [have n] says whether the equation file exists. *)
Definition ising_new (have : nat -> bool) (m : mult_arg) : result model :=
  bind (read_multipliers m) (fun nm =>
  Ok (set_multipliers {| m_n := fst nm; m_multipliers := []; m_default := if have (fst nm) then Some [] else None |} (snd nm))).

(** coniii/models.py:208-255 [Triplet.__init__]. *)
Definition triplet_new (have : nat -> bool) (vs : list (list R)) : result model :=
  bind (get vs 0) (fun h =>
  bind (get vs 1) (fun J =>
  if negb (Nat.eqb (binom (length h) 2) (length J)) then Err AssertionError else
  bind (get vs 2) (fun K =>
  if negb (Nat.eqb (binom (length h) 3) (length K)) then Err AssertionError else
  Ok (set_multipliers {| m_n := length h; m_multipliers := []; m_default := if have (length h) then Some [] else None |} (concat vs))))).

(** coniii/models.py:260-297 [Potts3.__init__]: a list of vectors or one vector. *)
Definition potts3_new (have : nat -> bool) (m : mult_arg) : result model :=
  bind (match m with
        | MVecs vs =>
          bind (get vs 0) (fun h =>
          if negb (Nat.eqb (length h mod 3) 0) then Err AssertionError
          else if negb (Nat.eqb (length vs) 2) then Err AssertionError
          else bind (get vs 1) (fun J =>
          if negb (Nat.eqb (binom (length h / 3) 2) (length J)) then Err AssertionError
          else Ok ((length h / 3)%nat, concat vs)))
        | MVec v =>
          let q := (25 + 8 * length v)%nat in
          let r := Nat.sqrt q in
          if Nat.eqb (r * r) q && Nat.eqb ((r - 5) mod 2) 0 then Ok (((r - 5) / 2)%nat, v) else Err AssertionError
        | _ => Err AssertionError
        end) (fun nm =>
  Ok (set_multipliers {| m_n := fst nm; m_multipliers := []; m_default := if have (fst nm) then Some [] else None |} (snd nm))).

(** The vector at which [model.calc_observables(x)] / [model.calc_p(x)] evaluates the
    equation file; without a file the attribute is missing (Ising) or None. *)
Definition eval_point (o : model) (x : option (list R)) : result (list R) :=
  match m_default o with
  | None => Err AttributeError
  | Some d => Ok (match x with Some x => x | None => d end)
  end.

(** ** Solver base class *)
Record solver := { sv_n : option nat; sv_constraints : option (list R) }.

(** The argument [sample_or_n]. *)
Inductive setup_arg := SNone | SInt (z : Z) | SData (ncols : nat) (rows : list (list Z)).

(** coniii/solvers.py:22-107 [basic_setup]: n and the constraints; [obs] computes the
    observables of one row, [nobs] is their number. *)
Definition basic_setup (obs : list Z -> list R) (nobs : nat) (a : setup_arg) : result solver :=
  match a with
  | SNone => Ok {| sv_n := None; sv_constraints := None |}
  | SInt z => if (1 <? z)%Z then Ok {| sv_n := Some (Z.to_nat z); sv_constraints := None |} else Err AssertionError
  | SData ncols rows =>
    Ok {| sv_n := Some ncols;
          sv_constraints := Some (map (fun k => sumf rows (fun r => nthR (obs r) k) / INR (length rows)) (range nobs)) |}
  end.

(** coniii/solvers.py:113-126 [set_insertion_ix]; the body of the loop. *)
Fixpoint insertion_loop (i prev : nat) (ixs : list nat) : list nat :=
  match ixs with
  | [] => []
  | ix :: ixs' => repeat (i + 1)%nat (ix - prev - 1) ++ insertion_loop (S i) ix ixs'
  end.

(** After the loop [i] is the last index of the loop; it is unbound if there was none. *)
Definition set_insertion_ix (nParams : nat) (parameterIx : list nat) : result (list nat) :=
  match parameterIx with
  | [] => Err IndexError
  | p0 :: rest =>
    let ins := repeat 0%nat p0 ++ insertion_loop 0 p0 rest in
    let lst := last parameterIx 0%nat in
    if Nat.ltb (lst + 1) nParams then
      match rest with
      | [] => Err UnboundLocalError
      | _ => Ok (ins ++ repeat (length rest - 1 + 2)%nat (nParams - lst - 1))
      end
    else Ok ins
  end.

(** [np.insert(x, indices, v)] with a scalar value: before each original position k as
    many copies of v as k occurs in indices; positions beyond the end raise. *)
Fixpoint insert_counts {A} (k : nat) (indices : list nat) (v : A) (x : list A) : list A :=
  repeat v (count_occ Nat.eq_dec indices k) ++
  match x with
  | [] => []
  | a :: x' => a :: insert_counts (S k) indices v x'
  end.

(** coniii/solvers.py:128-142 [fill_in]. *)
Definition fill_in {A} (insertionIx : list nat) (fill_value : A) (x : list A) : result (list A) :=
  if existsb (fun i => Nat.ltb (length x) i) insertionIx then Err IndexError
  else Ok (insert_counts 0 insertionIx fill_value x).

(** np.unique of an array of indices. *)
Definition unique_nat (l : list nat) : list nat :=
  filter (fun k => existsb (Nat.eqb k) l) (range (S (list_max l))).

(** coniii/solvers.py:310-351 [SparseEnumerate.__init__]: (parameterIx, insertionIx). *)
Definition sparse_setup (nParams : nat) (parameter_ix : list nat) : result (list nat * list nat) :=
  bind (set_insertion_ix nParams (unique_nat parameter_ix)) (fun ins => Ok (unique_nat parameter_ix, ins)).

(** Difference of two arrays of the same size; other sizes raise (broadcasting of size
    one arrays is not modelled). *)
Definition vsub (x y : list R) : result (list R) :=
  if Nat.eqb (length x) (length y) then Ok (map (fun p => fst p - snd p) (combine x y)) else Err ValueError.

Definition exceeds (max_param_value : option R) (params : list R) : bool :=
  match max_param_value with
  | None => false
  | Some m => existsb (fun x => if Rlt_dec m (Rabs x) then true else false) params
  end.

(** coniii/solvers.py:271-281: the function given to scipy.optimize.root. *)
Definition enumerate_root_f (calc_observables : list R -> list R) (max_param_value : option R) (constraints params : list R)
  : result (list R) :=
  if exceeds max_param_value params then Ok (map (fun _ => 0 + 10 ^ 30) constraints)
  else vsub (calc_observables params) constraints.

(** coniii/solvers.py:283-291: the function given to scipy.optimize.minimize. *)
Definition enumerate_min_f (calc_observables : list R -> list R) (max_param_value : option R) (constraints params : list R)
  : result R :=
  if exceeds max_param_value params then Ok (10 ^ 30)
  else bind (vsub (calc_observables params) constraints) (fun d => Ok (sqrt (sumR (map (fun x => x * x) d)))).

(** coniii/solvers.py:213-299 [Enumerate.solve] up to the call of scipy: (initial guess,
    constraints).  The size of self.constraints is read before the keyword argument
    [constraints] is considered. *)
Definition enumerate_start (sv : solver) (initial_guess constraints : option (list R)) : result (list R * list R) :=
  bind (match sv_constraints sv with None => Err AttributeError | Some c => Ok c end) (fun c0 =>
  bind (match initial_guess with
        | Some g => if Nat.eqb (length g) (length c0) then Ok g else Err AssertionError
        | None => Ok (repeat 0 (length c0))
        end) (fun g =>
  Ok (g, match constraints with Some c => c | None => c0 end))).

(** coniii/solvers.py:398-406 [SparseEnumerate.solve] up to the call of scipy. *)
Definition sparse_start (sv : solver) (parameterIx : list nat) (initial_guess constraints : option (list R))
  : result (list R * list R) :=
  bind (match initial_guess with
        | Some g => if Nat.eqb (length g) (length parameterIx) then Ok g else Err AssertionError
        | None => Ok (repeat 0 (length parameterIx))
        end) (fun g =>
  bind (match constraints with
        | Some c => Ok c
        | None => match sv_constraints sv with
                  | Some c => if Nat.eqb (length c) (length parameterIx) then Ok c else Err AssertionError
                  | None => Err AssertionError
                  end
        end) (fun c => Ok (g, c))).

(** coniii/solvers.py:409-426: the function given to scipy.optimize.root. *)
Definition sparse_root_f (calc_observables : list R -> list R) (max_param_value : option R) (parameterIx insertionIx : list nat)
  (constraints x : list R) : result (list R) :=
  bind (fill_in insertionIx 0 x) (fun params =>
  if exceeds max_param_value params then Ok (map (fun _ => 0 + 10 ^ 30) constraints)
  else bind (mapM (get (calc_observables params)) parameterIx) (fun o => vsub o constraints)).

(** coniii/solvers.py:144-177 [logp] of a 2-D sample with run_checks=True, [lt] the order used by np.unique.
    An empty model sample (0/0) is not distinguished from probability 0. *)
Definition agrees (s row : list Z) : bool :=
  forallb (fun p => Z.eqb (fst p) 0 || Z.eqb (fst p) (snd p)) (combine s row).

Definition logp (lt : list Z -> list Z -> bool) (model_sample sample : list (list Z)) : result (list lval) :=
  if negb (forallb (forallb (fun z => existsb (Z.eqb z) [-1; 0; 1]%Z)) sample) then Err AssertionError
  else
    let us := np_unique lt sample in
    let uix := unique_rows_inverse lt sample in
    let p := fold_left (fun acc is =>
        let '(i, s) := is in
        let v := INR (length (filter (agrees s) model_sample)) / INR (length model_sample) in
        map (fun ua => if Nat.eqb (fst ua) i then v else snd ua) (combine uix acc))
      (combine (range (length us)) us) (repeat 0 (length sample)) in
    Ok (map np_log p).

(** A 1-D sample: line 163 reads the loop variable s before it exists. *)
Definition logp_1d (sample : list Z) : result (list lval) := Err UnboundLocalError.

(** [model.multipliers = x] from outside the class: nothing else changes. *)
Definition assign_multipliers (o : model) (x : list R) : model :=
  {| m_n := m_n o; m_multipliers := x; m_default := m_default o |}.
