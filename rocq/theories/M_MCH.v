(** * Model of the Monte Carlo histogram solvers in coniii/solvers.py:728-1328 (MCH,
    SparseMCH).  The sampler is an oracle threading an arbitrary state (random number
    generator, processes); warnings and prints are not modelled. *)
From Verif Require Import Prelude M_Corr M_Params M_Models.
Import ListNotations.
Local Open Scope R_scope.

(** Euclidean norm (np.linalg.norm of a vector). *)
Definition vnorm (x : list R) : R := sqrt (sumf x (fun v => v * v)).

(** In-place sum of arrays of the same size; other sizes raise (broadcasting of size one
    arrays is not modelled). *)
Definition viadd (x y : list R) : result (list R) :=
  if Nat.eqb (length x) (length y) then Ok (map (fun p => fst p + snd p) (combine x y)) else Err ValueError.

(** Keyword arguments of learn_parameters_mch; None: the default. *)
Record learn_kw := { kw_maxdlamda : option R; kw_maxdlamdaNorm : option R; kw_maxLearningSteps : option nat; kw_eta : option R }.

Definition dflt {A} (o : option A) (d : A) : A := match o with Some a => a | None => d end.

Section Learn.
(** [approx dlamda]: the histogram prediction from the current sample. *)
Variable approx : list R -> result (list R).

(** coniii/solvers.py:1010-1029 (MCH) and 1302-1324 (SparseMCH): the while loop, with
    fuel.  Returns (dlamda, estConstraints). *)
Fixpoint learn_loop (fuel : nat) (constraints : list R) (maxdlamda maxdlamdaNorm : R) (maxLearningSteps : nat) (eta : R)
  (dlamda estConstraints : list R) (distance : R) (learningSteps : nat) : result (list R * list R) :=
  match fuel with
  | 0%nat => Err OutOfFuel
  | S fuel' =>
    bind (vsub estConstraints constraints) (fun diff =>
    bind (viadd dlamda (map (fun e => - e * Rmin distance 1 * eta) diff)) (fun dlamda =>
    bind (approx dlamda) (fun estConstraints =>
    bind (vsub estConstraints constraints) (fun diff =>
    let distance := vnorm diff in
    let learningSteps := (learningSteps + 1)%nat in
    if Rltb maxdlamdaNorm (vnorm dlamda) || existsb (fun d => Rltb maxdlamda (Rabs d)) dlamda then Ok (dlamda, estConstraints)
    else if Nat.ltb maxLearningSteps learningSteps then Ok (dlamda, estConstraints)
    else learn_loop fuel' constraints maxdlamda maxdlamdaNorm maxLearningSteps eta dlamda estConstraints distance learningSteps))))
  end.

(** coniii/solvers.py:977-1031, 1272-1327 [learn_parameters_mch]: new _multipliers and
    the returned estimate.  [embed] turns dlamda into a vector of all multipliers (the
    identity for MCH, fill_in for SparseMCH). *)
Definition learn_parameters_mch (embed : list R -> result (list R)) (multipliers estConstraints constraints : list R) (kw : learn_kw)
  : result (list R * list R) :=
  let maxLearningSteps := dflt (kw_maxLearningSteps kw) 50%nat in
  bind (learn_loop (S maxLearningSteps) constraints (dflt (kw_maxdlamda kw) 1) (dflt (kw_maxdlamdaNorm kw) 1) maxLearningSteps
          (dflt (kw_eta kw) 1) (repeat 0 (length constraints)) estConstraints 1 0) (fun p =>
  bind (embed (fst p)) (fun d =>
  bind (viadd multipliers d) (fun multipliers => Ok (multipliers, snd p)))).

(** coniii/solvers.py:949-975 [estimate_jac]: one row per parameter. *)
Definition estimate_jac (p : nat) (eps : R) : result (list (list R)) :=
  bind (foldM (fun st i =>
      let '(dlamda, jac) := st in
      let dlamda := upd dlamda i (nthR dlamda i + eps) in
      bind (approx dlamda) (fun plus =>
      let dlamda := upd dlamda i (nthR dlamda i - 2 * eps) in
      bind (approx dlamda) (fun minus =>
      bind (vsub plus minus) (fun d =>
      let dlamda := upd dlamda i (nthR dlamda i + eps) in
      Ok (dlamda, jac ++ [map (fun x => x / (2 * eps)) d])))))
    (range p) (repeat 0 p, [])) (fun st => Ok (snd st)).
End Learn.

(** The argument custom_convergence_f: absent, returning keyword arguments, or returning
    keyword arguments and a sample size. *)
Inductive conv := ConvNone | ConvDict (f : nat -> learn_kw) | ConvTuple (f : nat -> learn_kw * nat).

(** coniii/solvers.py:882-886, 1212-1216: settings of round i; [size] is the current
    model.sampleSize. *)
Definition conv_at (c : conv) (kw : learn_kw) (size i : nat) : learn_kw * nat :=
  match c with ConvNone => (kw, size) | ConvDict f => (f i, size) | ConvTuple f => f i end.

(** [tol or default]: None and 0 select the default. *)
Definition or_default (o : option R) (d : R) : R :=
  match o with None => d | Some t => if Req_EM_T t 0 then d else t end.

Section Solve.
Context {Smp W : Type}.
(** model.generate_sample with the given multipliers and sampleSize. *)
Variable gen : W -> list R -> nat -> result (Smp * W).
(** Mean of the observables over a sample, restricted to the fitted parameters. *)
Variable mean_obs : Smp -> result (list R).
(** Histogram prediction for the fitted parameters. *)
Variable approx : Smp -> list R -> result (list R).
Variable embed : list R -> result (list R).

(** coniii/solvers.py:925-927, 1254-1256: the exit criterion. *)
Definition within (tolNorm tol : R) (err : list R) : bool :=
  Rltb (vnorm err) tolNorm && forallb (fun e => Rltb (Rabs e) tol) err.

(** coniii/solvers.py:903-936, 1229-1265: the while loop, with fuel.  Returns
    multipliers, errflag, errors, sampleSize and the state of the sampler. *)
Fixpoint mch_loop (fuel : nat) (c : conv) (kw : learn_kw) (constraints : list R) (tolNorm tol : R) (maxiter : nat)
  (counter : nat) (size : nat) (settings : learn_kw) (multipliers : list R) (sample : Smp) (thisConstraints : list R)
  (errors : list (list R)) (w : W) : result (list R * nat * list (list R) * nat * W) :=
  match fuel with
  | 0%nat => Err OutOfFuel
  | S fuel' =>
    bind (learn_parameters_mch (approx sample) embed multipliers thisConstraints constraints settings) (fun lm =>
    let multipliers := fst lm in
    bind (gen w multipliers size) (fun sw =>
    let sample := fst sw in let w := snd sw in
    bind (mean_obs sample) (fun thisConstraints =>
    let counter := (counter + 1)%nat in
    bind (vsub thisConstraints constraints) (fun err =>
    let errors := errors ++ [err] in
    if within tolNorm tol err then Ok (multipliers, 0%nat, errors, size, w)
    else if Nat.ltb maxiter counter then Ok (multipliers, 1%nat, errors, size, w)
    else let s := conv_at c kw size counter in
      mch_loop fuel' c kw constraints tolNorm tol maxiter counter (snd s) (fst s) multipliers sample thisConstraints errors w))))
  end.

(** coniii/solvers.py:868-947 [MCH.solve] after the initial guess is fixed; [post]:
    whether another sample is drawn at the end (MCH: lines 940-943).  The assertion on
    line 887 only tests for eta (the expression is 'maxdlamda' and ('eta' in ...)). *)
Definition mch_run (post : bool) (guess constraints : list R) (tol tolNorm : option R) (maxiter : nat) (c : conv) (kw : learn_kw)
  (size : nat) (w : W) : result (list R * nat * list (list R)) :=
  let tol := or_default tol (1 / sqrt (INR size)) in
  let tolNorm := or_default tolNorm (sqrt (1 / INR size) * INR (length guess)) in
  match kw_eta (fst (conv_at c kw size 0)) with
  | None => Err AssertionError
  | Some _ =>
    bind (gen w guess size) (fun sw =>
    bind (mean_obs (fst sw)) (fun thisConstraints =>
    bind (vsub thisConstraints constraints) (fun err =>
    let s := conv_at c kw size 0 in
    bind (mch_loop (S maxiter) c kw constraints tolNorm tol maxiter 0 (snd s) (fst s) guess (fst sw) thisConstraints [err] (snd sw)) (fun r =>
    let '(multipliers, errflag, errors, size, w) := r in
    if post then bind (gen w multipliers size) (fun _ => Ok (multipliers, errflag, errors))
    else Ok (multipliers, errflag, errors)))))
  end.
End Solve.

Section Classes.
Context {Smp W : Type}.
Variable gen : W -> list R -> nat -> result (Smp * W).
Variable mean_obs : Smp -> list R.
Variable approx : Smp -> list R -> result (list R).

(** coniii/solvers.py:787-947 [MCH.solve]; [self_constraints]: the constraints of the
    data given to the constructor, if any (len(None) raises TypeError). *)
Definition mch_solve (self_constraints initial_guess constraints : option (list R)) (tol tolNorm : option R) (maxiter : nat)
  (c : conv) (kw : learn_kw) (size : nat) (w : W) : result (list R * nat * list (list R)) :=
  match (match constraints with Some x => Some x | None => self_constraints end) with
  | None => Err TypeError
  | Some constraints =>
    bind (match initial_guess with
          | Some g => if Nat.eqb (length g) (length constraints) then Ok g else Err AssertionError
          | None => Ok (repeat 0 (length constraints))
          end) (fun guess =>
    mch_run gen (fun s => Ok (mean_obs s)) approx Ok true guess constraints tol tolNorm maxiter c kw size w)
  end.

(** x[parameterIx] *)
Definition take (parameterIx : list nat) (x : list R) : result (list R) := mapM (get x) parameterIx.

(** coniii/solvers.py:1110-1270 [SparseMCH.solve]; the returned multipliers are
    restricted to the fitted ones. *)
Definition sparse_mch_solve (parameterIx insertionIx : list nat) (sv : solver) (initial_guess constraints : option (list R))
  (tol tolNorm : option R) (maxiter : nat) (c : conv) (kw : learn_kw) (size : nat) (w : W)
  : result (list R * nat * list (list R)) :=
  bind (sparse_start sv parameterIx initial_guess constraints) (fun gc =>
  let '(g, constraints) := gc in
  if negb (Nat.eqb (length g) (length constraints)) then Err AssertionError else
  bind (fill_in insertionIx 0 g) (fun guess =>
  bind (mch_run gen (fun s => take parameterIx (mean_obs s))
          (fun s d => bind (fill_in insertionIx 0 d) (fun d => bind (approx s d) (take parameterIx)))
          (fill_in insertionIx 0) false guess constraints tol tolNorm maxiter c kw size w) (fun r =>
  let '(m, errflag, errors) := r in
  bind (take parameterIx m) (fun m => Ok (m, errflag, errors))))).
End Classes.
