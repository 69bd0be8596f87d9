(** * Model of the mean field inversion (coniii/mean_field_ising.py:73-238) and of the
    class RegularizedMeanField (coniii/solvers.py:2521-2749).
    Linear algebra routines, the scalar minimiser and the sampler are oracles. *)
From Verif Require Import Prelude M_Params M_MeanField.
Import ListNotations.
Local Open Scope R_scope.

(** coniii/mean_field_ising.py:73-87 [m] with the root finder as an oracle. *)
Definition m_root (brentq : (R -> R) -> R -> R -> R) (h J ell T : R) : R :=
  brentq (m_func h J ell T) 0 1.
(** coniii/mean_field_ising.py:89-93 [avgE], 95-99 [dmdT], 114-118 [susc]. *)
Definition avgE (brentq : (R -> R) -> R -> R -> R) (h J ell T : R) : R :=
  let mr := m_root brentq h J ell T in
  let hloc := (ell - 1) * mr * J - h in
  - mr * hloc.
Definition dmdT (brentq : (R -> R) -> R -> R -> R) (h J ell T : R) : R :=
  let mr := m_root brentq h J ell T in
  let hloc := (ell - 1) * mr * J - h in
  hloc / (4 * T ^ 2) / cosh (- hloc / (2 * T)) ^ 2 / (1 + (ell - 1) * J / (4 * T) * / (cosh (- hloc / (2 * T)) ^ 2)).
Definition susc (brentq : (R -> R) -> R -> R -> R) (h J ell T : R) : R :=
  let mr := m_root brentq h J ell T in
  let hloc := (ell - 1) * mr * J - h in
  1 / (T ^ 2 * (exp (- hloc) + exp hloc + 2)).

Section MeanField.
(** scipy.linalg.eig (eigenvalues, matrix whose columns are eigenvectors; the code's
    matrices are symmetric, complex dtype with vanishing imaginary part is read as real),
    scipy.linalg.inv, scipy.linalg.svdvals. *)
Variable eig : list (list R) -> list R * list (list R).
Variable inv : list (list R) -> list (list R).
Variable svdvals : list (list R) -> list R.

(** coniii/mean_field_ising.py:170-171 c. *)
Definition connected (cc : list (list R)) (i j : nat) : R := entry cc i j - entry cc i i * entry cc j j.
(** coniii/mean_field_ising.py:173 Mdenom. *)
Definition Mdenom (cc : list (list R)) (i j : nat) : R :=
  sqrt (entry cc i i * (1 - entry cc i i) * (entry cc j j * (1 - entry cc j j))).
(** coniii/mean_field_ising.py:174 M. *)
Definition Mmat (n : nat) (cc : list (list R)) : list (list R) :=
  mk_mat n n (fun i j => connected cc i j / Mdenom cc i j).

(** coniii/mean_field_ising.py:191-192 mqhat: regularised eigenvalue (gamma >= 0; for
    gamma < 0 numpy's square root is complex, which is not modelled). *)
Definition mqhat (gamma x : R) : R := / 2 * (x - gamma + sqrt ((x - gamma) ^ 2 + 4 * gamma)).

(** coniii/mean_field_ising.py:184-208: off-diagonal parameters and entropy.  Dividing None
    (numSamples not given) raises TypeError. *)
Definition mf_couplings (n : nat) (cc : list (list R)) (Sind lmbda : R) (numSamples : option nat) (useRegularizedEq : bool)
  : result (list (list R) * R) :=
  let M := Mmat n cc in
  if negb (Reqb lmbda 0) || useRegularizedEq then
    bind (if Reqb lmbda 0 then Ok 0
          else match numSamples with Some N => Ok (lmbda / INR N) | None => Err TypeError end) (fun gamma =>
    let '(mq, vq) := eig M in
    let mh := map (mqhat gamma) mq in
    let Jprime := fun i j => sumf (range n) (fun k => entry vq i k * (1 / nthR mh k * entry vq j k)) in
    bind (zeroDiag (mk_mat n n (fun i j => Jprime i j / Mdenom cc i j))) (fun JMF =>
    Ok (JMF, Sind + / 2 * sumf mh (fun x => ln x + 1 - x))))
  else
    bind (zeroDiag (mk_mat n n (fun i j => entry (inv M) i j / Mdenom cc i j))) (fun JMF =>
    Ok (JMF, Sind + / 2 * sumf (svdvals M) ln)).

(** coniii/mean_field_ising.py:149-227 [SmeanField].  Entry (i,i) of dot(JMF,factor2.T) is the
    sum over j of JMF[i,j]*factor2[i,j]. *)
Definition SmeanField (cluster : list nat) (coocMat : list (list R)) (meanFieldPriorLmbda : R)
  (numSamples : option nat) (indTerm alternateEnt useRegularizedEq : bool) : result (R * list (list R)) :=
  bind (coocCluster coocMat cluster) (fun cc0 =>
  bind (symmetrizeUsingUpper cc0) (fun cc =>
  let n := length cluster in
  let f := fun i => entry cc i i in
  let Sind := if indTerm then sumf (range n) (fun i => - f i * ln (f i) - (1 - f i) * ln (1 - f i)) else 0 in
  bind (mf_couplings n cc Sind meanFieldPriorLmbda numSamples useRegularizedEq) (fun je =>
  let JMF := fst je in
  let piFactor := fun i => (f i - / 2) / (f i * (1 - f i)) in
  let factor2 := fun i j => connected cc i j * piFactor i - f j in
  let hMF := map (fun i => sumf (range n) (fun j => entry JMF i j * factor2 i j)
                           - (if indTerm then ln (f i / (1 - f i)) else 0)) (range n) in
  bind (replaceDiag (mk_mat n n (fun i j => / 2 * entry JMF i j)) hMF) (fun J =>
  bind (if alternateEnt then analyticEntropy J else Ok (snd je)) (fun ent =>
  bind (JfullFromCluster J cluster (length coocMat)) (fun Jfull =>
  Ok (ent, Jfull))))))).

(** coniii/mean_field_ising.py:231-238 [JmeanField] with the default flags. *)
Definition JmeanField (coocMat : list (list R)) (meanFieldPriorLmbda : R) (numSamples : option nat) : result (list (list R)) :=
  bind (SmeanField (range (length coocMat)) coocMat meanFieldPriorLmbda numSamples true false true) (fun r => Ok (snd r)).

(** np.argmin: first position of the smallest value; the empty list raises ValueError. *)
Fixpoint argmin_from (l : list R) (k best : nat) (v : R) : nat :=
  match l with
  | [] => best
  | x :: l' => if Rlt_dec x v then argmin_from l' (S k) k x else argmin_from l' (S k) best v
  end.
Definition argmin (l : list R) : result nat :=
  match l with [] => Err ValueError | x :: l' => Ok (argmin_from l' 1 0 x) end.

(** coniii/solvers.py:2733-2749 [bracket1d]. *)
Definition bracket1d (xList funcList : list R) : result (R * R * R) :=
  bind (argmin funcList) (fun k =>
  bind (get xList k) (fun gridMin =>
  if Nat.eqb k 0 || Nat.eqb (k + 1) (length xList) then Err GenericException else
  bind (argmin (firstn k funcList)) (fun a =>
  bind (get xList a) (fun gridBracket1 =>
  bind (argmin (skipn (k + 1) funcList)) (fun c =>
  bind (get xList (k + 1 + c)) (fun gridBracket2 =>
  Ok (gridBracket1, gridMin, gridBracket2))))))).

(** coniii/solvers.py:2666-2674: the multipliers given to the sampler for a mean field
    matrix. *)
Definition rmf_sampled_multipliers (J : list (list R)) : result (list R) :=
  let n := length J in
  let J2 := mk_mat n n (fun i j => entry J i j + entry J j i) in
  bind (zero_diag (map (map Ropp) J2)) (fun Z =>
  bind (squareform_mat Z) (fun v => Ok (map (fun i => entry J2 i i) (range n) ++ v))).

(** coniii/solvers.py:2724-2729: the multipliers returned. *)
Definition rmf_multipliers (J : list (list R)) : result (list R) :=
  let n := length J in
  let J2 := mk_mat n n (fun i j => entry J i j + entry J j i) in
  let h := map (fun i => - entry J2 i i) (range n) in
  bind (zero_diag J2) (fun Z =>
  bind (squareform_mat (map (map Ropp) Z)) (fun v =>
  bind (convert_params h (map (fun x => x * 2) v) To11) (fun r => Ok (fst r ++ snd r)))).

(** coniii/solvers.py:2677-2707 [func]; [generate mult]: the sample drawn with the
    multipliers (with reset_rng=True the generator restarts from the same seed, so it is a
    function). *)
Definition rmf_func (generate : list R -> list (list R)) (coocMatData : list (list R)) (coocStdevs : list R) (N : nat) (pmean : R)
  (gammaPrime : R) : result R :=
  let lmbda := gammaPrime / (pmean ^ 2 * (1 - pmean) ^ 2) in
  bind (JmeanField coocMatData lmbda (Some N)) (fun J =>
  bind (rmf_sampled_multipliers J) (fun mult =>
  bind (isingDeltaCooc (generate mult) coocMatData) (fun dc =>
  Ok (sumf (combine dc coocStdevs) (fun p => (fst p / snd p) ^ 2))))).

(** coniii/solvers.py:2566-2731 [solve] for the supported settings min_independent=True,
    min_covariance=False (others raise), reset_rng=True.  [linspace] is np.linspace,
    [minimize f bracket] scipy's minimize_scalar. *)
Definition rmf_solve (generate : list R -> list (list R)) (linspace : R -> R -> nat -> list R)
  (minimize : (R -> result R) -> option (R * R * R) -> result R)
  (X : list (list R)) (n_grid_points : nat) (min_covariance min_independent : bool) (priorLmbda : R) (bracket : option (R * R))
  : result (list R) :=
  let coocMatData := cooccurrence_matrix (map (map (fun x => (x + 1) / 2)) X) true in
  bind (coocSampleCovariance X true true) (fun _ =>
  if negb (Reqb priorLmbda 0) then Err NotImplementedError
  else if negb min_independent then Err (if min_covariance then GenericException else NotImplementedError)
  else
    bind (coocStdevsFlat coocMatData (length X)) (fun coocStdevs =>
    let n := length coocMatData in
    let pmean := sumf (range n) (fun i => entry coocMatData i i) / INR n in
    let func := fun g =>
      if min_covariance then
        (* tildeJ2normalJ (line 2669) is not defined in the module *)
        bind (JmeanField coocMatData (g / (pmean ^ 2 * (1 - pmean) ^ 2)) (Some (length X))) (fun _ => Err NameError)
      else rmf_func generate coocMatData coocStdevs (length X) pmean g in
    bind (match bracket with
          | Some (a, b) =>
            let gridPoints := linspace a b n_grid_points in
            bind (mapM func gridPoints) (fun gridResults =>
            bind (bracket1d gridPoints gridResults) (fun br => minimize func (Some br)))
          | None => minimize func None
          end) (fun x =>
    let lmbda := x / (pmean ^ 2 * (1 - pmean) ^ 2) in
    bind (JmeanField coocMatData lmbda (Some (length X))) rmf_multipliers))).
End MeanField.
