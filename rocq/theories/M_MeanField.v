(** * Model of coniii/mean_field_ising.py.
    Matrices are lists of rows; the code uses square arrays everywhere below.  The
    module level names [scipy.log], [scipy.diag], ... are numpy's (they were removed
    from recent scipy versions: not modelled).  Python integers are taken as nat or Z
    as noted. *)
From Verif Require Import Prelude M_Index M_Params.
Import ListNotations.
Local Open Scope R_scope.

(** coniii/mean_field_ising.py:389-394 [diagFlatIndex], over Python integers. *)
Definition diagFlatIndex (i j ell : Z) : Z :=
  let D := (j - i)%Z in (i + D * ell - D * (D - 1) / 2)%Z.

(** [scipy.diagonal(m,d)], d >= 0, of a square matrix. *)
Definition diagonal (m : list (list R)) (d : nat) : list R :=
  map (fun i => entry m i (i + d)) (range (length m - d)).

(** coniii/mean_field_ising.py:45-48: copy of [mat], multiplied entrywise by
    [offDiagMult*(1-tri)+diag(ones)] when offDiagMult is given. *)
Definition off_diag_mult (mat : list (list R)) (mult : option R) : list (list R) :=
  match mult with
  | None => mat
  | Some c => mk_mat (length mat) (length mat) (fun i j =>
      entry mat i j * (c * (1 - (if Nat.leb j i then 1 else 0)) + (if Nat.eqb i j then 1 else 0)))
  end.

(** coniii/mean_field_ising.py:36-52 [aboveDiagFlat]; concatenating no array raises
    ValueError. *)
Definition aboveDiagFlat (mat : list (list R)) (keepDiag : bool) (offDiagMult : option R)
  : result (list R) :=
  let m := off_diag_mult mat offDiagMult in
  let begin := if keepDiag then 0%nat else 1%nat in
  match range2 begin (length m) with
  | [] => Err ValueError
  | ds => Ok (flat_map (diagonal m) ds)
  end.

(** coniii/mean_field_ising.py:57-66 [replaceDiag] is, line for line, the function
    [replace_diag] of coniii/utils.py modelled in M_Params; likewise 69-71 [zeroDiag]. *)
Definition replaceDiag (mat : list (list R)) (lst : list R) : result (list (list R)) :=
  if negb (is_square mat && Nat.eqb (length mat) (length lst)) then Err GenericException
  else
    let n := length mat in
    Ok (mk_mat n n (fun i j => entry mat i j - (if Nat.eqb i j then entry mat i i else 0)
                               + (if Nat.eqb i j then nthR lst i else 0))).
Definition zeroDiag (mat : list (list R)) : result (list (list R)) :=
  replaceDiag mat (repeat 0 (length mat)).

(** coniii/mean_field_ising.py:120-126 [coocCluster]: rows, then columns, picked in the
    order of [cluster].  Indices out of range raise IndexError. *)
Definition coocCluster (coocMat : list (list R)) (cluster : list nat) : result (list (list R)) :=
  bind (mapM (get coocMat) cluster) (fun rows =>
  mapM (fun r => mapM (get r) cluster) rows).

(** coniii/mean_field_ising.py:129-137 [JfullFromCluster]; the two nested loops write
    J[iFull,jFull]; a repeated element of [cluster] would overwrite. *)
Definition JfullFromCluster (Jcluster : list (list R)) (cluster : list nat) (N : nat)
  : result (list (list R)) :=
  foldM (fun J ii => let '(i, iFull) := ii in
    foldM (fun J jj => let '(j, jFull) := jj in
      if Nat.ltb iFull N && Nat.ltb jFull N
      then bind (get Jcluster i) (fun row => bind (get row j) (fun x =>
           Ok (upd J iFull (upd (nth iFull J []) jFull x))))
      else Err IndexError)
      (combine (range (length cluster)) cluster) J)
    (combine (range (length cluster)) cluster) (mk_mat N N (fun _ _ => 0)).

(** coniii/mean_field_ising.py:140-145 [symmetrizeUsingUpper]; [mat[0]] of an empty
    matrix raises IndexError. *)
Definition symmetrizeUsingUpper (mat : list (list R)) : result (list (list R)) :=
  match mat with
  | [] => Err IndexError
  | r0 :: _ =>
    if negb (Nat.eqb (length mat) (length r0)) then Err GenericException
    else
      let n := length mat in
      let tri := fun i j => if Nat.leb j i then 1 else 0 in
      let matTri := mk_mat n n (fun i j => (1 - tri i j) * entry mat i j) in
      replaceDiag (mk_mat n n (fun i j => entry matTri i j + entry matTri j i))
                  (map (fun i => entry mat i i) (range n))
  end.

(** coniii/mean_field_ising.py:579-585 [fightPossibilities]; Python's [int(x)] of the
    binary digits, as reals.  ell = 0 gives the single row [0] (binary_repr(0,0)='0'). *)
Definition fightPossibilities (ell : nat) (minSize : Z) : list (list R) :=
  map (map IZR) (filter (fun x => if Z.ltb 0 minSize then Z.leb minSize (sumZ x) else true)
                        (binary_rows ell)).

(** coniii/mean_field_ising.py:568-576 [unsummedLogZ], scalar [hext].  When no state is
    left the array has shape (0,) and the product with h raises ValueError. *)
Definition unsummedLogZ (J : list (list R)) (hext : R) (minSize : Z) : result (list R) :=
  let ell := length J in
  let fp := fightPossibilities ell minSize in
  let JnoDiag := fun i j => entry J i j - (if Nat.eqb i j then entry J i i else 0) in
  match fp with
  | [] => Err ValueError
  | _ => Ok (map (fun f =>
      - sumf (range ell) (fun i => nthR f i * (entry J i i - hext))
      - 1 * sumf (range ell) (fun j =>
          sumf (range ell) (fun i => nthR f i * JnoDiag i j) * nthR f j)) fp)
  end.

(** coniii/mean_field_ising.py:561-565 [unsummedZ]. *)
Definition unsummedZ (J : list (list R)) (hext : R) (minSize : Z) : result (list R) :=
  bind (unsummedLogZ J hext minSize) (fun l => Ok (map exp l)).

(** coniii/mean_field_ising.py:548-558 [coocExpectations]; [coocp.T] reverses all three
    axes of the array of outer products f_i f_j. *)
Definition coocExpectations (J : list (list R)) (hext : R) (zeroBelowDiag : bool) (minSize : Z)
  : result (list (list R)) :=
  let ell := length J in
  let fp := fightPossibilities ell minSize in
  bind (unsummedZ J hext minSize) (fun Z =>
  let coocSym := fun i j =>
    sumf (combine fp Z) (fun fz => nthR (fst fz) j * nthR (fst fz) i * snd fz) / sumR Z in
  Ok (mk_mat ell ell (fun i j => if zeroBelowDiag then coocSym i j * (if Nat.leb i j then 1 else 0)
                                 else coocSym i j))).

(** coniii/mean_field_ising.py:398-404 [analyticEntropy]. *)
Definition analyticEntropy (J : list (list R)) : result R :=
  bind (unsummedZ J 0 0) (fun Z =>
  let p := map (fun z => z / sumR Z) Z in
  Ok (- sumf p (fun x => x * ln x))).

(** coniii/mean_field_ising.py:376-386 [unflatten]: sum over j of the matrices
    [diag(flatList[a:b],k=j)]; slices of another length than ell-j make the shapes
    differ (ValueError).  ell = 0 and the 1x1 case with an empty list are not modelled
    (Err). *)
Definition unflatten (flatList : list R) (ell : nat) (symmetrize : bool) : result (list (list R)) :=
  let sl := fun j => slice flatList (Z.to_nat (diagFlatIndex 0 (Z.of_nat j) (Z.of_nat ell)))
                           (Z.to_nat (diagFlatIndex 0 (Z.of_nat j + 1) (Z.of_nat ell))) in
  if Nat.eqb ell 0 then Err ValueError
  else if negb (forallb (fun j => Nat.eqb (length (sl j)) (ell - j)) (range ell)) then Err ValueError
  else
    let mat := mk_mat ell ell (fun i k => sumf (range ell) (fun j =>
                 if Nat.eqb k (i + j) then nthR (sl j) i else 0)) in
    if symmetrize then Ok (mk_mat ell ell (fun i k => / 2 * (entry mat i k + entry mat k i)))
    else Ok mat.

(** coniii/mean_field_ising.py:529-533 [coocMatBayesianMean]. *)
Definition coocMatBayesianMean (coocMat : list (list R)) (numFights : nat) : list (list R) :=
  map (map (fun c => (c * INR numFights + 1) / (INR numFights + 2))) coocMat.

(** coniii/mean_field_ising.py:518-525 [coocStdevsFlat]. *)
Definition coocStdevsFlat (coocMat : list (list R)) (numFights : nat) : result (list R) :=
  let m := coocMatBayesianMean coocMat numFights in
  bind (aboveDiagFlat (map (map (fun c => c * (1 - c) / INR numFights)) m) true None) (fun v =>
  Ok (map sqrt v)).

(** coniii/mean_field_ising.py:443-460 [cooccurrence_matrix].  [np.tri(n,k)] has ones at
    j <= i+k; k is -1 when keep_diag and 0 otherwise.  No samples: 0/0 (nan in numpy, 0
    here: excluded by hypotheses). *)
Definition cooccurrence_matrix (samples : list (list R)) (keep_diag : bool) : list (list R) :=
  let n := length (hd [] samples) in
  mk_mat n n (fun i j =>
    sumf samples (fun s => nthR s i * nthR s j)
    * (1 - (if (if keep_diag then Nat.ltb j i else Nat.leb j i) then 1 else 0))
    / INR (length samples)).

(** coniii/mean_field_ising.py:538-540 [isingDeltaCooc] (the second definition, which
    replaces the one on lines 435-438). *)
Definition isingDeltaCooc (isingSamples coocMatDesired : list (list R)) : result (list R) :=
  let isingCooc := cooccurrence_matrix isingSamples true in
  aboveDiagFlat (mk_mat (length isingCooc) (length isingCooc) (fun i j =>
    entry isingCooc i j - entry coocMatDesired i j)) true None.

(** coniii/mean_field_ising.py:472-481: the four nested loops of the slow method. *)
Definition fourth_order_loop (ell : nat) : list (nat * nat * (nat * nat)) :=
  flat_map (fun i => flat_map (fun j => flat_map (fun m => map (fun n => (i, j, (m, n)))
    (range2 m ell)) (range2 i ell)) (range2 i ell)) (range ell).

(** coniii/mean_field_ising.py:465-507 [fourthOrderCoocMat], slowMethod=True (the other
    branch needs scipy.weave).  Writes out of range raise IndexError. *)
Definition fourthOrderCoocMat (samples : list (list R)) : result (list (list R)) :=
  match samples with
  | [] => Err IndexError
  | s0 :: _ =>
    let ell := length s0 in
    let jdim := ((ell + 1) * ell / 2)%nat in
    let ix := fun i j => Z.to_nat (diagFlatIndex (Z.of_nat i) (Z.of_nat j) (Z.of_nat ell)) in
    let set := fun f r c v => upd f r (upd (nth r f []) c v) in
    bind (foldM (fun f ijmn =>
      let '(i, j, (m, n)) := ijmn in
      let r := ix i j in let c := ix m n in
      let cooc := sumf samples (fun s => nthR s i * nthR s j * nthR s m * nthR s n) in
      if Nat.ltb r jdim && Nat.ltb c jdim then Ok (set (set f r c cooc) c r cooc)
      else Err IndexError)
      (fourth_order_loop ell) (mk_mat jdim jdim (fun _ _ => 0))) (fun f =>
    Ok (map (map (fun x => x / INR (length samples))) f))
  end.

(** coniii/mean_field_ising.py:408-430 [coocSampleCovariance]; scipy.linalg.block_diag
    written entrywise. *)
Definition coocSampleCovariance (samples : list (list R)) (bayesianMean includePrior : bool)
  : result (list (list R)) :=
  bind (fourthOrderCoocMat samples) (fun coocs4 =>
  let N := INR (length samples) in
  bind (if bayesianMean
        then replaceDiag coocs4 (map (fun i => (entry coocs4 i i * N + 1) / (N + 2)) (range (length coocs4)))
        else Ok coocs4) (fun mean4 =>
  let cov := map (map (fun x => x * (1 - x))) mean4 in
  if includePrior then
    let ell := length (hd [] samples) in
    let p := (ell * (ell - 1) / 2)%nat in
    let d := length cov in
    Ok (mk_mat (d + p) (d + p) (fun i j =>
      if Nat.ltb i d && Nat.ltb j d then entry cov i j
      else if Nat.leb d i && Nat.eqb i j then 1 else 0))
  else Ok cov)).

(** coniii/mean_field_ising.py:356-367, the residual handed to the least squares solver.
    [minSize] as in coocExpectations; [numSamples] only matters when priorLmbda <> 0. *)
Definition deltaCooc (coocMatDesired : list (list R)) (lmbda : R) (minSize : Z) (Jflat : list R)
  : result (list R) :=
  let ell := length coocMatDesired in
  bind (unflatten Jflat ell false) (fun J =>
  bind (coocExpectations J 0 true minSize) (fun cooc =>
  bind (aboveDiagFlat (mk_mat ell ell (fun i j => entry cooc i j - entry coocMatDesired i j)) true None) (fun dCooc =>
  if (if Rlt_dec 0 lmbda then true else false) && Nat.ltb 1 ell then
    let freqs := fun i => entry coocMatDesired i i in
    bind (aboveDiagFlat (mk_mat ell ell (fun i j =>
            freqs i * (1 - freqs i) * (freqs j * (1 - freqs j)))) false None) (fun factorFlat =>
    let tailJ := skipn ell Jflat in
    Ok (dCooc ++ map (fun t => lmbda * nthR factorFlat t * (nthR tailJ t) ^ 2) (range (length factorFlat))))
  else Ok dCooc))).

(** coniii/mean_field_ising.py:331-373 [findJmatrixAnalytic_CoocMat] with its default
    arguments Jinit=None, bayesianMean=False.  [leastsq f x0] is scipy's Levenberg
    Marquardt minimiser (oracle).  Frequencies 0 and 1 give infinite starting fields in
    numpy (excluded by hypotheses). *)
Definition findJmatrixAnalytic_CoocMat
  (leastsq : (list R -> result (list R)) -> list R -> result (list R))
  (coocMatData : list (list R)) (numSamples : nat) (priorLmbda : R) (minSize : Z)
  : result (list (list R)) :=
  let ell := length coocMatData in
  let lmbda := if Reqb priorLmbda 0 then 0 else priorLmbda / INR numSamples in
  let hList := fun i => - ln (entry coocMatData i i / (1 - entry coocMatData i i)) in
  let Jinit := mk_mat ell ell (fun i j => if Nat.eqb i j then hList i else 0) in
  bind (aboveDiagFlat Jinit true None) (fun JinitFlat =>
  bind (leastsq (deltaCooc coocMatData lmbda minSize) JinitFlat) (fun Jflat =>
  unflatten Jflat ell true)).

(** coniii/mean_field_ising.py:78, the function whose root [m] takes. *)
Definition m_func (h J ell T mm : R) : R := mm - 1 / (1 + exp ((h + 2 * (ell - 1) * mm * J) / T)).

(** coniii/mean_field_ising.py:253-254 [logCosh]. *)
Definition logCosh (x : R) : R := Rabs x + ln (1 + exp (-2 * Rabs x)) - ln 2.

(** coniii/mean_field_ising.py:316-320 and 323-326, as functions of avgx
    (scipy.arctanh(x) = ln((1+x)/(1-x))/2). *)
Definition independentEntropy1 (avgx N : R) : R :=
  N * (- (1 + avgx) / 2 * ln ((1 + avgx) / 2) - (1 - avgx) / 2 * ln ((1 - avgx) / 2)).
Definition independentEntropy2 (avgx N : R) : R :=
  let heff := / 2 * ln ((1 + avgx) / (1 - avgx)) in
  N * (ln 2 + ln (cosh heff) - avgx * heff).
