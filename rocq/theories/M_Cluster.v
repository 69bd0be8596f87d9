(** * Model of the adaptive cluster expansion, coniii/solvers.py:2136-2517.
    Clusters are lists of spin indices (naturals); Python ints and numpy integers of
    equal value compare and hash equal and are not distinguished. *)
From Verif Require Import Prelude M_Params M_MeanField.
Import ListNotations.

(** [np.sort] of a list of integers (insertion sort). *)
Fixpoint insert (x : nat) (l : list nat) : list nat :=
  match l with
  | [] => [x]
  | y :: l' => if Nat.leb x y then x :: l else y :: insert x l'
  end.
Definition nsort (l : list nat) : list nat := fold_right insert [] l.

Definition memb (x : nat) (l : list nat) : bool := existsb (Nat.eqb x) l.

(** [np.unique]: sorted distinct values. *)
Definition nunique (l : list nat) : list nat := nodup Nat.eq_dec (nsort l).
(** [np.union1d], [np.intersect1d]. *)
Definition union1d (a b : list nat) : list nat := nunique (a ++ b).
Definition intersect1d (a b : list nat) : list nat := filter (fun x => memb x b) (nunique a).

(** List equality test used by [gammaU not in clusters[size+1]] and by dict keys. *)
Fixpoint leqb (a b : list nat) : bool :=
  match a, b with
  | [], [] => true
  | x :: a', y :: b' => Nat.eqb x y && leqb a' b'
  | _, _ => false
  end.

(** coniii/solvers.py:2363-2364 [clusterID]. *)
Definition clusterID (cluster : list nat) : list nat := nsort cluster.

(** coniii/solvers.py:2366-2401 [subsets] with sort=False, on values.  The code builds the
    result with list appends; [subsets_heap] below models the list objects. *)
Fixpoint subsets (thisSet : list nat) (size : Z) : result (list (list nat)) :=
  if negb (Nat.eqb (length thisSet) (length (nunique thisSet))) then Err GenericException
  else if Z.eqb size (Z.of_nat (length thisSet)) then Ok [thisSet]
  else if Z.ltb (Z.of_nat (length thisSet)) size then Ok []
  else if Z.leb size 0 then Ok []
  else if Z.eqb size 1 then Ok (map (fun s => [s]) thisSet)
  else match thisSet with
  | [] => Err IndexError
  | s :: rest =>
    bind (subsets rest size) (fun subrest1 =>
    bind (subsets rest (size - 1)) (fun subrest2 =>
    Ok (subrest1 ++ map (fun srest => srest ++ [s]) subrest2)))
  end.

(** coniii/solvers.py:2366-2403 [subsets] with its [sort] argument: only the last return
    statement looks at it, so the early returns of lines 2383-2386 are unsorted. *)
Definition subsets_sort (thisSet : list nat) (size : Z) (sort : bool) : result (list (list nat)) :=
  bind (subsets thisSet size) (fun sub =>
  if sort && negb (Z.eqb size (Z.of_nat (length thisSet))) && negb (Z.eqb size 1)
  then Ok (map nsort sub) else Ok sub).

(** The same function on list objects: a heap of lists, addresses are positions.
    [copy.copy(thisSet)] allocates, [return [thisSet]] returns the caller's own object
    and [srest.append(s)] writes in place. *)
Definition heap := list (list nat).
Definition append_at (s : nat) (hp : heap) (a : nat) : heap := upd hp a (nth a hp [] ++ [s]).
Fixpoint subsets_heap (fuel : nat) (hp : heap) (this : nat) (size : Z) : result (list nat * heap) :=
  match fuel with
  | 0 => Err OutOfFuel
  | S fuel' =>
    let thisSet := nth this hp [] in
    if negb (Nat.eqb (length thisSet) (length (nunique thisSet))) then Err GenericException
    else if Z.eqb size (Z.of_nat (length thisSet)) then Ok ([this], hp)
    else if Z.ltb (Z.of_nat (length thisSet)) size then Ok ([], hp)
    else if Z.leb size 0 then Ok ([], hp)
    else if Z.eqb size 1 then
      Ok (seq (length hp) (length thisSet), hp ++ map (fun s => [s]) thisSet)
    else match thisSet with
    | [] => Err IndexError
    | s :: rest =>
      let addr := length hp in
      bind (subsets_heap fuel' (hp ++ [rest]) addr size) (fun r1 =>
      bind (subsets_heap fuel' (snd r1) addr (size - 1)) (fun r2 =>
      Ok (fst r1 ++ fst r2, fold_left (append_at s) (fst r2) (snd r2))))
    end
  end.

Local Open Scope R_scope.

(** A pair (entropy, coupling matrix) and the in-place subtraction / addition of the
    two components ([-=], [+=] on a float and on an N x N array). *)
Definition val := (R * list (list R))%type.
Definition msub (a b : list (list R)) : list (list R) :=
  mk_mat (length a) (length a) (fun i j => entry a i j - entry b i j).
Definition madd (a b : list (list R)) : list (list R) :=
  mk_mat (length a) (length a) (fun i j => entry a i j + entry b i j).
Definition vsub (a b : val) : val := (fst a - fst b, msub (snd a) (snd b)).
Definition vplus (a b : val) : val := (fst a + fst b, madd (snd a) (snd b)).

(** Python dicts keyed by tuples of indices (most recent binding first). *)
Definition dict (A : Type) := list (list nat * A).
Fixpoint lookup {A} (k : list nat) (d : dict A) : option A :=
  match d with
  | [] => None
  | (k', v) :: d' => if leqb k k' then Some v else lookup k d'
  end.
Definition dget {A} (k : list nat) (d : dict A) : result A :=
  match lookup k d with Some v => Ok v | None => Err KeyError end.

(** coniii/solvers.py:2180-2236 [S] with useAnalyticResults=False (the only way the
    expansion calls it); [fit] is findJmatrixAnalytic_CoocMat. *)
Definition S_cluster (fit : list (list R) -> result (list (list R)))
  (coocMat : list (list R)) (cluster : list nat) : result val :=
  if Nat.eqb (length cluster) 0 then Err GenericException
  else
    bind (coocCluster coocMat cluster) (fun coocMatCluster =>
    bind (fit coocMatCluster) (fun J =>
    bind (JfullFromCluster J cluster (length coocMat)) (fun Jfull =>
    bind (analyticEntropy J) (fun ent => Ok (ent, Jfull))))).

(** coniii/solvers.py:2207-2221 [S] with useAnalyticResults=True on clusters of one or
    two spins: the code calls [log], which is neither defined in nor imported into
    coniii/solvers.py (line 2209, 2217), so it raises NameError after reading coocMat. *)
Definition S_analytic (coocMat : list (list R)) (cluster : list nat) : result val :=
  match cluster with
  | [i] => bind (get coocMat i) (fun r => bind (get r i) (fun _ => Err NameError))
  | [i; j] =>
      let a := Nat.min i j in let b := Nat.max i j in
      bind (get coocMat a) (fun r => bind (get r a) (fun _ =>
      bind (get coocMat b) (fun r2 => bind (get r2 b) (fun _ =>
      bind (get r b) (fun _ => Err NameError)))))
  | _ => Err GenericException
  end.

(** coniii/solvers.py:2207-2221, the formulas the analytic branch would evaluate if
    [log] were numpy's, followed by line 2232-2233.  Not executable in the code as it is;
    used only to state what the formulas compute. *)
Definition J_analytic1 (coocMat : list (list R)) (i : nat) : list (list R) :=
  let p := entry coocMat i i in [[- ln (p / (1 - p))]].
Definition J_analytic2 (coocMat : list (list R)) (c0 c1 : nat) : list (list R) :=
  let i := Nat.min c0 c1 in let j := Nat.max c0 c1 in
  let pi := entry coocMat i i in let pj := entry coocMat j j in let pij := entry coocMat i j in
  let Jii := - ln ((pi - pij) / (1 - pi - pj + pij)) in
  let Jjj := - ln ((pj - pij) / (1 - pi - pj + pij)) in
  let Jij := - ln pij + ln (pi - pij) + ln (pj - pij) - ln (1 - pi - pj + pij) in
  [[Jii; / 2 * Jij]; [/ 2 * Jij; Jjj]].

(** coniii/solvers.py:2238-2275 [Sindependent].  Frequencies 0 and 1 give nan or inf in
    numpy (excluded by hypotheses where it matters). *)
Definition Sindependent (coocMat : list (list R)) (cluster : list nat) : result val :=
  bind (coocCluster coocMat cluster) (fun c0 =>
  bind (symmetrizeUsingUpper c0) (fun c1 =>
  let freqs := map (fun i => entry c1 i i) (range (length c1)) in
  let h := map (fun f => - ln (f / (1 - f))) freqs in
  let n := length h in
  let Jind := mk_mat n n (fun i j => if Nat.eqb i j then nthR h i else 0) in
  let Sind := sumR (map (fun f => - f * ln f - (1 - f) * ln (1 - f)) freqs) in
  bind (JfullFromCluster Jind cluster (length coocMat)) (fun Jfull => Ok (Sind, Jfull)))).

(** coniii/solvers.py:2338-2342 and 2497: [SmeanField] is not imported into
    coniii/solvers.py (only the module mean_field_ising is, line 11). *)
Definition SmeanField_in_solvers (cluster : list nat) : result val := Err NameError.

(** The two dicts deltaSdict and deltaJdict, mutated in place by [deltaS]. *)
Definition memo := (dict R * dict (list (list R)))%type.
Definition memo_get (key : list nat) (m : memo) : result val :=
  bind (dget key (fst m)) (fun s => bind (dget key (snd m)) (fun J => Ok (s, J))).

(** coniii/solvers.py:2277-2361 [deltaS] after the check of the flags.  [Sf cluster] and
    [S0f cluster] are the entropy of the cluster and its reference; the recursion is
    bounded by fuel (one unit per nesting level). *)
Fixpoint deltaS (fuel : nat) (Sf S0f : list nat -> result val) (m : memo) (cluster : list nat)
  : result (val * memo) :=
  match fuel with
  | 0 => Err OutOfFuel
  | S fuel' =>
    let cID := clusterID cluster in
    match lookup cID (fst m) with
    | Some s => bind (dget cID (snd m)) (fun J => Ok ((s, J), m))
    | None =>
      bind (Sf cluster) (fun d0 =>
      bind (S0f cluster) (fun s0 =>
      bind (foldM (fun st size =>
              bind (subsets cluster (Z.of_nat size)) (fun subclusters =>
              foldM (fun (st : val * memo) subcluster =>
                  bind (deltaS fuel' Sf S0f (snd st) subcluster) (fun r =>
                  Ok (vsub (fst st) (fst r), snd r)))
                subclusters st))
            (rev (seq 1 (length cluster - 1))) (vsub d0 s0, m)) (fun st =>
      let '(d, m') := st in
      Ok (d, ((cID, fst d) :: fst m', (cID, snd d) :: snd m')))))
    end
  end.

(** coniii/solvers.py:2318-2319 and 2331-2342 [deltaS] with its two flags: exactly one
    must be set, which is checked before the dicts are looked at. *)
Definition deltaS_flags (fuel : nat) (fit : list (list R) -> result (list (list R)))
  (coocMat : list (list R)) (independentRef meanFieldRef : bool) (m : memo) (cluster : list nat)
  : result (val * memo) :=
  if (independentRef && meanFieldRef) || negb (independentRef || meanFieldRef)
  then Err GenericException
  else deltaS fuel (S_cluster fit coocMat)
         (if independentRef then Sindependent coocMat else SmeanField_in_solvers) m cluster.

(** coniii/solvers.py:2475-2490: body of the double loop over clusters of one size.
    [T] is the threshold, [dS] the call of deltaS; the state is (memo, clusters[size+1]). *)
Definition expand_pair (dS : memo -> list nat -> result (val * memo)) (T : R) (size : nat)
  (gamma1 gamma2 : list nat) (st : memo * list (list nat)) : result (memo * list (list nat)) :=
  let gammaI := intersect1d gamma1 gamma2 in
  let gammaU := nsort (union1d gamma1 gamma2) in
  if Nat.eqb (length gammaI) (size - 1) then
    bind (dS (fst st) gammaU) (fun r =>
    let next := snd st in
    Ok (snd r, if (if Rlt_dec T (Rabs (fst (fst r))) then true else false)
                  && negb (existsb (leqb gammaU) next)
               then next ++ [gammaU] else next))
  else Ok st.

(** coniii/solvers.py:2469-2491: the while loop; [fuel] bounds its number of turns, the
    list returned is clusters[size], clusters[size+1], ... (the last one is empty). *)
Fixpoint expand (fuel : nat) (dS : memo -> list nat -> result (val * memo)) (T : R) (size : nat)
  (current : list (list nat)) (m : memo) : result (memo * list (list (list nat))) :=
  match current with
  | [] => Ok (m, [current])
  | _ =>
    match fuel with
    | 0 => Err OutOfFuel
    | S fuel' =>
      bind (foldM (fun st ij => expand_pair dS T size
                     (nth (fst ij) current []) (nth (snd ij) current []) st)
                  (loop_ij (length current)) (m, [])) (fun r =>
      bind (expand fuel' dS T (size + 1) (snd r) (fst r)) (fun r2 =>
      Ok (fst r2, current :: snd r2)))
    end
  end.

(** coniii/solvers.py:2503-2507: add the contributions of every cluster found. *)
Definition accumulate (m : memo) (start : val) (clusters : list (list (list nat))) : result val :=
  foldM (fun acc cluster => bind (memo_get (clusterID cluster) m) (fun v => Ok (vplus acc v)))
        (concat clusters) start.

(** coniii/solvers.py:2509-2512: to fields and couplings, in the -1,1 basis. *)
Definition to_multipliers (J : list (list R)) : result (list R) :=
  let h := map (fun i => - entry J i i) (range (length J)) in
  bind (zero_diag J) (fun J0 =>
  bind (squareform_mat (map (map Ropp) J0)) (fun v =>
  bind (convert_params h (map (fun x => x * 2) v) To11) (fun r => Ok (fst r ++ snd r)))).

(** coniii/solvers.py:2463-2507: expansion and accumulation; [start] is the reference
    of lines 2493-2501. *)
Definition solve_core (fuel : nat) (dS : memo -> list nat -> result (val * memo))
  (start : result val) (T : R) (cluster : list nat) (m0 : memo)
  : result (val * list (list (list nat)) * memo) :=
  bind (expand fuel dS T 1 (map (fun i => [i]) cluster) m0) (fun r =>
  bind start (fun s =>
  bind (accumulate (fst r) s (snd r)) (fun v => Ok (v, snd r, fst r)))).

(** coniii/solvers.py:2407-2517 [solve].  [fit] stands for findJmatrixAnalytic_CoocMat with
    the given priorLmbda and numSamples; dicts default to empty; [cluster=None] is the
    list of all spins.  Returns (multipliers, ent, clusters, dicts); clusters lists
    clusters[1], clusters[2], ... *)
Definition solve (fuel : nat) (fit : list (list R) -> result (list (list R)))
  (sample : list (list R)) (threshold : R) (cluster : option (list nat)) (m0 : memo)
  (meanFieldRef independentRef : bool)
  : result (list R * R * list (list (list nat)) * memo) :=
  let coocMat := cooccurrence_matrix (map (map (fun x => (x + 1) / 2)) sample) true in
  if independentRef && meanFieldRef then Err GenericException
  else
    let N := length coocMat in
    let cluster := match cluster with None => range N | Some c => c end in
    let start := if independentRef then Sindependent coocMat cluster
                 else if meanFieldRef then SmeanField_in_solvers cluster
                 else Ok (0, mk_mat N N (fun _ _ => 0)) in
    bind (solve_core fuel (deltaS_flags fuel fit coocMat independentRef meanFieldRef)
                     start threshold cluster m0) (fun r =>
    let '(v, clusters, m) := r in
    bind (to_multipliers (snd v)) (fun mult => Ok (mult, fst v, clusters, m))).
