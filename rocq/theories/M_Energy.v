(** * Model of the energy / observable helper functions of coniii/utils.py.
    Functions acting on a 2-d array of states are modelled row by row ("_row"),
    the array version maps the row function.  Spins are reals here ({-1,1},
    {0,1} or anything else); Potts spins are naturals. *)
From Verif Require Import Prelude M_Index.
Import ListNotations.
Local Open Scope R_scope.

(** coniii/utils.py:933-943 [fast_sum], one row: accumulates
    [e[n] += J[k]*s[n,i]*s[n,j]; k += 1] over the double loop.  (njit code has no
    bounds check; callers of the theorems supply enough couplings.) *)
Definition fast_sum_row (J s : list R) : R :=
  fst (fold_left (fun st p => let '(e, k) := st in
         (e + nthR J k * nthR s (fst p) * nthR s (snd p), (k + 1)%nat))
       (loop_ij (length s)) (0, 0%nat)).

(** coniii/utils.py:945-962 [calc_e] of the Ising helpers, one row. *)
Definition ising_calc_e_row (s params : list R) : R :=
  let n := length s in
  let e := - fast_sum_row (skipn n params) s in
  e - sumR (map (fun p => fst p * snd p) (combine s (firstn n params))).

(** coniii/utils.py:945-962 [calc_e]. *)
Definition ising_calc_e (S : list (list R)) (params : list R) : list R :=
  map (fun s => ising_calc_e_row s params) S.

(** coniii/utils.py:974-987 [calc_observables] of the Ising helpers, one row:
    writes [obs[:,i]] and [obs[:,n+k]] into a zero array. *)
Definition ising_calc_observables_row (s : list R) : list R :=
  let n := length s in
  fst (fold_left (fun st i =>
         let '(obs, k) := st in
         let obs := upd obs i (nthR s i) in
         fold_left (fun st j => let '(obs, k) := st in
             (upd obs (n + k) (nthR s i * nthR s j), (k + 1)%nat))
           (range2 (i + 1) n) (obs, k))
       (range n) (repeat 0 (n + n * (n - 1) / 2), 0%nat)).

(** coniii/utils.py:1016-1031 [calc_e] without fields (the _sym helpers), one row.
    Simplification: the numba signature strings are modelled in M_Rest only (C106: with them the
    function cannot be compiled). *)
Definition ising_sym_calc_e_row (s params : list R) : R := - fast_sum_row params s.

(** coniii/utils.py:1042-1055 [calc_observables] of the _sym helpers, one row
    (here the outer loop is range(n), its last iteration is empty). *)
Definition ising_sym_calc_observables_row (s : list R) : list R :=
  let n := length s in
  fst (write_seq (fun p => nthR s (fst p) * nthR s (snd p))
         (flat_map (fun i => map (fun j => (i, j)) (range2 (i + 1) n)) (range n))
         (repeat 0 (n * (n - 1) / 2), 0%nat)).

(** coniii/utils.py:1060-1084 [calc_observables] of the triplet helpers, one row. *)
Definition triplet_calc_observables_row (s : list R) : list R :=
  let n := length s in
  let st := (repeat 0 (n + n * (n - 1) / 2 + n * (n - 1) * (n - 2) / 6), 0%nat) in
  let st := write_seq (fun i => nthR s i) (range n) st in
  let st := write_seq (fun p => nthR s (fst p) * nthR s (snd p)) (loop_ij n) st in
  let st := write_seq (fun t => nthR s (fst (fst t)) * nthR s (snd (fst t)) * nthR s (snd t))
                      (loop_ijk n) st in
  fst st.

(** coniii/utils.py:1086-1087 [calc_e] of the triplet helpers, one row. *)
Definition triplet_calc_e_row (s multipliers : list R) : R :=
  - dot (triplet_calc_observables_row s) multipliers.

(** coniii/utils.py:1093-1113 [calc_observables] of the ternary helpers, one row:
    the first loop reads column i for i in range(3*n) of an n-column array.
    The out-of-range read is modelled as IndexError (njit without bounds check
    makes it an undefined read). *)
Definition ternary_calc_observables_row (s : list R) : result (list R) :=
  let n := length s in
  bind (mapM (fun i => get s i) (range (3 * n))) (fun means =>
  Ok (means ++ map (fun p => nthR s (fst p) * nthR s (snd p)) (loop_ij n))).

(** coniii/utils.py:1137-1169 [calc_observables] of the k-state Potts helpers,
    one row. *)
Definition potts_calc_observables_row (k : nat) (s : list nat) : list R :=
  let n := length s in
  let at_ := fun i => nth i s 0%nat in
  let st := (repeat 0 (n * k + n * (n - 1) / 2), 0%nat) in
  let st := fold_left (fun st i =>
               write_seq (fun j => b2R (Nat.eqb (at_ j) i)) (range n) st) (range k) st in
  let st := write_seq (fun p => b2R (Nat.eqb (at_ (fst p)) (at_ (snd p)))) (loop_ij n) st in
  fst st.

(** coniii/utils.py:1171-1185 [calc_e] of the Potts helpers, one row. *)
Definition potts_calc_e_row (k : nat) (s : list nat) (multipliers : list R) : R :=
  - dot (potts_calc_observables_row k s) multipliers.

(** coniii/utils.py:1274-1297 [calc_de], one row.  [i] is the parameter index. *)
Definition calc_de_row (s : list R) (i : nat) : result R :=
  let n := length s in
  if Nat.ltb i n then Ok (- nthR s i)
  else match ind_to_sub (Z.of_nat n) (Z.of_nat (i - n)) with
       | Some (a, b) => Ok (- nthR s (Z.to_nat a) * nthR s (Z.to_nat b))
       | None => Err TypeError (* unpacking None *)
       end.

(** coniii/utils.py:1214-1251 [adj] with n_random_neighbors=0.  The state is the
    caller's array [s], which is modified and restored in place; the result is
    (neighbors, final content of s). *)
Definition adj (s : list R) : list (list R) * list R :=
  fold_left (fun st i =>
      let '(nb, s) := st in
      let s1 := upd s i (1 - nthR s i) in
      let nb := nb ++ [s1] in
      let s2 := upd s1 i (1 - nthR s1 i) in
      (nb, s2)) (range (length s)) ([], s).

(** coniii/utils.py:1254-1272 [adj_sym] with n_random_neighbors=False. *)
Definition adj_sym (s : list R) : list (list R) * list R :=
  fold_left (fun st i =>
      let '(nb, s) := st in
      let s1 := upd s i (-1 * nthR s i) in
      let nb := nb ++ [s1] in
      let s2 := upd s1 i (-1 * nthR s1 i) in
      (nb, s2)) (range (length s)) ([], s).

(** coniii/utils.py:1242-1250: random neighbours.  [draws] are the successive
    results of [(np.random.rand(s.size)<.5)*1.]; [while match] rejects draws equal
    to [s].  Running out of draws is OutOfFuel. *)
Fixpoint random_neighbors (eqb : list R -> list R -> bool) (s : list R) (m : nat)
  (draws : list (list R)) : result (list (list R)) :=
  match m with
  | 0%nat => Ok []
  | S m' =>
    (fix retry (draws : list (list R)) : result (list (list R)) :=
       match draws with
       | [] => Err OutOfFuel
       | d :: draws' =>
         if eqb d s then retry draws'
         else bind (random_neighbors eqb s m' draws') (fun r => Ok (d :: r))
       end) draws
  end.

(** coniii/utils.py:728-759 [get_multipliers_r] of the pseudo-Ising helpers:
    (multipliersr, ix); consecutive writes through [ixcounter] are the list. *)
Definition pseudo_ising_ix (N r : nat) : result (list nat) :=
  bind (mapM (fun i =>
          bind (if Nat.ltb i r then sub_to_ind (Z.of_nat N) (Z.of_nat i) (Z.of_nat r)
                else sub_to_ind (Z.of_nat N) (Z.of_nat r) (Z.of_nat i))
               (fun z => Ok (Z.to_nat z + N)%nat))
        (filter (fun i => negb (Nat.eqb i r)) (range N)))
       (fun l => Ok (r :: l)).

Definition pseudo_ising_get_multipliers_r (N r : nat) (multipliers : list R)
  : result (list R * list nat) :=
  bind (pseudo_ising_ix N r) (fun ix =>
  Ok (map (fun i => nthR multipliers i) ix, ix)).

(** coniii/utils.py:761-791 [calc_observables_r] of the pseudo-Ising helpers, one
    row. *)
Definition pseudo_ising_calc_observables_r (N r : nat) (x : list R) : list R :=
  nthR x r ::
  map (fun p => nthR x (fst p) * nthR x (snd p))
      (filter (fun p => Nat.eqb (fst p) r || Nat.eqb (snd p) r) (loop_ij N)).

(** coniii/utils.py:817-851 [get_multipliers_r] of the pseudo-Potts helpers. *)
Definition pseudo_potts_ix (n k r : nat) : result (list nat) :=
  bind (mapM (fun i =>
          bind (if Nat.ltb i r then sub_to_ind (Z.of_nat n) (Z.of_nat i) (Z.of_nat r)
                else sub_to_ind (Z.of_nat n) (Z.of_nat r) (Z.of_nat i))
               (fun z => Ok (Z.to_nat z + k * n)%nat))
        (filter (fun i => negb (Nat.eqb i r)) (range n)))
       (fun l => Ok (map (fun i => (r + n * i)%nat) (range k) ++ l)).

Definition pseudo_potts_get_multipliers_r (n k r : nat) (multipliers : list R)
  : result (list R * list nat) :=
  bind (pseudo_potts_ix n k r) (fun ix =>
  Ok (map (fun i => nthR multipliers i) ix, ix)).

(** coniii/utils.py:853-915 [calc_observables_r] of the pseudo-Potts helpers, one
    row: (obs, otherobs, otherstates).  The entries written through counters are
    built as lists in the order of the loops. *)
Definition pseudo_potts_calc_observables_r (n k r : nat) (x : list nat)
  : list R * list (list R) * list nat :=
  let at_ := fun i => nth i x 0%nat in
  let rel := filter (fun p => Nat.eqb (fst p) r || Nat.eqb (snd p) r) (loop_ij n) in
  let otherstates := filter (fun i => negb (Nat.eqb (at_ r) i)) (range k) in
  let onehot := fun st => map (fun i => b2R (Nat.eqb st i)) (range k) in
  let obs := onehot (at_ r) ++
             map (fun p => b2R (Nat.eqb (at_ (fst p)) (at_ (snd p)))) rel in
  let otherobs := map (fun st => onehot st ++
        map (fun p => if Nat.eqb (fst p) r then b2R (Nat.eqb (at_ (snd p)) st)
                      else b2R (Nat.eqb (at_ (fst p)) st)) rel) otherstates in
  (obs, otherobs, otherstates).
