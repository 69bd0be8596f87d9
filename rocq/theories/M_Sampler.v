(** * Model of the Metropolis samplers: coniii/samplers.py and cpp/samplers.cpp.
    A random number generator is a pure state machine; energies are real numbers and
    [calc_e] is an arbitrary function of one state (the parameters are fixed during a
    run).  In-place updates of a state vector are modelled by returning the new
    vector.  Not modelled: floating point rounding, integer widths, process pools
    (a pool is a map over the workers). *)
From Verif Require Import Prelude M_Index.
Import ListNotations.
Local Open Scope R_scope.

(** The methods of np.random.RandomState / std::mt19937_64 that are used:
    [randint t lo hi] (lo <= result < hi) and [rand t] (uniform in [0,1)). *)
Record rng (T : Type) := Rng {
  randint : T -> nat -> nat -> nat * T;
  rand : T -> R * T }.
Arguments randint {T}.
Arguments rand {T}.

(** What any generator guarantees about its results. *)
Definition rng_ok {T} (g : rng T) : Prop :=
  (forall t lo hi, (lo < hi)%nat -> (lo <= fst (randint g t lo hi) < hi)%nat) /\
  (forall t, 0 <= fst (rand g t) < 1).

(** [sample0[flip_site] *= -1]. *)
Definition flip (s : list Z) (i : nat) : list Z := upd s i (nth i s 0 * -1)%Z.

(** coniii/samplers.py:1673-1713 [Metropolis.sample_metropolis]: new state, returned
    energy change, generator. *)
Definition sample_metropolis {T} (g : rng T) (calc_e : list Z -> R) (flip_site : option nat)
  (sample0 : list Z) (E0 : R) (t : T) : list Z * R * T :=
  let '(site, t) := match flip_site with
                    | Some i => (i, t)
                    | None => randint g t 0%nat (length sample0) end in
  let s1 := flip sample0 site in
  let E1 := calc_e s1 in
  let de := E1 - E0 in
  if Rlt_dec 0 de then
    let '(u, t) := rand g t in
    if Rlt_dec (exp (- de)) u then (flip s1 site, 0, t) else (s1, de, t)
  else (s1, de, t).

(** coniii/samplers.py:1859-1901 [Potts3.sample_metropolis]. *)
Definition potts_sample_metropolis {T} (g : rng T) (calc_e : list nat -> R) (flip_site : option nat)
  (sample0 : list nat) (E0 : R) (t : T) : list nat * R * T :=
  let '(site, t) := match flip_site with
                    | Some i => (i, t)
                    | None => randint g t 0%nat (length sample0) end in
  let oState := nth site sample0 0%nat in
  let '(r, t) := randint g t 1%nat 3%nat in
  let s1 := upd sample0 site ((oState + r) mod 3)%nat in
  let E1 := calc_e s1 in
  let de := E1 - E0 in
  if Rlt_dec 0 de then
    let '(u, t) := rand g t in
    if Rlt_dec (exp (- de)) u then (upd s1 site oState, 0, t) else (s1, de, t)
  else (s1, de, t).

(** coniii/samplers.py:1123-1140 [_jit_sample_metropolis]; J is the coupling matrix. *)
Definition jit_sample_metropolis {T} (g : rng T) (h : list R) (J : list (list R)) (flip_site : nat)
  (sample0 : list Z) (t : T) : list Z * R * T :=
  let s1 := flip sample0 flip_site in
  let si := IZR (nth flip_site s1 0%Z) in
  let de := -2 * si * nthR h flip_site
            - dot (map (fun x => 2 * x) (nth flip_site J [])) (map (fun z => 1 * si * IZR z) s1) in
  if Rlt_dec de 0 then (s1, de, t)
  else
    let '(u, t) := rand g t in
    if Rlt_dec (exp (- de)) u then (flip s1 flip_site, 0, t) else (s1, de, t).

(** The sites of [m] successive updates: [i%n] for systematic iteration, otherwise
    chosen inside sample_metropolis. *)
Definition sites (systematic : bool) (n m : nat) : list (option nat) :=
  map (fun i => if systematic then Some (i mod n)%nat else None) (range m).

Section Generate.
Context {V T : Type}.
(** [self.sample_metropolis], [self.random_sample(1)[0]], [self.calc_e]. *)
Variable step : option nat -> list V -> R -> T -> list V * R * T.
Variable random_row : T -> list V * T.
Variable calc_e : list V -> R.

(** [de = self.sample_metropolis(...); E += de] over a list of sites; the energies
    after each update are collected. *)
Fixpoint run (fs : list (option nat)) (s : list V) (E : R) (t : T) : (list V * R * T) * list R :=
  match fs with
  | [] => ((s, E, t), [])
  | f :: fs' =>
    let '(s1, de, t1) := step f s E t in
    let '(st, hist) := run fs' s1 (E + de) t1 in
    (st, (E + de) :: hist)
  end.

(** coniii/samplers.py:1278-1323: [m] recorded samples with [fs] updates before each:
    ((samples, energies), final state), energies after each update. *)
Fixpoint record (fs : list (option nat)) (m : nat) (s : list V) (E : R) (t : T)
  : (list (list V) * list R) * (list V * R * T) * list R :=
  match m with
  | O => (([], []), (s, E, t), [])
  | S m' =>
    let '((s1, E1, t1), h1) := run fs s E t in
    let '((ss, Es), fin, h2) := record fs m' s1 E1 t1 in
    ((s1 :: ss, E1 :: Es), fin, h1 ++ h2)
  end.

(** [burn_in = burn_in or n_iters]: 0 counts as missing. *)
Definition burn_in_or (burn_in : option nat) (n_iters : nat) : nat :=
  match burn_in with None => n_iters | Some 0%nat => n_iters | Some b => b end.

(** The attributes left behind by generate_sample_py. *)
Record gen_result := {
  g_sample : list (list V);      (* self.sample *)
  g_E : list R;                  (* self.E *)
  g_samples : list (list V);     (* self._samples *)
  g_history : list R;            (* returned when saveHistory *)
  g_rng : T }.

(** coniii/samplers.py:1227-1323 [generate_sample_py].  [samples] is self._samples.
    When self._samples is kept and has not exactly one row, E and de are arrays and
    [if de>0] raises ValueError (for at least one update). *)
Definition generate_sample_py (n sample_size n_iters : nat) (burn_in : option nat) (systematic : bool)
  (samples : option (list (list V))) (initial : option (list (list V))) (t : T)
  : result gen_result :=
  let burn := burn_in_or burn_in n_iters in
  bind (match initial with
        | None =>
          match samples with
          | None => let '(r, t) := random_row t in Ok ([r], t)
          | Some ss => if Nat.eqb (length ss) sample_size then Ok (ss, t)
                       else let '(r, t) := random_row t in Ok ([r], t)
          end
        | Some init =>
          if Nat.eqb (length init) 1 && forallb (fun r => Nat.eqb (length r) n) init
          then Ok (init, t) else Err AssertionError
        end) (fun st =>
  let '(samples, t) := st in
  match samples with
  | [s0] =>
    let '((s1, E1, t1), _) := run (sites systematic n burn) s0 (calc_e s0) t in
    let '((ss, Es), (s2, _, t2), hist) := record (sites systematic n n_iters) sample_size s1 E1 t1 in
    Ok {| g_sample := ss; g_E := Es; g_samples := [s2]; g_history := hist ++ [0]; g_rng := t2 |}
  | _ => Err ValueError
  end).

(** coniii/samplers.py:1402-1440, one worker of [generate_sample_parallel_py]. *)
Definition worker (n n_samples n_iters burn : nat) (systematic : bool) (mkrng : nat -> T)
  (s : list V) (E : R) (seed : nat) : list (list V) * list V * R :=
  let '((s1, E1, t1), _) := run (sites systematic n burn) s E (mkrng seed) in
  let '((ss, _), (s2, E2, _), _) := record (sites systematic n n_iters) n_samples s1 E1 t1 in
  (ss, s2, E2).

(** coniii/samplers.py:1365-1447 [generate_sample_parallel_py]; [replicas] are the
    n_cpus starting states, [seeds] the n_cpus seeds drawn from self.rng.
    [int(np.ceil(sample_size/n_cpus))] is the exact ceiling.
    Result: (self.sample, self._samples, self.E). *)
Definition ceil_div (a b : nat) : nat := ((a + b - 1) / b)%nat.

Definition generate_sample_parallel_py (n sample_size n_iters : nat) (burn_in : option nat)
  (systematic : bool) (mkrng : nat -> T) (replicas : list (list V)) (seeds : list nat)
  : list (list V) * list (list V) * list R :=
  let burn := burn_in_or burn_in n_iters in
  let n_cpus := length replicas in
  let out := map (fun rs => worker n (ceil_div sample_size n_cpus) n_iters burn systematic mkrng
                              (fst rs) (calc_e (fst rs)) (snd rs)) (combine replicas seeds) in
  (firstn sample_size (concat (map (fun o => fst (fst o)) out)),
   map (fun o => snd (fst o)) out, map snd out).
End Generate.
Arguments gen_result : clear implicits.

(** coniii/samplers.py:1715-1716 and 1903-1904 [random_sample(1)]: n successive
    draws. *)
Fixpoint draw_row {V T} (draw : T -> V * T) (n : nat) (t : T) : list V * T :=
  match n with
  | O => ([], t)
  | S n' => let '(v, t) := draw t in let '(r, t) := draw_row draw n' t in (v :: r, t)
  end.

Definition ising_random_row {T} (g : rng T) (n : nat) : T -> list Z * T :=
  draw_row (fun t => let '(b, t) := randint g t 0%nat 2%nat in (nth b [-1; 1]%Z 0%Z, t)) n.

Definition potts_random_row {T} (g : rng T) (n : nat) : T -> list nat * T :=
  draw_row (fun t => randint g t 0%nat 3%nat) n.

(** [Metropolis.generate_sample_py] and [Potts3.generate_sample_py]. *)
Definition ising_generate_sample_py {T} (g : rng T) (calc_e : list Z -> R) (n : nat) :=
  generate_sample_py (sample_metropolis g calc_e) (ising_random_row g n) calc_e n.

Definition potts_generate_sample_py {T} (g : rng T) (calc_e : list nat -> R) (n : nat) :=
  generate_sample_py (potts_sample_metropolis g calc_e) (potts_random_row g n) calc_e n.

(** ** Conditional sampling in Python *)

(** [for ii in range(i0,i): fullstate[0,ii] = state[0,stateix]; stateix += 1]. *)
Definition fill_between (i0 i : nat) (state : list Z) (st : list Z * nat) : result (list Z * nat) :=
  fold_left (fun acc ii => bind acc (fun st =>
      let '(full, stateix) := st in
      bind (get state stateix) (fun v => Ok (upd full ii v, (stateix + 1)%nat))))
    (range2 i0 i) (Ok st).

(** coniii/samplers.py:1574-1594 [cond_calc_e], up to the call of calc_e: the full
    state. *)
Fixpoint cond_fill (n : nat) (fixed : list (nat * Z)) (i0 : nat) (state : list Z) (st : list Z * nat)
  : result (list Z) :=
  match fixed with
  | [] => bind (fill_between i0 n state st) (fun st => Ok (fst st))
  | (i, s) :: fixed' =>
    bind (fill_between i0 i state st) (fun st =>
    if Nat.ltb i n then cond_fill n fixed' (i + 1) state (upd (fst st) i s, snd st)
    else Err IndexError)
  end.

Definition cond_fullstate (n : nat) (fixed : list (nat * Z)) (state : list Z) : result (list Z) :=
  cond_fill n fixed 0 state (repeat 0%Z n, 0%nat).

(** [np.insert(arr, indices, s)] of a flat array: before each listed original
    position (increasing, at most size) one copy of s. *)
Fixpoint insert_before (k : nat) (indices : list nat) (s : Z) (arr : list Z) : list Z :=
  match arr with
  | [] => if existsb (Nat.eqb k) indices then [s] else []
  | a :: arr' =>
    if existsb (Nat.eqb k) indices then s :: a :: insert_before (S k) indices s arr'
    else a :: insert_before (S k) indices s arr'
  end.

Definition np_insert (indices : list nat) (s : Z) (arr : list Z) : result (list Z) :=
  if existsb (fun i => Nat.ltb (length arr) i) indices then Err IndexError
  else Ok (insert_before 0 indices s arr).

(** Python [range(start,stop,step)], step > 0. *)
Fixpoint range_step (fuel start stop step : nat) : list nat :=
  match fuel with
  | O => []
  | S f => if Nat.ltb start stop then start :: range_step f (start + step) stop step else []
  end.

(** coniii/samplers.py:1660-1667: insertion of the fixed spins into the flat sample.
    A zero step raises ValueError. *)
Fixpoint insert_fixed (nSubset counter : nat) (fixed : list (nat * Z)) (flat : list Z) : result (list Z) :=
  match fixed with
  | [] => Ok flat
  | (i, s) :: fixed' =>
    let step := (nSubset + counter)%nat in
    if Nat.eqb step 0 then Err ValueError
    else
      let stop := if Nat.eqb i 0 then length flat else (length flat + 1)%nat in
      bind (np_insert (range_step (stop + 1) i stop step) s flat)
           (fun flat => insert_fixed nSubset (counter + 1) fixed' flat)
  end.

(** [np.reshape(flat,(m,n))]. *)
Fixpoint chunks (m n : nat) (flat : list Z) : list (list Z) :=
  match m with O => [] | S m' => firstn n flat :: chunks m' n (skipn n flat) end.

Definition reshape (m n : nat) (flat : list Z) : result (list (list Z)) :=
  if Nat.eqb (length flat) (m * n) then Ok (chunks m n flat) else Err ValueError.

(** coniii/samplers.py:1523-1671 [generate_cond_sample_py], parallel=False.
    (parallel=True raises NotImplementedError.)  [initial_sample] only provides the
    array that is overwritten, so it does not appear; when it is not given,
    sample_size*nSubset further draws are made before those of the run (they only
    change [t]).  Since the fixed spins are known to be valid after the checks, the
    energy is total in this model: a failing cond_fullstate would raise IndexError.
    With no free spin the source raises at the first update; the model only at the
    insertion (if there is any update or not: np.insert with step 0 raises anyway).
    For sample_size 0, np.concatenate of no array raises.
    Result: (self.sample, self.E, generator). *)
Definition generate_cond_sample_py {T} (g : rng T) (calc_e : list Z -> R) (n sample_size : nat)
  (fixed : list (nat * Z)) (burn_in n_iters : nat) (systematic : bool) (t : T)
  : result (list (list Z) * list R * T) :=
  let nSubset := (n - length fixed)%nat in
  match fixed with
  | [] => Err IndexError   (* fixed_subset_[0] of an empty list *)
  | _ =>
    if negb (strictly_increasing (map fst fixed)) then Err AssertionError
    else if negb (forallb (fun x => Z.eqb (snd x) (-1) || Z.eqb (snd x) 1) fixed) then Err AssertionError
    else
      let cond_calc_e := fun state => match cond_fullstate n fixed state with
                                      | Ok full => calc_e full | Err _ => 0 end in
      let '(s0, t0) := ising_random_row g nSubset t in
      bind (cond_fullstate n fixed s0) (fun _ =>
      let '((s1, E1, t1), _) := run (sample_metropolis g cond_calc_e) (sites systematic nSubset burn_in)
                                    s0 (cond_calc_e s0) t0 in
      let '((ss, Es), (_, _, t2), _) := record (sample_metropolis g cond_calc_e) (sites systematic nSubset n_iters)
                                          sample_size s1 E1 t1 in
      bind (insert_fixed nSubset 0 fixed (concat ss)) (fun flat =>
      bind (reshape sample_size n flat) (fun rows =>
      match Es with [] => Err ValueError | _ => Ok (rows, Es, t2) end)))
  end.

(** coniii/samplers.py:1723-1759 [define_jit_cond_calc_e]: [fixed_subset] is the flat
    array i0,s0,i1,s1,...; the loop variable i is overwritten by fixed_subset[i], then
    s is read from fixed_subset[i+1].  Reads out of range raise IndexError (under njit
    they are undefined). *)
Fixpoint jit_cond_fill (n : nat) (fixed : list Z) (ks : list nat) (i0 : nat) (state : list Z) (st : list Z * nat)
  : result (list Z) :=
  match ks with
  | [] => bind (fill_between i0 n state st) (fun st => Ok (fst st))
  | k :: ks' =>
    bind (get fixed k) (fun iz =>
    let i := Z.to_nat iz in
    bind (get fixed (i + 1)) (fun s =>
    bind (fill_between i0 i state st) (fun st =>
    if negb (Nat.ltb i n) then Err IndexError else
    jit_cond_fill n fixed ks' (i + 1) state (upd (fst st) i s, snd st))))
  end.

Definition jit_cond_fullstate (n : nat) (fixed : list Z) (state : list Z) : result (list Z) :=
  jit_cond_fill n fixed (range_step (length fixed) 0 (length fixed) 2) 0 state (repeat 0%Z n, 0%nat).

(** ** C++ samplers *)

(** [couplingMat[i][j] = v]. *)
Definition set_entry (m : list (list R)) (i j : nat) (v : R) : list (list R) :=
  upd m i (upd (nth i m []) j v).

(** cpp/samplers.cpp:294-299 and 383-389: couplings copied to a symmetric matrix;
    [off] is n (Ising) or 3*n (Potts3). *)
Definition coupling_mat (n off : nat) (multipliers : list R) : list (list R) :=
  fst (fold_left (fun st p => let '(m, counter) := st in
         let v := nthR multipliers (counter + off) in
         (set_entry (set_entry m (snd p) (fst p) v) (fst p) (snd p) v, (counter + 1)%nat))
       (loop_ij n) (repeat (repeat 0 n) n, 0%nat)).

(** cpp/samplers.cpp:331-344 [Ising::calc_e], n >= 1. *)
Definition cpp_calc_e (n : nat) (multipliers : list R) (s : list Z) : R :=
  let at_ := fun i => IZR (nth i s 0%Z) in
  let '(e, _) := fold_left (fun st i =>
      let '(e, counter) := st in
      let e := e - nthR multipliers i * at_ i in
      fold_left (fun st j => let '(e, counter) := st in
          (e - nthR multipliers (counter + n) * at_ i * at_ j, (counter + 1)%nat))
        (range2 (i + 1) n) (e, counter))
    (range (n - 1)) (0, 0%nat) in
  e - nthR multipliers (n - 1) * at_ (n - 1)%nat.

(** cpp/samplers.cpp:347-362 [Ising::sample_metropolis]. *)
Definition cpp_sample_metropolis {T} (g : rng T) (n : nat) (multipliers : list R) (couplingMat : list (list R))
  (s : list Z) (randix : nat) (t : T) : list Z * R * T :=
  let s1 := flip s randix in
  let at_ := fun i => IZR (nth i s1 0%Z) in
  let de := fold_left (fun de i => de - 2 * entry couplingMat randix i * at_ randix * at_ i)
              (range n) (-2 * nthR multipliers randix * at_ randix) in
  if Rlt_dec 0 de then
    let '(u, t) := rand g t in
    if Rlt_dec (exp (- de)) u then (flip s1 randix, 0, t) else (s1, de, t)
  else (s1, de, t).

(** cpp/samplers.cpp:418-448 [Potts3::calc_e], n >= 1. *)
Definition cpp_potts_field (n : nat) (multipliers : list R) (s : list nat) (i : nat) : R :=
  if Nat.eqb (nth i s 0%nat) 0 then nthR multipliers i
  else if Nat.eqb (nth i s 0%nat) 1 then nthR multipliers (i + n)
  else nthR multipliers (i + 2 * n).

Definition cpp_potts_calc_e (n : nat) (multipliers : list R) (s : list nat) : R :=
  let '(e, _) := fold_left (fun st i =>
      let '(e, counter) := st in
      let e := e - cpp_potts_field n multipliers s i in
      fold_left (fun st j => let '(e, counter) := st in
          ((if Nat.eqb (nth i s 0%nat) (nth j s 0%nat) then e - nthR multipliers (counter + 3 * n) else e),
           (counter + 1)%nat))
        (range2 (i + 1) n) (e, counter))
    (range (n - 1)) (0, 0%nat) in
  e - cpp_potts_field n multipliers s (n - 1).

(** cpp/samplers.cpp:451-476 [Potts3::sample_metropolis]. *)
Definition cpp_potts_sample_metropolis {T} (g : rng T) (n : nat) (multipliers : list R)
  (couplingMat : list (list R)) (s : list nat) (randix : nat) (t : T) : list nat * R * T :=
  let oState := nth randix s 0%nat in
  let '(r, t) := randint g t 1%nat 3%nat in
  let s1 := upd s randix ((r + oState) mod 3)%nat in
  let new := nth randix s1 0%nat in
  let de := 0 + nthR multipliers (oState * n + randix) in
  let de := de - nthR multipliers (new * n + randix) in
  let de := fold_left (fun de i =>
      let de := if Nat.eqb oState (nth i s1 0%nat) then de + entry couplingMat randix i else de in
      if Nat.eqb new (nth i s1 0%nat) then de - entry couplingMat randix i else de)
    (range n) de in
  if Rlt_dec 0 de then
    let '(u, t) := rand g t in
    if Rlt_dec (exp (- de)) u then (upd s1 randix oState, 0, t) else (s1, de, t)
  else (s1, de, t).

Section CppGenerate.
Context {V T : Type}.
Variable g : rng T.
Variable step : list V -> nat -> T -> list V * R * T.   (* virtual sample_metropolis *)

(** cpp/samplers.cpp:109-118 and 119-132 (and 176-186, 187-199): updates with a
    running counter; [pick] chooses the site. *)
Fixpoint cpp_run (pick : nat -> T -> nat * T) (m : nat) (counter : nat) (s : list V) (e : R) (t : T)
  : (list V * R * T) * nat :=
  match m with
  | O => ((s, e, t), counter)
  | S m' =>
    let '(randix, t) := pick counter t in
    let '(s1, de, t1) := step s randix t in
    cpp_run pick m' (counter + 1) s1 (e + de) t1
  end.

Fixpoint cpp_record (pick : nat -> T -> nat * T) (n_iters m : nat) (counter : nat) (s : list V) (e : R) (t : T)
  : list (list V) * (list V * R * T) :=
  match m with
  | O => ([], (s, e, t))
  | S m' =>
    let '((s1, e1, t1), c1) := cpp_run pick n_iters counter s e t in
    let '(ss, fin) := cpp_record pick n_iters m' c1 s1 e1 t1 in
    (s1 :: ss, fin)
  end.

(** cpp/samplers.cpp:111-115: [counter%n] or a random index below n. *)
Definition pick_all (systematic : bool) (n : nat) (counter : nat) (t : T) : nat * T :=
  if systematic then ((counter mod n)%nat, t) else randint g t 0%nat n.

(** cpp/samplers.cpp:92-133 [Sampler::generate_sample]; s0 is the result of
    init_sample. *)
Definition cpp_generate_sample (calc_e : list V -> R) (n n_samples burn_in n_iters : nat) (systematic : bool)
  (s0 : list V) (t : T) : list (list V) * (list V * R * T) :=
  let '((s1, e1, t1), c1) := cpp_run (pick_all systematic n) burn_in 0 s0 (calc_e s0) t in
  cpp_record (pick_all systematic n) n_iters n_samples c1 s1 e1 t1.

(** cpp/samplers.cpp:156-164: indices that are not fixed. *)
Fixpoint non_ix_loop (is : list nat) (ix : list nat) (counter : nat) : list nat :=
  match is with
  | [] => []
  | i :: is' =>
    if Nat.ltb counter (length ix) && negb (Nat.eqb i (nth counter ix 0%nat)) then i :: non_ix_loop is' ix counter
    else if Nat.ltb counter (length ix) then non_ix_loop is' ix (counter + 1)
    else i :: non_ix_loop is' ix counter
  end.

(** cpp/samplers.cpp:178-186: [non_ix[counter%(n-ix.size())]], or a random one.
    In random mode the counter is not advanced in the source; it is not used there. *)
Definition pick_free (systematic : bool) (n : nat) (ix non_ix : list nat) (counter : nat) (t : T) : nat * T :=
  if systematic then (nth (counter mod (n - length ix)) non_ix 0%nat, t)
  else let '(r, t) := randint g t 0%nat (n - 1 - length ix + 1)%nat in (nth r non_ix 0%nat, t).

(** cpp/samplers.cpp:135-201 [Sampler::generate_cond_sample]. *)
Definition cpp_generate_cond_sample (calc_e : list V -> R) (n : nat) (ix : list nat) (vals : list V)
  (n_samples burn_in n_iters : nat) (systematic : bool) (s0 : list V) (t : T)
  : list (list V) * (list V * R * T) :=
  let non_ix := non_ix_loop (range n) ix 0 in
  let s := fold_left (fun s p => upd s (fst p) (snd p)) (combine ix vals) s0 in
  let '((s1, e1, t1), c1) := cpp_run (pick_free systematic n ix non_ix) burn_in 0 s (calc_e s) t in
  cpp_record (pick_free systematic n ix non_ix) n_iters n_samples c1 s1 e1 t1.
End CppGenerate.

(** cpp/samplers.cpp:316-329 [Ising::init_sample]: 1 for draw 0, -1 for draw 1. *)
Definition cpp_ising_init {T} (g : rng T) (n : nat) : T -> list Z * T :=
  draw_row (fun t => let '(b, t) := randint g t 0%nat 2%nat in (if Nat.eqb b 0 then 1%Z else (-1)%Z, t)) n.

(** cpp/samplers.cpp:407-415 [Potts3::init_sample]. *)
Definition cpp_potts_init {T} (g : rng T) (n : nat) : T -> list nat * T :=
  draw_row (fun t => randint g t 0%nat 3%nat) n.

(** BoostIsing(n,multipliers,seed).generate_sample(...), then fetch_sample. *)
Definition boost_ising_sample {T} (g : rng T) (n : nat) (multipliers : list R)
  (n_samples burn_in n_iters : nat) (systematic : bool) (t : T) : list (list Z) :=
  let '(s0, t) := cpp_ising_init g n t in
  fst (cpp_generate_sample g (cpp_sample_metropolis g n multipliers (coupling_mat n n multipliers))
         (cpp_calc_e n multipliers) n n_samples burn_in n_iters systematic s0 t).

(** BoostPotts3(n,multipliers,seed).generate_sample(...), then fetch_sample. *)
Definition boost_potts_sample {T} (g : rng T) (n : nat) (multipliers : list R)
  (n_samples burn_in n_iters : nat) (systematic : bool) (t : T) : list (list nat) :=
  let '(s0, t) := cpp_potts_init g n t in
  fst (cpp_generate_sample g (cpp_potts_sample_metropolis g n multipliers (coupling_mat n (3 * n) multipliers))
         (cpp_potts_calc_e n multipliers) n n_samples burn_in n_iters systematic s0 t).

(** BoostIsing(...).generate_cond_sample(ix,vals,...), then fetch_sample. *)
Definition boost_ising_cond_sample {T} (g : rng T) (n : nat) (multipliers : list R) (ix : list nat) (vals : list Z)
  (n_samples burn_in n_iters : nat) (systematic : bool) (t : T) : list (list Z) :=
  let '(s0, t) := cpp_ising_init g n t in
  fst (cpp_generate_cond_sample g (cpp_sample_metropolis g n multipliers (coupling_mat n n multipliers))
         (cpp_calc_e n multipliers) n ix vals n_samples burn_in n_iters systematic s0 t).

(** coniii/samplers.py:1349-1363 [generate_sample_parallel_boost] (and the parallel
    branch of generate_cond_sample_boost, 1509-1522): one generator per seed, each
    producing ceil(sample_size/n_cpus) rows. *)
Definition generate_sample_parallel_boost {T} (g : rng T) (mkrng : nat -> T) (n : nat) (multipliers : list R)
  (sample_size n_iters : nat) (burn_in : option nat) (systematic : bool) (seeds : list nat) : list (list Z) :=
  let n_cpus := length seeds in
  firstn sample_size (concat (map (fun seed =>
    boost_ising_sample g n multipliers (ceil_div sample_size n_cpus) (burn_in_or burn_in n_iters) n_iters systematic (mkrng seed)) seeds)).

(** coniii/samplers.py:1448-1522 [generate_cond_sample_boost]: the argument checks
    and, for parallel=False, one C++ run; for parallel=True one run per seed. *)
Definition generate_cond_sample_boost {T} (g : rng T) (mkrng : nat -> T) (n : nat) (multipliers : list R)
  (sample_size : nat) (fixed : list (nat * Z)) (burn_in : option nat) (n_iters : nat) (systematic : bool)
  (parallel : bool) (seeds : list nat) : result (list (list Z)) :=
  match sample_size, fixed with
  | 0%nat, _ => Err AssertionError
  | _, [] => Err IndexError
  | _, _ =>
    if negb (strictly_increasing (map fst fixed)) then Err AssertionError
    else if negb (forallb (fun x => Z.eqb (snd x) (-1) || Z.eqb (snd x) 1) fixed) then Err AssertionError
    else
      let one := fun m seed => boost_ising_cond_sample g n multipliers (map fst fixed) (map snd fixed)
                                 m (burn_in_or burn_in n_iters) n_iters systematic (mkrng seed) in
      if parallel then
        Ok (firstn sample_size (concat (map (one (ceil_div sample_size (length seeds))) seeds)))
      else Ok (one sample_size (nth 0 seeds 0%nat))
  end.

(** The observable state of a C++ Ising sampler object: multipliers and the coupling
    matrix built by its constructor. *)
Record cpp_ising := { cpp_multipliers : list R; cpp_couplings : list (list R) }.

(** cpp/samplers.cpp:286-304 [Ising::Ising(int,np::ndarray,int)]. *)
Definition cpp_ising_new (n : nat) (multipliers : list R) : cpp_ising :=
  {| cpp_multipliers := multipliers; cpp_couplings := coupling_mat n n multipliers |}.

(** cpp/samplers.cpp:306-314 [Ising::readin_multipliers], exported to Python: the
    multipliers are replaced, the coupling matrix is not. *)
Definition cpp_readin_multipliers (o : cpp_ising) (multipliers : list R) : cpp_ising :=
  {| cpp_multipliers := multipliers; cpp_couplings := cpp_couplings o |}.
