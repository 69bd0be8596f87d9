(** * Model of the three-state Potts sampler object (coniii/samplers.py:1764-1907) with the methods
    it inherits from Metropolis (1193-1225, 1227-1447, 1523-1671, 1718-1721), and of the front end
    of models.Potts3 (coniii/models.py:33-129, 258-310) that uses it.
    Energies are those of calc_e, given as a function of parameters and state.  Parameters are
    vectors (the constructor also takes a list of two arrays; the C++ class then raises, and so do
    the energy functions).  The generator is shared between model and sampler. *)
From Verif Require Import Prelude M_Params M_Index M_Sampler M_Front.
Import ListNotations.

(** The number of parameters: coniii/samplers.py:1792 (and 1177 for the Ising model). *)
Definition potts_size (n : nat) : nat := (n * 3 + n * (n - 1) / 2)%nat.
Definition ising_params (n : nat) : nat := (n + n * (n - 1) / 2)%nat.

Section Potts3.
Context {T C : Type}.
Variable g : rng T.                 (* numpy generator *)
Variable gc : rng C.                (* generator of the C++ extension *)
Variable mkrng : nat -> T.          (* np.random.RandomState(seed) *)
Variable mkcpp : nat -> C.          (* seeding of the C++ generator *)
Variable n_cpus : nat.              (* mp.cpu_count() *)
Variable ext : bool.                (* IMPORTED_SAMPLERS_EXT *)
Variable cpp_asserts : bool.        (* extension compiled without NDEBUG *)
Variable energy : list R -> list nat -> R.   (* calc_e(states, parameters), one state *)

(** Attributes; [ps_boost] says which implementation the generate methods are bound to. *)
Record psampler := { ps_boost : bool; ps_n : nat; ps_theta : list R; ps_cpus : nat; ps_samples : option (list (list nat)) }.

(** coniii/samplers.py:1790-1817.  [given_e]: calc_e is not None.  With the extension one number
    is drawn to seed self.bsampler, which is not used afterwards. *)
Definition potts3_new (n : nat) (theta : list R) (given_e : bool) (cpus : option nat) (boost : bool) (t : T) : result (psampler * T) :=
  if negb (Nat.eqb (length theta) (potts_size n)) then Err AssertionError else
  let cpus := match cpus with Some (S k) => S k | _ => (n_cpus - 1)%nat end in
  let make := fun b => {| ps_boost := b; ps_n := n; ps_theta := theta; ps_cpus := cpus; ps_samples := None |} in
  if boost && ext then let '(_, t) := draw_seed g t in Ok (make true, t)
  else if given_e then Ok (make false, t) else Err AssertionError.

(** coniii/samplers.py:1718-1721 [update_parameters]. *)
Definition potts3_update_parameters (s : psampler) (theta : list R) : result psampler :=
  if Nat.eqb (length (ps_theta s)) (length theta)
  then Ok {| ps_boost := ps_boost s; ps_n := ps_n s; ps_theta := theta; ps_cpus := ps_cpus s; ps_samples := ps_samples s |}
  else Err AssertionError.

(** Outcome of a call: an exception or value, or the end of the process (a failed assert in C++). *)
Inductive outcome (A : Type) := Returned (r : result A) | Aborted.
Arguments Returned {A} r.
Arguments Aborted {A}.

Definition as_states (rows : list (list nat)) : list (list Z) := map (map Z.of_nat) rows.

(** coniii/samplers.py:1819-1861 [generate_sample_parallel_boost]. *)
Definition potts3_parallel_boost (s : psampler) (t : T) (size n_iters : nat) (burn_in : option nat) (systematic : bool)
  : result (list (list nat) * T) :=
  if Nat.ltb (ps_cpus s) 2 then Err AssertionError
  else if Nat.leb size (ps_cpus s) then Err AssertionError
  else let '(seeds, t) := draw_list (draw_seed g) (ps_cpus s) t in
    Ok (firstn size (concat (map (fun seed =>
          boost_potts_sample gc (ps_n s) (ps_theta s) (ceil_div size (ps_cpus s)) (burn_in_or burn_in n_iters) n_iters systematic (mkcpp seed)) seeds)), t).

(** coniii/samplers.py:1193-1225 [generate_sample_boost], inherited: the C++ class is BoostIsing.
    cpp/samplers.cpp:306-308: readin_multipliers asserts the number of parameters of an Ising
    model, unless NDEBUG was defined; otherwise all of them are read and the first
    n + n(n-1)/2 are used. *)
Definition potts3_sample_boost (s : psampler) (t : T) (size n_iters : nat) (burn_in : option nat) (systematic : bool)
  : outcome (list (list Z) * T) :=
  if Nat.eqb size 0 then Returned (Err AssertionError) else
  let '(seed, t) := draw_seed g t in
  if cpp_asserts && negb (Nat.eqb (length (ps_theta s)) (ising_params (ps_n s))) then Aborted
  else Returned (Ok (boost_ising_sample gc (ps_n s) (ps_theta s) size (burn_in_or burn_in n_iters) n_iters systematic (mkcpp seed), t)).

(** The method bound to generate_sample or generate_sample_parallel; for the pure Python ones see
    coniii/samplers.py:1227-1323 and 1365-1447 with Potts3's own sample_metropolis and
    random_sample (1863-1906).  [initial_sample] is not given. *)
Definition potts3_generate (s : psampler) (t : T) (size n_iters : nat) (burn_in : option nat) (systematic parallel : bool)
  : outcome (list (list Z) * psampler * T) :=
  let n := ps_n s in
  let keep := fun x => {| ps_boost := ps_boost s; ps_n := n; ps_theta := ps_theta s; ps_cpus := ps_cpus s; ps_samples := x |} in
  if ps_boost s then
    if parallel then
      Returned (bind (potts3_parallel_boost s t size n_iters burn_in systematic) (fun r => Ok (as_states (fst r), s, snd r)))
    else match potts3_sample_boost s t size n_iters burn_in systematic with
         | Aborted => Aborted
         | Returned r => Returned (bind r (fun r => Ok (fst r, s, snd r)))
         end
  else if parallel then
    let '(replicas, t) := match ps_samples s with
                          | Some ss => if Nat.eqb (length ss) n_cpus then (ss, t) else draw_list (potts_random_row g n) n_cpus t
                          | None => draw_list (potts_random_row g n) n_cpus t
                          end in
    let '(seeds, t) := draw_list (draw_seed g) n_cpus t in
    let '(sample, final, _) := generate_sample_parallel_py (potts_sample_metropolis g (energy (ps_theta s))) (energy (ps_theta s)) n size n_iters burn_in systematic mkrng replicas seeds in
    Returned (Ok (as_states sample, keep (Some final), t))
  else
    Returned (bind (potts_generate_sample_py g (energy (ps_theta s)) n size n_iters burn_in systematic (ps_samples s) None t) (fun r =>
    Ok (as_states (g_sample r), keep (Some (g_samples r)), g_rng r))).

(** ** models.Potts3 *)
Record pmodel := { pm_n : nat; pm_multipliers : list R; pm_rng : T; pm_sampler : option psampler; pm_size : nat; pm_sample : option (list (list Z)) }.

(** coniii/models.py:269-297: a new model; [multipliers] already concatenated and checked. *)
Definition pmodel_new (n : nat) (multipliers : list R) (t : T) : pmodel :=
  {| pm_n := n; pm_multipliers := multipliers; pm_rng := t; pm_sampler := None; pm_size := 0; pm_sample := None |}.

(** coniii/models.py:299-309 [set_multipliers], as far as sampling is concerned. *)
Definition pmodel_set (m : pmodel) (x : list R) : pmodel :=
  {| pm_n := pm_n m; pm_multipliers := x; pm_rng := pm_rng m; pm_sampler := pm_sampler m; pm_size := pm_size m; pm_sample := pm_sample m |}.

(** coniii/models.py:33-71 [setup_sampler] with sampler_kwargs n_cpus and boost.  The sample size is
    stored first; the constructor of the sampler may raise. *)
Definition pmodel_setup (m : pmodel) (size : nat) (cpus : option nat) (boost : bool) : result unit * pmodel :=
  let put := fun s t sample => {| pm_n := pm_n m; pm_multipliers := pm_multipliers m; pm_rng := t; pm_sampler := s; pm_size := size; pm_sample := sample |} in
  match potts3_new (pm_n m) (pm_multipliers m) true cpus boost (pm_rng m) with
  | Err e => (Err e, put (pm_sampler m) (pm_rng m) (pm_sample m))
  | Ok (s, t) => (Ok tt, put (Some s) t None)
  end.

(** coniii/models.py:80-129 [generate_sample] with sample_method 'metropolis'. *)
Definition pmodel_generate (m : pmodel) (n_iters burn_in : nat) (multipliers : option (list R)) (sample_size : option nat)
  (parallel : bool) : outcome unit * pmodel :=
  match pm_sampler m with
  | None => (Returned (Err AttributeError), m)
  | Some s =>
    let theta := match multipliers with Some x => x | None => pm_multipliers m end in
    let size := match sample_size with Some (S k) => S k | _ => pm_size m end in
    match potts3_update_parameters s theta with
    | Err e => (Returned (Err e), m)
    | Ok s1 =>
      let put := fun s t sample => {| pm_n := pm_n m; pm_multipliers := pm_multipliers m; pm_rng := t; pm_sampler := Some s; pm_size := pm_size m; pm_sample := sample |} in
      match potts3_generate s1 (pm_rng m) size n_iters (Some burn_in) false parallel with
      | Aborted => (Aborted, m)
      | Returned (Err e) => (Returned (Err e), put s1 (pm_rng m) (pm_sample m))
      | Returned (Ok (sample, s2, t)) => (Returned (Ok tt), put s2 t (Some sample))
      end
    end
  end.

(** Calls on a model object. *)
Inductive pcall :=
| PSet (x : list R)
| PSetup (size : nat) (cpus : option nat) (boost : bool)
| PGenerate (n_iters burn_in : nat) (multipliers : option (list R)) (sample_size : option nat) (parallel : bool).

Definition pdo (m : pmodel) (c : pcall) : pmodel :=
  match c with
  | PSet x => pmodel_set m x
  | PSetup size cpus boost => snd (pmodel_setup m size cpus boost)
  | PGenerate ni b mu ss p => snd (pmodel_generate m ni b mu ss p)
  end.
Definition phistory (m : pmodel) (cs : list pcall) : pmodel := fold_left pdo cs m.
End Potts3.
Arguments outcome : clear implicits.
Arguments Returned {A} r.
Arguments Aborted {A}.
Arguments psampler : clear implicits.
Arguments pmodel : clear implicits.
Arguments pcall : clear implicits.

(** ** Conditional samples of a Potts3 object
    The constructor binds no generate_cond_sample ([M_Dispatch]); the inherited
    generate_cond_sample_py can be called by its own name. *)
Local Open Scope R_scope.
(** coniii/samplers.py:1863-1903 [Potts3.sample_metropolis] on states given by integers:
    (oState+rng.randint(1,3))%3, Python's remainder. *)
Definition potts_step_Z {T} (g : rng T) (calc_e : list Z -> R) (flip_site : option nat) (sample0 : list Z) (E0 : R) (t : T)
  : list Z * R * T :=
  let '(site, t) := match flip_site with Some i => (i, t) | None => randint g t 0%nat (length sample0) end in
  let '(d, t) := randint g t 1%nat 3%nat in
  let s1 := upd sample0 site ((nth site sample0 0 + Z.of_nat d) mod 3)%Z in
  let de := calc_e s1 - E0 in
  if Rlt_dec 0 de then
    let '(u, t) := rand g t in
    if Rlt_dec (exp (- de)) u then (sample0, 0, t) else (s1, de, t)
  else (s1, de, t).

(** coniii/samplers.py:1523-1671 [generate_cond_sample_py], parallel=False, on a Potts3 object; see
    [generate_cond_sample_py] for the details. *)
Definition potts3_cond_py {T} (g : rng T) (calc_e : list Z -> R) (n sample_size : nat)
  (fixed : list (nat * Z)) (burn_in n_iters : nat) (systematic : bool) (t : T)
  : result (list (list Z) * list R * T) :=
  let nSubset := (n - length fixed)%nat in
  match fixed with
  | [] => Err IndexError
  | _ =>
    if negb (strictly_increasing (map fst fixed)) then Err AssertionError
    else if negb (forallb (fun x => Z.eqb (snd x) (-1) || Z.eqb (snd x) 1) fixed) then Err AssertionError
    else
      let cond_calc_e := fun state => match cond_fullstate n fixed state with
                                      | Ok full => calc_e full | Err _ => 0 end in
      let '(s0, t0) := ising_random_row g nSubset t in
      bind (cond_fullstate n fixed s0) (fun _ =>
      let '((s1, E1, t1), _) := run (potts_step_Z g cond_calc_e) (sites systematic nSubset burn_in)
                                    s0 (cond_calc_e s0) t0 in
      let '((ss, Es), (_, _, t2), _) := record (potts_step_Z g cond_calc_e) (sites systematic nSubset n_iters)
                                          sample_size s1 E1 t1 in
      bind (insert_fixed nSubset 0 fixed (concat ss)) (fun flat =>
      bind (reshape sample_size n flat) (fun rows =>
      match Es with [] => Err ValueError | _ => Ok (rows, Es, t2) end)))
  end.
