(** * Model of the sampling front end: Model.setup_sampler, set_rng and generate_sample
    (coniii/models.py:33-129) for the classes Ising and Triplet, the choice of implementation by
    Metropolis (coniii/samplers.py:1144-1190, 1718-1721), and sample_ising
    (coniii/samplers.py:2413-2463).
    The object's random number generator is shared between model and sampler (same reference),
    so its state is kept once. *)
From Verif Require Import Prelude M_Params M_Sampler.
Import ListNotations.

Section Front.
Context {T C : Type}.
Variable g : rng T.                 (* numpy generator *)
Variable gc : rng C.                (* generator of the C++ extension *)
Variable mkrng : nat -> T.          (* np.random.RandomState(seed) *)
Variable mkcpp : nat -> C.          (* seeding of the C++ generator *)
Variable n_cpus : nat.              (* mp.cpu_count() *)
Variable ext : bool.                (* IMPORTED_SAMPLERS_EXT *)
Variable energy : list R -> list Z -> R.   (* calc_e(states, parameters), one state *)

(** coniii/samplers.py:1171-1190: attributes of a Metropolis object; [sa_boost] says which
    implementation its generate methods are bound to. *)
Record sampler := { sa_boost : bool; sa_n : nat; sa_theta : list R; sa_samples : option (list (list Z)) }.

Definition metropolis_new (n : nat) (theta : list R) : sampler :=
  {| sa_boost := ext && Nat.eqb (length theta) (n * (n - 1) / 2 + n); sa_n := n; sa_theta := theta; sa_samples := None |}.

(** coniii/samplers.py:1718-1721 [update_parameters]. *)
Definition update_parameters (s : sampler) (theta : list R) : result sampler :=
  if Nat.eqb (length (sa_theta s)) (length theta)
  then Ok {| sa_boost := sa_boost s; sa_n := sa_n s; sa_theta := theta; sa_samples := sa_samples s |}
  else Err AssertionError.

(** m successive draws. *)
Fixpoint draw_list {A} (draw : T -> A * T) (m : nat) (t : T) : list A * T :=
  match m with
  | O => ([], t)
  | S m' => let '(a, t) := draw t in let '(l, t) := draw_list draw m' t in (a :: l, t)
  end.

(** coniii/samplers.py:1220, 1361, 1443: seeds below 2^31-1. *)
Definition seed_bound : nat := Z.to_nat 2147483647.
Definition draw_seed (t : T) : nat * T := randint g t 0%nat seed_bound.

(** coniii/samplers.py:1192-1447: the method bound to generate_sample or
    generate_sample_parallel.  [initial]: initial_sample (pure Python methods only). *)
Definition metropolis_generate (s : sampler) (t : T) (size n_iters : nat) (burn_in : option nat) (systematic parallel : bool)
  (initial : option (list (list Z))) : result (list (list Z) * sampler * T) :=
  let n := sa_n s in
  if sa_boost s then
    if parallel then
      let '(seeds, t) := draw_list draw_seed n_cpus t in
      Ok (generate_sample_parallel_boost gc mkcpp n (sa_theta s) size n_iters burn_in systematic seeds, s, t)
    else if Nat.eqb size 0 then Err AssertionError
    else let '(seed, t) := draw_seed t in
      Ok (boost_ising_sample gc n (sa_theta s) size (burn_in_or burn_in n_iters) n_iters systematic (mkcpp seed), s, t)
  else if parallel then
    bind (match initial with
          | Some init => if Nat.eqb (length init) n_cpus && forallb (fun r => Nat.eqb (length r) n) init then Ok (init, t) else Err AssertionError
          | None => match sa_samples s with
                    | Some ss => if Nat.eqb (length ss) n_cpus then Ok (ss, t) else Ok (draw_list (ising_random_row g n) n_cpus t)
                    | None => Ok (draw_list (ising_random_row g n) n_cpus t)
                    end
          end) (fun st =>
    let '(replicas, t) := st in
    let '(seeds, t) := draw_list draw_seed n_cpus t in
    let '(sample, final, _) := generate_sample_parallel_py (sample_metropolis g (energy (sa_theta s))) (energy (sa_theta s)) n size n_iters burn_in systematic mkrng replicas seeds in
    Ok (sample, {| sa_boost := false; sa_n := n; sa_theta := sa_theta s; sa_samples := Some final |}, t))
  else
    bind (ising_generate_sample_py g (energy (sa_theta s)) n size n_iters burn_in systematic (sa_samples s) initial t) (fun r =>
    Ok (g_sample r, {| sa_boost := false; sa_n := n; sa_theta := sa_theta s; sa_samples := Some (g_samples r) |}, g_rng r)).

(** Attributes of an Ising or Triplet model used for sampling.  The constructors of these classes
    do not call Model.__init__ and define no attribute [sampler]: [None]. *)
Record mstate := { ms_n : nat; ms_multipliers : list R; ms_rng : T; ms_sampler : option sampler;
                   ms_size : nat; ms_sample : option (list (list Z)) }.

(** coniii/models.py:137-188: a new model. *)
Definition model_new (n : nat) (multipliers : list R) (t : T) : mstate :=
  {| ms_n := n; ms_multipliers := multipliers; ms_rng := t; ms_sampler := None; ms_size := 0; ms_sample := None |}.

(** coniii/models.py:190-199 [set_multipliers], as far as sampling is concerned. *)
Definition model_set_multipliers (m : mstate) (x : list R) : mstate :=
  {| ms_n := ms_n m; ms_multipliers := x; ms_rng := ms_rng m; ms_sampler := ms_sampler m; ms_size := ms_size m; ms_sample := ms_sample m |}.

(** coniii/models.py:33-71 [setup_sampler]; [known]: sample_method=='metropolis'.  The sample size is
    stored even if the method is rejected. *)
Definition setup_sampler (m : mstate) (known : bool) (size : nat) : result unit * mstate :=
  if known then
    (Ok tt, {| ms_n := ms_n m; ms_multipliers := ms_multipliers m; ms_rng := ms_rng m;
               ms_sampler := Some (metropolis_new (ms_n m) (ms_multipliers m)); ms_size := size; ms_sample := None |})
  else
    (Err NotImplementedError, {| ms_n := ms_n m; ms_multipliers := ms_multipliers m; ms_rng := ms_rng m;
               ms_sampler := ms_sampler m; ms_size := size; ms_sample := ms_sample m |}).

(** coniii/models.py:70-78 [set_rng]: the model's attribute is replaced before the sampler's. *)
Definition set_rng (m : mstate) (t : T) : result unit * mstate :=
  (match ms_sampler m with Some _ => Ok tt | None => Err AttributeError end,
   {| ms_n := ms_n m; ms_multipliers := ms_multipliers m; ms_rng := t; ms_sampler := ms_sampler m; ms_size := ms_size m; ms_sample := ms_sample m |}).

(** coniii/models.py:80-129 [generate_sample].  [known]: the method, given or stored, is 'metropolis'.
    [generate_kwargs] is not used.  If sampling raises, the parameters of the sampler have already
    been replaced (the state of the generator after such an exception is not modelled: unchanged). *)
Definition model_generate (m : mstate) (n_iters burn_in : nat) (multipliers : option (list R)) (sample_size : option nat)
  (known parallel : bool) (generate_kwargs : list nat) : result unit * mstate :=
  match ms_sampler m with
  | None => (Err AttributeError, m)
  | Some s =>
    let theta := match multipliers with Some x => x | None => ms_multipliers m end in
    let size := match sample_size with Some (S k) => S k | _ => ms_size m end in
    if negb known then (Err NotImplementedError, m) else
    match update_parameters s theta with
    | Err e => (Err e, m)
    | Ok s1 =>
      let put := fun s t sample => {| ms_n := ms_n m; ms_multipliers := ms_multipliers m; ms_rng := t; ms_sampler := Some s; ms_size := ms_size m; ms_sample := sample |} in
      match metropolis_generate s1 (ms_rng m) size n_iters (Some burn_in) false parallel None with
      | Err e => (Err e, put s1 (ms_rng m) (ms_sample m))
      | Ok (sample, s2, t) => (Ok tt, put s2 t (Some sample))
      end
    end
  end.

(** Calls on a model object. *)
Inductive call :=
| CSetMultipliers (x : list R)
| CSetup (known : bool) (size : nat)
| CSetRng (t : T)
| CGenerate (n_iters burn_in : nat) (multipliers : option (list R)) (sample_size : option nat) (known parallel : bool) (kw : list nat).

Definition do_call (m : mstate) (c : call) : mstate :=
  match c with
  | CSetMultipliers x => model_set_multipliers m x
  | CSetup k s => snd (setup_sampler m k s)
  | CSetRng t => snd (set_rng m t)
  | CGenerate ni b mu ss k p kw => snd (model_generate m ni b mu ss k p kw)
  end.
Definition history (m : mstate) (cs : list call) : mstate := fold_left do_call cs m.

(** ** sample_ising *)
(** The argument [multipliers]: a vector, or a pair of vectors. *)
Inductive ising_arg := AVector (v : list R) | APair (h J : list R).

(** coniii/samplers.py:2441-2448.  A vector of length 2 is taken for a pair, whose
    concatenation of two numbers raises ValueError. *)
Definition ising_arg_vector (a : ising_arg) : result (list R) :=
  match a with
  | APair h J => Ok (h ++ J)
  | AVector v => if Nat.eqb (length v) 2 then Err ValueError else Ok v
  end.

(** coniii/samplers.py:2450-2451: 0.5*(-1+sqrt(1+8L)) is an integer iff 1+8L is a square (the
    float square root is exact on squares). *)
Definition ising_size (L : nat) : result nat :=
  let r := Nat.sqrt (1 + 8 * L) in
  if Nat.eqb (r * r) (1 + 8 * L) then Ok ((r - 1) / 2)%nat else Err AssertionError.

(** Keyword arguments for the sampler's method. *)
Record kwargs := { k_n_iters : option nat; k_burn_in : option nat; k_systematic : option bool;
                   k_save_history : option bool; k_initial : option (list (list Z)) }.

(** Which of them the four methods accept (coniii/samplers.py:1192-1196, 1227-1233, 1325-1329,
    1365-1370); an unknown keyword raises TypeError. *)
Definition keywords_ok (boost parallel : bool) (k : kwargs) : bool :=
  let no_history := match k_save_history k with None => true | Some _ => false end in
  let no_initial := match k_initial k with None => true | Some _ => false end in
  if parallel then no_history && (negb boost || no_initial) else negb boost || (no_history && no_initial).

Definition opt {A} (o : option A) (d : A) : A := match o with Some a => a | None => d end.

(** coniii/samplers.py:2413-2463 [sample_ising]; the generator is RandomState(seed). *)
Definition sample_ising (a : ising_arg) (n_samples seed : nat) (parallel : bool) (k : kwargs) : result (list (list Z)) :=
  bind (ising_arg_vector a) (fun v =>
  bind (ising_size (length v)) (fun n =>
  let s := metropolis_new n v in
  if negb (keywords_ok (sa_boost s) parallel k) then Err TypeError else
  bind (metropolis_generate s (mkrng seed) n_samples (opt (k_n_iters k) 1000) (k_burn_in k) (opt (k_systematic k) false) parallel (k_initial k)) (fun r =>
  Ok (fst (fst r))))).
End Front.
Arguments sampler : clear implicits.
Arguments mstate : clear implicits.
Arguments call : clear implicits.
