(** * Model of process pools: [Pool.map] of the multiprocess library, as called in
    coniii/samplers.py:291-294, 470-474, 711-712, 1358-1361, 1439-1443, 1518-1520 and
    1855-1858 and coniii/solvers.py:1640-1643.  The library is not part of /repo; its
    rules are: map cuts the arguments into chunks; a chunk is pickled together with the
    function and the objects the function refers to, so that the worker works on copies;
    a free worker takes the next chunk from the queue and calls the function on its
    elements in order, stopping at the first exception; map returns when as many chunks
    have been reported as there are; the results are those of the chunks in order, unless
    a chunk failed: then the first failure to be reported is raised.  A worker that is
    killed is replaced, but the chunk it worked on is never reported.
    [G]: the global state of a worker process (kept from chunk to chunk); [K]: the objects
    the function refers to, such as self (copied for every chunk); [A]: an argument;
    [B]: a result. *)
From Verif Require Import Prelude M_Index M_Sampler M_Wolff M_Temper.
Import ListNotations.
Local Open Scope nat_scope.

Section Pool.
Context {G K A B : Type}.
Variable f : G -> K -> A -> G * K * result B.

Inductive worker := Idle (g : G) | Busy (g : G) (i : nat) (k : K) (todo : list A) (done : list B).

Record pool := Pool {
  p_queue : list (nat * list A);            (* chunks not yet taken, numbered *)
  p_workers : list worker;
  p_reported : list (nat * result (list B)) (* in the order of arrival *) }.

(** One action of a worker: take a chunk, call the function once, or report the chunk. *)
Definition act (k0 : K) (w : nat) (p : pool) : pool :=
  match nth_error (p_workers p) w with
  | Some (Idle g) =>
    match p_queue p with
    | (i, c) :: q => Pool q (upd (p_workers p) w (Busy g i k0 c [])) (p_reported p)
    | [] => p
    end
  | Some (Busy g i k (a :: todo) done) =>
    match f g k a with
    | (g', k', Ok b) => Pool (p_queue p) (upd (p_workers p) w (Busy g' i k' todo (done ++ [b]))) (p_reported p)
    | (g', _, Err e) => Pool (p_queue p) (upd (p_workers p) w (Idle g')) (p_reported p ++ [(i, Err e)])
    end
  | Some (Busy g i _ [] done) => Pool (p_queue p) (upd (p_workers p) w (Idle g)) (p_reported p ++ [(i, Ok done)])
  | None => p
  end.

(** What can happen next: a worker acts, or is killed and replaced by a new process. *)
Inductive event := Act (w : nat) | Kill (w : nat) (fresh : G).

Definition happen (k0 : K) (p : pool) (e : event) : pool :=
  match e with
  | Act w => act k0 w p
  | Kill w g => Pool (p_queue p) (upd (p_workers p) w (Idle g)) (p_reported p)
  end.

Definition start (globals : list G) (chunks : list (list A)) : pool :=
  Pool (combine (range (length chunks)) chunks) (map Idle globals) [].

Definition execute (k0 : K) (globals : list G) (chunks : list (list A)) (es : list event) : pool :=
  fold_left (happen k0) es (start globals chunks).

(** The value of map for m chunks, None as long as it waits. *)
Definition first_failure (l : list (nat * result (list B))) : option exn :=
  fold_right (fun r acc => match snd r with Err e => Some e | Ok _ => acc end) None l.
Definition chunk_result (l : list (nat * result (list B))) (i : nat) : list B :=
  match find (fun r => Nat.eqb (fst r) i) l with Some (_, Ok b) => b | _ => [] end.
Definition map_value (m : nat) (p : pool) : option (result (list B)) :=
  if Nat.eqb (length (p_reported p)) m
  then Some (match first_failure (p_reported p) with Some e => Err e | None => Ok (concat (map (chunk_result (p_reported p)) (range m))) end)
  else None.
End Pool.
Arguments worker : clear implicits.
Arguments pool : clear implicits.
Arguments event : clear implicits.

(** The chunks of map: ceil(len/(4*processes)) arguments each. *)
Fixpoint cut {A} (fuel size : nat) (l : list A) : list (list A) :=
  match fuel, l with
  | S fuel, _ :: _ => firstn size l :: cut fuel size (skipn size l)
  | _, _ => []
  end.
Definition pool_chunks {A} (processes : nat) (l : list A) : list (list A) :=
  cut (length l) (ceil_div (length l) (4 * processes)) l.

(** coniii/samplers.py:1349-1363: the function f of generate_sample_parallel_boost; its
    defaults n and multipliers are pickled with it. *)
Definition boost_task {G C} (gc : rng C) (mkcpp : nat -> C) (burn_in n_iters : nat) (systematic : bool)
  (g : G) (k : nat * list R) (a : nat * nat) : G * (nat * list R) * result (list (list Z)) :=
  (g, k, Ok (boost_ising_sample gc (fst k) (snd k) (fst a) burn_in n_iters systematic (mkcpp (snd a)))).

(** coniii/samplers.py:1844-1853: the same for the Potts model. *)
Definition boost_potts_task {G C} (gc : rng C) (mkcpp : nat -> C) (burn_in n_iters : nat) (systematic : bool)
  (g : G) (k : nat * list R) (a : nat * nat) : G * (nat * list R) * result (list (list nat)) :=
  (g, k, Ok (boost_potts_sample gc (fst k) (snd k) (fst a) burn_in n_iters systematic (mkcpp (snd a)))).

(** coniii/samplers.py:1406-1437: the function f of generate_sample_parallel_py.  It refers
    to self (energy function and parameters); a row, its energy, the number of samples and
    a seed are its argument. *)
Definition py_task {G T V} (step : (list V -> R) -> option nat -> list V -> R -> T -> list V * R * T) (mkrng : nat -> T) (n n_iters burn : nat) (systematic : bool)
  (g : G) (calc_e : list V -> R) (a : list V * R * nat * nat) : G * (list V -> R) * result (list (list V) * list V * R) :=
  let '(s, E, nSamples, seed) := a in
  (g, calc_e, Ok (M_Sampler.worker (step calc_e) n nSamples n_iters burn systematic mkrng s E seed)).

(** coniii/samplers.py:284-289: the function f of WolffIsing.generate_sample_parallel.  It
    overwrites self.rng, so that the copy of self ends with the generator of the last row. *)
Definition wolff_task {G T} (gt : rng T) (mkrng : nat -> T) (fuel n_iters : nat)
  (g : G) (k : wolff * T) (a : list Z * nat) : G * (wolff * T) * result (list Z) :=
  match steps gt (fst k) fuel n_iters true (fst a) (mkrng (snd a)) with
  | Ok (s, _, t) => (g, (fst k, t), Ok s)
  | Err e => (g, (fst k, mkrng (snd a)), Err e)
  end.

(** coniii/samplers.py:272-295 [WolffIsing.generate_sample_parallel] of a given sample:
    every row from its own seed. *)
Definition wolff_generate_parallel {T} (gt : rng T) (mkrng : nat -> T) (self : wolff) (fuel n_iters : nat)
  (sample : list (list Z)) (seeds : list nat) : result (list (list Z)) :=
  mapM (fun a => bind (steps gt self fuel n_iters true (fst a) (mkrng (snd a))) (fun r => Ok (fst (fst r)))) (combine sample seeds).

(** coniii/samplers.py:445-474 [SWIsing.generate_sample_parallel]: line 456 reads n_ncpus,
    which is defined nowhere. *)
Definition sw_generate_parallel (n_samples n_iters : nat) (initial_state : option (list (list Z))) (n_cpus : option nat)
  : result (list (list Z)) := Err NameError.

(** coniii/samplers.py:707-710: the function f of burn_in_replicas.  A replica carries its
    own generator and is returned. *)
Definition replica_task {G K T} (gt : rng T) (calc_e : list Z -> list R -> R) (n : nat)
  (g : G) (k : K) (a : replica T * nat) : G * K * result (replica T) :=
  (g, k, burn_replica gt calc_e n (snd a) (fst a)).

(** coniii/solvers.py:1620-1638: the function f of MCHIncompleteData.generate_sample.  It
    draws from self.sampler.rng; [draw] is the conditional sample of one incomplete row. *)
Definition cond_task {G T Smp Row} (draw : Row -> T -> Smp * T) (g : G) (t : T) (a : Row) : G * T * result Smp :=
  let '(x, t') := draw a t in (g, t', Ok x).
