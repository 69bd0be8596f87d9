(** * Model of the ParallelTempering object and its public calls
    (coniii/samplers.py:615-791) together with the methods that it inherits from
    Sampler (coniii/samplers.py:167-201). *)
From Verif Require Import Prelude M_Index M_Energy M_Params M_Sampler M_Temper.
Import ListNotations.
Local Open Scope R_scope.

(** The attributes that the calls below read or write: theta, beta, replicas, rng,
    sample (coniii/samplers.py:654-667, 677-691).  [to_sample] is None before the first
    generate_sample; its rows are the sweeps, in the code it is transposed (one array per
    replica). *)
Record tempering (T : Type) := Tempering {
  to_theta : list R; to_beta : list R; to_reps : list (replica T); to_rng : T;
  to_sample : option (list (list (list Z))) }.
Arguments Tempering {T}. Arguments to_theta {T}. Arguments to_beta {T}. Arguments to_reps {T}.
Arguments to_rng {T}. Arguments to_sample {T}.

(** What a user can do with the object.  Parameters that are assigned are float arrays. *)
Inductive tcall :=
| TUpdateParameters (x : list R)        (* pt.update_parameters(x) *)
| TSetTheta (x : list R)                (* pt.theta = x *)
| TUpdateReplicas                       (* pt.update_replica_parameters() *)
| TGenerate (sample_size : nat)         (* pt.generate_sample(m) *)
| TGenerateParallel (sample_size : nat) (* pt.generate_sample_parallel(m) *).

Section Object.
Context {T : Type}.
Variable g : rng T.
Variable calc_e : list Z -> list R -> R.
Variables n rep_ex_burnin replica_burnin : nat.   (* constructor arguments, 0 also stands for None *)

(** coniii/samplers.py:661-662: the attributes replicaBurnin and repExBurnin. *)
Definition replicaBurnin : nat := match replica_burnin with O => (n * 50)%nat | _ => replica_burnin end.
Definition repExBurnin : nat := match rep_ex_burnin with O => (n * 10)%nat | _ => rep_ex_burnin end.

(** coniii/samplers.py:616-667: the constructor; [t] is the generator of the object. *)
Definition tempering_object (theta : list R) (n_replicas : nat) (T0 T1 : R) (seeds : nat -> T) (t : T)
  : result (tempering T) :=
  bind (tempering_new g calc_e n theta n_replicas T0 T1 replica_burnin seeds) (fun br =>
  Ok (Tempering theta (fst br) (snd br) t None)).

(** coniii/samplers.py:184-185: ParallelTempering has no update_parameters of its own, the
    inherited one returns immediately. *)
Definition sampler_update_parameters (p : tempering T) (x : list R) : tempering T := p.

(** coniii/samplers.py:195-201: likewise for generate_sample_parallel. *)
Definition sampler_generate_sample_parallel (p : tempering T) (m : nat) : tempering T := p.

(** Attribute assignment pt.theta = x. *)
Definition set_theta (p : tempering T) (x : list R) : tempering T :=
  Tempering x (to_beta p) (to_reps p) (to_rng p) (to_sample p).

(** coniii/samplers.py:669-675. *)
Definition object_update_replicas (p : tempering T) : tempering T :=
  Tempering (to_theta p) (to_beta p) (update_replica_parameters (to_theta p) (to_beta p) (to_reps p))
    (to_rng p) (to_sample p).

(** coniii/samplers.py:746-791. *)
Definition object_generate (p : tempering T) (m : nat) : result (tempering T) :=
  bind (tempering_sample g calc_e n m repExBurnin replicaBurnin (to_beta p) (to_reps p) (to_rng p)) (fun r =>
  Ok (Tempering (to_theta p) (to_beta p) (fst (snd r)) (snd (snd r)) (Some (fst (fst r))))).

Definition tdo (p : tempering T) (c : tcall) : result (tempering T) :=
  match c with
  | TUpdateParameters x => Ok (sampler_update_parameters p x)
  | TSetTheta x => Ok (set_theta p x)
  | TUpdateReplicas => Ok (object_update_replicas p)
  | TGenerate m => object_generate p m
  | TGenerateParallel m => Ok (sampler_generate_sample_parallel p m)
  end.

Definition trun (cs : list tcall) (p : tempering T) : result (tempering T) := foldM tdo cs p.
End Object.
