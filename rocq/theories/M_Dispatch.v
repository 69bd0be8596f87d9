(** * Model of the sampler classes as classes: which code a method name of a sampler object
    runs (coniii/samplers.py:167-2330). *)
From Coq Require Import String.
From Verif Require Import Prelude.
Import ListNotations.
Local Open Scope string_scope.

Inductive cls := KSampler | KWolffIsing | KSWIsing | KParallelTempering | KMetropolis | KPotts3
| KHamiltonianMC | KHeisenberg3DSampler.

(** The methods in the body of each class, without __init__ and the private ones:
    coniii/samplers.py:167-214, 216-413, 415-530, 615-909, 1144-1721, 1764-1907, 1910-2103,
    2105-2330. *)
Definition own (c : cls) : list string :=
  match c with
  | KSampler => ["update_parameters"; "generate_sample"; "generate_sample_parallel"; "sample_metropolis"]
  | KWolffIsing => ["update_parameters"; "generate_sample"; "generate_sample_parallel"; "one_step"; "build_cluster"; "find_neighbors"]
  | KSWIsing => ["generate_sample_parallel"; "generate_sample"; "one_step"; "get_clusters"; "randomly_flip_clusters"; "print_cluster_size"]
  | KParallelTempering => ["update_replica_parameters"; "setup_replicas"; "burn_in_replicas"; "burn_and_exchange"; "generate_sample";
      "initialize_beta"; "iterate_beta"; "optimize_beta"]
  | KMetropolis => ["generate_sample_boost"; "generate_sample_py"; "generate_sample_parallel_boost"; "generate_sample_parallel_py";
      "generate_cond_sample_boost"; "generate_cond_sample_py"; "sample_metropolis"; "random_sample"; "update_parameters"]
  | KPotts3 => ["generate_sample_parallel_boost"; "sample_metropolis"; "random_sample"]
  | KHamiltonianMC => ["sample"; "generate_sample"]
  | KHeisenberg3DSampler => ["generate_sample"; "equilibrate_samples"; "sample_metropolis"; "sample_nearby_vector"; "sample_nearby_sample";
      "grad_E"; "sample_energy_min"; "to_dict"]
  end.

(** The class statements: coniii/samplers.py:167, 216, 415, 615, 1144, 1764, 1910, 2105. *)
Definition mro (c : cls) : list cls :=
  match c with
  | KSampler => [KSampler]
  | KPotts3 => [KPotts3; KMetropolis; KSampler]
  | c => [c; KSampler]
  end.

(** A function is identified by the class that defines it and its name there. *)
Definition method := (cls * string)%type.

Definition defines (name : string) (c : cls) : bool := existsb (String.eqb name) (own c).

(** Python: the first class of the method resolution order that defines the name. *)
Definition class_lookup (c : cls) (name : string) : option method :=
  match find (defines name) (mro c) with Some d => Some (d, name) | None => None end.

(** An object: its class, the methods stored in its __dict__ under a name and the size of
    its theta.  Attributes that are not methods are left out, except that theta.size counts. *)
Record object := Object { o_cls : cls; o_dict : list (string * method); o_size : nat }.

(** Python: instance attribute, then class attribute, then AttributeError. *)
Definition getattr (o : object) (name : string) : result method :=
  match find (fun p => String.eqb (fst p) name) (o_dict o) with
  | Some p => Ok (snd p)
  | None => match class_lookup (o_cls o) name with Some m => Ok m | None => Err AttributeError end
  end.

(** self.name = self.target in a constructor. *)
Definition bind_method (name target : string) (o : object) : result object :=
  bind (getattr o target) (fun m => Ok (Object (o_cls o) ((name, m) :: o_dict o) (o_size o))).

(** coniii/samplers.py:1170-1191, end of Metropolis.__init__; [imported] is
    IMPORTED_SAMPLERS_EXT, [calc_e] whether calc_e was given. *)
Definition metropolis_init (n size : nat) (calc_e boost imported : bool) : result object :=
  let o := Object KMetropolis [] size in
  if (boost && imported && Nat.eqb size (n * (n - 1) / 2 + n))%bool then
    bind (bind_method "generate_sample" "generate_sample_boost" o) (fun o =>
    bind (bind_method "generate_sample_parallel" "generate_sample_parallel_boost" o) (fun o =>
    bind_method "generate_cond_sample" "generate_cond_sample_boost" o))
  else if negb calc_e then Err AssertionError
  else
    bind (bind_method "generate_sample" "generate_sample_py" o) (fun o =>
    bind (bind_method "generate_sample_parallel" "generate_sample_parallel_py" o) (fun o =>
    bind_method "generate_cond_sample" "generate_cond_sample_py" o)).

(** coniii/samplers.py:1787-1817, Potts3.__init__ with theta as one array. *)
Definition potts3_init (n size : nat) (calc_e boost imported : bool) : result object :=
  if negb (Nat.eqb size (n * 3 + n * (n - 1) / 2)) then Err AssertionError
  else
    let o := Object KPotts3 [] size in
    if (boost && imported)%bool then
      bind (bind_method "generate_sample" "generate_sample_boost" o) (fun o =>
      bind_method "generate_sample_parallel" "generate_sample_parallel_boost" o)
    else if negb calc_e then Err AssertionError
    else
      bind (bind_method "generate_sample" "generate_sample_py" o) (fun o =>
      bind_method "generate_sample_parallel" "generate_sample_parallel_py" o).

(** The constructors of Sampler, WolffIsing and ParallelTempering store no method under the
    names of the interface: coniii/samplers.py:177-182, 232-237, 649-667.  Those of SWIsing,
    HamiltonianMC and Heisenberg3DSampler raise NotImplementedError (434, 1933, 2131). *)
Definition other_init (c : cls) (size : nat) : result object :=
  match c with
  | KSWIsing | KHamiltonianMC | KHeisenberg3DSampler => Err NotImplementedError
  | KMetropolis | KPotts3 => Err TypeError   (* have constructors of their own above *)
  | c => Ok (Object c [] size)
  end.

(** coniii/samplers.py:1718-1721 Metropolis.update_parameters; False: the assertion fired. *)
Definition update_parameters (o : object) (size : nat) : object * bool :=
  if Nat.eqb (o_size o) size then (Object (o_cls o) (o_dict o) size, true) else (o, false).

(** A history of update_parameters calls with arrays of the given sizes; the user goes on
    after a failed assertion. *)
Definition updates (o : object) (sizes : list nat) : object :=
  fold_left (fun o k => fst (update_parameters o k)) sizes o.
