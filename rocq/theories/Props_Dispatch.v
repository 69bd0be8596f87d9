(** * Property theorems C124: what the method names of a sampler object run. *)
From Coq Require Import String.
From Verif Require Import Prelude M_Dispatch.
Import ListNotations.
Local Open Scope string_scope.

Lemma updates_same o sizes : updates o sizes = o.
Proof.
  unfold updates. induction sizes as [|k sizes IH]; [reflexivity|]. cbn [fold_left]. unfold update_parameters at 2.
  destruct (Nat.eqb_spec (o_size o) k) as [<-|]; cbn [fst]; [destruct o; exact IH|exact IH].
Qed.

(** The interface of sampling, and the implementation that a name gets. *)
Definition family := ["generate_sample"; "generate_sample_parallel"; "generate_cond_sample"].
Definition impl (fast : bool) (name : string) : string := name ++ (if fast then "_boost" else "_py").

(** ** C124 *)
(** A Metropolis sampler is constructed unless it would have to use Python without a
    calc_e.  Then all three names run code of the same kind, compiled if and only if that
    was wanted, the extension is there and the parameters have the size of an Ising model;
    this stays true after every sequence of update_parameters, which can be called with
    arrays of the original size only. *)
Theorem C124_metropolis : forall (n size : nat) (calc_e boost imported : bool),
  let fast := (boost && imported && Nat.eqb size (n * (n - 1) / 2 + n))%bool in
  (fast = false -> calc_e = false -> metropolis_init n size calc_e boost imported = Err AssertionError) /\
  (fast = true \/ calc_e = true -> exists o, metropolis_init n size calc_e boost imported = Ok o /\
    forall sizes,
      (forall name, In name family -> getattr (updates o sizes) name = Ok (KMetropolis, impl fast name)) /\
      o_size (updates o sizes) = size /\
      (forall k, snd (update_parameters (updates o sizes) k) = true <-> k = size)).
Proof.
  intros n size calc_e boost imported fast. unfold metropolis_init. fold fast. split.
  - intros -> ->. reflexivity.
  - intros H. destruct fast.
    + eexists. split; [reflexivity|]. intros sizes. rewrite updates_same. split; [|split; [reflexivity|]].
      * intros name [<-|[<-|[<-|[]]]]; reflexivity.
      * intros k. unfold update_parameters. cbn [o_size]. destruct (Nat.eqb_spec size k); cbn; split; intros; congruence.
    + destruct H as [H|H]; [discriminate|]. subst calc_e. eexists. split; [reflexivity|]. intros sizes. rewrite updates_same. split; [|split; [reflexivity|]].
      * intros name [<-|[<-|[<-|[]]]]; reflexivity.
      * intros k. unfold update_parameters. cbn [o_size]. destruct (Nat.eqb_spec size k); cbn; split; intros; congruence.
Qed.
Print Assumptions C124_metropolis.

(** A Potts3 sampler runs the serial code of Metropolis, on its own single updates and
    random states; in parallel it runs compiled code of its own or Python code of Metropolis. *)
Theorem C124_potts3 : forall (n size : nat) (calc_e boost imported : bool),
  let fast := (boost && imported)%bool in
  (potts3_init n size calc_e boost imported = Err AssertionError <->
     size <> n * 3 + n * (n - 1) / 2 \/ (fast = false /\ calc_e = false))%nat /\
  forall o, potts3_init n size calc_e boost imported = Ok o -> forall sizes,
    getattr (updates o sizes) "generate_sample" = Ok (KMetropolis, impl fast "generate_sample") /\
    getattr (updates o sizes) "generate_sample_parallel" = Ok (if fast then KPotts3 else KMetropolis, impl fast "generate_sample_parallel") /\
    getattr (updates o sizes) "sample_metropolis" = Ok (KPotts3, "sample_metropolis") /\
    getattr (updates o sizes) "random_sample" = Ok (KPotts3, "random_sample") /\
    getattr (updates o sizes) "update_parameters" = Ok (KMetropolis, "update_parameters").
Proof.
  intros n size calc_e boost imported fast. unfold potts3_init. fold fast.
  destruct (Nat.eqb_spec size (n * 3 + n * (n - 1) / 2)) as [E|E]; cbn [negb].
  - split.
    + split; [intros H; right|intros [H|[H1 H2]]; [contradiction|rewrite H1, H2; reflexivity]].
      destruct fast; [discriminate H|]. destruct calc_e; [discriminate H|]. now split.
    + intros o H sizes. rewrite updates_same. destruct fast; [|destruct calc_e; [|discriminate]]; injection H as <-; repeat split.
  - split; [split; auto|]. intros o H. discriminate.
Qed.
Print Assumptions C124_potts3.

(** A user expects of a Potts3 sampler, a subclass of Metropolis, the conditional samples of
    Metropolis under the same name.  The name is never bound: it raises AttributeError on
    every constructed object after every sequence of updates, although both
    implementations are inherited. *)
Theorem C124_potts3_cond_refuted : forall (n size : nat) (calc_e boost imported : bool) (o : object) (sizes : list nat),
  potts3_init n size calc_e boost imported = Ok o ->
  getattr (updates o sizes) "generate_cond_sample" = Err AttributeError /\
  getattr (updates o sizes) "generate_cond_sample_py" = Ok (KMetropolis, "generate_cond_sample_py") /\
  getattr (updates o sizes) "generate_cond_sample_boost" = Ok (KMetropolis, "generate_cond_sample_boost").
Proof.
  intros n size calc_e boost imported o sizes H. rewrite updates_same. unfold potts3_init in H.
  destruct (Nat.eqb size _); cbn [negb] in H; [|discriminate].
  destruct (boost && imported)%bool; [|destruct calc_e; [|discriminate]]; injection H as <-; repeat split.
Qed.
Print Assumptions C124_potts3_cond_refuted.

(** Every constructor. *)
Definition constructed (o : object) : Prop :=
  (exists n size calc_e boost imported, metropolis_init n size calc_e boost imported = Ok o) \/
  (exists n size calc_e boost imported, potts3_init n size calc_e boost imported = Ok o) \/
  exists c size, other_init c size = Ok o.

(** coniii/solvers.py:1629 calls generate_cond_samples on its sampler.  No sampler object of
    any class has that name, so the call raises AttributeError whatever sampler the user
    supplies. *)
Theorem C124_cond_samples_refuted : forall o, constructed o -> getattr o "generate_cond_samples" = Err AttributeError.
Proof.
  intros o [[n [size [ce [b [i H]]]]]|[[n [size [ce [b [i H]]]]]|[c [size H]]]].
  - unfold metropolis_init in H. destruct (_ && _)%bool; [|destruct ce; [|discriminate]]; injection H as <-; reflexivity.
  - unfold potts3_init in H. destruct (negb _); [discriminate|]. destruct (_ && _)%bool; [|destruct ce; [|discriminate]]; injection H as <-; reflexivity.
  - destruct c; try discriminate; injection H as <-; reflexivity.
Qed.
Print Assumptions C124_cond_samples_refuted.

(** Of the objects that can be constructed, update_parameters and generate_sample_parallel
    do something on all except plain Sampler and ParallelTempering objects; on these they are
    the empty methods of Sampler.  generate_sample is empty on plain Sampler objects only. *)
Theorem C124_empty_methods : forall o, constructed o ->
  (getattr o "update_parameters" = Ok (KSampler, "update_parameters") <->
     o_cls o = KSampler \/ o_cls o = KParallelTempering) /\
  (getattr o "generate_sample_parallel" = Ok (KSampler, "generate_sample_parallel") <->
     o_cls o = KSampler \/ o_cls o = KParallelTempering) /\
  (getattr o "generate_sample" = Ok (KSampler, "generate_sample") <-> o_cls o = KSampler).
Proof.
  intros o [[n [size [ce [b [i H]]]]]|[[n [size [ce [b [i H]]]]]|[c [size H]]]].
  - unfold metropolis_init in H. destruct (_ && _)%bool; [|destruct ce; [|discriminate]]; injection H as <-; cbn; repeat split; intros; intuition discriminate.
  - unfold potts3_init in H. destruct (negb _); [discriminate|]. destruct (_ && _)%bool; [|destruct ce; [|discriminate]]; injection H as <-; cbn; repeat split; intros; intuition discriminate.
  - destruct c; try discriminate; injection H as <-; cbn; repeat split; intros; try (now intuition discriminate); try reflexivity.
Qed.
Print Assumptions C124_empty_methods.

(** SWIsing, HamiltonianMC and Heisenberg3DSampler are public and documented but no object of
    these classes exists. *)
Theorem C124_unusable_refuted : forall o, constructed o ->
  o_cls o <> KSWIsing /\ o_cls o <> KHamiltonianMC /\ o_cls o <> KHeisenberg3DSampler.
Proof.
  intros o [[n [size [ce [b [i H]]]]]|[[n [size [ce [b [i H]]]]]|[c [size H]]]].
  - unfold metropolis_init in H. destruct (_ && _)%bool; [|destruct ce; [|discriminate]]; injection H as <-; repeat split; discriminate.
  - unfold potts3_init in H. destruct (negb _); [discriminate|]. destruct (_ && _)%bool; [|destruct ce; [|discriminate]]; injection H as <-; repeat split; discriminate.
  - destruct c; try discriminate; injection H as <-; repeat split; discriminate.
Qed.
Print Assumptions C124_unusable_refuted.

(** An Ising sampler of 5 spins with compiled code, the same with triplet parameters, and a
    Potts3 sampler. *)
Example C124_example :
  (exists o, metropolis_init 5 15 false true true = Ok o /\ getattr o "generate_cond_sample" = Ok (KMetropolis, "generate_cond_sample_boost")) /\
  (exists o, metropolis_init 5 25 true true true = Ok o /\ getattr o "generate_cond_sample" = Ok (KMetropolis, "generate_cond_sample_py")) /\
  (exists o, potts3_init 5 25 false true true = Ok o /\ constructed o /\ getattr o "generate_cond_sample" = Err AttributeError /\
     getattr o "generate_sample_parallel" = Ok (KPotts3, "generate_sample_parallel_boost")).
Proof.
  split; [|split]; eexists; (split; [reflexivity|]); try reflexivity. split; [|split; reflexivity].
  right. left. exists 5%nat, 25%nat, false, true, true. reflexivity.
Qed.
