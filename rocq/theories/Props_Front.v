(** * C80: sampling front end. *)
From Verif Require Import Prelude PreludeFacts Spec M_Params M_Sampler M_Front P_Sampler Props_Sampler.
Import ListNotations.

(** A list of n spins. *)
Definition spins (n : nat) (s : list Z) : Prop := length s = n /\ Forall (fun z => z = (-1)%Z \/ z = 1%Z) s.

Section C80.
Context {T C : Type} (g : rng T) (gc : rng C) (mkrng : nat -> T) (mkcpp : nat -> C) (n_cpus : nat) (ext : bool) (energy : list R -> list Z -> R).
Hypothesis Hg : rng_ok g.
Hypothesis Hgc : rng_ok gc.
Hypothesis Hcpu : (0 < n_cpus)%nat.

Lemma draw_list_spec {A} (draw : T -> A * T) (P : A -> Prop) m : (forall t, P (fst (draw t))) ->
  forall t, length (fst (draw_list draw m t)) = m /\ Forall P (fst (draw_list draw m t)).
Proof.
  intros H. induction m as [|m IH]; intros t; cbn [draw_list fst]; [auto|].
  destruct (draw t) as [a t1] eqn:E. specialize (IH t1). destruct (draw_list draw m t1) as [l t2]. cbn [fst length] in *. destruct IH as [-> IH].
  split; [reflexivity|]. constructor; [|assumption]. specialize (H t). now rewrite E in H.
Qed.

Lemma seeds_length t : length (fst (draw_list (draw_seed g) n_cpus t)) = n_cpus.
Proof. apply (draw_list_spec _ (fun _ => True)); auto. Qed.

Lemma rows_spec n t : length (fst (draw_list (ising_random_row g n) n_cpus t)) = n_cpus /\ Forall (spins n) (fst (draw_list (ising_random_row g n) n_cpus t)).
Proof. apply draw_list_spec. intros t0. apply ising_random_row_spec. exact Hg. Qed.

Definition ok_sampler (n : nat) (s : sampler) : Prop :=
  sa_n s = n /\ (sa_boost s = true -> length (sa_theta s) = (n + n * (n - 1) / 2)%nat) /\
  (forall ss, sa_samples s = Some ss -> Forall (spins n) ss).

Lemma boost_shape n theta size burn ni sys t : (0 < n)%nat -> length theta = (n + n * (n - 1) / 2)%nat ->
  length (boost_ising_sample gc n theta size burn ni sys t) = size /\ Forall (spins n) (boost_ising_sample gc n theta size burn ni sys t).
Proof.
  intros Hn Hp. unfold boost_ising_sample.
  assert (Hrow : forall t, length (fst (cpp_ising_init gc n t)) = n /\ Forall spin (fst (cpp_ising_init gc n t))).
  { apply draw_row_spec. intros t0. destruct (randint gc t0 0 2) as [b0 t1]. cbn. unfold spin. destruct (Nat.eqb b0 0); auto. }
  specialize (Hrow t). destruct (cpp_ising_init gc n t) as [s0 t0]. cbn [fst] in Hrow. destruct Hrow as [Hl0 Hs0].
  assert (Q := C27_running_energy C gc n theta size burn ni sys s0 t0 Hgc Hn Hl0 Hs0 Hp).
  destruct (cpp_generate_sample _ _ _ n size burn ni sys s0 t0) as [rows [[s e] t1]]. cbn [fst]. destruct Q as [_ Q]. exact Q.
Qed.

Lemma worker_final calc_e n m ni b sys s seed : (0 < n)%nat -> spins n s ->
  spins n (snd (fst (worker (sample_metropolis g calc_e) n m ni b sys mkrng s (calc_e s) seed))).
Proof.
  intros Hn [Hl Hs]. unfold worker.
  destruct (run (sample_metropolis g calc_e) (sites sys n b) s (calc_e s) (mkrng seed)) as [[[s1 E1] t1] h1] eqn:R1.
  destruct (run_inv _ calc_e spin n (ising_step_ok g calc_e n Hg Hn) _ (sites_in n sys _ Hn) _ _ _ _ _ _ Hl Hs R1) as [Hl1 [Hv1 [-> _]]].
  destruct (record (sample_metropolis g calc_e) (sites sys n ni) m s1 (calc_e s1) t1) as [[[ss Es] [[s2 E2] t2]] h2] eqn:R2.
  destruct (record_inv _ calc_e spin n (ising_step_ok g calc_e n Hg Hn) _ (sites_in n sys _ Hn) _ _ _ _ _ _ _ _ _ Hl1 Hv1 R2)
    as [_ [_ [_ [H1 [H2 _]]]]]. split; assumption.
Qed.

Lemma final_replicas calc_e n size ni b sys replicas seeds : (0 < n)%nat -> Forall (spins n) replicas ->
  Forall (spins n) (snd (fst (generate_sample_parallel_py (sample_metropolis g calc_e) calc_e n size ni b sys mkrng replicas seeds))).
Proof.
  intros Hn Hr. unfold generate_sample_parallel_py. cbv zeta. cbn [fst snd]. apply Forall_forall. intros s Hs. rewrite map_map in Hs.
  apply in_map_iff in Hs. destruct Hs as [[r seed] [<- Hin]]. apply in_combine_l in Hin. cbn [fst snd]. apply worker_final; [assumption|].
  rewrite Forall_forall in Hr. now apply Hr.
Qed.

Lemma seq_final calc_e n size ni b sys samples initial t r : (0 < n)%nat ->
  (forall ss, samples = Some ss -> Forall (spins n) ss) -> (forall ss, initial = Some ss -> Forall (Forall spin) ss) ->
  ising_generate_sample_py g calc_e n size ni b sys samples initial t = Ok r -> Forall (spins n) (g_samples r).
Proof.
  intros Hn Hss Hin E. unfold ising_generate_sample_py, generate_sample_py in E. cbv zeta in E.
  match type of E with bind ?X _ = _ => assert (Q : forall ss t0, X = Ok (ss, t0) -> Forall (spins n) ss); [|destruct X as [[ss t0]|]; [|discriminate]] end.
  { intros ss t0. assert (Row := ising_random_row_spec g n Hg t). destruct initial as [init|].
    - destruct (Nat.eqb (length init) 1 && forallb (fun r => Nat.eqb (length r) n) init) eqn:Ei; [|discriminate]. intros X. injection X as <- <-.
      apply andb_true_iff in Ei. destruct Ei as [_ Ei]. rewrite forallb_forall in Ei. apply Forall_forall. intros s Hs. split.
      + apply Nat.eqb_eq. now apply Ei.
      + specialize (Hin init eq_refl). rewrite Forall_forall in Hin. now apply Hin.
    - destruct (ising_random_row g n t) as [row t1]. cbn [fst] in Row. destruct samples as [sm|].
      + destruct (Nat.eqb (length sm) size); intros X; injection X as <- <-; [now apply Hss|]. repeat constructor; apply Row.
      + intros X. injection X as <- <-. repeat constructor; apply Row. }
  specialize (Q ss t0 eq_refl). cbn [bind] in E. destruct ss as [|s0 [|? ?]]; try discriminate. inversion Q as [|? ? [Hl0 Hs0] _]; subst.
  destruct (run (sample_metropolis g calc_e) (sites sys (length s0) (burn_in_or b ni)) s0 (calc_e s0) t0) as [[[s1 E1] t1] h1] eqn:R1.
  destruct (run_inv _ calc_e spin _ (ising_step_ok g calc_e _ Hg Hn) _ (sites_in _ sys _ Hn) _ _ _ _ _ _ eq_refl Hs0 R1) as [Hl1 [Hv1 [-> _]]].
  destruct (record (sample_metropolis g calc_e) (sites sys (length s0) ni) size s1 (calc_e s1) t1) as [[[sm Es] [[s2 E2] t2]] h2] eqn:R2.
  destruct (record_inv _ calc_e spin _ (ising_step_ok g calc_e _ Hg Hn) _ (sites_in _ sys _ Hn) _ _ _ _ _ _ _ _ _ Hl1 Hv1 R2) as [_ [_ [_ [A [B _]]]]].
  injection E as <-. cbn [g_samples]. repeat constructor; assumption.
Qed.

Notation mgen := (metropolis_generate g gc mkrng mkcpp n_cpus energy).

Lemma generate_ok n s t size ni b sys par initial sample s' t' : (0 < n)%nat -> ok_sampler n s ->
  (forall ss, initial = Some ss -> Forall (Forall spin) ss) ->
  mgen s t size ni b sys par initial = Ok (sample, s', t') ->
  length sample = size /\ Forall (spins n) sample /\ ok_sampler n s' /\ sa_theta s' = sa_theta s /\ sa_boost s' = sa_boost s.
Proof.
  intros Hn (En & Hb & Hs) Hin E. unfold metropolis_generate in E. rewrite En in E. cbv zeta in E.
  destruct (sa_boost s) eqn:Eb.
  - specialize (Hb eq_refl). destruct par.
    + destruct (draw_list (draw_seed g) n_cpus t) as [seeds t1] eqn:Ed. injection E as <- <- <-.
      assert (Ls := seeds_length t). rewrite Ed in Ls. cbn [fst] in Ls.
      destruct (C31_parallel_boost C gc mkcpp n (sa_theta s) size ni b sys seeds Hgc Hn ltac:(lia) Hb) as [L F].
      split; [exact L|]. split; [exact F|]. split; [|auto]. unfold ok_sampler. auto.
    + destruct (Nat.eqb size 0); [discriminate|]. destruct (draw_seed g t) as [seed t1]. injection E as <- <- <-.
      destruct (boost_shape n (sa_theta s) size (burn_in_or b ni) ni sys (mkcpp seed) Hn Hb) as [L F].
      split; [exact L|]. split; [exact F|]. split; [|auto]. unfold ok_sampler. auto.
  - destruct par.
    + match type of E with bind ?X _ = _ => assert (Q : forall ss t0, X = Ok (ss, t0) -> length ss = n_cpus /\ Forall (spins n) ss); [|destruct X as [[replicas t0]|]; [|discriminate]] end.
      { intros ss t0. assert (Row := rows_spec n t). destruct initial as [init|].
        - destruct (Nat.eqb (length init) n_cpus && forallb (fun r => Nat.eqb (length r) n) init) eqn:Ei; [|discriminate]. intros X. injection X as <- <-.
          apply andb_true_iff in Ei. destruct Ei as [E1 Ei]. apply Nat.eqb_eq in E1. split; [assumption|].
          rewrite forallb_forall in Ei. apply Forall_forall. intros r Hr. split; [apply Nat.eqb_eq; now apply Ei|].
          specialize (Hin init eq_refl). rewrite Forall_forall in Hin. now apply Hin.
        - destruct (draw_list (ising_random_row g n) n_cpus t) as [rows t1]. cbn [fst] in Row. destruct (sa_samples s) as [sm|] eqn:Esm.
          + destruct (Nat.eqb_spec (length sm) n_cpus); intros X; injection X as <- <-; [|exact Row]. split; [assumption|]. now apply Hs.
          + intros X. injection X as <- <-. exact Row. }
      destruct (Q replicas t0 eq_refl) as [Lr Fr]. cbn [bind] in E. destruct (draw_list (draw_seed g) n_cpus t0) as [seeds t1] eqn:Ed.
      assert (Ls := seeds_length t0). rewrite Ed in Ls. cbn [fst] in Ls.
      assert (P := C31_parallel_py T g (energy (sa_theta s)) n size ni b sys mkrng replicas seeds Hg Hn ltac:(lia) ltac:(congruence) Fr).
      assert (F := final_replicas (energy (sa_theta s)) n size ni b sys replicas seeds Hn Fr).
      destruct (generate_sample_parallel_py _ _ _ _ _ _ _ _ _ _) as [[sm final] Es]. cbn [fst snd] in F. injection E as <- <- <-.
      destruct P as (L & _ & _ & P). split; [exact L|]. split; [apply Forall_forall; intros r Hr; destruct (P r Hr) as (A & B & _); split; assumption|].
      cbn [sa_theta sa_boost]. split; [|auto]. unfold ok_sampler. cbn [sa_n sa_boost sa_samples]. split; [reflexivity|]. split; [discriminate|]. intros ss X. injection X as <-. exact F.
    + destruct (ising_generate_sample_py g (energy (sa_theta s)) n size ni b sys (sa_samples s) initial t) as [r|] eqn:Er; [|discriminate]. cbn [bind] in E. injection E as <- <- <-.
      destruct (C25_generate_sample T g _ n size ni b sys _ _ t r Hg Hn Hs Hin Er) as (L & _ & F & _).
      split; [exact L|]. split; [exact F|]. cbn [sa_theta sa_boost]. split; [|auto]. unfold ok_sampler. cbn [sa_n sa_boost sa_samples]. split; [reflexivity|]. split; [discriminate|].
      intros ss X. injection X as <-. exact (seq_final _ n _ _ _ _ _ _ _ _ Hn Hs Hin Er).
Qed.

Notation hist := (history g gc mkrng mkcpp n_cpus ext energy).
Notation gen := (model_generate g gc mkrng mkcpp n_cpus energy).

Definition ok_model (n : nat) (m : mstate T) : Prop := ms_n m = n /\ forall s, ms_sampler m = Some s -> ok_sampler n s.

Lemma update_ok n s theta s' : ok_sampler n s -> update_parameters s theta = Ok s' ->
  ok_sampler n s' /\ sa_theta s' = theta /\ sa_boost s' = sa_boost s /\ sa_samples s' = sa_samples s /\ length theta = length (sa_theta s).
Proof.
  intros (A & B & D) E. unfold update_parameters in E. destruct (Nat.eqb_spec (length (sa_theta s)) (length theta)) as [L|]; [|discriminate]. injection E as <-.
  cbn [sa_theta sa_boost sa_samples]. split; [|auto]. unfold ok_sampler. cbn [sa_n sa_theta sa_boost sa_samples]. split; [assumption|]. split; [|assumption]. intros H. rewrite <- L. now apply B.
Qed.

Lemma call_ok n m c : (0 < n)%nat -> ok_model n m -> ok_model n (do_call g gc mkrng mkcpp n_cpus ext energy m c).
Proof.
  intros Hn [A B]. destruct c as [x|k size|t|ni b mu ss k p kw]; cbn [do_call].
  - split; [exact A|exact B].
  - unfold setup_sampler. destruct k; cbn [snd]; split; cbn [ms_n ms_sampler]; try assumption.
    intros s X. injection X as <-. unfold ok_sampler, metropolis_new. cbn [sa_n sa_boost sa_theta sa_samples]. split; [exact A|]. split; [|discriminate].
    intros X. apply andb_true_iff in X. destruct X as [_ X]. apply Nat.eqb_eq in X. rewrite X, A. lia.
  - unfold set_rng. cbn [snd]. split; cbn [ms_n ms_sampler]; assumption.
  - unfold model_generate. destruct (ms_sampler m) as [s|] eqn:Es; [|split; cbn [snd]; [assumption|congruence]].
    cbv zeta. destruct k; cbn [negb]; [|split; cbn [snd]; [assumption|]; intros s0 X; rewrite Es in X; injection X as <-; now apply B].
    specialize (B s eq_refl).
    destruct (update_parameters s _) as [s1|] eqn:Eu; [|split; cbn [snd]; [assumption|]; intros s0 X; rewrite Es in X; injection X as <-; exact B].
    destruct (update_ok n _ _ _ B Eu) as (B1 & _).
    match goal with |- context [mgen s1 ?t ?sz ?a ?b ?c ?d ?e] => destruct (mgen s1 t sz a b c d e) as [[[sample s2] t2]|] eqn:Eg end.
    + cbn [snd]. split; cbn [ms_n ms_sampler]; [assumption|]. intros s0 X. injection X as <-.
      apply (generate_ok n _ _ _ _ _ _ _ _ _ _ _ Hn B1) in Eg; [apply Eg|discriminate].
    + cbn [snd]. split; cbn [ms_n ms_sampler]; [assumption|]. intros s0 X. injection X as <-. exact B1.
Qed.

Lemma hist_ok n m cs : (0 < n)%nat -> ok_model n m -> ok_model n (hist m cs).
Proof. intros Hn. revert m. induction cs as [|c cs IH]; intros m H; [exact H|]. apply IH. now apply call_ok. Qed.

Lemma new_ok n mult t : ok_model n (model_new n mult t).
Proof. split; [reflexivity|discriminate]. Qed.
End C80.

(** After any calls on a new model (any of them may have raised), a call of generate_sample that
    succeeds stores exactly the requested number of states (the number given to setup_sampler if
    none, or 0, is given), each of n spins; the sampler then holds the parameters given in this
    call, or the model's own current ones if none are given; the model's parameters do not change. *)
Theorem C80_generate : forall T C (g : rng T) (gc : rng C) mkrng mkcpp n_cpus ext energy n mult t0 cs ni b mu size known par kw m',
  rng_ok g -> rng_ok gc -> (0 < n_cpus)%nat -> (0 < n)%nat ->
  let m := history g gc mkrng mkcpp n_cpus ext energy (model_new n mult t0) cs in
  model_generate g gc mkrng mkcpp n_cpus energy m ni b mu size known par kw = (Ok tt, m') ->
  (exists sample, ms_sample m' = Some sample /\
     length sample = (match size with Some (S k) => S k | _ => ms_size m end) /\ Forall (spins n) sample) /\
  (exists s, ms_sampler m' = Some s /\ sa_theta s = match mu with Some x => x | None => ms_multipliers m end) /\
  ms_multipliers m' = ms_multipliers m /\ ms_n m' = n.
Proof.
  intros T C g gc mkrng mkcpp n_cpus ext energy n mult t0 cs ni b mu size known par kw m' Hg Hgc Hcpu Hn m E.
  assert (Hm : ok_model n m) by (apply hist_ok; try assumption; apply new_ok). clearbody m. destruct Hm as [A B].
  unfold model_generate in E. destruct (ms_sampler m) as [s|]; [|discriminate]. specialize (B s eq_refl). cbv zeta in E. destruct known; cbn [negb] in E; [|discriminate].
  destruct (update_parameters s _) as [s1|] eqn:Eu; [|discriminate]. destruct (update_ok n _ _ _ B Eu) as (B1 & Et & _).
  match type of E with context [metropolis_generate _ _ _ _ _ _ s1 ?t ?sz ?a ?b ?c ?d ?e] => destruct (metropolis_generate g gc mkrng mkcpp n_cpus energy s1 t sz a b c d e) as [[[sample s2] t2]|] eqn:Eg end; [|discriminate].
  injection E as <-. cbn [ms_sample ms_sampler ms_multipliers ms_n].
  apply (generate_ok g gc mkrng mkcpp n_cpus energy Hg Hgc Hcpu n _ _ _ _ _ _ _ _ _ _ _ Hn B1) in Eg; [|discriminate].
  destruct Eg as (L & F & _ & Th & _).
  split; [exists sample; auto|]. split; [exists s2; split; [reflexivity|congruence]|]. auto.
Qed.
Print Assumptions C80_generate.

(** The implementation of the sampler is fixed by the extension and the number of parameters. *)
Definition impl_fixed {T} (ext : bool) (n : nat) (m : mstate T) : Prop :=
  ms_n m = n /\ forall s, ms_sampler m = Some s -> sa_n s = n /\ sa_boost s = ext && Nat.eqb (length (sa_theta s)) (n * (n - 1) / 2 + n).

Lemma mgen_keeps T C (g : rng T) (gc : rng C) mkrng mkcpp n_cpus energy s t size ni b sys par initial sample s' t' :
  metropolis_generate g gc mkrng mkcpp n_cpus energy s t size ni b sys par initial = Ok (sample, s', t') ->
  sa_theta s' = sa_theta s /\ sa_boost s' = sa_boost s /\ sa_n s' = sa_n s.
Proof.
  unfold metropolis_generate. cbv zeta. destruct (sa_boost s) eqn:Eb.
  - destruct par; [destruct (draw_list _ _ _); intros E; injection E as _ <- _; auto|].
    destruct (Nat.eqb size 0); [discriminate|]. destruct (draw_seed _ _). intros E; injection E as _ <- _; auto.
  - destruct par.
    + match goal with |- bind ?X _ = _ -> _ => destruct X as [[r t0]|]; [|discriminate] end. cbn [bind]. destruct (draw_list _ _ _).
      destruct (generate_sample_parallel_py _ _ _ _ _ _ _ _ _ _) as [[? ?] ?]. intros E; injection E as _ <- _. auto.
    + match goal with |- bind ?X _ = _ -> _ => destruct X as [r|]; [|discriminate] end. cbn [bind]. intros E; injection E as _ <- _. auto.
Qed.

Lemma impl_call T C (g : rng T) (gc : rng C) mkrng mkcpp n_cpus ext energy n m c :
  impl_fixed ext n m -> impl_fixed ext n (do_call g gc mkrng mkcpp n_cpus ext energy m c).
Proof.
  intros [A B]. destruct c as [x|k size|t|ni b mu ss k p kw]; cbn [do_call].
  - split; [exact A|exact B].
  - unfold setup_sampler. destruct k; cbn [snd]; split; cbn [ms_n ms_sampler]; try assumption.
    intros s X. injection X as <-. unfold metropolis_new. cbn [sa_n sa_boost sa_theta]. rewrite A. auto.
  - unfold set_rng. cbn [snd]. split; cbn [ms_n ms_sampler]; assumption.
  - unfold model_generate. destruct (ms_sampler m) as [s|] eqn:Es; [|split; cbn [snd]; [assumption|congruence]].
    cbv zeta. destruct k; cbn [negb]; [|split; cbn [snd]; [assumption|]; intros s0 X; rewrite Es in X; injection X as <-; now apply B].
    specialize (B s eq_refl).
    destruct (update_parameters s _) as [s1|] eqn:Eu; [|split; cbn [snd]; [assumption|]; intros s0 X; rewrite Es in X; injection X as <-; exact B].
    assert (B1 : sa_n s1 = n /\ sa_boost s1 = ext && Nat.eqb (length (sa_theta s1)) (n * (n - 1) / 2 + n)).
    { unfold update_parameters in Eu. destruct (Nat.eqb_spec (length (sa_theta s)) (length match mu with Some x => x | None => ms_multipliers m end)) as [L|]; [|discriminate].
      injection Eu as <-. cbn [sa_n sa_boost sa_theta]. now rewrite <- L. }
    match goal with |- context [metropolis_generate _ _ _ _ _ _ s1 ?t ?sz ?a ?b ?c ?d ?e] => destruct (metropolis_generate g gc mkrng mkcpp n_cpus energy s1 t sz a b c d e) as [[[sample s2] t2]|] eqn:Eg end.
    + cbn [snd]. split; cbn [ms_n ms_sampler]; [assumption|]. intros s0 X. injection X as <-. apply mgen_keeps in Eg. destruct Eg as (-> & -> & ->). exact B1.
    + cbn [snd]. split; cbn [ms_n ms_sampler]; [assumption|]. intros s0 X. injection X as <-. exact B1.
Qed.

Lemma impl_hist T C (g : rng T) (gc : rng C) mkrng mkcpp n_cpus ext energy n m cs :
  impl_fixed ext n m -> impl_fixed ext n (history g gc mkrng mkcpp n_cpus ext energy m cs).
Proof. revert m. induction cs as [|c cs IH]; intros m H; [exact H|]. apply IH. now apply impl_call. Qed.

(** With the compiled extension, the sample obtained after set_rng depends on the given generator,
    parameters and arguments only: two models of the same size, whatever was called on them before
    (and whatever generate_kwargs), return the same states and leave the generator in the same state. *)
Theorem C80_boost_reproducible : forall T C (g : rng T) (gc : rng C) mkrng mkcpp n_cpus energy n mult1 mult2 t1 t2 cs1 cs2
    t theta ni b k par kw1 kw2 m1 m2,
  length theta = (n * (n - 1) / 2 + n)%nat ->
  let start mult t0 cs := snd (set_rng (history g gc mkrng mkcpp n_cpus true energy (model_new n mult t0) cs) t) in
  model_generate g gc mkrng mkcpp n_cpus energy (start mult1 t1 cs1) ni b (Some theta) (Some (S k)) true par kw1 = (Ok tt, m1) ->
  model_generate g gc mkrng mkcpp n_cpus energy (start mult2 t2 cs2) ni b (Some theta) (Some (S k)) true par kw2 = (Ok tt, m2) ->
  ms_sample m1 = ms_sample m2 /\ ms_rng m1 = ms_rng m2.
Proof.
  intros T C g gc mkrng mkcpp n_cpus energy n mult1 mult2 t1 t2 cs1 cs2 t theta ni b k par kw1 kw2 m1 m2 L start.
  assert (H : forall mult t0 cs kw m', model_generate g gc mkrng mkcpp n_cpus energy (start mult t0 cs) ni b (Some theta) (Some (S k)) true par kw = (Ok tt, m') ->
    exists s', metropolis_generate g gc mkrng mkcpp n_cpus energy {| sa_boost := true; sa_n := n; sa_theta := theta; sa_samples := None |} t (S k) ni (Some b) false par None
      = Ok (match ms_sample m' with Some x => x | None => [] end, s', ms_rng m') /\ ms_sample m' <> None).
  { intros mult t0 cs kw m'. unfold start. set (m := history _ _ _ _ _ _ _ _ _).
    assert (Hm : impl_fixed true n m) by (apply impl_hist; split; [reflexivity|discriminate]). clearbody m. destruct Hm as [A B].
    unfold set_rng. cbn [snd]. unfold model_generate. cbn [ms_sampler ms_rng ms_multipliers ms_n ms_sample ms_size].
    destruct (ms_sampler m) as [s|]; [|discriminate]. cbv zeta. cbn [negb]. destruct (B s eq_refl) as [B1 B2].
    unfold update_parameters. destruct (Nat.eqb_spec (length (sa_theta s)) (length theta)) as [Ls|]; [|discriminate].
    assert (Eb : sa_boost s = true) by (rewrite B2, Ls, L, Nat.eqb_refl; reflexivity).
    unfold metropolis_generate. cbv zeta. cbn [sa_boost sa_n sa_theta sa_samples]. rewrite Eb, B1. destruct par.
    - destruct (draw_list _ _ _) as [seeds t3]. intros E. injection E as <-. cbn [ms_sample ms_rng]. eexists. split; [reflexivity|discriminate].
    - cbn [Nat.eqb]. destruct (draw_seed _ _) as [seed t3]. intros E. injection E as <-. cbn [ms_sample ms_rng]. eexists. split; [reflexivity|discriminate]. }
  intros E1 E2. destruct (H _ _ _ _ _ E1) as (s1 & F1 & N1). destruct (H _ _ _ _ _ E2) as (s2 & F2 & N2).
  rewrite F1 in F2. injection F2 as F _ G. split; [|exact G]. destruct (ms_sample m1), (ms_sample m2); try congruence.
Qed.
Print Assumptions C80_boost_reproducible.

(** In pure Python it does not hold: the sampler keeps the last state of every chain and starts the
    next call from there, so that replacing the generator by an identical one does not reproduce the sample. *)
Theorem C80_python_reproducible_refuted : ~ (forall T C (g : rng T) (gc : rng C) mkrng mkcpp n_cpus energy n mult cs1 cs2 t0
    t theta ni b k par kw m1 m2,
  rng_ok g ->
  let start cs := snd (set_rng (history g gc mkrng mkcpp n_cpus false energy (model_new n mult t0) cs) t) in
  model_generate g gc mkrng mkcpp n_cpus energy (start cs1) ni b (Some theta) (Some (S k)) true par kw = (Ok tt, m1) ->
  model_generate g gc mkrng mkcpp n_cpus energy (start cs2) ni b (Some theta) (Some (S k)) true par kw = (Ok tt, m2) ->
  ms_sample m1 = ms_sample m2).
Proof.
  intros H.
  specialize (H nat nat toy_rng toy_rng (fun s => s) (fun s => s) 1%nat (fun _ _ => 0%R) 1%nat [0%R]
    [CSetup true 1] [CSetup true 1; CGenerate 0 0 None None true false []] 0%nat 1%nat [0%R] 0%nat 0%nat 0%nat false []).
  cbv zeta in H.
  assert (E1 := H _ _ toy_rng_ok eq_refl eq_refl). lazy in E1. discriminate.
Qed.
Print Assumptions C80_python_reproducible_refuted.

(** Parameters of another number than those the sampler was set up with are refused by
    AssertionError, and the model, its sampler and its last sample stay as they are. *)
Theorem C80_size_mismatch : forall T C (g : rng T) (gc : rng C) mkrng mkcpp n_cpus ext energy n mult t0 cs ni b mu size par kw s,
  let m := history g gc mkrng mkcpp n_cpus ext energy (model_new n mult t0) cs in
  ms_sampler m = Some s -> length mu <> length (sa_theta s) ->
  model_generate g gc mkrng mkcpp n_cpus energy m ni b (Some mu) size true par kw = (Err AssertionError, m).
Proof.
  intros T C g gc mkrng mkcpp n_cpus ext energy n mult t0 cs ni b mu size par kw s m Es L. unfold model_generate. rewrite Es. cbv zeta. cbn [negb].
  unfold update_parameters. destruct (Nat.eqb_spec (length (sa_theta s)) (length mu)); [congruence|reflexivity].
Qed.
Print Assumptions C80_size_mismatch.

(** Calling generate_sample before setup_sampler is meant to fail the assertion "Must call
    setup_sampler() first."; it raises AttributeError instead, since the attribute does not exist. *)
Theorem C80_before_setup_refuted : ~ (forall T C (g : rng T) (gc : rng C) mkrng mkcpp n_cpus energy n mult t0 ni b mu size known par kw,
  fst (model_generate g gc mkrng mkcpp n_cpus energy (model_new n mult t0) ni b mu size known par kw) = Err AssertionError).
Proof. intros H. specialize (H nat nat toy_rng toy_rng (fun s => s) (fun s => s) 1%nat (fun _ _ => 0%R) 1%nat [0%R] 0%nat 1%nat 1%nat None None true true []). discriminate. Qed.
Print Assumptions C80_before_setup_refuted.

(** Replacing the generator before setup_sampler raises AttributeError although the replacement
    has been made: a set_rng that succeeds is not the only one to take effect. *)
Theorem C80_set_rng_refuted : ~ (forall T (m : mstate T) t e, fst (set_rng m t) = Err e -> snd (set_rng m t) = m).
Proof. intros H. specialize (H nat (model_new 1 [0%R] 0%nat) 1%nat _ eq_refl). discriminate. Qed.
Print Assumptions C80_set_rng_refuted.

(** A length of the parameter vector is accepted by sample_ising exactly if it is n(n+1)/2, and
    then the system has that n spins. *)
Theorem C80_ising_size : forall L n, ising_size L = Ok n <-> (2 * L = n * (n + 1))%nat.
Proof.
  intros L n. unfold ising_size. cbv zeta. set (r := Nat.sqrt (1 + 8 * L)). split.
  - destruct (Nat.eqb_spec (r * r) (1 + 8 * L)) as [E|]; [|discriminate]. intros X. assert (X2 : ((r - 1) / 2)%nat = n) by congruence. subst n. clear X. clearbody r.
    assert (Nat.Odd r) as [q ->].
    { destruct (Nat.Even_or_Odd r) as [[q ->]|]; [|assumption]. exfalso. lia. }
    replace (2 * q + 1 - 1)%nat with (q * 2)%nat by lia. rewrite Nat.div_mul by lia. nia.
  - intros E. assert (Er : r = (2 * n + 1)%nat). { unfold r. replace (1 + 8 * L)%nat with ((2 * n + 1) * (2 * n + 1))%nat by nia. apply Nat.sqrt_square. }
    rewrite Er. destruct (Nat.eqb_spec ((2 * n + 1) * (2 * n + 1)) (1 + 8 * L)) as [_|Ne]; [|exfalso; nia].
    replace (2 * n + 1 - 1)%nat with (n * 2)%nat by lia. rewrite Nat.div_mul by lia. reflexivity.
Qed.
Print Assumptions C80_ising_size.

(** sample_ising: a result has n_samples rows of n spins, where n(n+1)/2 is the number of
    parameters; fields and couplings given as a pair are the same as their concatenation. *)
Theorem C80_sample_ising : forall T C (g : rng T) (gc : rng C) mkrng mkcpp n_cpus ext energy a n_samples seed par k sample,
  rng_ok g -> rng_ok gc -> (0 < n_cpus)%nat ->
  (forall ss, k_initial k = Some ss -> Forall (Forall (fun z => z = (-1)%Z \/ z = 1%Z)) ss) ->
  (match a with AVector v => 0 < length v | APair h J => 0 < length h + length J end)%nat ->
  sample_ising g gc mkrng mkcpp n_cpus ext energy a n_samples seed par k = Ok sample ->
  (exists n, (2 * match a with AVector v => length v | APair h J => length h + length J end = n * (n + 1))%nat /\
     length sample = n_samples /\ Forall (spins n) sample) /\
  (forall h J, a = APair h J -> length (h ++ J) <> 2%nat ->
     sample_ising g gc mkrng mkcpp n_cpus ext energy (AVector (h ++ J)) n_samples seed par k = Ok sample).
Proof.
  intros T C g gc mkrng mkcpp n_cpus ext energy a n_samples seed par k sample Hg Hgc Hcpu Hi Hpos E. split.
  - unfold sample_ising in E. destruct (ising_arg_vector a) as [v|] eqn:Ea; [|discriminate]. cbn [bind] in E.
    assert (Lv : length v = match a with AVector v => length v | APair h J => (length h + length J)%nat end).
    { unfold ising_arg_vector in Ea. destruct a as [w|h J]; [destruct (Nat.eqb (length w) 2); [discriminate|]; congruence|]. injection Ea as <-. apply app_length. }
    destruct (ising_size (length v)) as [n|] eqn:En; [|discriminate]. cbn [bind] in E. apply C80_ising_size in En. cbv zeta in E.
    assert (Pv : (0 < length v)%nat) by (rewrite Lv; destruct a; exact Hpos).
    destruct (negb _); [discriminate|]. destruct (metropolis_generate _ _ _ _ _ _ _ _ _ _ _ _ _ _) as [[[sm s'] t']|] eqn:Eg; [|discriminate]. cbn [bind fst] in E. injection E as <-.
    exists n. rewrite <- Lv. split; [exact En|]. assert (Hn : (0 < n)%nat) by nia.
    apply (generate_ok g gc mkrng mkcpp n_cpus energy Hg Hgc Hcpu n) in Eg; [exact (conj (proj1 Eg) (proj1 (proj2 Eg)))|assumption| |exact Hi].
    unfold ok_sampler, metropolis_new. cbn [sa_n sa_boost sa_theta sa_samples]. split; [reflexivity|]. split; [|discriminate].
    intros X. apply andb_true_iff in X. destruct X as [_ X]. apply Nat.eqb_eq in X. lia.
  - intros h J -> Hl. unfold sample_ising, ising_arg_vector in *. destruct (Nat.eqb_spec (length (h ++ J)) 2); [contradiction|]. exact E.
Qed.
Print Assumptions C80_sample_ising.

(** The documented keyword saveHistory is not accepted with parallel=True (the default), in either
    implementation: TypeError. *)
Theorem C80_sample_ising_history_refuted : ~ (forall T C (g : rng T) (gc : rng C) mkrng mkcpp n_cpus ext energy a n_samples seed b,
  sample_ising g gc mkrng mkcpp n_cpus ext energy a n_samples seed true
    {| k_n_iters := None; k_burn_in := None; k_systematic := None; k_save_history := Some b; k_initial := None |} <> Err TypeError).
Proof.
  intros H. apply (H nat nat toy_rng toy_rng (fun s => s) (fun s => s) 1%nat true (fun _ _ => 0%R) (APair [0%R; 0%R] [0%R]) 1%nat 0%nat false). reflexivity.
Qed.
Print Assumptions C80_sample_ising_history_refuted.

(** Nor is the documented keyword initial_sample with the compiled extension: TypeError. *)
Theorem C80_sample_ising_initial_refuted : ~ (forall T C (g : rng T) (gc : rng C) mkrng mkcpp n_cpus energy a n_samples seed par init,
  sample_ising g gc mkrng mkcpp n_cpus true energy a n_samples seed par
    {| k_n_iters := None; k_burn_in := None; k_systematic := None; k_save_history := None; k_initial := Some init |} <> Err TypeError).
Proof.
  intros H. apply (H nat nat toy_rng toy_rng (fun s => s) (fun s => s) 1%nat (fun _ _ => 0%R) (APair [0%R; 0%R] [0%R]) 1%nat 0%nat true []). reflexivity.
Qed.
Print Assumptions C80_sample_ising_initial_refuted.

(** What a sequence of calls has set: the parameters given last, and the sample size given to
    setup_sampler last (0 before any). *)
Fixpoint last_multipliers {T} (d : list R) (cs : list (call T)) : list R :=
  match cs with [] => d | CSetMultipliers x :: cs => last_multipliers x cs | _ :: cs => last_multipliers d cs end.
Fixpoint last_size {T} (d : nat) (cs : list (call T)) : nat :=
  match cs with [] => d | CSetup _ k :: cs => last_size k cs | _ :: cs => last_size d cs end.

(** Whatever was called, and whether it raised or not: the model's parameters are those set last
    (sampling with other parameters does not change them) and its sample size is the one given to
    setup_sampler last. *)
Theorem C80_history_settings : forall T C (g : rng T) (gc : rng C) mkrng mkcpp n_cpus ext energy n mult t0 cs,
  let m := history g gc mkrng mkcpp n_cpus ext energy (model_new n mult t0) cs in
  ms_multipliers m = last_multipliers mult cs /\ ms_size m = last_size 0 cs /\ ms_n m = n.
Proof.
  intros T C g gc mkrng mkcpp n_cpus ext energy n mult t0 cs.
  enough (H : forall cs m, ms_multipliers (history g gc mkrng mkcpp n_cpus ext energy m cs) = last_multipliers (ms_multipliers m) cs /\
     ms_size (history g gc mkrng mkcpp n_cpus ext energy m cs) = last_size (ms_size m) cs /\ ms_n (history g gc mkrng mkcpp n_cpus ext energy m cs) = ms_n m) by apply (H cs (model_new n mult t0)).
  clear. induction cs as [|c cs IH]; intros m; [auto|]. unfold history in *. cbn [fold_left]. specialize (IH (do_call g gc mkrng mkcpp n_cpus ext energy m c)).
  destruct IH as (A & B & D). rewrite A, B, D. clear A B D. destruct c as [x|k size|t|ni b mu ss k p kw]; cbn [do_call last_multipliers last_size].
  - auto.
  - unfold setup_sampler. destruct k; auto.
  - auto.
  - unfold model_generate. destruct (ms_sampler m); [|auto]. destruct k; cbn [negb]; [|auto]. destruct (update_parameters _ _); [|auto].
    destruct (metropolis_generate _ _ _ _ _ _ _ _ _ _ _ _ _ _) as [[[? ?] ?]|]; auto.
Qed.
Print Assumptions C80_history_settings.

(** Documented defaults of sample_ising: 1000 iterations between samples, random order of
    updates, and as many iterations before the first sample as between samples. *)
Theorem C80_sample_ising_defaults : forall T C (g : rng T) (gc : rng C) mkrng mkcpp n_cpus ext energy a n_samples seed par ni b sys sh init,
  let call ni b sys := sample_ising g gc mkrng mkcpp n_cpus ext energy a n_samples seed par
    {| k_n_iters := ni; k_burn_in := b; k_systematic := sys; k_save_history := sh; k_initial := init |} in
  call None b sys = call (Some 1000%nat) b sys /\ call ni b None = call ni b (Some false) /\
  (forall i, call (Some i) None sys = call (Some i) (Some i) sys).
Proof.
  intros T C g gc mkrng mkcpp n_cpus ext energy a n_samples seed par ni b sys sh init call. split; [reflexivity|]. split; [reflexivity|].
  intros i. unfold call, sample_ising. destruct (ising_arg_vector a) as [v|]; [|reflexivity]. cbn [bind]. destruct (ising_size (length v)) as [n|]; [|reflexivity]. cbn [bind].
  cbv zeta. unfold keywords_ok. cbn [k_save_history k_initial k_n_iters k_burn_in k_systematic]. destruct (negb _); [reflexivity|]. cbn [opt]. f_equal.
  unfold metropolis_generate, ising_generate_sample_py, generate_sample_py, generate_sample_parallel_boost, generate_sample_parallel_py.
  assert (E : burn_in_or None i = burn_in_or (Some i) i) by (destruct i; reflexivity). rewrite E. reflexivity.
Qed.
Print Assumptions C80_sample_ising_defaults.

(** The vector of a model without spins, and one of length 2, are refused. *)
Example C80_lengths : ising_size 6 = Ok 3%nat /\ ising_size 5 = Err AssertionError /\ ising_arg_vector (AVector [1%R; 2%R]) = Err ValueError.
Proof. repeat split. Qed.

(** Two spins, pure Python: the second call of generate_sample, made after a failed one, starts from
    the chain's last state and returns three states. *)
Example C80_example :
  let m := history toy_rng toy_rng (fun s => s) (fun s => s) 1%nat false (fun _ _ => 0%R) (model_new 2 [0%R; 0%R; 0%R] 0%nat)
     [CSetup true 3; CGenerate 0 0 None None true false []; CGenerate 1 1 (Some [0%R; 0%R]) None true false []] in
  exists m', model_generate toy_rng toy_rng (fun s => s) (fun s => s) 1%nat (fun _ _ => 0%R) m 0 0 (Some [0%R; 0%R; 0%R]) None true false [] = (Ok tt, m') /\
    option_map (@length _) (ms_sample m') = Some 3%nat.
Proof. eexists. split; [lazy; reflexivity|]. lazy. reflexivity. Qed.
