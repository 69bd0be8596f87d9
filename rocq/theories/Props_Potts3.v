(** * C92: sampling the three-state Potts model with Potts3 objects. *)
From Verif Require Import Prelude PreludeFacts Spec M_Params M_Index M_Sampler M_Front M_Potts3 P_Energy P_Sampler Props_Sampler Props_Front Props_Helpers P_Potts3.
Import ListNotations.

(** A state of n sites with values 0, 1, 2; a row of n values -1, 1. *)
Definition states3 (n : nat) (row : list Z) : Prop := length row = n /\ Forall (fun z => z = 0 \/ z = 1 \/ z = 2)%Z row.
Definition spins2 (n : nat) (row : list Z) : Prop := length row = n /\ Forall (fun z => z = -1 \/ z = 1)%Z row.

Lemma states3_of n row : pstates n row -> states3 n (map Z.of_nat row).
Proof.
  intros [L F]. split; [now rewrite map_length|]. apply Forall_forall. intros z Hz. apply in_map_iff in Hz. destruct Hz as (x & <- & Hx).
  rewrite Forall_forall in F. specialize (F x Hx). unfold potts3 in F. lia.
Qed.

Lemma states3_all n rows : Forall (pstates n) rows -> Forall (states3 n) (as_states rows).
Proof. intros H. unfold as_states. rewrite Forall_map. eapply Forall_impl; [|exact H]. intros r. apply states3_of. Qed.

(** ** The constructor *)
(** It succeeds exactly if the number of parameters is right and an energy function is given or
    the extension is used; only with the extension is a number drawn. *)
Theorem C92_constructor : forall T (g : rng T) n_cpus ext n theta given_e cpus boost t r,
  potts3_new g n_cpus ext n theta given_e cpus boost t = r ->
  (if Nat.eq_dec (length theta) (3 * n + n * (n - 1) / 2) then
     if boost && ext then exists s, r = Ok (s, snd (randint g t 0 seed_bound)) /\ ps_boost s = true /\ ps_theta s = theta /\ ps_n s = n
     else if given_e then exists s, r = Ok (s, t) /\ ps_boost s = false /\ ps_theta s = theta /\ ps_n s = n
     else r = Err AssertionError
   else r = Err AssertionError).
Proof.
  intros T g n_cpus ext n theta given_e cpus boost t r <-. unfold potts3_new, potts_size.
  destruct (Nat.eq_dec _ _) as [L|L].
  - destruct (Nat.eqb_spec (length theta) (n * 3 + n * (n - 1) / 2)) as [_|N]; [|exfalso; lia]. cbn [negb]. destruct (boost && ext).
    + unfold draw_seed. destruct (randint g t 0 seed_bound). cbn [snd]. eexists. cbn. auto.
    + destruct given_e; [eexists; cbn; auto|reflexivity].
  - destruct (Nat.eqb_spec (length theta) (n * 3 + n * (n - 1) / 2)) as [N|_]; [exfalso; lia|reflexivity].
Qed.
Print Assumptions C92_constructor.

(** ** Parallel sampling with the extension *)
(** generate_sample_parallel returns exactly the requested number of rows, all of them lists of n
    states 0, 1 or 2 that one of the C++ Potts samplers with the object's own parameters and one of
    the drawn seeds produced; it refuses fewer than two processes, or not more samples than
    processes, by AssertionError. *)
Theorem C92_parallel : forall T C (g : rng T) (gc : rng C) mkrng mkcpp n_cpus asserts energy s t size ni b sys,
  rng_ok gc -> ps_boost s = true -> (0 < ps_n s)%nat -> length (ps_theta s) = (3 * ps_n s + ps_n s * (ps_n s - 1) / 2)%nat ->
  let call := potts3_generate g gc mkrng mkcpp n_cpus asserts energy s t size ni b sys true in
  if (2 <=? ps_cpus s) && (ps_cpus s <? size) then
    exists sample t', call = Returned (Ok (sample, s, t')) /\ length sample = size /\ Forall (states3 (ps_n s)) sample /\
      forall row, In row sample -> exists seed k row', row = map Z.of_nat row' /\
        In seed (fst (draw_list (draw_seed g) (ps_cpus s) t)) /\
        In row' (boost_potts_sample gc (ps_n s) (ps_theta s) k (burn_in_or b ni) ni sys (mkcpp seed))
  else call = Returned (Err AssertionError).
Proof.
  intros T C g gc mkrng mkcpp n_cpus asserts energy s t size ni b sys Hgc Hb Hn Hp call. unfold call, potts3_generate. rewrite Hb. cbv zeta.
  unfold potts3_parallel_boost.
  destruct (Nat.leb_spec 2 (ps_cpus s)) as [H2|H2]; cbn [andb].
  2: { destruct (Nat.ltb_spec (ps_cpus s) 2); [reflexivity|lia]. }
  destruct (Nat.ltb_spec (ps_cpus s) 2); [lia|]. destruct (Nat.ltb_spec (ps_cpus s) size) as [H3|H3].
  2: { destruct (Nat.leb_spec size (ps_cpus s)); [reflexivity|lia]. }
  destruct (Nat.leb_spec size (ps_cpus s)); [lia|].
  assert (Ls := draw_list_spec (draw_seed g) (fun _ => True) (ps_cpus s) (fun _ => I) t). destruct Ls as [Ls _].
  destruct (draw_list (draw_seed g) (ps_cpus s) t) as [seeds t1]. cbn [fst] in Ls |- *. cbn [bind fst snd].
  set (q := ceil_div size (ps_cpus s)). set (f := fun seed => boost_potts_sample gc (ps_n s) (ps_theta s) q (burn_in_or b ni) ni sys (mkcpp seed)).
  assert (One : forall seed, length (f seed) = q /\ Forall (pstates (ps_n s)) (f seed)).
  { intros seed. unfold f. apply C85_potts_sampler; assumption. }
  eexists. exists t1. split; [reflexivity|]. unfold as_states. split; [|split].
  - rewrite map_length, firstn_length. apply Nat.min_l.
    assert (HL : length (concat (map f seeds)) = (length seeds * q)%nat).
    { clear -One. induction seeds as [|a l IH]; cbn; [reflexivity|]. rewrite app_length, IH. destruct (One a) as [-> _]. reflexivity. }
    rewrite HL, Ls. apply ceil_div_ge. lia.
  - apply states3_all. apply Forall_forall. intros row Hrow. apply in_firstn in Hrow. apply in_concat in Hrow. destruct Hrow as [l [Hl Hrow]].
    apply in_map_iff in Hl. destruct Hl as [seed [<- _]]. destruct (One seed) as [_ HF]. rewrite Forall_forall in HF. now apply HF.
  - intros row Hrow. apply in_map_iff in Hrow. destruct Hrow as (row' & <- & Hrow). apply in_firstn in Hrow. apply in_concat in Hrow. destruct Hrow as [l [Hl Hrow]].
    apply in_map_iff in Hl. destruct Hl as [seed [<- Hseed]]. exists seed, q, row'. auto.
Qed.
Print Assumptions C92_parallel.

(** ** Sequential sampling with the extension *)
(** generate_sample ends the process if the extension was compiled with assertions.  Otherwise its
    sample is, for every generator, exactly that of a C++ Ising sampler whose fields are the n fields
    of state 0 and whose couplings are the n(n-1)/2 numbers that follow: rows of -1 and 1. *)
Theorem C92_sequential : forall T C (g : rng T) (gc : rng C) mkrng mkcpp n_cpus asserts energy s t size ni b sys,
  rng_ok gc -> ps_boost s = true -> (0 < ps_n s)%nat -> (0 < size)%nat -> length (ps_theta s) = (3 * ps_n s + ps_n s * (ps_n s - 1) / 2)%nat ->
  let n := ps_n s in
  let call := potts3_generate g gc mkrng mkcpp n_cpus asserts energy s t size ni b sys false in
  if asserts then call = Aborted
  else exists sample t', call = Returned (Ok (sample, s, t')) /\ length sample = size /\ Forall (spins2 n) sample /\
    sample = boost_ising_sample gc n (firstn (n + n * (n - 1) / 2) (ps_theta s)) size (burn_in_or b ni) ni sys (mkcpp (fst (randint g t 0 seed_bound))).
Proof.
  intros T C g gc mkrng mkcpp n_cpus asserts energy s t size ni b sys Hgc Hb Hn Hsz Hp n call. unfold call, potts3_generate. rewrite Hb. cbv zeta.
  unfold potts3_sample_boost. destruct (Nat.eqb_spec size 0); [lia|]. unfold draw_seed. destruct (randint g t 0 seed_bound) as [seed t1]. cbn [fst].
  destruct (Nat.eqb_spec (length (ps_theta s)) (ising_params (ps_n s))) as [X|_]; [exfalso; unfold ising_params in X; lia|].
  destruct asserts; cbn [andb negb]; [reflexivity|]. cbn [bind fst snd].
  assert (E : boost_ising_sample gc n (ps_theta s) size (burn_in_or b ni) ni sys (mkcpp seed) =
              boost_ising_sample gc n (firstn (n + n * (n - 1) / 2) (ps_theta s)) size (burn_in_or b ni) ni sys (mkcpp seed)).
  { apply boost_ising_ext; [assumption|exact Hn|]. intros k Hk. symmetry. apply nthR_firstn. exact Hk. }
  fold n. rewrite E. eexists. exists t1. split; [reflexivity|].
  assert (L : length (firstn (n + n * (n - 1) / 2) (ps_theta s)) = (n + n * (n - 1) / 2)%nat) by (rewrite firstn_length; unfold n; lia).
  destruct (boost_shape gc Hgc n _ size (burn_in_or b ni) ni sys (mkcpp seed) Hn L) as [A B].
  split; [exact A|]. split; [exact B|]. reflexivity.
Qed.
Print Assumptions C92_sequential.

(** "generate_sample of a Potts3 object returns states 0, 1, 2" does not hold with the extension:
    Potts3 binds generate_sample to the method inherited from Metropolis, which builds a BoostIsing
    sampler from the Potts parameters (samplers.py:1220, 1810). *)
Theorem C92_sequential_refuted : ~ (forall T C (g : rng T) (gc : rng C) mkrng mkcpp n_cpus asserts energy s t size ni b sys sample s' t',
  rng_ok g -> rng_ok gc -> ps_boost s = true -> (0 < ps_n s)%nat -> (0 < size)%nat -> length (ps_theta s) = (3 * ps_n s + ps_n s * (ps_n s - 1) / 2)%nat ->
  potts3_generate g gc mkrng mkcpp n_cpus asserts energy s t size ni b sys false = Returned (Ok (sample, s', t')) ->
  Forall (states3 (ps_n s)) sample).
Proof.
  intros H. set (s := {| ps_boost := true; ps_n := 1; ps_theta := [0; 0; 0]%R; ps_cpus := 2; ps_samples := None |}).
  set (const := {| randint := fun (_ : unit) lo hi => ((hi - 1)%nat, tt); rand := fun _ => (0%R, tt) |} : rng unit).
  assert (Hc : rng_ok const). { split; [intros t lo hi Hh; cbn; lia|]. intros t. cbn. lra. }
  set (low := {| randint := fun (_ : unit) lo hi => (lo, tt); rand := fun _ => (0%R, tt) |} : rng unit).
  assert (Hl : rng_ok low). { split; [intros t lo hi Hh; cbn; lia|]. intros t. cbn. lra. }
  specialize (H unit unit low const (fun _ => tt) (fun _ => tt) 2%nat false (fun _ _ => 0%R) s tt 1%nat 0%nat None false
    [[-1]]%Z s tt Hl Hc eq_refl ltac:(cbn; lia) ltac:(lia) eq_refl eq_refl).
  inversion H as [|? ? [_ F] _]; subst. inversion F as [|? ? [F1|[F1|F1]] _]; discriminate.
Qed.
Print Assumptions C92_sequential_refuted.

(** Up to five sites the couplings have no influence whatsoever on such a sample: two objects with
    the same 3n fields return the same rows. *)
Theorem C92_couplings_ignored : forall T C (g : rng T) (gc : rng C) mkrng mkcpp n_cpus asserts energy s s' t size ni b sys,
  rng_ok gc -> ps_boost s = true -> ps_boost s' = true -> ps_n s' = ps_n s -> (0 < ps_n s <= 5)%nat ->
  length (ps_theta s) = (3 * ps_n s + ps_n s * (ps_n s - 1) / 2)%nat -> length (ps_theta s') = length (ps_theta s) ->
  firstn (3 * ps_n s) (ps_theta s) = firstn (3 * ps_n s) (ps_theta s') ->
  let rows s := match potts3_generate g gc mkrng mkcpp n_cpus asserts energy s t size ni b sys false with Returned (Ok (x, _, _)) => Some x | _ => None end in
  rows s = rows s'.
Proof.
  intros T C g gc mkrng mkcpp n_cpus asserts energy s s' t size ni b sys Hgc Hb Hb' En [Hn Hn5] Hp Hp' Hf rows. unfold rows, potts3_generate.
  rewrite Hb, Hb'. cbv zeta. unfold potts3_sample_boost. destruct (Nat.eqb size 0); [reflexivity|]. destruct (draw_seed g t) as [seed t1].
  rewrite En, Hp'. destruct (asserts && _); [reflexivity|]. cbn [bind fst snd]. f_equal. apply boost_ising_ext; [assumption|assumption|].
  intros k Hk. assert (K : (k < 3 * ps_n s)%nat).
  { unfold ising_params in Hk. assert (D : (ps_n s * (ps_n s - 1) / 2 <= 2 * ps_n s)%nat) by (apply Nat.div_le_upper_bound; [lia|]; nia). lia. }
  rewrite <- (nthR_firstn (ps_theta s) k _ K), <- (nthR_firstn (ps_theta s') k _ K). now rewrite Hf.
Qed.
Print Assumptions C92_couplings_ignored.

(** ** Models *)
Section C92.
Context {T C : Type} (g : rng T) (gc : rng C) (mkrng : nat -> T) (mkcpp : nat -> C) (n_cpus : nat) (ext asserts : bool) (energy : list R -> list nat -> R).
Hypothesis Hg : rng_ok g.
Hypothesis Hgc : rng_ok gc.
Hypothesis Hcpu : (0 < n_cpus)%nat.

Definition ok_psampler (n : nat) (s : psampler) : Prop :=
  ps_n s = n /\ length (ps_theta s) = (3 * n + n * (n - 1) / 2)%nat /\ (forall ss, ps_samples s = Some ss -> Forall (pstates n) ss).

Notation pgen := (potts3_generate g gc mkrng mkcpp n_cpus asserts energy).

Lemma pgen_ok n s t size ni b sys par sample s' t' : (0 < n)%nat -> ok_psampler n s ->
  pgen s t size ni b sys par = Returned (Ok (sample, s', t')) ->
  length sample = size /\ Forall (if ps_boost s && negb par then spins2 n else states3 n) sample /\
  ok_psampler n s' /\ ps_theta s' = ps_theta s /\ ps_boost s' = ps_boost s.
Proof.
  intros Hn (En & Hp & Hs) E. destruct (ps_boost s) eqn:Eb; cbn [andb].
  - destruct par; cbn [negb].
    + assert (Q := C92_parallel T C g gc mkrng mkcpp n_cpus asserts energy s t size ni b sys Hgc Eb ltac:(lia) ltac:(rewrite En; exact Hp)). cbv zeta in Q. rewrite E in Q.
      destruct ((2 <=? ps_cpus s) && (ps_cpus s <? size)); [|discriminate]. destruct Q as (sm & t1 & X & L & F & _). injection X as -> -> ->.
      rewrite En in F. split; [exact L|]. split; [exact F|]. split; [unfold ok_psampler; auto|auto].
    + destruct (Nat.eq_dec size 0) as [->|Hsz].
      { unfold potts3_generate in E. rewrite Eb in E. cbv zeta in E. unfold potts3_sample_boost in E. cbn in E. discriminate. }
      assert (Q := C92_sequential T C g gc mkrng mkcpp n_cpus asserts energy s t size ni b sys Hgc Eb ltac:(lia) ltac:(lia) ltac:(rewrite En; exact Hp)). cbv zeta in Q. rewrite E in Q.
      destruct asserts; [discriminate|]. destruct Q as (sm & t1 & X & L & F & _). injection X as -> -> ->.
      rewrite En in F. split; [exact L|]. split; [exact F|]. split; [unfold ok_psampler; auto|auto].
  - unfold potts3_generate in E. rewrite Eb, En in E. cbv zeta in E. destruct par.
    + match type of E with (let '(a, b) := ?X in _) = _ => assert (Q : length (fst X) = n_cpus /\ Forall (pstates n) (fst X)); [|destruct X as [replicas t0]] end.
      { assert (Row := draw_list_spec (potts_random_row g n) (pstates n) n_cpus ltac:(intros t0; apply potts_random_row_spec; exact Hg) t).
        destruct (ps_samples s) as [sm|] eqn:Esm; [|exact Row]. destruct (Nat.eqb_spec (length sm) n_cpus); [|exact Row]. cbn [fst]. auto. }
      cbn [fst] in Q. destruct Q as [Lr Fr]. assert (Ls := draw_list_spec (draw_seed g) (fun _ => True) n_cpus (fun _ => I) t0). destruct Ls as [Ls _].
      destruct (draw_list (draw_seed g) n_cpus t0) as [seeds t1]. cbn [fst] in Ls.
      assert (P := potts_parallel_py g mkrng Hg (energy (ps_theta s)) n size ni b sys replicas seeds Hn ltac:(lia) ltac:(congruence) Fr).
      destruct (generate_sample_parallel_py _ _ _ _ _ _ _ _ _ _) as [[sm final] Es]. injection E as <- <- <-. destruct P as (L & F1 & F2).
      split; [unfold as_states; now rewrite map_length|]. split; [now apply states3_all|]. cbn [ps_theta ps_boost].
      split; [|auto]. unfold ok_psampler. cbn [ps_n ps_theta ps_samples]. split; [reflexivity|]. split; [exact Hp|]. intros ss X. injection X as <-. exact F2.
    + destruct (potts_generate_sample_py g (energy (ps_theta s)) n size ni b sys (ps_samples s) None t) as [r|] eqn:Er; [|discriminate]. cbn [bind] in E. injection E as <- <- <-.
      destruct (C25_generate_sample_potts T g _ n size ni b sys _ None t r Hg Hn Hs ltac:(discriminate) Er) as (L & _ & F & _).
      split; [unfold as_states; now rewrite map_length|]. split; [now apply states3_all|]. cbn [ps_theta ps_boost].
      split; [|auto]. unfold ok_psampler. cbn [ps_n ps_theta ps_samples]. split; [reflexivity|]. split; [exact Hp|].
      intros ss X. injection X as <-. exact (potts_seq_final g Hg _ n _ _ _ _ _ _ _ Hn Hs Er).
Qed.

Definition ok_pmodel (n : nat) (m : pmodel T) : Prop := pm_n m = n /\ forall s, pm_sampler m = Some s -> ok_psampler n s.

Lemma pupdate_ok n s theta s' : ok_psampler n s -> potts3_update_parameters s theta = Ok s' ->
  ok_psampler n s' /\ ps_theta s' = theta /\ ps_boost s' = ps_boost s.
Proof.
  intros (A & B & D) E. unfold potts3_update_parameters in E. destruct (Nat.eqb_spec (length (ps_theta s)) (length theta)) as [L|]; [|discriminate]. injection E as <-.
  cbn [ps_theta ps_boost]. split; [|auto]. unfold ok_psampler. cbn [ps_n ps_theta ps_samples]. split; [assumption|]. split; [congruence|assumption].
Qed.

Lemma pdo_ok n m c : (0 < n)%nat -> ok_pmodel n m -> ok_pmodel n (pdo g gc mkrng mkcpp n_cpus ext asserts energy m c).
Proof.
  intros Hn [A B]. destruct c as [x|size cpus boost|ni b mu ss p]; cbn [pdo].
  - split; [exact A|exact B].
  - unfold pmodel_setup. cbv zeta. assert (Q := C92_constructor T g n_cpus ext (pm_n m) (pm_multipliers m) true cpus boost (pm_rng m) _ eq_refl).
    destruct (potts3_new _ _ _ _ _ _ _ _ _) as [[s t]|e] eqn:E; cbn [snd]; split; cbn [pm_n pm_sampler]; try assumption.
    intros s0 X. injection X as <-. destruct (Nat.eq_dec _ _) as [L|]; [|discriminate]. rewrite A in *.
    assert (Z1 : ps_theta s = pm_multipliers m /\ ps_n s = n) by (destruct (boost && ext); destruct Q as (s1 & X & _ & Y); injection X as <- _; exact Y).
    unfold ok_psampler. destruct Z1 as [-> ->]. split; [reflexivity|]. split; [exact L|]. intros ss Hss. exfalso. unfold potts3_new in E.
    destruct (negb _); [discriminate|]. destruct (boost && ext); [destruct (draw_seed _ _)|]; injection E as <- _; cbn in Hss; discriminate.
  - unfold pmodel_generate. destruct (pm_sampler m) as [s|] eqn:Es; [|split; cbn [snd]; [assumption|congruence]].
    cbv zeta. specialize (B s eq_refl).
    destruct (potts3_update_parameters s _) as [s1|] eqn:Eu; [|split; cbn [snd]; [assumption|]; intros s0 X; rewrite Es in X; injection X as <-; exact B].
    destruct (pupdate_ok n _ _ _ B Eu) as (B1 & _).
    match goal with |- context [pgen s1 ?t ?sz ?a ?b ?c ?d] => destruct (pgen s1 t sz a b c d) as [[[[sample s2] t2]|]|] eqn:Eg end; cbn [snd].
    + split; cbn [pm_n pm_sampler]; [assumption|]. intros s0 X. injection X as <-. apply (pgen_ok n _ _ _ _ _ _ _ _ _ _ Hn B1) in Eg. apply Eg.
    + split; cbn [pm_n pm_sampler]; [assumption|]. intros s0 X. injection X as <-. exact B1.
    + split; [assumption|]. intros s0 X. rewrite Es in X. injection X as <-. exact B.
Qed.

Lemma phist_ok n m cs : (0 < n)%nat -> ok_pmodel n m -> ok_pmodel n (phistory g gc mkrng mkcpp n_cpus ext asserts energy m cs).
Proof. intros Hn. revert m. induction cs as [|c cs IH]; intros m H; [exact H|]. apply IH. now apply pdo_ok. Qed.
End C92.

(** After any calls on a new Potts model (any of them may have raised), a call of generate_sample
    that succeeds stores the requested number of rows; they are lists of n states 0, 1, 2 if the
    call is parallel or the sampler works in pure Python, and lists of n values -1, 1 if it is
    sequential with the extension.  The sampler then holds the parameters given in this call, or the
    model's current ones; the model's parameters do not change. *)
Theorem C92_history : forall T C (g : rng T) (gc : rng C) mkrng mkcpp n_cpus ext asserts energy n mult t0 cs ni b mu size par m',
  rng_ok g -> rng_ok gc -> (0 < n_cpus)%nat -> (0 < n)%nat ->
  let m := phistory g gc mkrng mkcpp n_cpus ext asserts energy (pmodel_new n mult t0) cs in
  pmodel_generate g gc mkrng mkcpp n_cpus asserts energy m ni b mu size par = (Returned (Ok tt), m') ->
  exists s sample, pm_sampler m' = Some s /\ pm_sample m' = Some sample /\
    length sample = (match size with Some (S k) => S k | _ => pm_size m end) /\
    Forall (if ps_boost s && negb par then spins2 n else states3 n) sample /\
    ps_theta s = match mu with Some x => x | None => pm_multipliers m end /\
    pm_multipliers m' = pm_multipliers m /\ pm_n m' = n.
Proof.
  intros T C g gc mkrng mkcpp n_cpus ext asserts energy n mult t0 cs ni b mu size par m' Hg Hgc Hcpu Hn m E.
  assert (Hm : ok_pmodel n m) by (apply phist_ok; try assumption; split; [reflexivity|discriminate]). clearbody m. destruct Hm as [A B].
  unfold pmodel_generate in E. destruct (pm_sampler m) as [s|]; [|discriminate]. specialize (B s eq_refl). cbv zeta in E.
  destruct (potts3_update_parameters s _) as [s1|] eqn:Eu; [|discriminate]. destruct (pupdate_ok n _ _ _ B Eu) as (B1 & Et & _).
  match type of E with context [potts3_generate _ _ _ _ _ _ _ s1 ?t ?sz ?a ?b ?c ?d] => destruct (potts3_generate g gc mkrng mkcpp n_cpus asserts energy s1 t sz a b c d) as [[[[sample s2] t2]|]|] eqn:Eg end; try discriminate.
  injection E as <-. cbn [pm_sample pm_sampler pm_multipliers pm_n].
  apply (pgen_ok g gc mkrng mkcpp n_cpus asserts energy Hg Hgc Hcpu n _ _ _ _ _ _ _ _ _ _ Hn B1) in Eg. destruct Eg as (L & F & _ & Th & Bo).
  exists s2, sample. rewrite Bo. split; [reflexivity|]. split; [reflexivity|]. split; [exact L|]. split; [exact F|]. split; [congruence|auto].
Qed.
Print Assumptions C92_history.

(** The parameters of a model after any calls are those last given to set_multipliers, or else
    those of the constructor. *)
Theorem C92_set_multipliers : forall T C (g : rng T) (gc : rng C) mkrng mkcpp n_cpus ext asserts energy n mult t0 cs,
  pm_multipliers (phistory g gc mkrng mkcpp n_cpus ext asserts energy (pmodel_new n mult t0) cs) =
  fold_left (fun x c => match c with PSet y => y | _ => x end) cs mult.
Proof.
  intros. change mult with (pm_multipliers (pmodel_new n mult t0)) at 2. generalize (pmodel_new n mult t0). unfold phistory.
  induction cs as [|c cs IH]; intros m; [reflexivity|]. cbn [fold_left]. rewrite IH. f_equal. destruct c as [x|size cpus boost|ni b mu ss p]; cbn [pdo].
  - reflexivity.
  - unfold pmodel_setup. cbv zeta. destruct (potts3_new _ _ _ _ _ _ _ _ _) as [[s t]|e]; reflexivity.
  - unfold pmodel_generate. destruct (pm_sampler m) as [s|]; [|reflexivity]. cbv zeta. destruct (potts3_update_parameters s _) as [s1|]; [|reflexivity].
    match goal with |- context [potts3_generate _ _ _ _ _ _ _ s1 ?t ?sz ?a ?b ?c ?d] => destruct (potts3_generate g gc mkrng mkcpp n_cpus asserts energy s1 t sz a b c d) as [[[[sample s2] t2]|]|] end; reflexivity.
Qed.
Print Assumptions C92_set_multipliers.

(** setup_sampler keeps the parameters of the model and remembers the sample size.  If it succeeds,
    the sample of an earlier sampler is forgotten and the new sampler holds the parameters of the
    model.  If it raises (wrong number of parameters), the earlier sampler and sample stay, but a
    later generate_sample uses the new size. *)
Theorem C92_setup : forall T (g : rng T) n_cpus ext m size cpus boost,
  let (r, m') := pmodel_setup g n_cpus ext m size cpus boost in
  pm_n m' = pm_n m /\ pm_multipliers m' = pm_multipliers m /\ pm_size m' = size /\
  (if Nat.eq_dec (length (pm_multipliers m)) (3 * pm_n m + pm_n m * (pm_n m - 1) / 2)
   then r = Ok tt /\ pm_sample m' = None /\ exists s, pm_sampler m' = Some s /\ ps_theta s = pm_multipliers m /\ ps_n s = pm_n m
   else r = Err AssertionError /\ pm_sample m' = pm_sample m /\ pm_sampler m' = pm_sampler m /\ pm_rng m' = pm_rng m).
Proof.
  intros T g n_cpus ext m size cpus boost. unfold pmodel_setup. cbv zeta.
  assert (Q := C92_constructor T g n_cpus ext (pm_n m) (pm_multipliers m) true cpus boost (pm_rng m) _ eq_refl).
  destruct (potts3_new _ _ _ _ _ _ _ _ _) as [[s t]|e] eqn:E; cbn [pm_n pm_multipliers pm_size pm_sample pm_sampler pm_rng]; (split; [reflexivity|]; split; [reflexivity|]; split; [reflexivity|]).
  - destruct (Nat.eq_dec _ _); [|discriminate]. split; [reflexivity|]. split; [reflexivity|]. exists s. split; [reflexivity|].
    destruct (boost && ext); destruct Q as (s1 & X & _ & Y); injection X as <- _; exact Y.
  - destruct (Nat.eq_dec _ _); [|injection Q as ->; auto]. destruct (boost && ext); destruct Q as (s1 & X & _); discriminate.
Qed.
Print Assumptions C92_setup.

(** The number of processes given to setup_sampler decides: with the default, or 0, and fewer than
    three processors, a model with the extension cannot be sampled in parallel, which is the
    default of generate_sample. *)
Theorem C92_few_processors : forall T C (g : rng T) (gc : rng C) mkrng mkcpp n_cpus asserts energy m0 m size ni b mu ss,
  (n_cpus <= 2)%nat -> pmodel_setup g n_cpus true m0 size None true = (Ok tt, m) ->
  fst (pmodel_generate g gc mkrng mkcpp n_cpus asserts energy m ni b mu ss true) = Returned (Err AssertionError).
Proof.
  intros T C g gc mkrng mkcpp n_cpus asserts energy m0 m size ni b mu ss Hc E. unfold pmodel_setup, potts3_new in E. cbv zeta in E.
  destruct (negb _); [discriminate|]. cbn [andb] in E. destruct (draw_seed g (pm_rng m0)) as [x t]. injection E as <-.
  unfold pmodel_generate. cbn [pm_sampler]. cbv zeta. unfold potts3_update_parameters. cbn [ps_theta].
  destruct (Nat.eqb _ _); [|reflexivity]. unfold potts3_generate. cbn [ps_boost]. cbv zeta. unfold potts3_parallel_boost. cbn [ps_cpus].
  destruct (Nat.ltb_spec (n_cpus - 1) 2); [reflexivity|lia].
Qed.
Print Assumptions C92_few_processors.

(** ** Conditional samples *)
(** The inherited conditional sampler cannot condition on state 0 or 2: it refuses any list of
    fixed sites with such a value. *)
Theorem C92_cond_values : forall T (g : rng T) calc_e n size fixed b ni sys (t : T) i z,
  In (i, z) fixed -> z = 0%Z \/ z = 2%Z -> potts3_cond_py g calc_e n size fixed b ni sys t = Err AssertionError.
Proof.
  intros T g calc_e n size fixed b ni sys t i z Hin Hz. unfold potts3_cond_py. destruct fixed as [|f fixed]; [destruct Hin|].
  destruct (negb (strictly_increasing _)); [reflexivity|].
  destruct (forallb _ (f :: fixed)) eqn:F; [|reflexivity]. exfalso. rewrite forallb_forall in F. specialize (F _ Hin). cbn [snd] in F. destruct Hz as [-> | ->]; discriminate.
Qed.
Print Assumptions C92_cond_values.

(** Its updates nevertheless are updates of the three-state model: from any integers, the result is
    the state it started from, with energy change 0, or a state with another value at exactly one
    site, between 0 and 2, with the change of its energy. *)
Theorem C92_cond_update : forall T (g : rng T) calc_e site s (t : T) s' de t',
  rng_ok g -> (0 < length s)%nat -> (forall i, site = Some i -> (i < length s)%nat) ->
  potts_step_Z g calc_e site s (calc_e s) t = (s', de, t') ->
  (s' = s /\ de = 0%R) \/
  (de = (calc_e s' - calc_e s)%R /\ length s' = length s /\ exists i, (i < length s)%nat /\ (forall j, site = Some j -> i = j) /\
     (0 <= nth i s' 0 <= 2)%Z /\ ((0 <= nth i s 0 <= 2)%Z -> nth i s' 0%Z <> nth i s 0%Z) /\ forall j, j <> i -> nth j s' 0%Z = nth j s 0%Z).
Proof.
  intros T g calc_e site s t s' de t' Hg Hs Hsite. unfold potts_step_Z.
  assert (Q : exists i t1, (match site with Some i => (i, t) | None => randint g t 0%nat (length s) end) = (i, t1) /\ (i < length s)%nat /\ (forall j, site = Some j -> i = j)).
  { destruct site as [i|]; [exists i, t; split; [reflexivity|]; split; [now apply Hsite|intros j E; congruence]|].
    destruct (randint g t 0 (length s)) as [i t1] eqn:E. exists i, t1. split; [reflexivity|]. destruct Hg as [Hg _]. specialize (Hg t 0%nat (length s) Hs). rewrite E in Hg. cbn in Hg. split; [lia|discriminate]. }
  destruct Q as (i & t1 & -> & Hi & Hj). destruct (randint g t1 1 3) as [d t2] eqn:Ed. assert (Hd : (1 <= d < 3)%nat) by (destruct Hg as [Hg _]; specialize (Hg t1 1%nat 3%nat ltac:(lia)); now rewrite Ed in Hg).
  set (s1 := upd s i _). set (v := ((nth i s 0 + Z.of_nat d) mod 3)%Z) in s1.
  assert (Hv : (0 <= v <= 2)%Z) by (unfold v; pose proof (Z.mod_pos_bound (nth i s 0 + Z.of_nat d)%Z 3%Z); lia).
  assert (Acc : length s1 = length s /\ exists i, (i < length s)%nat /\ (forall j, site = Some j -> i = j) /\ (0 <= nth i s1 0 <= 2)%Z /\ ((0 <= nth i s 0 <= 2)%Z -> nth i s1 0%Z <> nth i s 0%Z) /\ forall j, j <> i -> nth j s1 0%Z = nth j s 0%Z).
  { unfold s1. split; [apply upd_length|]. exists i. split; [exact Hi|]. split; [exact Hj|]. rewrite nth_upd_same by exact Hi. split; [exact Hv|]. split.
    - intros Hr E. unfold v in E. assert (Hc : (nth i s 0 = 0 \/ nth i s 0 = 1 \/ nth i s 0 = 2)%Z) by lia. assert (Hd2 : d = 1%nat \/ d = 2%nat) by lia.
      destruct Hc as [Hc|[Hc|Hc]], Hd2 as [-> | ->]; rewrite Hc in E; cbn in E; lia.
    - intros j Hne. apply nth_upd_other; congruence. }
  destruct (Rlt_dec 0 _) as [Hp|Hp].
  - destruct (rand g t2) as [u t3]. destruct (Rlt_dec _ u); intros E; injection E as <- <- <-; [now left|right; now split].
  - intros E; injection E as <- <- <-; right; now split.
Qed.
Print Assumptions C92_cond_update.

(** "Conditional samples of a Potts3 object are states 0, 1, 2" does not hold: the chain starts
    from values -1 and 1, and -1 stays wherever no update was accepted. *)
Theorem C92_cond_refuted : ~ (forall T (g : rng T) calc_e n size fixed b ni sys (t : T) rows Es t',
  rng_ok g -> (length fixed < n)%nat -> (0 < size)%nat -> (forall i z, In (i, z) fixed -> z = 1)%Z ->
  potts3_cond_py g calc_e n size fixed b ni sys t = Ok (rows, Es, t') -> Forall (states3 n) rows).
Proof.
  intros H. specialize (H nat toy_rng (fun _ => 0%R) 2%nat 1%nat [(0%nat, 1%Z)] 0%nat 0%nat true 0%nat [[1; -1]]%Z [0%R] 1%nat
    toy_rng_ok ltac:(cbn; lia) ltac:(lia) ltac:(intros i z [X|[]]; congruence) eq_refl).
  inversion H as [|? ? [_ F] _]; subst. inversion F as [|? ? _ F2]; subst. inversion F2 as [|? ? [F3|[F3|F3]] _]; discriminate.
Qed.
Print Assumptions C92_cond_refuted.

Definition count_rng : rng nat := {| randint := fun t lo hi => (t, S t); rand := fun t => (0%R, S t) |}.
(** Two sites, seven parameters: a parallel call returns Potts states, a sequential one -1 and 1. *)
Example C92_example :
  let s := {| ps_boost := true; ps_n := 2; ps_theta := [1; 0; 0; 2; 0; 0; 1]%R; ps_cpus := 2; ps_samples := None |} in
  (exists t, potts3_generate count_rng toy_rng (fun x => x) (fun x => x) 4 false (fun _ _ => 0%R) s 1%nat 3 0 None true true
     = Returned (Ok ([[1; 2]; [1; 2]; [2; 0]]%Z, s, t))) /\
  (exists t, potts3_generate count_rng toy_rng (fun x => x) (fun x => x) 4 false (fun _ _ => 0%R) s 1%nat 1 0 None true false
     = Returned (Ok ([[-1; 1]]%Z, s, t))) /\
  fst (pmodel_setup count_rng 4 true (pmodel_new 2 (ps_theta s) 0%nat) 10 None true) = Ok tt /\
  fst (pmodel_setup count_rng 4 true (pmodel_new 2 [1%R] 0%nat) 10 None true) = Err AssertionError.
Proof. cbv zeta. repeat split; try reflexivity; eexists; reflexivity. Qed.
