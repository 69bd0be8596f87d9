(** * Property theorems C25-C31: Metropolis sampling. *)
From Coq Require Import Sorted Permutation.
From Coquelicot Require Import Coquelicot.
From Verif Require Import Prelude Spec PreludeFacts M_Index M_Energy M_Sampler P_Energy P_Energy2 P_Unravel P_Sampler P_Metro P_Cpp P_Cond Props_Energy.
Import ListNotations.
Local Open Scope R_scope.

(** A concrete generator used in the examples. *)
Definition toy_rng : rng nat :=
  Rng nat (fun t lo hi => ((lo + t mod (hi - lo))%nat, S t)) (fun t => (/ 2, S t)).

Lemma toy_rng_ok : rng_ok toy_rng.
Proof.
  split.
  - intros t lo hi H. cbn [toy_rng randint fst]. assert (M := Nat.mod_upper_bound t (hi - lo) ltac:(lia)). lia.
  - intros t. cbn. lra.
Qed.

(** ** C25 *)
(** One update: either the state is unchanged and 0 is returned, or exactly one site
    (the given one, if a site was given) changed and the energy difference is
    returned; spins stay in {-1,1}. *)
Theorem C25_single_update : forall (T : Type) (g : rng T) (calc_e : list Z -> R) (flip_site : option nat)
  (s : list Z) (t : T),
  rng_ok g -> (0 < length s)%nat -> Forall (fun z => z = (-1)%Z \/ z = 1%Z) s ->
  (forall i, flip_site = Some i -> (i < length s)%nat) ->
  let '(s', de, _) := sample_metropolis g calc_e flip_site s (calc_e s) t in
  Forall (fun z => z = (-1)%Z \/ z = 1%Z) s' /\
  ((s' = s /\ de = 0) \/
   exists i, (forall j, flip_site = Some j -> i = j) /\ (i < length s)%nat /\ length s' = length s /\
     nth_error s i <> nth_error s' i /\ (forall j, j <> i -> nth_error s' j = nth_error s j) /\
     de = calc_e s' - calc_e s).
Proof.
  intros T g calc_e fs s t Hg Hn Hs Hf.
  destruct (sample_metropolis g calc_e fs s (calc_e s) t) as [[s' de] t'] eqn:E.
  destruct (sample_metropolis_step g calc_e fs s t s' de t' Hg Hn Hs) as [H1 H2].
  - destruct fs as [i|]; cbn; [now apply Hf|exact I].
  - exact E.
  - split; [exact H2|]. destruct H1 as [H1|[i [H3 [[H4 [H5 [H6 H7]]] H8]]]]; [now left|]. right. exists i.
    repeat split; auto. intros j ->. exact H3.
Qed.
Print Assumptions C25_single_update.

Example C25_example :
  sample_metropolis toy_rng (fun s => IZR (nth 0 s 0%Z)) None [1; 1; -1]%Z 1 3%nat = ([-1; 1; -1]%Z, -1 - 1, 4%nat) /\
  rng_ok toy_rng.
Proof.
  split; [|exact toy_rng_ok]. unfold sample_metropolis. cbn [toy_rng randint length flip upd nth Z.mul Nat.sub Nat.add Nat.modulo].
  cbn. destruct (Rlt_dec 0 (-1 - 1)); [lra|reflexivity].
Qed.

(** Potts: same for states 0,1,2. *)
Theorem C25_single_update_potts : forall (T : Type) (g : rng T) (calc_e : list nat -> R) (flip_site : option nat)
  (s : list nat) (t : T),
  rng_ok g -> (0 < length s)%nat -> Forall (fun x => x < 3)%nat s ->
  (forall i, flip_site = Some i -> (i < length s)%nat) ->
  let '(s', de, _) := potts_sample_metropolis g calc_e flip_site s (calc_e s) t in
  Forall (fun x => x < 3)%nat s' /\
  ((s' = s /\ de = 0) \/
   exists i, (forall j, flip_site = Some j -> i = j) /\ (i < length s)%nat /\ length s' = length s /\
     nth_error s i <> nth_error s' i /\ (forall j, j <> i -> nth_error s' j = nth_error s j) /\
     de = calc_e s' - calc_e s).
Proof.
  intros T g calc_e fs s t Hg Hn Hs Hf.
  destruct (potts_sample_metropolis g calc_e fs s (calc_e s) t) as [[s' de] t'] eqn:E.
  destruct (potts_sample_metropolis_step g calc_e fs s t s' de t' Hg Hn Hs) as [H1 H2].
  - destruct fs as [i|]; cbn; [now apply Hf|exact I].
  - exact E.
  - split; [exact H2|]. destruct H1 as [H1|[i [H3 [[H4 [H5 [H6 H7]]] H8]]]]; [now left|]. right. exists i.
    repeat split; auto. intros j ->. exact H3.
Qed.
Print Assumptions C25_single_update_potts.

Lemma ising_step_ok {T} (g : rng T) calc_e n : rng_ok g -> (0 < n)%nat ->
  forall f s t s' de t', length s = n -> Forall spin s -> site_in n f ->
  sample_metropolis g calc_e f s (calc_e s) t = (s', de, t') ->
  length s' = n /\ Forall spin s' /\ de = calc_e s' - calc_e s.
Proof.
  intros Hg Hn f s t s' de t' Hl Hs Hf E. rewrite <- Hl in Hn, Hf.
  destruct (sample_metropolis_step g calc_e f s t s' de t' Hg Hn Hs Hf E) as [H1 H2].
  destruct H1 as [[-> ->]|[i [_ [[_ [H3 _]] ->]]]].
  - repeat split; auto. ring.
  - repeat split; auto. congruence.
Qed.

Lemma potts_step_ok {T} (g : rng T) calc_e n : rng_ok g -> (0 < n)%nat ->
  forall f s t s' de t', length s = n -> Forall potts3 s -> site_in n f ->
  potts_sample_metropolis g calc_e f s (calc_e s) t = (s', de, t') ->
  length s' = n /\ Forall potts3 s' /\ de = calc_e s' - calc_e s.
Proof.
  intros Hg Hn f s t s' de t' Hl Hs Hf E. rewrite <- Hl in Hn, Hf.
  destruct (potts_sample_metropolis_step g calc_e f s t s' de t' Hg Hn Hs Hf E) as [H1 H2].
  destruct H1 as [[-> ->]|[i [_ [[_ [H3 _]] ->]]]].
  - repeat split; auto. ring.
  - repeat split; auto. congruence.
Qed.

Lemma draw_row_spec {V T} (draw : T -> V * T) (P : V -> Prop) n : (forall t, P (fst (draw t))) ->
  forall t, length (fst (draw_row draw n t)) = n /\ Forall P (fst (draw_row draw n t)).
Proof.
  intros H. induction n as [|n IH]; intros t; cbn; [auto|].
  destruct (draw t) as [v t1] eqn:E. destruct (draw_row draw n t1) as [r t2] eqn:E2.
  specialize (IH t1). rewrite E2 in IH. cbn in *. destruct IH as [<- ?]. split; [reflexivity|].
  constructor; [|assumption]. specialize (H t). now rewrite E in H.
Qed.

Lemma ising_random_row_spec {T} (g : rng T) n : rng_ok g ->
  forall t, length (fst (ising_random_row g n t)) = n /\ Forall spin (fst (ising_random_row g n t)).
Proof.
  intros [Hg _]. apply draw_row_spec. intros t. destruct (randint g t 0 2) as [b t1] eqn:E.
  specialize (Hg t 0%nat 2%nat ltac:(lia)). rewrite E in Hg. cbn in *. unfold spin.
  destruct b as [|[|b]]; [left|right|]; try reflexivity. lia.
Qed.

Lemma potts_random_row_spec {T} (g : rng T) n : rng_ok g ->
  forall t, length (fst (potts_random_row g n t)) = n /\ Forall potts3 (fst (potts_random_row g n t)).
Proof.
  intros [Hg _]. apply draw_row_spec. intros t. specialize (Hg t 0%nat 3%nat ltac:(lia)). unfold potts3. lia.
Qed.

(** The general statement about generate_sample_py, for both samplers. *)
Lemma generate_sample_py_inv {V T} step (random_row : T -> list V * T) calc_e (valid : V -> Prop) n :
  (0 < n)%nat ->
  (forall f s t s' de t', length s = n -> Forall valid s -> site_in n f ->
    step f s (calc_e s) t = (s', de, t') -> length s' = n /\ Forall valid s' /\ de = calc_e s' - calc_e s) ->
  (forall t, length (fst (random_row t)) = n /\ Forall valid (fst (random_row t))) ->
  forall sample_size n_iters burn_in systematic samples initial t r,
  (forall ss, samples = Some ss -> Forall (fun s => length s = n /\ Forall valid s) ss) ->
  (forall ss, initial = Some ss -> Forall (Forall valid) ss) ->
  generate_sample_py step random_row calc_e n sample_size n_iters burn_in systematic samples initial t = Ok r ->
  length (g_sample r) = sample_size /\ g_E r = map calc_e (g_sample r) /\
  Forall (fun s => length s = n /\ Forall valid s) (g_sample r) /\
  length (g_history r) = (sample_size * n_iters + 1)%nat /\ last (g_history r) 1 = 0 /\
  (sample_size <> 0%nat -> g_samples r = [last (g_sample r) []]).
Proof.
  intros Hn step_ok row_ok sample_size n_iters burn_in systematic samples initial t r Hsamp Hinit.
  unfold generate_sample_py. cbv zeta.
  assert (Main : forall s0 t, length s0 = n -> Forall valid s0 ->
    (let '((s1, E1, t1), _) := run step (sites systematic n (burn_in_or burn_in n_iters)) s0 (calc_e s0) t in
     let '((ss, Es), (s2, _, t2), hist) := record step (sites systematic n n_iters) sample_size s1 E1 t1 in
     Ok {| g_sample := ss; g_E := Es; g_samples := [s2]; g_history := hist ++ [0]; g_rng := t2 |}) = Ok r ->
    length (g_sample r) = sample_size /\ g_E r = map calc_e (g_sample r) /\
    Forall (fun s => length s = n /\ Forall valid s) (g_sample r) /\
    length (g_history r) = (sample_size * n_iters + 1)%nat /\ last (g_history r) 1 = 0 /\
    (sample_size <> 0%nat -> g_samples r = [last (g_sample r) []])).
  { intros s0 t0 Hl Hv.
    destruct (run step (sites systematic n (burn_in_or burn_in n_iters)) s0 (calc_e s0) t0) as [[[s1 E1] t1] h1] eqn:R1.
    destruct (run_inv step calc_e valid n step_ok _ (sites_in n systematic _ Hn) _ _ _ _ _ _ Hl Hv R1) as [Hl1 [Hv1 [-> _]]].
    destruct (record step (sites systematic n n_iters) sample_size s1 (calc_e s1) t1) as [[[ss Es] [[s2 E2] t2]] h2] eqn:R2.
    destruct (record_inv step calc_e valid n step_ok _ (sites_in n systematic _ Hn) _ _ _ _ _ _ _ _ _ Hl1 Hv1 R2)
      as [H1 [H2 [H3 [_ [_ [_ [H4 H5]]]]]]].
    intros E. injection E as <-. cbn. repeat split; auto.
    - rewrite app_length, H4, sites_length. reflexivity.
    - apply last_last.
    - intros H0. f_equal. apply H5. intros ->. cbn in H1. congruence. }
  destruct initial as [init|].
  - destruct (Nat.eqb (length init) 1 && forallb (fun r0 => Nat.eqb (length r0) n) init) eqn:C; cbn [bind]; [|discriminate].
    apply andb_true_iff in C. destruct C as [C1 C2]. apply Nat.eqb_eq in C1.
    destruct init as [|s0 [|? ?]]; try discriminate. cbn in C2. rewrite andb_true_r in C2. apply Nat.eqb_eq in C2.
    apply Main; [exact C2|]. specialize (Hinit _ eq_refl). now inversion Hinit.
  - destruct samples as [ss|].
    + destruct (Nat.eqb (length ss) sample_size).
      * cbn [bind]. destruct ss as [|s0 [|? ?]]; try discriminate.
        specialize (Hsamp _ eq_refl). inversion Hsamp as [|? ? [Ha Hb]]; subst. apply Main; auto.
      * destruct (row_ok t) as [Ha Hb]. destruct (random_row t) as [s0 t0]. cbn [bind]. now apply Main.
    + destruct (row_ok t) as [Ha Hb]. destruct (random_row t) as [s0 t0]. cbn [bind]. now apply Main.
Qed.

(** After Metropolis.generate_sample_py: as many samples as asked for, the stored
    energies are the energies of the stored samples, spins are in {-1,1}.  (The saved
    history has one entry more than there are updates; the last one is never written.) *)
Theorem C25_generate_sample : forall (T : Type) (g : rng T) (calc_e : list Z -> R) (n sample_size n_iters : nat)
  (burn_in : option nat) (systematic : bool) (samples initial : option (list (list Z))) (t : T) r,
  rng_ok g -> (0 < n)%nat ->
  (forall ss, samples = Some ss -> Forall (fun s => length s = n /\ Forall (fun z => z = (-1)%Z \/ z = 1%Z) s) ss) ->
  (forall ss, initial = Some ss -> Forall (Forall (fun z => z = (-1)%Z \/ z = 1%Z)) ss) ->
  ising_generate_sample_py g calc_e n sample_size n_iters burn_in systematic samples initial t = Ok r ->
  length (g_sample r) = sample_size /\
  g_E r = map calc_e (g_sample r) /\
  Forall (fun s => length s = n /\ Forall (fun z => z = (-1)%Z \/ z = 1%Z) s) (g_sample r) /\
  length (g_history r) = (sample_size * n_iters + 1)%nat /\ last (g_history r) 1 = 0 /\
  (sample_size <> 0%nat -> g_samples r = [last (g_sample r) []]).
Proof.
  intros T g calc_e n sample_size n_iters burn_in systematic samples initial t r Hg Hn H1 H2 E.
  exact (generate_sample_py_inv (sample_metropolis g calc_e) (ising_random_row g n) calc_e spin n Hn
           (ising_step_ok g calc_e n Hg Hn) (ising_random_row_spec g n Hg) _ _ _ _ _ _ _ _ H1 H2 E).
Qed.
Print Assumptions C25_generate_sample.

Theorem C25_generate_sample_potts : forall (T : Type) (g : rng T) (calc_e : list nat -> R) (n sample_size n_iters : nat)
  (burn_in : option nat) (systematic : bool) (samples initial : option (list (list nat))) (t : T) r,
  rng_ok g -> (0 < n)%nat ->
  (forall ss, samples = Some ss -> Forall (fun s => length s = n /\ Forall (fun x => x < 3)%nat s) ss) ->
  (forall ss, initial = Some ss -> Forall (Forall (fun x => x < 3)%nat) ss) ->
  potts_generate_sample_py g calc_e n sample_size n_iters burn_in systematic samples initial t = Ok r ->
  length (g_sample r) = sample_size /\
  g_E r = map calc_e (g_sample r) /\
  Forall (fun s => length s = n /\ Forall (fun x => x < 3)%nat s) (g_sample r) /\
  length (g_history r) = (sample_size * n_iters + 1)%nat /\ last (g_history r) 1 = 0 /\
  (sample_size <> 0%nat -> g_samples r = [last (g_sample r) []]).
Proof.
  intros T g calc_e n sample_size n_iters burn_in systematic samples initial t r Hg Hn H1 H2 E.
  exact (generate_sample_py_inv (potts_sample_metropolis g calc_e) (potts_random_row g n) calc_e potts3 n Hn
           (potts_step_ok g calc_e n Hg Hn) (potts_random_row_spec g n Hg) _ _ _ _ _ _ _ _ H1 H2 E).
Qed.
Print Assumptions C25_generate_sample_potts.

(** The first call of a new sampler always returns a sample, and so does a call with
    one initial state of the right size; an initial sample of another shape is
    rejected. *)
Theorem C25_first_call_succeeds : forall (T : Type) (g : rng T) (calc_e : list Z -> R) (n sample_size n_iters : nat)
  (burn_in : option nat) (systematic : bool) (samples : option (list (list Z))) (init : list (list Z)) (s0 : list Z) (t : T),
  (exists r, ising_generate_sample_py g calc_e n sample_size n_iters burn_in systematic None None t = Ok r) /\
  (length s0 = n ->
   exists r, ising_generate_sample_py g calc_e n sample_size n_iters burn_in systematic samples (Some [s0]) t = Ok r) /\
  (length init <> 1%nat \/ (exists s, In s init /\ length s <> n) ->
   ising_generate_sample_py g calc_e n sample_size n_iters burn_in systematic samples (Some init) t = Err AssertionError).
Proof.
  intros T g calc_e n sample_size n_iters burn_in systematic samples init s0 t.
  unfold ising_generate_sample_py, generate_sample_py. cbv zeta. split; [|split].
  - destruct (ising_random_row g n t) as [s t1]. cbn [bind].
    destruct (run _ _ s (calc_e s) t1) as [[[s1 E1] t2] h].
    destruct (record _ _ _ s1 E1 t2) as [[[ss Es] [[s2 E2] t3]] h2]. eexists. reflexivity.
  - intros Hl. cbn [length forallb Nat.eqb]. rewrite Hl, Nat.eqb_refl. cbn [andb bind].
    destruct (run _ _ s0 (calc_e s0) t) as [[[s1 E1] t2] h].
    destruct (record _ _ _ s1 E1 t2) as [[[ss Es] [[s2 E2] t3]] h2]. eexists. reflexivity.
  - intros H. replace (Nat.eqb (length init) 1 && forallb (fun r => Nat.eqb (length r) n) init) with false; [reflexivity|].
    symmetry. apply not_true_is_false. intros C. apply andb_true_iff in C. destruct C as [C1 C2].
    apply Nat.eqb_eq in C1. rewrite forallb_forall in C2. destruct H as [H|[s [Hs Hl]]]; [contradiction|].
    specialize (C2 s Hs). apply Nat.eqb_eq in C2. contradiction.
Qed.
Print Assumptions C25_first_call_succeeds.

(** Not every call succeeds: after a parallel run the sampler holds one replica per
    worker, and a following generate_sample_py of exactly that many samples raises. *)
Theorem C25_after_parallel_refuted : forall (T : Type) (g : rng T) (calc_e : list Z -> R) (n n_iters : nat)
  (burn_in : option nat) (systematic : bool) (samples : list (list Z)) (t : T),
  (1 < length samples)%nat ->
  ising_generate_sample_py g calc_e n (length samples) n_iters burn_in systematic (Some samples) None t = Err ValueError.
Proof.
  intros T g calc_e n n_iters burn_in systematic samples t H.
  unfold ising_generate_sample_py, generate_sample_py. rewrite Nat.eqb_refl. cbn [bind].
  destruct samples as [|a [|b l]]; cbn in H; try lia; reflexivity.
Qed.
Print Assumptions C25_after_parallel_refuted.

(** burn_in=0 does not switch the burn in off: it means n_iters updates. *)
Theorem C25_zero_burn_in_refuted : forall (T : Type) (g : rng T) (calc_e : list Z -> R) (n sample_size n_iters : nat)
  (systematic : bool) (samples initial : option (list (list Z))) (t : T),
  ising_generate_sample_py g calc_e n sample_size n_iters (Some 0%nat) systematic samples initial t
  = ising_generate_sample_py g calc_e n sample_size n_iters (Some n_iters) systematic samples initial t.
Proof. intros. destruct n_iters; reflexivity. Qed.
Print Assumptions C25_zero_burn_in_refuted.

Example C25_zero_burn_in_example :
  (* one systematic update is made before the single sample although burn_in=0 *)
  exists r, ising_generate_sample_py toy_rng (fun _ => 0) 2 1 1 (Some 0%nat) true None (Some [[1; 1]%Z]) 0%nat = Ok r /\
            g_sample r = [[1; 1]%Z].
Proof.
  unfold ising_generate_sample_py, generate_sample_py. cbn [length Nat.eqb forallb andb bind burn_in_or].
  change (sites true 2 1) with [Some 0%nat]. cbn [run record]. unfold sample_metropolis.
  destruct (Rlt_dec 0 (0 - 0)); [lra|].
  destruct (Rlt_dec 0 (0 - (0 + (0 - 0)))); [lra|]. eexists. split; reflexivity.
Qed.

(** ** C26 *)
(** Probability that one update at site i leads from s to s', the uniform number being
    uniform on [0,1]. *)
Definition update_prob (calc_e : list Z -> R) (i : nat) (s s' : list Z) : R :=
  RInt (fun u => if state_eq_dec (fst (fst (sample_metropolis (const_rng 0 0 u) calc_e (Some i) s (calc_e s) tt))) s' then 1 else 0) 0 1.

Lemma flip_neq n s i : In s (spin_states n) -> (i < n)%nat -> flip s i <> s.
Proof.
  intros H Hi. apply spin_states_spec in H. destruct H as [Hl Hs]. intros E.
  assert (D := flip_differ s i Hs ltac:(lia)). rewrite E in D. destruct D as [_ [_ [D _]]]. congruence.
Qed.

(** The proposal is accepted with probability min(1,exp(-dE)); otherwise the state
    stays; no other state is reached. *)
Theorem C26_update_probabilities : forall (E : list Z -> R) (n i : nat) (s s' : list Z),
  In s (all_states [-1; 1]%Z n) -> (i < n)%nat ->
  let s1 := upd s i (- nth i s 0)%Z in
  (update_prob E i s s1 = Rmin 1 (exp (- (E s1 - E s)))) /\
  (update_prob E i s s = 1 - Rmin 1 (exp (- (E s1 - E s)))) /\
  (s' <> s -> s' <> s1 -> update_prob E i s s' = 0).
Proof.
  intros E n i s s' Hs Hi. cbv zeta.
  assert (Ef : upd s i (- nth i s 0)%Z = flip s i) by (unfold flip; f_equal; lia). rewrite Ef.
  assert (G : forall x, update_prob E i s x = accept_prob (E (flip s i) - E s) * (if state_eq_dec (flip s i) x then 1 else 0)
            + (1 - accept_prob (E (flip s i) - E s)) * (if state_eq_dec s x then 1 else 0)).
  { intros x. unfold update_prob. apply is_RInt_unique.
    exact (update_average E (Some i) 0 s (fun p => if state_eq_dec (fst p) x then 1 else 0)). }
  assert (N := flip_neq n s i Hs Hi).
  split; [|split].
  - rewrite G. destruct (state_eq_dec (flip s i) (flip s i)); [|congruence].
    destruct (state_eq_dec s (flip s i)); [congruence|]. unfold accept_prob. ring.
  - rewrite G. destruct (state_eq_dec (flip s i) s); [congruence|].
    destruct (state_eq_dec s s); [|congruence]. unfold accept_prob. ring.
  - intros H1 H2. rewrite G. destruct (state_eq_dec (flip s i) s'); [congruence|].
    destruct (state_eq_dec s s'); [congruence|]. ring.
Qed.
Print Assumptions C26_update_probabilities.

(** Detailed balance of the single-site update. *)
Theorem C26_detailed_balance : forall (E : list Z -> R) (n i : nat) (s s' : list Z),
  In s (all_states [-1; 1]%Z n) -> In s' (all_states [-1; 1]%Z n) -> (i < n)%nat ->
  exp (- E s) * update_prob E i s s' = exp (- E s') * update_prob E i s' s.
Proof.
  intros E n i s s' Hs Hs' Hi.
  destruct (state_eq_dec s s') as [->|Hne]; [reflexivity|].
  assert (Ef : forall s, upd s i (- nth i s 0)%Z = flip s i) by (intros; unfold flip; f_equal; lia).
  destruct (C26_update_probabilities E n i s s' Hs Hi) as [P1 [_ P3]].
  destruct (C26_update_probabilities E n i s' s Hs' Hi) as [Q1 [_ Q3]]. rewrite Ef in *.
  destruct (state_eq_dec s' (flip s i)) as [->|Hf].
  - rewrite flip_flip in Q1. rewrite P1, Q1.
    fold (accept_prob (E (flip s i) - E s)). fold (accept_prob (E s - E (flip s i))).
    rewrite !accept_balance. apply Rmin_comm.
  - rewrite P3, Q3; auto; [ring|]. intros ->. apply Hf. now rewrite flip_flip.
Qed.
Print Assumptions C26_detailed_balance.

(** Any sequence of updates (systematic or random sites, any length) started from the
    Boltzmann distribution ends in the Boltzmann distribution. *)
Theorem C26_stationary : forall (E : list Z -> R) (n : nat) (fs : list (option nat)) (F : list Z -> R),
  (0 < n)%nat ->
  let states := all_states [-1; 1]%Z n in
  expectation (boltzmann E states) states (fun s => Erun E n fs F s (E s)) = expectation (boltzmann E states) states F.
Proof.
  intros E n fs F Hn. cbv zeta. unfold expectation, boltzmann.
  rewrite (sumf_ext _ (fun s => exp (- E s) / partition E _ * Erun E n fs F s (E s))
            (fun s => exp (- E s) * Erun E n fs F s (E s) / partition E (all_states [-1; 1]%Z n)))
    by (intros; unfold Rdiv; ring).
  rewrite (sumf_ext _ (fun s => exp (- E s) / partition E _ * F s)
            (fun s => exp (- E s) * F s / partition E (all_states [-1; 1]%Z n)))
    by (intros; unfold Rdiv; ring).
  rewrite !sumf_div. f_equal. exact (run_stationary E n fs F Hn).
Qed.
Print Assumptions C26_stationary.

Theorem C26_stationary_potts : forall (E : list nat -> R) (n : nat) (fs : list (option nat)) (F : list nat -> R),
  (0 < n)%nat ->
  let states := all_states [0; 1; 2]%nat n in
  expectation (boltzmann E states) states (fun s => Erun_potts E n fs F s (E s)) = expectation (boltzmann E states) states F.
Proof.
  intros E n fs F Hn. cbv zeta. unfold expectation, boltzmann.
  rewrite (sumf_ext _ (fun s => exp (- E s) / partition E _ * Erun_potts E n fs F s (E s))
            (fun s => exp (- E s) * Erun_potts E n fs F s (E s) / partition E (all_states [0; 1; 2]%nat n)))
    by (intros; unfold Rdiv; ring).
  rewrite (sumf_ext _ (fun s => exp (- E s) / partition E _ * F s)
            (fun s => exp (- E s) * F s / partition E (all_states [0; 1; 2]%nat n)))
    by (intros; unfold Rdiv; ring).
  rewrite !sumf_div. f_equal. exact (potts_run_stationary E n fs F Hn).
Qed.
Print Assumptions C26_stationary_potts.

(** Random-site updates reach every state from every state with positive probability
    within n updates. *)
Theorem C26_irreducible : forall (E : list Z -> R) (n : nat) (s s' : list Z),
  (0 < n)%nat -> In s (all_states [-1; 1]%Z n) -> In s' (all_states [-1; 1]%Z n) ->
  exists m, (m <= n)%nat /\ 0 < Erun E n (repeat None m) (indic s') s (E s).
Proof.
  intros E n s s' Hn Hs Hs'.
  assert (Hl : length s = n) by (now apply spin_states_spec in Hs).
  exists (length (diff_sites s s')). split; [rewrite <- Hl; apply diff_sites_length|].
  apply (Erun_pos E n (indic s') Hn) with (diff_sites s s').
  - intros x. unfold indic. destruct (state_eq_dec x s'); lra.
  - clear. induction (diff_sites s s') as [|a l IH]; cbn; constructor; auto. exact I.
  - now apply diff_sites_lt.
  - rewrite (flip_to n s s' Hs Hs'). unfold indic. destruct (state_eq_dec s' s'); [lra|congruence].
Qed.
Print Assumptions C26_irreducible.

(** The Boltzmann distribution is the only distribution that a random-site update
    leaves invariant. *)
Theorem C26_unique_stationary : forall (E : list Z -> R) (n : nat) (p : list Z -> R),
  let states := all_states [-1; 1]%Z n in
  (0 < n)%nat -> sumf states p = 1 ->
  (forall F, expectation p states (fun s => Erun E n [None] F s (E s)) = expectation p states F) ->
  forall s, In s states -> p s = boltzmann E states s.
Proof.
  intros E n p states Hn Hp Hst s Hs.
  assert (U := stationary_unique E n p Hn Hst s).
  assert (S1 : sumf states (fun s' => p s * exp (- E s')) = sumf states (fun s' => p s' * exp (- E s))).
  { apply sumf_ext_in. intros s' Hs'. now apply U. }
  rewrite sumf_scal_l, sumf_scal_r, Hp in S1.
  assert (Pos : 0 < partition E states).
  { unfold partition. apply sumf_pos; [|intros; apply exp_pos]. intros H. rewrite H in Hs. destruct Hs. }
  unfold boltzmann. fold (partition E states) in S1. apply (Rmult_eq_reg_r (partition E states)); [|lra].
  rewrite S1. field. lra.
Qed.
Print Assumptions C26_unique_stationary.

Lemma free_run {T} (g : rng T) fs : forall s t,
  fst (fst (fst (run (sample_metropolis g (fun _ => 0)) (map Some fs) s 0 t))) = fold_left flip fs s /\
  snd (fst (fst (run (sample_metropolis g (fun _ => 0)) (map Some fs) s 0 t))) = 0.
Proof.
  induction fs as [|f fs IH]; intros s t; [split; reflexivity|].
  cbn [map run]. unfold sample_metropolis at 1 3. destruct (Rlt_dec 0 (0 - 0)) as [H|_]; [lra|].
  replace (0 + (0 - 0)) with 0 by ring. specialize (IH (flip s f) t).
  destruct (run (sample_metropolis g (fun _ => 0)) (map Some fs) (flip s f) 0 t) as [[[s1 E1] t1] h1].
  exact IH.
Qed.

(** Systematic scans are not irreducible: with all parameters zero and one scan
    between samples, two spins that start equal stay equal for ever, whatever the
    random numbers. *)
Theorem C26_systematic_irreducible_refuted : forall (T : Type) (g : rng T) (sample_size : nat) (t : T) r,
  ising_generate_sample_py g (fun _ => 0) 2 sample_size 2 None true None (Some [[1; 1]%Z]) t = Ok r ->
  ~ In [1; -1]%Z (g_sample r) /\ ~ In [-1; 1]%Z (g_sample r).
Proof.
  intros T g sample_size t r. unfold ising_generate_sample_py, generate_sample_py. cbn [length Nat.eqb forallb andb bind burn_in_or].
  change (sites true 2 2) with (map Some [0; 1]%nat).
  destruct (free_run g [0; 1]%nat [1; 1]%Z t) as [F1 F2].
  destruct (run (sample_metropolis g (fun _ => 0)) (map Some [0; 1]%nat) [1; 1]%Z 0 t) as [[[s1 E1] t1] h1].
  cbn [fst snd] in F1, F2. subst E1.
  assert (Rec : forall m s t, s = [1; 1]%Z \/ s = [-1; -1]%Z ->
     let '((ss, _), _, _) := record (sample_metropolis g (fun _ => 0)) (map Some [0; 1]%nat) m s 0 t in
     Forall (fun s => s = [1; 1]%Z \/ s = [-1; -1]%Z) ss).
  { induction m as [|m IH]; intros s t0 Hs; cbn [record]; [constructor|].
    destruct (free_run g [0; 1]%nat s t0) as [G1 G2].
    destruct (run (sample_metropolis g (fun _ => 0)) (map Some [0; 1]%nat) s 0 t0) as [[[s2 E2] t2] h2].
    cbn [fst snd] in G1, G2. subst E2.
    assert (Hs2 : s2 = [1; 1]%Z \/ s2 = [-1; -1]%Z) by (rewrite G1; destruct Hs as [-> | ->]; [right|left]; reflexivity).
    specialize (IH s2 t2 Hs2).
    destruct (record (sample_metropolis g (fun _ => 0)) (map Some [0; 1]%nat) m s2 0 t2) as [[[ss Es] fin] h3].
    now constructor. }
  specialize (Rec sample_size s1 t1 ltac:(right; rewrite F1; reflexivity)).
  destruct (record (sample_metropolis g (fun _ => 0)) (map Some [0; 1]%nat) sample_size s1 0 t1) as [[[ss Es] [[s2 E2] t2]] h3].
  intros E. injection E as <-. cbn [g_sample]. rewrite Forall_forall in Rec.
  split; intros H; apply Rec in H; destruct H; discriminate.
Qed.
Print Assumptions C26_systematic_irreducible_refuted.

Example C26_example :
  (* two coupled spins: the move that lowers the energy is always accepted *)
  let E := ising_energy 2 [0; 0; 1] in
  update_prob (fun s => E (map IZR s)) 0 [1; -1]%Z [-1; -1]%Z = 1.
Proof.
  cbv zeta. destruct (C26_update_probabilities (fun s => ising_energy 2 [0; 0; 1] (map IZR s)) 2 0 [1; -1]%Z [1; -1]%Z) as [H _].
  - cbn. auto.
  - lia.
  - change (upd [1; -1]%Z 0 (- nth 0 [1; -1] 0)%Z) with [-1; -1]%Z in H. rewrite H. apply Rmin_left. rewrite <- exp_0 at 1. left. apply exp_increasing.
    unfold ising_energy, coupling, nthR, sumf. cbn. lra.
Qed.

(** ** C27 *)
(** C++ and Python energies are the same function. *)
Theorem C27_same_energy : forall (n : nat) (params : list R) (s : list Z) (p : list nat) (params3 : list R),
  (0 < n)%nat ->
  (length s = n -> length params = (n + n * (n - 1) / 2)%nat ->
   cpp_calc_e n params s = ising_calc_e_row (map IZR s) params) /\
  (length p = n -> Forall (fun x => x < 3)%nat p -> length params3 = (3 * n + n * (n - 1) / 2)%nat ->
   cpp_potts_calc_e n params3 p = potts_calc_e_row 3 p params3).
Proof.
  intros n params s p params3 Hn. split.
  - intros Hs Hp. rewrite cpp_calc_e_eq by exact Hn. symmetry. apply C15_ising_energy; [now rewrite map_length | exact Hp].
  - intros Hp H3 Hl. rewrite cpp_potts_calc_e_eq by assumption. symmetry. apply C15_potts_energy; auto.
    now apply Forall_forall.
Qed.
Print Assumptions C27_same_energy.

(** The C++ Ising update makes the same decision and reports the same energy change as
    the Python one on the same site and random numbers. *)
Theorem C27_ising_update : forall (T : Type) (g : rng T) (n : nat) (params : list R) (s : list Z) (i : nat) (t : T),
  (i < n)%nat -> length s = n -> length params = (n + n * (n - 1) / 2)%nat ->
  let calc_e := fun s => ising_calc_e_row (map IZR s) params in
  cpp_sample_metropolis g n params (coupling_mat n n params) s i t
  = sample_metropolis g calc_e (Some i) s (calc_e s) t.
Proof.
  intros T g n params s i t Hi Hs Hp. cbv zeta. rewrite cpp_sample_metropolis_eq by assumption.
  unfold sample_metropolis.
  assert (H : forall s', length s' = n -> cpp_calc_e n params s' = ising_calc_e_row (map IZR s') params).
  { intros s' Hl. rewrite cpp_calc_e_eq by lia. symmetry. apply C15_ising_energy; [now rewrite map_length | exact Hp]. }
  rewrite (H s Hs), (H (flip s i)) by (now rewrite flip_length). reflexivity.
Qed.
Print Assumptions C27_ising_update.

Theorem C27_potts_update : forall (T : Type) (g : rng T) (n : nat) (params : list R) (s : list nat) (i : nat) (t : T),
  rng_ok g -> (i < n)%nat -> length s = n -> Forall (fun x => x < 3)%nat s -> length params = (3 * n + n * (n - 1) / 2)%nat ->
  let calc_e := fun s => potts_calc_e_row 3 s params in
  cpp_potts_sample_metropolis g n params (coupling_mat n (3 * n) params) s i t
  = potts_sample_metropolis g calc_e (Some i) s (calc_e s) t.
Proof.
  intros T g n params s i t Hg Hi Hs H3 Hp. cbv zeta. rewrite cpp_potts_sample_metropolis_eq by assumption.
  unfold potts_sample_metropolis.
  assert (H : forall s', length s' = n -> Forall potts3 s' -> cpp_potts_calc_e n params s' = potts_calc_e_row 3 s' params).
  { intros s' Hl Hv. rewrite cpp_potts_calc_e_eq by (auto; lia). symmetry. apply C15_potts_energy; auto. now apply Forall_forall. }
  destruct (randint g t 1 3) as [r t1].
  rewrite (H s Hs H3), H; [reflexivity|now rewrite upd_length|].
  apply Forall_upd; [exact H3|]. unfold potts3. apply Nat.mod_upper_bound. lia.
Qed.
Print Assumptions C27_potts_update.

(** The energy change of the numba helper is the energy difference, and it accepts and
    rejects as the Python method does (it draws a random number in one more case, dE=0). *)
Theorem C27_jit_update : forall (T : Type) (g : rng T) (n : nat) (params h : list R) (J : list (list R)) (s : list Z) (i : nat) (t : T),
  rng_ok g -> (i < n)%nat -> length s = n -> length params = (n + n * (n - 1) / 2)%nat ->
  h = firstn n params -> length J = n -> (forall r, In r J -> length r = n) ->
  (forall a b, (a < n)%nat -> (b < n)%nat -> entry J a b = if Nat.eqb a b then 0 else coupling n params a b) ->
  let calc_e := fun s => ising_calc_e_row (map IZR s) params in
  fst (jit_sample_metropolis g h J i s t) = fst (sample_metropolis g calc_e (Some i) s (calc_e s) t).
Proof.
  intros T g n params h J s i t Hg Hi Hs Hp Hh HJl HJr HJ. cbv zeta. unfold jit_sample_metropolis, sample_metropolis.
  assert (H : forall s', length s' = n -> ising_calc_e_row (map IZR s') params = ising_energy n params (map IZR s')).
  { intros s' Hl. apply C15_ising_energy; [now rewrite map_length | exact Hp]. }
  rewrite (H s Hs), (H (flip s i)) by (now rewrite flip_length).
  assert (D := jit_de_eq n params h J s i Hi Hs (conj HJl HJr)).
  rewrite D; clear D.
  - set (de := ising_energy n params (map IZR (flip s i)) - ising_energy n params (map IZR s)).
    destruct (Rlt_dec de 0) as [H1|H1]; destruct (Rlt_dec 0 de) as [H2|H2]; try lra; try reflexivity.
    assert (E : de = 0) by lra. destruct Hg as [_ Hg]. specialize (Hg t). destruct (rand g t) as [u t1]. cbn in Hg.
      destruct (Rlt_dec (exp (- de)) u) as [H3|]; [|reflexivity]. rewrite E, Ropp_0, exp_0 in H3. lra.
  - subst h. rewrite firstn_length. lia.
  - intros k Hk. subst h. now apply nthR_firstn.
  - intros a b Ha Hb. rewrite HJ by assumption. reflexivity.
Qed.
Print Assumptions C27_jit_update.

Lemma pick_all_ok {T} (g : rng T) systematic n : rng_ok g -> (0 < n)%nat ->
  forall c t, (fst (pick_all g systematic n c t) < n)%nat.
Proof.
  intros [Hg _] Hn c t. unfold pick_all. destruct systematic; cbn.
  - apply Nat.mod_upper_bound. lia.
  - now apply (Hg t 0%nat n Hn).
Qed.

(** The running energy of the C++ samplers is the energy of the current state at all
    times; all rows are valid states and there are n_samples of them. *)
Theorem C27_running_energy : forall (T : Type) (g : rng T) (n : nat) (params : list R) (n_samples burn_in n_iters : nat)
  (systematic : bool) (s0 : list Z) (t : T),
  rng_ok g -> (0 < n)%nat -> length s0 = n -> Forall (fun z => z = (-1)%Z \/ z = 1%Z) s0 ->
  length params = (n + n * (n - 1) / 2)%nat ->
  let '(rows, (s, e, _)) :=
    cpp_generate_sample g (cpp_sample_metropolis g n params (coupling_mat n n params)) (cpp_calc_e n params)
      n n_samples burn_in n_iters systematic s0 t in
  e = ising_energy n params (map IZR s) /\ length rows = n_samples /\
  Forall (fun r => length r = n /\ Forall (fun z => z = (-1)%Z \/ z = 1%Z) r) rows.
Proof.
  intros T g n params n_samples burn_in n_iters systematic s0 t Hg Hn Hl Hs Hp.
  unfold cpp_generate_sample.
  set (step := cpp_sample_metropolis g n params (coupling_mat n n params)).
  set (valid := fun s : list Z => length s = n /\ Forall spin s).
  assert (Hstep : forall s i t s' de t', valid s -> (i < n)%nat -> step s i t = (s', de, t') ->
     valid s' /\ de = cpp_calc_e n params s' - cpp_calc_e n params s).
  { intros s i t0 s' de t' [Hls Hss] Hi E. unfold step in E. rewrite cpp_sample_metropolis_eq in E by assumption.
    destruct (ising_step_ok g (cpp_calc_e n params) n Hg Hn (Some i) s t0 s' de t' Hls Hss Hi E) as [? [? ?]].
    split; [split|]; assumption. }
  destruct (cpp_run step (pick_all g systematic n) burn_in 0 s0 (cpp_calc_e n params s0) t) as [[[s1 e1] t1] c1] eqn:R1.
  destruct (cpp_run_inv step (cpp_calc_e n params) valid (fun i => (i < n)%nat) (pick_all g systematic n)
              (pick_all_ok g systematic n Hg Hn) Hstep _ _ _ _ _ _ _ _ (conj Hl Hs) R1) as [Hv1 ->].
  destruct (cpp_record step (pick_all g systematic n) n_iters n_samples c1 s1 (cpp_calc_e n params s1) t1) as [rows [[s2 e2] t2]] eqn:R2.
  destruct (cpp_record_inv step (cpp_calc_e n params) valid (fun i => (i < n)%nat) (pick_all g systematic n)
              (pick_all_ok g systematic n Hg Hn) Hstep _ _ _ _ _ _ _ _ _ Hv1 R2) as [H1 [H2 [H3 ->]]].
  split; [|split]; auto. now apply cpp_calc_e_eq.
Qed.
Print Assumptions C27_running_energy.

Theorem C27_running_energy_potts : forall (T : Type) (g : rng T) (n : nat) (params : list R) (n_samples burn_in n_iters : nat)
  (systematic : bool) (s0 : list nat) (t : T),
  rng_ok g -> (0 < n)%nat -> length s0 = n -> Forall (fun x => x < 3)%nat s0 ->
  length params = (3 * n + n * (n - 1) / 2)%nat ->
  let '(rows, (s, e, _)) :=
    cpp_generate_sample g (cpp_potts_sample_metropolis g n params (coupling_mat n (3 * n) params)) (cpp_potts_calc_e n params)
      n n_samples burn_in n_iters systematic s0 t in
  e = potts_energy n 3 params s /\ length rows = n_samples /\
  Forall (fun r => length r = n /\ Forall (fun x => x < 3)%nat r) rows.
Proof.
  intros T g n params n_samples burn_in n_iters systematic s0 t Hg Hn Hl Hs Hp.
  unfold cpp_generate_sample.
  set (step := cpp_potts_sample_metropolis g n params (coupling_mat n (3 * n) params)).
  set (valid := fun s : list nat => length s = n /\ Forall potts3 s).
  assert (Hstep : forall s i t s' de t', valid s -> (i < n)%nat -> step s i t = (s', de, t') ->
     valid s' /\ de = cpp_potts_calc_e n params s' - cpp_potts_calc_e n params s).
  { intros s i t0 s' de t' [Hls Hss] Hi E. unfold step in E. rewrite cpp_potts_sample_metropolis_eq in E by assumption.
    destruct (potts_step_ok g (cpp_potts_calc_e n params) n Hg Hn (Some i) s t0 s' de t' Hls Hss Hi E) as [? [? ?]].
    split; [split|]; assumption. }
  destruct (cpp_run step (pick_all g systematic n) burn_in 0 s0 (cpp_potts_calc_e n params s0) t) as [[[s1 e1] t1] c1] eqn:R1.
  destruct (cpp_run_inv step (cpp_potts_calc_e n params) valid (fun i => (i < n)%nat) (pick_all g systematic n)
              (pick_all_ok g systematic n Hg Hn) Hstep _ _ _ _ _ _ _ _ (conj Hl Hs) R1) as [Hv1 ->].
  destruct (cpp_record step (pick_all g systematic n) n_iters n_samples c1 s1 (cpp_potts_calc_e n params s1) t1) as [rows [[s2 e2] t2]] eqn:R2.
  destruct (cpp_record_inv step (cpp_potts_calc_e n params) valid (fun i => (i < n)%nat) (pick_all g systematic n)
              (pick_all_ok g systematic n Hg Hn) Hstep _ _ _ _ _ _ _ _ _ Hv1 R2) as [H1 [H2 [H3 ->]]].
  split; [|split]; auto. destruct H3. now apply cpp_potts_calc_e_eq.
Qed.
Print Assumptions C27_running_energy_potts.

(** readin_multipliers, which Python can call, leaves the coupling matrix of the old
    parameters behind: the reported energy change is then wrong. *)
Theorem C62_readin_multipliers_refuted :
  exists (n : nat) (old new : list R) (s : list Z) (i : nat),
    let o := cpp_readin_multipliers (cpp_ising_new n old) new in
    let '(s', de, _) := cpp_sample_metropolis toy_rng n (cpp_multipliers o) (cpp_couplings o) s i 0%nat in
    s' <> s /\ de <> cpp_calc_e n new s' - cpp_calc_e n new s.
Proof.
  exists 2%nat, [0; 0; 0], [0; 0; 1], [1; -1]%Z, 0%nat. cbv zeta.
  unfold cpp_sample_metropolis, cpp_readin_multipliers, cpp_ising_new. cbn [cpp_multipliers cpp_couplings].
  assert (E : forall a b, (a < 2)%nat -> (b < 2)%nat -> entry (coupling_mat 2 2 [0; 0; 0]) a b = 0).
  { intros a b Ha Hb. rewrite coupling_mat_entry by assumption. destruct (Nat.eqb a b); [reflexivity|].
    unfold nthR. destruct (pair_index 2 (Nat.min a b) (Nat.max a b) + 2)%nat as [|[|[|k]]]; cbn; try reflexivity. destruct k; reflexivity. }
  cbn [range seq fold_left]. rewrite !E by lia.
  assert (Z0 : nthR [0; 0; 1] 0 = 0) by reflexivity. rewrite Z0.
  destruct (Rlt_dec 0 _) as [H|H]; [exfalso; revert H; cbn; lra|].
  split; [discriminate|]. rewrite !cpp_calc_e_eq by lia. unfold ising_energy, coupling, nthR, sumf. cbn. lra.
Qed.
Print Assumptions C62_readin_multipliers_refuted.

Example C27_example :
  (* three spins, all parameters different *)
  cpp_calc_e 3 [1; 2; 3; 4; 5; 6] [1; -1; 1]%Z = -1 + 2 - 3 + 4 - 5 + 6.
Proof. unfold cpp_calc_e, nthR. cbn. lra. Qed.

(** ** C28 *)
Lemma all_spins_check fixed :
  forallb (fun x : nat * Z => Z.eqb (snd x) (-1) || Z.eqb (snd x) 1) fixed = true <-> Forall (fun p => spin (snd p)) fixed.
Proof.
  rewrite forallb_forall, Forall_forall. unfold spin.
  split; intros H x Hx; specialize (H x Hx).
  - apply orb_true_iff in H. rewrite !Z.eqb_eq in H. exact H.
  - apply orb_true_iff. now rewrite !Z.eqb_eq.
Qed.

(** For every sorted set of fixed spins with at least one free spin, every returned row
    is a state of -1/1 spins that carries the fixed values at the fixed sites, and the
    i-th reported energy is the energy of the i-th row. *)
Theorem C28_cond_sample : forall (T : Type) (g : rng T) (calc_e : list Z -> R) (n sample_size : nat)
  (fixed : list (nat * Z)) (burn_in n_iters : nat) (systematic : bool) (t : T),
  rng_ok g -> (0 < sample_size)%nat ->
  StronglySorted lt (map fst fixed) -> (forall i, In i (map fst fixed) -> (i < n)%nat) ->
  (forall v, In v (map snd fixed) -> v = (-1)%Z \/ v = 1%Z) ->
  fixed <> [] -> (length fixed < n)%nat ->
  exists rows Es t',
    generate_cond_sample_py g calc_e n sample_size fixed burn_in n_iters systematic t = Ok (rows, Es, t') /\
    length rows = sample_size /\ Es = map calc_e rows /\
    (forall row, In row rows -> length row = n /\
       Forall (fun z => z = (-1)%Z \/ z = 1%Z) row /\
       forall i v, In (i, v) fixed -> nth_error row i = Some v).
Proof.
  intros T g calc_e n sample_size fixed burn_in n_iters systematic t Hg Hm Hsort Hb Hv Hne Hlt.
  assert (Hok : fixed_ok n fixed) by (split; [exact Hsort | now apply Forall_forall]).
  assert (Hspin : Forall (fun p => spin (snd p)) fixed).
  { apply Forall_forall. intros [i v] Hin. apply Hv. apply in_map_iff. now exists (i, v). }
  unfold generate_cond_sample_py. destruct fixed as [|p f] eqn:Ef; [congruence|]. rewrite <- Ef in *. clear p f Ef Hne.
  replace (strictly_increasing (map fst fixed)) with true by (symmetry; now apply strictly_increasing_spec).
  replace (forallb (fun x : nat * Z => Z.eqb (snd x) (-1) || Z.eqb (snd x) 1) fixed) with true by (symmetry; now apply all_spins_check).
  cbn [negb]. set (k := (n - length fixed)%nat).
  set (ce := fun state => match cond_fullstate n fixed state with Ok full => calc_e full | Err _ => 0 end).
  destruct (ising_random_row_spec g k Hg t) as [Hl0 Hs0].
  destruct (ising_random_row g k t) as [s0 t0]. cbn [fst] in Hl0, Hs0.
  assert (HF := cond_fullstate_eq n fixed s0 Hok Hl0). rewrite HF. cbn [bind].
  replace (calc_e (complete fixed 0 s0)) with (ce s0) by (unfold ce; now rewrite HF).
  assert (Hk : (0 < k)%nat) by (unfold k; lia).
  destruct (run (sample_metropolis g ce) (sites systematic k burn_in) s0 (ce s0) t0) as [[[s1 E1] t1] h1] eqn:R1.
  destruct (run_inv _ ce spin k (ising_step_ok g ce k Hg Hk) _ (sites_in k systematic _ Hk) _ _ _ _ _ _ Hl0 Hs0 R1) as [Hl1 [Hv1 [-> _]]].
  destruct (record (sample_metropolis g ce) (sites systematic k n_iters) sample_size s1 (ce s1) t1) as [[[ss Es] [[s2 E2] t2]] h2] eqn:R2.
  destruct (record_inv _ ce spin k (ising_step_ok g ce k Hg Hk) _ (sites_in k systematic _ Hk) _ _ _ _ _ _ _ _ _ Hl1 Hv1 R2)
    as [H1 [H2 [H3 _]]].
  assert (Hrows : Forall (fun row => length row = (n - length fixed)%nat) ss) by (eapply Forall_impl; [|exact H3]; cbn; intros a [Ha _]; exact Ha).
  assert (I := insert_reshape n fixed ss Hok Hlt Hrows). rewrite H1 in I. fold k in I.
  destruct (insert_fixed k 0 fixed (concat ss)) as [flat|e] eqn:EI; cbn [bind] in I |- *; [|discriminate].
  rewrite I. cbn [bind].
  assert (HE : Es = map calc_e (map (complete fixed 0) ss)).
  { rewrite H2, map_map. apply map_ext_in. intros s Hs. rewrite Forall_forall in H3. destruct (H3 s Hs) as [Ha _].
    unfold ce. now rewrite (cond_fullstate_eq n fixed s Hok Ha). }
  destruct Es as [|e0 Es']. { destruct ss; [cbn in H1; lia|discriminate HE]. }
  exists (map (complete fixed 0) ss), (e0 :: Es'), t2. split; [reflexivity|].
  split; [now rewrite map_length|]. split; [exact HE|].
  intros row Hrow. apply in_map_iff in Hrow. destruct Hrow as [st [<- Hst]]. rewrite Forall_forall in H3.
  destruct (H3 st Hst) as [Ha Hb']. destruct (complete_completes n fixed st Hok Ha) as [C1 [C2 _]].
  split; [exact C1|]. split; [now apply complete_spins | exact C2].
Qed.
Print Assumptions C28_cond_sample.

(** The free spins of a row are the sampled ones, in order: putting any free state
    through the re-insertion and reading the free sites gives it back. *)
Theorem C28_free_spins_in_order : forall (n : nat) (fixed : list (nat * Z)) (rows : list (list Z)),
  StronglySorted lt (map fst fixed) -> (forall i, In i (map fst fixed) -> (i < n)%nat) -> (length fixed < n)%nat ->
  Forall (fun row => length row = (n - length fixed)%nat) rows ->
  exists out, bind (insert_fixed (n - length fixed) 0 fixed (concat rows)) (reshape (length rows) n) = Ok out /\
    Forall2 (fun row full => length full = n /\
       (forall i v, In (i, v) fixed -> nth_error full i = Some v) /\
       map (fun i => nth i full 0%Z) (filter (fun i => negb (existsb (Nat.eqb i) (map fst fixed))) (seq 0 n)) = row) rows out.
Proof.
  intros n fixed rows Hs Hb Hlt Hr.
  assert (Hok : fixed_ok n fixed) by (split; [exact Hs | now apply Forall_forall]).
  exists (map (complete fixed 0) rows). split; [now apply insert_reshape|].
  clear Hlt. induction Hr as [|row rows Hrow Hrows IH]; cbn; constructor; [|exact IH].
  exact (complete_completes n fixed row Hok Hrow).
Qed.
Print Assumptions C28_free_spins_in_order.

(** What is rejected: unsorted indices, values other than -1 and 1, no fixed spin at
    all, no free spin. *)
Theorem C28_bad_arguments_raise : forall (T : Type) (g : rng T) (calc_e : list Z -> R) (n sample_size : nat)
  (fixed : list (nat * Z)) (burn_in n_iters : nat) (systematic : bool) (t : T),
  (fixed <> [] -> ~ StronglySorted lt (map fst fixed) ->
   generate_cond_sample_py g calc_e n sample_size fixed burn_in n_iters systematic t = Err AssertionError) /\
  (StronglySorted lt (map fst fixed) -> (exists v, In v (map snd fixed) /\ v <> (-1)%Z /\ v <> 1%Z) ->
   generate_cond_sample_py g calc_e n sample_size fixed burn_in n_iters systematic t = Err AssertionError) /\
  generate_cond_sample_py g calc_e n sample_size [] burn_in n_iters systematic t = Err IndexError.
Proof.
  intros T g calc_e n sample_size fixed burn_in n_iters systematic t. unfold generate_cond_sample_py.
  split; [|split; [|reflexivity]].
  - intros Hne Hs. destruct fixed as [|p f]; [congruence|].
    replace (strictly_increasing (map fst (p :: f))) with false; [reflexivity|].
    symmetry. apply not_true_is_false. intros H. apply Hs. now apply strictly_increasing_spec.
  - intros Hs [v [Hv [Hv1 Hv2]]]. destruct fixed as [|p f]; [destruct Hv|].
    replace (strictly_increasing (map fst (p :: f))) with true by (symmetry; now apply strictly_increasing_spec).
    replace (forallb (fun x : nat * Z => Z.eqb (snd x) (-1) || Z.eqb (snd x) 1) (p :: f)) with false; [reflexivity|].
    symmetry. apply not_true_is_false. intros H. rewrite forallb_forall in H. apply in_map_iff in Hv.
    destruct Hv as [q [<- Hq]]. specialize (H q Hq). apply orb_true_iff in H. rewrite !Z.eqb_eq in H. tauto.
Qed.
Print Assumptions C28_bad_arguments_raise.

Example C28_example :
  bind (insert_fixed 2 0 [(0%nat, 1%Z); (3%nat, (-1)%Z)] (concat [[5; 6]; [7; 8]; [9; 10]]%Z)) (reshape 3 4)
  = Ok [[1; 5; 6; -1]; [1; 7; 8; -1]; [1; 9; 10; -1]]%Z.
Proof. reflexivity. Qed.

(** ** C29 *)
Lemma fold_upd_get (l : list (nat * Z)) : forall (s : list Z), NoDup (map fst l) -> (forall i, In i (map fst l) -> (i < length s)%nat) ->
  forall i v, In (i, v) l -> nth_error (fold_left (fun s p => upd s (fst p) (snd p)) l s) i = Some v.
Proof.
  assert (Other : forall (l : list (nat * Z)) (s : list Z) i, ~ In i (map fst l) -> nth_error (fold_left (fun s p => upd s (fst p) (snd p)) l s) i = nth_error s i).
  { clear l. intros l. induction l as [|[j w] l IH]; intros s i Hi; [reflexivity|]. cbn in *. rewrite IH by tauto. apply nth_error_upd_other. tauto. }
  induction l as [|[j w] l IH]; intros s Hnd Hlt i v Hin; [destruct Hin|].
  cbn in *. inversion Hnd; subst. destruct Hin as [E|Hin].
  - injection E as -> ->. rewrite Other by assumption. apply nth_error_upd_same. apply Hlt. now left.
  - apply IH; auto. intros k Hk. rewrite upd_length. apply Hlt. now right.
Qed.

Lemma fold_upd_spins (l : list (nat * Z)) : forall s, Forall spin s -> Forall (fun p => spin (snd p)) l ->
  Forall spin (fold_left (fun s p => upd s (fst p) (snd p)) l s) /\ length (fold_left (fun s p => upd s (fst p) (snd p)) l s) = length s.
Proof.
  induction l as [|p l IH]; intros s Hs Hl; [split; [exact Hs|reflexivity]|]. cbn. inversion Hl; subst.
  destruct (IH (upd s (fst p) (snd p))) as [H3 H4]; [now apply Forall_upd | assumption |]. rewrite upd_length in H4. auto.
Qed.

Lemma sorted_NoDup l : StronglySorted lt l -> NoDup l.
Proof.
  induction 1 as [|x l Hl IH Hx]; constructor; auto. intros Hin. rewrite Forall_forall in Hx. specialize (Hx x Hin). lia.
Qed.

(** The sites that the C++ conditional sampler may propose are exactly the free ones. *)
Theorem C29_proposals : forall (T : Type) (g : rng T) (n : nat) (ix : list nat) (systematic : bool),
  rng_ok g -> StronglySorted lt ix -> (forall i, In i ix -> (i < n)%nat) -> (length ix < n)%nat ->
  let non_ix := non_ix_loop (range n) ix 0 in
  (forall counter t, let i := fst (pick_free g systematic n ix non_ix counter t) in (i < n)%nat /\ ~ In i ix) /\
  (forall i, (i < n)%nat -> ~ In i ix -> exists counter t0, forall t, (counter < n - length ix)%nat /\
      fst (pick_free g true n ix non_ix counter t) = i /\
      fst (pick_free (Rng T (fun t _ _ => (t0, t)) (rand g)) false n ix non_ix counter t) = i).
Proof.
  intros T g n ix systematic Hg Hs Hb Hlt. cbv zeta.
  destruct (non_ix_spec n ix Hs) as [H1 [H2 _]]; [now apply Forall_forall|].
  set (non_ix := non_ix_loop (range n) ix 0) in *. split.
  - intros c t. unfold pick_free. destruct systematic.
    + cbn [fst]. apply H1. apply nth_In. rewrite H2. apply Nat.mod_upper_bound. lia.
    + destruct (randint g t 0 (n - 1 - length ix + 1)) as [r t1] eqn:E.
      destruct Hg as [Hg _]. specialize (Hg t 0%nat (n - 1 - length ix + 1)%nat ltac:(lia)). rewrite E in Hg. cbn [fst] in *.
      apply H1. apply nth_In. rewrite H2. lia.
  - intros i Hi Hni. assert (Hin : In i non_ix) by (now apply H1).
    destruct (In_nth _ _ 0%nat Hin) as [k [Hk Ek]]. exists k, k. intros t. rewrite H2 in Hk.
    split; [exact Hk|]. unfold pick_free. cbn [fst randint]. rewrite Nat.mod_small by exact Hk. auto.
Qed.
Print Assumptions C29_proposals.

(** Every row returned by generate_cond_sample_boost carries the fixed values; there
    are sample_size rows of -1/1 spins. *)
Theorem C29_cond_sample_boost : forall (T : Type) (g : rng T) (mkrng : nat -> T) (n : nat) (params : list R) (sample_size : nat)
  (fixed : list (nat * Z)) (burn_in : option nat) (n_iters : nat) (systematic parallel : bool) (seeds : list nat),
  rng_ok g -> (0 < sample_size)%nat -> (0 < length seeds)%nat ->
  length params = (n + n * (n - 1) / 2)%nat ->
  StronglySorted lt (map fst fixed) -> (forall i, In i (map fst fixed) -> (i < n)%nat) ->
  (forall v, In v (map snd fixed) -> v = (-1)%Z \/ v = 1%Z) ->
  fixed <> [] -> (length fixed < n)%nat ->
  exists rows, generate_cond_sample_boost g mkrng n params sample_size fixed burn_in n_iters systematic parallel seeds = Ok rows /\
    length rows = sample_size /\
    forall row, In row rows -> length row = n /\ Forall (fun z => z = (-1)%Z \/ z = 1%Z) row /\
      forall i v, In (i, v) fixed -> nth_error row i = Some v.
Proof.
  intros T g mkrng n params sample_size fixed burn_in n_iters systematic parallel seeds Hg Hm Hseeds Hp Hsort Hb Hv Hne Hlt.
  unfold generate_cond_sample_boost. destruct sample_size as [|m0]; [lia|]. destruct fixed as [|p f] eqn:Ef; [congruence|].
  rewrite <- Ef in *. clear p f Ef.
  set (good := fun row : list Z => length row = n /\ Forall spin row /\ forall i v, In (i, v) fixed -> nth_error row i = Some v).
  assert (Hspin : Forall (fun p => spin (snd p)) fixed).
  { apply Forall_forall. intros [i v] Hin. apply Hv. apply in_map_iff. now exists (i, v). }
  assert (One : forall m b t, length (boost_ising_cond_sample g n params (map fst fixed) (map snd fixed) m b n_iters systematic t) = m /\
                Forall good (boost_ising_cond_sample g n params (map fst fixed) (map snd fixed) m b n_iters systematic t)).
  { intros m b t. unfold boost_ising_cond_sample.
    assert (Hrow : forall t, length (fst (cpp_ising_init g n t)) = n /\ Forall spin (fst (cpp_ising_init g n t))).
    { apply draw_row_spec. intros t0. destruct (randint g t0 0 2) as [b0 t1]. cbn. unfold spin. destruct (Nat.eqb b0 0); auto. }
    specialize (Hrow t). destruct (cpp_ising_init g n t) as [s0 t0]. cbn [fst] in Hrow. destruct Hrow as [Hl0 Hs0].
    unfold cpp_generate_cond_sample.
    set (non_ix := non_ix_loop (range n) (map fst fixed) 0).
    set (s := fold_left (fun s p => upd s (fst p) (snd p)) (combine (map fst fixed) (map snd fixed)) s0).
    assert (Hcomb : combine (map fst fixed) (map snd fixed) = fixed).
    { clear. induction fixed as [|[a b] l IH]; cbn; [reflexivity|]. now rewrite IH. }
    assert (Hgood : good s).
    { unfold s. rewrite Hcomb. destruct (fold_upd_spins fixed s0 Hs0 Hspin) as [Ha Hb'].
      split; [congruence|]. split; [exact Ha|]. apply fold_upd_get; [now apply sorted_NoDup|]. intros i Hi. rewrite Hl0. now apply Hb. }
    set (pick := pick_free g systematic n (map fst fixed) non_ix).
    set (site_ok := fun i => (i < n)%nat /\ ~ In i (map fst fixed)).
    assert (Hpick : forall c t, site_ok (fst (pick c t))).
    { intros c t1. destruct (C29_proposals T g n (map fst fixed) systematic Hg Hsort Hb) as [HP _]; [now rewrite map_length|]. apply HP. }
    set (step := cpp_sample_metropolis g n params (coupling_mat n n params)).
    assert (Hn : (0 < n)%nat) by lia.
    assert (Hstep : forall s i t s' de t', good s -> site_ok i -> step s i t = (s', de, t') ->
       good s' /\ de = cpp_calc_e n params s' - cpp_calc_e n params s).
    { intros s1 i t1 s1' de t1' [Hls [Hss Hfx]] [Hi Hni] E. unfold step in E. rewrite cpp_sample_metropolis_eq in E by assumption.
      assert (Hin : site_in (length s1) (Some i)) by (cbn; lia).
      destruct (sample_metropolis_step g (cpp_calc_e n params) (Some i) s1 t1 s1' de t1' Hg ltac:(lia) Hss Hin E) as [[[-> ->]|[j [Hj [[_ [D2 [_ D4]]] ->]]]] Hsp].
      - split; [split; auto|ring].
      - split; [|reflexivity]. split; [congruence|]. split; [exact Hsp|]. intros k v Hk. rewrite D4; [now apply Hfx|].
        cbn in Hj. subst j. intros ->. apply Hni. apply in_map_iff. exists (i, v). auto. }
    destruct (cpp_run step pick b 0 s (cpp_calc_e n params s) t0) as [[[s1 e1] t1] c1] eqn:R1.
    destruct (cpp_run_inv step (cpp_calc_e n params) good site_ok pick Hpick Hstep _ _ _ _ _ _ _ _ Hgood R1) as [Hv1 ->].
    destruct (cpp_record step pick n_iters m c1 s1 (cpp_calc_e n params s1) t1) as [rows [[s2 e2] t2]] eqn:R2.
    destruct (cpp_record_inv step (cpp_calc_e n params) good site_ok pick Hpick Hstep _ _ _ _ _ _ _ _ _ Hv1 R2) as [Q1 [Q2 _]].
    auto. }
  replace (strictly_increasing (map fst fixed)) with true by (symmetry; now apply strictly_increasing_spec).
  replace (forallb (fun x : nat * Z => Z.eqb (snd x) (-1) || Z.eqb (snd x) 1) fixed) with true by (symmetry; now apply all_spins_check).
  cbn [negb]. set (bi := burn_in_or burn_in n_iters). destruct parallel.
  - set (q := ceil_div (S m0) (length seeds)). eexists. split; [reflexivity|]. split.
    + rewrite firstn_length. apply Nat.min_l.
      assert (HL : length (concat (map (fun seed => boost_ising_cond_sample g n params (map fst fixed) (map snd fixed) q bi n_iters systematic (mkrng seed)) seeds)) = (length seeds * q)%nat).
      { clearbody q. clear -One. induction seeds as [|a l IH]; cbn; [reflexivity|]. rewrite app_length, IH. destruct (One q bi (mkrng a)) as [-> _]. reflexivity. }
      rewrite HL. unfold q, ceil_div.
      assert (D := Nat.div_mod (S m0 + length seeds - 1) (length seeds) ltac:(lia)).
      assert (M := Nat.mod_upper_bound (S m0 + length seeds - 1) (length seeds) ltac:(lia)). nia.
    + intros row Hrow. assert (Hin : forall k (l : list (list Z)) x, In x (firstn k l) -> In x l).
      { clear. induction k as [|k IH]; intros [|a l] x; cbn; try tauto. intros [->|H]; [now left|right; now apply IH]. }
      apply Hin in Hrow. apply in_concat in Hrow. destruct Hrow as [l [Hl Hr]]. apply in_map_iff in Hl. destruct Hl as [seed [<- _]].
      destruct (One q bi (mkrng seed)) as [_ HF]. rewrite Forall_forall in HF. now apply HF.
  - eexists. split; [reflexivity|]. destruct (One (S m0) bi (mkrng (nth 0 seeds 0%nat))) as [HL HF]. split; [exact HL|].
    rewrite Forall_forall in HF. exact HF.
Qed.
Print Assumptions C29_cond_sample_boost.

(** What generate_cond_sample_boost refuses, for every generator and model: an empty sample,
    sites that are not given in increasing order, values other than -1 and 1 (AssertionError),
    and an empty list of fixed spins (IndexError). *)
Theorem C29_cond_sample_boost_refused : forall (T : Type) (g : rng T) (mkrng : nat -> T) (n : nat) (params : list R) (sample_size : nat)
  (fixed : list (nat * Z)) (burn_in : option nat) (n_iters : nat) (systematic parallel : bool) (seeds : list nat),
  (sample_size = 0%nat ->
     generate_cond_sample_boost g mkrng n params sample_size fixed burn_in n_iters systematic parallel seeds = Err AssertionError) /\
  ((0 < sample_size)%nat -> fixed = [] ->
     generate_cond_sample_boost g mkrng n params sample_size fixed burn_in n_iters systematic parallel seeds = Err IndexError) /\
  (fixed <> [] -> (~ StronglySorted lt (map fst fixed) \/ exists v, In v (map snd fixed) /\ v <> (-1)%Z /\ v <> 1%Z) ->
     generate_cond_sample_boost g mkrng n params sample_size fixed burn_in n_iters systematic parallel seeds = Err AssertionError).
Proof.
  intros T g mkrng n params m fixed burn_in n_iters systematic parallel seeds. unfold generate_cond_sample_boost.
  split; [intros ->; reflexivity|]. split; [intros Hm ->; destruct m; [lia|reflexivity]|].
  intros Hne H. destruct m as [|m]; [reflexivity|]. destruct fixed as [|p f]; [congruence|].
  destruct (strictly_increasing (map fst (p :: f))) eqn:E1; [|reflexivity]. cbn [negb].
  apply strictly_increasing_spec in E1. destruct H as [H|(v & Hv & V1 & V2)]; [contradiction|].
  replace (forallb (fun x : nat * Z => Z.eqb (snd x) (-1) || Z.eqb (snd x) 1) (p :: f)) with false; [reflexivity|].
  symmetry. apply Bool.not_true_iff_false. intros F. rewrite forallb_forall in F.
  apply in_map_iff in Hv. destruct Hv as ([i w] & E & Hin). cbn in E. subst w. specialize (F _ Hin). cbn in F.
  apply Bool.orb_true_iff in F. destruct F as [F|F]; apply Z.eqb_eq in F; contradiction.
Qed.
Print Assumptions C29_cond_sample_boost_refused.

Example C29_example : non_ix_loop (range 5) [1; 3]%nat 0 = [0; 2; 4]%nat.
Proof. reflexivity. Qed.

(** ** C30 *)
(** The state that should be evaluated. *)
Definition flatten_fixed (fixed : list (nat * Z)) : list Z := flat_map (fun p => [Z.of_nat (fst p); snd p]) fixed.

(** Values are read from the wrong slot: with spins 1 and 2 fixed at -1 and 1, site 1
    gets the value 2. *)
Theorem C30_define_jit_cond_calc_e_refuted :
  exists n fixed state, fixed_ok n fixed /\ length state = (n - length fixed)%nat /\
    Forall (fun p => spin (snd p)) fixed /\
    cond_fullstate n fixed state = Ok [1; -1; 1; 1]%Z /\
    jit_cond_fullstate n (flatten_fixed fixed) state = Ok [1; 2; 1; 1]%Z.
Proof.
  exists 4%nat, [(1%nat, (-1)%Z); (2%nat, 1%Z)], [1; 1]%Z. repeat split.
  - cbn. repeat constructor.
  - cbn. repeat constructor.
  - constructor; [now left|]. constructor; [now right|constructor].
Qed.
Print Assumptions C30_define_jit_cond_calc_e_refuted.

(** With a single fixed spin it works only for site 0: for every other site the read is
    out of bounds. *)
Theorem C30_single_fixed_spin_refuted : forall (n i : nat) (v : Z) (state : list Z),
  (0 < i < n)%nat -> length state = (n - 1)%nat ->
  jit_cond_fullstate n (flatten_fixed [(i, v)]) state = Err IndexError /\
  cond_fullstate n [(i, v)] state = Ok (firstn i state ++ v :: skipn i state).
Proof.
  intros n i v state Hi Hl. split.
  - unfold jit_cond_fullstate. cbn [flatten_fixed flat_map app fst snd length range_step Nat.ltb Nat.leb Nat.add jit_cond_fill].
    unfold get at 1. cbn [nth_error bind]. rewrite Nat2Z.id. unfold get.
    replace (nth_error [Z.of_nat i; v] (i + 1)) with (@None Z); [reflexivity|].
    symmetry. apply nth_error_None. cbn. lia.
  - rewrite cond_fullstate_eq.
    + cbn [complete]. rewrite Nat.sub_0_r. reflexivity.
    + split; cbn; repeat constructor. lia.
    + exact Hl.
Qed.
Print Assumptions C30_single_fixed_spin_refuted.

(** ** C31 *)
Lemma ceil_div_ge a b : (0 < b)%nat -> (a <= b * ceil_div a b)%nat.
Proof.
  intros Hb. unfold ceil_div. assert (D := Nat.div_mod (a + b - 1) b ltac:(lia)).
  assert (M := Nat.mod_upper_bound (a + b - 1) b ltac:(lia)). nia.
Qed.

Lemma in_firstn {A} k : forall (l : list A) x, In x (firstn k l) -> In x l.
Proof. induction k as [|k IH]; intros [|a l] x; cbn; try tauto. intros [->|H]; [now left|right; now apply IH]. Qed.

Lemma combine_lengths {A B} (a : list A) (b : list B) : length a = length b -> length (combine a b) = length a.
Proof. intros H. rewrite combine_length. lia. Qed.

(** Parallel Python sampling: exactly sample_size rows, each produced by one worker
    from its own replica and seed; the stored replica energies are right. *)
Theorem C31_parallel_py : forall (T : Type) (g : rng T) (calc_e : list Z -> R) (n sample_size n_iters : nat)
  (burn_in : option nat) (systematic : bool) (mkrng : nat -> T) (replicas : list (list Z)) (seeds : list nat),
  rng_ok g -> (0 < n)%nat -> (0 < length replicas)%nat -> length seeds = length replicas ->
  Forall (fun s => length s = n /\ Forall (fun z => z = (-1)%Z \/ z = 1%Z) s) replicas ->
  let '(sample, final, Es) :=
    generate_sample_parallel_py (sample_metropolis g calc_e) calc_e n sample_size n_iters burn_in systematic mkrng replicas seeds in
  length sample = sample_size /\ length final = length replicas /\ Es = map calc_e final /\
  (forall row, In row sample -> length row = n /\ Forall (fun z => z = (-1)%Z \/ z = 1%Z) row /\
     exists w, (w < length replicas)%nat /\
       In row (fst (fst (worker (sample_metropolis g calc_e) n (ceil_div sample_size (length replicas)) n_iters
                           (burn_in_or burn_in n_iters) systematic mkrng (nth w replicas []) (calc_e (nth w replicas [])) (nth w seeds 0%nat))))).
Proof.
  intros T g calc_e n sample_size n_iters burn_in systematic mkrng replicas seeds Hg Hn Hr Hs Hv.
  unfold generate_sample_parallel_py. cbv zeta. set (q := ceil_div sample_size (length replicas)). set (b := burn_in_or burn_in n_iters).
  set (wk := fun rs : list Z * nat => worker (sample_metropolis g calc_e) n q n_iters b systematic mkrng (fst rs) (calc_e (fst rs)) (snd rs)).
  assert (W : forall rs, In rs (combine replicas seeds) ->
     length (fst (fst (wk rs))) = q /\ Forall (fun s => length s = n /\ Forall spin s) (fst (fst (wk rs))) /\ snd (wk rs) = calc_e (snd (fst (wk rs)))).
  { intros [s seed] Hin. apply in_combine_l in Hin. rewrite Forall_forall in Hv. destruct (Hv s Hin) as [Hl Hsp].
    unfold wk, worker. cbn [fst snd].
    destruct (run (sample_metropolis g calc_e) (sites systematic n b) s (calc_e s) (mkrng seed)) as [[[s1 E1] t1] h1] eqn:R1.
    destruct (run_inv _ calc_e spin n (ising_step_ok g calc_e n Hg Hn) _ (sites_in n systematic _ Hn) _ _ _ _ _ _ Hl Hsp R1) as [Hl1 [Hv1 [-> _]]].
    destruct (record (sample_metropolis g calc_e) (sites systematic n n_iters) q s1 (calc_e s1) t1) as [[[ss Es] [[s2 E2] t2]] h2] eqn:R2.
    destruct (record_inv _ calc_e spin n (ising_step_ok g calc_e n Hg Hn) _ (sites_in n systematic _ Hn) _ _ _ _ _ _ _ _ _ Hl1 Hv1 R2)
      as [H1 [H2 [H3 [_ [_ [H4 _]]]]]]. cbn. auto. }
  split; [|split; [|split]].
  - rewrite firstn_length. apply Nat.min_l.
    assert (HL : length (concat (map (fun o => fst (fst o)) (map wk (combine replicas seeds)))) = (length replicas * q)%nat).
    { rewrite <- (combine_lengths replicas seeds) by auto. clear -W. revert W. generalize (combine replicas seeds) as L.
      induction L as [|a L IH]; intros W; cbn; [reflexivity|]. rewrite app_length, IH by (intros; apply W; now right).
      destruct (W a) as [-> _]; [now left|reflexivity]. }
    rewrite HL. now apply ceil_div_ge.
  - rewrite !map_length. apply combine_lengths. auto.
  - rewrite !map_map. apply map_ext_in. intros rs Hin. now apply W.
  - intros row Hrow. apply in_firstn in Hrow. apply in_concat in Hrow. destruct Hrow as [l [Hl Hrow]].
    rewrite map_map in Hl. apply in_map_iff in Hl. destruct Hl as [rs [<- Hin]].
    destruct (W rs Hin) as [_ [HF _]]. rewrite Forall_forall in HF. destruct (HF row Hrow) as [Ha Hb].
    split; [exact Ha|]. split; [exact Hb|].
    destruct (In_nth _ _ ([], 0%nat) Hin) as [w [Hw Ew]]. rewrite combine_lengths in Hw by auto.
    exists w. split; [exact Hw|]. rewrite combine_nth in Ew by auto. subst rs. exact Hrow.
Qed.
Print Assumptions C31_parallel_py.

(** Parallel C++ sampling: exactly sample_size valid rows. *)
Theorem C31_parallel_boost : forall (T : Type) (g : rng T) (mkrng : nat -> T) (n : nat) (params : list R)
  (sample_size n_iters : nat) (burn_in : option nat) (systematic : bool) (seeds : list nat),
  rng_ok g -> (0 < n)%nat -> (0 < length seeds)%nat -> length params = (n + n * (n - 1) / 2)%nat ->
  let sample := generate_sample_parallel_boost g mkrng n params sample_size n_iters burn_in systematic seeds in
  length sample = sample_size /\
  Forall (fun row => length row = n /\ Forall (fun z => z = (-1)%Z \/ z = 1%Z) row) sample.
Proof.
  intros T g mkrng n params sample_size n_iters burn_in systematic seeds Hg Hn Hs Hp. cbv zeta.
  unfold generate_sample_parallel_boost. cbv zeta. set (q := ceil_div sample_size (length seeds)). set (b := burn_in_or burn_in n_iters).
  assert (One : forall t, length (boost_ising_sample g n params q b n_iters systematic t) = q /\
     Forall (fun row => length row = n /\ Forall spin row) (boost_ising_sample g n params q b n_iters systematic t)).
  { intros t. unfold boost_ising_sample.
    assert (Hrow : forall t, length (fst (cpp_ising_init g n t)) = n /\ Forall spin (fst (cpp_ising_init g n t))).
    { apply draw_row_spec. intros t0. destruct (randint g t0 0 2) as [b0 t1]. cbn. unfold spin. destruct (Nat.eqb b0 0); auto. }
    specialize (Hrow t). destruct (cpp_ising_init g n t) as [s0 t0]. cbn [fst] in Hrow. destruct Hrow as [Hl0 Hs0].
    assert (R := C27_running_energy T g n params q b n_iters systematic s0 t0 Hg Hn Hl0 Hs0 Hp).
    destruct (cpp_generate_sample _ _ _ n q b n_iters systematic s0 t0) as [rows [[s e] t1]]. cbn [fst]. destruct R as [_ R]. exact R. }
  split.
  - rewrite firstn_length. apply Nat.min_l.
    assert (HL : length (concat (map (fun seed => boost_ising_sample g n params q b n_iters systematic (mkrng seed)) seeds)) = (length seeds * q)%nat).
    { clearbody q. clear -One. induction seeds as [|a l IH]; cbn; [reflexivity|]. rewrite app_length, IH. destruct (One (mkrng a)) as [-> _]. reflexivity. }
    rewrite HL. now apply ceil_div_ge.
  - apply Forall_forall. intros row Hrow. apply in_firstn in Hrow. apply in_concat in Hrow. destruct Hrow as [l [Hl Hrow]].
    apply in_map_iff in Hl. destruct Hl as [seed [<- _]]. destruct (One (mkrng seed)) as [_ HF]. rewrite Forall_forall in HF. now apply HF.
Qed.
Print Assumptions C31_parallel_boost.

Example C31_example : ceil_div 10 4 = 3%nat /\ ceil_div 8 4 = 2%nat.
Proof. split; reflexivity. Qed.
