(** * Property C101: which spins systematic iteration visits, and when. *)
From Coq Require Import Sorted Permutation.
From Coquelicot Require Import Coquelicot.
From Verif Require Import Prelude Spec PreludeFacts M_Index M_Energy M_Sampler P_Energy P_Energy2 P_Unravel P_Sampler P_Metro P_Cpp P_Cond Props_Energy Props_Sampler.
Import ListNotations.

(** Specification: visit the listed sites one after another. *)
Definition visit {V T} (update : list V -> nat -> T -> list V * T) (sites : list nat) (st : list V * T) : list V * T :=
  fold_left (fun st i => update (fst st) i (snd st)) sites st.

(** The first m numbers of 0, 1, ..., n-1, 0, 1, ... *)
Definition round_robin (n m : nat) : list nat := map (fun u => u mod n) (seq 0 m).

Lemma visit_app {V T} (update : list V -> nat -> T -> list V * T) a b st :
  visit update (a ++ b) st = visit update b (visit update a st).
Proof. apply fold_left_app. Qed.

Section Compiled.
Context {V T : Type}.
Variable step : list V -> nat -> T -> list V * R * T.
Variable site : nat -> nat.
Let update s i t := let '(s1, _, t1) := step s i t in (s1, t1).

Lemma cpp_run_visit m : forall c s e t s1 e1 t1 c1,
  cpp_run step (fun c t => (site c, t)) m c s e t = ((s1, e1, t1), c1) ->
  c1 = (c + m)%nat /\ (s1, t1) = visit update (map site (seq c m)) (s, t).
Proof.
  induction m as [|m IH]; intros c s e t s1 e1 t1 c1; cbn.
  - intros E. injection E as <- <- <- <-. split; [lia|reflexivity].
  - destruct (step s (site c) t) as [[s2 de] t2] eqn:E2. intros E.
    destruct (IH _ _ _ _ _ _ _ _ E) as [-> H]. split; [lia|]. rewrite H.
    assert (U : update s (site c) t = (s2, t2)) by (unfold update; now rewrite E2). rewrite U, Nat.add_1_r. reflexivity.
Qed.

Lemma cpp_record_visit k m : forall c s e t j, (j < m)%nat ->
  nth_error (fst (cpp_record step (fun c t => (site c, t)) k m c s e t)) j =
  Some (fst (visit update (map site (seq c (S j * k))) (s, t))).
Proof.
  induction m as [|m IH]; intros c s e t j Hj; [lia|]. cbn [cpp_record].
  destruct (cpp_run step (fun c t => (site c, t)) k c s e t) as [[[s1 e1] t1] c1] eqn:E1.
  destruct (cpp_run_visit _ _ _ _ _ _ _ _ _ E1) as [-> H1].
  destruct (cpp_record step (fun c t => (site c, t)) k m (c + k) s1 e1 t1) as [ss fin] eqn:E2.
  destruct j as [|j]; cbn [fst nth_error].
  - replace (1 * k)%nat with k by lia. rewrite <- H1. reflexivity.
  - assert (H := IH (c + k)%nat s1 e1 t1 j ltac:(lia)). rewrite E2 in H. cbn [fst] in H. rewrite H.
    replace (S (S j) * k)%nat with (k + S j * k)%nat by lia.
    rewrite seq_app, map_app, visit_app, <- H1. reflexivity.
Qed.

Lemma cpp_all_visit b k m s e t j : (j < m)%nat ->
  nth_error (fst (let '((s1, e1, t1), c1) := cpp_run step (fun c t => (site c, t)) b 0 s e t in
                  cpp_record step (fun c t => (site c, t)) k m c1 s1 e1 t1)) j =
  Some (fst (visit update (map site (seq 0 (b + S j * k))) (s, t))).
Proof.
  intros Hj. destruct (cpp_run step (fun c t => (site c, t)) b 0 s e t) as [[[s1 e1] t1] c1] eqn:E1.
  destruct (cpp_run_visit _ _ _ _ _ _ _ _ _ E1) as [-> H1].
  rewrite cpp_record_visit by exact Hj. rewrite seq_app, map_app, visit_app, <- H1. reflexivity.
Qed.
End Compiled.

(** The compiled Ising sampler with systematic iteration: the j-th row is the state
    after burn_in + (j+1) n_iters updates from the initial state; the u-th update is
    made at spin u mod n, and the count goes on from one row to the next. *)
Theorem C101_compiled : forall (T : Type) (g : rng T) (n : nat) (params : list R) (n_samples burn_in n_iters : nat) (t : T) (j : nat),
  (j < n_samples)%nat ->
  nth_error (boost_ising_sample g n params n_samples burn_in n_iters true t) j =
  Some (fst (visit (fun s i t => let '(s1, _, t1) := cpp_sample_metropolis g n params (coupling_mat n n params) s i t in (s1, t1))
               (round_robin n (burn_in + S j * n_iters)) (cpp_ising_init g n t))).
Proof.
  intros T g n params m b k t j Hj. unfold boost_ising_sample. destruct (cpp_ising_init g n t) as [s0 t0].
  exact (cpp_all_visit (cpp_sample_metropolis g n params (coupling_mat n n params)) (fun u => u mod n) b k m s0 _ t0 j Hj).
Qed.
Print Assumptions C101_compiled.

(** The same for the compiled Potts sampler. *)
Theorem C101_compiled_potts : forall (T : Type) (g : rng T) (n : nat) (params : list R) (n_samples burn_in n_iters : nat) (t : T) (j : nat),
  (j < n_samples)%nat ->
  nth_error (boost_potts_sample g n params n_samples burn_in n_iters true t) j =
  Some (fst (visit (fun s i t => let '(s1, _, t1) := cpp_potts_sample_metropolis g n params (coupling_mat n (3 * n) params) s i t in (s1, t1))
               (round_robin n (burn_in + S j * n_iters)) (cpp_potts_init g n t))).
Proof.
  intros T g n params m b k t j Hj. unfold boost_potts_sample. destruct (cpp_potts_init g n t) as [s0 t0].
  exact (cpp_all_visit (cpp_potts_sample_metropolis g n params (coupling_mat n (3 * n) params)) (fun u => u mod n) b k m s0 _ t0 j Hj).
Qed.
Print Assumptions C101_compiled_potts.

(** Conditional sampling in the compiled code: the free spins are visited in increasing
    order, over and over, starting from the initial state with the given values put in. *)
Theorem C101_conditional : forall (T : Type) (g : rng T) (n : nat) (params : list R) (ix : list nat) (vals : list Z)
  (n_samples burn_in n_iters : nat) (t : T) (j : nat),
  (j < n_samples)%nat -> StronglySorted lt ix -> (forall i, In i ix -> (i < n)%nat) ->
  let free := filter (fun i => negb (existsb (Nat.eqb i) ix)) (seq 0 n) in
  nth_error (boost_ising_cond_sample g n params ix vals n_samples burn_in n_iters true t) j =
  Some (fst (visit (fun s i t => let '(s1, _, t1) := cpp_sample_metropolis g n params (coupling_mat n n params) s i t in (s1, t1))
               (map (fun u => nth u free 0%nat) (round_robin (n - length ix) (burn_in + S j * n_iters)))
               (let '(s0, t0) := cpp_ising_init g n t in
                (fold_left (fun s p => upd s (fst p) (snd p)) (combine ix vals) s0, t0)))).
Proof.
  intros T g n params ix vals m b k t j Hj Hs Hb. cbv zeta. unfold boost_ising_cond_sample.
  destruct (cpp_ising_init g n t) as [s0 t0]. unfold cpp_generate_cond_sample.
  assert (E : non_ix_loop (range n) ix 0 = filter (fun i => negb (existsb (Nat.eqb i) ix)) (seq 0 n))
    by (unfold range; rewrite (non_ix_loop_spec _ Hs n 0 0); [reflexivity|intros; lia|lia]).
  rewrite E. unfold round_robin. rewrite map_map.
  exact (cpp_all_visit (cpp_sample_metropolis g n params (coupling_mat n n params)) 
           (fun u => nth (u mod (n - length ix)) (filter (fun i => negb (existsb (Nat.eqb i) ix)) (seq 0 n)) 0%nat) b k m _ _ t0 j Hj).
Qed.
Print Assumptions C101_conditional.

Section Python.
Context {V T : Type}.
Variable step : option nat -> list V -> R -> T -> list V * R * T.
Variable calc_e : list V -> R.
Variable valid : V -> Prop.
Variable n : nat.
Hypothesis step_ok : forall f s t s' de t', length s = n -> Forall valid s -> site_in n f ->
    step f s (calc_e s) t = (s', de, t') -> length s' = n /\ Forall valid s' /\ (de = calc_e s' - calc_e s)%R.
Let update s i t := let '(s1, _, t1) := step (Some i) s (calc_e s) t in (s1, t1).

Lemma run_visit is : Forall (fun i => i < n)%nat is -> forall s t s' E' t' h, length s = n -> Forall valid s ->
  run step (map Some is) s (calc_e s) t = ((s', E', t'), h) ->
  (s', t') = visit update is (s, t) /\ length s' = n /\ Forall valid s' /\ E' = calc_e s'.
Proof using step_ok.
  induction 1 as [|i is Hi His IH]; intros s t s' E' t' h Hl Hv; cbn.
  - intros E. injection E as <- <- <- <-. auto.
  - destruct (step (Some i) s (calc_e s) t) as [[s1 de] t1] eqn:E1.
    destruct (step_ok (Some i) _ _ _ _ _ Hl Hv Hi E1) as [Hl1 [Hv1 ->]].
    replace (calc_e s + (calc_e s1 - calc_e s))%R with (calc_e s1) by ring.
    destruct (run step (map Some is) s1 (calc_e s1) t1) as [[[s2 E2] t2] h2] eqn:E2'.
    intros E. injection E as <- <- <- <-.
    destruct (IH _ _ _ _ _ _ Hl1 Hv1 E2') as [H1 H2]. split; [|exact H2]. rewrite H1.
    assert (U : update s i t = (s1, t1)) by (unfold update; now rewrite E1). rewrite U. reflexivity.
Qed.

Lemma record_visit is : Forall (fun i => i < n)%nat is -> forall m s t j, length s = n -> Forall valid s -> (j < m)%nat ->
  nth_error (fst (fst (fst (record step (map Some is) m s (calc_e s) t)))) j =
  Some (fst (visit update (concat (repeat is (S j))) (s, t))).
Proof using step_ok.
  intros His. induction m as [|m IH]; intros s t j Hl Hv Hj; [lia|]. cbn [record].
  destruct (run step (map Some is) s (calc_e s) t) as [[[s1 E1] t1] h1] eqn:R1.
  destruct (run_visit is His _ _ _ _ _ _ Hl Hv R1) as [H1 [Hl1 [Hv1 ->]]].
  destruct (record step (map Some is) m s1 (calc_e s1) t1) as [[[ss Es] fin] h2] eqn:R2.
  destruct j as [|j]; cbn [fst nth_error].
  - cbn [repeat concat]. rewrite app_nil_r, <- H1. reflexivity.
  - assert (H := IH s1 t1 j Hl1 Hv1 ltac:(lia)). rewrite R2 in H. cbn [fst] in H. rewrite H.
    change (repeat is (S (S j))) with (is :: repeat is (S j)). cbn [concat]. rewrite (visit_app _ is), <- H1. reflexivity.
Qed.
End Python.

Lemma round_robin_lt n m : (0 < n)%nat -> Forall (fun i => i < n)%nat (round_robin n m).
Proof.
  intros Hn. apply Forall_forall. intros i Hi. apply in_map_iff in Hi. destruct Hi as [u [<- _]].
  apply Nat.mod_upper_bound. lia.
Qed.

Lemma sites_round n m : sites true n m = map Some (round_robin n m).
Proof. unfold sites, round_robin, range. rewrite map_map. reflexivity. Qed.

(** The Python sampler with systematic iteration, from a given initial state: burn-in
    visits spins 0, 1, ... in turn, and before every recorded row the count starts again
    from spin 0. *)
Theorem C101_python : forall (T : Type) (g : rng T) (calc_e : list Z -> R) (n sample_size n_iters : nat)
  (burn_in : option nat) (samples : option (list (list Z))) (s0 : list Z) (t : T) r (j : nat),
  rng_ok g -> (0 < n)%nat -> Forall (fun z => z = (-1)%Z \/ z = 1%Z) s0 ->
  ising_generate_sample_py g calc_e n sample_size n_iters burn_in true samples (Some [s0]) t = Ok r ->
  (j < sample_size)%nat ->
  nth_error (g_sample r) j =
  Some (fst (visit (fun s i t => let '(s1, _, t1) := sample_metropolis g calc_e (Some i) s (calc_e s) t in (s1, t1))
               (round_robin n (match burn_in with Some (S b) => S b | _ => n_iters end)
                ++ concat (repeat (round_robin n n_iters) (S j))) (s0, t))).
Proof.
  intros T g calc_e n m k b samples s0 t r j Hg Hn Hs E Hj.
  unfold ising_generate_sample_py, generate_sample_py in E. cbn [length Nat.eqb andb forallb bind] in E.
  destruct (Nat.eqb (length s0) n) eqn:El; cbn [bind andb] in E; [|discriminate]. apply Nat.eqb_eq in El.
  assert (Eb : match b with Some (S b) => S b | _ => k end = burn_in_or b k) by (destruct b as [[|?]|]; reflexivity).
  rewrite Eb. rewrite !sites_round in E.
  destruct (run (sample_metropolis g calc_e) (map Some (round_robin n (burn_in_or b k))) s0 (calc_e s0) t) as [[[s1 E1] t1] h1] eqn:R1.
  destruct (run_visit _ calc_e spin n (ising_step_ok g calc_e n Hg Hn) _ (round_robin_lt n _ Hn) _ _ _ _ _ _ El Hs R1) as [H1 [Hl1 [Hv1 ->]]].
  assert (R := record_visit _ calc_e spin n (ising_step_ok g calc_e n Hg Hn) _ (round_robin_lt n k Hn) m s1 t1 j Hl1 Hv1 Hj).
  destruct (record (sample_metropolis g calc_e) (map Some (round_robin n k)) m s1 (calc_e s1) t1) as [[[ss Es] [[s2 E2] t2]] h2].
  injection E as <-. cbn [g_sample fst] in *. rewrite R, visit_app, <- H1. reflexivity.
Qed.
Print Assumptions C101_python.

Lemma visit_untouched {T} (g : rng T) (calc_e : list Z -> R) n i is :
  rng_ok g -> (0 < n)%nat -> Forall (fun k => k < n)%nat is -> ~ In i is -> forall s t, length s = n -> Forall spin s ->
  let r := fst (visit (fun s i t => let '(s1, _, t1) := sample_metropolis g calc_e (Some i) s (calc_e s) t in (s1, t1)) is (s, t)) in
  nth_error r i = nth_error s i.
Proof.
  intros Hg Hn His Hi. induction His as [|k is Hk His IH]; intros s t Hl Hs; [reflexivity|]. cbv zeta. unfold visit. cbn [fold_left fst snd].
  destruct (sample_metropolis g calc_e (Some k) s (calc_e s) t) as [[s1 de] t1] eqn:E.
  destruct (ising_step_ok g calc_e n Hg Hn (Some k) s t s1 de t1 Hl Hs Hk E) as [Hl1 [Hs1 _]].
  assert (U := C25_single_update T g calc_e (Some k) s t Hg ltac:(lia) Hs ltac:(intros ? H; injection H as <-; lia)).
  rewrite E in U. destruct U as [_ U].
  assert (N : nth_error s1 i = nth_error s i).
  { destruct U as [[-> _]|[a [Ha [_ [_ [_ [H _]]]]]]]; [reflexivity|]. apply H. intros ->. apply Hi. left. symmetry. now apply Ha. }
  assert (H := IH ltac:(intros H; apply Hi; now right) s1 t1 Hl1 Hs1). cbv zeta in H. unfold visit in H. rewrite H. exact N.
Qed.

(** So with fewer than n updates per row the Python sampler never again touches the
    spins n_iters, ..., n-1 after burn-in: they have the same value in every row. *)
Theorem C101_python_frozen : forall (T : Type) (g : rng T) (calc_e : list Z -> R) (n sample_size n_iters : nat)
  (burn_in : option nat) (samples : option (list (list Z))) (s0 : list Z) (t : T) r (i : nat) (a b : list Z),
  rng_ok g -> (0 < n)%nat -> Forall (fun z => z = (-1)%Z \/ z = 1%Z) s0 ->
  ising_generate_sample_py g calc_e n sample_size n_iters burn_in true samples (Some [s0]) t = Ok r ->
  (n_iters <= i < n)%nat -> In a (g_sample r) -> In b (g_sample r) ->
  nth_error a i = nth_error b i.
Proof.
  intros T g calc_e n m k b0 samples s0 t r i a b Hg Hn Hs E Hi Ha Hb.
  assert (El : length s0 = n).
  { unfold ising_generate_sample_py, generate_sample_py in E. cbn [length Nat.eqb andb forallb bind] in E.
    destruct (Nat.eqb (length s0) n) eqn:El; cbn [bind andb] in E; [|discriminate]. now apply Nat.eqb_eq. }
  assert (Hlen : length (g_sample r) = m).
  { apply (C25_generate_sample T g calc_e n m k b0 true None (Some [s0]) t r Hg Hn).
    - discriminate.
    - intros ss H. injection H as <-. constructor; [exact Hs|constructor].
    - rewrite <- E. reflexivity. }
  set (burn := match b0 with Some (S b) => S b | _ => k end).
  set (up := fun s i t => let '(s1, _, t1) := sample_metropolis g calc_e (Some i) s (calc_e s) t in (s1, t1)).
  destruct (visit up (round_robin n burn) (s0, t)) as [s1 t1] eqn:E1.
  assert (V1 : length s1 = n /\ Forall spin s1).
  { assert (R1 := run_visit (sample_metropolis g calc_e) calc_e spin n (ising_step_ok g calc_e n Hg Hn) _ (round_robin_lt n burn Hn) s0 t).
    destruct (run (sample_metropolis g calc_e) (map Some (round_robin n burn)) s0 (calc_e s0) t) as [[[s2 E2] t2] h2].
    destruct (R1 _ _ _ _ El Hs eq_refl) as [H1 [H2 [H3 _]]]. fold up in H1. rewrite E1 in H1. injection H1 as -> ->. auto. }
  assert (K : forall x, In x (g_sample r) -> nth_error x i = nth_error s1 i).
  { intros x Hx. apply In_nth_error in Hx. destruct Hx as [j Hj].
    assert (Hjm : (j < m)%nat) by (rewrite <- Hlen; apply nth_error_Some; congruence).
    rewrite (C101_python T g calc_e n m k b0 samples s0 t r j Hg Hn Hs E Hjm) in Hj. injection Hj as <-.
    fold burn. fold up. rewrite visit_app, E1.
    apply (visit_untouched g calc_e n i); [exact Hg|exact Hn| | |apply V1|apply V1].
    - change (Forall (fun k => k < n)%nat (concat (repeat (round_robin n k) (S j)))). rewrite Forall_concat. apply Forall_forall. intros l Hl. apply repeat_spec in Hl. subst l. now apply round_robin_lt.
    - change (~ In i (concat (repeat (round_robin n k) (S j)))). intros H. apply in_concat in H. destruct H as [l [Hl H]]. apply repeat_spec in Hl. subst l.
      unfold round_robin in H. apply in_map_iff in H. destruct H as [u [Hu H]]. apply in_seq in H.
      rewrite Nat.mod_small in Hu by lia. lia. }
  rewrite (K a Ha), (K b Hb). reflexivity.
Qed.
Print Assumptions C101_python_frozen.

(** "If True, iterate through each element of system" (documentation of
    systematic_iter) does not hold in the Python sampler when n_iters is smaller than the
    number of spins: some spins are left out of every row. *)
Theorem C101_python_refuted :
  exists (calc_e : list Z -> R) (n n_iters i : nat) (s0 : list Z),
    (0 < n_iters)%nat /\ (i < n)%nat /\ length s0 = n /\
    forall (T : Type) (g : rng T) (sample_size : nat) (t : T) r,
      rng_ok g -> ising_generate_sample_py g calc_e n sample_size n_iters (Some n_iters) true None (Some [s0]) t = Ok r ->
      forall a, In a (g_sample r) -> nth_error a i = nth_error s0 i.
Proof.
  exists (fun _ => 0%R), 2%nat, 1%nat, 1%nat, [1; -1]%Z. split; [lia|]. split; [lia|]. split; [reflexivity|].
  intros T g m t r Hg E a Ha. apply In_nth_error in Ha. destruct Ha as [j Hj].
  assert (Hs : Forall (fun z => z = (-1)%Z \/ z = 1%Z) [1; -1]%Z) by (repeat constructor; auto).
  assert (Hlen : length (g_sample r) = m).
  { apply (C25_generate_sample T g (fun _ => 0%R) 2 m 1 (Some 1%nat) true None (Some [[1; -1]%Z]) t r Hg ltac:(lia)).
    - discriminate.
    - intros ss H. injection H as <-. constructor; [exact Hs|constructor].
    - exact E. }
  assert (Hjm : (j < m)%nat) by (rewrite <- Hlen; apply nth_error_Some; congruence).
  rewrite (C101_python T g _ 2 m 1 (Some 1%nat) None _ t r j Hg ltac:(lia) Hs E Hjm) in Hj. apply (f_equal (fun o => match o with Some x => x | None => [] end)) in Hj. rewrite <- Hj. clear Hj.
  apply (visit_untouched g (fun _ => 0%R) 2 1); [exact Hg|lia| | |reflexivity|exact Hs].
  - apply Forall_app. split; [apply round_robin_lt; lia|].
    rewrite Forall_concat. apply Forall_forall. intros l Hl. apply repeat_spec in Hl. subst l. apply round_robin_lt. lia.
  - intros H. apply in_app_iff in H. destruct H as [[H|[]]|H]; [discriminate|].
    apply in_concat in H. destruct H as [l [Hl H]]. apply repeat_spec in Hl. subst l. destruct H as [H|[]]; discriminate.
Qed.
Print Assumptions C101_python_refuted.

Example C101_example :
  (* three spins, burn-in of two updates and two updates per row *)
  round_robin 3 (2 + 2 * 2) = [0; 1; 2; 0; 1; 2]%nat /\
  round_robin 3 2 ++ concat (repeat (round_robin 3 2) 2) = [0; 1; 0; 1; 0; 1]%nat /\
  exists r, ising_generate_sample_py toy_rng (fun _ => 0%R) 3 2 2 (Some 2%nat) true None (Some [[1; 1; -1]%Z]) 0%nat = Ok r.
Proof.
  split; [reflexivity|]. split; [reflexivity|].
  unfold ising_generate_sample_py, generate_sample_py. cbn [length Nat.eqb andb forallb bind].
  match goal with |- exists r, (let '(_, _) := ?x in _) = _ => destruct x as [[[s1 E1] t1] h1] end.
  match goal with |- exists r, (let '(_, _) := ?x in _) = _ => destruct x as [[[ss Es] [[s2 E2] t2]] h2] end.
  eexists; reflexivity.
Qed.
