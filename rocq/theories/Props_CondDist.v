(** * C95: conditional sampling draws from the conditional distribution *)
From Coq Require Import Permutation Sorted Classical FunctionalExtensionality.
From Coquelicot Require Import Coquelicot.
From Verif Require Import Prelude Spec PreludeFacts M_Index M_Sampler P_Energy P_Energy2 P_Sampler P_Metro P_Cpp P_Unravel P_Cond M_Energy Props_Energy Props_Sampler
  P_Converge P_Converge2 P_Converge3 Props_Converge Props_Converge2 P_CondDist.
Import ListNotations.
Local Open Scope R_scope.

(** [given p states fixed F] is the expectation of F under p given the values of the spins in
    [fixed]: the sum of p s * F s over the states that agree with them, divided by their
    probability. *)

Lemma match_ne {A B} (l : list A) (a b : B) : l <> [] -> match l with [] => a | _ => b end = b.
Proof. destruct l; [congruence|reflexivity]. Qed.

(** Metropolis.generate_cond_sample_py with random sites; [first] are the draws of the initial
    row, arbitrary; then every site is uniform over the free ones and every number uniform over
    [0,1], all independent.  The mean square distance between the average of F over the m rows and
    the expectation given the fixed spins is at most C B^2 / m, and the probability of an error
    above d at most C B^2 / (m d^2).  C depends on the energy and the fixed spins only; the energy
    is any function that takes two values on the states that agree with the fixed spins. *)
Theorem C95_python : forall (E : list Z -> R) (n : nat) (fixed : list (nat * Z)),
  StronglySorted lt (map fst fixed) -> (forall i, In i (map fst fixed) -> (i < n)%nat) ->
  (forall v, In v (map snd fixed) -> v = (-1)%Z \/ v = 1%Z) -> fixed <> [] -> (length fixed < n)%nat ->
  let states := all_states [-1; 1]%Z n in nonconstant E (filter (agrees fixed) states) ->
  exists C, forall (F : list Z -> R) (B : R), (forall s, In s states -> Rabs (F s) <= B) ->
  forall first burn_in n_iters m c z, length first = (n - length fixed)%nat -> (0 < n_iters)%nat -> (0 < m)%nat ->
  let err := fun rows => sumf rows F / INR m - given (boltzmann E states) states fixed F in
  let mean := fun H => Etape (draw (n - length fixed)) (burn_in + m * n_iters) (fun l =>
      match generate_cond_sample_py tape E n m fixed burn_in n_iters false (first ++ l, c) with Ok (rows, _, _) => H rows | Err _ => z end) in
  mean (fun rows => err rows ^ 2) <= C * B ^ 2 / INR m /\
  forall d, 0 < d -> mean (fun rows => if Rlt_dec d (Rabs (err rows)) then 1 else 0) <= C * B ^ 2 / (INR m * d ^ 2).
Proof.
  intros E n fixed Hsort Hb Hv Hne Hlt states NE. set (k := (n - length fixed)%nat). set (comp := complete fixed 0).
  assert (Hok : fixed_ok n fixed) by (split; [exact Hsort | now apply Forall_forall]).
  assert (Hspin : Forall (fun p => spin (snd p)) fixed) by (apply Forall_forall; intros [i v] Hin; apply Hv; apply in_map_iff; now exists (i, v)).
  assert (Hk : (0 < k)%nat) by (unfold k; lia).
  set (ce := fun state => match cond_fullstate n fixed state with Ok full => E full | Err _ => 0 end).
  assert (CE : forall x, In x (spin_states k) -> ce x = E (comp x)).
  { intros x Hx. unfold ce. rewrite cond_fullstate_eq; [reflexivity|assumption|]. now apply spin_states_spec in Hx. }
  assert (NE' : nonconstant ce (spin_states k)).
  { destruct NE as (s & s' & Hs & Hs' & D). apply filter_In in Hs, Hs'. destruct Hs as [A1 A2], Hs' as [B1 B2].
    destruct (agrees_comp n fixed Hok Hspin Hlt s A1 A2) as (x & Hx & <-). destruct (agrees_comp n fixed Hok Hspin Hlt s' B1 B2) as (x' & Hx' & <-).
    exists x, x'. split; [assumption|]. split; [assumption|]. now rewrite !CE. }
  destruct (rs_minor ce k Hk NE') as (eps & He & HM). exists (4 * (1 + 2 * INR (2 * k) / eps)).
  intros F B HF first b ni m c z Hf Hni Hm err mean.
  destruct (tape_row (fun b => nth b [-1; 1]%Z 0%Z) k first c Hf) as (s0 & c' & HR).
  assert (Hs0 : In s0 (spin_states k)).
  { apply spin_states_spec. destruct (ising_random_row_spec tape k tape_ok (first ++ [], c)) as [A1 A2]. unfold ising_random_row in A1, A2. rewrite HR in A1, A2. auto. }
  assert (Q : forall H, mean H = iterf b (rs_step ce k) (rows_exp (fun F => iterf ni (rs_step ce k) F) m (fun rows => H (map comp rows))) s0).
  { intros H. unfold mean. fold k.
    assert (EP : Pnext (draw k) (inext ce) = rs_step ce k) by (apply functional_extensionality; intros G; apply functional_extensionality; intros s; apply draw_next).
    rewrite <- EP.
    assert (SN : forall s e l c, In s (spin_states k) -> okdraw k e -> sample_metropolis tape ce None s (ce s) (e :: l, c) = (fst (inext ce e s), snd (inext ce e s), (l, e))).
    { intros s [i u] l c0 H1 H2. apply (ising_tape_step ce k); [now apply spin_states_spec in H1|assumption]. }
    rewrite <- (run_tape (draw k) (okdraw k) (draw_ext k) ce (fun s => In s (spin_states k)) (inext ce) (fun e s A Bs => inext_ok ce k e s A Bs) (sample_metropolis tape ce) SN (m * ni)
      (fun s1 E1 t1 => let '((ss, _), _, _) := record (sample_metropolis tape ce) (repeat None ni) m s1 E1 t1 in H (map comp ss))) with (c := c');
      [|intros s1 c1 H1; apply (record_tape (draw k) (okdraw k) (draw_ext k) ce (fun s => In s (spin_states k)) (inext ce) (fun e s A Bs => inext_ok ce k e s A Bs) (sample_metropolis tape ce) SN ni m (fun ss => H (map comp ss))); assumption|assumption].
    apply (Etape_ext (draw k) (okdraw k) (draw_ext k)). intros l _ _. unfold generate_cond_sample_py.
    rewrite (match_ne fixed _ _ Hne).
    rewrite (proj2 (strictly_increasing_spec (map fst fixed)) Hsort), (proj2 (all_spins_check fixed) Hspin).
    cbn [negb]. fold k. fold ce. unfold ising_random_row. rewrite HR.
    destruct (proj1 (spin_states_spec k s0) Hs0) as [Hl0 Hp0].
    rewrite (cond_fullstate_eq n fixed s0 Hok Hl0). cbn [bind]. rewrite !sites_random. fold comp. rewrite <- (CE s0 Hs0).
    assert (SI : forall q, Forall (site_in k) (repeat None q)) by (intros q; rewrite <- (sites_random k q); now apply sites_in).
    destruct (run (sample_metropolis tape ce) (repeat None b) s0 (ce s0) (l, c')) as [[[s1 E1] t1] h1] eqn:R1.
    destruct (run_inv _ ce spin k (ising_step_ok tape ce k tape_ok Hk) _ (SI b) _ _ _ _ _ _ Hl0 Hp0 R1) as [Hl1 [Hv1 [-> _]]].
    destruct (record (sample_metropolis tape ce) (repeat None ni) m s1 (ce s1) t1) as [[[ss Es] [[s2 E2] t2]] h2] eqn:R2.
    destruct (record_inv _ ce spin k (ising_step_ok tape ce k tape_ok Hk) _ (SI ni) _ _ _ _ _ _ _ _ _ Hl1 Hv1 R2) as [H1 [H2 [H3 _]]].
    assert (Hrows : Forall (fun row => length row = (n - length fixed)%nat) ss) by (eapply Forall_impl; [|exact H3]; cbn; intros a [Ha _]; exact Ha).
    assert (I := insert_reshape n fixed ss Hok Hlt Hrows). rewrite H1 in I. fold k in I.
    destruct (insert_fixed k 0 fixed (concat ss)) as [flat|e] eqn:EI; cbn [bind] in I |- *; [|discriminate].
    rewrite I. cbn [bind]. destruct Es as [|e0 Es']; [|reflexivity]. destruct ss; [cbn in H1; lia|discriminate H2]. }
  destruct (sample_errors state_eq_dec (spin_states k) (rs_step ce k) (2 * k) eps (boltzmann ce (spin_states k)) (fun x => F (comp x)) B (spin_states_NoDup k) (spin_states_ne k) He ltac:(lia) (rs_averaging ce k Hk) HM
    (boltzmann_dist _ _ (spin_states_ne k)) (rs_stationary ce k Hk) (fun x Hx => HF _ (proj1 (comp_in n fixed Hok Hspin Hlt x Hx))) b ni m s0 Hni Hm Hs0) as [A1 A2].
  assert (G : sumf (spin_states k) (fun x => boltzmann ce (spin_states k) x * F (comp x)) = given (boltzmann E states) states fixed F).
  { unfold states. change (all_states [-1; 1]%Z n) with (spin_states n). rewrite (given_eq n fixed E F Hok Hspin Hlt). cbv zeta. fold k.
    rewrite <- (boltzmann_ext ce (fun x => E (complete fixed 0 x)) (spin_states k) _ CE). reflexivity. }
  rewrite G in A1, A2.
  assert (SM : forall rows, err (map comp rows) = sumf rows (fun x => F (comp x)) / INR m - given (boltzmann E states) states fixed F) by (intros rows; unfold err; now rewrite sumf_map).
  assert (SM' : (fun rows => err (map comp rows)) = (fun rows => sumf rows (fun x => F (comp x)) / INR m - given (boltzmann E states) states fixed F)) by (apply functional_extensionality; exact SM).
  split.
  - rewrite Q. change (fun rows => err (map comp rows) ^ 2) with (fun rows => (fun rows => err (map comp rows)) rows ^ 2). rewrite SM'. exact A1.
  - intros d Hd. rewrite Q. change (fun rows => if Rlt_dec d (Rabs (err (map comp rows))) then 1 else 0) with (fun rows => if Rlt_dec d (Rabs ((fun rows => err (map comp rows)) rows)) then 1 else 0). rewrite SM'. exact (A2 d Hd).
Qed.
Print Assumptions C95_python.

(** The compiled sampler: BoostIsing(n, params).generate_cond_sample with random sites, from any
    initial draws. *)
Theorem C95_boost : forall (n : nat) (params : list R) (fixed : list (nat * Z)),
  length params = (n + n * (n - 1) / 2)%nat ->
  StronglySorted lt (map fst fixed) -> (forall i, In i (map fst fixed) -> (i < n)%nat) ->
  (forall v, In v (map snd fixed) -> v = (-1)%Z \/ v = 1%Z) -> (length fixed < n)%nat ->
  let E := fun s => ising_energy n params (map IZR s) in
  let states := all_states [-1; 1]%Z n in nonconstant E (filter (agrees fixed) states) ->
  exists C, forall (F : list Z -> R) (B : R), (forall s, In s states -> Rabs (F s) <= B) ->
  forall first burn_in n_iters m c, length first = n -> (0 < n_iters)%nat -> (0 < m)%nat ->
  let err := fun rows => sumf rows F / INR m - given (boltzmann E states) states fixed F in
  let mean := fun H => Etape (draw (n - length fixed)) (burn_in + m * n_iters) (fun l =>
      H (boost_ising_cond_sample tape n params (map fst fixed) (map snd fixed) m burn_in n_iters false (first ++ l, c))) in
  mean (fun rows => err rows ^ 2) <= C * B ^ 2 / INR m /\
  forall d, 0 < d -> mean (fun rows => if Rlt_dec d (Rabs (err rows)) then 1 else 0) <= C * B ^ 2 / (INR m * d ^ 2).
Proof.
  intros n params fixed Hp Hsort Hb Hv Hlt E states NE. set (k := (n - length fixed)%nat). set (comp := complete fixed 0).
  assert (Hok : fixed_ok n fixed) by (split; [exact Hsort | now apply Forall_forall]).
  assert (Hspin : Forall (fun p => spin (snd p)) fixed) by (apply Forall_forall; intros [i v] Hin; apply Hv; apply in_map_iff; now exists (i, v)).
  assert (Hk : (0 < k)%nat) by (unfold k; lia). assert (Hn : (0 < n)%nat) by lia.
  set (ce := cpp_calc_e n params). set (ce' := fun x => ce (comp x)).
  assert (EE : forall s, ce s = E s) by (intros s; unfold ce, E; now apply cpp_calc_e_eq).
  assert (NE' : nonconstant ce' (spin_states k)).
  { destruct NE as (s & s' & Hs & Hs' & D). apply filter_In in Hs, Hs'. destruct Hs as [A1 A2], Hs' as [B1 B2].
    destruct (agrees_comp n fixed Hok Hspin Hlt s A1 A2) as (x & Hx & <-). destruct (agrees_comp n fixed Hok Hspin Hlt s' B1 B2) as (x' & Hx' & <-).
    exists x, x'. split; [assumption|]. split; [assumption|]. unfold ce'. now rewrite !EE. }
  destruct (rs_minor ce' k Hk NE') as (eps & He & HM). exists (4 * (1 + 2 * INR (2 * k) / eps)).
  intros F B HF first b ni m c Hf Hni Hm err mean.
  destruct (tape_row (fun b => if Nat.eqb b 0 then 1%Z else (-1)%Z) n first c Hf) as (r0 & c' & HR).
  assert (Hr0 : length r0 = n /\ Forall spin r0).
  { assert (W : forall t, length (fst (cpp_ising_init tape n t)) = n /\ Forall spin (fst (cpp_ising_init tape n t))).
    { apply draw_row_spec. intros t0. destruct (randint tape t0 0 2) as [b0 t1]. cbn. unfold spin. destruct (Nat.eqb b0 0); auto. }
    specialize (W (first ++ [], c)). unfold cpp_ising_init in W. rewrite HR in W. exact W. }
  destruct Hr0 as [Hrl Hrs].
  assert (Hcomb : combine (map fst fixed) (map snd fixed) = fixed) by (clear; induction fixed as [|[a b] l IH]; cbn; [reflexivity|now rewrite IH]).
  set (s0 := fold_left (fun s p => upd s (fst p) (snd p)) (combine (map fst fixed) (map snd fixed)) r0).
  assert (Hs0 : exists x0, In x0 (spin_states k) /\ comp x0 = s0).
  { destruct (fold_upd_spins fixed r0 Hrs Hspin) as [Ha Hb'].
    assert (Ls : length s0 = n) by (unfold s0; rewrite Hcomb; congruence).
    apply agrees_comp; try assumption; [apply spin_states_spec; split; [assumption|unfold s0; now rewrite Hcomb]|].
    apply (agrees_spec n); [assumption|apply Hok|]. unfold s0. rewrite Hcomb. apply fold_upd_get; [now apply sorted_NoDup|]. intros i Hi. rewrite Hrl. now apply Hb. }
  destruct Hs0 as (x0 & Hx0 & Ex0). destruct (free_length n fixed Hok) as [FL FN].
  assert (Q : forall H, mean H = iterf b (rs_step ce' k) (rows_exp (fun F => iterf ni (rs_step ce' k) F) m (fun rows => H (map comp rows))) x0).
  { intros H. set (step := fun (s : list Z) (r : nat) t => cpp_sample_metropolis tape n params (coupling_mat n n params) s (nth r (free_sites n fixed) 0%nat) t).
    transitivity (Etape (draw k) (b + m * ni) (fun l => H (fst (cpp_generate_sample tape step ce k m b ni false s0 (l, c'))))).
    { apply (Etape_ext (draw k) (okdraw k) (draw_ext k)). intros l _ _. f_equal. unfold boost_ising_cond_sample, cpp_ising_init. rewrite HR. f_equal. unfold cpp_generate_cond_sample, cpp_generate_sample. fold s0. rewrite FN. fold ce.
      rewrite (free_run n fixed Hlt tape). fold step. fold k. destruct (cpp_run step (pick_all tape false k) b 0 s0 (ce s0) (l, c')) as [[[s1 e1] t1] c1]. apply (free_record n fixed Hlt tape). }
    rewrite (cpp_generate_tape (draw k) (okdraw k) (draw_ext k) ce (okfull n fixed) (cnext n fixed ce) (fun e s A B => cnext_ok n fixed Hok Hlt ce e s A B)); [| |exists x0; auto].
    - rewrite <- Ex0. rewrite (cP_iter n fixed Hok Hlt ce b) by assumption. fold k.
      destruct (avg_iter (spin_states k) (rs_step ce' k) b (rs_averaging ce' k Hk)) as (A1 & _). apply A1; [|assumption]. intros y Hy. now apply (cP_rows n fixed Hok Hlt ce).
    - intros s [r u] l c0 (x & Hx & <-) [Hr Hu]. cbn [fst snd] in Hr, Hu. cbn [tape randint fst]. rewrite clampi_in by assumption. unfold step.
      set (i := nth r (free_sites n fixed) 0%nat). assert (Hi : (i < n)%nat /\ ~ In i (map fst fixed)) by (apply free_sites_spec; apply nth_In; unfold k in Hr; lia).
      assert (Lc : length (complete fixed 0 x) = n) by (destruct (comp_in n fixed Hok Hspin Hlt x Hx) as [W _]; now apply spin_states_spec in W).
      rewrite cpp_sample_metropolis_eq; [|apply Hi|assumption]. unfold cnext. cbn [fst snd]. fold i. fold ce.
      assert (ST := ising_tape_step ce n (complete fixed 0 x) i u l c0 Lc (conj (proj1 Hi) Hu)).
      unfold sample_metropolis in ST |- *. cbn [tape randint rand fst snd] in ST |- *. rewrite Lc, clampi_in in ST by apply Hi.
      destruct (Rlt_dec 0 (ce (flip (complete fixed 0 x) i) - ce (complete fixed 0 x))) as [D|D]; [destruct (Rlt_dec _ (clampu u))|]; injection ST as S1 S2; rewrite <- S1, <- S2; reflexivity. }
  destruct (sample_errors state_eq_dec (spin_states k) (rs_step ce' k) (2 * k) eps (boltzmann ce' (spin_states k)) (fun x => F (comp x)) B (spin_states_NoDup k) (spin_states_ne k) He ltac:(lia) (rs_averaging ce' k Hk) HM
    (boltzmann_dist _ _ (spin_states_ne k)) (rs_stationary ce' k Hk) (fun x Hx => HF _ (proj1 (comp_in n fixed Hok Hspin Hlt x Hx))) b ni m x0 Hni Hm Hx0) as [A1 A2].
  assert (G : sumf (spin_states k) (fun x => boltzmann ce' (spin_states k) x * F (comp x)) = given (boltzmann E states) states fixed F).
  { unfold states. change (all_states [-1; 1]%Z n) with (spin_states n). rewrite (given_eq n fixed E F Hok Hspin Hlt). cbv zeta. fold k.
    rewrite <- (boltzmann_ext ce' (fun x => E (complete fixed 0 x)) (spin_states k)); [reflexivity|]. intros s _. unfold ce'. apply EE. }
  rewrite G in A1, A2.
  assert (SM' : (fun rows => err (map comp rows)) = (fun rows => sumf rows (fun x => F (comp x)) / INR m - given (boltzmann E states) states fixed F)) by (apply functional_extensionality; intros rows; unfold err; now rewrite sumf_map).
  split.
  - rewrite Q. change (fun rows => err (map comp rows) ^ 2) with (fun rows => (fun rows => err (map comp rows)) rows ^ 2). rewrite SM'. exact A1.
  - intros d Hd. rewrite Q. change (fun rows => if Rlt_dec d (Rabs (err (map comp rows))) then 1 else 0) with (fun rows => if Rlt_dec d (Rabs ((fun rows => err (map comp rows)) rows)) then 1 else 0). rewrite SM'. exact (A2 d Hd).
Qed.
Print Assumptions C95_boost.

(** Three spins with the middle one fixed at 1 and a single coupling between the first two: the
    hypotheses hold, and given the fixed spin the mean of the first is tanh 1 and not 0. *)
Example C95_example :
  let fixed := [(1%nat, 1%Z)] in let E := fun s => ising_energy 3 [0; 0; 0; 1; 0; 0] (map IZR s) in let states := all_states [-1; 1]%Z 3 in
  nonconstant E (filter (agrees fixed) states) /\
  given (boltzmann E states) states fixed (fun s => IZR (nth 0 s 0%Z)) = tanh 1 /\
  expectation (boltzmann E states) states (fun s => IZR (nth 0 s 0%Z)) = 0.
Proof.
  intros fixed E states.
  assert (EV : forall a b c, E [a; b; c] = - (IZR a * IZR b)) by (intros; unfold E, ising_energy, coupling, nthR, sumf; cbn; ring).
  assert (Fs : filter (agrees fixed) states = [[-1; 1; -1]; [-1; 1; 1]; [1; 1; -1]; [1; 1; 1]]%Z) by reflexivity.
  assert (Ss : states = [[-1; -1; -1]; [-1; -1; 1]; [-1; 1; -1]; [-1; 1; 1]; [1; -1; -1]; [1; -1; 1]; [1; 1; -1]; [1; 1; 1]]%Z) by reflexivity.
  assert (P := exp_pos 1). assert (P' := exp_pos (-1)).
  assert (Z0 : partition E states = 4 * (exp 1 + exp (-1))).
  { unfold partition. rewrite Ss. unfold sumf. cbn [map fold_right sumR]. rewrite !EV. replace (- - (-1 * -1)) with 1 by ring. replace (- - (-1 * 1)) with (-1) by ring. replace (- - (1 * -1)) with (-1) by ring. replace (- - (1 * 1)) with 1 by ring. ring. }
  split; [|split].
  - exists [-1; 1; -1]%Z, [1; 1; 1]%Z. rewrite Fs. split; [now left|]. split; [right; right; right; now left|]. rewrite !EV. lra.
  - unfold given. rewrite Fs. unfold boltzmann. rewrite Z0. unfold sumf. cbn [map fold_right sumR nth]. rewrite !EV. replace (- - (-1 * 1)) with (-1) by ring. replace (- - (1 * 1)) with 1 by ring.
    unfold tanh, sinh, cosh. replace (- (1)) with (-1) by ring. field. lra.
  - unfold expectation, boltzmann. rewrite Z0, Ss. unfold sumf. cbn [map fold_right sumR nth]. rewrite !EV. replace (- - (-1 * -1)) with 1 by ring. replace (- - (-1 * 1)) with (-1) by ring. replace (- - (1 * -1)) with (-1) by ring. replace (- - (1 * 1)) with 1 by ring. field. lra.
Qed.
