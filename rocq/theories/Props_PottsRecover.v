(** * Property theorem C121: from the Potts sampler to the solver and back. *)
From Coq Require Import FunctionalExtensionality.
From Coquelicot Require Import Coquelicot.
From Verif Require Import Prelude Spec PreludeFacts M_Index M_Sampler M_Corr M_Params M_Energy M_Enum M_Models M_MCH P_Params P_Energy P_Energy2 P_Corr2
  P_Models P_MCH P_Descent P_Stable P_Sampler P_Metro P_Cpp P_PottsGauge P_PottsStable Props_Energy Props_Enum Props_Models
  P_Converge P_Converge2 P_Converge3 Props_Converge Props_Converge2 Props_Recover Props_PottsGauge Props_PottsStable.
Import ListNotations.
Local Open Scope R_scope.

(** What a sample of a three-state Potts model is good for: with its averages as constraints of
    Enumerate.solve, every vector of parameters with a small residual is near q. *)
Definition potts_recovers (logest : nat -> nat -> nat) (n : nat) (q : list R) (d : R) (rows : list (list nat)) : Prop :=
  let P := (3 * n + n * (n - 1) / 2)%nat in
  forall (c params : list R) (max : option R) (r M : R), length c = P -> length params = P ->
    (forall a, (a < P)%nat -> nthR c a = sumf rows (fun s => nthR (potts_obs 3 s) a) / INR (length rows)) ->
    sumf q Rabs <= M -> sumf params Rabs <= M ->
    enumerate_min_f (potts_file_observables logest n 3) max c params = Ok r -> r < 10 ^ 30 ->
    let bound := 9 / 2 * exp (2 * M) * (r + d) in
    dist2 (centre n 3 params) (centre n 3 q) <= bound /\
    (forall i j, (i < j)%nat -> (j < n)%nat -> Rabs (nthR params (3 * n + pair_index n i j) - nthR q (3 * n + pair_index n i j)) <= bound) /\
    (forall i v w, (i < n)%nat -> (v < 3)%nat -> (w < 3)%nat ->
       Rabs ((nthR params (v * n + i) - nthR params (w * n + i)) - (nthR q (v * n + i) - nthR q (w * n + i))) <= 2 * bound).

Section Recover.
Variables (logest : nat -> nat -> nat) (n : nat) (q : list R).
Let P := (3 * n + n * (n - 1) / 2)%nat.
Let states := all_states [0; 1; 2]%nat n.
Let E := fun s => potts_energy n 3 q s.
Hypothesis Hn : (2 < n)%nat.
Hypothesis Hl : log_ok logest n 3.
Hypothesis Hq : length q = P.

(** Squared distance of the averages of a sample from the expectations. *)
Definition potts_sample_dist (m : nat) (rows : list (list nat)) : R :=
  sumf (seq 0 P) (fun a => (sumf rows (fun s => nthR (potts_obs 3 s) a) / INR m - sumf states (fun x => boltzmann E states x * nthR (potts_obs 3 x) a)) ^ 2).

Lemma potts_close_recovers d rows : 0 < d -> potts_sample_dist (length rows) rows < d * d -> potts_recovers logest n q d rows.
Proof using Hn Hq Hl.
  intros Hd Hs c params max r M Lc Lp Hc Mq Mp Er Hr bound. fold P in Lc, Lp, Hc.
  assert (Hq1 : length q = (n * 3 + n * (n - 1) / 2)%nat) by (rewrite Hq; unfold P; lia).
  destruct (file_obs_ok logest n 3 Hn ltac:(lia) Hl q Hq1) as [Lo Ho].
  assert (De : dist2 c (potts_file_observables logest n 3 q) <= d).
  { unfold dist2. rewrite Lo, Hq. rewrite <- (sqrt_square d) by lra. apply sqrt_le_1_alt. left. apply Rle_lt_trans with (2 := Hs). right. unfold potts_sample_dist.
    apply sumf_ext_in. intros a Ha. apply in_seq in Ha. rewrite Hc by lia. rewrite Ho by lia. unfold expectation. change (all_states (seq 0 3) n) with states. change (boltzmann (potts_energy n 3 q) states) with (boltzmann E states).
    ring. }
  destruct (C120_solver logest n 3 max q params c r d Hn ltac:(lia) Hl Hq1 ltac:(congruence) ltac:(congruence) De Er Hr) as (A & B & C).
  assert (Rr : 0 <= r + d).
  { assert (0 <= r); [|lra]. unfold enumerate_min_f in Er. destruct (exceeds max params); [assert (E0 : 10 ^ 30 = r) by congruence; rewrite <- E0; apply pow_le; lra|].
    destruct (vsub _ c); [|discriminate]. cbn [bind] in Er. injection Er as <-. apply sqrt_pos. }
  assert (Bd : INR 3 * INR 3 / (INR 3 - 1) * exp (2 * Rmax (sumf params Rabs) (sumf q Rabs)) * (r + d) <= bound).
  { unfold bound. apply Rmult_le_compat_r; [exact Rr|]. change (INR 3) with (1 + 1 + 1). replace ((1 + 1 + 1) * (1 + 1 + 1) / (1 + 1 + 1 - 1)) with (9 / 2) by field.
    apply Rmult_le_compat_l; [lra|]. apply exp_mono. pose proof (Rmax_lub _ _ _ Mp Mq). lra. }
  split; [|split].
  - lra.
  - intros i j Hij Hj. specialize (B i j Hij Hj). cbv zeta in B. lra.
  - intros i v w Hi Hv Hw. specialize (C i v w Hi Hv Hw). cbv zeta in C. lra.
Qed.
End Recover.

(** ** C121 *)
(** Sample with the compiled Metropolis sampler of the Potts model at parameters q, then fit:
    there is a constant C, depending on q only, such that for every accuracy d and confidence,
    every start, burn-in and number of updates between rows, m rows with P C <= delta d^2 m are
    enough: with probability at least 1 - delta the couplings of every fit with residual r
    and parameters adding up to at most M are within 9/2 exp(2 M) (r + d) of those of q, and so on. *)
Theorem C121_boost : forall (logest : nat -> nat -> nat) (n : nat) (q : list R), let P := (3 * n + n * (n - 1) / 2)%nat in
  (2 < n)%nat -> log_ok logest n 3 -> length q = P ->
  exists C, 0 < C /\ forall (d delta : R) s0 burn_in n_iters m c,
  0 < d -> 0 < delta -> In s0 (all_states [0; 1; 2]%nat n) -> (0 < n_iters)%nat -> INR P * C <= delta * (d * d) * INR m ->
  exists good : list (list nat) -> bool,
    Etape (pdraw n) (burn_in + m * n_iters) (fun l =>
      if good (fst (cpp_generate_sample ptape (cpp_potts_sample_metropolis ptape n q (coupling_mat n (3 * n) q)) (cpp_potts_calc_e n q) n m burn_in n_iters false s0 (l, c)))
      then 0 else 1) <= delta /\
    forall rows, length rows = m -> good rows = true -> potts_recovers logest n q d rows.
Proof.
  intros logest n q P Hn Hl Hq. set (states := all_states [0; 1; 2]%nat n). set (E := fun s => potts_energy n 3 q s). set (ce := cpp_potts_calc_e n q).
  assert (EE : forall s, In s states -> ce s = E s).
  { intros s Hs. apply potts_states_spec in Hs. unfold ce, E. apply cpp_potts_calc_e_eq; [lia|apply Hs|apply Hs]. }
  destruct (rsp_minor ce n ltac:(lia)) as (eps & He & HM). exists (4 * (1 + 2 * INR (2 * n) / eps)).
  assert (Cp : 0 < 4 * (1 + 2 * INR (2 * n) / eps)).
  { assert (0 <= 2 * INR (2 * n) / eps) by (apply Rdiv_le_0_compat; [pose proof (pos_INR (2 * n)); lra|lra]). lra. }
  split; [exact Cp|]. intros d delta s0 b k m c Hd Hdl Hs Hk Hm.
  assert (PP : 0 < INR P) by (apply lt_0_INR; unfold P; lia).
  assert (D2 : 0 < d * d) by now apply Rmult_lt_0_compat.
  assert (Mp : (0 < m)%nat).
  { destruct m as [|m]; [|lia]. change (INR 0) with 0 in Hm. rewrite Rmult_0_r in Hm. pose proof (Rmult_lt_0_compat _ _ PP Cp). lra. }
  set (F := fun (i : nat) (s : list nat) => nthR (potts_obs 3 s) i).
  assert (FB : forall i x, (i < P)%nat -> In x (potts_states n) -> Rabs (F i x) <= 1).
  { intros i x _ _. unfold F. pose proof (potts_obs_01 3 x i) as B. rewrite Rabs_pos_eq; lra. }
  assert (J := joint_errors pstate_eq_dec (potts_states n) (rs_potts ce n) (2 * n) eps (boltzmann ce states) F P
     (potts_states_NoDup n) (potts_states_ne n) He ltac:(lia) (rsp_averaging ce n ltac:(lia)) HM (boltzmann_dist _ _ (potts_states_ne n)) (rsp_stationary ce n ltac:(lia))
     FB b k m s0 (d * d) Hk Mp Hs D2). cbv zeta in J.
  set (good := fun rows => if Rlt_dec (potts_sample_dist n q m rows) (d * d) then true else false).
  exists good. split.
  - assert (Q : forall H : list (list nat) -> R, Etape (pdraw n) (b + m * k) (fun l => H (fst (cpp_generate_sample ptape (cpp_potts_sample_metropolis ptape n q (coupling_mat n (3 * n) q)) ce n m b k false s0 (l, c))))
       = iterf b (rs_potts ce n) (rows_exp (fun F => iterf k (rs_potts ce n) F) m H) s0).
    { intros H. rewrite (cpp_generate_tape (pdraw n) (okpdraw n) (pdraw_ext n) ce (fun s => In s states) (pnext ce) (fun e s He Hs => pnext_ok ce n e s He Hs)); [| |assumption].
      - assert (EP : Pnext (pdraw n) (pnext ce) = rs_potts ce n) by (apply functional_extensionality; intros G; apply functional_extensionality; intros s; apply pdraw_next). now rewrite EP.
      - intros s [[i r] u] l c0 H1 H2. assert (Ls : length s = n) by (now apply potts_states_spec in H1). rewrite <- (potts_tape_step ce n s i r u l c0 Ls H2).
        cbn [ptape randint fst Nat.eqb]. rewrite clampi_in by apply H2. unfold ce. rewrite cpp_potts_sample_metropolis_eq; [|apply ptape_ok|apply H2|first [assumption|lia]|now apply potts_states_spec in H1].
        unfold potts_sample_metropolis at 2. cbn [ptape randint fst Nat.eqb]. rewrite Ls, clampi_in by apply H2. reflexivity. }
    fold ce. rewrite (Q (fun rows => if good rows then 0 else 1)).
    assert (EF : (fun rows => if good rows then 0 else 1) =
      (fun rows => if Rlt_dec (sumf (seq 0 P) (fun i => (sumf rows (F i) / INR m - sumf (potts_states n) (fun x => boltzmann ce states x * F i x)) ^ 2)) (d * d) then 0 else 1)).
    { apply functional_extensionality. intros rows.
      assert (ED : potts_sample_dist n q m rows = sumf (seq 0 P) (fun i => (sumf rows (F i) / INR m - sumf (potts_states n) (fun x => boltzmann ce states x * F i x)) ^ 2)).
      { unfold potts_sample_dist. apply sumf_ext. intros i. change (sumf (potts_states n) (fun x => boltzmann ce states x * F i x)) with (expectation (boltzmann ce states) states (F i)).
        rewrite (boltzmann_ext ce E states (F i) EE). reflexivity. }
      unfold good. rewrite ED. now destruct (Rlt_dec _ _). }
    rewrite EF. match goal with |- ?a <= _ => set (pr := a) in * end. fold pr in J.
    apply (Rmult_le_reg_r (d * d)); [exact D2|]. apply (Rmult_le_reg_r (INR m)); [now apply lt_0_INR|]. lra.
  - intros rows Lr Hg. apply (potts_close_recovers logest n q Hn Hl Hq d rows Hd). rewrite Lr.
    unfold good in Hg. destruct (Rlt_dec (potts_sample_dist n q m rows) (d * d)); [assumption|discriminate].
Qed.
Print Assumptions C121_boost.

(** The same for Potts3.generate_sample_py:
    there is a constant C, depending on q only, such that for every accuracy d and confidence,
    every start, burn-in and number of updates between rows, m rows with P C <= delta d^2 m are
    enough: with probability at least 1 - delta the couplings of every fit with residual r
    and parameters adding up to at most M are within 9/2 exp(2 M) (r + d) of those of q, and so on. *)
Theorem C121_python : forall (logest : nat -> nat -> nat) (n : nat) (q : list R), let P := (3 * n + n * (n - 1) / 2)%nat in
  (2 < n)%nat -> log_ok logest n 3 -> length q = P ->
  exists C, 0 < C /\ forall (d delta : R) samples s0 burn_in n_iters m c,
  0 < d -> 0 < delta -> In s0 (all_states [0; 1; 2]%nat n) -> (0 < n_iters)%nat -> INR P * C <= delta * (d * d) * INR m ->
  exists good : list (list nat) -> bool,
    Etape (pdraw n) (burn_in_or burn_in n_iters + m * n_iters) (fun l =>
      match potts_generate_sample_py ptape (fun s => potts_energy n 3 q s) n m n_iters burn_in false samples (Some [s0]) (l, c) with
      | Ok g => if good (g_sample g) then 0 else 1 | Err _ => 1 end) <= delta /\
    forall rows, length rows = m -> good rows = true -> potts_recovers logest n q d rows.
Proof.
  intros logest n q P Hn Hl Hq. set (states := all_states [0; 1; 2]%nat n). set (E := fun s => potts_energy n 3 q s). set (ce := E).
  assert (EE : forall s, In s states -> ce s = E s).
  { reflexivity. }
  destruct (rsp_minor ce n ltac:(lia)) as (eps & He & HM). exists (4 * (1 + 2 * INR (2 * n) / eps)).
  assert (Cp : 0 < 4 * (1 + 2 * INR (2 * n) / eps)).
  { assert (0 <= 2 * INR (2 * n) / eps) by (apply Rdiv_le_0_compat; [pose proof (pos_INR (2 * n)); lra|lra]). lra. }
  split; [exact Cp|]. intros d delta samples s0 b0 k m c Hd Hdl Hs Hk Hm.
  assert (PP : 0 < INR P) by (apply lt_0_INR; unfold P; lia).
  assert (D2 : 0 < d * d) by now apply Rmult_lt_0_compat.
  assert (Mp : (0 < m)%nat).
  { destruct m as [|m]; [|lia]. change (INR 0) with 0 in Hm. rewrite Rmult_0_r in Hm. pose proof (Rmult_lt_0_compat _ _ PP Cp). lra. }
  set (F := fun (i : nat) (s : list nat) => nthR (potts_obs 3 s) i).
  assert (FB : forall i x, (i < P)%nat -> In x (potts_states n) -> Rabs (F i x) <= 1).
  { intros i x _ _. unfold F. pose proof (potts_obs_01 3 x i) as B. rewrite Rabs_pos_eq; lra. }
  set (b := burn_in_or b0 k).
  assert (J := joint_errors pstate_eq_dec (potts_states n) (rs_potts ce n) (2 * n) eps (boltzmann ce states) F P
     (potts_states_NoDup n) (potts_states_ne n) He ltac:(lia) (rsp_averaging ce n ltac:(lia)) HM (boltzmann_dist _ _ (potts_states_ne n)) (rsp_stationary ce n ltac:(lia))
     FB b k m s0 (d * d) Hk Mp Hs D2). cbv zeta in J.
  set (good := fun rows => if Rlt_dec (potts_sample_dist n q m rows) (d * d) then true else false).
  exists good. split.
  - assert (Q : forall H : list (list nat) -> R, Etape (pdraw n) (b + m * k) (fun l => match potts_generate_sample_py ptape ce n m k b0 false samples (Some [s0]) (l, c) with Ok r => H (g_sample r) | Err _ => 1 end)
       = iterf b (rs_potts ce n) (rows_exp (fun F => iterf k (rs_potts ce n) F) m H) s0).
    { intros H. unfold potts_generate_sample_py, b.
      rewrite (generate_tape (pdraw n) (okpdraw n) (pdraw_ext n) ce (fun s => In s states) (pnext ce) (fun e s He Hs => pnext_ok ce n e s He Hs)); [| |assumption|now apply potts_states_spec in Hs].
      - assert (EP : Pnext (pdraw n) (pnext ce) = rs_potts ce n) by (apply functional_extensionality; intros G; apply functional_extensionality; intros s; apply pdraw_next). now rewrite EP.
      - intros s [[i r] u] l c0 H1 H2. apply (potts_tape_step ce n); [now apply potts_states_spec in H1|assumption]. }
    fold E. change (fun s => potts_energy n 3 q s) with ce.
    rewrite (Q (fun rows => if good rows then 0 else 1)).
    assert (EF : (fun rows => if good rows then 0 else 1) =
      (fun rows => if Rlt_dec (sumf (seq 0 P) (fun i => (sumf rows (F i) / INR m - sumf (potts_states n) (fun x => boltzmann ce states x * F i x)) ^ 2)) (d * d) then 0 else 1)).
    { apply functional_extensionality. intros rows.
      assert (ED : potts_sample_dist n q m rows = sumf (seq 0 P) (fun i => (sumf rows (F i) / INR m - sumf (potts_states n) (fun x => boltzmann ce states x * F i x)) ^ 2)).
      { unfold potts_sample_dist. apply sumf_ext. intros i. change (sumf (potts_states n) (fun x => boltzmann ce states x * F i x)) with (expectation (boltzmann ce states) states (F i)).
        rewrite (boltzmann_ext ce E states (F i) EE). reflexivity. }
      unfold good. rewrite ED. now destruct (Rlt_dec _ _). }
    rewrite EF. match goal with |- ?a <= _ => set (pr := a) in * end. fold pr in J.
    apply (Rmult_le_reg_r (d * d)); [exact D2|]. apply (Rmult_le_reg_r (INR m)); [now apply lt_0_INR|]. lra.
  - intros rows Lr Hg. apply (potts_close_recovers logest n q Hn Hl Hq d rows Hd). rewrite Lr.
    unfold good in Hg. destruct (Rlt_dec (potts_sample_dist n q m rows) (d * d)); [assumption|discriminate].
Qed.
Print Assumptions C121_python.

(** The hypotheses can be met: for every C, accuracy and confidence there are enough rows, and
    the averages of a sample with the right frequencies satisfy the conclusion at q itself:
    three spins, all parameters zero, the sample of all 27 states. *)
Example C121_example : (forall (n : nat) (C d delta : R), let P := (3 * n + n * (n - 1) / 2)%nat in
    0 < d -> 0 < delta -> exists m : nat, INR P * C <= delta * (d * d) * INR m) /\
  exists logest, log_ok logest 3 3 /\ potts_recovers logest 3 (repeat 0 12) 1 (all_states [0; 1; 2]%nat 3).
Proof.
  split.
  - intros n C d delta P Hd Hdl. assert (D2 : 0 < delta * (d * d)) by (apply Rmult_lt_0_compat; [exact Hdl|now apply Rmult_lt_0_compat]).
    set (x := INR P * C / (delta * (d * d))). assert (Hm : exists m, x < INR m).
    { exists (Z.to_nat (up x)). destruct (archimed x) as [Ha _]. apply Rlt_le_trans with (1 := Ha). rewrite INR_IZR_INZ. apply IZR_le. lia. }
    destruct Hm as [m Hm]. exists m. unfold x in Hm. apply (Rmult_lt_compat_l (delta * (d * d))) in Hm; [|exact D2].
    replace (delta * (d * d) * (INR P * C / (delta * (d * d)))) with (INR P * C) in Hm by (field; lra). lra.
  - destruct C117_example as (logest & Hl & _). exists logest. split; [exact Hl|]. apply potts_close_recovers; [lia|exact Hl|reflexivity|lra|].
    apply Rle_lt_trans with 0; [|lra]. right. unfold potts_sample_dist. apply sumf_zero. intros a _.
    set (st := all_states [0; 1; 2]%nat 3). set (f := fun s => nthR (potts_obs 3 s) a).
    assert (E0 : forall s, potts_energy 3 3 (repeat 0 12) s = 0).
    { intros s. unfold potts_energy. rewrite !sumf_zero; [ring| |]; intros i _; [apply sumf_zero; intros j _|]; unfold nthR; rewrite nth_repeat; ring. }
    assert (L : INR (length st) = 27) by (cbn; lra).
    assert (B : forall s, boltzmann (fun s => potts_energy 3 3 (repeat 0 12) s) st s = / 27).
    { intros s. unfold boltzmann, partition. rewrite E0, (sumf_ext st _ (fun _ => 1)) by (intros; now rewrite E0, Ropp_0, exp_0). rewrite sumf_const, L, Ropp_0, exp_0. field. }
    rewrite (sumf_ext st (fun x => boltzmann _ st x * nthR (potts_obs 3 x) a) (fun x => / 27 * f x)) by (intros x; rewrite B; reflexivity).
    rewrite sumf_scal_l, L. fold f. field.
Qed.
