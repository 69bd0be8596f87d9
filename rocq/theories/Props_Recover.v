(** * Property theorem C102: from the sampler to the solver and back. *)
From Coq Require Import FunctionalExtensionality.
From Coquelicot Require Import Coquelicot.
From Verif Require Import Prelude Spec PreludeFacts M_Index M_Sampler M_Corr M_Params M_Energy M_Models M_MCH P_Params P_Energy P_Energy2 P_Corr P_Corr2
  P_Models P_MPF P_MCH P_Convert P_Descent P_Stable P_Sampler P_Metro P_Cpp Props_Energy Props_Corr Props_Models Props_MCH Props_MCHDescent Props_Stable
  P_Converge P_Converge2 P_Converge3 Props_Converge Props_Converge2.
Import ListNotations.
Local Open Scope R_scope.

Lemma rows_exp_finite_sum {X I} (St : list X) Q m (ks : list I) (f : I -> list X -> R) : averaging St Q -> forall s, In s St ->
  rows_exp Q m (fun l => sumf ks (fun k => f k l)) s = sumf ks (fun k => rows_exp Q m (f k) s).
Proof.
  intros HQ s Hs. induction ks as [|k ks IH].
  - rewrite sumf_nil. rewrite <- (rows_exp_const St Q m HQ 0 s Hs). apply (rows_exp_ext St Q m HQ); [exact Hs|]. intros; apply sumf_nil.
  - rewrite sumf_cons, <- IH. rewrite <- (Rmult_1_l (rows_exp Q m (f k) s)), <- (Rmult_1_l (rows_exp Q m (fun l => sumf ks (fun k => f k l)) s)).
    rewrite <- (rows_exp_lin St Q m HQ) by exact Hs. apply (rows_exp_ext St Q m HQ); [exact Hs|]. intros. rewrite sumf_cons. ring.
Qed.

(** Probability that the averages of several functions are not all close to their
    expectations: mean square errors add up. *)
Lemma joint_errors {X} (dec : forall a b : X, {a = b} + {a <> b}) (St : list X) (P : (X -> R) -> X -> R) m0 eps w (F : nat -> X -> R) K :
  NoDup St -> St <> [] -> 0 < eps <= 1 -> (0 < m0)%nat -> averaging St P -> minor St eps (fun F => iterf m0 P F) -> dist St w ->
  (forall G, sumf St (fun x => w x * P G x) = sumf St (fun x => w x * G x)) -> (forall k x, (k < K)%nat -> In x St -> Rabs (F k x) <= 1) ->
  forall b n_iters m s t, (0 < n_iters)%nat -> (0 < m)%nat -> In s St -> 0 < t ->
  let err := fun k rows => sumf rows (F k) / INR m - sumf St (fun x => w x * F k x) in
  let D := fun rows => sumf (seq 0 K) (fun k => err k rows ^ 2) in
  let C := 4 * (1 + 2 * INR m0 / eps) in
  iterf b P (rows_exp (fun F => iterf n_iters P F) m (fun rows => if Rlt_dec (D rows) t then 0 else 1)) s * t * INR m <= INR K * C.
Proof.
  intros Hnd Hne He Hm0 HA HM HW Hst HF b ni m s t Hni Hm Hs Ht err D C. assert (Pm : 0 < INR m) by (now apply lt_0_INR).
  assert (HQ : averaging St (fun F => iterf ni P F)) by (now apply avg_iter).
  assert (K0 : forall x, In x St -> rows_exp (fun F => iterf ni P F) m D x <= INR K * C / INR m).
  { intros x Hx. unfold D. rewrite (rows_exp_finite_sum St _ m (seq 0 K) (fun k l => err k l ^ 2) HQ x Hx).
    replace (INR K * C / INR m) with (sumf (seq 0 K) (fun _ => C * 1 ^ 2 / INR m)) by (rewrite sumf_const, seq_length; field; lra).
    apply sumf_le. intros k Hk. apply in_seq in Hk.
    destruct (sample_errors dec St P m0 eps w (F k) 1 Hnd Hne He Hm0 HA HM HW Hst (fun y Hy => HF k y ltac:(lia) Hy) 0 ni m x Hni Hm Hx) as [A _].
    exact A. }
  apply (Rmult_le_reg_r (/ INR m)); [now apply Rinv_0_lt_compat|]. rewrite Rmult_assoc with (r2 := INR m), Rinv_r, Rmult_1_r by lra.
  apply (Rmult_le_reg_r (/ t)); [now apply Rinv_0_lt_compat|]. rewrite Rmult_assoc with (r2 := t), Rinv_r, Rmult_1_r by lra.
  apply (iter_bound St); [exact HA|exact Hs|]. intros x Hx.
  apply Rle_trans with (rows_exp (fun F => iterf ni P F) m (fun l => / t * D l + 0 * D l) x).
  - apply (rows_exp_le St _ m HQ); [exact Hx|]. intros l _ _. rewrite Rmult_0_l, Rplus_0_r.
    assert (0 <= D l) by (apply sumf_nonneg; intros; apply pow2_ge_0). assert (It : 0 < / t) by now apply Rinv_0_lt_compat.
    destruct (Rlt_dec (D l) t) as [L|L]; [apply Rmult_le_pos; lra|]. rewrite <- (Rinv_l t) by lra. apply Rmult_le_compat_l; lra.
  - rewrite (rows_exp_lin St _ m HQ (/ t) 0 D D x Hx), Rmult_0_l, Rplus_0_r, Rmult_comm. apply Rmult_le_compat_r; [left; now apply Rinv_0_lt_compat|].
    apply K0, Hx.
Qed.

(** Constraints near the correlations of q have exactly one solution, near q. *)
Lemma solution_close (n : nat) (q c : list R) (rho : R) : let P := (n + n * (n - 1) / 2)%nat in
  (0 < n)%nat -> length q = P -> length c = P -> 0 < rho ->
  dist2 (file_observables n true q) c < rho * exp (- 2 * (sumf q Rabs + sqrt (INR P) * rho)) ->
  exists params, length params = P /\ dist2 params q < rho /\
    forall p, length p = P -> (enumerate_root_f (file_observables n true) None c p = Ok (map (fun _ => 0) c) <-> p = params).
Proof.
  intros P Hn Hq Hc Hr Dist.
  destruct (C98_certificate n c q rho Hn Hq Hc Hr) as (params & Lp & Ep & Dp & Up).
  { fold P. set (B := sumf q Rabs + sqrt (INR P) * rho) in *.
    pose proof (exp_pos (2 * B)) as Ep. apply (Rmult_lt_compat_r (exp (2 * B))) in Dist; [|exact Ep].
    rewrite Rmult_assoc, <- exp_plus in Dist. replace (- 2 * B + 2 * B) with 0 in Dist by ring. rewrite exp_0, Rmult_1_r in Dist. exact Dist. }
  fold P in Lp, Up. exists params. split; [exact Lp|]. split.
  - unfold dist2 in *. rewrite Hq. rewrite Lp in Dp. apply Rle_lt_trans with (2 := Dp). right. f_equal. apply sumf_ext. intros; ring.
  - intros p Lp'. destruct (file_observables_ok n true p Hn Lp') as [Lo' _]. fold P in Lo'. unfold enumerate_root_f. cbn [exceeds]. split.
    + intros H. apply vsub_zero in H; [|lia]. now apply Up.
    + intros ->. apply vsub_zero; [lia|exact Ep].
Qed.

(** What a sample is good for: its means and correlations, given to the exact solver
    as constraints, have exactly one solution, and it is closer to q than rho. *)
Definition recovers (n : nat) (q : list R) (rho : R) (rows : list (list Z)) : Prop :=
  let P := (n + n * (n - 1) / 2)%nat in
  forall c, length c = P ->
    (forall k, (k < P)%nat -> nthR c k = sumf rows (fun s => nthR (ising_obs (map IZR s)) k) / INR (length rows)) ->
    exists params, length params = P /\ dist2 params q < rho /\
      forall p, length p = P -> (enumerate_root_f (file_observables n true) None c p = Ok (map (fun _ => 0) c) <-> p = params).

Section Recover.
Variables (n : nat) (q : list R).
Let P := (n + n * (n - 1) / 2)%nat.
Let states := all_states [-1; 1]%Z n.
Let E := fun s => ising_energy n q (map IZR s).
Hypothesis Hn : (0 < n)%nat.
Hypothesis Hq : length q = P.
Let o := fun (k : nat) (s : list Z) => nthR (ising_obs (map IZR s)) k.

(** Squared distance of the averages of a sample from the expectations. *)
Definition sample_dist (m : nat) (rows : list (list Z)) : R :=
  sumf (seq 0 P) (fun k => (sumf rows (o k) / INR m - sumf states (fun x => boltzmann E states x * o k x)) ^ 2).

Lemma close_recovers rho rows : 0 < rho ->
  let r := rho * exp (- 2 * (sumf q Rabs + sqrt (INR P) * rho)) in
  sample_dist (length rows) rows < r * r -> recovers n q rho rows.
Proof using Hn Hq.
  intros Hr r Hd c Hc Hck. assert (Rp : 0 < r) by (apply Rmult_lt_0_compat; [exact Hr|apply exp_pos]).
  destruct (file_observables_ok n true q Hn Hq) as [Lo Ho]. fold P in Lo, Ho. set (mu := file_observables n true q) in *.
  assert (Mu : forall k, (k < P)%nat -> nthR mu k = sumf states (fun s => boltzmann E states s * o k s)).
  { intros k Hk. rewrite Ho by exact Hk. unfold expectation. rewrite <- (st_sum n Hn). apply sumf_ext. intros s. unfold boltzmann, o, E. do 2 f_equal.
    unfold partition. now rewrite <- (st_sum n Hn (fun s => exp (- ising_energy n q s))). }
  apply (solution_close n q c rho Hn Hq Hc Hr). fold P. fold r. fold mu.
  unfold dist2. rewrite Hc. fold P. rewrite <- (sqrt_square r) by lra. apply sqrt_lt_1; [apply sumf_nonneg; intros; apply Rle_0_sqr|apply Rle_0_sqr|].
  apply Rle_lt_trans with (2 := Hd). right. unfold sample_dist. apply sumf_ext_in. intros k Hk. apply in_seq in Hk. rewrite Hck by lia. rewrite Mu by lia. unfold o. ring.
Qed.

Lemma obs_bound k s : (k < P)%nat -> In s states -> Rabs (o k s) <= 1.
Proof using Hn. intros Hk Hs. exact (o_b n Hn s k Hs Hk). Qed.
End Recover.

(** Sample with the compiled Metropolis sampler at parameters q, then fit: there is a
    constant C, depending on q only, such that for every accuracy and confidence, every
    start, burn-in and number of updates between rows, m rows with
    P C <= delta r^2 m are enough for the fitted parameters to be within rho of q with
    probability at least 1 - delta. *)
Theorem C102_boost : forall (n : nat) (q : list R), let P := (n + n * (n - 1) / 2)%nat in
  (0 < n)%nat -> length q = P -> (exists k, (k < length q)%nat /\ nthR q k <> 0) ->
  exists C, 0 < C /\ forall (rho delta : R) s0 burn_in n_iters m c,
  let r := rho * exp (- 2 * (sumf q Rabs + sqrt (INR P) * rho)) in
  0 < rho -> 0 < delta -> In s0 (all_states [-1; 1]%Z n) -> (0 < n_iters)%nat -> INR P * C <= delta * (r * r) * INR m ->
  exists good : list (list Z) -> bool,
    Etape (draw n) (burn_in + m * n_iters) (fun l =>
      if good (fst (cpp_generate_sample tape (cpp_sample_metropolis tape n q (coupling_mat n n q)) (cpp_calc_e n q) n m burn_in n_iters false s0 (l, c)))
      then 0 else 1) <= delta /\
    forall rows, length rows = m -> good rows = true -> recovers n q rho rows.
Proof.
  intros n q P Hn Hq NZ. set (states := all_states [-1; 1]%Z n). set (E := fun s => ising_energy n q (map IZR s)). set (ce := cpp_calc_e n q).
  assert (EE : forall s, In s states -> ce s = E s).
  { intros s Hs. apply spin_states_spec in Hs. unfold ce, E. now apply cpp_calc_e_eq. }
  assert (NE : nonconstant ce states).
  { apply (energy_zero_iff n q Hq) in NZ. destruct NZ as (s & s' & Hs & Hs' & NE). exists s, s'. split; [assumption|]. split; [assumption|]. rewrite !EE by assumption. unfold E. intros Q. apply NE.
    rewrite (proj1 (C15_ising_energy n (map IZR s) q ltac:(rewrite map_length; now apply spin_states_spec in Hs) Hq)).
    now rewrite (proj1 (C15_ising_energy n (map IZR s') q ltac:(rewrite map_length; now apply spin_states_spec in Hs') Hq)). }
  destruct (rs_minor ce n Hn NE) as (eps & He & HM). exists (4 * (1 + 2 * INR (2 * n) / eps)).
  assert (Cp : 0 < 4 * (1 + 2 * INR (2 * n) / eps)).
  { assert (0 <= 2 * INR (2 * n) / eps) by (apply Rdiv_le_0_compat; [pose proof (pos_INR (2 * n)); lra|lra]). lra. }
  split; [exact Cp|]. intros rho delta s0 b k m c r Hr Hd Hs Hk Hm.
  assert (Rp : 0 < r) by (apply Rmult_lt_0_compat; [exact Hr|apply exp_pos]).
  assert (PP : 0 < INR P) by (apply lt_0_INR; unfold P; lia).
  assert (R2 : 0 < r * r) by now apply Rmult_lt_0_compat.
  assert (Mp : (0 < m)%nat).
  { destruct m as [|m]; [|lia]. change (INR 0) with 0 in Hm. rewrite Rmult_0_r in Hm. pose proof (Rmult_lt_0_compat _ _ PP Cp). lra. }
  set (F := fun (i : nat) (s : list Z) => nthR (ising_obs (map IZR s)) i).
  assert (J := joint_errors state_eq_dec (spin_states n) (rs_step ce n) (2 * n) eps (boltzmann ce states) F P
     (spin_states_NoDup n) (spin_states_ne n) He ltac:(lia) (rs_averaging ce n Hn) HM (boltzmann_dist _ _ (spin_states_ne n)) (rs_stationary ce n Hn)
     (fun i x Hi Hx => obs_bound n Hn i x Hi Hx) b k m s0 (r * r) Hk Mp Hs R2). cbv zeta in J.
  set (good := fun rows => if Rlt_dec (sample_dist n q m rows) (r * r) then true else false).
  exists good. split.
  - assert (Q : forall H : list (list Z) -> R, Etape (draw n) (b + m * k) (fun l => H (fst (cpp_generate_sample tape (cpp_sample_metropolis tape n q (coupling_mat n n q)) ce n m b k false s0 (l, c))))
       = iterf b (rs_step ce n) (rows_exp (fun F => iterf k (rs_step ce n) F) m H) s0).
    { intros H. rewrite (cpp_generate_tape (draw n) (okdraw n) (draw_ext n) ce (fun s => In s states) (inext ce) (fun e s He Hs => inext_ok ce n e s He Hs)); [| |assumption].
      - assert (EP : Pnext (draw n) (inext ce) = rs_step ce n) by (apply functional_extensionality; intros G; apply functional_extensionality; intros s; apply draw_next). now rewrite EP.
      - intros s [i u] l c0 H1 H2. assert (Ls : length s = n) by (now apply spin_states_spec in H1). rewrite <- (ising_tape_step ce n s i u l c0 Ls H2).
        cbn [tape randint fst]. rewrite clampi_in by apply H2. unfold ce. rewrite cpp_sample_metropolis_eq; [|apply H2|assumption].
        unfold sample_metropolis at 2. cbn [tape randint fst]. rewrite Ls, clampi_in by apply H2. reflexivity. }
    fold ce. rewrite (Q (fun rows => if good rows then 0 else 1)).
    assert (EF : (fun rows => if good rows then 0 else 1) =
      (fun rows => if Rlt_dec (sumf (seq 0 P) (fun i => (sumf rows (F i) / INR m - sumf (spin_states n) (fun x => boltzmann ce states x * F i x)) ^ 2)) (r * r) then 0 else 1)).
    { apply functional_extensionality. intros rows.
      assert (ED : sample_dist n q m rows = sumf (seq 0 P) (fun i => (sumf rows (F i) / INR m - sumf (spin_states n) (fun x => boltzmann ce states x * F i x)) ^ 2)).
      { unfold sample_dist. apply sumf_ext. intros i. change (sumf (spin_states n) (fun x => boltzmann ce states x * F i x)) with (expectation (boltzmann ce states) states (F i)).
        rewrite (boltzmann_ext ce E states (F i) EE). reflexivity. }
      unfold good. rewrite ED. now destruct (Rlt_dec _ _). }
    rewrite EF. match goal with |- ?a <= _ => set (pr := a) in * end. fold pr in J.
    apply (Rmult_le_reg_r (r * r)); [exact R2|]. apply (Rmult_le_reg_r (INR m)); [now apply lt_0_INR|]. lra.
  - intros rows Lr Hg. apply (close_recovers n q Hn Hq rho rows Hr). rewrite Lr. fold P. fold r.
    unfold good in Hg. destruct (Rlt_dec (sample_dist n q m rows) (r * r)); [assumption|discriminate].
Qed.
Print Assumptions C102_boost.

(** Sample with Metropolis.generate_sample_py at parameters q, then fit: there is a
    constant C, depending on q only, such that for every accuracy and confidence, every
    start, burn-in and number of updates between rows, m rows with
    P C <= delta r^2 m are enough for the fitted parameters to be within rho of q with
    probability at least 1 - delta. *)
Theorem C102_python : forall (n : nat) (q : list R), let P := (n + n * (n - 1) / 2)%nat in
  (0 < n)%nat -> length q = P -> (exists k, (k < length q)%nat /\ nthR q k <> 0) ->
  exists C, 0 < C /\ forall (rho delta : R) samples s0 burn_in n_iters m c,
  let r := rho * exp (- 2 * (sumf q Rabs + sqrt (INR P) * rho)) in
  0 < rho -> 0 < delta -> In s0 (all_states [-1; 1]%Z n) -> (0 < n_iters)%nat -> INR P * C <= delta * (r * r) * INR m ->
  exists good : list (list Z) -> bool,
    Etape (draw n) (burn_in_or burn_in n_iters + m * n_iters) (fun l =>
      match ising_generate_sample_py tape (fun s => ising_energy n q (map IZR s)) n m n_iters burn_in false samples (Some [s0]) (l, c) with
      | Ok g => if good (g_sample g) then 0 else 1 | Err _ => 1 end) <= delta /\
    forall rows, length rows = m -> good rows = true -> recovers n q rho rows.
Proof.
  intros n q P Hn Hq NZ. set (states := all_states [-1; 1]%Z n). set (E := fun s => ising_energy n q (map IZR s)). set (ce := E).
  assert (EE : forall s, In s states -> ce s = E s).
  { reflexivity. }
  assert (NE : nonconstant ce states).
  { apply (energy_zero_iff n q Hq) in NZ. destruct NZ as (s & s' & Hs & Hs' & NE). exists s, s'. split; [assumption|]. split; [assumption|]. rewrite !EE by assumption. unfold E. intros Q. apply NE.
    rewrite (proj1 (C15_ising_energy n (map IZR s) q ltac:(rewrite map_length; now apply spin_states_spec in Hs) Hq)).
    now rewrite (proj1 (C15_ising_energy n (map IZR s') q ltac:(rewrite map_length; now apply spin_states_spec in Hs') Hq)). }
  destruct (rs_minor ce n Hn NE) as (eps & He & HM). exists (4 * (1 + 2 * INR (2 * n) / eps)).
  assert (Cp : 0 < 4 * (1 + 2 * INR (2 * n) / eps)).
  { assert (0 <= 2 * INR (2 * n) / eps) by (apply Rdiv_le_0_compat; [pose proof (pos_INR (2 * n)); lra|lra]). lra. }
  split; [exact Cp|]. intros rho delta samples s0 b0 k m c r Hr Hd Hs Hk Hm.
  assert (Rp : 0 < r) by (apply Rmult_lt_0_compat; [exact Hr|apply exp_pos]).
  assert (PP : 0 < INR P) by (apply lt_0_INR; unfold P; lia).
  assert (R2 : 0 < r * r) by now apply Rmult_lt_0_compat.
  assert (Mp : (0 < m)%nat).
  { destruct m as [|m]; [|lia]. change (INR 0) with 0 in Hm. rewrite Rmult_0_r in Hm. pose proof (Rmult_lt_0_compat _ _ PP Cp). lra. }
  set (F := fun (i : nat) (s : list Z) => nthR (ising_obs (map IZR s)) i).
  set (b := burn_in_or b0 k).
  assert (J := joint_errors state_eq_dec (spin_states n) (rs_step ce n) (2 * n) eps (boltzmann ce states) F P
     (spin_states_NoDup n) (spin_states_ne n) He ltac:(lia) (rs_averaging ce n Hn) HM (boltzmann_dist _ _ (spin_states_ne n)) (rs_stationary ce n Hn)
     (fun i x Hi Hx => obs_bound n Hn i x Hi Hx) b k m s0 (r * r) Hk Mp Hs R2). cbv zeta in J.
  set (good := fun rows => if Rlt_dec (sample_dist n q m rows) (r * r) then true else false).
  exists good. split.
  - assert (Q : forall H : list (list Z) -> R, Etape (draw n) (b + m * k) (fun l => match ising_generate_sample_py tape ce n m k b0 false samples (Some [s0]) (l, c) with Ok r => H (g_sample r) | Err _ => 1 end)
       = iterf b (rs_step ce n) (rows_exp (fun F => iterf k (rs_step ce n) F) m H) s0).
    { intros H. unfold ising_generate_sample_py, b.
      rewrite (generate_tape (draw n) (okdraw n) (draw_ext n) ce (fun s => In s states) (inext ce) (fun e s He Hs => inext_ok ce n e s He Hs)); [| |assumption|now apply spin_states_spec in Hs].
      - assert (EP : Pnext (draw n) (inext ce) = rs_step ce n) by (apply functional_extensionality; intros G; apply functional_extensionality; intros s; apply draw_next). now rewrite EP.
      - intros s [i u] l c0 H1 H2. apply (ising_tape_step ce n); [now apply spin_states_spec in H1|assumption]. }
    fold E. change (fun s => ising_energy n q (map IZR s)) with ce.
    rewrite (Q (fun rows => if good rows then 0 else 1)).
    assert (EF : (fun rows => if good rows then 0 else 1) =
      (fun rows => if Rlt_dec (sumf (seq 0 P) (fun i => (sumf rows (F i) / INR m - sumf (spin_states n) (fun x => boltzmann ce states x * F i x)) ^ 2)) (r * r) then 0 else 1)).
    { apply functional_extensionality. intros rows.
      assert (ED : sample_dist n q m rows = sumf (seq 0 P) (fun i => (sumf rows (F i) / INR m - sumf (spin_states n) (fun x => boltzmann ce states x * F i x)) ^ 2)).
      { unfold sample_dist. apply sumf_ext. intros i. change (sumf (spin_states n) (fun x => boltzmann ce states x * F i x)) with (expectation (boltzmann ce states) states (F i)).
        rewrite (boltzmann_ext ce E states (F i) EE). reflexivity. }
      unfold good. rewrite ED. now destruct (Rlt_dec _ _). }
    rewrite EF. match goal with |- ?a <= _ => set (pr := a) in * end. fold pr in J.
    apply (Rmult_le_reg_r (r * r)); [exact R2|]. apply (Rmult_le_reg_r (INR m)); [now apply lt_0_INR|]. lra.
  - intros rows Lr Hg. apply (close_recovers n q Hn Hq rho rows Hr). rewrite Lr. fold P. fold r.
    unfold good in Hg. destruct (Rlt_dec (sample_dist n q m rows) (r * r)); [assumption|discriminate].
Qed.
Print Assumptions C102_python.

(** The hypotheses can be met: for every C, accuracy and confidence there are enough rows. *)
Example C102_example : forall (n : nat) (q : list R) (C rho delta : R), let P := (n + n * (n - 1) / 2)%nat in
  0 < rho -> 0 < delta -> exists m : nat, let r := rho * exp (- 2 * (sumf q Rabs + sqrt (INR P) * rho)) in INR P * C <= delta * (r * r) * INR m.
Proof.
  intros n q C rho delta P Hr Hd. set (r := rho * exp (- 2 * (sumf q Rabs + sqrt (INR P) * rho))).
  assert (Rp : 0 < r) by (apply Rmult_lt_0_compat; [exact Hr|apply exp_pos]). assert (D2 : 0 < delta * (r * r)) by (apply Rmult_lt_0_compat; [exact Hd|now apply Rmult_lt_0_compat]).
  set (x := INR P * C / (delta * (r * r))). assert (Hm : exists m, x < INR m).
  { exists (Z.to_nat (up x)). destruct (archimed x) as [Ha _]. apply Rlt_le_trans with (1 := Ha). rewrite INR_IZR_INZ. apply IZR_le. lia. }
  destruct Hm as [m Hm]. exists m. cbv zeta. fold r. unfold x in Hm.
  apply (Rmult_lt_compat_l (delta * (r * r))) in Hm; [|exact D2]. replace (delta * (r * r) * (INR P * C / (delta * (r * r)))) with (INR P * C) in Hm by (field; lra). lra.
Qed.
