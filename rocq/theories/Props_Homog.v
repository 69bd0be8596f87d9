(** * C83: thermodynamics of a homogeneous system by an auxiliary field. *)
From Coquelicot Require Import Coquelicot.
From Verif Require Import Prelude Spec Spec2 PreludeFacts P_MaxEnt P_Gauss P_Homog M_Params M_MeanField M_RMF M_Homog Props_MeanField Props_RMF.
Import ListNotations.
Local Open Scope R_scope.

(** ** Specification *)
(** Parameters of the pairwise model with one field and one coupling. *)
Definition homogeneous (N : nat) (h K : R) (params : list R) : Prop :=
  (forall i, (i < N)%nat -> nthR params i = h) /\ (forall i j, (i < j < N)%nat -> coupling N params i j = K).

(** Numerical integration over the real line without error. *)
Definition exact_quad (quad : (R -> R) -> R) : Prop :=
  forall f v, is_RInt_gen f (Rbar_locally m_infty) (Rbar_locally p_infty) v -> quad f = v.

(** Boltzmann distribution of the pairwise model over all states of N spins +1, -1. *)
Definition ising_prob (N : nat) (params : list R) (s : list R) : R :=
  boltzmann (ising_energy N params) (all_states [1; -1] N) s.
Definition ising_mean (N : nat) (params : list R) (f : list R -> R) : R :=
  expectation (ising_prob N params) (all_states [1; -1] N) f.

Lemma states_ne n : spin_states n <> [].
Proof. intros H. assert (L := all_states_length [1; -1] n). fold (spin_states n) in L. rewrite H in L. simpl in L. pose proof (Nat.pow_nonzero 2 n). lia. Qed.

Section Weights.
Variables (h J : R) (N : nat) (params : list R).
Hypothesis HN : (0 < N)%nat.
Hypothesis HJ : 0 < J.
Hypothesis HP : homogeneous N h (2 * J) params.
Let st := spin_states N.
Let Zs := sumf st (wt h J).

Lemma wt_pos s : 0 < wt h J s. Proof. apply exp_pos. Qed.
Lemma Zs_pos : 0 < Zs. Proof. apply sumf_pos; [apply states_ne |]. intros; apply wt_pos. Qed.

Lemma spin_val n s i : In s (spin_states n) -> (i < n)%nat -> nthR s i = 1 \/ nthR s i = -1.
Proof.
  intros H Hi. apply all_states_spec in H. destruct H as [L F]. rewrite <- L in Hi.
  assert (In (nthR s i) [1; -1]). { apply F. apply nth_In. exact Hi. }
  simpl in H. destruct H as [<- | [<- | []]]; auto.
Qed.

Lemma energy_wt s : In s st -> - ising_energy N params s = h * sumR s + J * (sumR s * sumR s) - INR N * J.
Proof.
  intros Hs. destruct HP as [P1 P2]. unfold ising_energy. assert (L := spin_len N s Hs).
  assert (E : sumf (seq 0 N) (nthR s) = sumR s) by (rewrite sumR_nth, L; reflexivity).
  assert (S2 : sumR s * sumR s = 2 * sumf (seq 0 N) (fun i => sumf (seq (S i) (N - S i)) (fun j => nthR s i * nthR s j)) + INR N).
  { rewrite <- (sumf_pairs_seq N (fun i j => nthR s i * nthR s j)).
    assert (D := sumf_double_pairs (seq 0 N) (fun i j => nthR s i * nthR s j) (fun i j => Rmult_comm _ _)). cbv beta in D.
    rewrite (sumf_ext _ _ (fun a => nthR s a * sumR s)) in D.
    2:{ intros a. rewrite sumf_scal_l. rewrite (sumR_nth s), L. reflexivity. }
    rewrite sumf_scal_r in D. rewrite E in D.
    rewrite D. f_equal. rewrite (sumf_ext_in _ _ (fun _ => 1)); [rewrite sumf_const, seq_length; ring |].
    intros i Hi. apply in_seq in Hi. destruct (spin_val N s i Hs) as [-> | ->]; [lia | ring | ring]. }
  rewrite S2. rewrite (sumf_ext_in _ (fun i => nthR params i * nthR s i) (fun i => h * nthR s i)).
  2:{ intros i Hi. apply in_seq in Hi. rewrite P1 by lia. reflexivity. }
  rewrite sumf_scal_l. change (sumf (seq 0 N) (fun i => nthR s i)) with (sumf (seq 0 N) (nthR s)). rewrite E.
  rewrite (sumf_ext_in _ (fun i => sumf (seq (S i) (N - S i)) (fun j => coupling N params i j * (nthR s i * nthR s j)))
    (fun i => 2 * J * sumf (seq (S i) (N - S i)) (fun j => nthR s i * nthR s j))).
  2:{ intros i Hi. apply in_seq in Hi. rewrite <- sumf_scal_l. apply sumf_ext_in. intros j Hj. apply in_seq in Hj. rewrite P2 by lia. reflexivity. }
  rewrite sumf_scal_l. ring.
Qed.

Lemma boltz_wt s : In s st -> exp (- ising_energy N params s) = exp (- (INR N * J)) * wt h J s.
Proof. intros Hs. rewrite energy_wt by exact Hs. unfold wt. rewrite <- exp_plus. f_equal. ring. Qed.

Lemma partition_wt : partition (ising_energy N params) st = exp (- (INR N * J)) * Zs.
Proof. unfold partition, Zs. rewrite <- sumf_scal_l. apply sumf_ext_in. intros. apply boltz_wt. assumption. Qed.

Lemma prob_wt s : In s st -> ising_prob N params s = wt h J s / Zs.
Proof.
  intros Hs. unfold ising_prob, boltzmann. fold (spin_states N). fold st. rewrite partition_wt, boltz_wt by exact Hs.
  pose proof Zs_pos. pose proof (exp_pos (- (INR N * J))). field. lra.
Qed.

Lemma mean_wt f : ising_mean N params f = sumf st (fun s => wt h J s * f s) / Zs.
Proof.
  unfold ising_mean, expectation. fold (spin_states N). fold st. rewrite <- sumf_div. apply sumf_ext_in. intros s Hs.
  rewrite prob_wt by exact Hs. unfold Rdiv. ring.
Qed.

Lemma ising_entropy : entropy (ising_prob N params) st = ln Zs - sumf st (fun s => wt h J s * (h * sumR s + J * (sumR s * sumR s))) / Zs.
Proof.
  pose proof Zs_pos as Zp. unfold entropy. rewrite <- sumf_div.
  transitivity (sumf st (fun s => wt h J s / Zs * ln Zs) - sumf st (fun a => wt h J a * (h * sumR a + J * (sumR a * sumR a)) / Zs)).
  - rewrite <- sumf_minus, <- sumf_opp. apply sumf_ext_in. intros s Hs. rewrite prob_wt by exact Hs.
    rewrite (ln_quot _ _ (wt_pos s) Zp). unfold wt at 2. rewrite ln_exp. field. lra.
  - rewrite sumf_scal_r, sumf_div. fold Zs. f_equal. field. lra.
Qed.
End Weights.

(** ** The integral over the auxiliary field is the partition function of the pairwise model
    with fields h and couplings 2J (up to the constant of the diagonal terms). *)
Theorem C83_partition : forall h J N params, (0 < N)%nat -> 0 < J -> homogeneous N h (2 * J) params ->
  is_RInt_gen (fun m => exp (- FHomogeneous h J N m)) (Rbar_locally m_infty) (Rbar_locally p_infty)
    (exp (INR N * J) * partition (ising_energy N params) (all_states [1; -1] N)).
Proof.
  intros h J N params HN HJ HP. fold (spin_states N). rewrite (partition_wt h J N params) by assumption.
  rewrite <- Rmult_assoc, <- exp_plus. replace (INR N * J + - (INR N * J)) with 0 by ring. rewrite exp_0, Rmult_1_l. apply Z_line; assumption.
Qed.
Print Assumptions C83_partition.

(** ** Both averages are the mean of every single spin. *)
Theorem C83_magnetisation : forall quad h J N params, exact_quad quad -> (0 < N)%nat -> 0 < J -> homogeneous N h (2 * J) params ->
  forall i, (i < N)%nat ->
  avgxHomogeneous quad h J N = ising_mean N params (fun s => nthR s i) /\
  avgmHomogeneous quad h J N = ising_mean N params (fun s => nthR s i).
Proof.
  intros quad h J N params Q HN HJ HP i Hi.
  assert (X : forall k, (k < N)%nat -> quad (fun m => tanh (2 * (INR N * J) * m + h) * exp (- FHomogeneous h J N m)) = sumf (spin_states N) (fun s => wt h J s * nthR s k)).
  { intros k Hk. apply Q. apply (x_line h J N HN HJ k Hk). }
  assert (Zq : Zhom quad h J N = sumf (spin_states N) (wt h J)) by (apply Q, Z_line; assumption).
  rewrite (mean_wt h J N params) by assumption. split.
  - unfold avgxHomogeneous. cbv zeta. rewrite (X i Hi), Zq. reflexivity.
  - unfold avgmHomogeneous. rewrite Zq. f_equal. rewrite (Q _ _ (m_line h J N HN HJ)).
    assert (Np : 0 < INR N) by (apply lt_0_INR; exact HN).
    transitivity (sumf (seq 0 N) (fun k => sumf (spin_states N) (fun s => wt h J s * nthR s k)) / INR N).
    + rewrite sumf_swap, <- sumf_div. apply sumf_ext_in. intros s Hs. rewrite (sumf_scal_l (wt h J s) (seq 0 N) (nthR s)).
      replace (sumf (seq 0 N) (nthR s)) with (sumR s) by (rewrite sumR_nth, (spin_len N s Hs); reflexivity). unfold Rdiv. ring.
    + rewrite (sumf_ext_in _ _ (fun _ => sumf (spin_states N) (fun s => wt h J s * nthR s i))).
      * rewrite sumf_const, seq_length. field. lra.
      * intros k Hk. apply in_seq in Hk. rewrite <- (X i Hi). symmetry. apply X. lia.
Qed.
Print Assumptions C83_magnetisation.

(** ** The entropy is the entropy of the Boltzmann distribution. *)
Theorem C83_entropy : forall quad h J N params, exact_quad quad -> (0 < N)%nat -> 0 < J -> homogeneous N h (2 * J) params ->
  SHomogeneous quad h J N = entropy (ising_prob N params) (all_states [1; -1] N).
Proof.
  intros quad h J N params Q HN HJ HP. fold (spin_states N). rewrite (ising_entropy h J N params) by assumption.
  unfold SHomogeneous. cbv zeta.
  assert (Zq : Zhom quad h J N = sumf (spin_states N) (wt h J)) by (apply Q, Z_line; assumption).
  rewrite Zq, (Q _ _ (dF_line h J N HN HJ)). reflexivity.
Qed.
Print Assumptions C83_entropy.

Lemma ln_sqrt x : 0 < x -> ln (sqrt x) = / 2 * ln x.
Proof.
  intros Hx. rewrite <- (sqrt_sqrt x) at 2 by lra. rewrite ln_mult by (apply sqrt_lt_R0; exact Hx). field.
Qed.

(** dFdT is the derivative in the temperature, at temperature 1, when h and J are divided
    by it. *)
Theorem C83_temperature_derivative : forall h J N m, (0 < N)%nat -> 0 < J ->
  derivable_pt_lim (fun T => FHomogeneous (h / T) (J / T) N m) 1 (dFdT h J N m).
Proof.
  intros h J N m HN HJ. assert (Np : 0 < INR N) by (apply lt_0_INR; exact HN). apply is_derive_Reals.
  set (n := INR N) in *. set (A := 2 * (n * J) * m + h).
  apply (is_derive_ext_loc (fun T => n * (n * J * m * m / T - ln 2 - ln (cosh (A / T))) + / 2 * (ln (PI / (n * (n * J))) + ln T))).
  { exists (mkposreal (/ 2) ltac:(lra)). intros T HT. assert (Tp : 0 < T).
    { unfold ball in HT; simpl in HT; unfold AbsRing_ball, abs, minus, plus, opp in HT; simpl in HT. apply Rabs_def2 in HT. lra. }
    unfold FHomogeneous. fold n. rewrite log_cosh.
    replace (2 * (n * (J / T)) * m + h / T) with (A / T) by (unfold A; field; lra).
    replace (PI / (n * (n * (J / T)))) with (PI / (n * (n * J)) * T) by (field; lra).
    pose proof PI_RGT_0. assert (X : 0 < PI / (n * (n * J))).
    { apply Rdiv_lt_0_compat; [lra |]. apply Rmult_lt_0_compat; [lra |]. apply Rmult_lt_0_compat; lra. }
    rewrite ln_sqrt by (apply Rmult_lt_0_compat; lra).
    rewrite ln_mult by lra. change (n * (n * J * m * m / T - ln 2 - ln (cosh (A / T))) + / 2 * (ln (PI / (n * (n * J))) + ln T) =
      n * (n * (J / T) * m * m - ln 2 - ln (cosh (A / T))) + / 2 * (ln (PI / (n * (n * J))) + ln T)). field. lra. }
  unfold dFdT. fold n. fold A.
  assert (C : forall x, is_derive cosh x (sinh x)) by (intros; apply is_derive_Reals, derivable_pt_lim_cosh).
  assert (D : is_derive (fun T => ln (cosh (A / T))) 1 (- A * tanh A)).
  { evar_last.
    - apply (is_derive_comp ln (fun T => cosh (A / T)) 1).
      + apply is_derive_ln. apply cosh_pos'.
      + apply (is_derive_comp cosh (fun T => A / T) 1); [apply C |]. auto_derive; [lra | reflexivity].
    - unfold scal; simpl; unfold mult; simpl. unfold tanh. replace (A / 1) with A by field. field. pose proof (cosh_pos' A). lra. }
  evar_last.
  - apply (is_derive_plus (fun T => n * (n * J * m * m / T - ln 2 - ln (cosh (A / T)))) (fun T => / 2 * (ln (PI / (n * (n * J))) + ln T))).
    + apply (is_derive_scal (fun T => n * J * m * m / T - ln 2 - ln (cosh (A / T)))).
      apply (is_derive_minus (fun T => n * J * m * m / T - ln 2) (fun T => ln (cosh (A / T)))); [| exact D].
      auto_derive; [lra | reflexivity].
    + apply (is_derive_scal (fun T => ln (PI / (n * (n * J))) + ln T)). auto_derive; [lra | reflexivity].
  - unfold plus, minus, opp, scal; simpl. unfold mult, plus, opp; simpl. field.
Qed.
Print Assumptions C83_temperature_derivative.

(** ** Independent entropy and multi-information *)

Section Info.
Variables (h J : R) (N : nat) (params : list R).
Hypothesis HN : (0 < N)%nat.
Hypothesis HJ : 0 < J.
Hypothesis HP : homogeneous N h (2 * J) params.

Lemma prob_pos s : In s (spin_states N) -> 0 < ising_prob N params s.
Proof. intros _. apply boltzmann_pos. apply states_ne. Qed.
Lemma prob_sum : sumf (spin_states N) (ising_prob N params) = 1.
Proof. apply boltzmann_sum. apply states_ne. Qed.

Lemma constant_state v n : In v [1; -1] -> In (repeat v n) (spin_states n).
Proof. intros Hv. apply all_states_spec. split; [apply repeat_length |]. intros w Hw. apply repeat_spec in Hw. subst. exact Hv. Qed.

Lemma nthR_repeat v n i : (i < n)%nat -> nthR (repeat v n) i = v.
Proof. intros H. unfold nthR. rewrite (nth_indep _ 0 v) by (rewrite repeat_length; exact H). apply nth_repeat. Qed.

Lemma spin_prob i : (i < N)%nat -> ising_mean N params (fun s => if Reqb (nthR s i) 1 then 1 else 0) = (1 + ising_mean N params (fun s => nthR s i)) / 2.
Proof.
  intros Hi. unfold ising_mean, expectation. fold (spin_states N).
  transitivity ((sumf (spin_states N) (ising_prob N params) + sumf (spin_states N) (fun s => ising_prob N params s * nthR s i)) / 2); [| rewrite prob_sum; reflexivity].
  rewrite <- sumf_plus, <- sumf_div. apply sumf_ext_in. intros s Hs.
  destruct (spin_val N s i Hs Hi) as [-> | ->]; unfold Reqb; destruct (Req_EM_T _ _); lra.
Qed.

Lemma mean_bounds i : (i < N)%nat -> -1 < ising_mean N params (fun s => nthR s i) < 1.
Proof.
  intros Hi.
  assert (H : forall e, e = 1 \/ e = -1 -> 0 < 1 + e * ising_mean N params (fun s => nthR s i)).
  { intros e He. unfold ising_mean, expectation. fold (spin_states N). rewrite <- prob_sum at 1. rewrite <- sumf_scal_l, <- sumf_plus.
    assert (I : In (repeat e N) (spin_states N)) by (apply constant_state; simpl; destruct He; subst; auto).
    apply Rlt_le_trans with (ising_prob N params (repeat e N) + e * (ising_prob N params (repeat e N) * nthR (repeat e N) i)).
    - rewrite nthR_repeat by exact Hi. pose proof (prob_pos _ I). destruct He; subst; lra.
    - apply (sumf_in_le _ (fun a => ising_prob N params a + e * (ising_prob N params a * nthR a i))); [| exact I].
      intros s Hs. pose proof (prob_pos _ Hs). destruct (spin_val N s i Hs Hi) as [-> | ->]; destruct He; subst; lra. }
  pose proof (H 1 (or_introl eq_refl)). pose proof (H (-1) (or_intror eq_refl)). lra.
Qed.
End Info.

(** The sum over spins of the entropy of each spin alone; the second formula agrees. *)
Theorem C83_independent_entropy : forall quad h J N params, exact_quad quad -> (0 < N)%nat -> 0 < J -> homogeneous N h (2 * J) params ->
  independentEntropyHomogeneous quad h J N =
    sumf (seq 0 N) (fun i => binary_entropy (ising_mean N params (fun s => if Reqb (nthR s i) 1 then 1 else 0))) /\
  independentEntropyHomogeneous2 quad h J N = independentEntropyHomogeneous quad h J N.
Proof.
  intros quad h J N params Q HN HJ HP. split.
  - rewrite (sumf_ext_in _ _ (fun _ => binary_entropy ((1 + avgxHomogeneous quad h J N) / 2))).
    + rewrite sumf_const, seq_length. unfold independentEntropyHomogeneous, independentEntropy1, binary_entropy. f_equal.
      replace (1 - (1 + avgxHomogeneous quad h J N) / 2) with ((1 - avgxHomogeneous quad h J N) / 2) by field. field.
    + intros i Hi. apply in_seq in Hi. rewrite spin_prob by lia. f_equal. f_equal. f_equal. symmetry.
      apply (C83_magnetisation quad h J N params Q HN HJ HP). lia.
  - unfold independentEntropyHomogeneous2, independentEntropyHomogeneous. symmetry. apply Props_MeanField.C61_independent_entropies_agree.
    rewrite (proj1 (C83_magnetisation quad h J N params Q HN HJ HP 0%nat HN)). apply mean_bounds. exact HN.
Qed.
Print Assumptions C83_independent_entropy.

Section Multi.
Variables (h J : R) (N : nat) (params : list R) (x : R).
Hypothesis HN : (0 < N)%nat.
Hypothesis HJ : 0 < J.
Hypothesis HP : homogeneous N h (2 * J) params.
Hypothesis Hx : -1 < x < 1.
Hypothesis Hmean : forall i, (i < N)%nat -> ising_mean N params (fun s => nthR s i) = x.
Let lp := ln ((1 + x) / 2).
Let lm := ln ((1 - x) / 2).
Let al := (lp + lm) / 2.
Let be := (lp - lm) / 2.
(** Independent spins of the same mean. *)
Definition indep_prob (s : list R) : R := exp (INR N * al + be * sumR s).

Lemma indep_sum : sumf (spin_states N) indep_prob = 1.
Proof.
  unfold indep_prob. rewrite (sumf_ext _ _ (fun s => exp (INR N * al) * exp (be * sumR s))) by (intros; apply exp_plus).
  rewrite sumf_scal_l, sum_exp. assert (Cp := cosh_pos' be).
  rewrite <- (Rpower_pow N (2 * cosh be)) by lra. unfold Rpower. rewrite <- exp_plus, <- Rmult_plus_distr_l.
  replace (al + ln (2 * cosh be)) with (ln 1). { rewrite ln_1, Rmult_0_r. apply exp_0. }
  transitivity (ln (exp al * (2 * cosh be))).
  - f_equal. unfold cosh. replace (2 * ((exp be + exp (- be)) / 2)) with (exp be + exp (- be)) by field.
    rewrite Rmult_plus_distr_l, <- !exp_plus. replace (al + be) with lp by (unfold al, be; field). replace (al + - be) with lm by (unfold al, be; field).
    unfold lp, lm. rewrite !exp_ln by lra. field.
  - rewrite ln_mult, ln_exp by (try apply exp_pos; lra). reflexivity.
Qed.

Lemma cross : - sumf (spin_states N) (fun s => ising_prob N params s * ln (indep_prob s)) = independentEntropy1 x (INR N).
Proof.
  unfold indep_prob.
  rewrite (sumf_ext_in _ _ (fun s => INR N * al * ising_prob N params s + be * sumf (seq 0 N) (fun i => ising_prob N params s * nthR s i))).
  - rewrite sumf_plus, !sumf_scal_l, prob_sum, sumf_swap.
    rewrite (sumf_ext_in _ (fun b => sumf _ _) (fun _ => x)).
    + rewrite sumf_const, seq_length. unfold independentEntropy1, al, be, lp, lm. field.
    + intros i Hi. apply in_seq in Hi. apply Hmean. lia.
  - intros s Hs. rewrite ln_exp. rewrite (sumf_scal_l (ising_prob N params s) (seq 0 N) (nthR s)).
    replace (sumf (seq 0 N) (nthR s)) with (sumR s) by (rewrite sumR_nth, (spin_len N s Hs); reflexivity). ring.
Qed.

Lemma multi_nonneg : entropy (ising_prob N params) (spin_states N) <= independentEntropy1 x (INR N).
Proof.
  rewrite <- cross. apply gibbs.
  - intros; apply exp_pos.
  - intros s Hs. left. apply prob_pos. exact Hs.
  - rewrite indep_sum. symmetry. apply prob_sum.
Qed.

Lemma sumR_repeat v n : sumR (repeat v n) = INR n * v.
Proof. induction n; [simpl; unfold sumR; simpl; ring |]. rewrite S_INR. simpl repeat. rewrite sumR_cons, IHn. ring. Qed.

Lemma multi_pos : (2 <= N)%nat -> entropy (ising_prob N params) (spin_states N) < independentEntropy1 x (INR N).
Proof.
  intros H2. destruct (Rle_lt_or_eq_dec _ _ multi_nonneg) as [L | E]; [exact L | exfalso].
  assert (A : forall s, In s (spin_states N) -> ising_prob N params s = indep_prob s).
  { apply gibbs.
    - intros; apply exp_pos.
    - intros s Hs. left. apply prob_pos. exact Hs.
    - rewrite indep_sum. symmetry. apply prob_sum.
    - rewrite cross. exact E. }
  set (Z := sumf (spin_states N) (wt h J)).
  assert (Zp : 0 < Z) by (apply sumf_pos; [apply states_ne | intros; apply exp_pos]).
  assert (B : forall s, In s (spin_states N) -> h * sumR s + J * (sumR s * sumR s) - ln Z = INR N * al + be * sumR s).
  { intros s Hs. rewrite <- (ln_exp (INR N * al + be * sumR s)). change (exp (INR N * al + be * sumR s)) with (indep_prob s). rewrite <- (A s Hs).
    rewrite (prob_wt h J N params) by assumption. fold Z. rewrite ln_quot by (try apply exp_pos; exact Zp). unfold wt. now rewrite ln_exp. }
  destruct N as [| [| n]]; [lia | lia |].
  assert (I : forall u v, In u [1; -1] -> In v [1; -1] -> In (u :: v :: repeat 1 n) (spin_states (S (S n)))).
  { intros u v Hu Hv. apply all_states_spec. split; [simpl; rewrite repeat_length; reflexivity |].
    intros w [<- | [<- | Hw]]; auto. apply repeat_spec in Hw. subst. now left. }
  assert (I1 : In 1 [1; -1]) by (now left). assert (I2 : In (-1) [1; -1]) by (right; now left).
  pose proof (B _ (I 1 1 I1 I1)) as B1. pose proof (B _ (I (-1) 1 I2 I1)) as B2. pose proof (B _ (I (-1) (-1) I2 I2)) as B3.
  rewrite !sumR_cons, sumR_repeat in B1, B2, B3. nra.
Qed.

Lemma multi_one : N = 1%nat -> entropy (ising_prob N params) (spin_states N) = independentEntropy1 x (INR N).
Proof.
  intros E1. rewrite <- cross. unfold entropy. f_equal. apply sumf_ext_in. intros s Hs. f_equal. f_equal.
  assert (M0 := Hmean 0%nat HN). assert (Sm := prob_sum N params). unfold ising_mean, expectation in M0. fold (spin_states N) in M0.
  unfold indep_prob. revert M0 Sm Hs. rewrite E1. unfold spin_states; cbn [all_states flat_map map app].
  rewrite !sumf_cons, !sumf_nil. unfold nthR; simpl nth. intros M0 Sm Hs.
  assert (P1 : ising_prob 1 params [1] = (1 + x) / 2) by lra. assert (P2 : ising_prob 1 params [-1] = (1 - x) / 2) by lra.
  destruct Hs as [<- | [<- | []]]; [rewrite P1 | rewrite P2]; rewrite sumR_cons; change (sumR []) with 0; simpl INR.
  - replace (1 * al + be * (1 + 0)) with lp by (unfold al, be; field). unfold lp. rewrite exp_ln by lra. reflexivity.
  - replace (1 * al + be * (-1 + 0)) with lm by (unfold al, be; field). unfold lm. rewrite exp_ln by lra. reflexivity.
Qed.
End Multi.

(** Multi-information: never negative, zero for a single spin, positive as soon as two spins
    interact. *)
Theorem C83_multi_information : forall quad h J N params, exact_quad quad -> (0 < N)%nat -> 0 < J -> homogeneous N h (2 * J) params ->
  multiInfoHomogeneous quad h J N =
    sumf (seq 0 N) (fun i => binary_entropy (ising_mean N params (fun s => if Reqb (nthR s i) 1 then 1 else 0)))
    - entropy (ising_prob N params) (all_states [1; -1] N) /\
  (N = 1%nat -> multiInfoHomogeneous quad h J N = 0) /\ ((2 <= N)%nat -> 0 < multiInfoHomogeneous quad h J N).
Proof.
  intros quad h J N params Q HN HJ HP. unfold multiInfoHomogeneous. rewrite (C83_entropy quad h J N params Q HN HJ HP).
  split; [rewrite (proj1 (C83_independent_entropy quad h J N params Q HN HJ HP)); reflexivity |].
  unfold independentEntropyHomogeneous. set (x := avgxHomogeneous quad h J N).
  assert (Hm : forall i, (i < N)%nat -> ising_mean N params (fun s => nthR s i) = x).
  { intros i Hi. symmetry. apply (C83_magnetisation quad h J N params Q HN HJ HP i Hi). }
  assert (Hx : -1 < x < 1) by (rewrite <- (Hm 0%nat HN); apply mean_bounds; exact HN).
  fold (spin_states N). split.
  - intros E. assert (M : entropy (ising_prob N params) (spin_states N) = independentEntropy1 x (INR N)) by (apply multi_one; assumption). lra.
  - intros E. assert (entropy (ising_prob N params) (spin_states N) < independentEntropy1 x (INR N)) by (apply multi_pos with (h := h) (J := J); assumption). lra.
Qed.
Print Assumptions C83_multi_information.

(** The value named specific heat is h*h without interaction, whatever the temperature; the
    derivative of the energy in the temperature is smaller than h*h/(2T)^2. *)
Theorem C83_specific_heat_refuted : forall brentq h ell T, finds_roots brentq -> / 2 <= T -> h <> 0 ->
  specificHeat brentq h 0 ell T = h * h /\
  exists c, derivable_pt_lim (avgE brentq h 0 ell) T c /\ c < h * h / (2 * T) ^ 2 /\ c < specificHeat brentq h 0 ell T.
Proof.
  intros brentq h ell T HB HT Hh. assert (T0 : 0 < T) by lra.
  assert (S : specificHeat brentq h 0 ell T = h * h) by (unfold specificHeat; ring).
  split; [exact S |]. destruct (C72_dmdT_refuted brentq h ell T HB T0 Hh) as [D _].
  exists (h * - dmdT brentq h 0 ell T). 
  assert (P : 0 < exp (h / T)) by apply exp_pos.
  assert (V : dmdT brentq h 0 ell T = - (h / T ^ 2 * exp (h / T) / (1 + exp (h / T)) ^ 2)).
  { unfold dmdT. rewrite m_free by (try assumption; lra). cbv zeta.
    replace (- ((ell - 1) * / (1 + exp (h / T)) * 0 - h) / (2 * T)) with (h / T / 2) by (field; lra). rewrite cosh_half. field. repeat split; lra. }
  assert (H2 : 0 < h * h) by nra.
  assert (Q : exp (h / T) / (1 + exp (h / T)) ^ 2 < / 4).
  { assert (Ne : exp (h / T) <> 1).
    { rewrite <- exp_0. intros E. apply exp_inv in E. apply Hh. replace h with (h / T * T) by (field; lra). rewrite E. ring. }
    apply Rmult_lt_reg_r with ((1 + exp (h / T)) ^ 2); [nra |].
    replace (exp (h / T) / (1 + exp (h / T)) ^ 2 * (1 + exp (h / T)) ^ 2) with (exp (h / T)) by (field; lra).
    assert (0 < (exp (h / T) - 1) * (exp (h / T) - 1)) by (assert (exp (h / T) - 1 <> 0) by lra; nra). lra. }
  assert (C : h * - dmdT brentq h 0 ell T < h * h / (2 * T) ^ 2).
  { rewrite V. replace (h * - - (h / T ^ 2 * exp (h / T) / (1 + exp (h / T)) ^ 2)) with (h * h / T ^ 2 * (exp (h / T) / (1 + exp (h / T)) ^ 2)) by (field; lra).
    replace (h * h / (2 * T) ^ 2) with (h * h / T ^ 2 * / 4) by (field; lra). apply Rmult_lt_compat_l; [| exact Q]. apply Rdiv_lt_0_compat; [exact H2 | nra]. }
  split; [| split; [exact C |]].
  - apply is_derive_Reals. apply (is_derive_ext (fun t => h * m_root brentq h 0 ell t)).
    { intros t. unfold avgE. change (h * m_root brentq h 0 ell t = - m_root brentq h 0 ell t * ((ell - 1) * m_root brentq h 0 ell t * 0 - h)). ring. }
    apply (is_derive_scal (m_root brentq h 0 ell)). apply is_derive_Reals. exact D.
  - rewrite S. eapply Rlt_le_trans; [exact C |]. apply Rmult_le_reg_r with ((2 * T) ^ 2); [nra |].
    replace (h * h / (2 * T) ^ 2 * (2 * T) ^ 2) with (h * h * 1) by (field; lra). apply Rmult_le_compat_l; [lra | nra].
Qed.
Print Assumptions C83_specific_heat_refuted.

(** Two spins with J = ln 3 / 4 and no field: the states have probabilities 3/8, 1/8, 1/8,
    3/8. *)
Definition line_quad (f : R -> R) : R := RInt_gen f (Rbar_locally m_infty) (Rbar_locally p_infty).
Lemma line_quad_exact : exact_quad line_quad.
Proof. intros f v H. unfold line_quad. apply (is_RInt_gen_unique (V := R_CompleteNormedModule) f v). exact H. Qed.

Example C83_example : exact_quad line_quad /\ homogeneous 2 0 (2 * (ln 3 / 4)) [0; 0; 2 * (ln 3 / 4)] /\
  ising_prob 2 [0; 0; 2 * (ln 3 / 4)] [1; 1] = 3 / 8 /\ SHomogeneous line_quad 0 (ln 3 / 4) 2 = 3 * ln 2 - 3 / 4 * ln 3.
Proof.
  assert (L3 : 0 < ln 3) by (rewrite <- ln_1; apply ln_increasing; lra).
  assert (HP : homogeneous 2 0 (2 * (ln 3 / 4)) [0; 0; 2 * (ln 3 / 4)]).
  { split.
    - intros [| [| i]] Hi; [reflexivity | reflexivity | lia].
    - intros [| i] [| [| j]] Hij; try lia. reflexivity. }
  assert (W1 : forall u v, u + v = 2 \/ u + v = -2 -> wt 0 (ln 3 / 4) [u; v] = 3).
  { intros u v H. unfold wt. rewrite !sumR_cons. change (sumR []) with 0.
    replace (0 * (u + (v + 0)) + ln 3 / 4 * ((u + (v + 0)) * (u + (v + 0)))) with (ln 3) by (destruct H as [H | H]; replace (u + (v + 0)) with (u + v) by ring; rewrite H; field).
    apply exp_ln. lra. }
  assert (W0 : forall u v, u + v = 0 -> wt 0 (ln 3 / 4) [u; v] = 1).
  { intros u v H. unfold wt. rewrite !sumR_cons. change (sumR []) with 0. replace (u + (v + 0)) with (u + v) by ring. rewrite H.
    replace (0 * 0 + ln 3 / 4 * (0 * 0)) with 0 by ring. apply exp_0. }
  assert (A1 : wt 0 (ln 3 / 4) [1; 1] = 3) by (apply W1; lra). assert (A2 : wt 0 (ln 3 / 4) [-1; -1] = 3) by (apply W1; lra).
  assert (A3 : wt 0 (ln 3 / 4) [1; -1] = 1) by (apply W0; lra). assert (A4 : wt 0 (ln 3 / 4) [-1; 1] = 1) by (apply W0; lra).
  assert (Z : sumf (spin_states 2) (wt 0 (ln 3 / 4)) = 8).
  { unfold spin_states; cbn [all_states flat_map map app]. rewrite !sumf_cons, sumf_nil, A1, A2, A3, A4. ring. }
  assert (I : In [1; 1] (spin_states 2)) by (unfold spin_states; cbn [all_states flat_map map app]; now left).
  assert (P2 : (0 < 2)%nat) by lia.
  split; [apply line_quad_exact |]. split; [exact HP |]. split.
  - rewrite (prob_wt 0 (ln 3 / 4) 2 _ P2 HP _ I), Z, A1. reflexivity.
  - assert (LJ : 0 < ln 3 / 4) by lra. rewrite (C83_entropy line_quad 0 (ln 3 / 4) 2 _ line_quad_exact P2 LJ HP).
    fold (spin_states 2). rewrite (ising_entropy 0 (ln 3 / 4) 2 _ P2 HP), Z.
    unfold spin_states; cbn [all_states flat_map map app]. rewrite !sumf_cons, sumf_nil, A1, A2, A3, A4.
    rewrite !sumR_cons. change (sumR []) with 0. assert (L8 : ln 8 = 3 * ln 2) by (replace 8 with (2 * (2 * 2)) by ring; rewrite !ln_mult by lra; ring).
    rewrite L8. field.
Qed.
