(** * The auxiliary field integrals of a homogeneous system are sums over spin states. *)
From Coquelicot Require Import Coquelicot.
From Verif Require Import Prelude Spec Spec2 PreludeFacts P_MaxEnt P_Gauss M_Params M_MeanField M_RMF M_Homog.
From Coq Require Import Lra Lia List.
Import ListNotations.
Local Open Scope R_scope.

Definition spin_states (n : nat) : list (list R) := all_states [1; -1] n.

Lemma spin_states_S n : spin_states (S n) = map (cons 1) (spin_states n) ++ map (cons (-1)) (spin_states n).
Proof. unfold spin_states. simpl. now rewrite app_nil_r. Qed.

Lemma spin_sum_S n (f : list R -> R) :
  sumf (spin_states (S n)) f = sumf (spin_states n) (fun s => f (1 :: s)) + sumf (spin_states n) (fun s => f (-1 :: s)).
Proof. rewrite spin_states_S, sumf_app, !sumf_map. reflexivity. Qed.

Lemma sumR_cons x l : sumR (x :: l) = x + sumR l.
Proof. reflexivity. Qed.

Lemma exp_pm y x M : exp (y * (x + M)) = exp (y * x) * exp (y * M).
Proof. rewrite Rmult_plus_distr_l. apply exp_plus. Qed.

Lemma cosh_sum y : 2 * cosh y = exp (y * 1) + exp (y * -1).
Proof. unfold cosh. rewrite Rmult_1_r. replace (y * -1) with (- y) by ring. field. Qed.
Lemma sinh_sum y : 2 * sinh y = exp (y * 1) - exp (y * -1).
Proof. unfold sinh. rewrite Rmult_1_r. replace (y * -1) with (- y) by ring. field. Qed.
Lemma cosh_pos' y : 0 < cosh y.
Proof. unfold cosh. pose proof (exp_pos y). pose proof (exp_pos (- y)). lra. Qed.

(** Product of the sums over each spin. *)
Lemma sum_exp n y : sumf (spin_states n) (fun s => exp (y * sumR s)) = (2 * cosh y) ^ n.
Proof.
  induction n.
  - unfold spin_states; cbn [all_states]. rewrite sumf_cons, sumf_nil. change (sumR []) with 0. rewrite Rmult_0_r, exp_0. simpl. ring.
  - rewrite spin_sum_S.
    rewrite (sumf_ext _ _ (fun s => exp (y * 1) * exp (y * sumR s))) by (intros; rewrite sumR_cons; apply exp_pm).
    rewrite (sumf_ext _ (fun s => exp (y * sumR (-1 :: s))) (fun s => exp (y * -1) * exp (y * sumR s))) by (intros; rewrite sumR_cons; apply exp_pm).
    rewrite !sumf_scal_l, IHn. simpl. rewrite cosh_sum. ring.
Qed.

Lemma sum_spin n y i : (i < n)%nat ->
  sumf (spin_states n) (fun s => nthR s i * exp (y * sumR s)) = tanh y * (2 * cosh y) ^ n.
Proof.
  revert i; induction n; [lia |]. intros i Hi. rewrite spin_sum_S. pose proof (cosh_pos' y) as Cp. destruct i.
  - rewrite (sumf_ext _ _ (fun s => exp (y * 1) * exp (y * sumR s))) by (intros; rewrite sumR_cons; unfold nthR; simpl; rewrite exp_pm; ring).
    rewrite (sumf_ext _ (fun s => nthR (-1 :: s) 0 * _) (fun s => - exp (y * -1) * exp (y * sumR s))) by (intros; rewrite sumR_cons; unfold nthR; simpl; rewrite exp_pm; ring).
    rewrite !sumf_scal_l, sum_exp. unfold tanh. simpl. pose proof (sinh_sum y).
    replace (sinh y / cosh y * (2 * cosh y * (2 * cosh y) ^ n)) with (2 * sinh y * (2 * cosh y) ^ n) by (field; lra).
    rewrite H. ring.
  - rewrite (sumf_ext _ _ (fun s => exp (y * 1) * (nthR s i * exp (y * sumR s)))) by (intros; rewrite sumR_cons; unfold nthR; simpl; rewrite exp_pm; ring).
    rewrite (sumf_ext _ (fun s => nthR (-1 :: s) (S i) * _) (fun s => exp (y * -1) * (nthR s i * exp (y * sumR s)))) by (intros; rewrite sumR_cons; unfold nthR; simpl; rewrite exp_pm; ring).
    rewrite !sumf_scal_l, IHn by lia. simpl. rewrite cosh_sum. ring.
Qed.

Lemma spin_len n s : In s (spin_states n) -> length s = n.
Proof. intros H. apply all_states_spec in H. tauto. Qed.

Lemma sumR_nth s : sumR s = sumf (seq 0 (length s)) (fun i => nthR s i).
Proof.
  induction s; [reflexivity |]. simpl length. rewrite sumf_seq_S. rewrite sumR_cons, IHs. reflexivity.
Qed.

Lemma sum_total n y : sumf (spin_states n) (fun s => sumR s * exp (y * sumR s)) = INR n * (tanh y * (2 * cosh y) ^ n).
Proof.
  rewrite (sumf_ext_in _ _ (fun s => sumf (seq 0 n) (fun i => nthR s i * exp (y * sumR s)))).
  - rewrite sumf_swap. rewrite (sumf_ext_in _ _ (fun _ => tanh y * (2 * cosh y) ^ n)).
    + rewrite sumf_const, seq_length. reflexivity.
    + intros i Hi. apply in_seq in Hi. apply sum_spin. lia.
  - intros s Hs. rewrite sumf_scal_r. f_equal. rewrite sumR_nth, (spin_len n) by exact Hs. reflexivity.
Qed.

Lemma over_line_sum {A} (l : list A) (f : A -> R -> R) (v : A -> R) :
  (forall s, In s l -> over_line (f s) (v s)) -> over_line (fun m => sumf l (fun s => f s m)) (sumf l v).
Proof.
  induction l; intros H.
  - apply over_line_ext with (f := fun m => 0 * bell 1 0 m); [intros; rewrite sumf_nil; apply Rmult_0_l |].
    rewrite sumf_nil. assert (B := over_line_scal 0 _ _ (bell0 1 0 Rlt_0_1)). rewrite Rmult_0_l in B. exact B.
  - apply over_line_ext with (f := fun m => f a m + sumf l (fun s => f s m)); [reflexivity |].
    rewrite sumf_cons. apply over_line_plus; [apply H; now left | apply IHl; intros; apply H; now right].
Qed.

Section Homog.
Variables (h J : R) (N : nat).
Hypothesis HN : (0 < N)%nat.
Hypothesis HJ : 0 < J.
Let n := INR N.
Let a := n * (n * J).

Lemma npos : 0 < n. Proof. apply lt_0_INR. exact HN. Qed.
Lemma apos : 0 < a. Proof. pose proof npos. unfold a. apply Rmult_lt_0_compat; [lra |]. apply Rmult_lt_0_compat; lra. Qed.
Lemma rootpos : 0 < sqrt (PI / a). Proof. apply sqrt_lt_R0, Rdiv_lt_0_compat; [apply PI_RGT_0 | apply apos]. Qed.

(** Statistical weight of a state. *)
Definition wt (s : list R) : R := exp (h * sumR s + J * (sumR s * sumR s)).
Definition field (m : R) : R := 2 * (n * J) * m + h.
Definition front (m : R) : R := / sqrt (PI / a) * exp (- a * m ^ 2).
Definition peak (s : list R) (m : R) : R := / sqrt (PI / a) * bell a (sumR s / n) m.

Lemma log_cosh x : logCosh x = ln (cosh x).
Proof.
  unfold logCosh. assert (E : cosh x = exp (Rabs x) * (1 + exp (-2 * Rabs x)) / 2).
  { unfold cosh. rewrite Rmult_plus_distr_l, <- exp_plus, Rmult_1_r. replace (Rabs x + -2 * Rabs x) with (- Rabs x) by ring.
    unfold Rabs. destruct (Rcase_abs x); rewrite ?Ropp_involutive; field. }
  pose proof (exp_pos (Rabs x)). pose proof (exp_pos (-2 * Rabs x)).
  rewrite E, ln_quot by nra. rewrite ln_mult, ln_exp by lra. ring.
Qed.

Lemma exp_F m : exp (- FHomogeneous h J N m) = front m * (2 * cosh (field m)) ^ N.
Proof.
  unfold FHomogeneous, front. fold n. fold a. change (2 * (n * J) * m + h) with (field m).
  pose proof (cosh_pos' (field m)) as Cp. pose proof rootpos as Rp.
  rewrite <- (Rpower_pow N (2 * cosh (field m))) by lra. unfold Rpower. fold n.
  replace (/ sqrt (PI / a)) with (exp (- ln (sqrt (PI / a)))) by (rewrite exp_Ropp, exp_ln; [reflexivity | exact Rp]).
  rewrite <- !exp_plus. f_equal. rewrite log_cosh, ln_mult by lra. unfold a. ring.
Qed.

Lemma peak_wt s m : wt s * peak s m = front m * exp (field m * sumR s).
Proof.
  unfold wt, peak, front, bell. pose proof npos.
  replace (exp (h * sumR s + J * (sumR s * sumR s)) * (/ sqrt (PI / a) * exp (- a * (m - sumR s / n) ^ 2)))
    with (/ sqrt (PI / a) * (exp (h * sumR s + J * (sumR s * sumR s)) * exp (- a * (m - sumR s / n) ^ 2))) by ring.
  rewrite Rmult_assoc. f_equal. rewrite <- !exp_plus. f_equal. unfold a, field. field. lra.
Qed.

(** The integral of a weight that is a polynomial in the auxiliary variable, by states. *)
Lemma states_integral (f : R -> R) (u v w : list R -> R) :
  (forall m, f m = sumf (spin_states N) (fun s => (u s + v s * m + w s * m ^ 2) * (wt s * peak s m))) ->
  over_line f (sumf (spin_states N) (fun s => wt s * (u s + v s * (sumR s / n) + w s * ((sumR s / n) ^ 2 + / (2 * a))))).
Proof.
  intros E. apply over_line_ext with (f := fun m => sumf (spin_states N) (fun s => wt s * ((u s + v s * m + w s * m ^ 2) * peak s m))).
  { intros m. rewrite E. apply sumf_ext. intros s. ring. }
  apply over_line_sum. intros s _. apply over_line_scal. apply (bell_poly a (sumR s / n) apos).
Qed.

Lemma F_states m : exp (- FHomogeneous h J N m) = sumf (spin_states N) (fun s => wt s * peak s m).
Proof.
  rewrite exp_F, <- sum_exp, <- sumf_scal_l. apply sumf_ext. intros s. symmetry. apply peak_wt.
Qed.

Lemma x_states i m : (i < N)%nat ->
  tanh (field m) * exp (- FHomogeneous h J N m) = sumf (spin_states N) (fun s => nthR s i * (wt s * peak s m)).
Proof.
  intros Hi. rewrite exp_F. replace (tanh (field m) * (front m * (2 * cosh (field m)) ^ N)) with (front m * (tanh (field m) * (2 * cosh (field m)) ^ N)) by ring.
  rewrite <- (sum_spin N (field m) i Hi), <- sumf_scal_l. apply sumf_ext. intros s. rewrite peak_wt. ring.
Qed.

Lemma M_states m : n * tanh (field m) * exp (- FHomogeneous h J N m) = sumf (spin_states N) (fun s => sumR s * (wt s * peak s m)).
Proof.
  rewrite exp_F. replace (n * tanh (field m) * (front m * (2 * cosh (field m)) ^ N)) with (front m * (n * (tanh (field m) * (2 * cosh (field m)) ^ N))) by ring.
  unfold n. rewrite <- (sum_total N (field m)), <- sumf_scal_l. apply sumf_ext. intros s. rewrite peak_wt. ring.
Qed.

Lemma Z_line : over_line (fun m => exp (- FHomogeneous h J N m)) (sumf (spin_states N) wt).
Proof.
  replace (sumf (spin_states N) wt) with (sumf (spin_states N) (fun s => wt s * (1 + 0 * (sumR s / n) + 0 * ((sumR s / n) ^ 2 + / (2 * a))))).
  2: apply sumf_ext; intros; ring.
  apply (states_integral _ (fun _ => 1) (fun _ => 0) (fun _ => 0)).
  intros m. rewrite F_states. apply sumf_ext. intros. ring.
Qed.

Lemma m_line : over_line (fun m => m * exp (- FHomogeneous h J N m)) (sumf (spin_states N) (fun s => wt s * (sumR s / n))).
Proof.
  replace (sumf (spin_states N) (fun s => wt s * (sumR s / n))) with
   (sumf (spin_states N) (fun s => wt s * (0 + 1 * (sumR s / n) + 0 * ((sumR s / n) ^ 2 + / (2 * a))))).
  2: apply sumf_ext; intros; ring.
  apply (states_integral _ (fun _ => 0) (fun _ => 1) (fun _ => 0)).
  intros m. rewrite F_states, <- sumf_scal_l. apply sumf_ext. intros. ring.
Qed.

Lemma x_line i : (i < N)%nat ->
  over_line (fun m => tanh (field m) * exp (- FHomogeneous h J N m)) (sumf (spin_states N) (fun s => wt s * nthR s i)).
Proof.
  intros Hi.
  replace (sumf (spin_states N) (fun s => wt s * nthR s i)) with
   (sumf (spin_states N) (fun s => wt s * (nthR s i + 0 * (sumR s / n) + 0 * ((sumR s / n) ^ 2 + / (2 * a))))).
  2: apply sumf_ext; intros; ring.
  apply (states_integral _ (fun s => nthR s i) (fun _ => 0) (fun _ => 0)).
  intros m. rewrite (x_states i m Hi). apply sumf_ext. intros. ring.
Qed.

Lemma dF_line : over_line (fun m => dFdT h J N m * exp (- FHomogeneous h J N m))
  (sumf (spin_states N) (fun s => wt s * (h * sumR s + J * (sumR s * sumR s)))).
Proof.
  pose proof npos as Np. pose proof apos as Ap.
  replace (sumf (spin_states N) (fun s => wt s * (h * sumR s + J * (sumR s * sumR s)))) with
   (sumf (spin_states N) (fun s => wt s * ((h * sumR s + / 2) + 2 * (n * J) * sumR s * (sumR s / n) + (- a) * ((sumR s / n) ^ 2 + / (2 * a))))).
  2:{ apply sumf_ext; intros s. f_equal. unfold a. field. split; lra. }
  apply (states_integral _ (fun s => h * sumR s + / 2) (fun s => 2 * (n * J) * sumR s) (fun _ => - a)).
  intros m. unfold dFdT. fold n. change (2 * (n * J) * m + h) with (field m).
  transitivity ((- a * m ^ 2 + / 2) * exp (- FHomogeneous h J N m) + field m * (n * tanh (field m) * exp (- FHomogeneous h J N m))).
  { unfold a. ring. }
  rewrite M_states, F_states, <- !sumf_scal_l, <- sumf_plus. apply sumf_ext. intros s. unfold field. ring.
Qed.
End Homog.
