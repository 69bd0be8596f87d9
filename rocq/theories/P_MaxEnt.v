(** * Gibbs' inequality, maximum entropy and uniqueness. *)
From Verif Require Import Prelude Spec PreludeFacts.
Import ListNotations.
Local Open Scope R_scope.

(** Shannon entropy; 0 log 0 = 0 since [ln] is 0 there. *)
Definition entropy {A} (p : A -> R) (states : list A) : R := - sumf states (fun s => p s * ln (p s)).

(** A distribution on a list of states. *)
Definition distribution {A} (q : A -> R) (states : list A) : Prop :=
  (forall s, In s states -> 0 <= q s) /\ sumf states q = 1.

Lemma ln_le_sub1 x : 0 < x -> ln x <= x - 1.
Proof.
  intros Hx. destruct (Req_dec x 1) as [->|Hne]; [rewrite ln_1; lra|].
  assert (H := exp_ineq1 (ln x)). rewrite exp_ln in H by assumption.
  assert (ln x <> 0). { intros E. apply Hne. rewrite <- (exp_ln x) by assumption. rewrite E. apply exp_0. }
  specialize (H H0). lra.
Qed.

Lemma ln_eq_sub1 x : 0 < x -> ln x = x - 1 -> x = 1.
Proof.
  intros Hx E. destruct (Req_dec x 1) as [|Hne]; [assumption|exfalso].
  assert (ln x <> 0). { intros E0. apply Hne. rewrite <- (exp_ln x) by assumption. rewrite E0. apply exp_0. }
  assert (H1 := exp_ineq1 (ln x) H). rewrite exp_ln in H1 by assumption. lra.
Qed.

Lemma ln_quot a b : 0 < a -> 0 < b -> ln (a / b) = ln a - ln b.
Proof. intros Ha Hb. unfold Rdiv. rewrite ln_mult, ln_Rinv; [ring| | |]; auto. now apply Rinv_0_lt_compat. Qed.

Lemma gibbs_term p q : 0 < p -> 0 <= q -> q * ln p - q * ln q <= p - q /\ (q * ln p - q * ln q = p - q -> q = p).
Proof.
  intros Hp Hq. destruct (Req_dec q 0) as [->|Hne].
  - rewrite !Rmult_0_l. split; [lra|]. intros H. lra.
  - assert (Hq' : 0 < q) by lra. assert (Hr : 0 < p / q) by (apply Rdiv_lt_0_compat; lra).
    assert (E : q * ln p - q * ln q = q * ln (p / q)).
    { rewrite ln_quot by lra. ring. }
    assert (E2 : p - q = q * (p / q - 1)) by (field; lra).
    rewrite E, E2. split.
    + apply Rmult_le_compat_l; [lra|]. now apply ln_le_sub1.
    + intros H. apply Rmult_eq_reg_l in H; [|lra]. apply ln_eq_sub1 in H; [|assumption].
      apply (Rmult_eq_compat_r q) in H. replace (p / q * q) with p in H by (field; lra). lra.
Qed.

(** Gibbs' inequality with equality case. *)
Lemma gibbs {A} (states : list A) (p q : A -> R) :
  (forall s, In s states -> 0 < p s) -> (forall s, In s states -> 0 <= q s) -> sumf states p = sumf states q ->
  entropy q states <= - sumf states (fun s => q s * ln (p s)) /\
  (entropy q states = - sumf states (fun s => q s * ln (p s)) -> forall s, In s states -> q s = p s).
Proof.
  intros Hp Hq Hs. unfold entropy.
  assert (D : sumf states (fun s => p s - q s - (q s * ln (p s) - q s * ln (q s))) =
              - sumf states (fun s => q s * ln (p s)) - - sumf states (fun s => q s * ln (q s))).
  { rewrite !sumf_minus. lra. }
  assert (N : forall s, In s states -> 0 <= p s - q s - (q s * ln (p s) - q s * ln (q s))).
  { intros s Hin. destruct (gibbs_term (p s) (q s) (Hp s Hin) (Hq s Hin)). lra. }
  split.
  - assert (H := sumf_nonneg _ _ N). lra.
  - intros E s Hin. assert (Z : sumf states (fun s => p s - q s - (q s * ln (p s) - q s * ln (q s))) = 0) by lra.
    assert (H := sumf_nonneg_zero _ _ N Z s Hin). cbn beta in H.
    destruct (gibbs_term (p s) (q s) (Hp s Hin) (Hq s Hin)) as [_ G]. apply G. lra.
Qed.

Section Boltz.
Context {A : Type}.
Variable E : A -> R.
Variable states : list A.
Hypothesis ne : states <> [].

Lemma partition_pos : 0 < partition E states.
Proof. apply sumf_pos; [exact ne|]. intros. apply exp_pos. Qed.

Lemma boltzmann_pos s : 0 < boltzmann E states s.
Proof. apply Rdiv_lt_0_compat; [apply exp_pos|apply partition_pos]. Qed.

Lemma boltzmann_sum : sumf states (boltzmann E states) = 1.
Proof.
  unfold boltzmann. rewrite sumf_div. assert (H := partition_pos). unfold partition in *. field. lra.
Qed.

Lemma ln_boltzmann s : ln (boltzmann E states s) = - E s - ln (partition E states).
Proof. unfold boltzmann. rewrite ln_quot by (try apply exp_pos; apply partition_pos). now rewrite ln_exp. Qed.

Lemma cross_entropy q : sumf states q = 1 ->
  - sumf states (fun s => q s * ln (boltzmann E states s)) = expectation q states E + ln (partition E states).
Proof.
  intros Hq. rewrite (sumf_ext _ _ (fun s => - (q s * E s) - q s * ln (partition E states))).
  2: { intros s. rewrite ln_boltzmann. ring. }
  rewrite sumf_minus, sumf_opp, sumf_scal_r, Hq. unfold expectation. ring.
Qed.

(** Among all distributions with the same mean energy the Boltzmann distribution is
    the only one of maximal entropy. *)
Lemma boltzmann_max_entropy q : distribution q states ->
  expectation q states E = expectation (boltzmann E states) states E ->
  entropy q states <= entropy (boltzmann E states) states /\
  (entropy q states = entropy (boltzmann E states) states -> forall s, In s states -> q s = boltzmann E states s).
Proof.
  intros [Hq Hs] HE.
  assert (Hp : entropy (boltzmann E states) states = expectation (boltzmann E states) states E + ln (partition E states)).
  { unfold entropy. apply (cross_entropy (boltzmann E states)). apply boltzmann_sum. }
  destruct (gibbs states (boltzmann E states) q) as [G1 G2].
  - intros. apply boltzmann_pos.
  - exact Hq.
  - rewrite boltzmann_sum. now symmetry.
  - rewrite cross_entropy in G1, G2 by exact Hs. rewrite HE in G1, G2. rewrite Hp. split; assumption.
Qed.
End Boltz.

(** Equal Boltzmann distributions have energies that differ by a constant. *)
Lemma boltzmann_eq_energy {A} (E E' : A -> R) states : states <> [] ->
  (forall s, In s states -> boltzmann E states s = boltzmann E' states s) ->
  forall s, In s states -> E s = E' s + (ln (partition E' states) - ln (partition E states)).
Proof.
  intros Hne H s Hs. specialize (H s Hs). apply (f_equal ln) in H. rewrite !ln_boltzmann in H by assumption. lra.
Qed.

(** Two Boltzmann distributions with the same mean of both energies are equal. *)
Lemma boltzmann_unique {A} (E E' : A -> R) states : states <> [] ->
  expectation (boltzmann E states) states E = expectation (boltzmann E' states) states E ->
  expectation (boltzmann E states) states E' = expectation (boltzmann E' states) states E' ->
  forall s, In s states -> boltzmann E states s = boltzmann E' states s.
Proof.
  intros Hne H1 H2.
  assert (D : forall F : A -> R, distribution (boltzmann F states) states).
  { intros F. split; [intros; left; now apply boltzmann_pos|now apply boltzmann_sum]. }
  destruct (boltzmann_max_entropy E states Hne (boltzmann E' states) (D E') (eq_sym H1)) as [A1 A2].
  destruct (boltzmann_max_entropy E' states Hne (boltzmann E states) (D E) H2) as [B1 B2].
  apply B2. lra.
Qed.

Lemma expectation_dot {A} (q : A -> R) states (obs : A -> list R) (params : list R) m :
  length params = m -> (forall s, In s states -> length (obs s) = m) ->
  expectation q states (fun s => - dot (obs s) params) =
  - sumf (seq 0 m) (fun k => nthR params k * expectation q states (fun s => nthR (obs s) k)).
Proof.
  intros Hp Ho. unfold expectation.
  assert (Dot : forall s, In s states -> dot (obs s) params = sumf (seq 0 m) (fun k => nthR (obs s) k * nthR params k)).
  { intros s Hs. unfold dot. rewrite (sumf_combine_seq (obs s) params Rmult m); auto. }
  rewrite (sumf_ext_in _ _ (fun s => - sumf (seq 0 m) (fun k => nthR params k * (q s * nthR (obs s) k)))).
  - rewrite sumf_opp, sumf_swap. f_equal. apply sumf_ext. intros k. now rewrite sumf_scal_l.
  - intros s Hs. rewrite (Dot s Hs). rewrite Ropp_mult_distr_r_reverse. f_equal. rewrite <- sumf_scal_l. apply sumf_ext. intros k. ring.
Qed.
