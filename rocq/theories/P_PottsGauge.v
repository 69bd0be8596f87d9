(** * Potts models: which parameters give the same distribution, and the conditional
    likelihoods of exact data. *)
From Verif Require Import Prelude Spec PreludeFacts M_Index M_Params M_Energy M_Corr P_Index P_Unravel P_Energy P_Energy2 P_Params P_MaxEnt P_Unique.
Import ListNotations.
Local Open Scope R_scope.

(** Specification: the same couplings, and fields that differ by one constant per spin. *)
Definition potts_same (n k : nat) (p q : list R) : Prop :=
  (forall i j, (i < j)%nat -> (j < n)%nat -> nthR p (k * n + pair_index n i j) = nthR q (k * n + pair_index n i j)) /\
  forall i v w, (i < n)%nat -> (v < k)%nat -> (w < k)%nat ->
    nthR p (v * n + i) - nthR p (w * n + i) = nthR q (v * n + i) - nthR q (w * n + i).

Lemma all_states_k n k s : In s (all_states (seq 0 k) n) <-> length s = n /\ forall v, In v s -> (v < k)%nat.
Proof.
  rewrite all_states_spec. split; intros [H1 H2]; (split; [exact H1|]); intros v Hv; specialize (H2 v Hv); [apply in_seq in H2; lia|apply in_seq; lia].
Qed.

(** ** Summing over the value of one site *)
Lemma sumf_site {A} (vals : list A) : forall n r (f : list A -> R), (r < n)%nat ->
  sumf (all_states vals n) (fun x => sumf vals (fun v => f (upd x r v))) = INR (length vals) * sumf (all_states vals n) f.
Proof.
  induction n as [|n IH]; intros r f Hr; [lia|]. cbn [all_states]. rewrite !sumf_flat_map. destruct r as [|r].
  - rewrite (sumf_ext vals _ (fun _ => sumf (all_states vals n) (fun x => sumf vals (fun v => f (v :: x))))) by (intros a; now rewrite sumf_map).
    rewrite sumf_const. f_equal. rewrite sumf_swap. apply sumf_ext. intros a. now rewrite sumf_map.
  - rewrite <- sumf_scal_l. apply sumf_ext. intros a. rewrite !sumf_map. cbn [upd]. apply (IH r (fun x => f (a :: x))). lia.
Qed.

(** ** Conditional likelihoods *)
Section Cond.
Context {A : Type}.
Variables (vals : list A) (n r : nat) (Es E : list A -> R).
Hypothesis Hr : (r < n)%nat.
Hypothesis ne : vals <> [].
Variable d : A.
Let St := all_states vals n.
Let C (E : list A -> R) (x : list A) : R := cond_prob E vals x r (nth r x d).
Let P (x : list A) : R := exp (- Es x).

Lemma cond_pos F x v : 0 < cond_prob F vals x r v.
Proof using ne. apply Rdiv_lt_0_compat; [apply exp_pos|]. apply sumf_pos; [exact ne|]. intros. apply exp_pos. Qed.

Lemma cond_sum F x : sumf vals (cond_prob F vals x r) = 1.
Proof using ne.
  unfold cond_prob, Rdiv. rewrite sumf_scal_r. apply Rinv_r. apply Rgt_not_eq, sumf_pos; [exact ne|]. intros. apply exp_pos.
Qed.

Lemma cond_upd F x v : In x St -> cond_prob F vals (upd x r v) r (nth r (upd x r v) d) = cond_prob F vals x r v.
Proof using Hr.
  intros Hx. apply all_states_spec in Hx. destruct Hx as [Hx _]. rewrite nth_upd_same by lia. unfold cond_prob. rewrite upd_upd. f_equal.
  apply sumf_ext. intros w. now rewrite upd_upd.
Qed.

Let N (x : list A) : R := sumf vals (fun w => exp (- Es (upd x r w))).
Lemma N_pos x : 0 < N x.
Proof using ne. apply sumf_pos; [exact ne|]. intros. apply exp_pos. Qed.

Lemma by_sites F : INR (length vals) * sumf St (fun x => P x * - ln (C F x)) =
  sumf St (fun x => N x * - sumf vals (fun v => cond_prob Es vals x r v * ln (cond_prob F vals x r v))).
Proof using Hr ne.
  rewrite <- (sumf_site vals n r) by exact Hr. apply sumf_ext_in. intros x Hx. rewrite <- sumf_opp, <- sumf_scal_l. apply sumf_ext. intros v.
  unfold C. rewrite cond_upd by exact Hx. pose proof (N_pos x) as H. unfold cond_prob at 2. fold (N x). unfold P. field. lra.
Qed.

(** The conditional probabilities of the true energy have the largest likelihood, and they
    are the only ones. *)
Lemma cond_gibbs : sumf St (fun x => P x * - ln (C Es x)) <= sumf St (fun x => P x * - ln (C E x)) /\
  (sumf St (fun x => P x * - ln (C E x)) = sumf St (fun x => P x * - ln (C Es x)) ->
   forall x v, In x St -> In v vals -> cond_prob E vals x r v = cond_prob Es vals x r v).
Proof using Hr ne.
  assert (Lp : 0 < INR (length vals)) by (apply lt_0_INR; destruct vals; [congruence|cbn; lia]).
  assert (G : forall x, entropy (cond_prob Es vals x r) vals <= - sumf vals (fun v => cond_prob Es vals x r v * ln (cond_prob E vals x r v)) /\
    (entropy (cond_prob Es vals x r) vals = - sumf vals (fun v => cond_prob Es vals x r v * ln (cond_prob E vals x r v)) ->
     forall v, In v vals -> cond_prob Es vals x r v = cond_prob E vals x r v)).
  { intros x. apply gibbs; [intros; apply cond_pos|intros; left; apply cond_pos|now rewrite !cond_sum]. }
  set (g := fun x => N x * (- sumf vals (fun v => cond_prob Es vals x r v * ln (cond_prob E vals x r v)) - entropy (cond_prob Es vals x r) vals)).
  assert (Hg : forall x, In x St -> 0 <= g x).
  { intros x _. unfold g. apply Rmult_le_pos; [left; apply N_pos|]. pose proof (proj1 (G x)). lra. }
  assert (D : INR (length vals) * (sumf St (fun x => P x * - ln (C E x)) - sumf St (fun x => P x * - ln (C Es x))) = sumf St g).
  { rewrite Rmult_minus_distr_l, !by_sites, <- sumf_minus. apply sumf_ext. intros x. unfold g, entropy. ring. }
  split.
  - pose proof (sumf_nonneg _ _ Hg) as H. rewrite <- D in H.
    assert (K : 0 <= sumf St (fun x => P x * - ln (C E x)) - sumf St (fun x => P x * - ln (C Es x))).
    { apply (Rmult_le_reg_l (INR (length vals))); [exact Lp|]. rewrite Rmult_0_r. exact H. }
    lra.
  - intros Eq x v Hx Hv. rewrite Eq, Rminus_diag_eq, Rmult_0_r in D by reflexivity. symmetry in D.
    pose proof (sumf_nonneg_zero _ _ Hg D x Hx) as Z. unfold g in Z. apply Rmult_integral in Z. pose proof (N_pos x).
    destruct Z as [Z|Z]; [lra|]. symmetry. apply (proj2 (G x)); [lra|exact Hv].
Qed.
End Cond.

(** Equal conditional probabilities: the difference of the energies does not depend on the site. *)
Lemma cond_eq_energy {A} (vals : list A) (E F : list A -> R) x r : vals <> [] ->
  (forall v, In v vals -> cond_prob E vals x r v = cond_prob F vals x r v) ->
  exists c, forall v, In v vals -> E (upd x r v) = F (upd x r v) + c.
Proof.
  intros ne H. set (ZE := sumf vals (fun w => exp (- E (upd x r w)))). set (ZF := sumf vals (fun w => exp (- F (upd x r w)))).
  assert (PE : 0 < ZE) by (apply sumf_pos; [exact ne|intros; apply exp_pos]).
  assert (PF : 0 < ZF) by (apply sumf_pos; [exact ne|intros; apply exp_pos]).
  exists (ln ZF - ln ZE). intros v Hv. specialize (H v Hv). apply (f_equal ln) in H. unfold cond_prob in H. fold ZE ZF in H.
  rewrite !ln_quot, !ln_exp in H by (try apply exp_pos; assumption). lra.
Qed.

(** ** Potts energies *)
Section Potts.
Variables (n k : nat) (p q : list R).

Lemma local_diff x r v : potts_local n k p x r v - potts_local n k q x r v =
  nthR p (v * n + r) - nthR q (v * n + r) +
  sumf (others n r) (fun i => (pcoupling n k p r i - pcoupling n k q r i) * b2R (Nat.eqb (nth i x 0%nat) v)).
Proof using.
  unfold potts_local. replace (v * n + r)%nat with (r + n * v)%nat by lia.
  rewrite (sumf_ext (others n r) (fun i => (pcoupling n k p r i - pcoupling n k q r i) * _) (fun i => pcoupling n k p r i * b2R (Nat.eqb (nth i x 0%nat) v) - pcoupling n k q r i * b2R (Nat.eqb (nth i x 0%nat) v))) by (intros; ring).
  rewrite sumf_minus. ring.
Qed.

(** If the value of one site never changes the difference of the energies, the couplings are
    equal and the fields differ by a constant. *)
Lemma site_free_same : (2 <= k)%nat ->
  (forall x r v w, In x (all_states (seq 0 k) n) -> (r < n)%nat -> (v < k)%nat -> (w < k)%nat ->
     potts_energy n k p (upd x r v) - potts_energy n k q (upd x r v) = potts_energy n k p (upd x r w) - potts_energy n k q (upd x r w)) ->
  potts_same n k p q.
Proof using.
  intros Hk H. set (dJ := fun r i => pcoupling n k p r i - pcoupling n k q r i). set (dh := fun r v => nthR p (v * n + r) - nthR q (v * n + r)).
  assert (L : forall x r v w, In x (all_states (seq 0 k) n) -> (r < n)%nat -> (v < k)%nat -> (w < k)%nat ->
    dh r v + sumf (others n r) (fun i => dJ r i * b2R (Nat.eqb (nth i x 0%nat) v)) = dh r w + sumf (others n r) (fun i => dJ r i * b2R (Nat.eqb (nth i x 0%nat) w))).
  { intros x r v w Hx Hr Hv Hw. specialize (H x r v w Hx Hr Hv Hw). pose proof (proj1 (proj1 (all_states_k n k x) Hx)) as Lx.
    rewrite !(potts_energy_split n k _ _ r Hr), !potts_local_upd, !potts_rest_upd, !nth_upd_same in H by lia.
    pose proof (local_diff x r v) as A. pose proof (local_diff x r w) as B. unfold dh, dJ. rewrite <- A, <- B. lra. }
  set (z := repeat 0%nat n).
  assert (Hz : In z (all_states (seq 0 k) n)).
  { apply all_states_k. unfold z. split; [apply repeat_length|]. intros v Hv. apply repeat_spec in Hv. lia. }
  assert (zi : forall i, nth i z 0%nat = 0%nat) by (intros i; unfold z; apply nth_repeat).
  assert (J0 : forall r j, (r < n)%nat -> (j < n)%nat -> j <> r -> dJ r j = 0).
  { intros r j Hr Hj Hne.
    pose proof (L z r 0%nat 1%nat Hz Hr ltac:(lia) ltac:(lia)) as A.
    assert (Hy : In (upd z j 1%nat) (all_states (seq 0 k) n)) by (apply in_all_states_upd; [exact Hz|apply in_seq; lia]).
    pose proof (L (upd z j 1%nat) r 0%nat 1%nat Hy Hr ltac:(lia) ltac:(lia)) as B.
    assert (Lz : length z = n) by (apply repeat_length).
    rewrite (sumf_ext _ _ (dJ r)) in A by (intros i; rewrite zi; cbn; ring).
    rewrite (sumf_zero (others n r) (fun i => dJ r i * b2R (Nat.eqb (nth i z 0%nat) 1))) in A by (intros i _; rewrite zi; cbn [b2R Nat.eqb]; ring).
    rewrite (sumf_ext _ (fun i => dJ r i * b2R (Nat.eqb (nth i (upd z j 1%nat) 0%nat) 0)) (fun i => dJ r i - (if Nat.eqb i j then dJ r j else 0))) in B.
    2:{ intros i. destruct (Nat.eqb_spec i j) as [->|Hij]; [rewrite nth_upd_same by lia; cbn [b2R Nat.eqb]; ring|]. rewrite nth_upd_other by auto. rewrite zi. cbn. ring. }
    rewrite (sumf_ext _ (fun i => dJ r i * b2R (Nat.eqb (nth i (upd z j 1%nat) 0%nat) 1)) (fun i => (if Nat.eqb i j then dJ r j else 0))) in B.
    2:{ intros i. destruct (Nat.eqb_spec i j) as [->|Hij]; [rewrite nth_upd_same by lia; cbn; ring|]. rewrite nth_upd_other by auto. rewrite zi. cbn. ring. }
    rewrite sumf_minus in B.
    assert (S1 : sumf (others n r) (fun i => if Nat.eqb i j then dJ r j else 0) = dJ r j).
    { assert (Hin : In j (others n r)) by (apply in_others; lia).
      assert (ND : NoDup (others n r)) by (unfold others; apply NoDup_filter, seq_NoDup).
      clear - Hin ND. induction (others n r) as [|a l IH]; [destruct Hin|]. rewrite sumf_cons. inversion_clear ND as [|? ? Ha Hl]. destruct Hin as [->|Hin].
      - rewrite Nat.eqb_refl, sumf_zero; [ring|]. intros b Hb. destruct (Nat.eqb_spec b j) as [->|]; [contradiction|reflexivity].
      - destruct (Nat.eqb_spec a j) as [->|]; [contradiction|]. rewrite IH by assumption. ring. }
    rewrite S1 in B. lra. }
  split.
  - intros i j Hij Hj. pose proof (J0 i j ltac:(lia) Hj ltac:(lia)) as X. unfold dJ, pcoupling in X. destruct (Nat.ltb_spec i j); [lra|lia].
  - intros i v w Hi Hv Hw. pose proof (L z i v w Hz Hi Hv Hw) as X.
    rewrite !sumf_zero in X by (intros j Hj; apply in_others in Hj; rewrite J0 by lia; ring). unfold dh in X. lra.
Qed.

(** Conversely such parameters have energies that differ by a constant. *)
Lemma same_energy : potts_same n k p q -> (0 < k)%nat -> exists c, forall x, In x (all_states (seq 0 k) n) -> potts_energy n k p x = potts_energy n k q x + c.
Proof using.
  intros [HJ Hh] Hk. exists (- sumf (seq 0 n) (fun i => nthR p i - nthR q i)). intros x Hx. apply all_states_k in Hx. destruct Hx as [Lx Vx]. unfold potts_energy.
  rewrite (sumf_ext_in (seq 0 n) (fun i => nthR p (nth i x 0 * n + i)%nat) (fun i => nthR q (nth i x 0 * n + i)%nat + (nthR p i - nthR q i))).
  2:{ intros i Hi. apply in_seq in Hi. pose proof (Hh i (nth i x 0%nat) 0%nat ltac:(lia) ltac:(apply Vx, nth_In; lia) Hk) as E. cbn [Nat.mul Nat.add] in E. lra. }
  rewrite sumf_plus.
  rewrite (sumf_ext_in (seq 0 n) (fun i => sumf (seq (S i) (n - S i)) (fun j => nthR p (k * n + pair_index n i j) * b2R (Nat.eqb (nth i x 0%nat) (nth j x 0%nat))))
    (fun i => sumf (seq (S i) (n - S i)) (fun j => nthR q (k * n + pair_index n i j) * b2R (Nat.eqb (nth i x 0%nat) (nth j x 0%nat))))).
  - ring.
  - intros i Hi. apply in_seq in Hi. apply sumf_ext_in. intros j Hj. apply in_seq in Hj. rewrite HJ by lia. reflexivity.
Qed.
End Potts.

Lemma boltzmann_shift {A} (E F : A -> R) states c : (forall x, In x states -> E x = F x + c) ->
  forall x, In x states -> boltzmann E states x = boltzmann F states x.
Proof.
  intros H x Hx. unfold boltzmann, partition. rewrite (sumf_ext_in states (fun s => exp (- E s)) (fun s => exp (- F s) * exp (- c))) by (intros s Hs; rewrite <- exp_plus, H by exact Hs; f_equal; ring).
  rewrite sumf_scal_r, (H x Hx). replace (- (F x + c)) with (- F x + - c) by ring. rewrite exp_plus. 
  assert (0 < sumf states (fun s => exp (- F s))) by (apply sumf_pos; [intros ->; destruct Hx|intros; apply exp_pos]). pose proof (exp_pos (- c)). field. lra.
Qed.

(** The same distribution if and only if the same parameters up to the constants. *)
Lemma same_iff_boltzmann n k p q : (2 <= k)%nat ->
  potts_same n k p q <->
  (forall x, In x (all_states (seq 0 k) n) -> boltzmann (potts_energy n k p) (all_states (seq 0 k) n) x = boltzmann (potts_energy n k q) (all_states (seq 0 k) n) x).
Proof.
  intros Hk. split.
  - intros H. destruct (same_energy n k p q H ltac:(lia)) as [c Hc]. now apply (boltzmann_shift _ _ _ c).
  - intros H. apply site_free_same; [exact Hk|]. intros x r v w Hx Hr Hv Hw.
    assert (ne : all_states (seq 0 k) n <> []) by (intros E; rewrite E in Hx; destruct Hx).
    pose proof (boltzmann_eq_energy _ _ _ ne H) as E.
    rewrite !E by (apply in_all_states_upd; [exact Hx|apply in_seq; lia]). ring.
Qed.

Lemma potts_same_sym n k p q : potts_same n k p q -> potts_same n k q p.
Proof. intros [H1 H2]. split; intros; symmetry; auto. Qed.
