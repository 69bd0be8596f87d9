(** * Proofs: pseudolikelihood of the Ising model. *)
From Coquelicot Require Import Coquelicot.
From Verif Require Import Prelude Spec PreludeFacts M_Index M_Params M_Energy M_Corr M_Pseudo P_Index P_Unravel P_Energy P_Energy2 P_Params P_Unique P_MPF P_MaxEnt P_Corr2 P_Pseudo Props_Energy.
Import ListNotations.

Lemma pair_index_inj n i j i' j' : i < j -> j < n -> i' < j' -> j' < n -> pair_index n i j = pair_index n i' j' -> i = i' /\ j = j'.
Proof.
  intros H1 H2 H3 H4 E. pose proof (pair_index_spec n i j H1 H2) as A. pose proof (pair_index_spec n i' j' H3 H4) as B.
  rewrite E, B in A. injection A as -> ->. auto.
Qed.

(** Positions of the parameters of spin r. *)
Definition pix (n r i : nat) : nat := n + (if Nat.ltb i r then pair_index n i r else pair_index n r i).
Definition ising_ix (n r : nat) : list nat := r :: map (pix n r) (others n r).

Lemma pix_range n r i : r < n -> i < n -> i <> r -> n <= pix n r i < n + n * (n - 1) / 2.
Proof.
  intros Hr Hi Hne. unfold pix. destruct (Nat.ltb_spec i r).
  - pose proof (pair_index_lt n i r ltac:(lia) Hr). lia.
  - pose proof (pair_index_lt n r i ltac:(lia) Hi). lia.
Qed.

Lemma pix_inj n r i j : r < n -> i < n -> j < n -> i <> r -> j <> r -> pix n r i = pix n r j -> i = j.
Proof.
  intros Hr Hi Hj Ni Nj E. unfold pix in E.
  destruct (Nat.ltb_spec i r), (Nat.ltb_spec j r); apply Nat.add_cancel_l in E; apply pair_index_inj in E; lia.
Qed.

Lemma ising_ix_NoDup n r : r < n -> NoDup (ising_ix n r).
Proof.
  intros Hr. unfold ising_ix. constructor.
  - intros H. apply in_map_iff in H. destruct H as (i & E & Hi). apply in_others in Hi. pose proof (pix_range n r i Hr ltac:(lia) ltac:(lia)). lia.
  - assert (G : forall l, NoDup l -> (forall i, In i l -> In i (others n r)) -> NoDup (map (pix n r) l)).
    { induction l as [|a l IH]; intros ND Hl; cbn [map]; constructor.
      - intros H. apply in_map_iff in H. destruct H as (b & E & Hb). inversion_clear ND as [|? ? N1 N2]. apply N1.
        assert (Ha := Hl a (or_introl eq_refl)). assert (Hb' := Hl b (or_intror Hb)). apply in_others in Ha, Hb'.
        rewrite <- (pix_inj n r b a); try lia; assumption.
      - apply IH; [now inversion ND|]. intros; apply Hl. now right. }
    apply G; auto. apply NoDup_filter, seq_NoDup.
Qed.

Lemma ising_ix_range n r i : r < n -> In i (ising_ix n r) -> i < n + n * (n - 1) / 2.
Proof.
  intros Hr [<-|H]; [lia|]. apply in_map_iff in H. destruct H as (j & <- & Hj). apply in_others in Hj. apply pix_range; lia.
Qed.

Lemma others_split n r : r < n -> others n r = seq 0 r ++ seq (S r) (n - 1 - r).
Proof.
  intros Hr. unfold others. replace n with (r + S (n - 1 - r)) at 1 by lia. rewrite seq_app, filter_app. cbn [seq filter plus].
  rewrite Nat.eqb_refl. cbn [negb]. f_equal.
  - apply filter_ext_all. intros i Hi. apply in_seq in Hi. apply negb_true_iff, Nat.eqb_neq. lia.
  - apply filter_ext_all. intros i Hi. apply in_seq in Hi. apply negb_true_iff, Nat.eqb_neq. lia.
Qed.

Lemma others_length n r : r < n -> length (others n r) = n - 1.
Proof. intros Hr. rewrite others_split by assumption. rewrite app_length, !seq_length. lia. Qed.

Lemma ising_ix_length n r : r < n -> length (ising_ix n r) = n.
Proof. intros Hr. unfold ising_ix. cbn [length]. rewrite map_length, others_length by assumption. lia. Qed.

Lemma others_nth n r m : r < n -> m < n - 1 -> nth m (others n r) 0 = if Nat.ltb m r then m else S m.
Proof.
  intros Hr Hm. rewrite others_split by assumption. destruct (Nat.ltb_spec m r).
  - rewrite app_nth1 by (rewrite seq_length; lia). rewrite seq_nth; lia.
  - rewrite app_nth2 by (rewrite seq_length; lia). rewrite seq_length, seq_nth; lia.
Qed.

Local Open Scope R_scope.

Lemma ising_get n r p : (r < n)%nat -> pseudo_ising_get_multipliers_r n r p = Ok (map (nthR p) (ising_ix n r), ising_ix n r).
Proof. intros Hr. unfold pseudo_ising_get_multipliers_r. rewrite pseudo_ising_ix_eq by assumption. reflexivity. Qed.

Lemma ising_obs_r_length n r s : (r < n)%nat -> length (pseudo_ising_calc_observables_r n r s) = n.
Proof.
  intros Hr. unfold pseudo_ising_calc_observables_r. rewrite loop_ij_pairs, (filter_pairs_r r n 0) by lia. cbn [length]. rewrite !map_length.
  fold (others n r). rewrite others_length by assumption. lia.
Qed.

Lemma ising_dot n r p s : (r < n)%nat -> length s = n ->
  dot (pseudo_ising_calc_observables_r n r s) (map (nthR p) (ising_ix n r)) = nthR s r * local_field n p s r.
Proof.
  intros Hr Hs. destruct (pseudo_ising_dot n r p s Hr Hs) as (mult & ix & E & H). rewrite ising_get in E by assumption. injection E as <- <-. exact H.
Qed.

(** States of n spins. *)
Definition spin_state (n : nat) (s : list R) : Prop := length s = n /\ forall x, In x s -> x = 1 \/ x = -1.

Lemma spin_nth n s r : spin_state n s -> (r < n)%nat -> nthR s r = 1 \/ nthR s r = -1.
Proof. intros [L V] Hr. apply V, nth_In. lia. Qed.

Lemma softplus_cond n r p s : (r < n)%nat -> spin_state n s -> length p = (n + n * (n - 1) / 2)%nat ->
  softplus (2 * - dot (pseudo_ising_calc_observables_r n r s) (map (nthR p) (ising_ix n r))) =
  - ln (cond_prob (ising_energy n p) [-1; 1] s r (nthR s r)).
Proof.
  intros Hr Hs Hp. destruct (C17_pseudo_ising_conditional n r s p (proj1 Hs) Hp Hr (spin_nth n s r Hs Hr)) as (mult & ix & E & _ & H).
  rewrite ising_get in E by assumption. injection E as <- <-. rewrite H. unfold softplus.
  set (d := dot _ _). replace (2 * - d) with (-2 * d) by ring. pose proof (exp_pos (-2 * d)).
  unfold Rdiv. rewrite Rmult_1_l, ln_Rinv by lra. ring.
Qed.

(** Only the field and the couplings of r matter for the local field of r, and they do not
    enter the rest of the energy. *)
Lemma local_field_ext n p q s r : (r < n)%nat -> (forall i, In i (ising_ix n r) -> nthR p i = nthR q i) -> local_field n p s r = local_field n q s r.
Proof.
  intros Hr H. unfold local_field. f_equal; [apply H; now left|]. apply sumf_ext_in. intros i Hi. f_equal.
  rewrite !(coupling_sym n _ r i) by (apply in_others in Hi; lia). unfold coupling. apply in_others in Hi.
  assert (G : (n + (if Nat.ltb i r then pair_index n i r else pair_index n r i))%nat = pix n r i) by reflexivity.
  rewrite G. apply H. right. apply in_map. apply in_others. lia.
Qed.

Lemma energy_rest_ext n p q s r : (r < n)%nat -> (forall i, ~ In i (ising_ix n r) -> nthR p i = nthR q i) -> energy_rest n p s r = energy_rest n q s r.
Proof.
  intros Hr H. unfold energy_rest. f_equal; [f_equal|].
  - apply sumf_ext_in. intros i Hi. apply in_others in Hi. f_equal. apply H. intros [E|E]; [lia|]. apply in_map_iff in E. destruct E as (j & E & Hj).
    apply in_others in Hj. pose proof (pix_range n r j Hr ltac:(lia) ltac:(lia)). lia.
  - apply sumf_ext_in. intros [i j] Hin. apply in_pairs_in in Hin. destruct Hin as [Hi Hj]. apply in_others in Hi, Hj. cbn [fst snd]. f_equal.
    unfold csym. destruct (Nat.eqb_spec i j); [reflexivity|]. unfold coupling. apply H. intros [E|E]; [lia|].
    apply in_map_iff in E. destruct E as (k & E & Hk). apply in_others in Hk. unfold pix in E. apply Nat.add_cancel_l in E.
    destruct (Nat.ltb_spec k r), (Nat.ltb_spec i j); apply pair_index_inj in E; lia.
Qed.

(** ** Symmetrisation *)
Lemma pseudo_row_ok n r x : (r < n)%nat -> length x = n ->
  exists row, pseudo_row n r x = Ok row /\ length row = n /\ nthR row r = nthR x 0 /\
    forall m, (m < n - 1)%nat -> nthR row (nth m (others n r) 0%nat) = nthR x (S m).
Proof.
  intros Hr Hx. unfold pseudo_row. rewrite (proj2 (Nat.eqb_eq _ _) Hx), (proj2 (Nat.ltb_lt _ _) Hr). cbn [andb]. fold (others n r).
  unfold range. fold (others n r).
  destruct (scatter_spec (upd (repeat 0 n) r (nthR x 0)) (others n r) (skipn 1 x)) as (row & E & L & H1 & H2).
  - rewrite others_length, skipn_length by assumption. lia.
  - apply NoDup_filter, seq_NoDup.
  - intros i Hi. apply in_others in Hi. rewrite upd_length, repeat_length. lia.
  - exists row. split; [exact E|]. rewrite upd_length, repeat_length in L. split; [exact L|]. split.
    + rewrite H2 by (rewrite in_others; lia). apply nthR_upd_same. rewrite repeat_length. lia.
    + intros m Hm. rewrite H1 by (rewrite others_length; lia). unfold nthR. destruct x; [cbn in Hx; lia|reflexivity].
Qed.

(** ** The exact pseudolikelihood *)
Section Gibbs.
Context {S : Type}.
Variables (St : list S) (phi : S -> S) (ND : NoDup St).
Hypothesis Hphi : forall s, In s St -> In (phi s) St /\ phi (phi s) = s.
Variables (Es : S -> R) (P : S -> R) (W : R).
Hypothesis HW : 0 < W.
Hypothesis HP : forall s, In s St -> P s = W * exp (- Es s).

Definition cpair (E : S -> R) (s : S) : R := exp (- E s) / (exp (- E s) + exp (- E (phi s))).

Lemma cpair_pos E s : 0 < cpair E s.
Proof. unfold cpair. pose proof (exp_pos (- E s)). pose proof (exp_pos (- E (phi s))). apply Rdiv_lt_0_compat; lra. Qed.

Lemma cpair_gibbs E : sumf St (fun s => P s * - ln (cpair Es s)) <= sumf St (fun s => P s * - ln (cpair E s)) /\
  (sumf St (fun s => P s * - ln (cpair E s)) = sumf St (fun s => P s * - ln (cpair Es s)) -> forall s, In s St -> cpair E s = cpair Es s).
Proof.
  set (g := fun s => P s * (cpair E s / cpair Es s - 1 - ln (cpair E s / cpair Es s))).
  assert (G0 : forall s, In s St -> 0 <= g s).
  { intros s Hs. unfold g. rewrite HP by assumption. pose proof (exp_pos (- Es s)). apply Rmult_le_pos; [apply Rmult_le_pos; lra|].
    pose proof (ln_le_sub1 (cpair E s / cpair Es s) (Rdiv_lt_0_compat _ _ (cpair_pos E s) (cpair_pos Es s))). lra. }
  assert (Z : sumf St (fun s => P s * (cpair E s / cpair Es s - 1)) = 0).
  { set (M := fun s => W * (exp (- Es s) + exp (- Es (phi s)))).
    rewrite (sumf_ext_in St _ (fun s => M s * cpair E s - P s)).
    2:{ intros s Hs. rewrite HP by assumption. unfold M. unfold cpair at 2. pose proof (exp_pos (- Es s)). pose proof (exp_pos (- Es (phi s))). field. lra. }
    rewrite sumf_minus.
    assert (F := sumf_flip St 1 (fun _ => phi) ND (fun i s _ => Hphi s) 0).
    assert (A : 2 * sumf St (fun s => M s * cpair E s) = sumf St M).
    { replace (2 * _) with (sumf St (fun s => M s * cpair E s) + sumf St (fun s => M s * cpair E s)) by ring.
      rewrite <- (F (fun s => M s * cpair E s)) at 2 by lia. rewrite <- sumf_plus. apply sumf_ext_in. intros s Hs.
      destruct (Hphi s Hs) as [_ Hs2]. unfold M, cpair. rewrite Hs2. pose proof (exp_pos (- E s)). pose proof (exp_pos (- E (phi s))). field. lra. }
    assert (B : sumf St M = 2 * sumf St P).
    { replace (2 * sumf St P) with (sumf St P + sumf St P) by ring. rewrite <- (F P) at 2 by lia. rewrite <- sumf_plus. apply sumf_ext_in. intros s Hs.
      unfold M. rewrite !HP; [ring|now apply Hphi|assumption]. }
    lra. }
  assert (D : sumf St (fun s => P s * - ln (cpair E s)) - sumf St (fun s => P s * - ln (cpair Es s)) = sumf St g).
  { replace (sumf St g) with (sumf St (fun s => P s * (cpair E s / cpair Es s - 1)) - sumf St (fun s => P s * ln (cpair E s / cpair Es s))).
    - rewrite Z, <- sumf_minus. rewrite Rminus_0_l, <- sumf_opp. apply sumf_ext. intros s. rewrite ln_quot by apply cpair_pos. ring.
    - rewrite <- sumf_minus. apply sumf_ext. intros s. unfold g. ring. }
  split; [pose proof (sumf_nonneg St g G0); lra|]. intros E0 s Hs.
  assert (Hg : g s = 0) by (apply (sumf_nonneg_zero St g G0); [lra|assumption]).
  unfold g in Hg. rewrite HP in Hg by assumption. pose proof (exp_pos (- Es s)) as Px.
  apply Rmult_integral in Hg. destruct Hg as [Hg|Hg]; [apply Rmult_integral in Hg; lra|].
  assert (Hr : cpair E s / cpair Es s = 1).
  { apply ln_eq_sub1; [apply Rdiv_lt_0_compat; apply cpair_pos|]. lra. }
  pose proof (cpair_pos Es s). apply (Rmult_eq_reg_r (/ cpair Es s)); [|apply Rinv_neq_0_compat; lra]. rewrite Rinv_r by lra. exact Hr.
Qed.
End Gibbs.

(** Sums over a sample by counting. *)
Lemma sumf_count (sample St : list (list Z)) (f : list Z -> R) : NoDup St -> (forall r, In r sample -> In r St) ->
  sumf sample f = sumf St (fun u => INR (count_occ rows_dec sample u) * f u).
Proof.
  intros ND. induction sample as [|r l IH]; intros H.
  - rewrite sumf_nil. symmetry. apply sumf_zero. intros u _. cbn. ring.
  - rewrite sumf_cons, IH by (intros; apply H; now right).
    rewrite (sumf_ext St (fun u => INR (count_occ rows_dec (r :: l) u) * f u) (fun u => (if rows_dec r u then f u else 0) + INR (count_occ rows_dec l u) * f u)).
    + rewrite sumf_plus, sumf_indic; [reflexivity|exact ND|]. apply H. now left.
    + intros u. cbn [count_occ]. destruct (rows_dec r u); [rewrite S_INR|]; ring.
Qed.
