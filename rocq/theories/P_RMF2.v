(** * RegularizedMeanField: models of independent spins, conversions, objective. *)
From Verif Require Import Prelude PreludeFacts Spec Spec2 M_Index M_Params M_MeanField M_Cluster M_RMF P_Index P_Energy P_Energy2 P_Params P_Enum P_MaxEnt
  P_MeanField P_MeanField2 P_MeanField3 P_Cluster4 P_Cluster5 P_RMF Props_MeanField Props_RMF.
Import ListNotations.
Local Open Scope R_scope.

(** ** One spin at a time *)
Lemma sum_pairing (u v : R) n : forall i (F : list R -> R), (i < n)%nat ->
  sumf (all_states [u; v] n) F = sumf (all_states [u; v] n) (fun s => / 2 * (F (upd s i u) + F (upd s i v))).
Proof.
  induction n as [|n IH]; intros i F Hi; [lia|]. cbn [all_states]. rewrite !sumf_flat_map, !sumf_cons, !sumf_nil, !sumf_map. destruct i as [|i].
  - cbn [upd]. rewrite Rplus_0_r, <- sumf_plus, Rplus_0_r, <- sumf_plus. apply sumf_ext. intros s. lra.
  - cbn [upd]. rewrite (IH i (fun a => F (u :: a))) by lia. rewrite (IH i (fun a => F (v :: a))) by lia. reflexivity.
Qed.

(** If flipping spin i from u to v costs the same energy d in every state, its
    distribution is that of a single spin. *)
Lemma single_spin_mean u v n i d (E : list R -> R) (f : R -> R) : (i < n)%nat ->
  (forall s, In s (all_states [u; v] n) -> E (upd s i v) = E (upd s i u) + d) ->
  expectation (boltzmann E (all_states [u; v] n)) (all_states [u; v] n) (fun s => f (nthR s i)) = (f u + exp (- d) * f v) / (1 + exp (- d)).
Proof.
  intros Hi Hd. set (st := all_states [u; v] n). set (W := sumf st (fun s => exp (- E (upd s i u)))).
  assert (K : forall s, In s st -> exp (- E (upd s i v)) = exp (- d) * exp (- E (upd s i u))).
  { intros s Hs. rewrite Hd by assumption. rewrite <- exp_plus. f_equal. ring. }
  assert (L : forall s, In s st -> length s = n) by (intros s Hs; now apply all_states_spec in Hs).
  assert (Z : partition E st = / 2 * (1 + exp (- d)) * W).
  { unfold partition. rewrite (sum_pairing u v n i _ Hi). fold st. unfold W. rewrite <- sumf_scal_l. apply sumf_ext_in. intros s Hs. rewrite K by assumption. ring. }
  assert (A : sumf st (fun s => exp (- E s) * f (nthR s i)) = / 2 * (f u + exp (- d) * f v) * W).
  { rewrite (sum_pairing u v n i _ Hi). fold st. unfold W. rewrite <- sumf_scal_l. apply sumf_ext_in. intros s Hs.
    rewrite !nthR_upd_same by (rewrite L; assumption). rewrite K by assumption. ring. }
  assert (WP : 0 < W).
  { unfold W. apply sumf_pos; [|intros; apply exp_pos]. intros Q. apply (f_equal (@length _)) in Q. unfold st in Q. rewrite all_states_length in Q. cbn [length] in Q.
    pose proof (Nat.pow_nonzero 2 n). lia. }
  unfold expectation, boltzmann. fold st. rewrite (sumf_ext st _ (fun s => / partition E st * (exp (- E s) * f (nthR s i)))) by (intros; unfold Rdiv; ring).
  rewrite sumf_scal_l, A, Z. pose proof (exp_pos (- d)). field. lra.
Qed.

(** ** Energies *)
Definition twice (n : nat) (J : list (list R)) : list (list R) := mk_mat n n (fun i j => entry J i j + entry J j i).

Lemma energy01_twice n J y : energy01 n (twice n J) y = 2 * energy01 n J y.
Proof.
  unfold energy01. set (g := fun i j => if Nat.eqb i j then 0 else entry J i j * (nthR y i * nthR y j)).
  rewrite (sumf_ext_in (seq 0 n) (fun i => entry (twice n J) i i * nthR y i) (fun i => 2 * (entry J i i * nthR y i))).
  2:{ intros i Hi. apply in_seq in Hi. unfold twice. rewrite entry_mk_mat by lia. ring. }
  rewrite sumf_scal_l.
  rewrite (sumf_ext_in (seq 0 n) (fun i => sumf (seq 0 n) (fun j => if Nat.eqb i j then 0 else entry (twice n J) i j * (nthR y i * nthR y j)))
     (fun i => sumf (seq 0 n) (fun j => g i j) + sumf (seq 0 n) (fun j => g j i))).
  2:{ intros i Hi. rewrite <- sumf_plus. apply sumf_ext_in. intros j Hj. apply in_seq in Hi, Hj. unfold g, twice. rewrite (Nat.eqb_sym j i). destruct (Nat.eqb i j); [ring|].
      rewrite entry_mk_mat by lia. ring. }
  rewrite sumf_plus. rewrite (sumf_swap (seq 0 n) (seq 0 n) (fun i j => g j i)). unfold g. ring.
Qed.

Lemma rmf_multipliers_twice J : rmf_multipliers J = to_multipliers (twice (length J) J).
Proof. unfold rmf_multipliers, to_multipliers, twice. now rewrite mk_mat_length. Qed.

Lemma rmf_multipliers_ok n J : (1 <= n)%nat -> length J = n ->
  exists mult, rmf_multipliers J = Ok mult /\ length mult = (n + n * (n - 1) / 2)%nat /\
    exists c, forall y, length y = n -> ising_energy n mult (map (fun x => 2 * x - 1) y) = 2 * energy01 n J y + c.
Proof.
  intros Hn HL. rewrite rmf_multipliers_twice, HL. destruct (to_multipliers_ok n (twice n J) Hn (mk_mat_sq n _)) as (mult & E & L & c & Hc).
  - intros i j Hi Hj. unfold twice. rewrite !entry_mk_mat by assumption. ring.
  - exists mult. split; [exact E|]. split; [exact L|]. exists c. intros y Hy. rewrite Hc by assumption. now rewrite energy01_twice.
Qed.

(** ** The mean field matrix of uncorrelated data *)
Section Uncorrelated.
Variable eig : list (list R) -> list R * list (list R).
Variable inv : list (list R) -> list (list R).
Variable svdvals : list (list R) -> list R.
Variable n : nat.
Variable C : list (list R).
Hypothesis Hn : (1 <= n)%nat.
Hypothesis HC : sq n C.
Hypothesis Hf : forall i, (i < n)%nat -> 0 < entry C i i < 1.
Hypothesis Hun : forall i j, (i < j < n)%nat -> entry C i j = entry C i i * entry C j j.
Hypothesis HE : let I := mk_mat n n delta in eigen n I (fst (eig I)) (snd (eig I)).

Lemma nth_range a : (a < n)%nat -> nth a (range n) 0%nat = a.
Proof. intros. unfold range. now rewrite seq_nth by assumption. Qed.

Lemma correlations_id : correlations C (range n) = mk_mat n n delta.
Proof.
  unfold correlations. assert (L : length (range n) = n) by apply seq_length. rewrite L. apply mk_mat_ext. intros a b Ha Hb. cbv zeta. unfold delta.
  rewrite !nth_range by lia. destruct (Nat.eqb_spec a b) as [->|Nab].
  - rewrite Nat.min_id, Nat.max_id. specialize (Hf b Hb). rewrite sqrt_square by nra. field. lra.
  - rewrite (Hun (Nat.min a b) (Nat.max a b)) by lia. unfold Rdiv. ring.
Qed.

Lemma JmeanField_uncorrelated lmbda N : 0 <= lmbda -> (1 <= N)%nat ->
  exists J, JmeanField eig inv svdvals C lmbda (Some N) = Ok J /\ sq n J /\
    forall i j, (i < n)%nat -> (j < n)%nat -> entry J i j = if Nat.eqb i j then - ln (entry C i i / (1 - entry C i i)) else 0.
Proof.
  intros Hl HN. assert (L : length (range n) = n) by apply seq_length. assert (LC : length C = n) by apply HC.
  assert (HNp : 0 < INR N) by (apply lt_0_INR; lia).
  destruct (C73_uncorrelated_exact eig inv svdvals n C (range n) lmbda (Some N) true (lmbda / INR N)) as (J & E & SJ & H).
  - split; [exact HC|]. split; [intros x Hx; now apply in_range|]. split; [apply seq_NoDup|]. split.
    + intros Q. rewrite Q in L. cbn in L. lia.
    + intros x Hx. apply Hf. now apply in_range.
  - intros a b Hab. rewrite L in Hab. cbv zeta. rewrite !nth_range by lia. now apply Hun.
  - now right.
  - destruct (Req_dec lmbda 0) as [->|N0]; [left; split; [reflexivity|unfold Rdiv; ring]|right; split; [assumption|now exists N]].
  - apply Rle_mult_inv_pos; assumption.
  - rewrite correlations_id, L. exact HE.
  - exists J. split; [unfold JmeanField; rewrite LC, E; reflexivity|]. split; [exact SJ|]. intros i j Hi Hj. destruct (H i j Hi Hj) as [H1 H2].
    destruct (Nat.eqb_spec i j) as [<-|Nij]; [apply H1; [now apply in_range|reflexivity]|apply H2; now right].
Qed.
End Uncorrelated.

Lemma energy01_diag n J (h : nat -> R) y : (forall i j, (i < n)%nat -> (j < n)%nat -> entry J i j = if Nat.eqb i j then h i else 0) ->
  energy01 n J y = sumf (seq 0 n) (fun i => h i * nthR y i).
Proof.
  intros H. unfold energy01. rewrite (sumf_ext_in (seq 0 n) (fun i => entry J i i * nthR y i) (fun i => h i * nthR y i)).
  - rewrite <- Rplus_0_r. f_equal. apply sumf_zero. intros i Hi. apply sumf_zero. intros j Hj. apply in_seq in Hi, Hj. rewrite H by lia. destruct (Nat.eqb i j); ring.
  - intros i Hi. apply in_seq in Hi. rewrite H by lia. now rewrite Nat.eqb_refl.
Qed.

Lemma linear_upd n (h : nat -> R) s i u v : (i < n)%nat -> length s = n ->
  sumf (seq 0 n) (fun k => h k * nthR (upd s i v) k) = sumf (seq 0 n) (fun k => h k * nthR (upd s i u) k) + h i * (v - u).
Proof.
  intros Hi L. assert (X : sumf (seq 0 n) (fun k => if Nat.eq_dec i k then h k * (v - u) else 0) = h i * (v - u)) by (apply (sumf_indic Nat.eq_dec); [apply seq_NoDup|apply in_seq; lia]).
  rewrite <- X, <- sumf_plus. apply sumf_ext_in. intros k Hk. destruct (Nat.eq_dec i k) as [<-|N].
  - rewrite !nthR_upd_same by lia. ring.
  - rewrite !nthR_upd_other by assumption. ring.
Qed.
