(** * Potts models: the variance of an energy over all states, and what it says about the
    distance of two parameter vectors. *)
From Verif Require Import Prelude Spec PreludeFacts M_Index M_Params M_Energy M_Corr P_Index P_Unravel P_Energy P_Energy2 P_Params P_MaxEnt P_Unique P_MCH P_Descent P_Stable P_PottsGauge.
Import ListNotations.
Local Open Scope R_scope.

Section Square.
Variable k : nat.
Hypothesis Hk : (0 < k)%nat.
Let V := seq 0 k.
Let K := INR k.

Lemma K_pos : 0 < K.
Proof using Hk. apply lt_0_INR. exact Hk. Qed.

Lemma V_const c : sumf V (fun _ => c) = K * c.
Proof using. rewrite sumf_const. unfold V, K. now rewrite seq_length. Qed.

(** Sums of functions of single sites, each with mean zero. *)
Lemma sep_square n : forall (c : nat -> nat -> R) b, (forall j, (j < n)%nat -> sumf V (c j) = 0) ->
  sumf (all_states V n) (fun s => (b + sumf (seq 0 n) (fun j => c j (nth j s 0%nat))) * (b + sumf (seq 0 n) (fun j => c j (nth j s 0%nat)))) =
  K ^ n * (b * b + sumf (seq 0 n) (fun j => sumf V (fun w => c j w * c j w)) / K).
Proof using Hk.
  pose proof K_pos as KP. induction n as [|n IH]; intros c b Hc.
  - cbn [all_states seq]. rewrite sumf_cons, !sumf_nil. cbn [pow]. field. lra.
  - set (T := sumf (seq 0 n) (fun j => sumf V (fun w => c (S j) w * c (S j) w))). cbn [all_states]. rewrite sumf_flat_map.
    rewrite (sumf_ext V _ (fun v => K ^ n * ((b * b + T / K) + (2 * b * c 0%nat v + c 0%nat v * c 0%nat v)))).
    + rewrite sumf_scal_l, sumf_plus, V_const, sumf_plus, sumf_scal_l, (Hc 0%nat) by lia.
      rewrite (sumf_seq_S n (fun j => sumf V (fun w => c j w * c j w))). fold T. cbn [pow]. field. lra.
    + intros v. rewrite sumf_map.
      rewrite (sumf_ext _ _ (fun s => ((b + c 0%nat v) + sumf (seq 0 n) (fun j => c (S j) (nth j s 0%nat))) * ((b + c 0%nat v) + sumf (seq 0 n) (fun j => c (S j) (nth j s 0%nat))))).
      * rewrite (IH (fun j => c (S j)) (b + c 0%nat v)) by (intros j Hj; apply Hc; lia). fold T. field. lra.
      * intros s. rewrite (sumf_seq_S n (fun j => c j (nth j (v :: s) 0%nat))). cbn [nth]. ring.
Qed.

Variable t : nat -> nat -> R.
Variable tau : R.
Hypothesis Ht1 : forall v, (v < k)%nat -> sumf V (t v) = 0.
Hypothesis Ht2 : forall w, (w < k)%nat -> sumf V (fun v => t v w) = 0.
Hypothesis Ht3 : forall v, (v < k)%nat -> sumf V (fun w => t v w * t v w) = tau.

Definition quad (a : nat -> nat -> R) (J : nat -> nat -> R) (n : nat) (s : list nat) : R :=
  sumf (seq 0 n) (fun i => a i (nth i s 0%nat)) +
  sumf (seq 0 n) (fun i => sumf (seq (S i) (n - S i)) (fun j => J i j * t (nth i s 0%nat) (nth j s 0%nat))).

Lemma quad_cons a J n v s : quad a J (S n) (v :: s) =
  a 0%nat v + sumf (seq 0 n) (fun j => J 0%nat (S j) * t v (nth j s 0%nat)) + quad (fun i => a (S i)) (fun i j => J (S i) (S j)) n s.
Proof using.
  clear Hk Ht1 Ht2 Ht3. unfold quad. rewrite (sumf_seq_S n (fun i => a i (nth i (v :: s) 0%nat))).
  rewrite (sumf_seq_S n (fun i => sumf (seq (S i) (S n - S i)) (fun j => J i j * t (nth i (v :: s) 0%nat) (nth j (v :: s) 0%nat)))).
  rewrite (sumf_ext (seq 0 n) (fun i => sumf (seq (S (S i)) (S n - S (S i))) (fun j => J (S i) j * t (nth (S i) (v :: s) 0%nat) (nth j (v :: s) 0%nat)))
    (fun i => sumf (seq (S i) (n - S i)) (fun j => J (S i) (S j) * t (nth i s 0%nat) (nth j s 0%nat)))).
  - replace (S n - 1)%nat with n by lia. rewrite sumf_seq_shift. cbn [nth]. ring.
  - intros i. replace (S n - S (S i))%nat with (n - S i)%nat by lia. rewrite <- (seq_shift _ (S i)), sumf_map. reflexivity.
Qed.

Lemma in_state n s j : In s (all_states V n) -> (j < n)%nat -> (nth j s 0 < k)%nat.
Proof using. clear Hk Ht1 Ht2 Ht3. intros Hs Hj. apply all_states_k in Hs. destruct Hs as [L H]. apply H, nth_In. lia. Qed.

Lemma quad_square n : forall a J b, (forall i, (i < n)%nat -> sumf V (a i) = 0) ->
  sumf (all_states V n) (fun s => (b + quad a J n s) * (b + quad a J n s)) =
  K ^ n * (b * b + sumf (seq 0 n) (fun i => sumf V (fun v => a i v * a i v)) / K
           + tau / K * sumf (seq 0 n) (fun i => sumf (seq (S i) (n - S i)) (fun j => J i j * J i j))).
Proof using Hk Ht1 Ht2 Ht3.
  pose proof K_pos as KP. induction n as [|n IH]; intros a J b Ha.
  - cbn [all_states seq]. unfold quad. cbn [seq]. rewrite sumf_cons, !sumf_nil. cbn [pow]. field. lra.
  - set (a' := fun i => a (S i)). set (J' := fun i j => J (S i) (S j)).
    set (A := fun v s => a 0%nat v + sumf (seq 0 n) (fun j => J 0%nat (S j) * t v (nth j s 0%nat))).
    cbn [all_states]. rewrite sumf_flat_map.
    rewrite (sumf_ext V _ (fun v => sumf (all_states V n) (fun s => A v s * A v s + (2 * A v s * (b + quad a' J' n s) + (b + quad a' J' n s) * (b + quad a' J' n s))))).
    2:{ intros v. rewrite sumf_map. apply sumf_ext. intros s. rewrite quad_cons. fold a' J'. unfold A. ring. }
    rewrite (sumf_ext V _ (fun v => sumf (all_states V n) (fun s => A v s * A v s) + (sumf (all_states V n) (fun s => 2 * A v s * (b + quad a' J' n s)) + sumf (all_states V n) (fun s => (b + quad a' J' n s) * (b + quad a' J' n s))))) by (intros v; now rewrite !sumf_plus).
    rewrite !sumf_plus, V_const, (IH a' J' b) by (intros i Hi; apply Ha; lia).
    assert (Z : sumf V (fun v => sumf (all_states V n) (fun s => 2 * A v s * (b + quad a' J' n s))) = 0).
    { rewrite sumf_swap. apply sumf_zero. intros s Hs.
      rewrite (sumf_ext V _ (fun v => 2 * (b + quad a' J' n s) * A v s)) by (intros; ring). rewrite sumf_scal_l.
      assert (A0 : sumf V (fun v => A v s) = 0); [|rewrite A0; ring]. unfold A. rewrite sumf_plus.
      rewrite (Ha 0%nat) by lia. rewrite sumf_swap, sumf_zero; [ring|]. intros j Hj. apply in_seq in Hj. rewrite sumf_scal_l, Ht2; [ring|].
      apply (in_state n); [exact Hs|lia]. }
    rewrite Z. set (J2 := sumf (seq 0 n) (fun j => J 0%nat (S j) * J 0%nat (S j))).
    rewrite (sumf_ext_in V _ (fun v => K ^ n * (a 0%nat v * a 0%nat v) + K ^ n * (J2 * tau / K))).
    2:{ intros v Hv. apply in_seq in Hv. unfold A. rewrite (sep_square n (fun j w => J 0%nat (S j) * t v w) (a 0%nat v)).
        - rewrite (sumf_ext (seq 0 n) _ (fun j => J 0%nat (S j) * J 0%nat (S j) * tau)).
          + rewrite sumf_scal_r. fold J2. ring.
          + intros j. rewrite (sumf_ext V _ (fun w => J 0%nat (S j) * J 0%nat (S j) * (t v w * t v w))) by (intros; ring). rewrite sumf_scal_l, Ht3 by lia. reflexivity.
        - intros j _. rewrite sumf_scal_l, Ht1 by lia. ring. }
    rewrite sumf_plus, V_const, sumf_scal_l.
    rewrite (sumf_seq_S n (fun i => sumf V (fun v => a i v * a i v))). fold (a' : nat -> nat -> R).
    rewrite (sumf_seq_S n (fun i => sumf (seq (S i) (S n - S i)) (fun j => J i j * J i j))).
    replace (S n - 1)%nat with n by lia. rewrite sumf_seq_shift. fold J2.
    rewrite (sumf_ext (seq 0 n) (fun i => sumf (seq (S (S i)) (S n - S (S i))) (fun j => J (S i) j * J (S i) j)) (fun i => sumf (seq (S i) (n - S i)) (fun j => J' i j * J' i j))).
    2:{ intros i. replace (S n - S (S i))%nat with (n - S i)%nat by lia. rewrite <- (seq_shift _ (S i)), sumf_map. reflexivity. }
    change (sumf (seq 0 n) (fun i => sumf V (fun v => a (S i) v * a (S i) v))) with (sumf (seq 0 n) (fun i => sumf V (fun v => a' i v * a' i v))).
    cbn [pow]. field. lra.
Qed.
End Square.

(** ** Numbering of the parameters *)
Lemma fields_sum n k (f : nat -> R) : sumf (seq 0 (k * n)) f = sumf (seq 0 n) (fun i => sumf (seq 0 k) (fun v => f (v * n + i)%nat)).
Proof.
  induction k as [|k IH].
  - cbn [Nat.mul seq]. rewrite sumf_nil. symmetry. apply sumf_zero. intros i _. apply sumf_nil.
  - replace (S k * n)%nat with (k * n + n)%nat by lia. rewrite seq_app, sumf_app, IH. cbn [Nat.add].
    rewrite (sumf_ext (seq 0 n) (fun i => sumf (seq 0 (S k)) (fun v => f (v * n + i)%nat)) (fun i => sumf (seq 0 k) (fun v => f (v * n + i)%nat) + f (k * n + i)%nat)) by (intros i; exact (sumf_seq_last k (fun v => f (v * n + i)%nat))).
    rewrite sumf_plus. f_equal. generalize (k * n)%nat as m. clear. intros m. revert m. induction n as [|n IH]; intros m; [reflexivity|].
    rewrite sumf_seq_S. cbn [seq]. rewrite sumf_cons, IH, Nat.add_0_r. f_equal. apply sumf_ext. intros i. f_equal. lia.
Qed.

Lemma pairs_sum n (f : nat -> R) : sumf (seq 0 (n * (n - 1) / 2)) f = sumf (seq 0 n) (fun i => sumf (seq (S i) (n - S i)) (fun j => f (pair_index n i j))).
Proof.
  rewrite <- (sumf_pairs_seq n (fun i j => f (pair_index n i j))), <- (sumf_seq_nth (0, 0)%nat (pairs (seq 0 n))), pairs_seq_length.
  apply sumf_ext_in. intros m Hm. apply in_seq in Hm. destruct (pair_index_nth n m ltac:(lia)) as [E _]. now rewrite E.
Qed.

Lemma params_sum n k (f : nat -> R) : sumf (seq 0 (k * n + n * (n - 1) / 2)) f =
  sumf (seq 0 n) (fun i => sumf (seq 0 k) (fun v => f (v * n + i)%nat)) +
  sumf (seq 0 n) (fun i => sumf (seq (S i) (n - S i)) (fun j => f (k * n + pair_index n i j)%nat)).
Proof.
  rewrite seq_app, sumf_app, fields_sum. f_equal. cbn [Nat.add]. rewrite <- (pairs_sum n (fun m => f (k * n + m)%nat)).
  generalize (k * n)%nat as m. generalize (n * (n - 1) / 2)%nat as a. clear. induction a as [|a IH]; intros m; [reflexivity|].
  rewrite sumf_seq_S. cbn [seq]. rewrite sumf_cons, IH, Nat.add_0_r. f_equal. apply sumf_ext. intros i. f_equal. lia.
Qed.

(** ** Removing the mean field of every spin *)
(** Specification: the parameters with the mean over the states subtracted from the fields of
    every spin; the couplings are left as they are. *)
Definition centre (n k : nat) (p : list R) : list R :=
  map (fun c => nthR p c - (if Nat.ltb c (k * n) then sumf (seq 0 k) (fun v => nthR p (v * n + c mod n)) / INR k else 0)) (seq 0 (length p)).

Section Centre.
Variables (n k : nat).
Hypothesis Hk : (2 <= k)%nat.

Lemma centre_length p : length (centre n k p) = length p.
Proof using. unfold centre. now rewrite map_length, seq_length. Qed.

Lemma centre_nth p c : (c < length p)%nat -> nthR (centre n k p) c = nthR p c - (if Nat.ltb c (k * n) then sumf (seq 0 k) (fun v => nthR p (v * n + c mod n)) / INR k else 0).
Proof using. intros Hc. unfold centre, nthR at 1. rewrite nth_map_seq by exact Hc. reflexivity. Qed.

Lemma centre_field p i v : length p = (k * n + n * (n - 1) / 2)%nat -> (i < n)%nat -> (v < k)%nat ->
  nthR (centre n k p) (v * n + i) = nthR p (v * n + i) - sumf (seq 0 k) (fun v => nthR p (v * n + i)) / INR k.
Proof using Hk.
  intros Hp Hi Hv. assert (v * n + i < k * n)%nat by nia. rewrite centre_nth by lia. destruct (Nat.ltb_spec (v * n + i) (k * n)); [|lia].
  replace ((v * n + i) mod n)%nat with i; [reflexivity|]. rewrite Nat.add_comm, Nat.mod_add by lia. symmetry. now apply Nat.mod_small.
Qed.

Lemma centre_coupling p i j : length p = (k * n + n * (n - 1) / 2)%nat -> (i < j)%nat -> (j < n)%nat ->
  nthR (centre n k p) (k * n + pair_index n i j) = nthR p (k * n + pair_index n i j).
Proof using Hk.
  intros Hp Hij Hj. pose proof (pair_index_lt n i j Hij Hj). rewrite centre_nth by lia. destruct (Nat.ltb_spec (k * n + pair_index n i j) (k * n)); [lia|]. ring.
Qed.

Lemma centre_mean p i : length p = (k * n + n * (n - 1) / 2)%nat -> (i < n)%nat -> sumf (seq 0 k) (fun v => nthR (centre n k p) (v * n + i)) = 0.
Proof using Hk.
  intros Hp Hi. rewrite (sumf_ext_in _ _ (fun v => nthR p (v * n + i) - sumf (seq 0 k) (fun v => nthR p (v * n + i)) / INR k)).
  - rewrite sumf_minus, sumf_const, seq_length. assert (0 < INR k) by (apply lt_0_INR; lia). field. lra.
  - intros v Hv. apply in_seq in Hv. apply centre_field; auto; lia.
Qed.

Lemma centre_same p : length p = (k * n + n * (n - 1) / 2)%nat -> potts_same n k (centre n k p) p.
Proof using Hk.
  intros Hp. split.
  - intros i j Hij Hj. now apply centre_coupling.
  - intros i v w Hi Hv Hw. rewrite !centre_field by assumption. ring.
Qed.

Lemma INR_k : 2 <= INR k.
Proof using Hk. change 2 with (INR 2). now apply le_INR. Qed.

(** The indicator of equal states, without its mean. *)
Let t (v w : nat) : R := b2R (Nat.eqb v w) - / INR k.

Lemma ind_sum (m : nat) : forall v, (v < m)%nat -> sumf (seq 0 m) (fun w => b2R (Nat.eqb v w)) = 1.
Proof using Hk.
  induction m as [|m IH]; intros v Hv; [lia|]. rewrite sumf_seq_last. destruct (Nat.eqb_spec v m) as [->|Hne].
  - rewrite sumf_zero; [cbn; ring|]. intros w Hw. apply in_seq in Hw. destruct (Nat.eqb_spec m w); [lia|reflexivity].
  - rewrite IH by lia. cbn. ring.
Qed.

Lemma t_sum v : (v < k)%nat -> sumf (seq 0 k) (t v) = 0.
Proof using Hk.
  intros Hv. pose proof INR_k. unfold t. rewrite sumf_minus, ind_sum, sumf_const, seq_length by exact Hv. field. lra.
Qed.

Lemma t_sum2 w : (w < k)%nat -> sumf (seq 0 k) (fun v => t v w) = 0.
Proof using Hk. intros Hw. rewrite (sumf_ext _ _ (t w)); [now apply t_sum|]. intros v. unfold t. now rewrite Nat.eqb_sym. Qed.

Lemma t_sqr v : (v < k)%nat -> sumf (seq 0 k) (fun w => t v w * t v w) = (INR k - 1) / INR k.
Proof using Hk.
  intros Hv. pose proof INR_k.
  rewrite (sumf_ext _ _ (fun w => b2R (Nat.eqb v w) * (1 - 2 / INR k) + / INR k * / INR k)).
  - rewrite sumf_plus, sumf_scal_r, ind_sum, sumf_const, seq_length by exact Hv. field. lra.
  - intros w. unfold t. destruct (Nat.eqb v w); cbn [b2R]; field; lra.
Qed.

(** The variance of the difference of two energies bounds the distance of the parameters. *)
Lemma energy_variance p q b : length p = (k * n + n * (n - 1) / 2)%nat -> length q = length p ->
  let d := fun c => nthR (centre n k p) c - nthR (centre n k q) c in
  INR k ^ n * ((INR k - 1) / (INR k * INR k)) * ip (length p) d d <=
  sumf (all_states (seq 0 k) n) (fun s =>
    (b + (potts_energy n k (centre n k q) s - potts_energy n k (centre n k p) s)) * (b + (potts_energy n k (centre n k q) s - potts_energy n k (centre n k p) s))).
Proof using Hk.
  intros Hp Hq d. pose proof INR_k as Kk. set (a := fun i v => d (v * n + i)%nat). set (J := fun i j => d (k * n + pair_index n i j)%nat).
  set (SJ := sumf (seq 0 n) (fun i => sumf (seq (S i) (n - S i)) (fun j => J i j * / INR k))).
  rewrite (sumf_ext (all_states (seq 0 k) n) _ (fun s => ((b + SJ) + quad t a J n s) * ((b + SJ) + quad t a J n s))).
  2:{ intros s. assert (E : potts_energy n k (centre n k q) s - potts_energy n k (centre n k p) s = SJ + quad t a J n s); [|rewrite E; ring].
      unfold quad, SJ. transitivity (sumf (seq 0 n) (fun i => a i (nth i s 0%nat)) + sumf (seq 0 n) (fun i => sumf (seq (S i) (n - S i)) (fun j => J i j * / INR k) + sumf (seq (S i) (n - S i)) (fun j => J i j * t (nth i s 0%nat) (nth j s 0%nat)))); [|rewrite sumf_plus; ring].
      rewrite (sumf_ext (seq 0 n) (fun i => sumf (seq (S i) (n - S i)) (fun j => J i j * / INR k) + _) (fun i =>
        sumf (seq (S i) (n - S i)) (fun j => nthR (centre n k p) (k * n + pair_index n i j) * b2R (Nat.eqb (nth i s 0%nat) (nth j s 0%nat))) -
        sumf (seq (S i) (n - S i)) (fun j => nthR (centre n k q) (k * n + pair_index n i j) * b2R (Nat.eqb (nth i s 0%nat) (nth j s 0%nat))))).
      - rewrite sumf_minus. unfold a, d. rewrite sumf_minus. unfold potts_energy. ring.
      - intros i. rewrite <- sumf_plus, <- sumf_minus. apply sumf_ext. intros j. unfold J, t, d. ring. }
  rewrite (quad_square k ltac:(lia) t ((INR k - 1) / INR k) t_sum t_sum2 t_sqr n a J (b + SJ)).
  2:{ intros i Hi. unfold a, d. rewrite sumf_minus, !centre_mean by (auto; lia). ring. }
  unfold ip. rewrite Hp, params_sum.
  set (A := sumf (seq 0 n) (fun i => sumf (seq 0 k) (fun v => d (v * n + i)%nat * d (v * n + i)%nat))).
  set (B := sumf (seq 0 n) (fun i => sumf (seq (S i) (n - S i)) (fun j => d (k * n + pair_index n i j)%nat * d (k * n + pair_index n i j)%nat))).
  change (sumf (seq 0 n) (fun i => sumf (seq 0 k) (fun v => a i v * a i v))) with A.
  change (sumf (seq 0 n) (fun i => sumf (seq (S i) (n - S i)) (fun j => J i j * J i j))) with B.
  assert (A0 : 0 <= A) by (apply sumf_nonneg; intros; apply sumf_nonneg; intros; apply Rle_0_sqr).
  assert (KP : 0 < INR k ^ n) by (apply pow_lt; lra). rewrite Rmult_assoc. apply Rmult_le_compat_l; [lra|].
  pose proof (Rle_0_sqr (b + SJ)) as S0. unfold Rsqr in S0.
  replace ((INR k - 1) / (INR k * INR k) * (A + B)) with ((INR k - 1) / INR k / INR k * B + A / INR k - A / (INR k * INR k)) by (field; lra).
  assert (0 <= A / (INR k * INR k)) by (apply Rmult_le_pos; [exact A0|left; apply Rinv_0_lt_compat; nra]). lra.
Qed.
End Centre.
