(** * Potts models: moments of positive distributions are the correlations of some parameters. *)
From Coquelicot Require Import Coquelicot.
From Verif Require Import Prelude Spec PreludeFacts M_Index M_Params M_Energy M_Corr M_Enum M_Models M_MCH P_Index P_Unravel P_Energy P_Energy2 P_Params P_Corr2 P_MaxEnt P_Unique P_MCH P_Descent P_Stable P_EnumPotts P_Models P_PottsGauge P_PottsStable P_ExpFamily Props_Energy Props_Enum Props_Models Props_MCHDescent Props_PottsGauge Props_PottsStable.
Import ListNotations.
Local Open Scope R_scope.

Section Solve.
Variables (logest : nat -> nat -> nat) (n k : nat).
Hypothesis Hn : (2 < n)%nat.
Hypothesis Hk : (2 <= k <= 10)%nat.
Hypothesis Hlog : log_ok logest n k.
Let states := all_states (seq 0 k) n.
Let P := (k * n + n * (n - 1) / 2)%nat.
Let o (s : list nat) (c : nat) : R := nthR (potts_obs k s) c.
Let vec (x : nat -> R) : list R := map x (seq 0 P).
Let E := fam_E _ states P o.

Lemma pvec_len x : length (vec x) = P.
Proof using Hn Hk. unfold vec. now rewrite map_length, seq_length. Qed.

Lemma pvec_nth x c : (c < P)%nat -> nthR (vec x) c = x c.
Proof using Hn Hk. intros H. unfold vec. now apply nthR_map_seq. Qed.

Lemma Kpos : 0 < INR k ^ n.
Proof using Hn Hk. apply pow_lt, lt_0_INR. lia. Qed.

Lemma Ppos : 0 < INR P.
Proof using Hn Hk. apply lt_0_INR. unfold P. nia. Qed.

Lemma pstates_ne : states <> [].
Proof using Hn Hk. exact (states_ne n k Hn Hk). Qed.

Lemma o_small s c : In s states -> (c < P)%nat -> Rabs (o s c) <= 1.
Proof using Hn Hk. intros _ _. pose proof (potts_obs_01 k s c). unfold o. rewrite Rabs_pos_eq; lra. Qed.

Lemma penergy x s : In s states -> - potts_energy n k (vec x) s = ip P (o s) x.
Proof using Hn Hk.
  intros Hs. rewrite (energy_dot n k Hn Hk (vec x) s (pvec_len x) Hs). apply sumf_ext_in. intros c Hc. apply in_seq in Hc. fold P in Hc. now rewrite pvec_nth by lia.
Qed.

(** The written function, as moments. *)
Lemma file_E x c : (c < P)%nat -> nthR (potts_file_observables logest n k (vec x)) c = E x c.
Proof using Hn Hk Hlog.
  intros Hc. assert (L : length (vec x) = (n * k + n * (n - 1) / 2)%nat) by (rewrite pvec_len; unfold P; lia).
  rewrite (proj2 (file_obs_ok logest n k Hn Hk Hlog (vec x) L)) by (rewrite pvec_len; exact Hc).
  unfold E, fam_E, expectation. apply sumf_ext_in. intros s Hs. unfold boltzmann. fold states in Hs |- *. rewrite penergy by exact Hs. unfold o. f_equal. f_equal.
  unfold partition, fam_Z. apply sumf_ext_in. intros r Hr. now rewrite penergy.
Qed.

Lemma o_field s i v : In s states -> (i < n)%nat -> (v < k)%nat -> o s (v * n + i) = b2R (Nat.eqb (nth i s 0%nat) v).
Proof using Hn Hk.
  intros Hs Hi Hv. apply all_states_k in Hs. destruct Hs as [Ls _]. unfold o, potts_obs, nthR.
  assert (Lf : forall m a, length (flat_map (fun c => map (fun x => b2R (Nat.eqb x c)) s) (seq a m)) = (m * n)%nat).
  { induction m as [|m IH]; intros a; [reflexivity|]. cbn [seq flat_map]. rewrite app_length, map_length, IH, Ls. lia. }
  rewrite app_nth1 by (rewrite Lf; nia).
  assert (G : forall m a v, (v < m)%nat -> nth (v * n + i) (flat_map (fun c => map (fun x => b2R (Nat.eqb x c)) s) (seq a m)) 0 = b2R (Nat.eqb (nth i s 0%nat) (a + v))).
  { clear Hv. induction m as [|m IH]; intros a u Hu; [lia|]. cbn [seq flat_map]. destruct u as [|u].
    - cbn [Nat.mul Nat.add]. rewrite app_nth1 by (rewrite map_length; lia). rewrite (nth_indep _ 0 (b2R (Nat.eqb 0 a))) by (rewrite map_length; lia).
      rewrite (map_nth (fun x => b2R (Nat.eqb x a))), Nat.add_0_r. reflexivity.
    - rewrite app_nth2 by (rewrite map_length; nia). rewrite map_length, Ls. replace (S u * n + i - n)%nat with (u * n + i)%nat by lia.
      rewrite IH by lia. do 2 f_equal. lia. }
  rewrite G by exact Hv. reflexivity.
Qed.

Lemma o_coupling s i j : In s states -> (i < j)%nat -> (j < n)%nat -> o s (k * n + pair_index n i j) = b2R (Nat.eqb (nth i s 0%nat) (nth j s 0%nat)).
Proof using Hn Hk.
  intros Hs Hij Hj. apply all_states_k in Hs. destruct Hs as [Ls _]. unfold o, potts_obs, nthR.
  assert (Lf : forall m a, length (flat_map (fun c => map (fun x => b2R (Nat.eqb x c)) s) (seq a m)) = (m * n)%nat).
  { induction m as [|m IH]; intros a; [reflexivity|]. cbn [seq flat_map]. rewrite app_length, map_length, IH, Ls. lia. }
  rewrite app_nth2 by (rewrite Lf; lia). rewrite Lf. replace (k * n + pair_index n i j - k * n)%nat with (pair_index n i j) by lia.
  pose proof (pair_index_lt n i j Hij Hj) as B.
  rewrite (nth_indep _ 0 (b2R (Nat.eqb (fst (0, 0)%nat) (snd (0, 0)%nat)))) by (rewrite map_length, (pairs_as_map 0%nat s), map_length, Ls, pairs_seq_length; exact B).
  rewrite (map_nth (fun p : nat * nat => b2R (Nat.eqb (fst p) (snd p)))). rewrite (pairs_as_map 0%nat s), Ls.
  rewrite (nth_indep _ (0, 0)%nat ((fun p : nat * nat => (nth (fst p) s 0%nat, nth (snd p) s 0%nat)) (0, 0)%nat)) by (rewrite map_length, pairs_seq_length; exact B).
  rewrite (map_nth (fun p : nat * nat => (nth (fst p) s 0%nat, nth (snd p) s 0%nat))). rewrite (nth_error_nth _ _ (0, 0)%nat (pair_index_spec n i j Hij Hj)). reflexivity.
Qed.

Lemma o_sum s i : In s states -> (i < n)%nat -> sumf (seq 0 k) (fun v => o s (v * n + i)) = 1.
Proof using Hn Hk.
  intros Hs Hi. rewrite (sumf_ext_in _ _ (fun v => b2R (Nat.eqb (nth i s 0%nat) v))).
  - apply (ind_sum k); [lia|]. apply all_states_k in Hs. destruct Hs as [Ls Vs]. apply Vs, nth_In. lia.
  - intros v Hv. apply in_seq in Hv. apply o_field; auto; lia.
Qed.

(** Weighted sums of the observables: the fields of a spin add up to the total weight. *)
Lemma moment_sum (w : list nat -> R) i : (i < n)%nat -> sumf (seq 0 k) (fun v => sumf states (fun s => w s * o s (v * n + i))) = sumf states w.
Proof using Hn Hk.
  intros Hi. rewrite sumf_swap. apply sumf_ext_in. intros s Hs. rewrite sumf_scal_l, o_sum by assumption. ring.
Qed.

(** ** The mean fields *)
Definition mean_part (x : nat -> R) (c : nat) : R := if Nat.ltb c (k * n) then sumf (seq 0 k) (fun v => x (v * n + c mod n)%nat) / INR k else 0.

Lemma mean_field x i v : (i < n)%nat -> (v < k)%nat -> mean_part x (v * n + i) = sumf (seq 0 k) (fun v => x (v * n + i)%nat) / INR k.
Proof using Hn Hk. intros Hi Hv. unfold mean_part. destruct (Nat.ltb_spec (v * n + i) (k * n)); [|nia]. now rewrite field_mod. Qed.

Lemma mean_coupling x m : mean_part x (k * n + m) = 0.
Proof using Hn Hk. unfold mean_part. destruct (Nat.ltb_spec (k * n + m) (k * n)); [lia|reflexivity]. Qed.

Lemma mean_sub x y c : mean_part (fun c => y c - x c) c = mean_part y c - mean_part x c.
Proof using Hn Hk. unfold mean_part. destruct (Nat.ltb c (k * n)); [|ring]. rewrite sumf_minus. unfold Rdiv. ring. Qed.

Lemma mean_orth u x : (forall i, (i < n)%nat -> sumf (seq 0 k) (fun v => u (v * n + i)%nat) = 0) -> ip P u (mean_part x) = 0.
Proof using Hn Hk.
  intros Hu. unfold ip, P. rewrite params_sum. rewrite (sumf_zero (seq 0 n)), (sumf_zero (seq 0 n)); [ring| |].
  - intros i _. apply sumf_zero. intros j _. rewrite mean_coupling. ring.
  - intros i Hi. apply in_seq in Hi. rewrite (sumf_ext_in _ _ (fun v => u (v * n + i)%nat * (sumf (seq 0 k) (fun v => x (v * n + i)%nat) / INR k))).
    + rewrite sumf_scal_r, Hu by lia. ring.
    + intros v Hv. apply in_seq in Hv. now rewrite mean_field by lia.
Qed.

Lemma mean_rest x i : (i < n)%nat -> sumf (seq 0 k) (fun v => x (v * n + i)%nat - mean_part x (v * n + i)) = 0.
Proof using Hn Hk.
  intros Hi. rewrite sumf_minus. rewrite (sumf_ext_in (seq 0 k) (fun v => mean_part x (v * n + i)) (fun _ => sumf (seq 0 k) (fun v => x (v * n + i)%nat) / INR k)).
  - rewrite sumf_const, seq_length. field. apply Rgt_not_eq, lt_0_INR. lia.
  - intros v Hv. apply in_seq in Hv. apply mean_field; lia.
Qed.

Let rest (x : nat -> R) (c : nat) : R := x c - mean_part x c.

Lemma mean_self x : ip P (mean_part x) x = ip P (mean_part x) (mean_part x).
Proof using Hn Hk.
  pose proof (mean_orth (rest x) x (mean_rest x)) as Z.
  replace (ip P (rest x) (mean_part x)) with (ip P (mean_part x) x - ip P (mean_part x) (mean_part x)) in Z; [lra|].
  unfold ip. rewrite <- sumf_minus. apply sumf_ext. intros c. unfold rest. ring.
Qed.

Lemma pythagoras x : ip P x x = ip P (rest x) (rest x) + ip P (mean_part x) (mean_part x).
Proof using Hn Hk.
  pose proof (mean_orth (rest x) x (mean_rest x)) as Z.
  replace (ip P x x) with (ip P (rest x) (rest x) + 2 * ip P (rest x) (mean_part x) + ip P (mean_part x) (mean_part x)); [lra|].
  unfold ip. rewrite <- sumf_scal_l, <- !sumf_plus. apply sumf_ext. intros c. unfold rest. ring.
Qed.

Lemma centre_vec x c : (c < P)%nat -> nthR (centre n k (vec x)) c = rest x c.
Proof using Hn Hk.
  intros Hc. rewrite centre_nth by (rewrite pvec_len; exact Hc). rewrite pvec_nth by exact Hc. unfold rest, mean_part.
  destruct (Nat.ltb_spec c (k * n)) as [L|L]; [|reflexivity]. do 2 f_equal. apply sumf_ext_in. intros v Hv. apply in_seq in Hv. apply pvec_nth.
  assert (n <> 0%nat) by nia. pose proof (Nat.mod_upper_bound c n H). unfold P. nia.
Qed.

(** ** Spread of the energy over the states *)
Lemma states_len : INR (length states) = INR k ^ n.
Proof using Hn Hk. exact (states_count n k). Qed.

Let kap := (INR k - 1) / (INR k * INR k).
Lemma kap_pos : 0 < kap.
Proof using Hn Hk. assert (2 <= INR k) by (apply INR_k; lia). apply Rdiv_lt_0_compat; nra. Qed.

Lemma spread x b : INR (length states) * (kap * ip P (rest x) (rest x)) <= sumf states (fun s => (b + ip P (o s) x) * (b + ip P (o s) x)).
Proof using Hn Hk.
  rewrite states_len. set (p := vec x). set (q := vec (fun _ => 0)).
  assert (Lp : length p = P) by apply pvec_len. assert (Lq : length q = P) by apply pvec_len.
  destruct (same_energy n k (centre n k p) p (centre_same n k ltac:(lia) p Lp) ltac:(lia)) as [cp Ep].
  destruct (same_energy n k (centre n k q) q (centre_same n k ltac:(lia) q Lq) ltac:(lia)) as [cq Eq]. fold states in Ep, Eq.
  pose proof (energy_variance n k ltac:(lia) p q (b + cp - cq) Lp ltac:(congruence)) as V. cbv zeta in V. rewrite Lp in V. fold states in V. fold kap in V.
  rewrite Rmult_assoc in V.
  replace (ip P (fun c => nthR (centre n k p) c - nthR (centre n k q) c) (fun c => nthR (centre n k p) c - nthR (centre n k q) c)) with (ip P (rest x) (rest x)) in V.
  - apply Rle_trans with (1 := V). right. apply sumf_ext_in. intros s Hs. rewrite Ep, Eq by exact Hs. pose proof (penergy x s Hs) as A. pose proof (penergy (fun _ => 0) s Hs) as B.
    fold p in A. fold q in B. replace (ip P (o s) (fun _ => 0)) with 0 in B by (unfold ip; symmetry; apply sumf_zero; intros; ring).
    replace (potts_energy n k q s) with 0 by lra. rewrite <- A. ring.
  - unfold ip. apply sumf_ext_in. intros c Hc. apply in_seq in Hc. unfold p, q. rewrite !centre_vec by lia.
    assert (Z : rest (fun _ => 0) c = 0); [|rewrite Z; ring]. unfold rest, mean_part. destruct (Nat.ltb c (k * n)); [|ring]. rewrite sumf_zero by (intros; reflexivity). unfold Rdiv. ring.
Qed.

Lemma near_norm1 x rho : nrm P (fun c => x c - 0) <= rho -> sumf (vec x) Rabs <= sqrt (INR P) * rho.
Proof using Hn Hk.
  intros H. assert (Hr : 0 <= rho) by (apply Rle_trans with (2 := H), nrm_nonneg). unfold vec. rewrite sumf_map.
  assert (S0 : 0 <= sumf (seq 0 P) (fun c => Rabs (x c))) by (apply sumf_nonneg; intros; apply Rabs_pos).
  apply Rsqr_incr_0; [|exact S0|apply Rmult_le_pos; [apply sqrt_pos|exact Hr]]. unfold Rsqr. apply Rle_trans with (1 := square_sum _ _). rewrite seq_length.
  replace (sqrt (INR P) * rho * (sqrt (INR P) * rho)) with (INR P * (rho * rho)) by (rewrite <- (sqrt_sqrt (INR P)) at 1 by apply pos_INR; ring).
  apply Rmult_le_compat_l; [apply pos_INR|]. apply Rle_trans with (nrm P (fun c => x c - 0) * nrm P (fun c => x c - 0)).
  - rewrite nrm_sqr. right. apply sumf_ext. intros c. rewrite <- Rabs_mult, Rabs_pos_eq by apply Rle_0_sqr. ring.
  - apply Rmult_le_compat; auto using nrm_nonneg.
Qed.

(** ** The solution *)
Variables (w : list nat -> R) (om : R).
Hypothesis Hom : 0 < om.
Hypothesis Hw : forall s, In s states -> om <= w s.
Hypothesis W1 : sumf states w = 1.
Let c (a : nat) : R := sumf states (fun s => w s * o s a).
Let F := fam_F _ states P o c.

Lemma growth x : om * (sqrt kap * nrm P (rest x)) <= F x.
Proof using Hn Hk Hom Hw W1.
  assert (Kp := kap_pos). apply (fam_growth _ states P o pstates_ne c w om x); auto.
  - apply Rmult_le_pos; [apply sqrt_pos|apply nrm_nonneg].
  - intros b. replace (sqrt kap * nrm P (rest x) * (sqrt kap * nrm P (rest x))) with (kap * ip P (rest x) (rest x)); [apply spread|].
    rewrite <- nrm_sqr, <- (sqrt_sqrt kap) at 1 by lra. ring.
Qed.

Lemma F0 : F (fun _ => 0) = INR n * ln (INR k).
Proof using Hn Hk.
  unfold F, fam_F, fam_Z. rewrite (sumf_ext states _ (fun _ => 1)).
  - rewrite sumf_const, states_len, Rmult_1_r, ln_pow by (apply lt_0_INR; lia). unfold ip. rewrite (sumf_zero (seq 0 P)) by (intros; ring). ring.
  - intros s. unfold ip. rewrite sumf_zero by (intros; ring). apply exp_0.
Qed.

Lemma dE_orth x y u : ip P (fun a => E y a - E x a) (mean_part u) = 0.
Proof using Hn Hk.
  apply mean_orth. intros i Hi. rewrite sumf_minus. unfold E, fam_E. rewrite !moment_sum by exact Hi. rewrite !(w_sum _ states P o pstates_ne). ring.
Qed.

Lemma potts_solution : exists x, (forall a, (a < P)%nat -> E x a = c a) /\ (forall a, (a < P)%nat -> mean_part x a = 0) /\
  om * (sqrt kap * nrm P x) <= INR n * ln (INR k).
Proof using Hn Hk Hlog Hom Hw W1.
  assert (Kp := kap_pos). assert (PP := Ppos). assert (sk : 0 < sqrt kap) by now apply sqrt_lt_R0.
  assert (Lk : 0 < ln (INR k)) by (rewrite <- ln_1; apply ln_increasing; [lra|]; assert (2 <= INR k) by (apply INR_k; lia); lra).
  assert (Np : 0 < INR n) by (apply lt_0_INR; lia). set (B := INR n * ln (INR k)). assert (B0 : 0 < B) by (apply Rmult_lt_0_compat; assumption).
  set (et := Rmin 1 (om * sqrt kap)). assert (He : 0 < et) by (apply Rmin_glb_lt; [lra|now apply Rmult_lt_0_compat]).
  set (rho := (B + 1) / et). assert (Hr : 0 < rho) by (apply Rdiv_lt_0_compat; lra).
  set (g := fun x a => E x a - c a + mean_part x a).
  set (R0 := sqrt (INR P) * rho). set (mu := exp (- 2 * R0) * kap). assert (Mu : 0 < mu) by (apply Rmult_lt_0_compat; [apply exp_pos|exact Kp]).
  assert (Gd : forall x y a, g y a - g x a = (E y a - E x a) + mean_part (fun b => y b - x b) a) by (intros; unfold g; rewrite mean_sub; ring).
  assert (Gi : forall x y, ip P (fun a => g y a - g x a) (fun a => y a - x a) =
    ip P (fun a => E y a - E x a) (fun a => y a - x a) + ip P (mean_part (fun b => y b - x b)) (mean_part (fun b => y b - x b))).
  { intros x y. rewrite <- (mean_self (fun b => y b - x b)). unfold ip. rewrite <- sumf_plus. apply sumf_ext. intros a. rewrite Gd. ring. }
  destruct (zero_in_ball P g (INR P + 1) (Rmin mu 1) rho (fun _ => 0)) as (x & _ & Gx); [lra|apply Rmin_glb_lt; lra|exact Hr| | | |].
  - intros x y. rewrite Gi. pose proof (fam_coco _ states P o pstates_ne o_small c x y PP) as C. fold E in C.
    set (m := mean_part (fun b => y b - x b)). set (eE := fun a => E y a - E x a) in *.
    replace (ip P (fun a => g y a - g x a) (fun a => g y a - g x a)) with (ip P eE eE + ip P m m).
    + pose proof (ip_nonneg P eE). pose proof (ip_nonneg P m). assert (I1 : / (INR P + 1) <= / INR P) by (apply Rinv_le_contravar; lra).
      assert (I2 : / (INR P + 1) <= 1) by (replace 1 with (/ 1) at 2 by apply Rinv_1; apply Rinv_le_contravar; lra).
      rewrite Rmult_plus_distr_l. apply Rplus_le_compat.
      * apply Rle_trans with (2 := C). now apply Rmult_le_compat_r.
      * rewrite <- (Rmult_1_l (ip P m m)) at 2. now apply Rmult_le_compat_r.
    + pose proof (dE_orth x y (fun b => y b - x b)) as Z. fold m eE in Z.
      transitivity (ip P eE eE + 2 * ip P eE m + ip P m m); [rewrite Z; ring|]. unfold ip. rewrite <- sumf_scal_l, <- !sumf_plus. apply sumf_ext. intros a. rewrite Gd. fold m. unfold eE. ring.
  - intros x y Ix Iy. rewrite Gi. set (v := fun b => y b - x b). rewrite (pythagoras v).
    pose proof (potts_strong logest n k Hn Hk Hlog (vec y) (vec x) R0 (pvec_len y) (pvec_len x) (near_norm1 y rho Iy) (near_norm1 x rho Ix)) as S. cbv zeta in S. fold P in S. fold kap in S.
    assert (Dc : forall a, (a < P)%nat -> nthR (centre n k (vec y)) a - nthR (centre n k (vec x)) a = rest v a).
    { intros a Ha. rewrite !centre_vec by exact Ha. unfold rest, v. rewrite mean_sub. ring. }
    rewrite (ip_ext P _ _ _ _ Dc Dc) in S.
    rewrite (ip_ext P (fun a => nthR (potts_file_observables logest n k (vec y)) a - nthR (potts_file_observables logest n k (vec x)) a) _ (fun a => E y a - E x a) (rest v)) in S; [|intros a Ha; now rewrite !file_E by exact Ha|exact Dc].
    pose proof (dE_orth x y v) as Z.
    assert (S2 : ip P (fun a => E y a - E x a) (rest v) = ip P (fun a => E y a - E x a) v).
    { transitivity (ip P (fun a => E y a - E x a) v - ip P (fun a => E y a - E x a) (mean_part v)); [|rewrite Z; ring]. unfold ip. rewrite <- sumf_minus. apply sumf_ext. intros a. unfold rest. ring. }
    rewrite S2 in S. fold mu in S. pose proof (ip_nonneg P (rest v)). pose proof (ip_nonneg P (mean_part v)).
    assert (Rmin mu 1 * ip P (rest v) (rest v) <= mu * ip P (rest v) (rest v)) by (apply Rmult_le_compat_r; [assumption|apply Rmin_l]).
    assert (Rmin mu 1 * ip P (mean_part v) (mean_part v) <= 1 * ip P (mean_part v) (mean_part v)) by (apply Rmult_le_compat_r; [assumption|apply Rmin_r]). lra.
  - intros x Hx. pose proof (fam_convex _ states P o pstates_ne c x (fun _ => 0)) as C. fold F in C. rewrite F0 in C. fold B E in C. pose proof (growth x) as K.
    assert (Ei : ip P (g x) (fun a => x a - 0) = - ip P (fun a => E x a - c a) (fun a => 0 - x a) + ip P (mean_part x) (mean_part x)).
    { rewrite <- (mean_self x). unfold ip. rewrite <- sumf_opp, <- sumf_plus. apply sumf_ext. intros a. unfold g. ring. }
    rewrite Ei. set (r := nrm P (rest x)) in *. set (m := nrm P (mean_part x)). rewrite <- (nrm_sqr P (mean_part x)). fold m.
    assert (Hm : 0 <= m) by apply nrm_nonneg. assert (Hrr : 0 <= r) by apply nrm_nonneg.
    assert (T : rho <= r + m).
    { rewrite <- Hx. rewrite (nrm_ext P _ (fun a => rest x a + mean_part x a)) by (intros; unfold rest; ring). apply nrm_triangle. }
    assert (e1 : et <= 1) by apply Rmin_l. assert (e2 : et <= om * sqrt kap) by apply Rmin_r.
    assert (et * r <= om * (sqrt kap * r)) by (rewrite <- Rmult_assoc; apply Rmult_le_compat_r; assumption).
    assert (et * m <= 1 * m) by (apply Rmult_le_compat_r; assumption).
    assert (et * rho <= et * (r + m)) by (apply Rmult_le_compat_l; lra). assert (Q : et * rho = B + 1) by (unfold rho; field; lra).
    assert (m - / 4 <= m * m) by (pose proof (Rle_0_sqr (m - / 2)) as Q2; unfold Rsqr in Q2; lra). lra.
  - assert (Mx : forall a, (a < P)%nat -> mean_part x a = 0).
    { assert (Mi : forall i, (i < n)%nat -> sumf (seq 0 k) (fun v => x (v * n + i)%nat) / INR k = 0).
      { intros i Hi. assert (Sg : sumf (seq 0 k) (fun v => g x (v * n + i)%nat) = 0).
        { apply sumf_zero. intros v Hv. apply in_seq in Hv. apply Gx. unfold P. nia. }
        unfold g in Sg. rewrite sumf_plus, sumf_minus in Sg. unfold E, fam_E, c in Sg. rewrite !moment_sum in Sg by exact Hi. rewrite (w_sum _ states P o pstates_ne), W1 in Sg.
        rewrite (sumf_ext_in (seq 0 k) (fun v => mean_part x (v * n + i)) (fun _ => sumf (seq 0 k) (fun v => x (v * n + i)%nat) / INR k)) in Sg
          by (intros v Hv; apply in_seq in Hv; apply mean_field; lia).
        rewrite sumf_const, seq_length in Sg. assert (0 < INR k) by (apply lt_0_INR; lia). nra. }
      intros a Ha. unfold mean_part. destruct (Nat.ltb_spec a (k * n)); [|reflexivity]. apply Mi. apply Nat.mod_upper_bound. lia. }
    assert (Ex : forall a, (a < P)%nat -> E x a = c a).
    { intros a Ha. pose proof (Gx a Ha) as G. unfold g in G. rewrite Mx in G by exact Ha. lra. }
    exists x. split; [exact Ex|]. split; [exact Mx|].
    pose proof (fam_convex _ states P o pstates_ne c x (fun _ => 0)) as C. fold F in C. rewrite F0 in C. fold B E in C. pose proof (growth x) as K.
    replace (ip P (fun a => E x a - c a) (fun a => 0 - x a)) with 0 in C by (unfold ip; symmetry; apply sumf_zero; intros a Ha; apply in_seq in Ha; rewrite Ex by lia; ring).
    rewrite (nrm_ext P (rest x) x) in K by (intros a Ha; unfold rest; rewrite Mx by exact Ha; ring). lra.
Qed.
End Solve.
