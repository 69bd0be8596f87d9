(** * Potts models: which correlations have parameters (C122). *)
From Coquelicot Require Import Coquelicot.
From Verif Require Import Prelude Spec PreludeFacts M_Index M_Params M_Energy M_Corr M_Enum M_Models M_MCH P_Index P_Unravel P_Energy P_Energy2 P_Params P_Corr2 P_MaxEnt P_Unique P_MCH P_Descent P_Stable P_EnumPotts P_Models P_PottsGauge P_PottsStable P_ExpFamily Props_Energy Props_Enum Props_Models Props_MCHDescent Props_PottsGauge Props_PottsStable P_PottsSolvable.
From Verif Require Props_Stable.
Import ListNotations.
Local Open Scope R_scope.

(** Specification: the numbers c are the probabilities, under the weights w over the states, that spin i is
    in state v and that spins i and j are in the same state. *)
Definition potts_moments (n k : nat) (states : list (list nat)) (w : list nat -> R) (c : list R) : Prop :=
  (forall i v, (i < n)%nat -> (v < k)%nat -> nthR c (v * n + i) = expectation w states (fun s => b2R (Nat.eqb (nth i s 0%nat) v))) /\
  (forall i j, (i < j)%nat -> (j < n)%nat -> nthR c (k * n + pair_index n i j) = expectation w states (fun s => b2R (Nat.eqb (nth i s 0%nat) (nth j s 0%nat)))).

Section Moments.
Variables (n k : nat).
Hypothesis Hn : (2 < n)%nat.
Hypothesis Hk : (2 <= k <= 10)%nat.
Let states := all_states (seq 0 k) n.
Let P := (k * n + n * (n - 1) / 2)%nat.

(** Every position of a parameter vector is that of a field or of a coupling. *)
Lemma position a : (a < P)%nat -> (exists i v, (i < n)%nat /\ (v < k)%nat /\ a = (v * n + i)%nat) \/ (exists i j, (i < j)%nat /\ (j < n)%nat /\ a = (k * n + pair_index n i j)%nat).
Proof using Hn Hk.
  intros Ha. destruct (Nat.lt_ge_cases a (k * n)) as [L|L].
  - left. exists (a mod n)%nat, (a / n)%nat. split; [apply Nat.mod_upper_bound; lia|]. split; [apply Nat.div_lt_upper_bound; lia|]. rewrite (Nat.div_mod a n) at 1 by lia. lia.
  - right. destruct (pair_index_nth n (a - k * n) ltac:(unfold P in Ha; lia)) as (Ek & Hij & Hj).
    exists (fst (nth (a - k * n) (pairs (seq 0 n)) (0, 0)%nat)), (snd (nth (a - k * n) (pairs (seq 0 n)) (0, 0)%nat)). repeat split; [exact Hij|exact Hj|]. lia.
Qed.

Lemma moments_obs (w : list nat -> R) c : potts_moments n k states w c <-> (forall a, (a < P)%nat -> nthR c a = sumf states (fun s => w s * nthR (potts_obs k s) a)).
Proof using Hn Hk.
  assert (Q1 : forall i v, (i < n)%nat -> (v < k)%nat -> expectation w states (fun s => b2R (Nat.eqb (nth i s 0%nat) v)) = sumf states (fun s => w s * nthR (potts_obs k s) (v * n + i))).
  { intros i v Hi Hv. apply sumf_ext_in. intros s Hs. now rewrite (o_field n k Hn Hk s i v Hs Hi Hv). }
  assert (Q2 : forall i j, (i < j)%nat -> (j < n)%nat -> expectation w states (fun s => b2R (Nat.eqb (nth i s 0%nat) (nth j s 0%nat))) = sumf states (fun s => w s * nthR (potts_obs k s) (k * n + pair_index n i j))).
  { intros i j Hij Hj. apply sumf_ext_in. intros s Hs. now rewrite (o_coupling n k Hn Hk s i j Hs Hij Hj). }
  split.
  - intros [A1 A2] a Ha. destruct (position a Ha) as [(i & v & Hi & Hv & ->)|(i & j & Hij & Hj & ->)]; [rewrite A1|rewrite A2]; auto.
  - intros H. split.
    + intros i v Hi Hv. rewrite Q1 by assumption. apply H. unfold P. nia.
    + intros i j Hij Hj. rewrite Q2 by assumption. pose proof (pair_index_lt n i j Hij Hj). apply H. unfold P. lia.
Qed.

Variable logest : nat -> nat -> nat.
Hypothesis Hlog : log_ok logest n k.

Lemma potts_solvable_bound (w : list nat -> R) om c : 0 < om -> (forall s, In s states -> om <= w s) -> sumf states w = 1 -> length c = P -> potts_moments n k states w c ->
  exists q, length q = P /\ potts_file_observables logest n k q = c /\ (forall i, (i < n)%nat -> sumf (seq 0 k) (fun v => nthR q (v * n + i)) = 0) /\
    om * (sqrt ((INR k - 1) / (INR k * INR k)) * dist2 q (repeat 0 P)) <= INR n * ln (INR k).
Proof using Hn Hk Hlog.
  intros Ho Hw W1 Hc M. rewrite moments_obs in M.
  destruct (potts_solution logest n k Hn Hk Hlog w om Ho Hw W1) as (x & Ex & Mx & Bx). fold P states in Ex, Mx, Bx.
  set (q := map x (seq 0 P)). assert (Lq : length q = P) by (unfold q; now rewrite map_length, seq_length).
  assert (Nq : forall a, (a < P)%nat -> nthR q a = x a) by (intros a Ha; unfold q; now apply nthR_map_seq).
  exists q. split; [exact Lq|]. split; [|split].
  - apply (nth_ext _ _ 0 0); [rewrite Hc; now apply obs_length|]. intros a Ha. rewrite (obs_length logest n k Hn Hk Hlog q Lq) in Ha. fold P in Ha.
    change (nthR (potts_file_observables logest n k q) a = nthR c a). pose proof (file_E logest n k Hn Hk Hlog x a Ha) as FE. cbv beta in FE. fold P in FE. fold q in FE. rewrite FE, (M a Ha). now apply Ex.
  - intros i Hi. rewrite (sumf_ext_in (seq 0 k) _ (fun v => x (v * n + i)%nat)) by (intros v Hv; apply in_seq in Hv; apply Nq; unfold P; nia).
    pose proof (Mx i ltac:(unfold P; nia)) as Z. pose proof (mean_field n k Hn Hk x i 0 Hi ltac:(lia)) as Z2. cbn [Nat.mul Nat.add] in Z2. rewrite Z2 in Z.
    assert (0 < INR k) by (apply lt_0_INR; lia). assert (0 < / INR k) by now apply Rinv_0_lt_compat. unfold Rdiv in Z. nra.
  - rewrite (dist2_P n k q (repeat 0 P)) by apply repeat_length. fold P. rewrite (nrm_ext P _ x); [exact Bx|]. intros a Ha. rewrite Nq by exact Ha. unfold nthR. rewrite nth_repeat. ring.
Qed.
End Moments.

(** ** C122 *)
(** The numbers that calc_observables of a Potts equation file returns for some parameters are exactly
    the one- and two-spin probabilities of distributions that give every state a positive probability. *)
Theorem C122_solvable : forall (logest : nat -> nat -> nat) (n k : nat) (c : list R), let states := all_states (seq 0 k) n in
  (2 < n)%nat -> (2 <= k <= 10)%nat -> log_ok logest n k -> length c = (n * k + n * (n - 1) / 2)%nat ->
  (exists params, length params = length c /\ potts_file_observables logest n k params = c) <->
  (exists w : list nat -> R, (forall s, In s states -> 0 < w s) /\ sumf states w = 1 /\ potts_moments n k states w c).
Proof.
  intros logest n k c states Hn Hk Hl Hc. set (P := (k * n + n * (n - 1) / 2)%nat). assert (Lc : length c = P) by (rewrite Hc; unfold P; lia). split.
  - intros (params & Lp & E). exists (boltzmann (potts_energy n k params) states). assert (ne : states <> []) by exact (states_ne n k Hn Hk).
    split; [intros s _; now apply Props_Enum.boltzmann_pos|]. split; [now apply Props_Enum.boltzmann_sum|].
    unfold states. rewrite (moments_obs n k Hn Hk). intros a Ha. rewrite <- E. apply (proj2 (file_obs_ok logest n k Hn Hk Hl params ltac:(congruence))). rewrite Lp, Lc. exact Ha.
  - intros (w & Wp & W1 & M). destruct (Props_Stable.least_positive states w Wp) as (om & Ho & Hw).
    destruct (potts_solvable_bound n k Hn Hk logest Hl w om c Ho Hw W1 Lc M) as (q & Lq & Eq & _). exists q. split; [rewrite Lc; exact Lq|exact Eq].
Qed.
Print Assumptions C122_solvable.

(** Data in which every state occurs can be fitted.  One solution has fields that add up to zero for every
    spin and a length bounded by the number of rows; the others are those with the same couplings and
    differences of fields. *)
Theorem C122_data : forall (logest : nat -> nat -> nat) (n k : nat) (rows : list (list nat)) (c : list R), let P := (n * k + n * (n - 1) / 2)%nat in
  (2 < n)%nat -> (2 <= k <= 10)%nat -> log_ok logest n k -> (forall r, In r rows <-> In r (all_states (seq 0 k) n)) -> length c = P ->
  potts_moments n k rows (fun _ => / INR (length rows)) c ->
  exists params, length params = P /\ (forall i, (i < n)%nat -> sumf (seq 0 k) (fun v => nthR params (v * n + i)) = 0) /\
    sqrt (INR k - 1) / INR k * dist2 params (repeat 0 P) <= INR (length rows) * (INR n * ln (INR k)) /\
    (forall q, length q = P -> (enumerate_root_f (potts_file_observables logest n k) None c q = Ok (map (fun _ => 0) c) <-> potts_same n k q params)).
Proof.
  intros logest n k rows c P Hn Hk Hl Hrows Hc M. set (states := all_states (seq 0 k) n) in *. set (m := INR (length rows)) in *.
  assert (ne : states <> []) by exact (states_ne n k Hn Hk).
  assert (NR : rows <> []). { destruct (some_in states ne) as [s Hs]. apply Hrows in Hs. intros E. rewrite E in Hs. destruct Hs. }
  assert (Lr : 0 < m) by (apply lt_0_INR; destruct rows; [congruence|cbn; lia]).
  set (dec := list_eq_dec Nat.eq_dec). set (w := fun s : list nat => sumf rows (fun r => if dec r s then 1 else 0) / m).
  assert (Wlow : forall s, In s states -> / m <= w s).
  { intros s Hs. apply Hrows in Hs. unfold w, Rdiv. rewrite <- (Rmult_1_l (/ m)) at 1. apply Rmult_le_compat_r; [left; now apply Rinv_0_lt_compat|].
    apply Rle_trans with ((fun r => if dec r s then 1 else 0) s).
    - cbn beta. destruct (dec s s); [lra|congruence].
    - apply (sumf_in_le rows (fun r => if dec r s then 1 else 0) s); [|exact Hs]. intros b _. destruct (dec b s); lra. }
  assert (ND : NoDup states) by (apply all_states_NoDup, seq_NoDup).
  assert (Ex : forall f : list nat -> R, expectation w states f = expectation (fun _ => / m) rows f).
  { intros f. unfold expectation, w.
    rewrite (sumf_ext _ _ (fun s => sumf rows (fun r => (if dec r s then 1 else 0) * f s) / m)).
    - rewrite sumf_div, sumf_swap. rewrite (sumf_ext rows (fun a => / m * f a) (fun a => f a / m)) by (intros; unfold Rdiv; ring). rewrite sumf_div. f_equal.
      apply sumf_ext_in. intros r Hr. apply Hrows in Hr. rewrite (sumf_ext _ _ (fun s => if dec r s then f s else 0)).
      + now apply (sumf_indic dec).
      + intros s. destruct (dec r s); ring.
    - intros s. rewrite sumf_scal_r. field. lra. }
  assert (W1 : sumf states w = 1).
  { pose proof (Ex (fun _ => 1)) as E1. unfold expectation in E1. rewrite (sumf_ext _ w (fun s => w s * 1)) by (intros; ring). rewrite E1, sumf_const. fold m. field. lra. }
  assert (Mw : potts_moments n k states w c).
  { destruct M as [M1 M2]. split; intros; rewrite Ex; auto. }
  assert (Il : 0 < / m) by now apply Rinv_0_lt_compat. assert (EP : P = (k * n + n * (n - 1) / 2)%nat) by (unfold P; lia).
  destruct (potts_solvable_bound n k Hn Hk logest Hl w (/ m) c Il Wlow W1 ltac:(congruence) Mw) as (q & Lq & Eq & Zq & Bq). rewrite <- EP in Lq, Bq.
  exists q. split; [exact Lq|]. split; [exact Zq|]. assert (Kk : 2 <= INR k) by (apply INR_k; lia). split.
  - replace (sqrt (INR k - 1) / INR k) with (sqrt ((INR k - 1) / (INR k * INR k))).
    + apply (Rmult_le_reg_l (/ m)); [exact Il|]. apply Rle_trans with (1 := Bq). right. field. lra.
    + rewrite sqrt_div by nra. rewrite sqrt_square by lra. reflexivity.
  - intros q' Lq'. assert (Lo : length (potts_file_observables logest n k q') = length c) by (rewrite (proj1 (file_obs_ok logest n k Hn Hk Hl q' Lq')); congruence).
    unfold enumerate_root_f. cbn [exceeds]. rewrite (vsub_zero _ c Lo), <- Eq. apply (same_obs logest n k Hn Hk Hl q' q); [exact Lq'|congruence].
Qed.
Print Assumptions C122_data.

(** Expected: every data set can be fitted.  If some spin is never seen in one of its states, or two spins
    are in the same state in all rows or in none, there are no parameters: the error is at least
    exp(-2 R) / k^n where R is the sum of the moduli of the parameters, and the function
    handed to the minimiser is nowhere zero. *)
Theorem C122_degenerate_refuted : forall (logest : nat -> nat -> nat) (n k : nat) (rows : list (list nat)) (c params : list R) (max r : R), let P := (n * k + n * (n - 1) / 2)%nat in
  (2 < n)%nat -> (2 <= k <= 10)%nat -> log_ok logest n k -> rows <> [] -> length c = P -> length params = P ->
  potts_moments n k rows (fun _ => / INR (length rows)) c ->
  (exists i v, (i < n)%nat /\ (v < k)%nat /\ forall row, In row rows -> nth i row 0%nat <> v) \/
  (exists i j, (i < j)%nat /\ (j < n)%nat /\ forall row, In row rows -> nth i row 0%nat = nth j row 0%nat) \/
  (exists i j, (i < j)%nat /\ (j < n)%nat /\ forall row, In row rows -> nth i row 0%nat <> nth j row 0%nat) ->
  exp (- 2 * sumf params Rabs) / INR k ^ n <= dist2 (potts_file_observables logest n k params) c /\
  potts_file_observables logest n k params <> c /\
  (enumerate_min_f (potts_file_observables logest n k) (Some max) c params = Ok r -> exp (- 2 * (INR P * max)) / INR k ^ n <= r \/ r = 10 ^ 30).
Proof.
  intros logest n k rows c params max r P Hn Hk Hl HR Hc Hp [M1 M2] Hdeg. set (states := all_states (seq 0 k) n) in *.
  assert (EP : P = (k * n + n * (n - 1) / 2)%nat) by (unfold P; lia). assert (Kp : 0 < INR k ^ n) by (apply pow_lt, lt_0_INR; lia).
  assert (Lr : 0 < INR (length rows)) by (apply lt_0_INR; destruct rows; [congruence|cbn; lia]).
  assert (Mean : forall (f : list nat -> R) u, (forall row, In row rows -> f row = u) -> expectation (fun _ => / INR (length rows)) rows f = u).
  { intros f u H. unfold expectation. rewrite (sumf_ext_in rows _ (fun _ => / INR (length rows) * u)) by (intros row Hrow; now rewrite H). rewrite sumf_const. field. lra. }
  assert (Lst : forall s, length s = n -> (forall x, In x s -> (x < k)%nat) -> In s states) by (intros s H1 H2; apply all_states_k; now split).
  assert (Rep : forall v, (v < k)%nat -> In (repeat v n) states).
  { intros v Hv. apply Lst; [apply repeat_length|]. intros x Hx. apply repeat_spec in Hx. now subst. }
  assert (Nrep : forall v i, (i < n)%nat -> nth i (repeat v n) 0%nat = v).
  { intros v i Hi. rewrite (nth_indep _ 0%nat v) by (rewrite repeat_length; exact Hi). apply nth_repeat. }
  (* an observable that has one value u in the data, and a state with the other value *)
  assert (Key : exists a u s, (a < P)%nat /\ (u = 0 \/ u = 1) /\ In s states /\ nthR c a = u /\ nthR (potts_obs k s) a = 1 - u).
  { destruct Hdeg as [(i & v & Hi & Hv & H)|[(i & j & Hij & Hj & H)|(i & j & Hij & Hj & H)]].
    - exists (v * n + i)%nat, 0, (repeat v n). split; [rewrite EP; nia|]. split; [now left|]. split; [now apply Rep|]. split.
      + rewrite (M1 i v Hi Hv). apply Mean. intros row Hrow. destruct (Nat.eqb_spec (nth i row 0%nat) v); [exfalso; now apply (H row)|reflexivity].
      + rewrite (o_field n k Hn Hk _ i v (Rep v Hv) Hi Hv), Nrep, Nat.eqb_refl by exact Hi. cbn. ring.
    - set (s := map (fun a => if Nat.eqb a i then 1%nat else 0%nat) (seq 0 n)).
      assert (Hs : In s states). { apply Lst; [unfold s; now rewrite map_length, seq_length|]. intros x Hx. unfold s in Hx. apply in_map_iff in Hx. destruct Hx as (a & <- & _). destruct (Nat.eqb a i); lia. }
      pose proof (pair_index_lt n i j Hij Hj) as B. exists (k * n + pair_index n i j)%nat, 1, s. split; [lia|]. split; [now right|]. split; [exact Hs|]. split.
      + rewrite (M2 i j Hij Hj). apply Mean. intros row Hrow. rewrite (H row Hrow), Nat.eqb_refl. reflexivity.
      + rewrite (o_coupling n k Hn Hk _ i j Hs Hij Hj). unfold s. rewrite !nth_map_seq by lia. rewrite Nat.eqb_refl. destruct (Nat.eqb_spec j i); [lia|]. cbn. ring.
    - pose proof (pair_index_lt n i j Hij Hj) as B. exists (k * n + pair_index n i j)%nat, 0, (repeat 0%nat n). split; [lia|]. split; [now left|]. split; [apply Rep; lia|]. split.
      + rewrite (M2 i j Hij Hj). apply Mean. intros row Hrow. destruct (Nat.eqb_spec (nth i row 0%nat) (nth j row 0%nat)); [exfalso; now apply (H row)|reflexivity].
      + rewrite (o_coupling n k Hn Hk _ i j (Rep 0%nat ltac:(lia)) Hij Hj), !Nrep by lia. cbn. ring. }
  destruct Key as (a & u & s & Ha & Hu & Hs & Ca & Oa). set (R0 := sumf params Rabs).
  assert (Lp : length params = (k * n + n * (n - 1) / 2)%nat) by congruence.
  pose proof (prob_low n k Hn Hk params s R0 Lp (Rle_refl _) Hs) as Low. fold states in Low. set (f := boltzmann (potts_energy n k params) states) in *.
  assert (ne : states <> []) by exact (states_ne n k Hn Hk).
  assert (Fp : forall t, 0 < f t) by (intros t; now apply Props_Enum.boltzmann_pos). assert (F1 : sumf states f = 1) by (now apply Props_Enum.boltzmann_sum).
  assert (Gap : exp (- 2 * R0) / INR k ^ n <= Rabs (nthR (potts_file_observables logest n k params) a - nthR c a)).
  { rewrite (proj2 (file_obs_ok logest n k Hn Hk Hl params Hp)) by (rewrite Hp; exact Ha). fold states f. rewrite Ca. unfold expectation. apply Rle_trans with (1 := Low).
    assert (B : forall t, 0 <= nthR (potts_obs k t) a <= 1) by (intros t; apply potts_obs_01). destruct Hu as [-> | ->].
    - apply Rle_trans with (2 := Rle_abs _). rewrite Rminus_0_r. replace (f s) with ((fun t => f t * nthR (potts_obs k t) a) s) by (cbv beta; rewrite Oa; ring).
      apply (sumf_in_le states (fun t => f t * nthR (potts_obs k t) a) s); [|exact Hs]. intros t _. pose proof (Fp t). pose proof (B t). nra.
    - rewrite Rabs_minus_sym. apply Rle_trans with (2 := Rle_abs _). rewrite <- F1 at 1. rewrite <- sumf_minus.
      replace (f s) with ((fun t => f t - f t * nthR (potts_obs k t) a) s) by (cbv beta; rewrite Oa; ring).
      apply (sumf_in_le states (fun t => f t - f t * nthR (potts_obs k t) a) s); [|exact Hs]. intros t _. pose proof (Fp t). pose proof (B t). nra. }
  assert (A : exp (- 2 * R0) / INR k ^ n <= dist2 (potts_file_observables logest n k params) c).
  { rewrite (dist2_P n k _ c) by congruence. rewrite <- EP. apply Rle_trans with (1 := Gap).
    exact (coord_le P (fun a => nthR (potts_file_observables logest n k params) a - nthR c a) a Ha). }
  split; [exact A|]. split.
  - intros E. rewrite E, Rminus_diag_eq, Rabs_R0 in Gap by reflexivity. assert (0 < exp (- 2 * R0) / INR k ^ n) by (apply Rdiv_lt_0_compat; [apply exp_pos|exact Kp]). lra.
  - unfold enumerate_min_f. destruct (exceeds (Some max) params) eqn:Ex; intros H; [right; congruence|left].
    destruct (vsub (potts_file_observables logest n k params) c) as [d|] eqn:Ed; cbn [bind] in H; [|discriminate].
    apply vnorm_vsub in Ed. assert (Er : r = dist2 (potts_file_observables logest n k params) c) by (unfold vnorm in Ed; rewrite <- Ed; injection H as <-; now rewrite sumR_map).
    rewrite Er. apply Rle_trans with (2 := A). apply Rmult_le_compat_r; [left; now apply Rinv_0_lt_compat|].
    assert (RB : R0 <= INR P * max).
    { unfold R0. rewrite <- Hp, <- sumf_const. apply sumf_le. apply exceeds_spec. exact Ex. }
    apply exp_mono. lra.
Qed.
Print Assumptions C122_degenerate_refuted.

(** Three spins with three states: data with every state once have a solution; data in which the first spin
    is never in state 2 have none. *)
Example C122_example : exists logest, log_ok logest 3 3 /\
  (forall r, In r (all_states (seq 0 3) 3) <-> In r (all_states (seq 0 3) 3)) /\
  potts_moments 3 3 (all_states (seq 0 3) 3) (fun _ => / INR 27) (repeat (/ 3) 12) /\ length (all_states (seq 0 3) 3) = 27%nat /\
  (forall row, In row [[0; 1; 2]; [1; 1; 0]]%nat -> nth 0 row 0%nat <> 2%nat) /\
  potts_moments 3 3 [[0; 1; 2]; [1; 1; 0]]%nat (fun _ => / INR 2) [/ 2; 0; / 2; / 2; 1; 0; 0; 0; / 2; / 2; 0; 0].
Proof.
  destruct C117_example as (logest & Hl & _). exists logest. split; [exact Hl|]. split; [reflexivity|].
  assert (I3 : forall i, (i < 3)%nat -> i = 0%nat \/ i = 1%nat \/ i = 2%nat) by lia.
  split; [|split; [reflexivity|split]].
  - split.
    + intros i v Hi Hv. destruct (I3 i Hi) as [-> | [-> | ->]], (I3 v Hv) as [-> | [-> | ->]]; unfold expectation, sumf, nthR; cbn; lra.
    + intros i j Hij Hj. destruct (I3 j Hj) as [-> | [-> | ->]]; [lia| |]; (destruct i as [|[|i]]; [| |lia]); try lia; unfold expectation, sumf, nthR; cbn; lra.
  - intros row [<-|[<-|[]]]; cbn; lia.
  - split.
    + intros i v Hi Hv. destruct (I3 i Hi) as [-> | [-> | ->]], (I3 v Hv) as [-> | [-> | ->]]; unfold expectation, sumf, nthR; cbn; lra.
    + intros i j Hij Hj. destruct (I3 j Hj) as [-> | [-> | ->]]; [lia| |]; (destruct i as [|[|i]]; [| |lia]); try lia; unfold expectation, sumf, nthR; cbn; lra.
Qed.
