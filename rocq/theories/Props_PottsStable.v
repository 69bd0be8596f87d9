(** * Potts models: how well the correlations determine the parameters (C120). *)
From Coquelicot Require Import Coquelicot.
From Verif Require Import Prelude Spec PreludeFacts M_Index M_Params M_Energy M_Corr M_Enum M_Models M_MCH P_Index P_Unravel P_Energy P_Energy2 P_Params P_Corr2 P_MaxEnt P_Unique P_MCH P_Descent P_Stable P_EnumPotts P_Models P_PottsGauge P_PottsStable Props_Energy Props_Enum Props_Models Props_PottsGauge.
Import ListNotations.
Local Open Scope R_scope.

Lemma exp_mono a b : a <= b -> exp a <= exp b.
Proof. intros H. destruct (Rle_lt_or_eq_dec a b H) as [L|L]; [left; now apply exp_increasing|right; now rewrite L]. Qed.

Section Stable.
Variables (logest : nat -> nat -> nat) (n k : nat).
Hypothesis Hn : (2 < n)%nat.
Hypothesis Hk : (2 <= k <= 10)%nat.
Hypothesis Hlog : log_ok logest n k.
Let states := all_states (seq 0 k) n.
Let P := (k * n + n * (n - 1) / 2)%nat.
Let O (p : list R) (c : nat) : R := nthR (potts_file_observables logest n k p) c.

Lemma energy_dot p s : length p = P -> In s states -> - potts_energy n k p s = sumf (seq 0 P) (fun c => nthR (potts_obs k s) c * nthR p c).
Proof using Hn Hk.
  intros Hp Hs. apply all_states_k in Hs. destruct Hs as [Ls Vs]. rewrite <- (potts_obs_dot n k s p Ls Vs Hp). apply dot_seq; [|exact Hp].
  rewrite (potts_obs_as_fns n k s Ls), map_length, potts_obs_fns_length. unfold P. lia.
Qed.

Lemma energy_bound p s : length p = P -> In s states -> Rabs (potts_energy n k p s) <= sumf p Rabs.
Proof using Hn Hk.
  intros Hp Hs. rewrite <- Rabs_Ropp, (energy_dot p s Hp Hs), <- (sumf_seq_nth 0 p Rabs), Hp.
  assert (A : forall l f, Rabs (sumf l f) <= sumf l (fun c : nat => Rabs (f c))).
  { induction l as [|a l IH]; intros f; [rewrite !sumf_nil, Rabs_R0; lra|]. rewrite !sumf_cons. pose proof (IH f). pose proof (Rabs_triang (f a) (sumf l f)). lra. }
  apply Rle_trans with (1 := A _ _). apply sumf_le. intros c _. rewrite Rabs_mult. fold (nthR p c). pose proof (potts_obs_01 k s c) as B.
  rewrite (Rabs_pos_eq (nthR (potts_obs k s) c)) by lra. pose proof (Rabs_pos (nthR p c)). nra.
Qed.

Lemma states_count : INR (length states) = INR k ^ n.
Proof using. unfold states. now rewrite all_states_length, seq_length, pow_INR. Qed.

Lemma prob_low p s R0 : length p = P -> sumf p Rabs <= R0 -> In s states -> exp (- 2 * R0) / INR k ^ n <= boltzmann (potts_energy n k p) states s.
Proof using Hn Hk.
  intros Hp HR Hs. assert (KP : 0 < INR k ^ n) by (apply pow_lt, lt_0_INR; lia).
  assert (Zp : 0 < partition (potts_energy n k p) states) by (apply sumf_pos; [intros E; rewrite E in Hs; destruct Hs|intros; apply exp_pos]).
  assert (ZB : partition (potts_energy n k p) states <= INR k ^ n * exp R0).
  { rewrite <- states_count, <- sumf_const. apply sumf_le. intros r Hr. pose proof (energy_bound p r Hp Hr) as B. apply Rabs_le_between in B. apply exp_mono. lra. }
  assert (DB : exp (- R0) <= exp (- potts_energy n k p s)).
  { pose proof (energy_bound p s Hp Hs) as B. apply Rabs_le_between in B. apply exp_mono. lra. }
  unfold boltzmann. set (Z := partition (potts_energy n k p) states) in *.
  apply (Rmult_le_reg_r (INR k ^ n * Z)); [apply Rmult_lt_0_compat; assumption|].
  replace (exp (- 2 * R0) / INR k ^ n * (INR k ^ n * Z)) with (exp (- 2 * R0) * Z) by (field; lra).
  replace (exp (- potts_energy n k p s) / Z * (INR k ^ n * Z)) with (exp (- potts_energy n k p s) * INR k ^ n) by (field; lra).
  replace (- 2 * R0) with (- R0 + - R0) by ring. rewrite exp_plus. assert (0 < exp (- R0)) by apply exp_pos.
  assert (E1 : exp (- R0) * exp R0 = 1) by (rewrite <- exp_plus, Rplus_opp_l; apply exp_0).
  apply Rle_trans with (exp (- R0) * exp (- R0) * (INR k ^ n * exp R0)); [apply Rmult_le_compat_l; [nra|exact ZB]|].
  replace (exp (- R0) * exp (- R0) * (INR k ^ n * exp R0)) with (exp (- R0) * INR k ^ n) by (transitivity (exp (- R0) * INR k ^ n * (exp (- R0) * exp R0)); [rewrite E1; ring|ring]).
  apply Rmult_le_compat_r; lra.
Qed.

(** The observables are strongly monotone in the centred parameters. *)
Lemma potts_strong p q R0 : length p = P -> length q = P -> sumf p Rabs <= R0 -> sumf q Rabs <= R0 ->
  let d := fun c => nthR (centre n k p) c - nthR (centre n k q) c in
  exp (- 2 * R0) * ((INR k - 1) / (INR k * INR k)) * ip P d d <= ip P (fun c => O p c - O q c) d.
Proof using Hn Hk Hlog.
  intros Hp Hq Bp Bq d. set (p' := centre n k p). set (q' := centre n k q).
  assert (Lp : length p' = P) by (unfold p'; rewrite centre_length by lia; exact Hp). assert (Lq : length q' = P) by (unfold q'; rewrite centre_length by lia; exact Hq).
  assert (ne : states <> []) by (exact (states_ne n k Hn Hk)).
  set (fp := boltzmann (potts_energy n k p) states). set (fq := boltzmann (potts_energy n k q) states).
  assert (Pp : forall s, 0 < fp s) by (intros s; now apply Props_Enum.boltzmann_pos). assert (Qp : forall s, 0 < fq s) by (intros s; now apply Props_Enum.boltzmann_pos).
  assert (SP : sumf states fp = 1) by (now apply Props_Enum.boltzmann_sum). assert (SQ : sumf states fq = 1) by (now apply Props_Enum.boltzmann_sum).
  destruct (same_energy n k p' p (centre_same n k ltac:(lia) p Hp) ltac:(lia)) as [cp Ep].
  destruct (same_energy n k q' q (centre_same n k ltac:(lia) q Hq) ltac:(lia)) as [cq Eq].
  fold states in Ep, Eq.
  set (b := cp - cq + ln (partition (potts_energy n k q) states) - ln (partition (potts_energy n k p) states)).
  assert (Lg : forall s, In s states -> ln (fp s) - ln (fq s) = b + (potts_energy n k q' s - potts_energy n k p' s)).
  { intros s Hs. unfold fp, fq. rewrite !(ln_boltzmann _ states ne). rewrite Ep, Eq by exact Hs. unfold b. ring. }
  assert (EL : ip P (fun c => O p c - O q c) d = sumf states (fun s => (fp s - fq s) * (ln (fp s) - ln (fq s)))).
  { rewrite (sumf_ext_in states _ (fun s => (fp s - fq s) * b + sumf (seq 0 P) (fun c => (fp s - fq s) * nthR (potts_obs k s) c * d c))).
    - rewrite sumf_plus, sumf_scal_r, sumf_minus, SP, SQ, Rminus_diag_eq, Rmult_0_l, Rplus_0_l by reflexivity.
      rewrite sumf_swap. unfold ip. apply sumf_ext_in. intros c Hc. apply in_seq in Hc. rewrite sumf_scal_r. f_equal. unfold O.
      assert (Hp1 : length p = (n * k + n * (n - 1) / 2)%nat) by (rewrite Hp; unfold P; lia). assert (Hq1 : length q = (n * k + n * (n - 1) / 2)%nat) by (rewrite Hq; unfold P; lia).
      rewrite (proj2 (file_obs_ok logest n k Hn Hk Hlog p Hp1)), (proj2 (file_obs_ok logest n k Hn Hk Hlog q Hq1)) by lia.
      unfold expectation. fold states fp fq. rewrite <- sumf_minus. apply sumf_ext. intros s. ring.
    - intros s Hs. rewrite Lg by exact Hs. replace (potts_energy n k q' s - potts_energy n k p' s) with (- potts_energy n k p' s - - potts_energy n k q' s) by ring.
      rewrite !energy_dot by assumption. rewrite <- sumf_minus, Rmult_plus_distr_l, <- sumf_scal_l. f_equal. apply sumf_ext. intros c. unfold d, p', q'. ring. }
  rewrite EL. assert (KP : 0 < INR k ^ n) by (apply pow_lt, lt_0_INR; lia). assert (0 < exp (- 2 * R0)) by apply exp_pos.
  pose proof (energy_variance n k ltac:(lia) p q b Hp ltac:(congruence)) as V. cbv zeta in V. rewrite Hp in V. fold states p' q' in V. fold d in V.
  apply Rle_trans with (sumf states (fun s => exp (- 2 * R0) / INR k ^ n * ((b + (potts_energy n k q' s - potts_energy n k p' s)) * (b + (potts_energy n k q' s - potts_energy n k p' s))))).
  - rewrite sumf_scal_l.
    replace (exp (- 2 * R0) * ((INR k - 1) / (INR k * INR k)) * ip P d d) with (exp (- 2 * R0) / INR k ^ n * (INR k ^ n * ((INR k - 1) / (INR k * INR k)) * ip P d d))
      by (field; split; [apply Rgt_not_eq, lt_0_INR; lia|lra]).
    apply Rmult_le_compat_l; [|exact V]. left. now apply Rdiv_lt_0_compat.
  - apply sumf_le. intros s Hs. apply Rle_trans with (2 := kl_pair (fp s) (fq s) (Pp s) (Qp s)). rewrite Lg by exact Hs.
    apply Rmult_le_compat_r; [apply Rle_0_sqr|]. apply Rmin_glb; apply prob_low; assumption.
Qed.

Lemma dist2_P a b : length b = P -> dist2 a b = nrm P (fun c => nthR a c - nthR b c).
Proof using. intros H. unfold dist2. now rewrite H. Qed.

Lemma obs_length p : length p = P -> length (potts_file_observables logest n k p) = P.
Proof using Hn Hk Hlog. intros Hp. rewrite (proj1 (file_obs_ok logest n k Hn Hk Hlog p ltac:(rewrite Hp; unfold P; lia))). exact Hp. Qed.
End Stable.

(** ** C120 *)
(** Two parameter vectors whose correlations are close are close themselves, once the mean
    field of every spin is removed. *)
Theorem C120_stability : forall (logest : nat -> nat -> nat) (n k : nat) (p q : list R),
  (2 < n)%nat -> (2 <= k <= 10)%nat -> log_ok logest n k ->
  length p = (n * k + n * (n - 1) / 2)%nat -> length q = length p ->
  exp (- 2 * Rmax (sumf p Rabs) (sumf q Rabs)) * ((INR k - 1) / (INR k * INR k)) * dist2 (centre n k p) (centre n k q) <=
  dist2 (potts_file_observables logest n k p) (potts_file_observables logest n k q).
Proof.
  intros logest n k p q Hn Hk Hl Hp Hq. set (P := (k * n + n * (n - 1) / 2)%nat). assert (Lp : length p = P) by (rewrite Hp; unfold P; lia). assert (Lq : length q = P) by congruence.
  rewrite (dist2_P n k (centre n k p)) by (rewrite centre_length by lia; exact Lq). rewrite (dist2_P n k _ (potts_file_observables logest n k q)) by now apply obs_length. fold P.
  set (R0 := Rmax (sumf p Rabs) (sumf q Rabs)). pose proof (potts_strong logest n k Hn Hk Hl p q R0 Lp Lq (Rmax_l _ _) (Rmax_r _ _)) as S. cbv zeta in S. fold P in S.
  set (d := fun c => nthR (centre n k p) c - nthR (centre n k q) c) in *. set (u := fun c => nthR (potts_file_observables logest n k p) c - nthR (potts_file_observables logest n k q) c) in *.
  pose proof (cauchy_schwarz P u d) as C. rewrite <- nrm_sqr in S. pose proof (nrm_nonneg P d) as Nd. pose proof (nrm_nonneg P u) as Nu.
  destruct (Rle_lt_or_eq_dec 0 (nrm P d) Nd) as [Pd|Zd].
  - apply (Rmult_le_reg_r (nrm P d)); [exact Pd|]. lra.
  - rewrite <- Zd. lra.
Qed.
Print Assumptions C120_stability.

(** Enumerate on a Potts model with constraints that are known up to an error e: parameters with
    a norm of the residual r are near the true ones.  The couplings differ by at most the bound,
    the differences of the fields of a spin by at most twice the bound. *)
Theorem C120_solver : forall (logest : nat -> nat -> nat) (n k : nat) (max : option R) (hJ params c : list R) (r e : R),
  (2 < n)%nat -> (2 <= k <= 10)%nat -> log_ok logest n k ->
  length hJ = (n * k + n * (n - 1) / 2)%nat -> length params = length hJ -> length c = length hJ ->
  dist2 c (potts_file_observables logest n k hJ) <= e ->
  enumerate_min_f (potts_file_observables logest n k) max c params = Ok r -> r < 10 ^ 30 ->
  let bound := INR k * INR k / (INR k - 1) * exp (2 * Rmax (sumf params Rabs) (sumf hJ Rabs)) * (r + e) in
  dist2 (centre n k params) (centre n k hJ) <= bound /\
  (forall i j, (i < j)%nat -> (j < n)%nat -> Rabs (nthR params (k * n + pair_index n i j) - nthR hJ (k * n + pair_index n i j)) <= bound) /\
  (forall i v w, (i < n)%nat -> (v < k)%nat -> (w < k)%nat ->
     Rabs ((nthR params (v * n + i) - nthR params (w * n + i)) - (nthR hJ (v * n + i) - nthR hJ (w * n + i))) <= 2 * bound).
Proof.
  intros logest n k max hJ params c r e Hn Hk Hl Hh Hp Hc He Hr Hbig bound. set (P := (k * n + n * (n - 1) / 2)%nat).
  assert (Lh : length hJ = P) by (rewrite Hh; unfold P; lia). assert (Lp : length params = P) by congruence. assert (Lc : length c = P) by congruence.
  assert (D : dist2 (centre n k params) (centre n k hJ) <= bound).
  { pose proof (C120_stability logest n k params hJ Hn Hk Hl ltac:(congruence) ltac:(congruence)) as S.
    assert (T : dist2 (potts_file_observables logest n k params) (potts_file_observables logest n k hJ) <= r + e).
    { unfold enumerate_min_f in Hr. destruct (exceeds max params); [injection Hr as Hr; lra|].
      destruct (vsub (potts_file_observables logest n k params) c) as [dd|] eqn:Ev; [|discriminate]. cbn [bind] in Hr. injection Hr as Hr.
      pose proof (vnorm_vsub _ _ _ Ev) as Nv. rewrite (dist2_P n k _ c Lc) in Nv. fold P in Nv.
      rewrite (dist2_P n k c) in He by now apply obs_length. rewrite dist2_P with (n := n) (k := k) by now apply obs_length. fold P in He |- *.
      assert (Nr : r = nrm P (fun k0 => nthR (potts_file_observables logest n k params) k0 - nthR c k0)).
      { rewrite <- Nv, <- Hr. unfold vnorm. now rewrite sumR_map. }
      pose proof (nrm_triangle P (fun k0 => nthR (potts_file_observables logest n k params) k0 - nthR c k0) (fun k0 => nthR c k0 - nthR (potts_file_observables logest n k hJ) k0)) as Tr.
      cbv beta in Tr. rewrite (nrm_ext P _ (fun k0 => nthR (potts_file_observables logest n k params) k0 - nthR (potts_file_observables logest n k hJ) k0)) in Tr by (intros; ring). lra. }
    set (R0 := Rmax (sumf params Rabs) (sumf hJ Rabs)) in *. assert (Kk : 2 <= INR k) by (apply INR_k; lia).
    assert (E1 : exp (2 * R0) * exp (- 2 * R0) = 1) by (rewrite <- exp_plus; replace (2 * R0 + - 2 * R0) with 0 by ring; apply exp_0).
    assert (E0 : 0 < exp (2 * R0)) by apply exp_pos.
    assert (F0 : 0 < INR k * INR k / (INR k - 1) * exp (2 * R0)) by (apply Rmult_lt_0_compat; [apply Rdiv_lt_0_compat; nra|exact E0]).
    unfold bound. apply Rle_trans with (INR k * INR k / (INR k - 1) * exp (2 * R0) * (exp (- 2 * R0) * ((INR k - 1) / (INR k * INR k)) * dist2 (centre n k params) (centre n k hJ))).
    - right. transitivity (exp (2 * R0) * exp (- 2 * R0) * dist2 (centre n k params) (centre n k hJ)); [rewrite E1; ring|]. field. split; lra.
    - apply Rmult_le_compat_l; [lra|]. lra. }
  assert (Co : forall a, (a < P)%nat -> Rabs (nthR (centre n k params) a - nthR (centre n k hJ) a) <= bound).
  { intros a Ha. apply Rle_trans with (2 := D). rewrite (dist2_P n k) by (rewrite centre_length by lia; exact Lh). exact (coord_le P (fun a => nthR (centre n k params) a - nthR (centre n k hJ) a) a Ha). }
  split; [exact D|]. split.
  - intros i j Hij Hj. rewrite <- (centre_coupling n k ltac:(lia) params), <- (centre_coupling n k ltac:(lia) hJ) by assumption. apply Co.
    pose proof (pair_index_lt n i j Hij Hj). unfold P. lia.
  - intros i v w Hi Hv Hw. rewrite <- (proj2 (centre_same n k ltac:(lia) params Lp) i v w Hi Hv Hw), <- (proj2 (centre_same n k ltac:(lia) hJ Lh) i v w Hi Hv Hw).
    pose proof (Co (v * n + i)%nat ltac:(unfold P; nia)) as A. pose proof (Co (w * n + i)%nat ltac:(unfold P; nia)) as B.
    apply Rabs_le_between in A, B. apply Rabs_le. lra.
Qed.
Print Assumptions C120_solver.

(** Three spins with three states: the hypotheses hold with the true correlations as constraints
    and the true parameters; the fields of the first spin are 1, 0 and 2, with mean 1. *)
Example C120_example : exists logest, log_ok logest 3 3 /\
  let hJ := [1; 0; 0; 0; 2; 0; 2; 0; 3; 1; -1; 2] in
  let c := potts_file_observables logest 3 3 hJ in
  length hJ = (3 * 3 + 3 * (3 - 1) / 2)%nat /\ length c = length hJ /\ dist2 c c <= 0 /\
  enumerate_min_f (potts_file_observables logest 3 3) None c hJ = Ok 0 /\
  nthR (centre 3 3 hJ) 0 = 0 /\ nthR (centre 3 3 hJ) 3 = -1 /\ nthR (centre 3 3 hJ) 6 = 1 /\ nthR (centre 3 3 hJ) 9 = 1.
Proof.
  destruct C117_example as (logest & Hl & _). exists logest. split; [exact Hl|]. intros hJ c.
  destruct (file_obs_ok logest 3 3 ltac:(lia) ltac:(lia) Hl hJ eq_refl) as [Lc _]. fold c in Lc.
  assert (D : dist2 c c = 0).
  { unfold dist2. rewrite sumf_zero; [apply sqrt_0|]. intros a _. ring. }
  split; [reflexivity|]. split; [exact Lc|]. split; [lra|]. split.
  - unfold enumerate_min_f. cbn [exceeds]. fold c. destruct (vsub c c) as [d|] eqn:Ev.
    + cbn [bind]. f_equal. rewrite <- D, <- (vnorm_vsub _ _ _ Ev). unfold vnorm. now rewrite sumR_map.
    + exfalso. unfold vsub in Ev. rewrite Nat.eqb_refl in Ev. discriminate.
  - unfold centre, nthR, hJ. cbn [length seq map nth Nat.ltb Nat.leb Nat.mul Nat.add Nat.modulo Nat.divmod fst snd Nat.sub]. rewrite !sumf_cons, !sumf_nil.
    cbn [nth Nat.mul Nat.add]. change (INR 3) with (1 + 1 + 1). repeat split; cbn; lra.
Qed.
