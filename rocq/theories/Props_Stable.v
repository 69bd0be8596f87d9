(** * Property theorems C98, C99: how well the correlations determine the parameters,
    and for which correlations there are any. *)
From Coquelicot Require Import Coquelicot.
From Verif Require Import Prelude Spec PreludeFacts M_Corr M_Params M_Energy M_Models M_MCH P_Params P_Energy P_Energy2 P_Corr P_Corr2
  P_Models P_MPF P_MCH P_Convert P_Descent P_Stable Props_Corr Props_Models Props_MCH Props_MCHDescent.
Import ListNotations.
Local Open Scope R_scope.

Section Stable.
Variable n : nat.
Hypothesis Hn : (0 < n)%nat.
Let P := (n + n * (n - 1) / 2)%nat.
Let X := all_states [-1; 1]%Z n.
Let o (s : list Z) : list R := ising_obs (map IZR s).
Let vec (x : nat -> R) : list R := map x (seq 0 P).
Let Zf (x : nat -> R) : R := sumf X (fun s => exp (dot (o s) (vec x))).
Let E (x : nat -> R) (k : nat) : R := nthR (file_observables n true (vec x)) k.
Let norm1 (x : nat -> R) : R := sumf (seq 0 P) (fun k => Rabs (x k)).

Lemma st_rows : spin_rows X n.
Proof using Hn.
  intros r Hr. apply all_states_spec in Hr. destruct Hr as [L H]. split; [exact L|]. intros x Hx. apply H in Hx. cbn in Hx. intuition.
Qed.

Lemma st_ne : X <> [].
Proof using Hn.
  assert (H : In (repeat 1%Z n) X).
  { apply all_states_spec. rewrite repeat_length. split; [reflexivity|]. intros x Hx. apply repeat_spec in Hx. subst. right. now left. }
  intros E0. rewrite E0 in H. destruct H.
Qed.

Lemma st_len : INR (length X) = 2 ^ n.
Proof using Hn.
  assert (H : forall m, length (all_states [-1; 1]%Z m) = (2 ^ m)%nat).
  { induction m as [|m IH]; [reflexivity|]. cbn [all_states flat_map]. rewrite !app_length, !map_length, IH. cbn. lia. }
  unfold X. rewrite H. rewrite pow_INR. reflexivity.
Qed.

Lemma st_sum (f : list R -> R) : sumf X (fun s => f (map IZR s)) = sumf (ising_states n true) f.
Proof using Hn. unfold ising_states. now rewrite sumf_map. Qed.

Lemma Zf_pos' x : 0 < Zf x.
Proof using Hn. apply sumf_pos; [exact st_ne|intros; apply exp_pos]. Qed.

Lemma E_eq x k : (k < P)%nat -> E x k = sumf X (fun s => exp (dot (o s) (vec x)) * nthR (o s) k) / Zf x.
Proof using Hn.
  intros Hk. assert (Lv : length (vec x) = P) by (unfold vec; now rewrite map_length, seq_length).
  destruct (file_observables_ok n true (vec x) Hn Lv) as [_ H]. unfold E. rewrite H by exact Hk. unfold expectation. rewrite <- st_sum.
  assert (EE : forall s, In s X -> exp (- ising_energy n (vec x) (map IZR s)) = exp (dot (o s) (vec x))).
  { intros s Hs. f_equal. rewrite ising_energy_dot by (auto; rewrite map_length; now apply st_rows). unfold o. ring. }
  rewrite (sumf_ext_in X _ (fun s => exp (dot (o s) (vec x)) * nthR (o s) k / Zf x)); [apply sumf_div|].
  intros s Hs. unfold boltzmann. rewrite EE by exact Hs. unfold partition. rewrite <- (st_sum (fun s => exp (- ising_energy n (vec x) s))).
  rewrite (sumf_ext_in X _ (fun s => exp (dot (o s) (vec x)))) by exact EE. fold (Zf x). unfold o. field. apply Rgt_not_eq, Zf_pos'.
Qed.

Lemma co_E x y : / INR P * ip P (fun k => E y k - E x k) (fun k => E y k - E x k) <= ip P (fun k => E y k - E x k) (fun k => y k - x k).
Proof using Hn.
  assert (HP : (0 < P)%nat) by (unfold P; lia).
  pose proof (gd_coercive P _ _ (INR P) (P_pos n HP)
    (F_convex X n (repeat 0 P) st_ne st_rows (repeat_length _ _)) (F_smooth X n (repeat 0 P) st_ne st_rows (repeat_length _ _)) x y) as C.
  assert (Q : forall k, (k < P)%nat -> E y k - E x k = (sumf X (fun s => exp (dot (ising_obs (map IZR s)) (map y (seq 0 P))) * nthR (ising_obs (map IZR s)) k) / sumf X (fun s => exp (dot (ising_obs (map IZR s)) (map y (seq 0 P)))) - nthR (repeat 0 P) k)
    - (sumf X (fun s => exp (dot (ising_obs (map IZR s)) (map x (seq 0 P))) * nthR (ising_obs (map IZR s)) k) / sumf X (fun s => exp (dot (ising_obs (map IZR s)) (map x (seq 0 P)))) - nthR (repeat 0 P) k)).
  { intros k Hk. rewrite !E_eq by exact Hk. unfold Zf, vec, o. lra. }
  rewrite (ip_ext P _ _ _ _ Q Q), (ip_ext P (fun k => E y k - E x k) (fun k => y k - x k) _ (fun k => y k - x k) Q (fun k _ => eq_refl)). exact C.
Qed.

Lemma o_len s : In s X -> length (o s) = P.
Proof using Hn. intros Hs. exact (obs_len n X s st_rows Hs). Qed.

Lemma dot_ip v x : length v = P -> dot v (vec x) = ip P (nthR v) x.
Proof using Hn.
  intros Hv. rewrite (dot_seq v (vec x) P) by (auto; unfold vec; now rewrite map_length, seq_length). apply sumf_ext_in. intros k Hk. apply in_seq in Hk.
  f_equal. unfold vec. now apply nthR_map_seq.
Qed.

Lemma o_b s k : In s X -> (k < P)%nat -> Rabs (nthR (o s) k) <= 1.
Proof using Hn. intros Hs Hk. apply Rabs_le_between. apply (o_bound X n st_rows s k Hs Hk). Qed.

Lemma dot_b s x : In s X -> Rabs (dot (o s) (vec x)) <= norm1 x.
Proof using Hn.
  intros Hs. rewrite dot_ip by now apply o_len. unfold ip, norm1. apply Rle_trans with (1 := sumf_abs_le _ _). apply sumf_le. intros k Hk. apply in_seq in Hk.
  rewrite Rabs_mult. pose proof (o_b s k Hs ltac:(lia)). pose proof (Rabs_pos (x k)). nra.
Qed.

(** No state has a tiny probability. *)
Lemma prob_low s x R0 : In s X -> norm1 x <= R0 -> exp (- 2 * R0) / 2 ^ n <= exp (dot (o s) (vec x)) / Zf x.
Proof using Hn.
  intros Hs HR. assert (Zp := Zf_pos' x). assert (P2 : 0 < 2 ^ n) by (apply pow_lt; lra).
  assert (ZB : Zf x <= 2 ^ n * exp R0).
  { rewrite <- st_len, <- sumf_const. apply sumf_le. intros r Hr. pose proof (dot_b r x Hr) as B. apply Rabs_le_between in B.
    destruct (Rle_lt_or_eq_dec (dot (o r) (vec x)) R0 ltac:(lra)) as [H|H]; [left; now apply exp_increasing|right; now rewrite H]. }
  assert (DB : exp (- R0) <= exp (dot (o s) (vec x))).
  { pose proof (dot_b s x Hs) as B. apply Rabs_le_between in B.
    destruct (Rle_lt_or_eq_dec (- R0) (dot (o s) (vec x)) ltac:(lra)) as [H|H]; [left; now apply exp_increasing|right; now rewrite H]. }
  apply (Rmult_le_reg_r (2 ^ n * Zf x)); [apply Rmult_lt_0_compat; assumption|].
  replace (exp (- 2 * R0) / 2 ^ n * (2 ^ n * Zf x)) with (exp (- 2 * R0) * Zf x) by (field; lra).
  replace (exp (dot (o s) (vec x)) / Zf x * (2 ^ n * Zf x)) with (exp (dot (o s) (vec x)) * 2 ^ n) by (field; lra).
  replace (- 2 * R0) with (- R0 + - R0) by ring. rewrite exp_plus. assert (0 < exp (- R0)) by apply exp_pos.
  assert (E1 : exp (- R0) * exp R0 = 1) by (rewrite <- exp_plus, Rplus_opp_l; apply exp_0).
  apply Rle_trans with (exp (- R0) * exp (- R0) * (2 ^ n * exp R0)); [apply Rmult_le_compat_l; [nra|exact ZB]|].
  replace (exp (- R0) * exp (- R0) * (2 ^ n * exp R0)) with (exp (- R0) * 2 ^ n * (exp (- R0) * exp R0)) by ring. rewrite E1. nra.
Qed.

Lemma square_total x b : sumf X (fun s => (b + dot (o s) (vec x)) * (b + dot (o s) (vec x))) = 2 ^ n * (b * b + ip P x x).
Proof using Hn.
  unfold o. rewrite (st_sum (fun s => (b + dot (ising_obs s) (vec x)) * (b + dot (ising_obs s) (vec x)))). rewrite ising_states_all.
  assert (Lv : length (vec x) = P) by (unfold vec; now rewrite map_length, seq_length).
  rewrite <- (firstn_skipn n (vec x)). rewrite quadratic_square by (rewrite ?firstn_length, ?skipn_length, Lv; unfold P; lia).
  rewrite firstn_skipn. do 2 f_equal. unfold vec. now rewrite sumf_map.
Qed.

(** Strong monotonicity with an explicit constant. *)
Lemma strong x y R0 : norm1 x <= R0 -> norm1 y <= R0 ->
  exp (- 2 * R0) * ip P (fun k => y k - x k) (fun k => y k - x k) <= ip P (fun k => E y k - E x k) (fun k => y k - x k).
Proof using Hn.
  intros Hx Hy. set (v := fun k => y k - x k).
  set (p := fun s => exp (dot (o s) (vec y)) / Zf y). set (q := fun s => exp (dot (o s) (vec x)) / Zf x).
  assert (Zx := Zf_pos' x). assert (Zy := Zf_pos' y).
  assert (Pp : forall s, 0 < p s) by (intros s; apply Rdiv_lt_0_compat; [apply exp_pos|assumption]).
  assert (Qp : forall s, 0 < q s) by (intros s; apply Rdiv_lt_0_compat; [apply exp_pos|assumption]).
  assert (SP : sumf X p = 1) by (unfold p; rewrite sumf_div; apply Rinv_r; apply Rgt_not_eq, Zy).
  assert (SQ : sumf X q = 1) by (unfold q; rewrite sumf_div; apply Rinv_r; apply Rgt_not_eq, Zx).
  set (b := ln (Zf x) - ln (Zf y)).
  assert (Lg : forall s, In s X -> ln (p s) - ln (q s) = b + dot (o s) (vec v)).
  { intros s Hs. unfold p, q, Rdiv. rewrite !ln_mult, !ln_Rinv, !ln_exp by (try apply exp_pos; try apply Rinv_0_lt_compat; assumption).
    rewrite !dot_ip by now apply o_len. unfold b.
    replace (ip P (nthR (o s)) v) with (ip P (nthR (o s)) y - ip P (nthR (o s)) x) by (unfold v, ip; rewrite <- sumf_minus; apply sumf_ext; intros; ring). ring. }
  assert (EL : ip P (fun k => E y k - E x k) v = sumf X (fun s => (p s - q s) * (ln (p s) - ln (q s)))).
  { rewrite (sumf_ext_in X _ (fun s => (p s - q s) * b + sumf (seq 0 P) (fun k => (p s - q s) * nthR (o s) k * v k))).
    - rewrite sumf_plus, sumf_scal_r, sumf_minus, SP, SQ, Rminus_diag_eq, Rmult_0_l, Rplus_0_l by reflexivity.
      rewrite sumf_swap. unfold ip. apply sumf_ext_in. intros k Hk. apply in_seq in Hk. rewrite sumf_scal_r. f_equal.
      rewrite !E_eq by lia. rewrite <- !sumf_div, <- sumf_minus. apply sumf_ext. intros s. unfold p, q. field. split; lra.
    - intros s Hs. rewrite Lg by exact Hs. rewrite dot_ip by now apply o_len. unfold ip. rewrite Rmult_plus_distr_l, <- sumf_scal_l. f_equal. apply sumf_ext. intros; ring. }
  rewrite EL. assert (P2 : 0 < 2 ^ n) by (apply pow_lt; lra).
  apply Rle_trans with (sumf X (fun s => exp (- 2 * R0) / 2 ^ n * ((b + dot (o s) (vec v)) * (b + dot (o s) (vec v))))).
  - rewrite sumf_scal_l, square_total. assert (0 < exp (- 2 * R0)) by apply exp_pos.
    replace (exp (- 2 * R0) / 2 ^ n * (2 ^ n * (b * b + ip P v v))) with (exp (- 2 * R0) * (b * b) + exp (- 2 * R0) * ip P v v) by (field; lra).
    pose proof (Rle_0_sqr b) as Hb. unfold Rsqr in Hb. assert (0 <= exp (- 2 * R0) * (b * b)) by (apply Rmult_le_pos; lra). unfold v. lra.
  - apply sumf_le. intros s Hs. apply Rle_trans with (2 := kl_pair (p s) (q s) (Pp s) (Qp s)). rewrite Lg by exact Hs.
    apply Rmult_le_compat_r; [apply Rle_0_sqr|]. apply Rmin_glb; apply prob_low; assumption.
Qed.

Lemma norm1_near a x rho : nrm P (fun k => x k - a k) <= rho -> norm1 x <= norm1 a + sqrt (INR P) * rho.
Proof using Hn.
  intros H. assert (A : norm1 x <= norm1 a + sumf (seq 0 P) (fun k => Rabs (x k - a k))).
  { unfold norm1. rewrite <- sumf_plus. apply sumf_le. intros k _. replace (x k) with (a k + (x k - a k)) at 1 by ring. apply Rabs_triang. }
  assert (B : sumf (seq 0 P) (fun k => Rabs (x k - a k)) <= sqrt (INR P) * nrm P (fun k => x k - a k)).
  { unfold nrm. rewrite <- sqrt_mult by (try apply ip_nonneg; apply pos_INR).
    rewrite <- (sqrt_square (sumf (seq 0 P) (fun k => Rabs (x k - a k)))) by (apply sumf_nonneg; intros; apply Rabs_pos).
    apply sqrt_le_1_alt. apply Rle_trans with (1 := square_sum _ _). rewrite seq_length. right. f_equal. unfold ip. apply sumf_ext. intros k.
    rewrite <- Rabs_mult. apply Rabs_pos_eq, Rle_0_sqr. }
  pose proof (sqrt_pos (INR P)). nra.
Qed.

(** A small residual proves that an exact solution is near. *)
Lemma solution_near (c a : nat -> R) rho : 0 < rho ->
  nrm P (fun k => E a k - c k) * exp (2 * (norm1 a + sqrt (INR P) * rho)) < rho ->
  exists x, nrm P (fun k => x k - a k) < rho /\ forall k, (k < P)%nat -> E x k = c k.
Proof using Hn.
  intros Hr H. set (R0 := norm1 a + sqrt (INR P) * rho) in *. set (r := nrm P (fun k => E a k - c k)) in *.
  assert (HP : (0 < P)%nat) by (unfold P; lia). assert (PP := P_pos n HP). fold P in PP.
  assert (Sq := sqrt_pos (INR P)).
  assert (Ha : norm1 a <= R0) by (unfold R0; nra).
  assert (Hrk : r < exp (- 2 * R0) * rho).
  { assert (E1 : exp (2 * R0) * exp (- 2 * R0) = 1) by (rewrite <- exp_plus; replace (2 * R0 + - 2 * R0) with 0 by ring; apply exp_0).
    pose proof (exp_pos (- 2 * R0)) as E2. apply (Rmult_lt_compat_r (exp (- 2 * R0))) in H; [|exact E2].
    rewrite Rmult_assoc, E1, Rmult_1_r in H. lra. }
  assert (KEY : forall x, nrm P (fun k => x k - a k) = rho -> 0 < ip P (fun k => E x k - c k) (fun k => x k - a k)).
  { intros x Hx. pose proof (strong a x R0 Ha (norm1_near a x rho ltac:(lra))) as S. rewrite <- nrm_sqr, Hx in S.
    pose proof (cauchy_schwarz P (fun k => c k - E a k) (fun k => x k - a k)) as C. rewrite Hx, (nrm_opp_sub P c (E a)) in C. fold r in C.
    replace (ip P (fun k => E x k - c k) (fun k => x k - a k))
      with (ip P (fun k => E x k - E a k) (fun k => x k - a k) - ip P (fun k => c k - E a k) (fun k => x k - a k))
      by (unfold ip; rewrite <- sumf_minus; apply sumf_ext; intros; ring). nra. }
  destruct (zero_in_ball P (fun x k => E x k - c k) (INR P) (exp (- 2 * R0)) rho a PP (exp_pos _) Hr) as (x & Ix & Gx).
  - intros x y. pose proof (co_E x y) as C.
    assert (Q : forall k, (k < P)%nat -> E y k - c k - (E x k - c k) = E y k - E x k) by (intros; ring).
    rewrite (ip_ext P _ _ _ _ Q Q), (ip_ext P (fun k => E y k - c k - (E x k - c k)) (fun k => y k - x k) _ (fun k => y k - x k) Q (fun k _ => eq_refl)). exact C.
  - intros x y Ix Iy.
    assert (Q : forall k, (k < P)%nat -> E y k - c k - (E x k - c k) = E y k - E x k) by (intros; ring).
    rewrite (ip_ext P (fun k => E y k - c k - (E x k - c k)) (fun k => y k - x k) _ (fun k => y k - x k) Q (fun k _ => eq_refl)).
    apply strong; apply norm1_near; assumption.
  - exact KEY.
  - exists x. split; [|intros k Hk; specialize (Gx k Hk); cbn beta in Gx; lra].
    destruct Ix as [Ix|Ix]; [exact Ix|]. pose proof (KEY x Ix) as K. exfalso.
    assert (Z : ip P (fun k => E x k - c k) (fun k => x k - a k) = 0); [|lra].
    unfold ip. apply sumf_zero. intros k Hk. apply in_seq in Hk. rewrite Gx by lia. ring.
Qed.

Lemma vec_nthR p : length p = P -> vec (nthR p) = p.
Proof using Hn.
  intros H. apply (nth_ext _ _ 0 0); [unfold vec; now rewrite map_length, seq_length|]. intros k Hk. unfold vec in Hk. rewrite map_length, seq_length in Hk.
  fold (nthR (vec (nthR p)) k) (nthR p k). unfold vec. now apply nthR_map_seq.
Qed.

Lemma norm1_nthR p : length p = P -> norm1 (nthR p) = sumf p Rabs.
Proof using Hn. intros H. rewrite <- (sumf_seq_nth 0 p Rabs), H. reflexivity. Qed.

Lemma E_nthR p k : length p = P -> E (nthR p) k = nthR (file_observables n true p) k.
Proof using Hn. intros H. unfold E. now rewrite vec_nthR. Qed.

Lemma dist2_nrm p q : length q = P -> dist2 p q = nrm P (fun k => nthR p k - nthR q k).
Proof using Hn. intros H. unfold dist2. now rewrite H. Qed.

(** ** Solutions for the moments of a positive distribution *)
Variable w : list Z -> R.
Variable om : R.
Hypothesis Hom : 0 < om.
Hypothesis Hw : forall s, In s X -> om <= w s.
Hypothesis W1 : sumf X w = 1.
Let c (k : nat) : R := sumf X (fun s => w s * nthR (o s) k).
Let F (x : nat -> R) : R := reweighted_nll X n (vec c) (vec x).

Lemma nll_coercive x : om * nrm P x - INR n * ln 2 <= F x.
Proof using Hn Hom Hw W1.
  set (t := om * nrm P x). set (g := fun s => dot (o s) (vec x) - ip P c x).
  assert (P2 : 0 < 2 ^ n) by (apply pow_lt; lra).
  assert (Hx := nrm_nonneg P x).
  assert (Om1 : om <= 1).
  { assert (Ex : forall l : list (list Z), l <> [] -> exists s, In s l) by (intros [|s0 l] Hl; [congruence|exists s0; now left]).
    destruct (Ex X st_ne) as [s0 H0]. rewrite <- W1. apply Rle_trans with (w s0); [now apply Hw|].
    apply (sumf_in_le X w s0); [|exact H0]. intros b Hb. pose proof (Hw b Hb). lra. }
  assert (W0 : sumf X (fun s => w s * g s) = 0).
  { rewrite (sumf_ext_in X _ (fun s => sumf (seq 0 P) (fun k => w s * nthR (o s) k * x k) - w s * ip P c x)).
    - rewrite sumf_minus, sumf_scal_r, W1, Rmult_1_l, sumf_swap. unfold ip. rewrite <- sumf_minus. apply sumf_zero. intros k _. rewrite sumf_scal_r. fold (c k). ring.
    - intros s Hs. unfold g. rewrite dot_ip by now apply o_len. unfold ip at 1. rewrite Rmult_minus_distr_l, <- sumf_scal_l. f_equal. apply sumf_ext. intros; ring. }
  assert (Big : exists s, In s X /\ t <= g s).
  { destruct (existsb (fun s => if Rle_dec t (g s) then true else false) X) eqn:Ex.
    - apply existsb_exists in Ex. destruct Ex as (s & Hs & Hd). exists s. split; [exact Hs|]. now destruct (Rle_dec t (g s)).
    - exfalso. assert (Lt : forall s, In s X -> g s < t).
      { intros s Hs. apply Rnot_le_lt. intros Hle. assert (Tr : existsb (fun s => if Rle_dec t (g s) then true else false) X = true); [|congruence].
        apply existsb_exists. exists s. split; [exact Hs|]. now destruct (Rle_dec t (g s)). }
      (* some g(s) has modulus at least |x| *)
      assert (Sq : 2 ^ n * ip P x x <= sumf X (fun s => g s * g s)).
      { rewrite (sumf_ext X _ (fun s => (- ip P c x + dot (o s) (vec x)) * (- ip P c x + dot (o s) (vec x)))) by (intros; unfold g; ring).
        rewrite square_total. pose proof (Rle_0_sqr (ip P c x)) as Q. unfold Rsqr in Q. nra. }
      destruct (existsb (fun s => if Rle_dec (g s) (- nrm P x) then true else false) X) eqn:Ex2.
      + apply existsb_exists in Ex2. destruct Ex2 as (s & Hs & Hd). destruct (Rle_dec (g s) (- nrm P x)) as [Hd'|]; [|discriminate].
        assert (T1 : sumf X (fun s => w s * (t - g s)) = t).
        { rewrite (sumf_ext X _ (fun s => w s * t - w s * g s)) by (intros; ring). rewrite sumf_minus, sumf_scal_r, W1, W0. ring. }
        assert (T2 : w s * (t - g s) <= t).
        { rewrite <- T1 at 2. apply (sumf_in_le X (fun s => w s * (t - g s)) s); [|exact Hs]. intros b Hb. pose proof (Hw b Hb). pose proof (Lt b Hb). apply Rmult_le_pos; lra. }
        pose proof (Hw s Hs) as Hws. pose proof (Lt s Hs) as Ls.
        assert (H1 : om * (t - g s) <= t) by (apply Rle_trans with (2 := T2); apply Rmult_le_compat_r; lra).
        assert (H2 : om * (t + nrm P x) <= om * (t - g s)) by (apply Rmult_le_compat_l; lra).
        assert (Et : om * nrm P x = t) by reflexivity. rewrite Rmult_plus_distr_l, Et in H2.
        assert (H3 : om * t <= 0) by lra. assert (Tp : 0 <= t) by (rewrite <- Et; apply Rmult_le_pos; lra).
        assert (T0 : t = 0) by nra. assert (om * (t - g s) <= 0) by lra. assert (0 < om * (t - g s)) by (apply Rmult_lt_0_compat; lra). lra.
      + assert (Gt : forall s, In s X -> - nrm P x < g s).
        { intros s Hs. apply Rnot_le_lt. intros Hle. assert (Tr : existsb (fun s => if Rle_dec (g s) (- nrm P x) then true else false) X = true); [|congruence].
          apply existsb_exists. exists s. split; [exact Hs|]. now destruct (Rle_dec (g s) (- nrm P x)). }
        assert (U : 0 < sumf X (fun s => ip P x x - g s * g s)).
        { apply sumf_pos; [exact st_ne|]. intros s Hs. pose proof (Lt s Hs). pose proof (Gt s Hs). rewrite <- nrm_sqr. assert (t <= nrm P x) by (unfold t; nra). nra. }
        rewrite sumf_minus, sumf_const, st_len in U. lra. }
  destruct Big as (s & Hs & Hg). unfold F, reweighted_nll. fold o. rewrite st_len.
  change (sumf X (fun s => exp (dot (ising_obs (map IZR s)) (vec x)))) with (Zf x).
  assert (Zx := Zf_pos' x). unfold Rdiv. rewrite ln_mult, ln_Rinv, ln_pow by (try apply Rinv_0_lt_compat; auto; lra).
  assert (Ed : dot (vec c) (vec x) = ip P c x).
  { rewrite dot_ip by (unfold vec; now rewrite map_length, seq_length). apply ip_ext; [|reflexivity]. intros k Hk. unfold vec. now apply nthR_map_seq. }
  rewrite Ed. assert (dot (o s) (vec x) <= ln (Zf x)); [|unfold g in Hg; lra].
  rewrite <- (ln_exp (dot (o s) (vec x))). assert (Y : exp (dot (o s) (vec x)) <= Zf x).
  { apply (sumf_in_le X (fun s => exp (dot (o s) (vec x))) s); [intros; left; apply exp_pos|exact Hs]. }
  destruct Y as [Y|Y]; [left; apply ln_increasing; [apply exp_pos|exact Y]|right; now rewrite Y].
Qed.

Lemma nll_convex x y : F x + ip P (fun k => E x k - c k) (fun k => y k - x k) <= F y.
Proof using Hn.
  assert (Lc : length (vec c) = P) by (unfold vec; now rewrite map_length, seq_length).
  pose proof (F_convex X n (vec c) st_ne st_rows Lc x y) as C. unfold F.
  apply Rle_trans with (2 := C). right. f_equal. fold P. apply ip_ext; [|reflexivity]. intros k Hk. rewrite E_eq by exact Hk. unfold Zf, o, vec. do 2 f_equal.
  symmetry. now apply nthR_map_seq.
Qed.

Lemma F_zero : F (fun _ => 0) = 0.
Proof using Hn.
  assert (Lc : length (vec c) = P) by (unfold vec; now rewrite map_length, seq_length).
  pose proof (nll_zero X n (vec c) st_ne st_rows Lc) as Z. fold P in Z. unfold F. rewrite <- Z at 1. f_equal.
  unfold vec. apply (nth_ext _ _ 0 0); [now rewrite map_length, seq_length, repeat_length|]. intros k Hk. rewrite map_length, seq_length in Hk.
  fold (nthR (map (fun _ : nat => 0) (seq 0 P)) k). rewrite nthR_map_seq by exact Hk. symmetry. apply nth_repeat.
Qed.

Lemma solution_exists : exists x, nrm P x * om <= INR n * ln 2 /\ forall k, (k < P)%nat -> E x k = c k.
Proof using Hn Hom Hw W1.
  assert (HP : (0 < P)%nat) by (unfold P; lia). assert (PP := P_pos n HP). fold P in PP.
  assert (L2 : 0 < ln 2) by (rewrite <- ln_1; apply ln_increasing; lra). assert (Np : 0 < INR n) by (apply lt_0_INR; exact Hn).
  set (rho := INR n * ln 2 / om + 1). assert (B0 : 0 <= INR n * ln 2 / om) by (apply Rmult_le_pos; [nra|left; now apply Rinv_0_lt_compat]).
  assert (Hr : 0 < rho) by (unfold rho; lra).
  assert (Hrho : om * rho = INR n * ln 2 + om) by (unfold rho; field; lra).
  set (z := fun _ : nat => 0). set (R0 := norm1 z + sqrt (INR P) * rho).
  assert (MIN : forall x, (forall k, (k < P)%nat -> E x k = c k) -> nrm P x * om <= INR n * ln 2).
  { intros x Hx. pose proof (nll_convex x z) as C. unfold z in C at 2. rewrite F_zero in C.
    assert (Z : ip P (fun k => E x k - c k) (fun k => z k - x k) = 0).
    { unfold ip. apply sumf_zero. intros k Hk. apply in_seq in Hk. rewrite Hx by lia. ring. }
    rewrite Z in C. pose proof (nll_coercive x). lra. }
  destruct (zero_in_ball P (fun x k => E x k - c k) (INR P) (exp (- 2 * R0)) rho z PP (exp_pos _) Hr) as (x & _ & Gx).
  - intros x y. pose proof (co_E x y) as C.
    assert (Q : forall k, (k < P)%nat -> E y k - c k - (E x k - c k) = E y k - E x k) by (intros; ring).
    rewrite (ip_ext P _ _ _ _ Q Q), (ip_ext P (fun k => E y k - c k - (E x k - c k)) (fun k => y k - x k) _ (fun k => y k - x k) Q (fun k _ => eq_refl)). exact C.
  - intros x y Ix Iy.
    assert (Q : forall k, (k < P)%nat -> E y k - c k - (E x k - c k) = E y k - E x k) by (intros; ring).
    rewrite (ip_ext P (fun k => E y k - c k - (E x k - c k)) (fun k => y k - x k) _ (fun k => y k - x k) Q (fun k _ => eq_refl)).
    apply strong; apply norm1_near; assumption.
  - intros x Hx. pose proof (nll_convex x z) as C. unfold z in C at 2. rewrite F_zero in C. pose proof (nll_coercive x) as K.
    assert (Ex : nrm P x = rho) by (rewrite <- Hx; apply nrm_ext; intros; unfold z; ring). rewrite Ex, Hrho in K.
    replace (ip P (fun k => E x k - c k) (fun k => x k - z k)) with (- ip P (fun k => E x k - c k) (fun k => z k - x k))
      by (unfold ip; rewrite <- sumf_opp; apply sumf_ext; intros; ring). lra.
  - assert (H : forall k, (k < P)%nat -> E x k = c k) by (intros k Hk; specialize (Gx k Hk); cbn beta in Gx; lra).
    exists x. split; [now apply MIN|exact H].
Qed.
End Stable.

(** ** C98 *)
(** The generated functions of the -1,1 basis: two parameter vectors whose correlations
    differ by r differ by at most exp(2R) r, where R bounds the sums of their moduli, and
    the correlations differ by at most the number of parameters times the distance. *)
Theorem C98_stability : forall (n : nat) (p q : list R), let P := (n + n * (n - 1) / 2)%nat in
  (0 < n)%nat -> length p = P -> length q = P ->
  exp (- 2 * Rmax (sumf p Rabs) (sumf q Rabs)) * dist2 p q <= dist2 (file_observables n true p) (file_observables n true q) /\
  dist2 (file_observables n true p) (file_observables n true q) <= INR P * dist2 p q.
Proof.
  intros n p q P Hn Hp Hq. destruct (file_observables_ok n true q Hn Hq) as [Lq _]. fold P in Lq.
  rewrite (dist2_nrm n Hn p q Hq), (dist2_nrm n Hn _ _ Lq). fold P.
  set (v := fun k => nthR p k - nthR q k). set (u := fun k => nthR (file_observables n true p) k - nthR (file_observables n true q) k).
  set (R0 := Rmax (sumf p Rabs) (sumf q Rabs)).
  assert (PP : 0 < INR P) by (apply lt_0_INR; unfold P; lia).
  assert (S : exp (- 2 * R0) * ip P v v <= ip P u v).
  { pose proof (strong n Hn (nthR q) (nthR p) R0) as S. cbv beta in S. rewrite !(norm1_nthR n Hn) in S by assumption.
    specialize (S (Rmax_r _ _) (Rmax_l _ _)). rewrite (vec_nthR n Hn p Hp), (vec_nthR n Hn q Hq) in S. fold P in S. exact S. }
  assert (C : / INR P * ip P u u <= ip P u v).
  { pose proof (co_E n Hn (nthR q) (nthR p)) as C. cbv beta in C. rewrite (vec_nthR n Hn p Hp), (vec_nthR n Hn q Hq) in C. fold P in C. exact C. }
  pose proof (cauchy_schwarz P u v) as CS. rewrite <- nrm_sqr in S, C. assert (Nu := nrm_nonneg P u). assert (Nv := nrm_nonneg P v). split.
  - destruct Nv as [Nv|Nv]; [|rewrite <- Nv, Rmult_0_r; exact Nu]. apply (Rmult_le_reg_r (nrm P v)); [exact Nv|]. lra.
  - destruct Nu as [Nu|Nu]; [|rewrite <- Nu; apply Rmult_le_pos; lra]. apply (Rmult_le_reg_r (nrm P u)); [exact Nu|].
    assert (Q : nrm P u * nrm P u <= INR P * (nrm P u * nrm P v)).
    { apply (Rmult_le_reg_l (/ INR P)); [now apply Rinv_0_lt_compat|]. rewrite <- Rmult_assoc with (r2 := INR P), Rinv_l, Rmult_1_l by lra. lra. }
    lra.
Qed.
Print Assumptions C98_stability.

(** A returned parameter vector with a small residual certifies by itself that the
    constraints have an exact solution, that it is the only one, and that it is near: if
    residual times exp(2 (|params|_1 + sqrt P rho)) is below rho, it is closer than rho. *)
Theorem C98_certificate : forall (n : nat) (c params : list R) (rho : R), let P := (n + n * (n - 1) / 2)%nat in
  (0 < n)%nat -> length params = P -> length c = P -> 0 < rho ->
  dist2 (file_observables n true params) c * exp (2 * (sumf params Rabs + sqrt (INR P) * rho)) < rho ->
  exists q, length q = P /\ file_observables n true q = c /\ dist2 params q < rho /\
    forall q', length q' = P -> file_observables n true q' = c -> q' = q.
Proof.
  intros n c params rho P Hn Hp Hc Hr H. rewrite (dist2_nrm n Hn _ c Hc) in H. fold P in H.
  destruct (solution_near n Hn (nthR c) (nthR params) rho Hr) as (x & Nx & Ex).
  { cbv beta. rewrite (norm1_nthR n Hn) by assumption. rewrite (vec_nthR n Hn params Hp). fold P. exact H. }
  fold P in Nx, Ex. set (q := map x (seq 0 P)) in *. assert (Lq : length q = P) by (unfold q; now rewrite map_length, seq_length).
  assert (Hk : forall k, (k < P)%nat -> nthR q k = x k) by (intros k Hk; unfold q; now apply nthR_map_seq).
  destruct (file_observables_ok n true q Hn Lq) as [Lo _]. fold P in Lo.
  assert (Eq : file_observables n true q = c).
  { apply (nth_ext _ _ 0 0); [congruence|]. intros k Hk'. rewrite Lo in Hk'. exact (Ex k Hk'). }
  exists q. split; [exact Lq|]. split; [exact Eq|]. split.
  - rewrite (dist2_nrm n Hn params q Lq). fold P. rewrite (nrm_ext P _ (fun k => nthR params k - x k)) by (intros k Hk'; now rewrite Hk).
    rewrite nrm_opp_sub. exact Nx.
  - intros q' Lq' Eq'. apply (C60_unique n true); auto. congruence.
Qed.
Print Assumptions C98_certificate.

(** The certificate applies: with no parameters at all (zero), constraints off by 1/100
    for one spin mean have their solution closer than 1/10. *)
Example C98_example :
  dist2 (file_observables 1 true [0]) [/ 100] * exp (2 * (sumf [0] Rabs + sqrt (INR 1) * (/ 10))) < / 10 /\ dist2 (file_observables 1 true [0]) [/ 100] <> 0.
Proof.
  destruct (file_observables_ok 1 true [0] ltac:(lia) eq_refl) as [L H].
  assert (E0 : nthR (file_observables 1 true [0]) 0 = 0).
  { rewrite H by (cbn; lia). unfold expectation, boltzmann.
    assert (Zp : 0 < partition (ising_energy 1 [0]) (ising_states 1 true)) by (apply sumf_pos; [apply ising_states_ne|intros; apply exp_pos]).
    set (Z := partition (ising_energy 1 [0]) (ising_states 1 true)) in *. clearbody Z. unfold ising_states. cbn [all_states flat_map map app]. rewrite !sumf_cons, sumf_nil.
    assert (E1 : ising_energy 1 [0] [IZR 1] = 0) by (unfold ising_energy, sumf; cbn; ring).
    assert (E2 : ising_energy 1 [0] [IZR (-1)] = 0) by (unfold ising_energy, sumf; cbn; ring). rewrite E1, E2.
    unfold nthR, ising_obs. cbn. field. apply Rgt_not_eq, Zp. }
  assert (D : dist2 (file_observables 1 true [0]) [/ 100] = / 100).
  { unfold dist2. cbn [length seq]. rewrite sumf_cons, sumf_nil, E0. unfold nthR. cbn [nth].
    replace ((0 - / 100) * (0 - / 100) + 0) with (/ 100 * / 100) by field. apply sqrt_square. lra. }
  rewrite D. split; [|lra]. rewrite sumf_cons, sumf_nil, Rabs_R0. cbn [INR]. rewrite sqrt_1.
  assert (exp (2 * (0 + 0 + 1 * / 10)) < 10); [|lra].
  apply Rlt_trans with (exp 1); [apply exp_increasing; lra|]. pose proof exp_le_3. lra.
Qed.

(** ** C99 *)
Section Solvable.
Variables (n : nat) (c : list R).
Let P := (n + n * (n - 1) / 2)%nat.
Hypothesis Hn : (0 < n)%nat.
Hypothesis Hc : length c = P.

Lemma solvable_bound (w : list R -> R) om : 0 < om -> (forall s, In s (ising_states n true) -> om <= w s) -> sumf (ising_states n true) w = 1 ->
  (forall k, (k < P)%nat -> nthR c k = expectation w (ising_states n true) (fun s => nthR (ising_obs s) k)) ->
  exists q, length q = P /\ file_observables n true q = c /\ dist2 q (repeat 0 P) * om <= INR n * ln 2.
Proof using Hn Hc.
  intros Ho Hw W1 Hm.
  destruct (solution_exists n Hn (fun s => w (map IZR s)) om Ho) as (x & Nx & Ex).
  - intros s Hs. apply Hw. unfold ising_states. now apply in_map.
  - rewrite (st_sum n Hn). exact W1.
  - fold P in Nx, Ex. set (q := map x (seq 0 P)) in *. assert (Lq : length q = P) by (unfold q; now rewrite map_length, seq_length).
    destruct (file_observables_ok n true q Hn Lq) as [Lo _]. fold P in Lo. exists q. split; [exact Lq|]. split.
    + apply (nth_ext _ _ 0 0); [congruence|]. intros k Hk. rewrite Lo in Hk. fold (nthR (file_observables n true q) k) (nthR c k).
      rewrite (Ex k Hk), (Hm k Hk). unfold expectation. now rewrite <- (st_sum n Hn (fun s => w s * nthR (ising_obs s) k)).
    + rewrite (dist2_nrm n Hn q (repeat 0 P)) by apply repeat_length. fold P. rewrite (nrm_ext P _ x); [exact Nx|].
      intros k Hk. unfold q. rewrite nthR_map_seq by exact Hk. unfold nthR. rewrite nth_repeat. ring.
Qed.

(** The smallest of finitely many positive numbers. *)
Lemma least_positive {A} (l : list A) (w : A -> R) : (forall a, In a l -> 0 < w a) -> exists om, 0 < om /\ forall a, In a l -> om <= w a.
Proof using.
  induction l as [|a l IH]; intros H; [exists 1; split; [lra|intros b []]|]. destruct IH as (om & Ho & Hl); [intros; apply H; now right|].
  exists (Rmin (w a) om). split; [apply Rmin_glb_lt; [apply H; now left|exact Ho]|]. intros b [<-|Hb]; [apply Rmin_l|].
  apply Rle_trans with om; [apply Rmin_r|now apply Hl].
Qed.
End Solvable.

(** Exactly the means and pair correlations of distributions that give every state a
    positive probability are the correlations of some parameters. *)
Theorem C99_solvable : forall (n : nat) (c : list R), let P := (n + n * (n - 1) / 2)%nat in let states := ising_states n true in
  (0 < n)%nat -> length c = P ->
  (exists params, length params = P /\ file_observables n true params = c) <->
  (exists w : list R -> R, (forall s, In s states -> 0 < w s) /\ sumf states w = 1 /\
     (forall i, (i < n)%nat -> expectation w states (fun s => nthR s i) = nthR c i) /\
     (forall i j, (i < j)%nat -> (j < n)%nat -> expectation w states (fun s => nthR s i * nthR s j) = nthR c (n + pair_index n i j))).
Proof.
  intros n c P states Hn Hc.
  assert (Q : forall w : list R -> R, (forall k, (k < P)%nat -> nthR c k = expectation w states (fun s => nthR (ising_obs s) k)) <->
     ((forall i, (i < n)%nat -> expectation w states (fun s => nthR s i) = nthR c i) /\
      (forall i j, (i < j)%nat -> (j < n)%nat -> expectation w states (fun s => nthR s i * nthR s j) = nthR c (n + pair_index n i j)))).
  { intros w.
    assert (Q1 : forall i, (i < n)%nat -> expectation w states (fun s => nthR s i) = expectation w states (fun s => nthR (ising_obs s) i)).
    { intros i Hi. apply sumf_ext_in. intros s Hs. rewrite nthR_obs_field; [reflexivity|]. now rewrite (ising_states_length n true s Hs). }
    assert (Q2 : forall i j, (i < j)%nat -> (j < n)%nat -> expectation w states (fun s => nthR s i * nthR s j) = expectation w states (fun s => nthR (ising_obs s) (n + pair_index n i j))).
    { intros i j Hij Hj. apply sumf_ext_in. intros s Hs. pose proof (ising_states_length n true s Hs) as Ls.
      pose proof (nthR_obs_pair s i j Hij ltac:(lia)) as E. rewrite Ls in E. now rewrite E. }
    split.
    - intros H. split.
      + intros i Hi. rewrite Q1, H by (unfold P; lia). reflexivity.
      + intros i j Hij Hj. pose proof (pair_index_lt n i j Hij Hj). rewrite Q2, H by (unfold P; lia). reflexivity.
    - intros [A1 A2] k Hk. destruct (Nat.lt_ge_cases k n) as [Hkn|Hkn]; [now rewrite <- A1, Q1|].
      destruct (pair_index_nth n (k - n) ltac:(unfold P in Hk; lia)) as (Ek & Hij & Hj). set (p := nth (k - n) (pairs (seq 0 n)) (0%nat, 0%nat)) in *.
      replace k with (n + pair_index n (fst p) (snd p))%nat by lia. now rewrite <- A2, Q2. }
  split.
  - intros (params & Lp & E). exists (boltzmann (ising_energy n params) states).
    destruct (file_observables_ok n true params Hn Lp) as [_ H]. fold states in H. fold P in H.
    assert (Zp : 0 < partition (ising_energy n params) states) by (apply sumf_pos; [apply ising_states_ne|intros; apply exp_pos]).
    split; [intros s _; apply Rdiv_lt_0_compat; [apply exp_pos|exact Zp]|]. split; [unfold boltzmann; rewrite sumf_div; apply Rinv_r, Rgt_not_eq, Zp|].
    apply Q. intros k Hk. rewrite <- E. now apply H.
  - intros (w & Wp & W1 & M). destruct (least_positive states w Wp) as (om & Ho & Hl).
    destruct (solvable_bound n c Hn Hc w om Ho Hl W1) as (q & Lq & Eq & _); [now apply Q|]. now exists q.
Qed.
Print Assumptions C99_solvable.

(** Data in which every state occurs can always be fitted, by exactly one parameter
    vector, whose length is at most the number of rows times n ln 2. *)
Theorem C99_data : forall (n : nat) (rows : list (list Z)) (c : list R), let P := (n + n * (n - 1) / 2)%nat in
  (0 < n)%nat -> (forall r, In r rows <-> In r (all_states [-1; 1]%Z n)) -> length c = P ->
  (forall k, (k < P)%nat -> nthR c k = sumf rows (fun r => nthR (ising_obs (map IZR r)) k) / INR (length rows)) ->
  exists params, length params = P /\ dist2 params (repeat 0 P) <= INR (length rows) * (INR n * ln 2) /\
    (forall q, length q = P -> (enumerate_root_f (file_observables n true) None c q = Ok (map (fun _ => 0) c) <-> q = params)).
Proof.
  intros n rows c P Hn Hrows Hc Hm.
  set (St := all_states [-1; 1]%Z n). assert (NR : rows <> []).
  { intros E. pose proof (st_ne n Hn) as NE. destruct (all_states [-1; 1]%Z n) as [|s l] eqn:EX; [congruence|]. specialize (Hrows s). rewrite E in Hrows. destruct Hrows as [_ H]. destruct H. now left. }
  assert (Lr : 0 < INR (length rows)) by (apply lt_0_INR; destruct rows; [congruence|cbn; lia]).
  set (w := fun s : list R => sumf rows (fun r => if list_eq_dec Req_EM_T (map IZR r) s then 1 else 0) / INR (length rows)).
  assert (Wlow : forall s, In s (ising_states n true) -> / INR (length rows) <= w s).
  { intros s Hs. unfold ising_states in Hs. apply in_map_iff in Hs. destruct Hs as (z & <- & Hz). apply Hrows in Hz.
    unfold w, Rdiv. rewrite <- (Rmult_1_l (/ INR (length rows))) at 1. apply Rmult_le_compat_r; [left; now apply Rinv_0_lt_compat|].
    apply Rle_trans with ((fun r => if list_eq_dec Req_EM_T (map IZR r) (map IZR z) then 1 else 0) z).
    - cbn beta. destruct (list_eq_dec _ _ _); [lra|congruence].
    - apply (sumf_in_le rows (fun r => if list_eq_dec Req_EM_T (map IZR r) (map IZR z) then 1 else 0) z); [|exact Hz]. intros b _. destruct (list_eq_dec _ _ _); lra. }
  assert (ND : NoDup (ising_states n true)).
  { unfold ising_states. apply FinFun.Injective_map_NoDup.
    - intros a b H. revert b H. induction a as [|x a IH]; intros [|y b] H; cbn in H; try discriminate; [reflexivity|].
      assert (H1 : IZR x = IZR y) by congruence. apply eq_IZR in H1. f_equal; [exact H1|]. apply IH. congruence.
    - apply all_states_NoDup. constructor; [cbn; intros [H|[]]; discriminate|]. constructor; [intros []|constructor]. }
  assert (Ex : forall f : list R -> R, expectation w (ising_states n true) f = sumf rows (fun r => f (map IZR r)) / INR (length rows)).
  { intros f. unfold expectation, w.
    rewrite (sumf_ext _ _ (fun s => sumf rows (fun r => (if list_eq_dec Req_EM_T (map IZR r) s then 1 else 0) * f s) / INR (length rows))).
    - rewrite sumf_div, sumf_swap. f_equal. apply sumf_ext_in. intros r Hr. apply Hrows in Hr.
      assert (Hin : In (map IZR r) (ising_states n true)) by (unfold ising_states; now apply in_map).
      rewrite (sumf_ext _ _ (fun s => if list_eq_dec Req_EM_T (map IZR r) s then f s else 0)).
      + now apply (sumf_indic (list_eq_dec Req_EM_T)).
      + intros s. destruct (list_eq_dec _ _ s); ring.
    - intros s. rewrite sumf_scal_r. field. lra. }
  assert (W1 : sumf (ising_states n true) w = 1).
  { pose proof (Ex (fun _ => 1)) as E1. unfold expectation in E1. rewrite (sumf_ext _ w (fun s => w s * 1)) by (intros; ring). rewrite E1, sumf_const. field. lra. }
  assert (Il : 0 < / INR (length rows)) by now apply Rinv_0_lt_compat.
  destruct (solvable_bound n c Hn Hc w _ Il Wlow W1) as (q & Lq & Eq & Bq).
  { intros k Hk. now rewrite Hm, Ex. }
  exists q. split; [exact Lq|]. split.
  - apply (Rmult_le_reg_r (/ INR (length rows))); [exact Il|]. fold P in Bq. apply Rle_trans with (1 := Bq). right. field. lra.
  - intros q' Lq'. destruct (file_observables_ok n true q' Hn Lq') as [Lo _]. unfold enumerate_root_f. cbn [exceeds]. split.
    + intros H. apply vsub_zero in H; [|lia]. apply (C60_unique n true); auto. congruence.
    + intros ->. apply vsub_zero; [|exact Eq]. fold P in Lo. lia.
Qed.
Print Assumptions C99_data.

(** Expected: for every data set there are parameters with its means and correlations
    (solve can succeed).  If a spin, or the product of two spins, is the same in all rows,
    there are none: the error is at least exp(-2 R) where R is the sum of the moduli of the
    parameters, and the function handed to the minimiser is nowhere zero. *)
Theorem C99_degenerate_refuted : forall (n k : nat) (v : R) (rows : list (list Z)) (c params : list R) (max r : R), let P := (n + n * (n - 1) / 2)%nat in
  (0 < n)%nat -> rows <> [] -> length c = P -> length params = P -> (k < P)%nat -> v = 1 \/ v = -1 ->
  (forall row, In row rows -> nthR (ising_obs (map IZR row)) k = v) ->
  (forall k, (k < P)%nat -> nthR c k = sumf rows (fun r => nthR (ising_obs (map IZR r)) k) / INR (length rows)) ->
  exp (- 2 * sumf params Rabs) <= dist2 (file_observables n true params) c /\
  file_observables n true params <> c /\
  (enumerate_min_f (file_observables n true) (Some max) c params = Ok r -> exp (- 2 * (INR P * max)) <= r \/ r = 10 ^ 30).
Proof.
  intros n k v rows c params max r P Hn HR Hc Hp Hk Hv Hrow Hm.
  assert (Lr : 0 < INR (length rows)) by (apply lt_0_INR; destruct rows; [congruence|cbn; lia]).
  assert (Ck : nthR c k = v).
  { rewrite Hm by exact Hk. rewrite (sumf_ext_in rows _ (fun _ => v)) by exact Hrow. rewrite sumf_const. field. lra. }
  assert (X0 := st_ne n Hn). set (X := all_states [-1; 1]%Z n) in *.
  assert (P2 : 0 < 2 ^ n) by (apply pow_lt; lra).
  (* the observable averages to zero over all states *)
  assert (Z0 : sumf X (fun s => nthR (ising_obs (map IZR s)) k) = 0).
  { set (d := fun i => if Nat.eq_dec k i then 1 else 0).
    assert (D : forall s, In s X -> dot (ising_obs (map IZR s)) (map d (seq 0 P)) = nthR (ising_obs (map IZR s)) k).
    { intros s Hs. rewrite (dot_ip n Hn) by exact (o_len n Hn s Hs). unfold ip, d. fold P.
      rewrite (sumf_ext _ _ (fun i => if Nat.eq_dec k i then nthR (ising_obs (map IZR s)) i else 0)).
      - apply (sumf_indic Nat.eq_dec); [apply seq_NoDup|apply in_seq; lia].
      - intros i. destruct (Nat.eq_dec k i); ring. }
    pose proof (square_total n Hn d 1) as S1. pose proof (square_total n Hn d (-1)) as S2. cbv beta in S1, S2. fold P X in S1, S2.
    rewrite (sumf_ext_in X _ (fun s => (1 + nthR (ising_obs (map IZR s)) k) * (1 + nthR (ising_obs (map IZR s)) k))) in S1 by (intros s Hs; now rewrite D).
    rewrite (sumf_ext_in X _ (fun s => (-1 + nthR (ising_obs (map IZR s)) k) * (-1 + nthR (ising_obs (map IZR s)) k))) in S2 by (intros s Hs; now rewrite D).
    assert (S3 : sumf X (fun s => 4 * nthR (ising_obs (map IZR s)) k) = 0).
    { rewrite (sumf_ext X _ (fun s => (1 + nthR (ising_obs (map IZR s)) k) * (1 + nthR (ising_obs (map IZR s)) k) - (-1 + nthR (ising_obs (map IZR s)) k) * (-1 + nthR (ising_obs (map IZR s)) k))) by (intros; ring).
      rewrite sumf_minus, S1, S2. ring. }
    rewrite sumf_scal_l in S3. lra. }
  set (R0 := sumf params Rabs).
  assert (Gap : exp (- 2 * R0) <= Rabs (nthR (file_observables n true params) k - v)).
  { pose proof (E_eq n Hn (nthR params) k Hk) as EE. cbv beta in EE. rewrite (vec_nthR n Hn params Hp) in EE. fold P X in EE. rewrite EE.
    set (Z := sumf X (fun s => exp (dot (ising_obs (map IZR s)) params))) in *.
    assert (Zp : 0 < Z) by (apply sumf_pos; [exact X0|intros; apply exp_pos]).
    assert (Low : forall s, In s X -> exp (- 2 * R0) / 2 ^ n <= exp (dot (ising_obs (map IZR s)) params) / Z).
    { intros s Hs. pose proof (prob_low n Hn s (nthR params) R0 Hs) as L. cbv beta in L. rewrite (norm1_nthR n Hn), (vec_nthR n Hn params Hp) in L by assumption. apply L. unfold R0. lra. }
    assert (Bd : forall s, In s X -> Rabs (nthR (ising_obs (map IZR s)) k) <= 1) by (intros s Hs; exact (o_b n Hn s k Hs Hk)).
    assert (V2 : v * v = 1) by (destruct Hv as [-> | ->]; ring).
    assert (T : exp (- 2 * R0) <= 1 - v * (sumf X (fun s => exp (dot (ising_obs (map IZR s)) params) * nthR (ising_obs (map IZR s)) k) / Z)).
    { replace (1 - v * (sumf X (fun s => exp (dot (ising_obs (map IZR s)) params) * nthR (ising_obs (map IZR s)) k) / Z))
        with (sumf X (fun s => exp (dot (ising_obs (map IZR s)) params) / Z * (1 - v * nthR (ising_obs (map IZR s)) k))).
      - apply Rle_trans with (sumf X (fun s => exp (- 2 * R0) / 2 ^ n * (1 - v * nthR (ising_obs (map IZR s)) k))).
        + rewrite sumf_scal_l, sumf_minus, sumf_scal_l, Z0, sumf_const. unfold X. rewrite (st_len n Hn). right. field. lra.
        + apply sumf_le. intros s Hs. apply Rmult_le_compat_r; [|now apply Low]. pose proof (Bd s Hs) as B. apply Rabs_le_between in B. destruct Hv as [-> | ->]; lra.
      - rewrite (sumf_ext X _ (fun s => exp (dot (ising_obs (map IZR s)) params) / Z - v / Z * (exp (dot (ising_obs (map IZR s)) params) * nthR (ising_obs (map IZR s)) k))) by (intros; field; lra).
        rewrite sumf_minus, sumf_scal_l, sumf_div. fold Z. field. lra. }
    set (e := sumf X (fun s => exp (dot (ising_obs (map IZR s)) params) * nthR (ising_obs (map IZR s)) k) / Z) in *.
    apply Rle_trans with (1 := T). destruct Hv as [-> | ->].
    - rewrite Rabs_minus_sym. apply Rle_trans with (2 := Rle_abs _). lra.
    - apply Rle_trans with (2 := Rle_abs _). lra. }
  assert (A : exp (- 2 * R0) <= dist2 (file_observables n true params) c).
  { rewrite (dist2_nrm n Hn _ c Hc). fold P. apply Rle_trans with (1 := Gap). rewrite <- Ck.
    exact (coord_le P (fun k => nthR (file_observables n true params) k - nthR c k) k Hk). }
  destruct (file_observables_ok n true params Hn Hp) as [Lo _]. fold P in Lo.
  split; [exact A|]. split.
  - intros E. rewrite E in Gap. rewrite Ck, Rminus_diag_eq, Rabs_R0 in Gap by reflexivity. pose proof (exp_pos (- 2 * R0)). lra.
  - unfold enumerate_min_f. destruct (exceeds (Some max) params) eqn:Ex; intros H; [right; congruence|left].
    destruct (vsub (file_observables n true params) c) as [d|] eqn:Ed; cbn [bind] in H; [|discriminate].
    apply vnorm_vsub in Ed. assert (Er : r = dist2 (file_observables n true params) c) by (unfold vnorm in Ed; rewrite <- Ed; injection H as <-; now rewrite sumR_map).
    rewrite Er. apply Rle_trans with (2 := A).
    assert (RB : R0 <= INR P * max).
    { unfold R0. rewrite <- Hp, <- sumf_const. apply sumf_le. apply exceeds_spec. exact Ex. }
    destruct RB as [RB|RB]; [left; apply exp_increasing; lra|right; now rewrite RB].
Qed.
Print Assumptions C99_degenerate_refuted.

(** Two spins: data with all four states (one of them twice), which has a solution, and
    data in which the spins agree, which has none. *)
Example C99_example :
  (forall r, In r [[-1; -1]; [1; 1]; [-1; 1]; [1; -1]; [1; 1]]%Z <-> In r (all_states [-1; 1]%Z 2)) /\
  (forall k, (k < 3)%nat -> nthR [/ 5; / 5; / 5] k =
     sumf [[-1; -1]; [1; 1]; [-1; 1]; [1; -1]; [1; 1]]%Z (fun r => nthR (ising_obs (map IZR r)) k) / INR 5) /\
  (forall row, In row [[1; 1]; [-1; -1]; [1; 1]]%Z -> nthR (ising_obs (map IZR row)) 2 = 1).
Proof.
  split; [|split].
  - intros r. cbn. intuition.
  - intros k Hk. destruct k as [|[|[|k]]]; [| | |lia]; rewrite !sumf_cons, sumf_nil; unfold nthR; cbn; field.
  - intros row H. cbn in H. repeat (destruct H as [<-|H]; [unfold nthR; cbn; lra|]). destruct H.
Qed.
