(** * Exponential families over a finite list of states: convexity, smoothness and growth of the
    negative log likelihood. *)
From Coquelicot Require Import Coquelicot.
From Verif Require Import Prelude PreludeFacts P_Descent Props_MCHDescent.
Import ListNotations.
Local Open Scope R_scope.

Lemma some_in {A} (l : list A) : l <> [] -> exists a, In a l.
Proof. destruct l as [|a l]; intros H; [congruence|]. exists a. now left. Qed.

(** Jensen's inequality for the exponential function. *)
Lemma jensen_exp {S} (X : list S) (w a : S -> R) : (forall s, In s X -> 0 <= w s) -> sumf X w = 1 ->
  exp (sumf X (fun s => w s * a s)) <= sumf X (fun s => w s * exp (a s)).
Proof.
  intros Hw H1. set (m := sumf X (fun s => w s * a s)).
  apply Rle_trans with (sumf X (fun s => w s * (exp m * (1 + (a s - m))))).
  - right. rewrite (sumf_ext X _ (fun s => w s * (exp m * (1 - m)) + exp m * (w s * a s))) by (intros; ring).
    rewrite sumf_plus, sumf_scal_r, sumf_scal_l, H1. fold m. ring.
  - apply sumf_le. intros s Hs. apply Rmult_le_compat_l; [now apply Hw|].
    replace (exp (a s)) with (exp m * exp (a s - m)) by (rewrite <- exp_plus; f_equal; ring).
    apply Rmult_le_compat_l; [left; apply exp_pos|apply exp_ineq1_le].
Qed.

(** A function with mean zero and a large mean square is large somewhere. *)
Lemma mean_zero_big {S} (X : list S) (w g : S -> R) om N : X <> [] -> 0 < om -> 0 <= N -> (forall s, In s X -> om <= w s) -> sumf X w = 1 ->
  sumf X (fun s => w s * g s) = 0 -> INR (length X) * (N * N) <= sumf X (fun s => g s * g s) ->
  exists s, In s X /\ om * N <= g s.
Proof.
  intros HX Hom HN Hw W1 W0 Sq. set (t := om * N).
  assert (Om1 : om <= 1).
  { destruct (some_in X HX) as [s0 H0]. rewrite <- W1. apply Rle_trans with (w s0); [now apply Hw|].
    apply (sumf_in_le X w s0); [|exact H0]. intros b Hb. pose proof (Hw b Hb). lra. }
  destruct (existsb (fun s => if Rle_dec t (g s) then true else false) X) eqn:Ex.
  { apply existsb_exists in Ex. destruct Ex as (s & Hs & Hd). exists s. split; [exact Hs|]. now destruct (Rle_dec t (g s)). }
  exfalso. assert (Lt : forall s, In s X -> g s < t).
  { intros s Hs. apply Rnot_le_lt. intros Hle. assert (Tr : existsb (fun s => if Rle_dec t (g s) then true else false) X = true); [|congruence].
    apply existsb_exists. exists s. split; [exact Hs|]. now destruct (Rle_dec t (g s)). }
  destruct (existsb (fun s => if Rle_dec (g s) (- N) then true else false) X) eqn:Ex2.
  - apply existsb_exists in Ex2. destruct Ex2 as (s & Hs & Hd). destruct (Rle_dec (g s) (- N)) as [Hd'|]; [|discriminate].
    assert (T1 : sumf X (fun s => w s * (t - g s)) = t).
    { rewrite (sumf_ext X _ (fun s => w s * t - w s * g s)) by (intros; ring). rewrite sumf_minus, sumf_scal_r, W1, W0. ring. }
    assert (T2 : w s * (t - g s) <= t).
    { rewrite <- T1 at 2. apply (sumf_in_le X (fun s => w s * (t - g s)) s); [|exact Hs]. intros b Hb. pose proof (Hw b Hb). pose proof (Lt b Hb). apply Rmult_le_pos; lra. }
    pose proof (Hw s Hs) as Hws. pose proof (Lt s Hs) as Ls.
    assert (H1 : om * (t - g s) <= t) by (apply Rle_trans with (2 := T2); apply Rmult_le_compat_r; lra).
    assert (H2 : om * (t + N) <= om * (t - g s)) by (apply Rmult_le_compat_l; lra).
    assert (Et : om * N = t) by reflexivity. rewrite Rmult_plus_distr_l, Et in H2.
    assert (H3 : om * t <= 0) by lra. assert (Tp : 0 <= t) by (rewrite <- Et; apply Rmult_le_pos; lra).
    assert (T0 : t = 0) by nra. assert (om * (t - g s) <= 0) by lra. assert (0 < om * (t - g s)) by (apply Rmult_lt_0_compat; lra). lra.
  - assert (Gt : forall s, In s X -> - N < g s).
    { intros s Hs. apply Rnot_le_lt. intros Hle. assert (Tr : existsb (fun s => if Rle_dec (g s) (- N) then true else false) X = true); [|congruence].
      apply existsb_exists. exists s. split; [exact Hs|]. now destruct (Rle_dec (g s) (- N)). }
    assert (U : 0 < sumf X (fun s => N * N - g s * g s)).
    { apply sumf_pos; [exact HX|]. intros s Hs. pose proof (Lt s Hs). pose proof (Gt s Hs). assert (t <= N) by (unfold t; nra). nra. }
    rewrite sumf_minus, sumf_const in U. lra.
Qed.

Section Family.
Variables (S : Type) (X : list S) (P : nat) (o : S -> nat -> R).
Hypothesis HX : X <> [].
Hypothesis Ho : forall s k, In s X -> (k < P)%nat -> Rabs (o s k) <= 1.

Definition fam_Z (x : nat -> R) : R := sumf X (fun s => exp (ip P (o s) x)).
Definition fam_E (x : nat -> R) (k : nat) : R := sumf X (fun s => exp (ip P (o s) x) / fam_Z x * o s k).
Definition fam_F (c x : nat -> R) : R := ln (fam_Z x) - ip P c x.

Lemma fam_Z_pos x : 0 < fam_Z x.
Proof using HX. apply sumf_pos; [exact HX|intros; apply exp_pos]. Qed.

Variable c : nat -> R.

Section Two.
Variables x y : nat -> R.
Let v := fun k => y k - x k.
Let a := fun s => ip P (o s) v.
Let w := fun s => exp (ip P (o s) x) / fam_Z x.

Lemma w_nonneg s : 0 <= w s.
Proof using HX. left. apply Rdiv_lt_0_compat; [apply exp_pos|apply fam_Z_pos]. Qed.

Lemma w_sum : sumf X w = 1.
Proof using HX. unfold w. rewrite sumf_div. apply Rinv_r. apply Rgt_not_eq, fam_Z_pos. Qed.

Lemma fam_split : fam_F c y = fam_F c x + ln (sumf X (fun s => w s * exp (a s))) - ip P c v.
Proof using HX.
  assert (Zx := fam_Z_pos x). assert (EZ : fam_Z y = fam_Z x * sumf X (fun s => w s * exp (a s))).
  { rewrite <- sumf_scal_l. unfold fam_Z at 1. apply sumf_ext. intros s.
    replace (ip P (o s) y) with (ip P (o s) x + a s) by (unfold a, v, ip; rewrite <- sumf_plus; apply sumf_ext; intros; ring).
    rewrite exp_plus. unfold w. field. lra. }
  assert (Wp : 0 < sumf X (fun s => w s * exp (a s))).
  { pose proof (fam_Z_pos y) as Zy. rewrite EZ in Zy. nra. }
  unfold fam_F. rewrite EZ, ln_mult by assumption.
  replace (ip P c y) with (ip P c x + ip P c v) by (unfold v, ip; rewrite <- sumf_plus; apply sumf_ext; intros; ring). ring.
Qed.

Lemma fam_dir : ip P (fun k => fam_E x k - c k) v = sumf X (fun s => w s * a s) - ip P c v.
Proof using HX.
  unfold a. rewrite (sumf_ext X _ (fun s => sumf (seq 0 P) (fun k => w s * o s k * v k))).
  - rewrite sumf_swap. unfold ip. rewrite <- sumf_minus. apply sumf_ext. intros k. rewrite sumf_scal_r. change (sumf X (fun s => w s * o s k)) with (fam_E x k). ring.
  - intros s. unfold ip. rewrite <- sumf_scal_l. apply sumf_ext. intros; ring.
Qed.

Lemma fam_convex : fam_F c x + ip P (fun k => fam_E x k - c k) (fun k => y k - x k) <= fam_F c y.
Proof using HX.
  fold v. rewrite fam_split, fam_dir. pose proof (jensen_exp X w a (fun s _ => w_nonneg s) w_sum) as J.
  set (m := sumf X (fun s => w s * a s)) in *. assert (m <= ln (sumf X (fun s => w s * exp (a s)))); [|lra].
  rewrite <- (ln_exp m) at 1. destruct J as [J|J]; [left; apply ln_increasing; [apply exp_pos|exact J]|right; now rewrite J].
Qed.

Lemma fam_smooth : fam_F c y <= fam_F c x + ip P (fun k => fam_E x k - c k) (fun k => y k - x k) + INR P / 2 * ip P (fun k => y k - x k) (fun k => y k - x k).
Proof using HX Ho.
  fold v. rewrite fam_split, fam_dir. set (A := sumf (seq 0 P) (fun k => Rabs (v k))).
  assert (HA : 0 <= A) by (apply sumf_nonneg; intros; apply Rabs_pos).
  assert (Ha : forall s, In s X -> - A <= a s <= A).
  { intros s Hs. apply Rabs_le_between. unfold a, ip. apply Rle_trans with (1 := sumf_abs_le _ _). apply sumf_le. intros k Hk. apply in_seq in Hk.
    rewrite Rabs_mult. pose proof (Ho s k Hs ltac:(lia)) as B. rewrite <- (Rmult_1_l (Rabs (v k))) at 2. apply Rmult_le_compat_r; [apply Rabs_pos|exact B]. }
  pose proof (hoeffding X w a A (fun s _ => w_nonneg s) w_sum HA Ha) as Hh.
  assert (AA : A * A <= INR P * ip P v v).
  { unfold A. apply Rle_trans with (1 := square_sum _ _). rewrite seq_length. right. f_equal. unfold ip. apply sumf_ext. intros k.
    rewrite <- Rabs_mult. apply Rabs_pos_eq, Rle_0_sqr. }
  lra.
Qed.
End Two.

Lemma fam_coco x y : 0 < INR P -> / INR P * ip P (fun k => fam_E y k - fam_E x k) (fun k => fam_E y k - fam_E x k) <= ip P (fun k => fam_E y k - fam_E x k) (fun k => y k - x k).
Proof using HX Ho c.
  intros HP. pose proof (gd_coercive P (fam_F c) (fun x k => fam_E x k - c k) (INR P) HP fam_convex fam_smooth x y) as C. cbv beta in C.
  replace (ip P (fun k => fam_E y k - c k - (fam_E x k - c k)) (fun k => fam_E y k - c k - (fam_E x k - c k))) with (ip P (fun k => fam_E y k - fam_E x k) (fun k => fam_E y k - fam_E x k)) in C by (unfold ip; apply sumf_ext; intros; ring).
  replace (ip P (fun k => fam_E y k - c k - (fam_E x k - c k)) (fun k => y k - x k)) with (ip P (fun k => fam_E y k - fam_E x k) (fun k => y k - x k)) in C by (unfold ip; apply sumf_ext; intros; ring).
  exact C.
Qed.

(** If c are the moments of weights of at least om, the negative log likelihood grows with the
    spread of the exponent over the states. *)
Lemma fam_growth (wt : S -> R) om x N : 0 < om -> 0 <= N -> (forall s, In s X -> om <= wt s) -> sumf X wt = 1 ->
  (forall k, (k < P)%nat -> c k = sumf X (fun s => wt s * o s k)) ->
  (forall b, INR (length X) * (N * N) <= sumf X (fun s => (b + ip P (o s) x) * (b + ip P (o s) x))) ->
  om * N <= fam_F c x.
Proof using HX.
  intros Hom HN Hw W1 Hc Sp. set (g := fun s => - ip P c x + ip P (o s) x).
  assert (W0 : sumf X (fun s => wt s * g s) = 0).
  { rewrite (sumf_ext X _ (fun s => wt s * (- ip P c x) + sumf (seq 0 P) (fun k => wt s * o s k * x k))).
    - rewrite sumf_plus, sumf_scal_r, W1, sumf_swap. unfold ip. rewrite Rmult_1_l, Rplus_comm. apply Rminus_diag_eq. apply sumf_ext_in. intros k Hk. apply in_seq in Hk.
      rewrite sumf_scal_r. f_equal. symmetry. apply Hc. lia.
    - intros s. unfold g. rewrite Rmult_plus_distr_l. f_equal. unfold ip. rewrite <- sumf_scal_l. apply sumf_ext. intros; ring. }
  destruct (mean_zero_big X wt g om N HX Hom HN Hw W1 W0 (Sp (- ip P c x))) as (s & Hs & Hg).
  unfold fam_F. assert (ip P (o s) x <= ln (fam_Z x)); [|unfold g in Hg; lra].
  rewrite <- (ln_exp (ip P (o s) x)). assert (Y : exp (ip P (o s) x) <= fam_Z x).
  { apply (sumf_in_le X (fun s => exp (ip P (o s) x)) s); [intros; left; apply exp_pos|exact Hs]. }
  destruct Y as [Y|Y]; [left; apply ln_increasing; [apply exp_pos|exact Y]|right; now rewrite Y].
Qed.
End Family.
