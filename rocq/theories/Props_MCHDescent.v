(** * Property theorem C97: learning from one sample never makes the fit worse if the
    learning rate is small. *)
From Coquelicot Require Import Coquelicot.
From Verif Require Import Prelude Spec PreludeFacts M_Corr M_Params M_Energy M_Models M_MCH P_Params P_Energy P_Energy2 P_Corr P_Corr2
  P_Models P_MPF P_MCH P_Convert P_Descent Props_Corr Props_Models Props_MCH.
Import ListNotations.
Local Open Scope R_scope.

Lemma square_sum {A} (l : list A) (u : A -> R) : sumf l u * sumf l u <= INR (length l) * sumf l (fun a => u a * u a).
Proof.
  induction l as [|a l IH]; [rewrite !sumf_nil; cbn; lra|]. rewrite !sumf_cons. cbn [length]. rewrite S_INR.
  assert (H : 0 <= sumf l (fun b => (u a - u b) * (u a - u b))) by (apply sumf_nonneg; intros b _; exact (Rle_0_sqr (u a - u b))).
  assert (E : sumf l (fun b => (u a - u b) * (u a - u b)) = INR (length l) * (u a * u a) - 2 * u a * sumf l u + sumf l (fun b => u b * u b)).
  { rewrite <- sumf_const, <- sumf_scal_l, <- sumf_minus, <- sumf_plus. apply sumf_ext. intros; ring. }
  rewrite E in H. nra.
Qed.

Lemma last_start {A} (l : list A) : forall a d, last (a :: l) d = last l a.
Proof. induction l as [|b l IH]; intros a d; [reflexivity|]. change (last (b :: l) d = last (b :: l) a). now rewrite !IH. Qed.

Section Descent.
Variables (X : list (list Z)) (N : nat) (c : list R).
Let P := (N + N * (N - 1) / 2)%nat.
Hypothesis HX : X <> [].
Hypothesis HS : spin_rows X N.
Hypothesis Hc : length c = P.
Let o (s : list Z) : list R := ising_obs (map IZR s).
Let vec (x : nat -> R) : list R := map x (seq 0 P).
Let Zf (x : nat -> R) : R := sumf X (fun s => exp (dot (o s) (vec x))).
Let F (x : nat -> R) : R := reweighted_nll X N c (vec x).
Let G (x : nat -> R) (k : nat) : R := sumf X (fun s => exp (dot (o s) (vec x)) * nthR (o s) k) / Zf x - nthR c k.

Lemma vec_length x : length (vec x) = P.
Proof using. unfold vec. now rewrite map_length, seq_length. Qed.

Lemma vec_nth x k : (k < P)%nat -> nthR (vec x) k = x k.
Proof using. intros H. unfold vec. now apply nthR_map_seq. Qed.

Lemma vec_list d : length d = P -> vec (nthR d) = d.
Proof using.
  intros H. apply (nth_ext _ _ 0 0); [now rewrite vec_length|]. intros k Hk. rewrite vec_length in Hk. fold (nthR (vec (nthR d)) k) (nthR d k).
  now apply vec_nth.
Qed.

Lemma Zf_pos x : 0 < Zf x.
Proof using HX. apply sumf_pos; [exact HX|intros; apply exp_pos]. Qed.

Lemma o_length s : In s X -> length (o s) = P.
Proof using HS. intros Hs. exact (obs_len N X s HS Hs). Qed.

Lemma dot_vec v x : length v = P -> dot v (vec x) = ip P (nthR v) x.
Proof using Hc.
  intros Hv. rewrite (dot_seq v (vec x) P) by (auto; apply vec_length). apply sumf_ext_in. intros k Hk. apply in_seq in Hk. now rewrite vec_nth by lia.
Qed.

Lemma o_bound s k : In s X -> (k < P)%nat -> -1 <= nthR (o s) k <= 1.
Proof using HS.
  intros Hs Hk. apply (ising_obs_row_bounds X s N k); [|exact Hs|now apply HS|exact Hk]. intros r Hr. apply HS, Hr.
Qed.

Lemma est_G d e k : length d = P -> mch_approximation X N d = Ok e -> (k < P)%nat -> nthR e k - nthR c k = G (nthR d) k.
Proof using HX HS Hc.
  intros Hd He Hk. destruct (mch_est X N d HX HS Hd) as (e' & E & _ & H). rewrite He in E. injection E as <-.
  unfold G, Zf. rewrite vec_list by assumption. now rewrite H by lia.
Qed.

Lemma F_convex x y : F x + ip P (G x) (fun k => y k - x k) <= F y.
Proof using HX HS Hc.
  destruct (C67_convex X N c (vec x) (vec y) HX HS (vec_length x)) as (e & E & H); [rewrite vec_length; exact Hc|now rewrite !vec_length|].
  rewrite vec_length in H. unfold F. apply Rle_trans with (2 := H). right. f_equal. apply sumf_ext_in. intros k Hk. apply in_seq in Hk.
  rewrite !vec_nth by lia. f_equal. rewrite (est_G (vec x) e k (vec_length x) E) by lia. unfold G, Zf. now rewrite (vec_list (vec x) (vec_length x)).
Qed.

Lemma F_smooth x y : F y <= F x + ip P (G x) (fun k => y k - x k) + INR P / 2 * ip P (fun k => y k - x k) (fun k => y k - x k).
Proof using HX HS Hc.
  set (v := fun k => y k - x k). set (a := fun s => ip P (nthR (o s)) v). set (w := fun s => exp (dot (o s) (vec x)) / Zf x).
  assert (Zp := Zf_pos x). assert (Np : 0 < INR (length X)) by (apply lt_0_INR; destruct X; [congruence|cbn; lia]).
  assert (Dd : forall u, length u = P -> dot u (vec y) = dot u (vec x) + ip P (nthR u) v).
  { intros u Hu. rewrite !dot_vec by assumption. unfold ip, v. rewrite <- sumf_plus. apply sumf_ext. intros; ring. }
  set (A := sumf (seq 0 P) (fun k => Rabs (v k))).
  assert (HA : 0 <= A) by (apply sumf_nonneg; intros; apply Rabs_pos).
  assert (Ha : forall s, In s X -> - A <= a s <= A).
  { intros s Hs. apply Rabs_le_between. unfold a, ip. apply Rle_trans with (1 := sumf_abs_le _ _). apply sumf_le. intros k Hk. apply in_seq in Hk.
    rewrite Rabs_mult. pose proof (o_bound s k Hs ltac:(lia)) as B. apply Rabs_le_between in B. rewrite <- (Rmult_1_l (Rabs (v k))) at 2. apply Rmult_le_compat_r; [apply Rabs_pos|exact B]. }
  assert (Hw : forall s, In s X -> 0 <= w s) by (intros s _; left; apply Rdiv_lt_0_compat; [apply exp_pos|assumption]).
  assert (W1 : sumf X w = 1) by (unfold w; rewrite sumf_div; apply Rinv_r; apply Rgt_not_eq, Zp).
  pose proof (hoeffding X w a A Hw W1 HA Ha) as Hh.
  assert (AA : A * A <= INR P * ip P v v).
  { unfold A. apply Rle_trans with (1 := square_sum _ _). rewrite seq_length. right. f_equal. unfold ip. apply sumf_ext. intros k.
    rewrite <- Rabs_mult. apply Rabs_pos_eq, Rle_0_sqr. }
  assert (EZ : Zf y = Zf x * sumf X (fun s => w s * exp (a s))).
  { rewrite <- sumf_scal_l. unfold Zf at 1. apply sumf_ext_in. intros s Hs. rewrite Dd by now apply o_length. rewrite exp_plus. unfold w, a. field. lra. }
  assert (Wp : 0 < sumf X (fun s => w s * exp (a s))).
  { pose proof (Zf_pos y) as Zy. rewrite EZ in Zy. nra. }
  assert (EF : F y = F x + ln (sumf X (fun s => w s * exp (a s))) - ip P (nthR c) v).
  { unfold F, reweighted_nll. fold o. change (sumf X (fun s => exp (dot (ising_obs (map IZR s)) (vec y)))) with (Zf y).
    change (sumf X (fun s => exp (dot (ising_obs (map IZR s)) (vec x)))) with (Zf x).
    rewrite EZ, (Dd c Hc). replace (Zf x * sumf X (fun s => w s * exp (a s)) / INR (length X)) with (Zf x / INR (length X) * sumf X (fun s => w s * exp (a s))) by (field; lra).
    rewrite ln_mult; [ring|apply Rdiv_lt_0_compat; assumption|assumption]. }
  assert (EG : ip P (G x) v = sumf X (fun s => w s * a s) - ip P (nthR c) v).
  { unfold G, a, w. unfold ip at 1 3. rewrite (sumf_ext X _ (fun s => sumf (seq 0 P) (fun k => exp (dot (o s) (vec x)) / Zf x * (nthR (o s) k * v k)))).
    - rewrite sumf_swap, <- sumf_minus. apply sumf_ext. intros k.
      replace (sumf X (fun s => exp (dot (o s) (vec x)) / Zf x * (nthR (o s) k * v k))) with (sumf X (fun s => exp (dot (o s) (vec x)) * nthR (o s) k) * (v k / Zf x)).
      + field. lra.
      + rewrite <- sumf_scal_r. apply sumf_ext. intros s. field. lra.
    - intros s. unfold ip. now rewrite sumf_scal_l. }
  rewrite EF, EG. lra.
Qed.

Lemma nll_zero : reweighted_nll X N c (repeat 0 P) = 0.
Proof using HX HS Hc.
  unfold reweighted_nll. assert (Z : forall v, dot v (repeat 0 P) = 0) by (intros; apply dot_repeat0). rewrite Z.
  rewrite (sumf_ext X _ (fun _ => 1)) by (intros; rewrite Z; apply exp_0). rewrite sumf_const.
  assert (Np : 0 < INR (length X)) by (apply lt_0_INR; destruct X; [congruence|cbn; lia]).
  replace (INR (length X) * 1 / INR (length X)) with 1 by (field; lra). rewrite ln_1. ring.
Qed.

Lemma approx_zero : exists e, mch_approximation X N (repeat 0 P) = Ok e /\ length e = P /\
  forall k, (k < P)%nat -> nthR e k = sumf X (fun s => nthR (o s) k) / INR (length X).
Proof using HX HS Hc.
  destruct (mch_est X N (repeat 0 P) HX HS (repeat_length _ _)) as (e & E & L & H). rewrite repeat_length in *. exists e. split; [exact E|]. split; [exact L|].
  intros k Hk. rewrite H by assumption. assert (Z : forall s, exp (dot (ising_obs (map IZR s)) (repeat 0 P)) = 1) by (intros; rewrite dot_repeat0; apply exp_0).
  f_equal.
  - apply sumf_ext. intros s. rewrite Z. unfold o. ring.
  - rewrite (sumf_ext X _ (fun _ => 1)) by (intros; apply Z). rewrite sumf_const. ring.
Qed.

Lemma nll_below (w : list Z -> R) d : (forall s, In s X -> 0 <= w s) -> sumf X w = 1 ->
  (forall k, (k < P)%nat -> nthR c k = sumf X (fun s => w s * nthR (o s) k)) -> length d = P ->
  - ln (INR (length X)) <= reweighted_nll X N c d.
Proof using HX HS Hc.
  intros Hw W1 Hcw Hd. unfold reweighted_nll. set (Z := sumf X (fun s => exp (dot (ising_obs (map IZR s)) d))).
  assert (Np : 0 < INR (length X)) by (apply lt_0_INR; destruct X; [congruence|cbn; lia]).
  assert (Zp : 0 < Z) by (apply sumf_pos; [exact HX|intros; apply exp_pos]).
  unfold Rdiv. rewrite ln_mult, ln_Rinv by (auto; now apply Rinv_0_lt_compat).
  assert (Q : dot c d <= ln Z); [|lra].
  replace (dot c d) with (sumf X (fun s => w s * dot (o s) d)).
  - replace (ln Z) with (sumf X (fun s => w s * ln Z)) by (rewrite sumf_scal_r, W1; ring). apply sumf_le. intros s Hs. apply Rmult_le_compat_l; [auto|].
    rewrite <- (ln_exp (dot (o s) d)). assert (Y : exp (dot (o s) d) <= Z).
    { apply (sumf_in_le X (fun s => exp (dot (ising_obs (map IZR s)) d)) s); [intros; left; apply exp_pos|exact Hs]. }
    destruct Y as [Y|Y]; [left; apply ln_increasing; [apply exp_pos|exact Y]|right; now rewrite Y].
  - rewrite (dot_seq c d P Hc Hd). rewrite (sumf_ext_in X _ (fun s => sumf (seq 0 P) (fun k => w s * nthR (o s) k * nthR d k))).
    + rewrite sumf_swap. apply sumf_ext_in. intros k Hk. apply in_seq in Hk. rewrite Hcw by lia. now rewrite sumf_scal_r.
    + intros s Hs. rewrite (dot_seq (o s) d P (o_length s Hs) Hd), <- sumf_scal_l. apply sumf_ext. intros; ring.
Qed.
Hypothesis HP : (0 < P)%nat.
Lemma P_pos : 0 < INR P.
Proof using HP. apply lt_0_INR, HP. Qed.

Lemma dist2_ip d e : length d = P -> length e = P -> mch_approximation X N d = Ok e -> dist2 e c * dist2 e c = ip P (G (nthR d)) (G (nthR d)).
Proof using HX HS Hc HP.
  intros Hd He E. unfold dist2. rewrite sqrt_sqrt by (apply sumf_nonneg; intros k _; exact (Rle_0_sqr (nthR e k - nthR c k))). rewrite Hc. apply sumf_ext_in. intros k Hk. apply in_seq in Hk.
  now rewrite (est_G d e k Hd E) by lia.
Qed.

Lemma dist2_nonneg e : 0 <= dist2 e c.
Proof using. apply sqrt_pos. Qed.

Variable eta : R.
Hypothesis Heta : 0 < eta.
Hypothesis Hrate : eta * INR P <= 1.

Lemma step_descent d e dist d' e' : length d = P -> length e = P -> mch_approximation X N d = Ok e -> 0 <= dist ->
  learn_step (mch_approximation X N) c eta d e dist d' e' ->
  reweighted_nll X N c d' <= reweighted_nll X N c d - eta / 2 * Rmin dist 1 * (dist2 e c * dist2 e c) /\ dist2 e' c <= dist2 e c.
Proof using HX HS Hc HP Heta Hrate.
  intros Hd He E Hdist (L1 & L2 & E' & St). rewrite Hc in *. set (s := eta * Rmin dist 1).
  assert (M1 : 0 <= Rmin dist 1 <= 1) by (split; [apply Rmin_glb; lra|apply Rmin_r]).
  assert (Hs : 0 <= s) by (apply Rmult_le_pos; lra). assert (PP := P_pos).
  assert (HPs : INR P * s <= 1) by (unfold s; nra).
  assert (Ed : d' = vec (fun k => nthR d k - s * G (nthR d) k)).
  { apply (nth_ext _ _ 0 0); [rewrite vec_length; exact L1|]. intros k Hk. rewrite L1 in Hk. fold (nthR d' k).
    fold (nthR (vec (fun k => nthR d k - s * G (nthR d) k)) k). rewrite vec_nth by assumption. rewrite St by assumption.
    rewrite <- (est_G d e k Hd E Hk). reflexivity. }
  split.
  - pose proof (gd_descent P F G (INR P) F_smooth (nthR d) s) as D. unfold F in D. rewrite <- Ed, (vec_list d Hd), <- (dist2_ip d e Hd He E) in D.
    assert (Q := Rle_0_sqr (dist2 e c)). unfold Rsqr in Q.
    assert (K : s / 2 * (dist2 e c * dist2 e c) <= s * (1 - INR P * s / 2) * (dist2 e c * dist2 e c)) by (apply Rmult_le_compat_r; [exact Q|nra]).
    replace (eta / 2 * Rmin dist 1) with (s / 2) by (unfold s; field). lra.
  - destruct Hs as [Hs|Hs].
    + pose proof (gd_gradient P F G (INR P) PP F_convex F_smooth (nthR d) s Hs ltac:(lra)) as D. rewrite <- (dist2_ip d e Hd He E) in D.
      assert (EG : forall k, (k < P)%nat -> G (fun k => nthR d k - s * G (nthR d) k) k = G (nthR d') k).
      { intros k Hk. unfold G, Zf. rewrite (vec_list d' L1). rewrite Ed. reflexivity. }
      assert (EI : ip P (G (fun k => nthR d k - s * G (nthR d) k)) (G (fun k => nthR d k - s * G (nthR d) k)) = dist2 e' c * dist2 e' c).
      { rewrite (dist2_ip d' e' L1 L2 E'). unfold ip. apply sumf_ext_in. intros k Hk. apply in_seq in Hk. now rewrite !EG by lia. }
      rewrite EI in D. pose proof (dist2_nonneg e). pose proof (dist2_nonneg e'). apply Rsqr_incr_0; assumption.
    + assert (Ee : d' = d).
      { apply (nth_ext _ _ 0 0); [congruence|]. intros k Hk. rewrite L1 in Hk. fold (nthR d' k) (nthR d k). rewrite St by assumption. fold s. rewrite <- Hs. ring. }
      rewrite Ee, E in E'. injection E' as E'. rewrite E'. lra.
Qed.

Lemma trace_descent tr : forall d e dist, length d = P -> length e = P -> mch_approximation X N d = Ok e -> 0 <= dist ->
  learn_trace (mch_approximation X N) c eta d e dist tr -> let r := last tr (d, e) in
  mch_approximation X N (fst r) = Ok (snd r) /\ length (fst r) = P /\
  dist2 (snd r) c <= dist2 e c /\
  reweighted_nll X N c (fst r) <= reweighted_nll X N c d - INR (length tr) * (eta / 2) * Rmin (Rmin dist (dist2 (snd r) c)) 1 * (dist2 (snd r) c * dist2 (snd r) c).
Proof using HX HS Hc HP Heta Hrate.
  induction tr as [|[d' e'] tr IH]; intros d e dist Hd He E Hdist T; cbn zeta.
  - cbn [last fst snd length]. change (INR 0) with 0. repeat split; auto; lra.
  - destruct T as [St T]. destruct (step_descent d e dist d' e' Hd He E Hdist St) as [A B]. destruct St as (L1 & L2 & E' & _). rewrite Hc in L1, L2.
    destruct (IH d' e' (dist2 e' c) L1 L2 E' (dist2_nonneg e') T) as (I1 & I2 & I3 & I4).
    assert (EL : last ((d', e') :: tr) (d, e) = last tr (d', e')) by apply last_start.
    rewrite EL. set (r := last tr (d', e')) in *. split; [exact I1|]. split; [exact I2|]. split; [lra|].
    cbn [length]. rewrite S_INR. set (m := Rmin (Rmin dist (dist2 (snd r) c)) 1). set (q := dist2 (snd r) c) in *.
    assert (Qp : 0 <= q) by apply dist2_nonneg.
    assert (Mm : m <= Rmin (Rmin (dist2 e' c) q) 1).
    { unfold m. rewrite (Rmin_right (dist2 e' c) q) by assumption. apply Rmin_glb; [|apply Rmin_r].
      apply Rle_trans with (1 := Rmin_l _ _). apply Rmin_r. }
    assert (Md : m <= Rmin dist 1).
    { unfold m. apply Rmin_glb; [|apply Rmin_r]. apply Rle_trans with (1 := Rmin_l _ _). apply Rmin_l. }
    assert (M0 : 0 <= m) by (unfold m; apply Rmin_glb; [apply Rmin_glb; assumption|lra]).
    assert (K1 : eta / 2 * m * (q * q) <= eta / 2 * Rmin dist 1 * (dist2 e c * dist2 e c)).
    { apply Rmult_le_compat; [nra|nra|nra|]. nra. }
    assert (K2 : INR (length tr) * (eta / 2) * m * (q * q) <= INR (length tr) * (eta / 2) * Rmin (Rmin (dist2 e' c) q) 1 * (q * q)).
    { apply Rmult_le_compat_r; [nra|]. apply Rmult_le_compat_l; [|exact Mm]. apply Rmult_le_pos; [apply pos_INR|lra]. }
    lra.
Qed.

End Descent.

(** MCH.learn_parameters_mch, called with the mean observables of its sample and a
    learning rate of at most one over the number of parameters: the change d of the
    multipliers does not increase the reweighted negative log-likelihood (it decreases it
    by at least eta/2 times the squared error), and the returned prediction is the one of d
    and not further from the constraints than the sample was. *)
Theorem C97_no_worse : forall (X : list (list Z)) (N : nat) (multipliers est c : list R) (kw : learn_kw) (m' est' : list R),
  let P := (N + N * (N - 1) / 2)%nat in
  let eta := dflt (kw_eta kw) 1 in
  X <> [] -> spin_rows X N -> (0 < N)%nat -> length c = P -> length est = P ->
  (forall k, (k < P)%nat -> nthR est k = sumf X (fun s => nthR (ising_obs (map IZR s)) k) / INR (length X)) ->
  0 < eta -> eta * INR P <= 1 ->
  learn_parameters_mch (mch_approximation X N) Ok multipliers est c kw = Ok (m', est') ->
  exists d, length d = P /\ (forall k, nthR m' k = nthR multipliers k + nthR d k) /\ mch_approximation X N d = Ok est' /\
    reweighted_nll X N c d <= reweighted_nll X N c (repeat 0 P) - eta / 2 * (dist2 est c * dist2 est c) /\
    dist2 est' c <= dist2 est c.
Proof.
  intros X N multipliers est c kw m' est' P eta HX HS HN Hc He Hm Heta Hrate H.
  assert (HP : (0 < P)%nat) by (unfold P; lia).
  destruct (C39_learning _ _ _ _ _ _ _ _ H) as (tr & LT & T & _ & _ & Es & d & Ed & _ & _ & Hd). fold eta in T. injection Ed as <-.
  destruct (approx_zero X N c HX HS Hc) as (e0 & E0 & L0 & H0). fold P in E0, L0, H0.
  assert (Ee : e0 = est).
  { apply (nth_ext _ _ 0 0); [congruence|]. intros k Hk. rewrite L0 in Hk. fold (nthR e0 k) (nthR est k). now rewrite H0, Hm. }
  subst e0. rewrite Hc in T. destruct tr as [|[d1 e1] tr]; [cbn in LT; lia|]. destruct T as [St T].
  destruct (step_descent X N c HX HS Hc HP eta Heta Hrate _ _ 1 d1 e1 (repeat_length _ _) He E0 ltac:(lra) St) as [A B].
  destruct St as (L1 & L2 & E1 & _). rewrite Hc in L1, L2.
  destruct (trace_descent X N c HX HS Hc HP eta Heta Hrate tr d1 e1 _ L1 L2 E1 (dist2_nonneg c e1) T) as (I1 & I2 & I3 & I4).
  assert (EL : last ((d1, e1) :: tr) ([], []) = last tr (d1, e1)) by apply last_start.
  rewrite EL in *. exists (fst (last tr (d1, e1))). subst est'. split; [exact I2|]. split; [exact Hd|]. split; [exact I1|]. split; [|lra].
  rewrite (Rmin_left 1 1), Rmult_1_r in A by lra. set (r := last tr (d1, e1)) in *.
  assert (0 <= INR (length tr) * (eta / 2) * Rmin (Rmin (dist2 e1 c) (dist2 (snd r) c)) 1 * (dist2 (snd r) c * dist2 (snd r) c)).
  { pose proof (dist2_nonneg c e1). pose proof (dist2_nonneg c (snd r)). apply Rmult_le_pos; [|nra]. apply Rmult_le_pos; [apply Rmult_le_pos; [apply pos_INR|lra]|].
    apply Rmin_glb; [apply Rmin_glb; assumption|lra]. }
  fold P in A. lra.
Qed.
Print Assumptions C97_no_worse.

(** If the constraints are a weighted mean of the observables of sampled states, then
    learning either stops at one of the limits on the change, or the error of the returned
    prediction is bounded by a quantity that goes to zero as maxLearningSteps grows. *)
Theorem C97_rate : forall (X : list (list Z)) (N : nat) (multipliers est c : list R) (kw : learn_kw) (m' est' : list R) (w : list Z -> R),
  let P := (N + N * (N - 1) / 2)%nat in
  let eta := dflt (kw_eta kw) 1 in
  let steps := (dflt (kw_maxLearningSteps kw) 50 + 1)%nat in
  let err := dist2 est' c in
  X <> [] -> spin_rows X N -> (0 < N)%nat -> length c = P -> length est = P ->
  (forall k, (k < P)%nat -> nthR est k = sumf X (fun s => nthR (ising_obs (map IZR s)) k) / INR (length X)) ->
  (forall s, In s X -> 0 <= w s) -> sumf X w = 1 ->
  (forall k, (k < P)%nat -> nthR c k = sumf X (fun s => w s * nthR (ising_obs (map IZR s)) k)) ->
  0 < eta -> eta * INR P <= 1 ->
  learn_parameters_mch (mch_approximation X N) Ok multipliers est c kw = Ok (m', est') ->
  (exists d, (forall k, nthR m' k = nthR multipliers k + nthR d k) /\ length d = P /\
     ~ limits_ok (dflt (kw_maxdlamda kw) 1) (dflt (kw_maxdlamdaNorm kw) 1) d) \/
  Rmin err 1 * (err * err) <= 2 * ln (INR (length X)) / (eta * INR steps).
Proof.
  intros X N multipliers est c kw m' est' w P eta steps err HX HS HN Hc He Hm Hw W1 Hcw Heta Hrate H.
  assert (HP : (0 < P)%nat) by (unfold P; lia).
  destruct (C39_learning _ _ _ _ _ _ _ _ H) as (tr & LT & T & _ & Stop & Es & d & Ed & _ & _ & Hd). fold eta in T. injection Ed as <-.
  destruct (approx_zero X N c HX HS Hc) as (e0 & E0 & L0 & H0). fold P in E0, L0, H0.
  assert (Ee : e0 = est).
  { apply (nth_ext _ _ 0 0); [congruence|]. intros k Hk. rewrite L0 in Hk. fold (nthR e0 k) (nthR est k). now rewrite H0, Hm. }
  subst e0. rewrite Hc in T.
  destruct (trace_descent X N c HX HS Hc HP eta Heta Hrate tr _ _ 1 (repeat_length _ _) He E0 ltac:(lra) T) as (I1 & I2 & I3 & I4).
  assert (EL : last tr (repeat 0 P, est) = last tr ([], [])).
  { destruct tr as [|t tr]; [cbn in LT; lia|]. now rewrite !last_start. }
  fold P in I1, I2, I3, I4. cbn zeta in I1, I2, I3, I4. rewrite EL in I1, I2, I3, I4. set (r := last tr ([], [])) in *. destruct Stop as [Stop|Stop].
  - left. exists (fst r). split; [exact Hd|]. split; [exact I2|exact Stop].
  - right. pose proof (nll_zero X N c HX HS Hc) as Z0. fold P in Z0. rewrite Z0 in I4. rewrite Stop in I4. fold steps in I4. unfold err. rewrite Es. set (q := dist2 (snd r) c) in *.
    pose proof (nll_below X N c HX HS Hc w (fst r) Hw W1 Hcw I2) as B.
    assert (Sp : 0 < INR steps) by (apply lt_0_INR; unfold steps; lia).
    assert (Q : Rmin (Rmin 1 q) 1 = Rmin q 1).
    { rewrite (Rmin_comm 1 q). apply Rmin_left, Rmin_r. }
    rewrite Q in I4. apply (Rmult_le_reg_r (eta * INR steps)); [apply Rmult_lt_0_compat; assumption|].
    replace (2 * ln (INR (length X)) / (eta * INR steps) * (eta * INR steps)) with (2 * ln (INR (length X))) by (field; lra). lra.
Qed.
Print Assumptions C97_rate.

(** The hypotheses are met: two spins, three sampled states, constraints away from the
    sample mean (they weigh the third state more), learning rate 1/3. *)
Example C97_example :
  let X := [[1; -1]; [1; 1]; [-1; -1]]%Z in
  let w (s : list Z) := if list_eq_dec Z.eq_dec s [-1; -1]%Z then / 2 else / 4 in
  let c := [0; - / 2; / 2] in
  let est := [/ 3; - / 3; / 3] in
  let kw := {| kw_maxdlamda := None; kw_maxdlamdaNorm := None; kw_maxLearningSteps := Some 1000%nat; kw_eta := Some (/ 3) |} in
  X <> [] /\ spin_rows X 2 /\ length c = 3%nat /\ length est = 3%nat /\
  (forall k, (k < 3)%nat -> nthR est k = sumf X (fun s => nthR (ising_obs (map IZR s)) k) / INR (length X)) /\
  (forall s, In s X -> 0 <= w s) /\ sumf X w = 1 /\
  (forall k, (k < 3)%nat -> nthR c k = sumf X (fun s => w s * nthR (ising_obs (map IZR s)) k)) /\
  0 < dist2 est c /\
  exists m' est', learn_parameters_mch (mch_approximation X 2) Ok [0; 0; 0] est c kw = Ok (m', est').
Proof.
  cbn zeta. assert (HS : spin_rows [[1; -1]; [1; 1]; [-1; -1]]%Z 2) by exact (proj1 (proj2 C67_example)).
  split; [discriminate|]. split; [exact HS|]. split; [reflexivity|]. split; [reflexivity|]. split; [|split; [|split; [|split; [|split]]]].
  - intros k Hk. destruct k as [|[|[|k]]]; [| | |lia]; rewrite !sumf_cons, sumf_nil; cbn; lra.
  - intros s _. destruct (list_eq_dec _ _ _); lra.
  - rewrite !sumf_cons, sumf_nil. repeat (destruct (list_eq_dec _ _ _); try discriminate; try congruence). lra.
  - intros k Hk. rewrite !sumf_cons, sumf_nil. repeat (destruct (list_eq_dec _ _ _); try discriminate; try congruence).
    destruct k as [|[|[|k]]]; [| | |lia]; cbn; lra.
  - unfold dist2. apply sqrt_lt_R0. cbn [length seq]. rewrite !sumf_cons, sumf_nil. cbn. lra.
  - destruct (C39_learning_terminates (mch_approximation [[1; -1]; [1; 1]; [-1; -1]]%Z 2) [0; 0; 0] [/ 3; - / 3; / 3] [0; - / 2; / 2]
      {| kw_maxdlamda := None; kw_maxdlamdaNorm := None; kw_maxLearningSteps := Some 1000%nat; kw_eta := Some (/ 3) |}) as (m' & e' & E & _); try reflexivity.
    + intros d Hd. destruct (mch_est [[1; -1]; [1; 1]; [-1; -1]]%Z 2 d ltac:(discriminate) HS Hd) as (e & E & L & _). exists e. split; [exact E|congruence].
    + exists m', e'. exact E.
Qed.

(** The default learning rate is 1 whatever the number of parameters, and C97_no_worse is
    false for it: with three spins that are aligned in every sampled state and slightly
    biased constraints, one learning step overshoots so far that the prediction is further
    from the constraints than the sample was. *)
Theorem C97_default_rate_refuted :
  let X := [[1; 1; 1]; [-1; -1; -1]]%Z in
  let c := [3 / 10; 3 / 10; 3 / 10; 1; 1; 1] in
  let est := [0; 0; 0; 1; 1; 1] in
  let kw := {| kw_maxdlamda := None; kw_maxdlamdaNorm := None; kw_maxLearningSteps := Some 0%nat; kw_eta := None |} in
  (forall k, (k < 6)%nat -> nthR est k = sumf X (fun s => nthR (ising_obs (map IZR s)) k) / INR (length X)) /\
  exists m' est', learn_parameters_mch (mch_approximation X 3) Ok [0; 0; 0; 0; 0; 0] est c kw = Ok (m', est') /\
    dist2 est c < dist2 est' c.
Proof.
  cbn zeta. set (X := [[1; 1; 1]; [-1; -1; -1]]%Z). set (c := [3 / 10; 3 / 10; 3 / 10; 1; 1; 1]). set (est := [0; 0; 0; 1; 1; 1]).
  set (kw := {| kw_maxdlamda := None; kw_maxdlamdaNorm := None; kw_maxLearningSteps := Some 0%nat; kw_eta := None |}).
  assert (HS : spin_rows X 3).
  { intros r Hr. cbn in Hr. repeat (destruct Hr as [<-|Hr]; [split; [reflexivity|]; intros x Hx; cbn in Hx; intuition subst; auto|]). destruct Hr. }
  split.
  { intros k Hk. unfold X, est. rewrite !sumf_cons, sumf_nil. do 6 (destruct k as [|k]; [cbn; lra|]). lia. }
  destruct (C39_learning_terminates (mch_approximation X 3) [0; 0; 0; 0; 0; 0] est c kw) as (m' & e' & E & _); try reflexivity.
  { intros d Hd. destruct (mch_est X 3 d ltac:(discriminate) HS Hd) as (e & E & L & _). exists e. split; [exact E|congruence]. }
  exists m', e'. split; [exact E|].
  destruct (C39_learning _ _ _ _ _ _ _ _ E) as (tr & LT & T & _ & _ & Es & d & Ed & _ & _ & Hd). cbn [dflt kw_maxLearningSteps kw_eta kw plus] in LT, T.
  destruct tr as [|[d1 e1] [|? ?]]; [cbn in LT; lia| |cbn in LT; lia]. destruct T as [(L1 & L2 & A1 & St) _]. cbn [last snd] in Es. subst e1.
  destruct (mch_est X 3 d1 ltac:(discriminate) HS L1) as (e2 & A2 & _ & H2). rewrite A1 in A2. injection A2 as <-.
  change (length c) with 6%nat in L1, L2, St. rewrite L1 in H2. rewrite (Rmin_left 1 1) in St by lra.
  destruct d1 as [|a0 [|a1 [|a2 [|a3 [|a4 [|a5 [|? ?]]]]]]]; try discriminate L1.
  assert (V : a0 = 3 / 10 /\ a1 = 3 / 10 /\ a2 = 3 / 10 /\ a3 = 0 /\ a4 = 0 /\ a5 = 0).
  { pose proof (St 0%nat ltac:(lia)) as S0. pose proof (St 1%nat ltac:(lia)) as S1. pose proof (St 2%nat ltac:(lia)) as S2.
    pose proof (St 3%nat ltac:(lia)) as S3. pose proof (St 4%nat ltac:(lia)) as S4. pose proof (St 5%nat ltac:(lia)) as S5.
    unfold est, c, nthR in S0, S1, S2, S3, S4, S5. cbn [nth repeat length] in S0, S1, S2, S3, S4, S5. repeat split; lra. }
  destruct V as (-> & -> & -> & -> & -> & ->).
  assert (D1 : dot (ising_obs (map IZR [1; 1; 1]%Z)) [3 / 10; 3 / 10; 3 / 10; 0; 0; 0] = 9 / 10) by (cbn; lra).
  assert (D2 : dot (ising_obs (map IZR [-1; -1; -1]%Z)) [3 / 10; 3 / 10; 3 / 10; 0; 0; 0] = - (9 / 10)) by (cbn; lra).
  assert (Hv : forall k, (k < 6)%nat -> nthR e' k = (exp (9 / 10) * nthR (ising_obs (map IZR [1; 1; 1]%Z)) k + exp (- (9 / 10)) * nthR (ising_obs (map IZR [-1; -1; -1]%Z)) k) / (exp (9 / 10) + exp (- (9 / 10)))).
  { intros k Hk. rewrite H2 by assumption. unfold X. rewrite !sumf_cons, !sumf_nil, D1, D2, !Rplus_0_r. reflexivity. }
  assert (E1 : 8 / 5 <= exp (6 / 10)) by (pose proof (exp_ineq1_le (6 / 10)); lra).
  assert (E2 : exp (9 / 10) = exp (6 / 10) * exp (6 / 10) * exp (6 / 10) * exp (- (9 / 10))) by (rewrite <- !exp_plus; f_equal; lra).
  assert (P2 := exp_pos (- (9 / 10))).
  assert (G : 4 * exp (- (9 / 10)) < exp (9 / 10)).
  { rewrite E2. apply Rmult_lt_compat_r; [exact P2|]. nra. }
  set (t := (exp (9 / 10) - exp (- (9 / 10))) / (exp (9 / 10) + exp (- (9 / 10)))).
  assert (Ht : 6 / 10 < t).
  { unfold t. apply (Rmult_lt_reg_r (exp (9 / 10) + exp (- (9 / 10)))); [lra|].
    replace ((exp (9 / 10) - exp (- (9 / 10))) / (exp (9 / 10) + exp (- (9 / 10))) * (exp (9 / 10) + exp (- (9 / 10)))) with (exp (9 / 10) - exp (- (9 / 10))) by (field; lra). lra. }
  assert (V0 : nthR e' 0 = t /\ nthR e' 1 = t /\ nthR e' 2 = t).
  { rewrite !Hv by lia. unfold nthR, t. cbn. repeat split; f_equal; lra. }
  destruct V0 as (V0 & V1 & V2).
  unfold dist2. apply sqrt_lt_1; try (apply sumf_nonneg; intros k _; apply Rle_0_sqr).
  change (length c) with 6%nat. cbn [seq]. rewrite !sumf_cons, !sumf_nil, V0, V1, V2. unfold est, c, nthR at 1 2 3 4 5 6 7 8 9 10 11 12. cbn [nth].
  pose proof (Rle_0_sqr (nthR e' 3 - 1)) as Q3. pose proof (Rle_0_sqr (nthR e' 4 - 1)) as Q4. pose proof (Rle_0_sqr (nthR e' 5 - 1)) as Q5. unfold Rsqr in Q3, Q4, Q5.
  unfold nthR in *. cbn [nth] in *. nra.
Qed.
Print Assumptions C97_default_rate_refuted.
