(** * Weighted sums of logistic losses: how far the minimum is from a point with a small gradient. *)
From Coquelicot Require Import Coquelicot.
From Verif Require Import Prelude Spec PreludeFacts P_Pseudo P_Descent P_Stable.
Import ListNotations.
Local Open Scope R_scope.

(** ** The logistic function *)
Definition sg (t : R) : R := exp t / (1 + exp t).

Lemma sg_derive t : is_derive sg t (sg t * (1 - sg t)).
Proof.
  unfold sg. pose proof (exp_pos t). auto_derive; [lra|]. field. lra.
Qed.

Lemma sg_mvt a b : exists c, Rmin a b <= c <= Rmax a b /\ sg b - sg a = sg c * (1 - sg c) * (b - a).
Proof. apply (MVT_gen sg a b (fun c => sg c * (1 - sg c))); intros x _; [apply sg_derive|]. apply derivable_continuous_pt. exists (sg x * (1 - sg x)). apply is_derive_Reals, sg_derive. Qed.

Lemma sg_slope c : 0 < sg c * (1 - sg c) <= / 4.
Proof.
  unfold sg. pose proof (exp_pos c) as H. replace (exp c / (1 + exp c) * (1 - exp c / (1 + exp c))) with (exp c / ((1 + exp c) * (1 + exp c))) by (field; lra).
  split; [apply Rdiv_lt_0_compat; nra|]. apply (Rmult_le_reg_r ((1 + exp c) * (1 + exp c))); [nra|].
  unfold Rdiv. rewrite Rmult_assoc, Rinv_l by nra. pose proof (Rle_0_sqr (1 - exp c)) as Q. unfold Rsqr in Q. nra.
Qed.

Lemma sg_slope_low B c : Rabs c <= B -> exp (- B) / 4 <= sg c * (1 - sg c).
Proof.
  intros Hc. apply Rabs_le_between in Hc. unfold sg. assert (H := exp_pos c).
  replace (exp c / (1 + exp c) * (1 - exp c / (1 + exp c))) with (exp c / ((1 + exp c) * (1 + exp c))) by (field; lra).
  apply (Rmult_le_reg_r ((1 + exp c) * (1 + exp c))); [nra|]. unfold Rdiv. rewrite (Rmult_assoc (exp c)), Rinv_l by nra.
  assert (U : exp (- B) <= exp c) by (destruct (proj1 Hc) as [X|X]; [left; now apply exp_increasing|right; now rewrite X]).
  assert (V : exp (- B) * exp c <= 1).
  { rewrite <- exp_plus, <- exp_0. destruct (Rle_lt_or_eq_dec (- B + c) 0 ltac:(lra)) as [X|X]; [left; now apply exp_increasing|right; now rewrite X]. }
  assert (W : exp (- B) <= 1).
  { rewrite <- exp_0. destruct (Rle_lt_or_eq_dec (- B) 0 ltac:(lra)) as [X|X]; [left; now apply exp_increasing|right; now rewrite X]. }
  assert (V2 : exp (- B) * exp c * exp c <= 1 * exp c) by (apply Rmult_le_compat_r; lra).
  assert (W2 : exp (- B) * exp c <= 1 * exp c) by (apply Rmult_le_compat_r; lra). nra.
Qed.

Lemma sg_coercive a b : 4 * ((sg b - sg a) * (sg b - sg a)) <= (sg b - sg a) * (b - a).
Proof.
  destruct (sg_mvt a b) as (c & _ & E). rewrite E. pose proof (sg_slope c) as S. set (d := sg c * (1 - sg c)) in *.
  assert (Q : 0 <= d * (1 - 4 * d) * ((b - a) * (b - a))) by (apply Rmult_le_pos; [apply Rmult_le_pos; lra|apply Rle_0_sqr]). nra.
Qed.

Lemma sg_strong B a b : Rabs a <= B -> Rabs b <= B -> exp (- B) / 4 * ((b - a) * (b - a)) <= (sg b - sg a) * (b - a).
Proof.
  intros Ha Hb. destruct (sg_mvt a b) as (c & Hc & E). rewrite E.
  assert (Rabs c <= B).
  { apply Rabs_le_between in Ha, Hb. apply Rabs_le_between. unfold Rmin, Rmax in Hc. destruct (Rle_dec a b); lra. }
  pose proof (sg_slope_low B c H) as S. pose proof (Rle_0_sqr (b - a)) as Q. unfold Rsqr in Q. nra.
Qed.

Lemma softplus_sg x y : softplus x + sg x * (y - x) <= softplus y.
Proof.
  pose proof (softplus_tangent x y) as T. apply Rle_trans with (2 := T). right. unfold sg. field. pose proof (exp_pos x). lra.
Qed.

Lemma softplus_strict x y : softplus y <= softplus x + sg x * (y - x) -> y = x.
Proof.
  intros H. set (m := (x + y) / 2).
  pose proof (softplus_sg m x) as A. pose proof (softplus_sg m y) as B. pose proof (softplus_sg x m) as C.
  assert (Q : (sg m - sg x) * (m - x) <= 0).
  { unfold m in *. nra. }
  pose proof (sg_strong (Rabs x + Rabs m) x m ltac:(pose proof (Rabs_pos m); lra) ltac:(pose proof (Rabs_pos x); lra)) as S.
  pose proof (exp_pos (- (Rabs x + Rabs m))) as E.
  assert (Z : (m - x) * (m - x) <= 0) by (apply (Rmult_le_reg_l (exp (- (Rabs x + Rabs m)) / 4)); lra).
  assert (m - x = 0) by nra. unfold m in *. lra.
Qed.

(** ** The weighted sum *)
Section Logistic.
Context {I : Type}.
Variables (L : list I) (w : I -> R) (A : I -> nat -> R) (K : nat).
Hypothesis Hw : forall i, In i L -> 0 <= w i.
Definition lg_z (x : nat -> R) (i : I) : R := ip K (A i) x.
Definition lg_obj (x : nat -> R) : R := sumf L (fun i => w i * softplus (lg_z x i)).
Definition lg_grad (x : nat -> R) (k : nat) : R := sumf L (fun i => w i * (sg (lg_z x i) * A i k)).

Lemma lg_z_sub x y i : lg_z y i - lg_z x i = lg_z (fun k => y k - x k) i.
Proof. unfold lg_z, ip. rewrite <- sumf_minus. apply sumf_ext. intros; ring. Qed.

Lemma lg_grad_ip x v : ip K (lg_grad x) v = sumf L (fun i => w i * (sg (lg_z x i) * lg_z v i)).
Proof.
  unfold ip, lg_grad. rewrite (sumf_ext (seq 0 K) _ (fun k => sumf L (fun i => w i * (sg (lg_z x i) * A i k) * v k))) by (intros; now rewrite sumf_scal_r).
  rewrite sumf_swap. apply sumf_ext. intros i. unfold lg_z at 3, ip. rewrite <- !sumf_scal_l. apply sumf_ext. intros; ring.
Qed.

Lemma lg_diff_ip x y v : ip K (fun k => lg_grad y k - lg_grad x k) v = sumf L (fun i => w i * ((sg (lg_z y i) - sg (lg_z x i)) * lg_z v i)).
Proof.
  replace (ip K (fun k => lg_grad y k - lg_grad x k) v) with (ip K (lg_grad y) v - ip K (lg_grad x) v) by (unfold ip; rewrite <- sumf_minus; apply sumf_ext; intros; ring).
  rewrite !lg_grad_ip, <- sumf_minus. apply sumf_ext. intros; ring.
Qed.

Lemma lg_tangent x y : lg_obj x + ip K (lg_grad x) (fun k => y k - x k) <= lg_obj y.
Proof using Hw.
  rewrite lg_grad_ip. unfold lg_obj. rewrite <- sumf_plus. apply sumf_le. intros i Hi. rewrite <- lg_z_sub.
  pose proof (softplus_sg (lg_z x i) (lg_z y i)). pose proof (Hw i Hi). nra.
Qed.

Variable M : R.
Hypothesis HM : forall i, In i L -> ip K (A i) (A i) <= M.
Let W := sumf L w.
Hypothesis WM : 0 < W * M.

Lemma lg_co x y : / (W * M / 4) * ip K (fun k => lg_grad y k - lg_grad x k) (fun k => lg_grad y k - lg_grad x k) <=
  ip K (fun k => lg_grad y k - lg_grad x k) (fun k => y k - x k).
Proof using Hw HM WM.
  set (u := fun k => lg_grad y k - lg_grad x k). set (d := fun i => sg (lg_z y i) - sg (lg_z x i)).
  set (S := ip K u (fun k => y k - x k)).
  assert (E1 : ip K u u = sumf L (fun i => w i * (d i * lg_z u i))) by (apply lg_diff_ip).
  assert (E2 : S = sumf L (fun i => w i * (d i * (lg_z y i - lg_z x i)))).
  { unfold S, u. rewrite lg_diff_ip. apply sumf_ext. intros i. now rewrite <- lg_z_sub. }
  assert (B1 : 4 * sumf L (fun i => w i * (d i * d i)) <= S).
  { rewrite E2, <- sumf_scal_l. apply sumf_le. intros i Hi. pose proof (sg_coercive (lg_z x i) (lg_z y i)) as C. fold (d i) in C. pose proof (Hw i Hi). nra. }
  assert (B2 : sumf L (fun i => w i * (lg_z u i * lg_z u i)) <= W * M * ip K u u).
  { unfold W. rewrite Rmult_assoc, <- sumf_scal_r. apply sumf_le. intros i Hi. apply Rmult_le_compat_l; [now apply Hw|].
    assert (CS : lg_z u i * lg_z u i <= ip K (A i) (A i) * ip K u u).
    { pose proof (cauchy_schwarz K (A i) u) as C1. pose proof (cauchy_schwarz K (A i) (fun k => (-1) * u k)) as C2.
      rewrite nrm_scal in C2. replace (Rabs (-1)) with 1 in C2 by (rewrite Rabs_left by lra; ring).
      replace (ip K (A i) (fun k => (-1) * u k)) with (- lg_z u i) in C2 by (unfold lg_z, ip; rewrite <- sumf_opp; apply sumf_ext; intros; ring).
      fold (lg_z u i) in C1. rewrite <- !nrm_sqr. pose proof (nrm_nonneg K (A i)). pose proof (nrm_nonneg K u).
      assert (0 <= nrm K (A i) * nrm K u) by (apply Rmult_le_pos; assumption). nra. }
    apply Rle_trans with (1 := CS). apply Rmult_le_compat_r; [apply ip_nonneg|now apply HM]. }
  set (al := W * M) in *.
  assert (B3 : ip K u u <= (al * sumf L (fun i => w i * (d i * d i)) + / al * sumf L (fun i => w i * (lg_z u i * lg_z u i))) / 2).
  { rewrite E1, <- !sumf_scal_l, <- sumf_plus. unfold Rdiv. rewrite <- sumf_scal_r. apply sumf_le. intros i Hi. pose proof (Hw i Hi) as Wi.
    assert (Q : 0 <= / al * ((al * d i - lg_z u i) * (al * d i - lg_z u i))).
    { apply Rmult_le_pos; [left; now apply Rinv_0_lt_compat|]. apply Rle_0_sqr. }
    replace (/ al * ((al * d i - lg_z u i) * (al * d i - lg_z u i))) with (al * (d i * d i) + / al * (lg_z u i * lg_z u i) - 2 * (d i * lg_z u i)) in Q by (field; lra). nra. }
  assert (B4 : / al * sumf L (fun i => w i * (lg_z u i * lg_z u i)) <= ip K u u).
  { apply (Rmult_le_reg_l al); [exact WM|]. rewrite <- Rmult_assoc, Rinv_r, Rmult_1_l by lra. exact B2. }
  assert (B5 : ip K u u <= al / 4 * S) by nra.
  apply (Rmult_le_reg_l (al / 4)); [lra|]. rewrite <- Rmult_assoc, Rinv_r, Rmult_1_l by lra. exact B5.
Qed.

Variable kap : R.
Hypothesis Hk : 0 < kap.
Hypothesis SPAN : forall v, kap * ip K v v <= sumf L (fun i => w i * (lg_z v i * lg_z v i)).

Lemma lg_strong B x y : (forall i, In i L -> Rabs (lg_z x i) <= B) -> (forall i, In i L -> Rabs (lg_z y i) <= B) ->
  exp (- B) / 4 * kap * ip K (fun k => y k - x k) (fun k => y k - x k) <= ip K (fun k => lg_grad y k - lg_grad x k) (fun k => y k - x k).
Proof using Hw SPAN.
  intros Hx Hy. pose proof (exp_pos (- B)) as EB.
  apply Rle_trans with (exp (- B) / 4 * sumf L (fun i => w i * (lg_z (fun k => y k - x k) i * lg_z (fun k => y k - x k) i))).
  { rewrite Rmult_assoc. apply Rmult_le_compat_l; [lra|]. apply SPAN. }
  rewrite lg_diff_ip, <- sumf_scal_l. apply sumf_le. intros i Hi. rewrite <- lg_z_sub.
  pose proof (sg_strong B _ _ (Hx i Hi) (Hy i Hi)). pose proof (Hw i Hi). nra.
Qed.

(** There is exactly one minimum, and it is near every point with a small gradient. *)
Lemma lg_minimum_near (a : nat -> R) (rho B : R) : 0 < rho ->
  (forall x i, nrm K (fun k => x k - a k) <= rho -> In i L -> Rabs (lg_z x i) <= B) ->
  nrm K (lg_grad a) < exp (- B) / 4 * kap * rho ->
  exists x, nrm K (fun k => x k - a k) < rho /\ (forall y, lg_obj x <= lg_obj y) /\
    forall y, lg_obj y <= lg_obj x -> forall k, (k < K)%nat -> y k = x k.
Proof using Hw HM WM Hk SPAN.
  intros Hr HB Hg. pose proof (exp_pos (- B)) as EB. set (ka := exp (- B) / 4 * kap) in *.
  assert (Hka : 0 < ka) by (unfold ka; apply Rmult_lt_0_compat; lra).
  assert (Na : nrm K (fun k => a k - a k) <= rho).
  { rewrite (nrm_ext K _ (fun k => 0 * a k)) by (intros; ring). rewrite nrm_scal, Rabs_R0, Rmult_0_l. lra. }
  assert (KEY : forall x, nrm K (fun k => x k - a k) = rho -> 0 < ip K (fun k => lg_grad x k) (fun k => x k - a k)).
  { intros x Hx. pose proof (lg_strong B a x (fun i => HB a i Na) (fun i => HB x i ltac:(lra))) as S. fold ka in S. rewrite <- nrm_sqr, Hx in S.
    pose proof (cauchy_schwarz K (fun k => (-1) * lg_grad a k) (fun k => x k - a k)) as C. rewrite nrm_scal, Hx in C.
    replace (Rabs (-1)) with 1 in C by (rewrite Rabs_left by lra; ring). rewrite Rmult_1_l in C.
    replace (ip K (fun k => lg_grad x k) (fun k => x k - a k))
      with (ip K (fun k => lg_grad x k - lg_grad a k) (fun k => x k - a k) - ip K (fun k => (-1) * lg_grad a k) (fun k => x k - a k))
      by (unfold ip; rewrite <- sumf_minus; apply sumf_ext; intros; ring).
    assert (nrm K (lg_grad a) * rho < ka * rho * rho) by (apply Rmult_lt_compat_r; assumption).
    change (nrm K (fun k => lg_grad a k)) with (nrm K (lg_grad a)) in C. lra. }
  destruct (zero_in_ball K lg_grad (W * M / 4) ka rho a ltac:(lra) Hka Hr) as (x & Ix & Gx).
  - intros x y. apply lg_co.
  - intros x y Ix Iy. apply lg_strong; intros i Hi; now apply HB.
  - exact KEY.
  - assert (Z : forall v, ip K (lg_grad x) v = 0).
    { intros v. unfold ip. apply sumf_zero. intros k Hk'. apply in_seq in Hk'. rewrite Gx by lia. ring. }
    exists x. split; [|split].
    + destruct Ix as [Ix|Ix]; [exact Ix|]. pose proof (KEY x Ix) as Q. rewrite Z in Q. lra.
    + intros y. pose proof (lg_tangent x y) as T. rewrite Z in T. lra.
    + intros y Hy.
      set (f := fun i => w i * (softplus (lg_z y i) - softplus (lg_z x i) - sg (lg_z x i) * (lg_z y i - lg_z x i))).
      assert (F0 : forall i, In i L -> 0 <= f i).
      { intros i Hi. unfold f. apply Rmult_le_pos; [now apply Hw|]. pose proof (softplus_sg (lg_z x i) (lg_z y i)). lra. }
      assert (FS : sumf L f = 0).
      { apply Rle_antisym; [|now apply sumf_nonneg].
        replace (sumf L f) with (lg_obj y - lg_obj x - ip K (lg_grad x) (fun k => y k - x k)).
        - rewrite Z. lra.
        - rewrite lg_grad_ip. unfold lg_obj. rewrite <- !sumf_minus. apply sumf_ext. intros i. unfold f. rewrite <- lg_z_sub. ring. }
      assert (D : ip K (fun k => y k - x k) (fun k => y k - x k) <= 0).
      { apply (Rmult_le_reg_l kap); [exact Hk|]. rewrite Rmult_0_r. apply Rle_trans with (1 := SPAN _). right. apply sumf_zero. intros i Hi. rewrite <- lg_z_sub.
        pose proof (sumf_nonneg_zero L f F0 FS i Hi) as E. unfold f in E. apply Rmult_integral in E. destruct E as [E|E]; [rewrite E; ring|].
        rewrite (softplus_strict (lg_z x i) (lg_z y i)) by lra. ring. }
      intros k Hk'. apply Rminus_diag_uniq. apply (nrm_zero K (fun k => y k - x k)); [|exact Hk'].
      unfold nrm. rewrite (Rle_antisym _ _ D (ip_nonneg _ _)). apply sqrt_0.
Qed.
End Logistic.
