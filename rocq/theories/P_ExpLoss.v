(** * Weighted sums of exponentials: how far the minimum is from a point with a small gradient. *)
From Coquelicot Require Import Coquelicot.
From Verif Require Import Prelude Spec PreludeFacts P_Descent P_Stable.
Import ListNotations.
Local Open Scope R_scope.

(** ** The exponential function, with its argument kept in an interval *)
Definition clip (B z : R) : R := Rmax (- B) (Rmin B z).
Definition cexp (B z : R) : R := exp (clip B z).

Lemma clip_in B z : 0 <= B -> - B <= clip B z <= B.
Proof. intros H. unfold clip, Rmax, Rmin. destruct (Rle_dec B z); destruct (Rle_dec (- B) _); lra. Qed.

Lemma clip_id B z : Rabs z <= B -> clip B z = z.
Proof. intros H. apply Rabs_le_between in H. unfold clip, Rmax, Rmin. destruct (Rle_dec B z); destruct (Rle_dec (- B) _); lra. Qed.

Lemma clip_mono B a b : 0 <= B -> a <= b -> 0 <= clip B b - clip B a <= b - a.
Proof.
  intros H Hab. unfold clip, Rmax, Rmin. destruct (Rle_dec B a), (Rle_dec B b); repeat destruct (Rle_dec (- B) _); lra.
Qed.

Lemma cexp_id B z : Rabs z <= B -> cexp B z = exp z.
Proof. intros H. unfold cexp. now rewrite clip_id. Qed.

Lemma exp_le a b : a <= b -> exp a <= exp b.
Proof. intros [H|H]; [left; now apply exp_increasing|right; now rewrite H]. Qed.

Lemma exp_mvt a b : exists c, Rmin a b <= c <= Rmax a b /\ exp b - exp a = exp c * (b - a).
Proof. apply (MVT_gen exp a b exp); intros x _; [apply is_derive_exp|]. apply derivable_continuous_pt, derivable_pt_exp. Qed.

Lemma cexp_coercive B a b : 0 <= B -> exp (- B) * ((cexp B b - cexp B a) * (cexp B b - cexp B a)) <= (cexp B b - cexp B a) * (b - a).
Proof.
  intros HB.
  assert (G : forall a b, a <= b -> 0 <= cexp B b - cexp B a /\ exp (- B) * (cexp B b - cexp B a) <= b - a).
  { clear a b. intros a b Hab. unfold cexp. pose proof (clip_mono B a b HB Hab) as C. pose proof (clip_in B a HB) as Ia. pose proof (clip_in B b HB) as Ib.
    destruct (exp_mvt (clip B a) (clip B b)) as (c & Hc & E). rewrite E. rewrite Rmin_left, Rmax_right in Hc by lra.
    pose proof (exp_pos c) as Ec. split; [apply Rmult_le_pos; lra|].
    assert (U : exp (- B) * exp c <= 1) by (rewrite <- exp_plus, <- exp_0; apply exp_le; lra).
    rewrite <- Rmult_assoc. assert (exp (- B) * exp c * (clip B b - clip B a) <= 1 * (clip B b - clip B a)) by (apply Rmult_le_compat_r; lra). lra. }
  destruct (Rle_dec a b) as [H|H].
  - destruct (G a b H) as [G1 G2]. nra.
  - destruct (G b a ltac:(lra)) as [G1 G2]. nra.
Qed.

Lemma cexp_strong B a b : Rabs a <= B -> Rabs b <= B -> exp (- B) * ((b - a) * (b - a)) <= (cexp B b - cexp B a) * (b - a).
Proof.
  intros Ha Hb. rewrite !cexp_id by assumption. destruct (exp_mvt a b) as (c & Hc & E). rewrite E.
  apply Rabs_le_between in Ha, Hb.
  assert (- B <= c) by (unfold Rmin in Hc; destruct (Rle_dec a b); lra).
  pose proof (exp_le (- B) c H) as S. pose proof (Rle_0_sqr (b - a)) as Q. unfold Rsqr in Q. nra.
Qed.

Lemma exp_tangent x y : exp x + exp x * (y - x) <= exp y.
Proof.
  replace (exp y) with (exp x * exp (y - x)) by (rewrite <- exp_plus; f_equal; ring).
  pose proof (exp_pos x). destruct (Req_dec (y - x) 0) as [Z|Z]; [rewrite Z, exp_0; lra|]. pose proof (exp_ineq1 (y - x) Z). nra.
Qed.

Lemma exp_strict x y : exp y <= exp x + exp x * (y - x) -> y = x.
Proof.
  intros H. destruct (Req_dec (y - x) 0) as [Z|Z]; [lra|]. exfalso. pose proof (exp_ineq1 (y - x) Z) as I. pose proof (exp_pos x).
  replace (exp y) with (exp x * exp (y - x)) in H by (rewrite <- exp_plus; f_equal; ring). nra.
Qed.

(** ** The weighted sum *)
Section Exponential.
Context {I : Type}.
Variables (L : list I) (w : I -> R) (A : I -> nat -> R) (K : nat) (B : R).
Hypothesis HB0 : 0 <= B.
Hypothesis Hw : forall i, In i L -> 0 <= w i.
Definition ex_z (x : nat -> R) (i : I) : R := ip K (A i) x.
Definition ex_obj (x : nat -> R) : R := sumf L (fun i => w i * exp (ex_z x i)).
Definition ex_grad (x : nat -> R) (k : nat) : R := sumf L (fun i => w i * (cexp B (ex_z x i) * A i k)).

Lemma ex_z_sub x y i : ex_z y i - ex_z x i = ex_z (fun k => y k - x k) i.
Proof. unfold ex_z, ip. rewrite <- sumf_minus. apply sumf_ext. intros; ring. Qed.

Lemma ex_grad_ip x v : ip K (ex_grad x) v = sumf L (fun i => w i * (cexp B (ex_z x i) * ex_z v i)).
Proof.
  unfold ip, ex_grad. rewrite (sumf_ext (seq 0 K) _ (fun k => sumf L (fun i => w i * (cexp B (ex_z x i) * A i k) * v k))) by (intros; now rewrite sumf_scal_r).
  rewrite sumf_swap. apply sumf_ext. intros i. unfold ex_z at 3, ip. rewrite <- !sumf_scal_l. apply sumf_ext. intros; ring.
Qed.

Lemma ex_diff_ip x y v : ip K (fun k => ex_grad y k - ex_grad x k) v = sumf L (fun i => w i * ((cexp B (ex_z y i) - cexp B (ex_z x i)) * ex_z v i)).
Proof.
  replace (ip K (fun k => ex_grad y k - ex_grad x k) v) with (ip K (ex_grad y) v - ip K (ex_grad x) v) by (unfold ip; rewrite <- sumf_minus; apply sumf_ext; intros; ring).
  rewrite !ex_grad_ip, <- sumf_minus. apply sumf_ext. intros; ring.
Qed.

Variable M : R.
Hypothesis HM : forall i, In i L -> ip K (A i) (A i) <= M.
Let W := sumf L w.
Hypothesis WM : 0 < W * M.

Lemma ex_co x y : / (W * M / exp (- B)) * ip K (fun k => ex_grad y k - ex_grad x k) (fun k => ex_grad y k - ex_grad x k) <=
  ip K (fun k => ex_grad y k - ex_grad x k) (fun k => y k - x k).
Proof using Hw HM WM HB0.
  set (u := fun k => ex_grad y k - ex_grad x k). set (d := fun i => cexp B (ex_z y i) - cexp B (ex_z x i)).
  set (S := ip K u (fun k => y k - x k)).
  assert (E1 : ip K u u = sumf L (fun i => w i * (d i * ex_z u i))) by (apply ex_diff_ip).
  assert (E2 : S = sumf L (fun i => w i * (d i * (ex_z y i - ex_z x i)))).
  { unfold S, u. rewrite ex_diff_ip. apply sumf_ext. intros i. now rewrite <- ex_z_sub. }
  pose proof (exp_pos (- B)) as EB.
  assert (B1 : exp (- B) * sumf L (fun i => w i * (d i * d i)) <= S).
  { rewrite E2, <- sumf_scal_l. apply sumf_le. intros i Hi. pose proof (cexp_coercive B (ex_z x i) (ex_z y i) HB0) as C. fold (d i) in C. pose proof (Hw i Hi). nra. }
  assert (B2 : sumf L (fun i => w i * (ex_z u i * ex_z u i)) <= W * M * ip K u u).
  { unfold W. rewrite Rmult_assoc, <- sumf_scal_r. apply sumf_le. intros i Hi. apply Rmult_le_compat_l; [now apply Hw|].
    assert (CS : ex_z u i * ex_z u i <= ip K (A i) (A i) * ip K u u).
    { pose proof (cauchy_schwarz K (A i) u) as C1. pose proof (cauchy_schwarz K (A i) (fun k => (-1) * u k)) as C2.
      rewrite nrm_scal in C2. replace (Rabs (-1)) with 1 in C2 by (rewrite Rabs_left by lra; ring).
      replace (ip K (A i) (fun k => (-1) * u k)) with (- ex_z u i) in C2 by (unfold ex_z, ip; rewrite <- sumf_opp; apply sumf_ext; intros; ring).
      fold (ex_z u i) in C1. rewrite <- !nrm_sqr. pose proof (nrm_nonneg K (A i)). pose proof (nrm_nonneg K u).
      assert (0 <= nrm K (A i) * nrm K u) by (apply Rmult_le_pos; assumption). nra. }
    apply Rle_trans with (1 := CS). apply Rmult_le_compat_r; [apply ip_nonneg|now apply HM]. }
  set (al := W * M) in *.
  assert (B3 : ip K u u <= (al * sumf L (fun i => w i * (d i * d i)) + / al * sumf L (fun i => w i * (ex_z u i * ex_z u i))) / 2).
  { rewrite E1, <- !sumf_scal_l, <- sumf_plus. unfold Rdiv. rewrite <- sumf_scal_r. apply sumf_le. intros i Hi. pose proof (Hw i Hi) as Wi.
    assert (Q : 0 <= / al * ((al * d i - ex_z u i) * (al * d i - ex_z u i))).
    { apply Rmult_le_pos; [left; now apply Rinv_0_lt_compat|]. apply Rle_0_sqr. }
    replace (/ al * ((al * d i - ex_z u i) * (al * d i - ex_z u i))) with (al * (d i * d i) + / al * (ex_z u i * ex_z u i) - 2 * (d i * ex_z u i)) in Q by (field; lra). nra. }
  assert (B4 : / al * sumf L (fun i => w i * (ex_z u i * ex_z u i)) <= ip K u u).
  { apply (Rmult_le_reg_l al); [exact WM|]. rewrite <- Rmult_assoc, Rinv_r, Rmult_1_l by lra. exact B2. }
  assert (B5 : ip K u u <= al / exp (- B) * S).
  { assert (B6 : ip K u u <= al * sumf L (fun i => w i * (d i * d i))) by lra. apply Rle_trans with (1 := B6). unfold Rdiv. rewrite Rmult_assoc. apply Rmult_le_compat_l; [lra|].
    apply (Rmult_le_reg_l (exp (- B))); [exact EB|]. rewrite <- Rmult_assoc, Rinv_r, Rmult_1_l by lra. exact B1. }
  assert (AE : 0 < al / exp (- B)) by (now apply Rdiv_lt_0_compat).
  apply (Rmult_le_reg_l (al / exp (- B))); [exact AE|]. rewrite <- Rmult_assoc, Rinv_r, Rmult_1_l by lra. exact B5.
Qed.

Variable kap : R.
Hypothesis Hk : 0 < kap.
Hypothesis SPAN : forall v, kap * ip K v v <= sumf L (fun i => w i * (ex_z v i * ex_z v i)).

Lemma ex_strong x y : (forall i, In i L -> Rabs (ex_z x i) <= B) -> (forall i, In i L -> Rabs (ex_z y i) <= B) ->
  exp (- B) * kap * ip K (fun k => y k - x k) (fun k => y k - x k) <= ip K (fun k => ex_grad y k - ex_grad x k) (fun k => y k - x k).
Proof using Hw SPAN.
  intros Hx Hy. pose proof (exp_pos (- B)) as EB.
  apply Rle_trans with (exp (- B) * sumf L (fun i => w i * (ex_z (fun k => y k - x k) i * ex_z (fun k => y k - x k) i))).
  { rewrite Rmult_assoc. apply Rmult_le_compat_l; [lra|]. apply SPAN. }
  rewrite ex_diff_ip, <- sumf_scal_l. apply sumf_le. intros i Hi. rewrite <- ex_z_sub.
  pose proof (cexp_strong B _ _ (Hx i Hi) (Hy i Hi)). pose proof (Hw i Hi). nra.
Qed.

(** There is exactly one minimum, and it is near every point with a small gradient. *)
Lemma ex_minimum_near (a : nat -> R) (rho : R) : 0 < rho ->
  (forall x i, nrm K (fun k => x k - a k) <= rho -> In i L -> Rabs (ex_z x i) <= B) ->
  nrm K (ex_grad a) < exp (- B) * kap * rho ->
  exists x, nrm K (fun k => x k - a k) < rho /\ (forall y, ex_obj x <= ex_obj y) /\
    forall y, ex_obj y <= ex_obj x -> forall k, (k < K)%nat -> y k = x k.
Proof using Hw HM WM Hk SPAN HB0.
  intros Hr HB Hg. pose proof (exp_pos (- B)) as EB. set (ka := exp (- B) * kap) in *.
  assert (Hka : 0 < ka) by (unfold ka; apply Rmult_lt_0_compat; assumption).
  assert (Na : nrm K (fun k => a k - a k) <= rho).
  { rewrite (nrm_ext K _ (fun k => 0 * a k)) by (intros; ring). rewrite nrm_scal, Rabs_R0, Rmult_0_l. lra. }
  assert (KEY : forall x, nrm K (fun k => x k - a k) = rho -> 0 < ip K (fun k => ex_grad x k) (fun k => x k - a k)).
  { intros x Hx. pose proof (ex_strong a x (fun i => HB a i Na) (fun i => HB x i ltac:(lra))) as S. fold ka in S. rewrite <- nrm_sqr, Hx in S.
    pose proof (cauchy_schwarz K (fun k => (-1) * ex_grad a k) (fun k => x k - a k)) as C. rewrite nrm_scal, Hx in C.
    replace (Rabs (-1)) with 1 in C by (rewrite Rabs_left by lra; ring). rewrite Rmult_1_l in C.
    replace (ip K (fun k => ex_grad x k) (fun k => x k - a k))
      with (ip K (fun k => ex_grad x k - ex_grad a k) (fun k => x k - a k) - ip K (fun k => (-1) * ex_grad a k) (fun k => x k - a k))
      by (unfold ip; rewrite <- sumf_minus; apply sumf_ext; intros; ring).
    assert (nrm K (ex_grad a) * rho < ka * rho * rho) by (apply Rmult_lt_compat_r; assumption).
    change (nrm K (fun k => ex_grad a k)) with (nrm K (ex_grad a)) in C. lra. }
  destruct (zero_in_ball K ex_grad (W * M / exp (- B)) ka rho a ltac:(now apply Rdiv_lt_0_compat) Hka Hr) as (x & Ix & Gx).
  - intros x y. apply ex_co.
  - intros x y Ix Iy. apply ex_strong; intros i Hi; now apply HB.
  - exact KEY.
  - assert (Z : forall v, ip K (ex_grad x) v = 0).
    { intros v. unfold ip. apply sumf_zero. intros k Hk'. apply in_seq in Hk'. rewrite Gx by lia. ring. }
    assert (T : forall y, 0 <= ex_obj y - ex_obj x /\ (ex_obj y <= ex_obj x -> forall k, (k < K)%nat -> y k = x k)).
    { intros y. set (f := fun i => w i * (exp (ex_z y i) - exp (ex_z x i) - exp (ex_z x i) * (ex_z y i - ex_z x i))).
      assert (F0 : forall i, In i L -> 0 <= f i).
      { intros i Hi. unfold f. apply Rmult_le_pos; [now apply Hw|]. pose proof (exp_tangent (ex_z x i) (ex_z y i)). lra. }
      assert (FS : sumf L f = ex_obj y - ex_obj x).
      { replace (sumf L f) with (ex_obj y - ex_obj x - ip K (ex_grad x) (fun k => y k - x k)); [rewrite Z; ring|].
        rewrite ex_grad_ip. unfold ex_obj. rewrite <- !sumf_minus. apply sumf_ext_in. intros i Hi. unfold f. rewrite <- ex_z_sub.
        rewrite (cexp_id B (ex_z x i)) by (now apply HB). ring. }
      split; [rewrite <- FS; now apply sumf_nonneg|]. intros Hy.
      assert (FZ : sumf L f = 0) by (apply Rle_antisym; [rewrite FS; lra|now apply sumf_nonneg]).
      assert (D : ip K (fun k => y k - x k) (fun k => y k - x k) <= 0).
      { apply (Rmult_le_reg_l kap); [exact Hk|]. rewrite Rmult_0_r. apply Rle_trans with (1 := SPAN _). right. apply sumf_zero. intros i Hi. rewrite <- ex_z_sub.
        pose proof (sumf_nonneg_zero L f F0 FZ i Hi) as E. unfold f in E. apply Rmult_integral in E. destruct E as [E|E]; [rewrite E; ring|].
        rewrite (exp_strict (ex_z x i) (ex_z y i)) by lra. ring. }
      intros k Hk'. apply Rminus_diag_uniq. apply (nrm_zero K (fun k => y k - x k)); [|exact Hk'].
      unfold nrm. rewrite (Rle_antisym _ _ D (ip_nonneg _ _)). apply sqrt_0. }
    exists x. split; [|split].
    + destruct Ix as [Ix|Ix]; [exact Ix|]. pose proof (KEY x Ix) as Q. rewrite Z in Q. lra.
    + intros y. pose proof (proj1 (T y)). lra.
    + intros y. apply T.
Qed.
End Exponential.
