(** * Zeros of monotone maps in a ball, orthogonality of spin products. *)
From Verif Require Import Prelude Spec PreludeFacts P_Descent.
Import ListNotations.
Local Open Scope R_scope.

(** ** Finite-dimensional geometry *)
Ltac ipring := unfold ip; rewrite <- ?sumf_scal_l, <- ?sumf_plus, <- ?sumf_minus, <- ?sumf_plus; apply sumf_ext; intros; try ring; field; try lra.

Section Geo.
Variable P : nat.
Definition nrm (u : nat -> R) : R := sqrt (ip P u u).

Lemma nrm_nonneg u : 0 <= nrm u.
Proof. apply sqrt_pos. Qed.

Lemma nrm_sqr u : nrm u * nrm u = ip P u u.
Proof. unfold nrm. apply sqrt_sqrt, ip_nonneg. Qed.

Lemma ip_sym u v : ip P u v = ip P v u.
Proof. unfold ip. apply sumf_ext. intros; ring. Qed.

Lemma cauchy_schwarz u v : ip P u v <= nrm u * nrm v.
Proof.
  assert (Hu := nrm_nonneg u). assert (Hv := nrm_nonneg v). assert (Eu := nrm_sqr u). assert (Ev := nrm_sqr v).
  assert (Q : 0 <= ip P (fun k => nrm v * u k - nrm u * v k) (fun k => nrm v * u k - nrm u * v k)) by apply ip_nonneg.
  replace (ip P (fun k => nrm v * u k - nrm u * v k) (fun k => nrm v * u k - nrm u * v k))
    with ((nrm v * nrm v) * ip P u u + (nrm u * nrm u) * ip P v v - (2 * nrm u * nrm v) * ip P u v) in Q by (unfold ip; rewrite <- ?sumf_scal_l, <- ?sumf_plus, <- ?sumf_minus; apply sumf_ext; intros; ring).
  rewrite <- Eu, <- Ev in Q.
  destruct (Req_dec (nrm u) 0) as [Zu|Zu].
  { assert (Z : forall k, (k < P)%nat -> u k = 0).
    { intros k Hk. assert (S : ip P u u = 0) by (rewrite <- Eu, Zu; ring).
      assert (H := sumf_in_le (seq 0 P) (fun k => u k * u k) k (fun b _ => Rle_0_sqr (u b)) ltac:(apply in_seq; lia)). cbn beta in H.
      unfold ip in S. rewrite S in H. pose proof (Rle_0_sqr (u k)). unfold Rsqr in *. nra. }
    rewrite Zu, Rmult_0_l. right. unfold ip. apply sumf_zero. intros k Hk. apply in_seq in Hk. rewrite Z by lia. ring. }
  destruct (Req_dec (nrm v) 0) as [Zv|Zv].
  { assert (Z : forall k, (k < P)%nat -> v k = 0).
    { intros k Hk. assert (S : ip P v v = 0) by (rewrite <- Ev, Zv; ring).
      assert (H := sumf_in_le (seq 0 P) (fun k => v k * v k) k (fun b _ => Rle_0_sqr (v b)) ltac:(apply in_seq; lia)). cbn beta in H.
      unfold ip in S. rewrite S in H. pose proof (Rle_0_sqr (v k)). unfold Rsqr in *. nra. }
    rewrite Zv, Rmult_0_r. right. unfold ip. apply sumf_zero. intros k Hk. apply in_seq in Hk. rewrite Z by lia. ring. }
  assert (M : 0 < nrm u * nrm v) by (apply Rmult_lt_0_compat; lra).
  apply (Rmult_le_reg_l (2 * (nrm u * nrm v))); [lra|]. nra.
Qed.

Lemma coord_le u k : (k < P)%nat -> Rabs (u k) <= nrm u.
Proof.
  intros Hk. unfold nrm. rewrite <- sqrt_Rsqr_abs. apply sqrt_le_1_alt.
  exact (sumf_in_le (seq 0 P) (fun k => u k * u k) k (fun b _ => Rle_0_sqr (u b)) ltac:(apply in_seq; lia)).
Qed.

Lemma nrm_triangle u v : nrm (fun k => u k + v k) <= nrm u + nrm v.
Proof.
  assert (Hu := nrm_nonneg u). assert (Hv := nrm_nonneg v). assert (Eu := nrm_sqr u). assert (Ev := nrm_sqr v). assert (C := cauchy_schwarz u v).
  apply Rsqr_incr_0; [|apply nrm_nonneg|lra]. unfold Rsqr. rewrite nrm_sqr.
  replace (ip P (fun k => u k + v k) (fun k => u k + v k)) with (ip P u u + 2 * ip P u v + ip P v v) by (unfold ip; rewrite <- ?sumf_scal_l, <- ?sumf_plus, <- ?sumf_minus; apply sumf_ext; intros; ring). nra.
Qed.

Lemma nrm_scal c u : nrm (fun k => c * u k) = Rabs c * nrm u.
Proof.
  unfold nrm. replace (ip P (fun k => c * u k) (fun k => c * u k)) with (Rsqr c * ip P u u) by (unfold Rsqr; unfold ip; rewrite <- ?sumf_scal_l; apply sumf_ext; intros; ring).
  rewrite sqrt_mult_alt by apply Rle_0_sqr. now rewrite sqrt_Rsqr_abs.
Qed.

Lemma nrm_ext u v : (forall k, (k < P)%nat -> u k = v k) -> nrm u = nrm v.
Proof. intros H. unfold nrm. f_equal. unfold ip. apply sumf_ext_in. intros k Hk. apply in_seq in Hk. now rewrite H by lia. Qed.

Lemma ip_ext u v u' v' : (forall k, (k < P)%nat -> u k = u' k) -> (forall k, (k < P)%nat -> v k = v' k) -> ip P u v = ip P u' v'.
Proof. intros H H'. unfold ip. apply sumf_ext_in. intros k Hk. apply in_seq in Hk. now rewrite H, H' by lia. Qed.

Lemma nrm_opp_sub u v : nrm (fun k => u k - v k) = nrm (fun k => v k - u k).
Proof. unfold nrm. f_equal. unfold ip. apply sumf_ext. intros; ring. Qed.

Lemma nrm_zero u : nrm u = 0 -> forall k, (k < P)%nat -> u k = 0.
Proof. intros H k Hk. pose proof (coord_le u k Hk) as C. rewrite H in C. destruct (Req_dec (u k) 0) as [E|E]; [exact E|]. apply Rabs_pos_lt in E. lra. Qed.

(** The nearest point of the ball around a with radius rho. *)
Definition proj (a : nat -> R) (rho : R) (z : nat -> R) : nat -> R :=
  if Rle_dec (nrm (fun k => z k - a k)) rho then z
  else fun k => a k + rho / nrm (fun k => z k - a k) * (z k - a k).

Lemma proj_in a rho z : 0 <= rho -> nrm (fun k => proj a rho z k - a k) <= rho.
Proof.
  intros Hr. unfold proj. destruct (Rle_dec _ _) as [H|H]; [exact H|]. set (N := nrm (fun k => z k - a k)) in *.
  rewrite (nrm_ext _ (fun k => rho / N * (z k - a k))) by (intros; ring). rewrite nrm_scal. fold N.
  rewrite Rabs_pos_eq by (apply Rmult_le_pos; [assumption|]; left; apply Rinv_0_lt_compat; lra). right. field. lra.
Qed.

Lemma proj_variational a rho z y : 0 <= rho -> nrm (fun k => y k - a k) <= rho ->
  ip P (fun k => z k - proj a rho z k) (fun k => y k - proj a rho z k) <= 0.
Proof.
  intros Hr Hy. unfold proj. destruct (Rle_dec _ _) as [H|H].
  - right. unfold ip. apply sumf_zero. intros; ring.
  - set (N := nrm (fun k => z k - a k)) in *. assert (HN : 0 < N) by lra.
    replace (ip P (fun k => z k - (a k + rho / N * (z k - a k))) (fun k => y k - (a k + rho / N * (z k - a k))))
      with ((1 - rho / N) * (ip P (fun k => z k - a k) (fun k => y k - a k) - rho / N * ip P (fun k => z k - a k) (fun k => z k - a k)))
      by (unfold ip; rewrite <- ?sumf_scal_l, <- ?sumf_minus, <- ?sumf_scal_l; apply sumf_ext; intros; field; lra).
    pose proof (cauchy_schwarz (fun k => z k - a k) (fun k => y k - a k)) as C. fold N in C.
    rewrite <- (nrm_sqr (fun k => z k - a k)). fold N.
    assert (E : rho / N * (N * N) = rho * N) by (field; lra). rewrite E.
    assert (0 <= 1 - rho / N).
    { assert (rho / N <= 1); [|lra]. apply (Rmult_le_reg_r N); [lra|]. replace (rho / N * N) with rho by (field; lra). lra. }
    assert (N * nrm (fun k => y k - a k) <= N * rho) by (apply Rmult_le_compat_l; lra). nra.
Qed.

Lemma proj_nonexpansive a rho z w : 0 <= rho ->
  ip P (fun k => proj a rho z k - proj a rho w k) (fun k => proj a rho z k - proj a rho w k) <= ip P (fun k => z k - w k) (fun k => z k - w k).
Proof.
  intros Hr. set (p := proj a rho z). set (q := proj a rho w).
  pose proof (proj_variational a rho z q Hr (proj_in a rho w Hr)) as A. pose proof (proj_variational a rho w p Hr (proj_in a rho z Hr)) as B. fold p in A. fold q in B.
  assert (Q := ip_nonneg P (fun k => (z k - w k) - (p k - q k))).
  replace (ip P (fun k => (z k - w k) - (p k - q k)) (fun k => (z k - w k) - (p k - q k)))
    with (ip P (fun k => z k - w k) (fun k => z k - w k) + 2 * ip P (fun k => z k - p k) (fun k => q k - p k) + 2 * ip P (fun k => w k - q k) (fun k => p k - q k)
      - ip P (fun k => p k - q k) (fun k => p k - q k)) in Q
    by (unfold ip; rewrite <- ?sumf_scal_l, <- ?sumf_plus, <- ?sumf_minus; apply sumf_ext; intros; ring).
  lra.
Qed.

(** ** Fixed points of contractions *)
Variable T : (nat -> R) -> nat -> R.
Variable th : R.
Hypothesis Hth : 0 <= th < 1.
Hypothesis HT : forall x y, nrm (fun k => T x k - T y k) <= th * nrm (fun k => x k - y k).
Variable x0 : nat -> R.
Fixpoint iter (m : nat) : nat -> R := match m with O => x0 | S m' => T (iter m') end.

Lemma iter_step m : nrm (fun k => iter (S m) k - iter m k) <= th ^ m * nrm (fun k => T x0 k - x0 k).
Proof.
  induction m as [|m IH]; [cbn; lra|]. cbn [iter]. apply Rle_trans with (1 := HT _ _). cbn [pow iter] in *. 
  rewrite Rmult_assoc. apply Rmult_le_compat_l; [lra|exact IH].
Qed.

Lemma iter_far j : forall m, nrm (fun k => iter (m + j) k - iter m k) <= th ^ m / (1 - th) * nrm (fun k => T x0 k - x0 k).
Proof.
  set (D := nrm (fun k => T x0 k - x0 k)). assert (HD : 0 <= D) by apply nrm_nonneg.
  assert (K : forall j m, nrm (fun k => iter (m + j) k - iter m k) <= th ^ m * ((1 - th ^ j) / (1 - th)) * D).
  { clear j. induction j as [|j IH]; intros m.
    - rewrite Nat.add_0_r. rewrite (nrm_ext _ (fun k => 0 * iter m k)) by (intros; ring). rewrite nrm_scal, Rabs_R0. cbn [pow]. right. field. lra.
    - rewrite (nrm_ext _ (fun k => (iter (S m + j) k - iter (S m) k) + (iter (S m) k - iter m k))) by (intros; replace (m + S j)%nat with (S m + j)%nat by lia; ring).
      apply Rle_trans with (1 := nrm_triangle _ _). pose proof (IH (S m)) as A. pose proof (iter_step m) as B. fold D in B.
      apply Rle_trans with (1 := Rplus_le_compat _ _ _ _ A B). right. cbn [pow]. field. lra. }
  intros m. apply Rle_trans with (1 := K j m). apply Rmult_le_compat_r; [exact HD|]. unfold Rdiv. apply Rmult_le_compat_l; [apply pow_le; lra|].
  rewrite <- (Rmult_1_l (/ (1 - th))) at 2. apply Rmult_le_compat_r; [left; apply Rinv_0_lt_compat; lra|].
  assert (0 <= th ^ j) by (apply pow_le; lra). lra.
Qed.

Lemma contraction_fixed_point : exists x, (forall k, (k < P)%nat -> T x k = x k) /\
  forall m, nrm (fun k => iter m k - x k) <= th ^ m / (1 - th) * nrm (fun k => T x0 k - x0 k).
Proof.
  set (D := nrm (fun k => T x0 k - x0 k)). assert (HD : 0 <= D) by apply nrm_nonneg.
  assert (Sm : forall eps, 0 < eps -> exists m0, forall m, (m >= m0)%nat -> th ^ m / (1 - th) * D < eps).
  { intros eps He. assert (Hq : 0 < eps * (1 - th) / (D + 1)) by (apply Rdiv_lt_0_compat; [apply Rmult_lt_0_compat; lra|lra]).
    assert (Ht : Rabs th < 1) by (rewrite Rabs_pos_eq; lra). destruct (pow_lt_1_zero th Ht _ Hq) as [m0 Hm]. exists m0. intros m Hge. specialize (Hm m Hge).
    rewrite Rabs_pos_eq in Hm by (apply pow_le; lra). assert (0 <= th ^ m) by (apply pow_le; lra).
    assert (X : th ^ m * (D + 1) < eps * (1 - th)).
    { apply (Rmult_lt_compat_r (D + 1)) in Hm; [|lra]. replace (eps * (1 - th) / (D + 1) * (D + 1)) with (eps * (1 - th)) in Hm by (field; lra). exact Hm. }
    apply (Rmult_lt_reg_r (1 - th)); [lra|]. replace (th ^ m / (1 - th) * D * (1 - th)) with (th ^ m * D) by (field; lra). nra. }
  assert (Cau : forall k, (k < P)%nat -> Cauchy_crit (fun m => iter m k)).
  { intros k Hk eps He. destruct (Sm (eps / 2) ltac:(lra)) as [m0 Hm]. exists m0. intros a b Ha Hb.
    assert (W : forall a, (a >= m0)%nat -> Rabs (iter a k - iter m0 k) < eps / 2).
    { intros c Hc. apply Rle_lt_trans with (2 := Hm m0 ltac:(lia)). replace c with (m0 + (c - m0))%nat by lia.
      apply Rle_trans with (2 := iter_far (c - m0) m0). exact (coord_le (fun k => iter (m0 + (c - m0)) k - iter m0 k) k Hk). }
    pose proof (W a Ha) as A. pose proof (W b Hb) as B. unfold R_dist. replace (iter a k - iter b k) with ((iter a k - iter m0 k) - (iter b k - iter m0 k)) by ring.
    apply Rle_lt_trans with (1 := Rabs_triang _ _). rewrite Rabs_Ropp. lra. }
  assert (Ex : exists x : nat -> R, forall k, (k < P)%nat -> Un_cv (fun m => iter m k) (x k)).
  { assert (L : forall Q, (Q <= P)%nat -> exists x : nat -> R, forall k, (k < Q)%nat -> Un_cv (fun m => iter m k) (x k)).
    { induction Q as [|Q IH]; intros HQ; [exists (fun _ => 0); intros; lia|]. destruct IH as [x Hx]; [lia|].
      destruct (R_complete _ (Cau Q ltac:(lia))) as [l Hl]. exists (fun k => if Nat.eqb k Q then l else x k). intros k Hk.
      destruct (Nat.eqb_spec k Q) as [->|Hn]; [exact Hl|]. apply Hx. lia. }
    apply (L P). lia. }
  destruct Ex as [x Hx].
  assert (Lim : forall u : nat -> nat -> R, forall v, (forall k, (k < P)%nat -> Un_cv (fun m => u m k) (v k)) -> Un_cv (fun m => ip P (u m) (u m)) (ip P v v)).
  { intros u v H. unfold ip. assert (G : forall Q, (Q <= P)%nat -> Un_cv (fun m => sumf (seq 0 Q) (fun k => u m k * u m k)) (sumf (seq 0 Q) (fun k => v k * v k))).
    { induction Q as [|Q IH]; intros HQ.
      - intros e He. exists 0%nat. intros m _. unfold R_dist. rewrite Rminus_diag_eq, Rabs_R0 by reflexivity. exact He.
      - apply (Un_cv_ext (fun m => sumf (seq 0 Q) (fun k => u m k * u m k) + u m Q * u m Q)).
        { intros m. now rewrite sumf_seq_last. }
        rewrite sumf_seq_last. apply CV_plus; [apply IH; lia|]. apply CV_mult; apply H; lia. }
    apply G. lia. }
  assert (Far : forall m, nrm (fun k => iter m k - x k) <= th ^ m / (1 - th) * D).
  { intros m. set (B := th ^ m / (1 - th) * D). assert (HB : 0 <= B).
    { unfold B. apply Rmult_le_pos; [|exact HD]. apply Rmult_le_pos; [apply pow_le; lra|left; apply Rinv_0_lt_compat; lra]. }
    apply Rsqr_incr_0; [|apply nrm_nonneg|exact HB]. unfold Rsqr. rewrite nrm_sqr.
    assert (C : Un_cv (fun j => ip P (fun k => iter (m + j) k - iter m k) (fun k => iter (m + j) k - iter m k)) (ip P (fun k => x k - iter m k) (fun k => x k - iter m k))).
    { apply (Lim (fun j k => iter (m + j) k - iter m k) (fun k => x k - iter m k)). intros k Hk. apply CV_minus.
      - intros e He. destruct (Hx k Hk e He) as [N HN]. exists N. intros j Hj. apply HN. lia.
      - intros e He. exists 0%nat. intros j _. unfold R_dist. rewrite Rminus_diag_eq, Rabs_R0 by reflexivity. exact He. }
    replace (ip P (fun k => iter m k - x k) (fun k => iter m k - x k)) with (ip P (fun k => x k - iter m k) (fun k => x k - iter m k)) by (unfold ip; apply sumf_ext; intros; ring).
    apply Rnot_lt_le. intros Hlt.
    destruct (C (ip P (fun k => x k - iter m k) (fun k => x k - iter m k) - B * B) ltac:(lra)) as [N HN]. specialize (HN N ltac:(lia)). unfold R_dist in HN.
    pose proof (iter_far N m) as F. fold D in F. fold B in F. assert (F2 : ip P (fun k => iter (m + N) k - iter m k) (fun k => iter (m + N) k - iter m k) <= B * B).
    { rewrite <- nrm_sqr. apply Rmult_le_compat; auto using nrm_nonneg. }
    apply Rabs_def2 in HN. lra. }
  exists x. split; [|exact Far]. intros k Hk. apply Rminus_diag_uniq.
  apply (nrm_zero (fun k => T x k - x k)); [|exact Hk]. apply Rle_antisym; [|apply nrm_nonneg].
  apply Rnot_lt_le. intros Hlt. set (e := nrm (fun k => T x k - x k)) in *.
  destruct (Sm (e / 2) ltac:(lra)) as [m0 Hm]. pose proof (Hm m0 ltac:(lia)) as A. pose proof (Hm (S m0) ltac:(lia)) as B.
  pose proof (Far m0) as F0. pose proof (Far (S m0)) as F1. pose proof (HT x (iter m0)) as G. change (T (iter m0)) with (iter (S m0)) in G.
  assert (Q : e <= nrm (fun k => T x k - iter (S m0) k) + nrm (fun k => iter (S m0) k - x k)).
  { unfold e. rewrite (nrm_ext _ (fun k => (T x k - iter (S m0) k) + (iter (S m0) k - x k))) by (intros; ring). apply nrm_triangle. }
  rewrite (nrm_opp_sub x (iter m0)) in G. assert (th * nrm (fun k => iter m0 k - x k) <= nrm (fun k => iter m0 k - x k)).
  { pose proof (nrm_nonneg (fun k => iter m0 k - x k)). nra. }
  lra.
Qed.
End Geo.

(** ** Zeros of monotone maps in a ball *)
Section Zero.
Variables (P : nat) (g : (nat -> R) -> nat -> R) (L kappa rho : R) (a : nat -> R).
Hypothesis HL : 0 < L.
Hypothesis Hk : 0 < kappa.
Hypothesis Hr : 0 < rho.
Hypothesis CO : forall x y, / L * ip P (fun k => g y k - g x k) (fun k => g y k - g x k) <= ip P (fun k => g y k - g x k) (fun k => y k - x k).
Let inside x := nrm P (fun k => x k - a k) <= rho.
Hypothesis SM : forall x y, inside x -> inside y -> kappa * ip P (fun k => y k - x k) (fun k => y k - x k) <= ip P (fun k => g y k - g x k) (fun k => y k - x k).
Hypothesis BD : forall x, nrm P (fun k => x k - a k) = rho -> 0 < ip P (g x) (fun k => x k - a k).

Lemma coco_ext x y : (forall k, (k < P)%nat -> x k = y k) -> forall k, (k < P)%nat -> g x k = g y k.
Proof using HL CO.
  intros H k Hk'. apply Rminus_diag_uniq. apply (nrm_zero P (fun k => g x k - g y k)); [|exact Hk'].
  pose proof (CO y x) as C. assert (Z : ip P (fun k => g x k - g y k) (fun k => x k - y k) = 0).
  { unfold ip. apply sumf_zero. intros i Hi. apply in_seq in Hi. rewrite (H i) by lia. ring. }
  rewrite Z in C. assert (0 < / L) by now apply Rinv_0_lt_compat. pose proof (ip_nonneg P (fun k => g x k - g y k)).
  assert (E : ip P (fun k => g x k - g y k) (fun k => g x k - g y k) = 0) by nra. unfold nrm. rewrite E. apply sqrt_0.
Qed.

Lemma zero_in_ball : exists x, inside x /\ forall k, (k < P)%nat -> g x k = 0.
Proof using HL Hk Hr CO SM BD.
  (* contraction: project, step, project *)
  set (s := / L). assert (Hs : 0 < s) by (apply Rinv_0_lt_compat; lra).
  set (kp := Rmin kappa L). assert (Hkp : 0 < kp <= L) by (unfold kp; split; [apply Rmin_glb_lt; lra|apply Rmin_r]).
  set (pr := proj P a rho).
  set (T := fun x => pr (fun k => pr x k - s * g (pr x) k)).
  assert (Sk : 0 < s * kp <= 1).
  { split; [apply Rmult_lt_0_compat; lra|]. unfold s. apply (Rmult_le_reg_l L); [lra|]. replace (L * (/ L * kp)) with kp by (field; lra). lra. }
  assert (CT : forall x y, ip P (fun k => T x k - T y k) (fun k => T x k - T y k) <= (1 - s * kp) * ip P (fun k => x k - y k) (fun k => x k - y k)).
  { intros x y. unfold T. apply Rle_trans with (1 := proj_nonexpansive P a rho _ _ ltac:(lra)).
    set (p := pr x). set (q := pr y).
    assert (Ip : inside p) by (apply proj_in; lra). assert (Iq : inside q) by (apply proj_in; lra).
    replace (ip P (fun k => p k - s * g p k - (q k - s * g q k)) (fun k => p k - s * g p k - (q k - s * g q k)))
      with (ip P (fun k => p k - q k) (fun k => p k - q k) - (2 * s) * ip P (fun k => g p k - g q k) (fun k => p k - q k) + (s * s) * ip P (fun k => g p k - g q k) (fun k => g p k - g q k))
      by (unfold ip; rewrite <- ?sumf_scal_l, <- ?sumf_minus, <- ?sumf_plus; apply sumf_ext; intros; ring).
    pose proof (CO q p) as A. pose proof (SM q p Iq Ip) as B. fold s in A.
    assert (N := proj_nonexpansive P a rho x y ltac:(lra)). fold pr in N. fold p q in N.
    set (dd := ip P (fun k => p k - q k) (fun k => p k - q k)) in *. set (gg := ip P (fun k => g p k - g q k) (fun k => g p k - g q k)) in *.
    set (gd := ip P (fun k => g p k - g q k) (fun k => p k - q k)) in *.
    assert (Hd : 0 <= dd) by apply ip_nonneg.
    assert (K : kp * dd <= gd) by (apply Rle_trans with (2 := B); apply Rmult_le_compat_r; [exact Hd|apply Rmin_l]).
    apply Rle_trans with ((1 - s * kp) * dd).
    - assert (s * (s * gg) <= s * gd) by (apply Rmult_le_compat_l; lra). assert (s * (kp * dd) <= s * gd) by (apply Rmult_le_compat_l; lra). lra.
    - apply Rmult_le_compat_l; [lra|exact N]. }
  set (th := sqrt (1 - s * kp)).
  assert (Hth : 0 <= th < 1).
  { split; [apply sqrt_pos|]. unfold th. apply Rlt_le_trans with (sqrt 1); [apply sqrt_lt_1; lra|rewrite sqrt_1; lra]. }
  destruct (contraction_fixed_point P T th Hth) with (x0 := a) as (x & Fx & _).
  { intros x y. unfold nrm, th. rewrite <- sqrt_mult by (try apply ip_nonneg; lra). apply sqrt_le_1_alt, CT. }
  set (p := pr x). assert (Ip : inside p) by (apply proj_in; lra).
  (* x agrees with T x, which lies in the ball, so x = pr x on the coordinates *)
  assert (Ix : inside x).
  { unfold inside. rewrite (nrm_ext P _ (fun k => T x k - a k)) by (intros; now rewrite Fx). apply proj_in. lra. }
  assert (Ep : p = x) by (unfold p, pr, proj; destruct (Rle_dec _ _); [reflexivity|contradiction]).
  assert (F : forall k, (k < P)%nat -> pr (fun k => x k - s * g x k) k = x k).
  { intros k Hk'. transitivity (T x k); [|exact (Fx k Hk')]. unfold T. fold p. now rewrite Ep. }
  exists x. split; [exact Ix|].
  unfold pr, proj in F. destruct (Rle_dec _ _) as [Hin|Hout].
  - intros k Hk'. specialize (F k Hk'). assert (s * g x k = 0) by lra. apply Rmult_integral in H. destruct H; [lra|assumption].
  - exfalso. set (N := nrm P (fun k => x k - s * g x k - a k)) in *. assert (HN : rho < N) by lra.
    assert (Bx : nrm P (fun k => x k - a k) = rho).
    { rewrite (nrm_ext P _ (fun k => rho / N * (x k - s * g x k - a k))) by (intros k Hk'; rewrite <- (F k Hk') at 1; ring).
      rewrite nrm_scal. fold N. rewrite Rabs_pos_eq by (apply Rmult_le_pos; [lra|left; apply Rinv_0_lt_compat; lra]). field. lra. }
    pose proof (BD x Bx) as Q.
    (* s g = - (N/rho - 1) (x - a) *)
    assert (G : forall k, (k < P)%nat -> s * g x k = - (N / rho - 1) * (x k - a k)).
    { intros k Hk'. pose proof (F k Hk') as E. apply (f_equal (fun v => N / rho * (v - a k))) in E.
      replace (N / rho * (a k + rho / N * (x k - s * g x k - a k) - a k)) with (x k - s * g x k - a k) in E by (field; lra). lra. }
    assert (E : s * ip P (g x) (fun k => x k - a k) = - (N / rho - 1) * ip P (fun k => x k - a k) (fun k => x k - a k)).
    { unfold ip. rewrite <- !sumf_scal_l. apply sumf_ext_in. intros k Hk'. apply in_seq in Hk'. rewrite <- Rmult_assoc, G by lia. ring. }
    assert (1 < N / rho) by (apply (Rmult_lt_reg_r rho); [lra|]; replace (N / rho * rho) with N by (field; lra); lra).
    pose proof (ip_nonneg P (fun k => x k - a k)). assert (0 < s * ip P (g x) (fun k => x k - a k)) by (apply Rmult_lt_0_compat; assumption). nra.
Qed.
End Zero.

(** ** Orthogonality of products of spins *)
Lemma linear_square n : forall (v : list R) (b : R), length v = n ->
  sumf (all_states [-1; 1] n) (fun s => (b + dot s v) * (b + dot s v)) = 2 ^ n * (b * b + sumf v (fun x => x * x)).
Proof.
  induction n as [|n IH]; intros v b Hv.
  - destruct v; [|discriminate]. cbn [all_states]. rewrite sumf_cons, !sumf_nil. cbn. ring.
  - destruct v as [|x v]; [discriminate|]. injection Hv as Hv. cbn [all_states]. rewrite sumf_flat_map, !sumf_cons, sumf_nil, !sumf_map.
    rewrite (sumf_ext _ (fun s => (b + dot (-1 :: s) (x :: v)) * (b + dot (-1 :: s) (x :: v))) (fun s => ((b - x) + dot s v) * ((b - x) + dot s v))) by (intros; rewrite dot_cons; ring).
    rewrite (sumf_ext _ (fun s => (b + dot (1 :: s) (x :: v)) * (b + dot (1 :: s) (x :: v))) (fun s => ((b + x) + dot s v) * ((b + x) + dot s v))) by (intros; rewrite dot_cons; ring).
    rewrite !IH by assumption. cbn [pow]. ring.
Qed.

Lemma pairs_map_cons (x : R) s : map (fun p => fst p * snd p) (pairs (x :: s)) = map (Rmult x) s ++ map (fun p => fst p * snd p) (pairs s).
Proof. cbn [pairs]. rewrite map_app, map_map. reflexivity. Qed.

Lemma dot_scaled x s : forall v, dot (map (Rmult x) s) v = x * dot s v.
Proof. induction s as [|y s IH]; intros [|w v]; cbn [map]; rewrite ?dot_cons, ?IH; try (unfold dot; cbn; ring). Qed.

Lemma tri_S m : (S m * (S m - 1) / 2 = m + m * (m - 1) / 2)%nat.
Proof.
  destruct m as [|m]; [reflexivity|]. replace (S (S m) - 1)%nat with (S m) by lia. replace (S m - 1)%nat with m by lia.
  replace (S (S m) * S m)%nat with (S m * 2 + S m * m)%nat by ring. rewrite Nat.div_add_l by lia. reflexivity.
Qed.

Lemma pair_products_length (s : list R) : length (map (fun p => fst p * snd p) (pairs s)) = (length s * (length s - 1) / 2)%nat.
Proof.
  induction s as [|x s IH]; [reflexivity|]. rewrite pairs_map_cons, app_length, IH, map_length. cbn [length]. now rewrite tri_S.
Qed.

Lemma quadratic_square n : forall (h J : list R) (b : R), length h = n -> length J = (n * (n - 1) / 2)%nat ->
  sumf (all_states [-1; 1] n) (fun s => (b + dot (ising_obs s) (h ++ J)) * (b + dot (ising_obs s) (h ++ J))) = 2 ^ n * (b * b + sumf (h ++ J) (fun x => x * x)).
Proof.
  induction n as [|n IH]; intros h J b Hh HJ.
  - destruct h; [|discriminate]. destruct J; [|discriminate]. cbn [all_states]. rewrite sumf_cons, !sumf_nil. unfold ising_obs, dot. cbn. ring.
  - destruct h as [|x h]; [discriminate|]. injection Hh as Hh. rewrite tri_S in HJ.
    set (J1 := firstn n J). set (J2 := skipn n J). assert (EJ : J = J1 ++ J2) by (symmetry; apply firstn_skipn).
    assert (L1 : length J1 = n) by (unfold J1; rewrite firstn_length; lia).
    assert (L2 : length J2 = (n * (n - 1) / 2)%nat) by (unfold J2; rewrite skipn_length; lia).
    assert (E : forall y s, length s = n -> dot (ising_obs (y :: s)) ((x :: h) ++ J) = y * (x + dot s J1) + dot (ising_obs s) (h ++ J2)).
    { intros y s Ls. unfold ising_obs. rewrite pairs_map_cons, EJ. rewrite dot_app by (cbn [length]; lia). rewrite dot_cons.
      rewrite dot_app by (rewrite map_length; lia). rewrite dot_scaled. rewrite dot_app by lia. ring. }
    assert (Ls : forall s, In s (all_states [-1; 1] n) -> length s = n).
    { clear. induction n as [|n IH]; intros s Hs; cbn [all_states] in Hs; [destruct Hs as [<-|[]]; reflexivity|].
      apply in_flat_map in Hs. destruct Hs as (v & _ & Hs). apply in_map_iff in Hs. destruct Hs as (r & <- & Hr). cbn. f_equal. now apply IH. }
    cbn [all_states]. rewrite sumf_flat_map, !sumf_cons, sumf_nil, !sumf_map, Rplus_0_r, <- sumf_plus.
    rewrite (sumf_ext_in _ _ (fun s => 2 * ((x + dot s J1) * (x + dot s J1)) + 2 * ((b + dot (ising_obs s) (h ++ J2)) * (b + dot (ising_obs s) (h ++ J2))))).
    2:{ intros s Hs. rewrite !E by now apply Ls. ring. }
    rewrite sumf_plus, !sumf_scal_l, linear_square, IH by assumption. cbn [pow]. rewrite EJ. cbn [app]. rewrite sumf_cons, !sumf_app. ring.
Qed.

Lemma kl_pair p q : 0 < p -> 0 < q -> Rmin p q * ((ln p - ln q) * (ln p - ln q)) <= (p - q) * (ln p - ln q).
Proof.
  intros Hp Hq.
  assert (W : forall a b, 0 < a -> a <= b -> a * ((ln b - ln a) * (ln b - ln a)) <= (b - a) * (ln b - ln a)).
  { intros a b Ha Hab. set (t := ln b - ln a). assert (Eb : b = a * exp t).
    { unfold t, Rminus. rewrite exp_plus, exp_Ropp, !exp_ln by lra. field. lra. }
    assert (Ht : 0 <= t) by (unfold t; destruct Hab as [Hab| ->]; [apply ln_increasing in Hab; lra|lra]).
    assert (t <= exp t - 1) by (pose proof (exp_ineq1_le t); lra).
    replace (b - a) with (a * (exp t - 1)) by (rewrite Eb; ring). rewrite Rmult_assoc. apply Rmult_le_compat_l; [lra|]. apply Rmult_le_compat_r; lra. }
  destruct (Rle_dec p q) as [H|H].
  - rewrite Rmin_left by assumption. pose proof (W p q Hp H). lra.
  - rewrite Rmin_right by lra. pose proof (W q p Hq ltac:(lra)). lra.
Qed.
