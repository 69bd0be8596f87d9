(** * Gradient steps on smooth convex functions, and the smoothness of log-sum-exp. *)
From Coquelicot Require Import Coquelicot.
From Verif Require Import Prelude PreludeFacts.
Import ListNotations.
Local Open Scope R_scope.

(** ** Gradient steps *)
Section GD.
Variables (P : nat) (f : (nat -> R) -> R) (g : (nat -> R) -> nat -> R) (L : R).

Definition ip (u v : nat -> R) : R := sumf (seq 0 P) (fun k => u k * v k).

Hypothesis HL : 0 < L.
Hypothesis CV : forall x y, f x + ip (g x) (fun k => y k - x k) <= f y.
Hypothesis SM : forall x y, f y <= f x + ip (g x) (fun k => y k - x k) + L / 2 * ip (fun k => y k - x k) (fun k => y k - x k).

Lemma ip_nonneg u : 0 <= ip u u.
Proof. apply sumf_nonneg. intros k _. nra. Qed.

Ltac ipring := unfold ip; rewrite <- ?sumf_scal_l, <- ?sumf_plus, <- ?sumf_minus, <- ?sumf_plus; apply sumf_ext; intros; field; try lra.

Lemma gd_descent x s : f (fun k => x k - s * g x k) <= f x - s * (1 - L * s / 2) * ip (g x) (g x).
Proof.
  pose proof (SM x (fun k => x k - s * g x k)) as H. cbn beta in H.
  replace (ip (g x) (fun k => x k - s * g x k - x k)) with ((- s) * ip (g x) (g x)) in H by ipring.
  replace (ip (fun k => x k - s * g x k - x k) (fun k => x k - s * g x k - x k)) with ((s * s) * ip (g x) (g x)) in H by ipring.
  nra.
Qed.

Lemma gd_lower x y : f x + ip (g x) (fun k => y k - x k) + / (2 * L) * ip (fun k => g y k - g x k) (fun k => g y k - g x k) <= f y.
Proof.
  set (h := fun k => g y k - g x k). set (z := fun k => y k - / L * h k).
  pose proof (CV x z) as A. pose proof (SM y z) as B.
  replace (ip (g x) (fun k => z k - x k)) with (ip (g x) (fun k => y k - x k) + (- / L) * ip (g x) h) in A by (unfold z; ipring).
  replace (ip (g y) (fun k => z k - y k)) with ((- / L) * ip (g y) h) in B by (unfold z; ipring).
  replace (ip (fun k => z k - y k) (fun k => z k - y k)) with ((/ L * / L) * ip h h) in B by (unfold z; ipring).
  assert (D : ip h h = ip (g y) h - ip (g x) h) by (unfold h at 1; ipring).
  replace (L / 2 * (/ L * / L * ip h h)) with (/ (2 * L) * ip h h) in B by (field; lra).
  assert (E : / L * ip h h = / L * ip (g y) h - / L * ip (g x) h) by (rewrite D; ring).
  assert (F : / (2 * L) * ip h h = / L * ip h h - / (2 * L) * ip h h) by (field; lra). lra.
Qed.

Lemma gd_coercive x y : / L * ip (fun k => g y k - g x k) (fun k => g y k - g x k) <= ip (fun k => g y k - g x k) (fun k => y k - x k).
Proof.
  pose proof (gd_lower x y) as A. pose proof (gd_lower y x) as B.
  replace (ip (fun k => g x k - g y k) (fun k => g x k - g y k)) with (ip (fun k => g y k - g x k) (fun k => g y k - g x k)) in B by ipring.
  replace (ip (g y) (fun k => x k - y k)) with ((-1) * ip (g y) (fun k => y k - x k)) in B by ipring.
  replace (ip (fun k => g y k - g x k) (fun k => y k - x k)) with (ip (g y) (fun k => y k - x k) - ip (g x) (fun k => y k - x k)) by ipring.
  set (h := ip (fun k => g y k - g x k) (fun k => g y k - g x k)) in *.
  replace (/ L * h) with (/ (2 * L) * h + / (2 * L) * h) by (field; lra). lra.
Qed.

Lemma gd_gradient x s : 0 < s -> L * s <= 2 ->
  ip (g (fun k => x k - s * g x k)) (g (fun k => x k - s * g x k)) <= ip (g x) (g x).
Proof.
  intros Hs HLs. set (y := fun k => x k - s * g x k). pose proof (gd_coercive x y) as C. set (h := fun k => g y k - g x k) in *.
  replace (ip h (fun k => y k - x k)) with ((- s) * ip h (g x)) in C by (unfold y; ipring).
  replace (ip (g y) (g y)) with (ip (g x) (g x) + 2 * ip h (g x) + ip h h) by (unfold h; ipring).
  assert (Hh := ip_nonneg h). assert (K : 0 < / L) by now apply Rinv_0_lt_compat.
  assert (M : / L * ip h h * L = ip h h) by (field; lra).
  assert (M2 : ip h h <= - (s * L) * ip h (g x)) by nra. 
  destruct (Rle_dec 0 (ip h (g x))) as [Hn|Hn]; [|nra].
  assert (0 < s * L) by nra. assert (ip h h <= 0) by nra. assert (ip h (g x) = 0) by nra. lra.
Qed.
End GD.

(** ** Hoeffding's lemma *)
Lemma decreasing_le (F dF : R -> R) T : 0 <= T -> (forall t, 0 <= t <= T -> is_derive F t (dF t) /\ dF t <= 0) -> F T <= F 0.
Proof.
  intros HT H. destruct (MVT_gen F 0 T dF) as (c & Hc & E).
  - intros x Hx. rewrite Rmin_left, Rmax_right in Hx by assumption. apply H. lra.
  - intros x Hx. rewrite Rmin_left, Rmax_right in Hx by assumption.
    destruct (H x Hx) as [D _]. apply continuity_pt_filterlim, (ex_derive_continuous F). now exists (dF x).
  - rewrite Rmin_left, Rmax_right in Hc by assumption. destruct (H c Hc) as [_ Q]. rewrite Rminus_0_r in E. nra.
Qed.

Lemma two_point m T : -1 <= m <= 1 -> 0 <= T -> ln ((1 + m) / 2 * exp T + (1 - m) / 2 * exp (- T)) <= m * T + T * T / 2.
Proof.
  intros Hm HT. set (D := fun t => (1 + m) / 2 * exp t + (1 - m) / 2 * exp (- t)). set (Nn := fun t => (1 + m) / 2 * exp t - (1 - m) / 2 * exp (- t)).
  assert (Dp : forall t, 0 < D t).
  { intros t. unfold D. pose proof (exp_pos t). pose proof (exp_pos (- t)).
    destruct (Rle_dec 0 m); [assert (0 < (1 + m) / 2 * exp t) by (apply Rmult_lt_0_compat; lra)|assert (0 < (1 - m) / 2 * exp (- t)) by (apply Rmult_lt_0_compat; lra)].
    - assert (0 <= (1 - m) / 2 * exp (- t)) by (apply Rmult_le_pos; lra). lra.
    - assert (0 <= (1 + m) / 2 * exp t) by (apply Rmult_le_pos; lra). lra. }
  assert (DD : forall t, is_derive D t (Nn t)) by (intros t; unfold D, Nn; auto_derive; [exact I|ring]).
  assert (DN : forall t, is_derive Nn t (D t)) by (intros t; unfold D, Nn; auto_derive; [exact I|ring]).
  assert (D0 : D 0 = 1) by (unfold D; rewrite Ropp_0, exp_0; field).
  assert (N0 : Nn 0 = m) by (unfold Nn; rewrite Ropp_0, exp_0; field).
  assert (U : forall t, 0 <= t -> Nn t / D t - m - t <= 0).
  { intros t Ht. pose proof (decreasing_le (fun t => Nn t / D t - m - t) (fun t => (D t * D t - Nn t * Nn t) / (D t * D t) - 1) t Ht) as Q.
    cbn beta in Q. rewrite D0, N0 in Q. replace (m / 1 - m - 0) with 0 in Q by field. apply Q. intros x Hx. specialize (Dp x). split.
    - specialize (DD x). specialize (DN x). clearbody D Nn. auto_derive.
      + split; [now exists (D x)|]. split; [now exists (Nn x)|]. split; [lra|exact I].
      + change (Derive (fun x0 => Nn x0) x) with (Derive Nn x). change (Derive (fun x0 => D x0) x) with (Derive D x).
        rewrite (is_derive_unique _ _ _ DD), (is_derive_unique _ _ _ DN). field. lra.
    - replace ((D x * D x - Nn x * Nn x) / (D x * D x) - 1) with (- ((Nn x / D x) * (Nn x / D x))) by (field; lra).
      pose proof (Rle_0_sqr (Nn x / D x)) as S. unfold Rsqr in S. lra. }
  pose proof (decreasing_le (fun t => ln (D t) - m * t - t * t / 2) (fun t => Nn t / D t - m - t) T HT) as Q. cbn beta in Q.
  rewrite D0, ln_1 in Q. assert (Z : ln (D T) - m * T - T * T / 2 <= 0 - m * 0 - 0 * 0 / 2); [|unfold D in Z; lra].
  apply Q. intros x Hx. split; [|apply U, Hx]. specialize (DD x). specialize (Dp x). clearbody D Nn. auto_derive.
  - split; [now exists (Nn x)|]. split; [assumption|exact I].
  - change (Derive (fun x0 => D x0) x) with (Derive D x). rewrite (is_derive_unique _ _ _ DD). field. lra.
Qed.

Lemma exp_chord a A : 0 < A -> - A <= a <= A -> exp a <= (A + a) / (2 * A) * exp A + (A - a) / (2 * A) * exp (- A).
Proof.
  intros HA Ha. assert (E1 : exp A = exp a * exp (A - a)) by (rewrite <- exp_plus; f_equal; ring).
  assert (E2 : exp (- A) = exp a * exp (- A - a)) by (rewrite <- exp_plus; f_equal; ring).
  pose proof (exp_ineq1_le (A - a)). pose proof (exp_ineq1_le (- A - a)). pose proof (exp_pos a).
  assert (0 <= (A + a) / (2 * A)) by (apply Rdiv_le_0_compat; lra). assert (0 <= (A - a) / (2 * A)) by (apply Rdiv_le_0_compat; lra).
  assert (S : (A + a) / (2 * A) * (1 + (A - a)) + (A - a) / (2 * A) * (1 + (- A - a)) = 1) by (field; lra).
  assert (Q1 : (A + a) / (2 * A) * (1 + (A - a)) <= (A + a) / (2 * A) * exp (A - a)) by (apply Rmult_le_compat_l; lra).
  assert (Q2 : (A - a) / (2 * A) * (1 + (- A - a)) <= (A - a) / (2 * A) * exp (- A - a)) by (apply Rmult_le_compat_l; lra).
  rewrite E1, E2. nra.
Qed.

Lemma hoeffding {S} (X : list S) (w a : S -> R) A :
  (forall s, In s X -> 0 <= w s) -> sumf X w = 1 -> 0 <= A -> (forall s, In s X -> - A <= a s <= A) ->
  ln (sumf X (fun s => w s * exp (a s))) <= sumf X (fun s => w s * a s) + A * A / 2.
Proof.
  intros Hw H1 HA Ha. set (M := sumf X (fun s => w s * a s)).
  assert (Bm : - A <= M <= A).
  { split.
    - replace (- A) with (sumf X (fun s => w s * - A)) by (rewrite sumf_scal_r, H1; ring). apply sumf_le. intros s Hs. apply Rmult_le_compat_l; [auto|apply Ha, Hs].
    - replace A with (sumf X (fun s => w s * A)) by (rewrite sumf_scal_r, H1; ring). apply sumf_le. intros s Hs. apply Rmult_le_compat_l; [auto|apply Ha, Hs]. }
  destruct HA as [HA|<-].
  - assert (Q : sumf X (fun s => w s * exp (a s)) <= (1 + M / A) / 2 * exp A + (1 - M / A) / 2 * exp (- A)).
    { replace ((1 + M / A) / 2 * exp A + (1 - M / A) / 2 * exp (- A)) with (sumf X (fun s => w s * ((A + a s) / (2 * A) * exp A + (A - a s) / (2 * A) * exp (- A)))).
      - apply sumf_le. intros s Hs. apply Rmult_le_compat_l; [auto|]. apply exp_chord; auto.
      - transitivity (sumf X (fun s => w s * (exp A / 2 + exp (- A) / 2) + w s * a s * ((exp A - exp (- A)) / (2 * A)))).
        + apply sumf_ext. intros s. field. lra.
        + rewrite sumf_plus, !sumf_scal_r, H1. fold M. field. lra. }
    assert (Pp : 0 < sumf X (fun s => w s * exp (a s))).
    { apply Rlt_le_trans with (sumf X (fun s => w s * exp (- A))); [rewrite sumf_scal_r, H1, Rmult_1_l; apply exp_pos|].
      apply sumf_le. intros s Hs. apply Rmult_le_compat_l; [auto|]. destruct (proj1 (Ha s Hs)) as [U|U]; [left; now apply exp_increasing|right; now rewrite U]. }
    assert (BA : -1 <= M / A <= 1).
    { split; [apply (Rmult_le_reg_r A)|apply (Rmult_le_reg_r A)]; try assumption; replace (M / A * A) with M by (field; lra); lra. }
    pose proof (two_point (M / A) A BA ltac:(lra)) as T. replace (M / A * A) with M in T by (field; lra).
    apply Rle_trans with (2 := T). destruct Q as [Q|Q]; [left; now apply ln_increasing|right; now rewrite Q].
  - rewrite (sumf_ext_in X _ w), H1, ln_1; [lra|]. intros s Hs. replace (a s) with 0 by (specialize (Ha s Hs); lra). rewrite exp_0. ring.
Qed.
