(** * Rounding in the execution of a written equation file *)
From Coq Require Import Permutation Ascii String.
From Flocq Require Import Core.
From Verif Require Import Prelude Spec PreludeFacts M_Index M_Enum P_Enum M_Float P_Float M_FloatEnum P_Float3.
Import ListNotations.
Local Open Scope R_scope.

(** ** Sums of exponentials of perturbed energies *)
Definition near (xi x y : R) : Prop := Rabs (y - x) <= xi.

Lemma exp_near xi x y : near xi x y -> exp (- xi) * exp x <= exp y <= exp xi * exp x.
Proof. unfold near. intros H. apply Rabs_def2_le in H. rewrite <- !exp_plus. split; apply exp_mono; lra. Qed.

Lemma Z_near xi X Y : Forall2 (near xi) X Y -> exp (- xi) * sumf X exp <= sumf Y exp <= exp xi * sumf X exp.
Proof.
  induction 1 as [|x y X Y H F IH]; [rewrite !sumf_nil; lra|]. rewrite !sumf_cons. assert (K := exp_near xi x y H). lra.
Qed.

Lemma exp_m1 z : 0 <= z <= / 2 -> exp z <= 1 + 2 * z.
Proof.
  intros H. assert (L := exp_ineq1_le (- z)). assert (E : exp z * exp (- z) = 1) by (rewrite <- exp_plus, Rplus_opp_r; apply exp_0). assert (P := exp_pos z). nra.
Qed.

Lemma share_near xi X Y x y : 0 <= xi -> 4 * xi <= 1 -> X <> [] -> Forall2 (near xi) X Y -> near xi x y ->
  Rabs (exp y / sumf Y exp - exp x / sumf X exp) <= 4 * xi * (exp x / sumf X exp).
Proof.
  intros H0 H1 Hne HF Hxy. assert (ZX := sumf_exp_pos X Hne). assert (Hne' : Y <> []) by (intros ->; inversion HF; subst; contradiction). assert (ZY := sumf_exp_pos Y Hne').
  destruct (Z_near xi X Y HF) as [Z1 Z2]. destruct (exp_near xi x y Hxy) as [E1 E2]. set (p := exp x / sumf X exp). assert (Pp : 0 < p) by (apply Rdiv_lt_0_compat; [apply exp_pos|assumption]).
  assert (A := exp_pos xi). assert (B := exp_pos (- xi)). assert (AB : exp xi * exp (- xi) = 1) by (rewrite <- exp_plus, Rplus_opp_r; apply exp_0).
  assert (Q : exp y / sumf Y exp * sumf Y exp = exp y) by (field; lra). set (q := exp y / sumf Y exp) in *. assert (Pq : 0 < q) by (apply Rdiv_lt_0_compat; [apply exp_pos|assumption]).
  assert (Q2 : p * sumf X exp = exp x) by (unfold p; field; lra). set (a := exp xi) in *. set (b := exp (- xi)) in *. rewrite <- Q2 in E1, E2. rewrite <- Q in E1, E2. clear Q Q2.
  assert (K1 : q <= a * a * p). { assert (T : q * (b * sumf X exp) <= a * (p * sumf X exp)) by (eapply Rle_trans; [|exact E2]; apply Rmult_le_compat_l; lra).
    assert (T2 : q * b <= a * p) by (apply Rmult_le_reg_r with (sumf X exp); [assumption|lra]). replace q with (q * b * a) by (rewrite Rmult_assoc, (Rmult_comm b a), AB; ring). replace (a * a * p) with (a * p * a) by ring. apply Rmult_le_compat_r; lra. }
  assert (K2 : b * b * p <= q). { assert (T : b * (p * sumf X exp) <= q * (a * sumf X exp)) by (eapply Rle_trans; [exact E1|]; apply Rmult_le_compat_l; lra).
    assert (T2 : b * p <= q * a) by (apply Rmult_le_reg_r with (sumf X exp); [assumption|lra]). replace q with (q * a * b) by (rewrite Rmult_assoc, AB; ring). replace (b * b * p) with (b * p * b) by ring. apply Rmult_le_compat_r; lra. }
  assert (A2 : a * a = exp (2 * xi)) by (unfold a; rewrite <- exp_plus; f_equal; ring). assert (B2 : b * b = exp (- (2 * xi))) by (unfold b; rewrite <- exp_plus; f_equal; ring).
  assert (A3 := exp_m1 (2 * xi) ltac:(lra)). assert (B3 := exp_ineq1_le (- (2 * xi))). rewrite A2 in K1. rewrite B2 in K2.
  assert (A4 : exp (2 * xi) * p <= (1 + 2 * (2 * xi)) * p) by (apply Rmult_le_compat_r; lra). assert (B4 : (1 + - (2 * xi)) * p <= exp (- (2 * xi)) * p) by (apply Rmult_le_compat_r; lra).
  assert (0 <= xi * p) by nra. apply Rabs_le. lra.
Qed.

Lemma share_le1 X x : In x X -> exp x / sumf X exp <= 1.
Proof.
  intros H. assert (K := sumf_in_le X exp x ltac:(intros; left; apply exp_pos) H). assert (P := exp_pos x). apply Rmult_le_reg_r with (sumf X exp); [lra|]. unfold Rdiv. rewrite Rmult_assoc, Rinv_l by lra. lra.
Qed.

Lemma avg_near xi X Y c : 0 <= xi -> 4 * xi <= 1 -> X <> [] -> Forall2 (near xi) X Y -> length c = length X -> Forall (fun x => x = -1 \/ x = 0 \/ x = 1) c ->
  Rabs (wexp Y c / sumf Y exp - wexp X c / sumf X exp) <= 4 * xi.
Proof.
  intros H0 H1 Hne HF Hl Hc. unfold wexp.
  assert (S := fun x y => share_near xi X Y x y H0 H1 Hne HF). assert (ZX := sumf_exp_pos X Hne).
  assert (G : forall X1 Y1 c1, Forall2 (near xi) X1 Y1 -> length c1 = length X1 -> Forall (fun x => x = -1 \/ x = 0 \/ x = 1) c1 ->
    Rabs (sumf (combine Y1 c1) (fun p => snd p * exp (fst p)) / sumf Y exp - sumf (combine X1 c1) (fun p => snd p * exp (fst p)) / sumf X exp) <= 4 * xi * (sumf X1 exp / sumf X exp)).
  { intros X1 Y1 c1 F1. revert c1. induction F1 as [|x y X1 Y1 Hxy F1 IH]; intros [|a c1] Hl1 Hc1; try discriminate.
    - cbn [combine]. rewrite !sumf_nil. unfold Rdiv. rewrite !Rmult_0_l, Rminus_eq_0, Rabs_R0. lra.
    - cbn [combine]. rewrite !sumf_cons. cbn [fst snd]. apply Forall_cons_iff in Hc1. destruct Hc1 as [Ha Hc1]. cbn in Hl1. injection Hl1. intros Hl2. specialize (IH c1 Hl2 Hc1). specialize (S x y Hxy).
      set (A := sumf (combine Y1 c1) _) in *. set (B := sumf (combine X1 c1) _) in *. set (ZY := sumf Y exp) in *. set (ZZ := sumf X exp) in *.
      replace ((a * exp y + A) / ZY - (a * exp x + B) / ZZ) with (a * (exp y / ZY - exp x / ZZ) + (A / ZY - B / ZZ)) by (unfold Rdiv; ring). eapply Rle_trans; [apply Rabs_triang|]. rewrite Rabs_mult.
      assert (UA := unit_abs a Ha). assert (0 <= Rabs a) by apply Rabs_pos. assert (0 <= Rabs (exp y / ZY - exp x / ZZ)) by apply Rabs_pos. replace (4 * xi * ((exp x + sumf X1 exp) / ZZ)) with (4 * xi * (exp x / ZZ) + 4 * xi * (sumf X1 exp / ZZ)) by (unfold Rdiv; ring). nra. }
  specialize (G X Y c HF Hl Hc). replace (sumf X exp / sumf X exp) with 1 in G by (field; lra). lra.
Qed.

(** ** Energy expressions *)
Definition tval (e : env) (t : term) (x : R) : Prop := exists y, eval_atom e (snd t) = Ok y /\ x = if fst t then - y else y.

Lemma eval_terms_vals e l : forall x, eval_terms e l = Ok x -> exists vs, Forall2 (tval e) l vs /\ x = sumR vs.
Proof.
  induction l as [|[b a] l IH]; intros x H; cbn [eval_terms] in H.
  - injection H as <-. exists []. split; [constructor|reflexivity].
  - destruct (eval_atom e a) as [y|] eqn:Ea; [|discriminate]. cbn [bind] in H. destruct (eval_terms e l) as [z|]; [|discriminate]. cbn [bind] in H. injection H as <-.
    destruct (IH z eq_refl) as (vs & F & ->). exists ((if b then - y else y) :: vs). split; [|unfold sumR; now rewrite sumf_cons]. constructor; [|assumption]. exists y. split; [assumption|reflexivity].
Qed.

Lemma fl_eval_from_vals e l vs : Forall2 (tval e) l vs -> forall acc, fl_eval_from e acc l = Ok (fold_left fadd vs acc).
Proof.
  induction 1 as [|[b a] x l vs (y & Hy & ->) F IH]; intros acc; [reflexivity|]. cbn [fl_eval_from fst snd] in *. rewrite Hy. cbn [bind fold_left]. apply IH.
Qed.

Lemma Forall2_len {A B} (R0 : A -> B -> Prop) l m : Forall2 R0 l m -> length l = length m.
Proof. induction 1; cbn; congruence. Qed.

Definition env_vals (Q : R -> Prop) (e : env) : Prop := forall c v, In (c, v) e -> Forall Q v.

Lemma lookup_env (Q : R -> Prop) e c v : env_vals Q e -> lookup e c = Ok v -> Forall Q v.
Proof.
  intros H. induction e as [|[d w] e IH]; [discriminate|]. cbn. destruct (Ascii.eqb c d).
  - intros E. injection E as <-. apply (H d w). now left.
  - intros E. apply IH; [|assumption]. intros c' v' Hin. apply (H c' v'). now right.
Qed.

Lemma eval_atom_val (Q : R -> Prop) e a y : Q 0 -> env_vals Q e -> eval_atom e a = Ok y -> Q y.
Proof.
  intros Q0 He. destruct a as [|c i]; cbn.
  - intros H. now injection H as <-.
  - destruct (lookup e c) as [v|] eqn:E; [|discriminate]. cbn. unfold get. destruct (nth_error v i) as [z|] eqn:En; [|discriminate]. intros H. injection H as <-.
    assert (F := lookup_env Q e c v He E). rewrite Forall_forall in F. apply F. now apply nth_error_In in En.
Qed.

Definition fl_bounded (P x : R) : Prop := float64 x /\ Rabs x <= P.

Lemma vals_bounded P e l vs : 0 <= P -> env_vals (fl_bounded P) e -> Forall2 (tval e) l vs -> Forall float64 vs /\ sumf vs Rabs <= INR (length l) * P.
Proof.
  intros HP He. induction 1 as [|[b a] x l vs (y & Hy & ->) F [I1 I2]]; [split; [constructor|rewrite sumf_nil; cbn; lra]|].
  cbn [fst snd] in *. assert (B0 : fl_bounded P 0) by (split; [apply float_0|now rewrite Rabs_R0]). destruct (eval_atom_val _ e a y B0 He Hy) as [F1 F2].
  split; [constructor; [destruct b; [now apply float_opp|assumption]|assumption]|]. rewrite sumf_cons. cbn [length]. rewrite S_INR. assert (Rabs (if b then - y else y) = Rabs y) by (destruct b; [apply Rabs_Ropp|reflexivity]). lra.
Qed.

Lemma fl_eval_near P m e l x : 0 <= P -> 2 * (INR m * u64) <= 1 -> (length l <= m)%nat -> env_vals (fl_bounded P) e -> eval_terms e l = Ok x ->
  exists y, fl_eval_terms e l = Ok y /\ float64 y /\ near (2 * INR m * u64 * (INR m * P)) x y /\ Rabs y <= 2 * (INR m * P) /\ Rabs x <= INR m * P.
Proof.
  intros HP Hm Hl He Hx. destruct (eval_terms_vals e l x Hx) as (vs & F & ->). destruct (vals_bounded P e l vs HP He F) as [V1 V2]. assert (U := u64_pos).
  assert (LM : INR (length l) <= INR m) by now apply le_INR. assert (M0 := pos_INR m). assert (B0 : 0 <= INR m * P) by nra. assert (V3 : sumf vs Rabs <= INR m * P) by nra.
  assert (AX : Rabs (sumR vs) <= sumf vs Rabs). { clear. unfold sumR. induction vs as [|v vs IH]; [rewrite !sumf_nil, Rabs_R0; lra|]. rewrite !sumf_cons. eapply Rle_trans; [apply Rabs_triang|]. lra. }
  assert (K : exists y, fl_eval_terms e l = Ok y /\ float64 y /\ near (2 * INR m * u64 * (INR m * P)) (sumR vs) y).
  { destruct l as [|[b a] l]; inversion F as [|t0 v0 l0 vs' (z & Hz & Hv0) F' E1 E2]; subst vs.
    - exists 0. split; [reflexivity|]. split; [apply float_0|]. unfold near, sumR. rewrite sumf_nil, Rminus_eq_0, Rabs_R0. apply Rmult_le_pos; [|assumption]. nra.
    - cbn [fl_eval_terms]. cbn [fst snd] in Hz, Hv0. rewrite Hz. cbn [bind]. rewrite <- Hv0, (fl_eval_from_vals e l vs' F'). eexists. split; [reflexivity|].
      set (t := comb (Leaf v0) vs'). assert (TL : leaves t = v0 :: vs') by (unfold t; rewrite comb_leaves; reflexivity). assert (TS : tree_sum t = fold_left fadd vs' v0) by (unfold t; rewrite comb_sum; reflexivity).
      assert (TD : (depth t <= m)%nat). { unfold t. rewrite comb_depth. cbn [depth]. apply Forall2_len in F'. cbn in Hl. lia. }
      rewrite <- TS. rewrite <- TL in *. split; [now apply tree_float|]. unfold near. eapply Rle_trans; [apply tree_error; assumption|]. assert (G := grow_le (depth t) m TD). assert (L := grow_linear m ltac:(lra)).
      assert (S0 : 0 <= sumf (leaves t) Rabs) by (apply sumf_nonneg; intros; apply Rabs_pos).
      apply Rmult_le_compat; [|assumption|lra|assumption]. assert (G0 := grow_le 0 (depth t) ltac:(lia)). cbn in G0. lra. }
  destruct K as (y & K1 & K2 & K3). exists y. split; [assumption|]. split; [assumption|]. split; [assumption|]. split; [|lra].
  unfold near in K3. replace y with ((y - sumR vs) + sumR vs) by ring. eapply Rle_trans; [apply Rabs_triang|]. assert (2 * INR m * u64 * (INR m * P) <= 1 * (INR m * P)) by (apply Rmult_le_compat_r; lra). lra.
Qed.

Lemma slice_Forall {A} (Q : A -> Prop) l a b : Forall Q l -> Forall Q (slice l a b).
Proof.
  intros H. rewrite Forall_forall in *. intros x Hx. apply H. unfold slice in Hx. rewrite <- (firstn_skipn a l). apply in_or_app. right. rewrite <- (firstn_skipn (b - a) (skipn a l)). apply in_or_app. now left.
Qed.

Lemma make_env_vals Q f params : Forall Q params -> env_vals Q (make_env f params).
Proof.
  intros H c v Hin. unfold make_env in Hin. apply in_rev in Hin. apply in_map_iff in Hin. destruct Hin as ([d [a b]] & E & _). cbn in E. injection E as <- <-. now apply slice_Forall.
Qed.

Lemma mapM_inv {A B} (f : A -> result B) l : forall ys, mapM f l = Ok ys -> Forall2 (fun a b => f a = Ok b) l ys.
Proof.
  induction l as [|a l IH]; intros ys H; cbn [mapM] in H; [injection H as <-; constructor|].
  destruct (f a) as [b|] eqn:E; [|discriminate]. cbn [bind] in H. destruct (mapM f l) as [bs|]; [|discriminate]. cbn [bind] in H. injection H as <-. constructor; auto.
Qed.

Lemma mapM_F2 {A B} (f : A -> result B) l ys : Forall2 (fun a b => f a = Ok b) l ys -> mapM f l = Ok ys.
Proof. induction 1 as [|a b l ys H F IH]; [reflexivity|]. cbn [mapM]. rewrite H. cbn [bind]. rewrite IH. reflexivity. Qed.

(** ** Ratios of sums of exponentials *)
Lemma share_shift x0 X' x : exp (x - max_from x0 X') / Ssum x0 X' = exp x / sumf (x0 :: X') exp.
Proof.
  assert (E : Ssum x0 X' = sumf (x0 :: X') exp * exp (- max_from x0 X')) by (unfold Ssum; rewrite <- sumf_scal_r; apply sumf_ext; intros y; unfold Rminus; apply exp_plus).
  rewrite E. unfold Rminus. rewrite exp_plus. assert (Z := sumf_exp_pos (x0 :: X') ltac:(discriminate)). assert (M := exp_pos (- max_from x0 X')). field. lra.
Qed.

Lemma avg_shift x0 X' c : ysum x0 X' c / Ssum x0 X' = wexp (x0 :: X') c / sumf (x0 :: X') exp.
Proof.
  assert (E : Ssum x0 X' = sumf (x0 :: X') exp * exp (- max_from x0 X')) by (unfold Ssum; rewrite <- sumf_scal_r; apply sumf_ext; intros y; unfold Rminus; apply exp_plus).
  assert (E2 : ysum x0 X' c = wexp (x0 :: X') c * exp (- max_from x0 X')) by (unfold ysum, wexp; rewrite <- sumf_scal_r; apply sumf_ext; intros [y a]; cbn [fst snd]; unfold Rminus; rewrite exp_plus; ring).
  rewrite E, E2. assert (Z := sumf_exp_pos (x0 :: X') ltac:(discriminate)). assert (M := exp_pos (- max_from x0 X')). field. lra.
Qed.

Section FileErr.
Variables (fexp flog : R -> R) (osum odot : list R -> sum_tree) (eps : R).
Hypothesis Hu : u64 <= eps.
Hypothesis Hexp : forall x, float64 x -> x <= 1 -> float64 (fexp x) /\ Rabs (fexp x - exp x) <= eps.
Hypothesis Hlog : forall y, float64 y -> 0 < y -> float64 (flog y) /\ Rabs (flog y - ln y) <= eps * Rabs (ln y).
Hypothesis Hos : sum_order osum.
Hypothesis Hod : sum_order odot.
Variables (f : eqn_file) (params : list R) (P : R) (m : nat).
Hypothesis HP : Forall (fl_bounded P) params.
Hypothesis HP0 : 0 <= P.
Hypothesis Hm : Forall (fun t => (length t <= m)%nat) (ef_terms f).
Let N := INR (length (ef_terms f)).
Let m' := INR m.
Hypothesis Heps : 512 * (N + m' + m' * m' * P) * eps <= 1.
Let e := make_env f params.
Let xi := 2 * m' * u64 * (m' * P).

Lemma file_consts : 0 < eps /\ 0 <= N /\ 0 <= m' /\ 0 <= m' * P <= m' * m' * P /\ 0 <= m' * m' * P * eps /\ 512 * (m' * eps) + 512 * (N * eps) + 512 * (m' * m' * P * eps) <= 1 /\ 0 <= xi <= 2 * (m' * m' * P * eps) /\ 2 * (INR m * u64) <= 1.
Proof.
  assert (U := u64_pos). assert (E : 0 < eps) by lra. assert (N0 : 0 <= N) by apply pos_INR. assert (M0 : 0 <= m') by apply pos_INR.
  assert (MP : 0 <= m' * P) by now apply Rmult_le_pos. assert (MP2 : m' * P <= m' * m' * P).
  { unfold m'. destruct m as [|k]; [cbn; lra|]. rewrite S_INR. assert (K := pos_INR k). assert (1 * (INR k + 1) <= (INR k + 1) * (INR k + 1)) by (apply Rmult_le_compat_r; lra). apply Rmult_le_compat_r; [assumption|lra]. }
  assert (0 <= m' * m' * P * eps) by (apply Rmult_le_pos; lra). assert (0 <= m' * eps) by (apply Rmult_le_pos; lra). assert (0 <= N * eps) by (apply Rmult_le_pos; lra).
  assert (m' * u64 <= m' * eps) by (apply Rmult_le_compat_l; lra). assert (0 <= m' * u64) by (apply Rmult_le_pos; lra).
  assert (X1 : 0 <= m' * u64 * (m' * P)) by now apply Rmult_le_pos. assert (X2 : m' * u64 * (m' * P) <= m' * eps * (m' * P)) by now apply Rmult_le_compat_r.
  unfold xi. fold m'. repeat split; try lra.
Qed.

Lemma energies_near X : mapM (eval_terms e) (ef_terms f) = Ok X -> exists Y, mapM (fl_eval_terms e) (ef_terms f) = Ok Y /\ Forall2 (near xi) X Y /\ Forall float64 Y /\ Forall (fun y => Rabs y <= 2 * (m' * P)) Y /\ length Y = length (ef_terms f).
Proof.
  intros H. apply mapM_inv in H. assert (C : 2 * (INR m * u64) <= 1) by (destruct file_consts; tauto). assert (HE := make_env_vals _ f params HP). fold e in HE. revert Hm. clear Heps N.
  induction H as [|t x ts X Hx F IH]; intros Hm'; [exists []; repeat split; constructor|]. apply Forall_cons_iff in Hm'. destruct Hm' as [Hl Hm']. destruct (IH Hm') as (Y & Y1 & Y2 & Y3 & Y4 & Y5).
  destruct (fl_eval_near P m e t x HP0 C Hl HE Hx) as (y & A & B & D & G & _). exists (y :: Y). cbn [mapM]. rewrite A. cbn [bind]. rewrite Y1. cbn [bind]. repeat split; try constructor; auto. cbn. now rewrite Y5.
Qed.

Definition file_err : R := 150 * (N + m' * m' * P) * eps.

Theorem fl_observables_near C : Forall (Forall (fun c => c = -1 \/ c = 0 \/ c = 1)%Z) (ef_coeffs f) -> run_calc_observables f params = Ok C ->
  exists C', fl_run_calc_observables fexp flog osum odot f params = Ok C' /\ Forall2 (near file_err) C C'.
Proof.
  intros Hc H. unfold run_calc_observables in H. fold e in H. destruct (mapM (eval_terms e) (ef_terms f)) as [X|] eqn:EX; [|discriminate]. cbn [bind] in H.
  destruct (energies_near X EX) as (Y & Y1 & Y2 & Y3 & Y4 & Y5). unfold fl_run_calc_observables. fold e. rewrite Y1. cbn [bind].
  assert (Hne : X <> []) by (intros ->; discriminate). assert (Hne' : Y <> []) by (intros ->; inversion Y2; subst; contradiction).
  rewrite fast_logsumexp_none in H by assumption. cbn [bind fst] in H. assert (C0 := file_consts). assert (LX := Forall2_len _ _ _ Y2).
  destruct Y as [|y0 Y']; [contradiction|].
  assert (HE : 256 * (INR (length (y0 :: Y')) + 2 * (m' * P)) * eps <= 1). { rewrite Y5. fold N. destruct C0 as (c1 & c2 & c3 & c4 & c5 & c6 & c7 & c8). assert (0 <= m' * eps) by (apply Rmult_le_pos; lra). assert (m' * P * eps <= m' * m' * P * eps) by (apply Rmult_le_compat_r; lra). assert (0 <= N * eps) by (apply Rmult_le_pos; lra). lra. }
  destruct (logZ_err fexp flog osum odot eps Hu Hexp Hlog Hos y0 Y' (2 * (m' * P)) Y3 Y4 HE) as (l & L1 & L2 & L3). rewrite L1. cbn [bind fst].
  assert (G : forall cs C, Forall (Forall (fun c => c = -1 \/ c = 0 \/ c = 1)%Z) cs ->
    mapM (fun c => bind (fast_logsumexp X (Some (map IZR c))) (fun num => Ok (nan_to_0 (option_map (fun x => x * snd num) (exp_diff (fst num) (Fin (ln (sumf X exp)))))))) cs = Ok C ->
    exists C', mapM (fun c => bind (fl_fast_logsumexp fexp flog osum odot (y0 :: Y') (Some (map IZR c))) (fun num => Ok (nan_to_0 (option_map (fun x => fmul x (snd num)) (fl_exp_diff fexp (fst num) (Fin l)))))) cs = Ok C' /\ Forall2 (near file_err) C C').
  { clear H Hc C. induction cs as [|c cs IH]; intros C Hc H; cbn [mapM] in H; [injection H as <-; exists []; split; [reflexivity|constructor]|].
    apply Forall_cons_iff in Hc. destruct Hc as [Hc0 Hc]. destruct (Nat.eq_dec (length (map IZR c)) (length X)) as [Hl|Hl].
    - rewrite fast_logsumexp_some in H by assumption. cbn [bind fst snd] in H. rewrite signed_ratio in H by (now apply sumf_exp_pos).
      destruct (mapM _ cs) as [C1|] eqn:E1 in H; [|discriminate]. cbn [bind] in H. injection H as <-. destruct (IH C1 Hc E1) as (C1' & I1 & I2).
      assert (Hun : Forall (fun x => x = -1 \/ x = 0 \/ x = 1) (map IZR c)). { apply Forall_forall. intros z Hz. apply in_map_iff in Hz. destruct Hz as (k & <- & Hk). rewrite Forall_forall in Hc0. destruct (Hc0 k Hk) as [-> |[-> | ->]]; cbn; tauto. }
      destruct (avg_err fexp flog osum odot eps Hu Hexp Hlog Hod y0 Y' (2 * (m' * P)) Y3 Y4 HE (map IZR c) l ltac:(split; [congruence|exact Hun]) L2 L3) as (num & N1 & N2).
      cbn [mapM]. rewrite N1. cbn [bind]. rewrite I1. cbn [bind]. eexists. split; [reflexivity|]. constructor; [|assumption].
      rewrite avg_shift in N2. destruct C0 as (c1 & c2 & c3 & c4 & c5 & c6 & c7 & c8). assert (0 <= N * eps) by (apply Rmult_le_pos; lra). assert (0 <= m' * eps) by (apply Rmult_le_pos; lra).
      assert (A := avg_near xi X (y0 :: Y') (map IZR c) ltac:(lra) ltac:(lra) Hne Y2 Hl Hun). unfold near, file_err. unfold err70 in N2. rewrite Y5 in N2. fold N in N2.
      set (v := nan_to_0 _) in *. set (q := wexp (y0 :: Y') _ / _) in *. set (r := wexp X _ / _) in *. replace (v - r) with ((v - q) + (q - r)) by ring. eapply Rle_trans; [apply Rabs_triang|].
      assert (m' * P * eps <= m' * m' * P * eps) by (apply Rmult_le_compat_r; lra). lra.
    - exfalso. destruct X as [|x X]; [contradiction|]. unfold fast_logsumexp in H. destruct (Nat.eqb_spec (length (map IZR c)) (length (x :: X))); [contradiction|]. discriminate. }
  exact (G (ef_coeffs f) C Hc H).
Qed.

Theorem fl_p_near Pr : ef_probs f = ef_terms f -> run_p f params = Ok Pr ->
  exists Q Q', Pr = map Some Q /\ fl_run_p fexp flog osum odot f params = Ok (map Some Q') /\ Forall2 (near file_err) Q Q'.
Proof.
  intros Hpr H. unfold run_p in H. cbv zeta in H. fold e in H. rewrite Hpr in H. destruct (mapM (eval_terms e) (ef_terms f)) as [X|] eqn:EX; [|discriminate]. cbn [bind] in H.
  destruct (energies_near X EX) as (Y & Y1 & Y2 & Y3 & Y4 & Y5). unfold fl_run_p. cbv zeta. fold e. rewrite Hpr, Y1. cbn [bind].
  assert (Hne : X <> []) by (intros ->; discriminate). assert (Hne' : Y <> []) by (intros ->; inversion Y2; subst; contradiction).
  rewrite fast_logsumexp_none in H by assumption. cbn [bind fst] in H. assert (C0 := file_consts). assert (LX := Forall2_len _ _ _ Y2).
  destruct Y as [|y0 Y']; [contradiction|].
  assert (HE : 256 * (INR (length (y0 :: Y')) + 2 * (m' * P)) * eps <= 1). { rewrite Y5. fold N. destruct C0 as (c1 & c2 & c3 & c4 & c5 & c6 & c7 & c8). assert (0 <= m' * eps) by (apply Rmult_le_pos; lra). assert (m' * P * eps <= m' * m' * P * eps) by (apply Rmult_le_compat_r; lra). assert (0 <= N * eps) by (apply Rmult_le_pos; lra). lra. }
  destruct (logZ_err fexp flog osum odot eps Hu Hexp Hlog Hos y0 Y' (2 * (m' * P)) Y3 Y4 HE) as (l & L1 & L2 & L3). rewrite L1. cbn [bind fst].
  assert (G1 : mapM (fun t => bind (eval_terms e t) (fun x => Ok (exp_diff (Fin x) (Fin (ln (sumf X exp)))))) (ef_terms f) = Ok (map (fun x => Some (exp x / sumf X exp)) X)).
  { assert (Z := sumf_exp_pos X Hne). apply mapM_F2. apply mapM_inv in EX. clear - EX Z. revert Z. generalize (sumf X exp). intros z Z. induction EX as [|t x ts X0 Hx F IH]; cbn [map]; constructor; [|assumption]. rewrite Hx. cbn [bind]. now rewrite exp_diff_prob. }
  assert (G2 : mapM (fun t => bind (fl_eval_terms e t) (fun x => Ok (fl_exp_diff fexp (Fin x) (Fin l)))) (ef_terms f) = Ok (map (fun y => Some (fexp (fsub y l))) (y0 :: Y'))).
  { apply mapM_F2. apply mapM_inv in Y1. clear - Y1. induction Y1 as [|t x ts X0 Hx F IH]; cbn [map]; constructor; [|assumption]. rewrite Hx. reflexivity. }
  rewrite G1 in H. rewrite G2. cbn [bind] in *. injection H as <-.
  assert (F : Forall2 (near file_err) (map (fun x => exp x / sumf X exp) X) (map (fun y => fexp (fsub y l)) (y0 :: Y'))).
  { assert (PE := prob_err fexp eps Hu Hexp y0 Y' (2 * (m' * P)) Y3 Y4 HE l). destruct C0 as (c1 & c2 & c3 & c4 & c5 & c6 & c7 & c8). assert (0 <= N * eps) by (apply Rmult_le_pos; lra). assert (0 <= m' * eps) by (apply Rmult_le_pos; lra).
    assert (SN := fun x y => share_near xi X (y0 :: Y') x y ltac:(lra) ltac:(lra) Hne Y2). assert (SL := share_le1 X).
    assert (GG : forall A B, incl A X -> incl B (y0 :: Y') -> Forall2 (near xi) A B -> Forall2 (near file_err) (map (fun x => exp x / sumf X exp) A) (map (fun y => fexp (fsub y l)) B)).
    { intros A B IA IB FA. revert IA IB. induction FA as [|x y A B Hxy FA IH]; intros IA IB; cbn [map]; constructor; [|apply IH; intros z Hz; [apply IA|apply IB]; now right].
      specialize (PE y (IB y (or_introl eq_refl)) L2 L3). specialize (SN x y Hxy). specialize (SL x (IA x (or_introl eq_refl))). rewrite share_shift in PE. unfold near, file_err. unfold err70 in PE. rewrite Y5 in PE. fold N in PE.
      set (v := fexp _) in *. set (q := exp y / _) in *. set (r := exp x / _) in *. assert (4 * xi * r <= 4 * xi * 1) by (apply Rmult_le_compat_l; lra). replace (v - r) with ((v - q) + (q - r)) by ring. eapply Rle_trans; [apply Rabs_triang|].
      assert (m' * P * eps <= m' * m' * P * eps) by (apply Rmult_le_compat_r; lra). lra. }
    apply GG; [apply incl_refl|apply incl_refl|assumption]. }
  destruct (ef_rev f).
  - exists (rev (map (fun x => exp x / sumf X exp) X)), (rev (map (fun y => fexp (fsub y l)) (y0 :: Y'))). rewrite !map_rev, !map_map. split; [reflexivity|]. split; [reflexivity|].
    clear - F. induction F as [|x y A B H F IH]; [constructor|]. cbn [rev]. apply Forall2_app; [assumption|]. constructor; [assumption|constructor].
  - exists (map (fun x => exp x / sumf X exp) X), (map (fun y => fexp (fsub y l)) (y0 :: Y')). rewrite !map_map. split; [reflexivity|]. split; [reflexivity|assumption].
Qed.
End FileErr.
