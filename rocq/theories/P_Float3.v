(** * Rounding in fast_logsumexp and in averages computed with it *)
From Coq Require Import Permutation.
From Flocq Require Import Core.
From Verif Require Import Prelude Spec PreludeFacts M_Index M_Enum P_Enum M_Float P_Float M_FloatEnum.
Import ListNotations.
Local Open Scope R_scope.

Lemma Rabs_def2_le x a : Rabs x <= a -> - a <= x <= a.
Proof. unfold Rabs. destruct (Rcase_abs x); lra. Qed.

Lemma exp_le_1 x : x <= 0 -> exp x <= 1.
Proof. intros H. rewrite <- exp_0. destruct (Req_dec x 0) as [-> |N]; [lra|]. left. apply exp_increasing. lra. Qed.
Lemma exp_mono x y : x <= y -> exp x <= exp y.
Proof. intros H. destruct (Req_dec x y) as [-> |N]; [lra|]. left. apply exp_increasing. lra. Qed.

Lemma exp_lip a b m : a <= m -> b <= m -> Rabs (exp a - exp b) <= exp m * Rabs (a - b).
Proof.
  assert (K : forall a b, a <= b -> 0 <= exp b - exp a <= exp b * (b - a)).
  { intros x y H. assert (E : exp x = exp y * exp (x - y)) by (rewrite <- exp_plus; f_equal; ring). assert (L := exp_ineq1_le (x - y)). assert (P := exp_pos y).
    assert (L1 := exp_le_1 (x - y) ltac:(lra)). rewrite E. split; nra. }
  intros Ha Hb. assert (P := exp_pos m). assert (Ea := exp_mono a m Ha). assert (Eb := exp_mono b m Hb). destruct (Rle_dec a b) as [L|L].
  - specialize (K a b L). rewrite Rabs_minus_sym, Rabs_pos_eq, Rabs_minus_sym, Rabs_pos_eq by lra. nra.
  - specialize (K b a ltac:(lra)). rewrite Rabs_pos_eq, Rabs_pos_eq by lra. nra.
Qed.

Lemma ln_lip a b m : 0 < m -> m <= a -> m <= b -> Rabs (ln a - ln b) <= Rabs (a - b) / m.
Proof.
  assert (K : forall m a b, 0 < m -> m <= a -> a <= b -> 0 <= ln b - ln a <= (b - a) / m).
  { clear. intros m a b Hm Ha Hab. split; [destruct (Req_dec a b) as [-> |N]; [lra|assert (L := ln_increasing a b ltac:(lra) ltac:(lra)); lra]|].
    assert (E : ln b - ln a = ln (b / a)) by (unfold Rdiv; rewrite ln_mult, ln_Rinv; [lra|lra|lra|apply Rinv_0_lt_compat; lra]). rewrite E.
    assert (P : 0 < b / a) by (apply Rdiv_lt_0_compat; lra). assert (L := exp_ineq1_le (ln (b / a))). rewrite exp_ln in L by assumption.
    apply Rle_trans with ((b - a) / a); [replace ((b - a) / a) with (b / a - 1) by (field; lra); lra|]. unfold Rdiv. apply Rmult_le_compat_l; [lra|]. apply Rinv_le_contravar; lra. }
  intros Hm Ha Hb. destruct (Rle_dec a b) as [L|L].
  - specialize (K m a b Hm Ha L). rewrite Rabs_minus_sym, Rabs_pos_eq, Rabs_minus_sym, Rabs_pos_eq by lra. lra.
  - specialize (K m b a Hm Hb ltac:(lra)). rewrite Rabs_pos_eq, Rabs_pos_eq by lra. lra.
Qed.

Lemma z_exp z : 0 <= z -> z * exp (- z) <= 1.
Proof. intros H. assert (L := exp_ineq1_le z). assert (P := exp_pos (- z)). assert (E : exp z * exp (- z) = 1) by (rewrite <- exp_plus, Rplus_opp_r; apply exp_0). nra. Qed.

Lemma exp_small x : 0 <= x <= / 9 -> exp x <= 9 / 8.
Proof.
  intros H. assert (L := exp_ineq1_le (- x)). assert (E : exp x * exp (- x) = 1) by (rewrite <- exp_plus, Rplus_opp_r; apply exp_0). assert (P := exp_pos x). nra.
Qed.

(** ** Averages *)
Section LSE.
Variables (fexp flog : R -> R) (osum odot : list R -> sum_tree) (eps : R).
Hypothesis Hu : u64 <= eps.
Hypothesis Hexp : forall x, float64 x -> x <= 1 -> float64 (fexp x) /\ Rabs (fexp x - exp x) <= eps.
Hypothesis Hlog : forall y, float64 y -> 0 < y -> float64 (flog y) /\ Rabs (flog y - ln y) <= eps * Rabs (ln y).
Hypothesis Hos : sum_order osum.
Hypothesis Hod : sum_order odot.
Variables (x0 : R) (X' : list R) (M : R).
Let X := x0 :: X'.
Hypothesis HX : Forall float64 X.
Hypothesis HM : Forall (fun x => Rabs x <= M) X.
Let N := INR (length X).
Hypothesis Heps : 256 * (N + M) * eps <= 1.

Let mx := max_from x0 X'.
Let es := map (fun x => fexp (fsub x mx)) X.

Lemma mx_in : In mx X. Proof. apply max_from_in. Qed.
Lemma mx_ge x : In x X -> x <= mx.
Proof. intros [<-|H]; destruct (max_from_ge X' x0) as [A B]; [exact A|exact (B x H)]. Qed.
Lemma mx_float : float64 mx. Proof. rewrite Forall_forall in HX. apply HX, mx_in. Qed.
Lemma mx_abs : Rabs mx <= M. Proof. rewrite Forall_forall in HM. apply HM, mx_in. Qed.
Lemma M_pos : 0 <= M. Proof. exact (Rle_trans _ _ _ (Rabs_pos _) mx_abs). Qed.
Lemma N_ge1 : 1 <= N. Proof. unfold N, X. cbn [length]. rewrite S_INR. assert (P := pos_INR (length X')). lra. Qed.
Lemma eps_pos : 0 < eps. Proof. assert (P := u64_pos). lra. Qed.
Lemma eps_N : 256 * (N * eps) <= 1 /\ 256 * (M * eps) <= 1 /\ 256 * eps <= 1 /\ eps <= N * eps /\ 256 * (N * eps + M * eps) <= 1.
Proof. assert (P := N_ge1). assert (E := eps_pos). assert (K := M_pos). assert (0 <= N * eps) by nra. assert (0 <= M * eps) by nra. assert (eps <= N * eps) by nra. repeat split; lra. Qed.

Lemma term_err x : In x X -> float64 (fexp (fsub x mx)) /\ Rabs (fexp (fsub x mx) - exp (x - mx)) <= 3 * eps.
Proof.
  intros H. assert (G := mx_ge x H). assert (Fx : float64 x) by (rewrite Forall_forall in HX; now apply HX). assert (E := fsub_error x mx Fx mx_float).
  set (a := x - mx) in *. set (a' := fsub x mx) in *. assert (A0 : a <= 0) by (unfold a; lra). rewrite (Rabs_left1 a A0) in E. assert (U := u64_pos). assert (U1 := u64_small).
  assert (E' := E). apply Rabs_def2_le in E'. assert (B1 : a' <= a * (1 - u64)) by lra. assert (B2 : a <= a * (1 - u64)) by nra.
  assert (B3 : a' <= 0) by nra. destruct (Hexp a' (rnd_float _) ltac:(lra)) as [F1 F2]. split; [assumption|].
  assert (K := exp_lip a' a (a * (1 - u64)) B1 B2). set (z := - a * (1 - u64)) in *. assert (Z0 : 0 <= z) by (unfold z; nra). assert (Zx := z_exp z Z0).
  replace (a * (1 - u64)) with (- z) in K by (unfold z; ring). assert (P := exp_pos (- z)).
  assert (A2 : - a <= 2 * z) by (unfold z; nra).
  assert (K2 : exp (- z) * Rabs (a' - a) <= 2 * u64). { apply Rle_trans with (exp (- z) * (u64 * (2 * z))); [apply Rmult_le_compat_l; [lra|]; apply Rle_trans with (u64 * - a); [assumption|apply Rmult_le_compat_l; lra]|]. replace (exp (- z) * (u64 * (2 * z))) with (2 * u64 * (z * exp (- z))) by ring. rewrite <- (Rmult_1_r (2 * u64)) at 2. apply Rmult_le_compat_l; lra. }
  replace (fexp a' - exp a) with ((fexp a' - exp a') + (exp a' - exp a)) by ring. eapply Rle_trans; [apply Rabs_triang|]. lra.
Qed.

Definition unit_coeffs (c : list R) : Prop := length c = length X /\ Forall (fun x => x = -1 \/ x = 0 \/ x = 1) c.

Definition ysum (c : list R) : R := sumf (combine X c) (fun p => snd p * exp (fst p - mx)).
Definition terms (c : list R) : list R := map (fun p => fst p * snd p) (combine es c).

Definition Ssum : R := sumf X (fun x => exp (x - mx)).

Lemma terms_facts_gen Y : (forall x, In x Y -> float64 (fexp (fsub x mx)) /\ Rabs (fexp (fsub x mx) - exp (x - mx)) <= 3 * eps) ->
  (forall x, In x Y -> exp (x - mx) <= 1) -> forall c, length c = length Y -> Forall (fun x => x = -1 \/ x = 0 \/ x = 1) c ->
  let es := map (fun x => fexp (fsub x mx)) Y in let terms := map (fun p => fst p * snd p) (combine es c) in
  length terms = length Y /\ Forall float64 terms /\
  map (fun p => fmul (fst p) (snd p)) (combine es c) = terms /\
  Rabs (sumR terms - sumf (combine Y c) (fun p => snd p * exp (fst p - mx))) <= INR (length Y) * (3 * eps) /\ sumf terms Rabs <= sumf Y (fun x => exp (x - mx)) + INR (length Y) * (3 * eps).
Proof.
  intros T T1. induction Y as [|y Y IH]; intros [|c cs] Hl Hc; try discriminate.
  - cbv zeta. cbn [map combine length]. rewrite sumf_nil. unfold sumR. rewrite !sumf_nil, Rminus_eq_0, Rabs_R0. cbn [INR]. split; [reflexivity|]. split; [constructor|]. split; [reflexivity|]. lra.
  - cbn in Hl. injection Hl. intros Hl'. apply Forall_cons_iff in Hc. destruct Hc as [Hc0 Hc]. destruct (IH (fun x H => T x (or_intror H)) (fun x H => T1 x (or_intror H)) cs Hl' Hc) as (I1 & I2 & I3 & I4 & I5).
    destruct (T y (or_introl eq_refl)) as [F1 F2]. specialize (T1 y (or_introl eq_refl)). assert (Ep := exp_pos (y - mx)).
    cbv zeta. cbn [map combine length fst snd]. rewrite S_INR. set (t := fexp (fsub y mx)) in *. destruct (fmul_unit t c F1 Hc0) as [G1 G2]. assert (UA := unit_abs c Hc0). assert (CA := Rabs_pos c).
    repeat split.
    + now rewrite I1.
    + constructor; assumption.
    + f_equal; assumption.
    + unfold sumR in *. rewrite !sumf_cons. cbn [fst snd]. set (A := sumf _ (fun x => x)) in *. set (B := sumf (combine Y cs) _) in *.
      replace (t * c + A - (c * exp (y - mx) + B)) with ((t - exp (y - mx)) * c + (A - B)) by ring. eapply Rle_trans; [apply Rabs_triang|]. rewrite Rabs_mult. assert (0 <= Rabs (t - exp (y - mx))) by apply Rabs_pos. nra.
    + rewrite !sumf_cons, Rabs_mult. assert (TA : Rabs t <= exp (y - mx) + 3 * eps). { replace t with ((t - exp (y - mx)) + exp (y - mx)) at 1 by ring. eapply Rle_trans; [apply Rabs_triang|]. rewrite (Rabs_pos_eq (exp _)) by lra. lra. }
      assert (0 <= Rabs t) by apply Rabs_pos. nra.
Qed.

Lemma terms_facts c : unit_coeffs c -> length (terms c) = length X /\ Forall float64 (terms c) /\
  map (fun p => fmul (fst p) (snd p)) (combine es c) = terms c /\
  Rabs (sumR (terms c) - ysum c) <= N * (3 * eps) /\ sumf (terms c) Rabs <= Ssum + N * (3 * eps).
Proof.
  intros [Hl Hc]. apply (terms_facts_gen X term_err); [|exact Hl|exact Hc]. intros x H. apply exp_le_1. assert (Q := mx_ge x H). lra.
Qed.

Lemma Ssum_range : 1 <= Ssum <= N.
Proof.
  unfold Ssum. split.
  - assert (H := sumf_in_le X (fun x => exp (x - mx)) mx ltac:(intros; left; apply exp_pos) mx_in). cbv beta in H. rewrite Rminus_eq_0, exp_0 in H. exact H.
  - eapply Rle_trans; [apply (sumf_le _ _ (fun _ => 1))|]; [intros x H; apply exp_le_1; assert (Q := mx_ge x H); lra|]. rewrite sumf_const. fold N. lra.
Qed.

Lemma tree_sum_err o l y r A : sum_order o -> l <> [] -> length l = length X -> Forall float64 l -> Rabs (sumR l - y) <= r -> sumf l Rabs <= A ->
  Rabs (tree_sum (o l) - y) <= 2 * N * u64 * A + r.
Proof.
  intros Ho Hne Hl Hf Hr HA. assert (P := Ho l Hne). assert (E := tree_error (o l) (Permutation_Forall (Permutation_sym P) Hf)).
  unfold sumR in E. rewrite !(sumf_perm _ _ _ P) in E. fold (sumR l) in E.
  assert (D := depth_leaves (o l)). rewrite (Permutation_length P), Hl in D. assert (G := grow_le (depth (o l)) (length X) ltac:(lia)).
  assert (Q := eps_N). assert (P1 := N_ge1). assert (U := u64_pos). assert (NU : N * u64 <= N * eps) by (apply Rmult_le_compat_l; lra).
  assert (L := grow_linear (length X) ltac:(fold N; lra)). fold N in L. assert (A0 : 0 <= sumf l Rabs) by (apply sumf_nonneg; intros; apply Rabs_pos).
  replace (tree_sum (o l) - y) with ((tree_sum (o l) - sumR l) + (sumR l - y)) by ring. eapply Rle_trans; [apply Rabs_triang|]. apply Rplus_le_compat; [|assumption].
  eapply Rle_trans; [exact E|]. apply Rle_trans with (2 * N * u64 * sumf l Rabs); [apply Rmult_le_compat_r; lra|]. apply Rmult_le_compat_l; [|assumption]. nra.
Qed.

Definition r7 : R := 7 * (N * eps) * Ssum.

Lemma r7_bound : 2 * N * u64 * (Ssum + N * (3 * eps)) + N * (3 * eps) <= r7.
Proof.
  unfold r7. assert (P := N_ge1). assert (Q := eps_N). assert (E := eps_pos). assert (U := u64_pos). assert (S := Ssum_range).
  assert (K : 2 * N * u64 * (Ssum + N * (3 * eps)) <= 2 * N * eps * (2 * Ssum)). { apply Rmult_le_compat; [nra|nra| |lra]. apply Rmult_le_compat_l; lra. }
  assert (N * eps <= N * eps * Ssum) by nra. lra.
Qed.

Lemma ydot_err c : unit_coeffs c -> Rabs (tree_sum (odot (map (fun p => fmul (fst p) (snd p)) (combine es c))) - ysum c) <= r7.
Proof.
  intros Hc. destruct (terms_facts c Hc) as (T1 & T2 & T3 & T4 & T5). rewrite T3.
  eapply Rle_trans; [apply (tree_sum_err odot _ (ysum c) _ _ Hod) with (5 := T5) (4 := T4); [|assumption|assumption]|].
  - intros H. rewrite H in T1. discriminate.
  - apply r7_bound.
Qed.

Lemma ones_coeffs : unit_coeffs (repeat 1 (length X)).
Proof. split; [apply repeat_length|]. apply Forall_forall. intros x H. apply repeat_spec in H. tauto. Qed.

Lemma combine_ones {A} (l : list A) (f : A * R -> R) : map f (combine l (repeat 1 (length l))) = map (fun x => f (x, 1)) l.
Proof. induction l as [|a l IH]; [reflexivity|]. cbn. now rewrite IH. Qed.

Lemma Ssum_ones : ysum (repeat 1 (length X)) = Ssum.
Proof.
  unfold ysum, Ssum. rewrite <- (sumR_map (fun p => snd p * exp (fst p - mx))), combine_ones. rewrite sumR_map. apply sumf_ext. intros x. cbn [fst snd]. ring.
Qed.

Lemma ysum_abs c : unit_coeffs c -> Rabs (ysum c) <= Ssum.
Proof.
  intros [Hl Hc]. unfold ysum, Ssum. clear - Hl Hc. revert c Hl Hc. induction X as [|x l IH]; intros [|c cs] Hl Hc; try discriminate; [cbn; rewrite Rabs_R0; lra|].
  cbn in Hl. injection Hl. intros Hl'. apply Forall_cons_iff in Hc. destruct Hc as [Hc0 Hc]. specialize (IH cs Hl' Hc). cbn [combine]. rewrite !sumf_cons. cbn [fst snd].
  eapply Rle_trans; [apply Rabs_triang|]. rewrite Rabs_mult, (Rabs_pos_eq (exp _)) by (left; apply exp_pos). assert (UA := unit_abs c Hc0). assert (E := exp_pos (x - mx)). nra.
Qed.

Lemma terms_ones : terms (repeat 1 (length X)) = es.
Proof. unfold terms. replace (length X) with (length es) by (unfold es; apply map_length). rewrite combine_ones. cbn [fst snd]. rewrite <- (map_id es) at 2. apply map_ext. intros a. ring. Qed.

Lemma sum_err : Rabs (tree_sum (osum es) - Ssum) <= r7.
Proof.
  destruct (terms_facts _ ones_coeffs) as (T1 & T2 & T3 & T4 & T5). rewrite Ssum_ones in T4.
  rewrite terms_ones in *.
  eapply Rle_trans; [apply (tree_sum_err osum _ Ssum _ _ Hos) with (5 := T5) (4 := T4); [|assumption|assumption]|].
  - intros H. rewrite H in T1. discriminate.
  - apply r7_bound.
Qed.

Lemma ln_small y : 1 <= y -> 0 <= ln y <= y - 1.
Proof.
  intros H1. split; [rewrite <- ln_1; destruct (Req_dec 1 y) as [<- |D]; [lra|left; apply ln_increasing; lra]|].
  assert (L := exp_ineq1_le (ln y)). rewrite exp_ln in L by lra. lra.
Qed.

(** The logarithm of the partition function. *)
Definition logZ : R := ln Ssum + mx.

Definition eL : R := 18 * (N * eps) + M * eps.

Lemma logZ_err : exists l, fl_fast_logsumexp fexp flog osum odot X None = Ok (Fin l, 1) /\ float64 l /\ Rabs (l - logZ) <= eL.
Proof.
  unfold fl_fast_logsumexp, X. fold X. fold mx. fold es. cbn [bind]. assert (SE := sum_err). set (y := tree_sum (osum es)) in *. assert (SR := Ssum_range). assert (Q := eps_N). unfold r7 in SE.
  assert (E := eps_pos). assert (P := N_ge1). assert (SE' := SE). apply Rabs_def2_le in SE'. assert (RS : 7 * (N * eps) * Ssum <= / 32 * Ssum) by (apply Rmult_le_compat_r; lra).
  destruct (Rlt_dec y 0); [lra|]. unfold fl_log. destruct (Req_EM_T y 0); [lra|]. cbn [fl_ladd]. exists (fadd (flog y) mx). split; [reflexivity|]. split; [apply rnd_float|].
  assert (Fy : float64 y). { destruct (terms_facts _ ones_coeffs) as (_ & T2 & _). rewrite terms_ones in T2. apply tree_float. refine (Permutation_Forall (Permutation_sym (Hos es _)) T2). discriminate. }
  destruct (Hlog y Fy ltac:(lra)) as [FL LE]. assert (LL := ln_lip y Ssum (Ssum / 2) ltac:(lra) ltac:(lra) ltac:(lra)). assert (LN := ln_small Ssum ltac:(lra)).
  assert (L1 : Rabs (ln y - ln Ssum) <= 14 * (N * eps)). { eapply Rle_trans; [exact LL|]. apply Rle_trans with (7 * (N * eps) * Ssum / (Ssum / 2)); [apply Rmult_le_compat_r; [left; apply Rinv_0_lt_compat; lra|assumption]|]. right. field. lra. }
  assert (L2' : Rabs (ln y) <= N + / 2).
  { replace (ln y) with ((ln y - ln Ssum) + ln Ssum) by ring. eapply Rle_trans; [apply Rabs_triang|]. rewrite (Rabs_pos_eq (ln Ssum)) by lra. lra. }
  assert (L3 : Rabs (flog y - ln y) <= eps * (N + / 2)) by (eapply Rle_trans; [exact LE|]; apply Rmult_le_compat_l; lra).
  assert (FE := fadd_error (flog y) mx FL mx_float). assert (MA := mx_abs).
  assert (L4 : Rabs (flog y + mx) <= N + 1 + M). { replace (flog y + mx) with ((flog y - ln y) + (ln y + mx)) by ring. eapply Rle_trans; [apply Rabs_triang|]. assert (T := Rabs_triang (ln y) mx). lra. }
  unfold logZ, eL. replace (fadd (flog y) mx - (ln Ssum + mx)) with ((fadd (flog y) mx - (flog y + mx)) + ((flog y - ln y) + (ln y - ln Ssum))) by ring.
  eapply Rle_trans; [apply Rabs_triang|]. assert (T := Rabs_triang (flog y - ln y) (ln y - ln Ssum)).
  assert (U := u64_pos). assert (F2 : u64 * Rabs (flog y + mx) <= eps * (N + 1 + M)) by (apply Rmult_le_compat; [lra|apply Rabs_pos|lra|lra]).
  lra.
Qed.

Definition err70 : R := 70 * (N + M) * eps.

(** A probability. *)
Lemma prob_err l x : In x X -> float64 l -> Rabs (l - logZ) <= eL -> Rabs (fexp (fsub x l) - exp (x - mx) / Ssum) <= err70.
Proof.
  intros Hx Fl Hl. assert (SR := Ssum_range). assert (Q := eps_N). assert (E := eps_pos). assert (U := u64_pos). assert (P := N_ge1). assert (MP := M_pos). unfold eL in Hl.
  assert (Fx : float64 x) by (rewrite Forall_forall in HX; now apply HX). assert (Ax : Rabs x <= M) by (rewrite Forall_forall in HM; now apply HM). assert (MA := mx_abs). assert (G := mx_ge x Hx).
  assert (LN := ln_small Ssum ltac:(lra)). set (a := x - logZ) in *. assert (Ex : exp (x - mx) / Ssum = exp a).
  { unfold a, logZ. replace (x - (ln Ssum + mx)) with ((x - mx) + - ln Ssum) by ring. rewrite exp_plus, exp_Ropp, exp_ln by lra. reflexivity. }
  rewrite Ex. assert (A0 : a <= 0) by (unfold a, logZ; lra). assert (A1 : Rabs a <= 2 * M + N). { unfold a, logZ. apply Rabs_def2_le in Ax, MA. apply Rabs_le. lra. }
  assert (FE := fsub_error x l Fx Fl). assert (D1 : Rabs (x - l - a) <= 18 * (N * eps) + M * eps) by (unfold a; replace (x - l - (x - logZ)) with (- (l - logZ)) by ring; now rewrite Rabs_Ropp).
  assert (D2 : Rabs (x - l) <= 2 * M + N + 1). { replace (x - l) with ((x - l - a) + a) by ring. eapply Rle_trans; [apply Rabs_triang|]. lra. }
  assert (D3 : u64 * Rabs (x - l) <= eps * (2 * M + N + 1)) by (apply Rmult_le_compat; [lra|apply Rabs_pos|lra|lra]).
  set (a' := fsub x l) in *. assert (D : Rabs (a' - a) <= 20 * (N * eps) + 3 * (M * eps)). { replace (a' - a) with ((a' - (x - l)) + (x - l - a)) by ring. eapply Rle_trans; [apply Rabs_triang|]. lra. }
  assert (D' := D). apply Rabs_def2_le in D'. assert (B : a' <= / 9) by lra. destruct (Hexp a' (rnd_float _) ltac:(lra)) as [_ HE]. assert (K := exp_lip a' a (/ 9) ltac:(lra) ltac:(lra)). assert (EX := exp_small (/ 9) ltac:(lra)).
  assert (K2 : exp (/ 9) * Rabs (a' - a) <= 9 / 8 * (20 * (N * eps) + 3 * (M * eps))) by (apply Rmult_le_compat; [left; apply exp_pos|apply Rabs_pos|assumption|assumption]).
  unfold err70. replace (fexp a' - exp a) with ((fexp a' - exp a') + (exp a' - exp a)) by ring. eapply Rle_trans; [apply Rabs_triang|]. assert (0 <= M * eps) by nra. lra.
Qed.

(** The exponential of the difference of two logarithms. *)
Lemma ratio_err l w : float64 w -> 0 < w -> w <= 33 / 32 * Ssum -> float64 l -> Rabs (l - logZ) <= eL ->
  float64 (fexp (fsub (fadd (flog w) mx) l)) /\ Rabs (fexp (fsub (fadd (flog w) mx) l) - w / Ssum) <= 63 * (N + M) * eps.
Proof.
  intros Fw Hw Hw2 Fl Hl. assert (SR := Ssum_range). assert (Q := eps_N). assert (E := eps_pos). assert (U := u64_pos). assert (P := N_ge1). assert (MP := M_pos). assert (MA := mx_abs). unfold eL in Hl.
  assert (LN := ln_small Ssum ltac:(lra)). destruct (Hlog w Fw Hw) as [FL LE]. set (L := Rabs (ln w)) in *. assert (L0 : 0 <= L) by apply Rabs_pos.
  assert (F1 := fadd_error (flog w) mx FL mx_float). set (num := fadd (flog w) mx) in *. assert (Fn : float64 num) by apply rnd_float.
  assert (G1 : Rabs (flog w + mx) <= 2 * L + M). { replace (flog w + mx) with ((flog w - ln w) + (ln w + mx)) by ring. eapply Rle_trans; [apply Rabs_triang|]. assert (T := Rabs_triang (ln w) mx). fold L in T. assert (eps * L <= 1 * L) by (apply Rmult_le_compat_r; lra). lra. }
  assert (G2 : u64 * Rabs (flog w + mx) <= eps * (2 * L + M)) by (apply Rmult_le_compat; [lra|apply Rabs_pos|lra|lra]).
  assert (G3 : Rabs (num - (ln w + mx)) <= eps * (3 * L + M)). { replace (num - (ln w + mx)) with ((num - (flog w + mx)) + (flog w - ln w)) by ring. eapply Rle_trans; [apply Rabs_triang|]. lra. }
  set (a := ln w - ln Ssum) in *. assert (Ex : w / Ssum = exp a). { unfold a. replace (ln w - ln Ssum) with (ln w + - ln Ssum) by ring. rewrite exp_plus, exp_Ropp, !exp_ln by lra. reflexivity. }
  assert (D1 : Rabs (num - l - a) <= eps * (3 * L + M) + (18 * (N * eps) + M * eps)). { unfold a. replace (num - l - (ln w - ln Ssum)) with ((num - (ln w + mx)) + - (l - logZ)) by (unfold logZ; ring). eapply Rle_trans; [apply Rabs_triang|]. rewrite Rabs_Ropp. lra. }
  assert (Aa : Rabs a <= L + N). { unfold a. eapply Rle_trans; [apply Rabs_triang|]. rewrite Rabs_Ropp, (Rabs_pos_eq (ln Ssum)) by lra. fold L. lra. }
  assert (EL : 256 * (eps * L) <= L) by nra. assert (D2 : Rabs (num - l) <= 2 * L + N + 1). { replace (num - l) with ((num - l - a) + a) by ring. eapply Rle_trans; [apply Rabs_triang|]. lra. }
  assert (F2 := fsub_error num l Fn Fl). assert (D3 : u64 * Rabs (num - l) <= eps * (2 * L + N + 1)) by (apply Rmult_le_compat; [lra|apply Rabs_pos|lra|lra]).
  set (a' := fsub num l) in *. assert (D : Rabs (a' - a) <= 5 * (eps * L) + (20 * (N * eps) + 2 * (M * eps))). { replace (a' - a) with ((a' - (num - l)) + (num - l - a)) by ring. eapply Rle_trans; [apply Rabs_triang|]. lra. }
  assert (D' := D). apply Rabs_def2_le in D'. rewrite Ex. assert (ME : 0 <= M * eps) by nra. destruct (Rle_dec 1 w) as [W|W].
  - destruct (ln_small w W) as [W1 W2]. assert (LW : L <= 33 / 32 * N) by (unfold L; rewrite Rabs_pos_eq by lra; lra). assert (LE2 : eps * L <= 33 / 32 * (N * eps)) by nra.
    assert (Aa2 : a <= / 32). { unfold a. assert (K : ln w <= ln (33 / 32 * Ssum)) by (destruct (Req_dec w (33 / 32 * Ssum)) as [-> |]; [lra|left; apply ln_increasing; lra]). rewrite ln_mult in K by lra. destruct (ln_small (33 / 32) ltac:(lra)). lra. }
    assert (B : a' <= / 7) by lra. destruct (Hexp a' (rnd_float _) ltac:(lra)) as [FF HE]. assert (K := exp_lip a' a (/ 7) ltac:(lra) ltac:(lra)). assert (EX : exp (/ 7) <= 7 / 6).
    { assert (V := exp_ineq1_le (- / 7)). assert (V2 : exp (/ 7) * exp (- / 7) = 1) by (rewrite <- exp_plus, Rplus_opp_r; apply exp_0). assert (V3 := exp_pos (/ 7)). nra. }
    assert (K2 : exp (/ 7) * Rabs (a' - a) <= 7 / 6 * (26 * (N * eps) + 2 * (M * eps))) by (apply Rmult_le_compat; [left; apply exp_pos|apply Rabs_pos|assumption|lra]).
    split; [exact FF|]. replace (fexp a' - exp a) with ((fexp a' - exp a') + (exp a' - exp a)) by ring. eapply Rle_trans; [apply Rabs_triang|]. lra.
  - assert (LW : ln w = - L). { unfold L. rewrite Rabs_left1; [ring|]. rewrite <- ln_1. left. apply ln_increasing; lra. }
    set (DD := 20 * (N * eps) + 2 * (M * eps)) in *. assert (DDb : 0 <= DD <= / 9) by (unfold DD; lra).
    assert (A1 : a <= - L) by (unfold a; lra). set (m := - (L / 2) + DD). assert (B1 : a' <= m) by (unfold m; lra). assert (B2 : a <= m) by (unfold m; lra).
    destruct (Hexp a' (rnd_float _) ltac:(unfold m in B1; lra)) as [FF HE]. assert (K := exp_lip a' a m B1 B2).
    assert (EM : exp m = exp (- (L / 2)) * exp DD) by (unfold m; apply exp_plus). assert (EX := exp_small DD DDb). assert (Z := z_exp (L / 2) ltac:(lra)). assert (X1 := exp_le_1 (- (L / 2)) ltac:(lra)). assert (X0 := exp_pos (- (L / 2))). assert (X2 := exp_pos DD).
    assert (K2 : exp m * Rabs (a' - a) <= exp DD * (exp (- (L / 2)) * (5 * (eps * L) + DD))). { rewrite EM. rewrite (Rmult_comm (exp (- (L / 2)))), Rmult_assoc. apply Rmult_le_compat_l; [lra|]. apply Rmult_le_compat_l; [lra|assumption]. }
    assert (K3 : exp (- (L / 2)) * (5 * (eps * L) + DD) <= 10 * eps + DD). { replace (exp (- (L / 2)) * (5 * (eps * L) + DD)) with (10 * eps * (L / 2 * exp (- (L / 2))) + exp (- (L / 2)) * DD) by field. apply Rplus_le_compat; [|nra]. rewrite <- (Rmult_1_r (10 * eps)) at 2. apply Rmult_le_compat_l; lra. }
    assert (K4 : exp DD * (exp (- (L / 2)) * (5 * (eps * L) + DD)) <= 9 / 8 * (10 * eps + DD)). { apply Rmult_le_compat; [lra| |assumption|assumption]. apply Rmult_le_pos; [lra|]. assert (0 <= eps * L) by nra. lra. }
    split; [exact FF|]. replace (fexp a' - exp a) with ((fexp a' - exp a') + (exp a' - exp a)) by ring. eapply Rle_trans; [apply Rabs_triang|]. unfold DD in *. lra.
Qed.

(** An average. *)
Lemma avg_err c l : unit_coeffs c -> float64 l -> Rabs (l - logZ) <= eL ->
  exists num, fl_fast_logsumexp fexp flog osum odot X (Some c) = Ok num /\
    Rabs (nan_to_0 (option_map (fun x => fmul x (snd num)) (fl_exp_diff fexp (fst num) (Fin l))) - ysum c / Ssum) <= err70.
Proof.
  intros Hc Fl Hl. unfold fl_fast_logsumexp, X. fold X. fold mx. fold es. destruct Hc as [Hc1 Hc2]. rewrite Hc1, Nat.eqb_refl. cbn [negb bind].
  assert (YE := ydot_err c (conj Hc1 Hc2)). assert (YA := ysum_abs c (conj Hc1 Hc2)). set (y := tree_sum (odot _)) in *. set (ys := ysum c) in *. unfold r7 in YE.
  assert (SR := Ssum_range). assert (Q := eps_N). assert (E := eps_pos). assert (P := N_ge1). assert (MP := M_pos). assert (ME : 0 <= M * eps) by nra.
  assert (RS : 7 * (N * eps) * Ssum <= / 32 * Ssum) by (apply Rmult_le_compat_r; lra).
  assert (YR : forall z, Rabs (z - ys) <= 7 * (N * eps) * Ssum -> Rabs (z / Ssum - ys / Ssum) <= 7 * (N * eps)).
  { intros z Hz. replace (z / Ssum - ys / Ssum) with ((z - ys) / Ssum) by (field; lra). unfold Rdiv. rewrite Rabs_mult, (Rabs_pos_eq (/ Ssum)) by (left; apply Rinv_0_lt_compat; lra).
    apply Rle_trans with (7 * (N * eps) * Ssum * / Ssum); [apply Rmult_le_compat_r; [left; apply Rinv_0_lt_compat; lra|assumption]|]. right. field. lra. }
  assert (YE' := YE). apply Rabs_def2_le in YE'. assert (YA' := YA). apply Rabs_def2_le in YA'. specialize (YR y YE). unfold err70.
  assert (One : forall v, float64 v -> fmul v 1 = v /\ fmul v (-1) = - v). { intros v Hv. destruct (fmul_unit v 1 Hv ltac:(tauto)) as [-> _]. destruct (fmul_unit v (-1) Hv ltac:(tauto)) as [-> _]. split; ring. }
  assert (Fy : float64 y). { destruct (terms_facts c (conj Hc1 Hc2)) as (T1 & T2 & T3 & _). unfold y. rewrite T3. apply tree_float. refine (Permutation_Forall (Permutation_sym (Hod _ _)) T2). intros T0. rewrite T0 in T1. discriminate. }
  assert (Fin_case : forall w sg, float64 w -> 0 < w -> w <= 33 / 32 * Ssum -> (sg = 1 \/ sg = -1) -> sg * w = y -> Rabs (fmul (fexp (fsub (fadd (flog w) mx) l)) sg - ys / Ssum) <= 70 * (N + M) * eps).
  { intros w sg Fw Hw Hw2 Hs Hy. destruct (ratio_err l w Fw Hw Hw2 Fl Hl) as [Fv RE]. set (v := fexp _) in *.
    assert (Mv : fmul v sg = v * sg) by (destruct (One v Fv) as [O1 O2]; destruct Hs as [-> | ->]; rewrite ?O1, ?O2; ring). rewrite Mv, <- Hy in *.
    replace (v * sg - ys / Ssum) with ((v - w / Ssum) * sg + (sg * w / Ssum - ys / Ssum)) by (field; lra). eapply Rle_trans; [apply Rabs_triang|]. rewrite Rabs_mult.
    assert (As : Rabs sg = 1) by (destruct Hs as [-> | ->]; [apply Rabs_R1|rewrite Rabs_left1; lra]). rewrite As. lra. }
  destruct (Rlt_dec y 0) as [Y|Y]; [|destruct (Req_dec y 0) as [Y0|Y0]].
  - eexists. split; [reflexivity|]. cbn [fst snd]. unfold fl_log. rewrite (Rabs_left y Y). destruct (Req_EM_T (- y) 0); [lra|]. cbn [fl_ladd fl_exp_diff option_map nan_to_0].
    apply Fin_case; [now try apply float_opp|lra|lra|tauto|ring].
  - eexists. split; [reflexivity|]. cbn [fst snd]. unfold fl_log. destruct (Req_EM_T y 0); [|contradiction]. cbn [fl_ladd fl_exp_diff option_map nan_to_0].
    destruct (One 0 float_0) as [-> _]. rewrite Y0 in YR. replace (0 / Ssum) with 0 in YR by (field; lra). lra.
  - eexists. split; [reflexivity|]. cbn [fst snd]. unfold fl_log. destruct (Req_EM_T y 0); [contradiction|]. cbn [fl_ladd fl_exp_diff option_map nan_to_0].
    apply Fin_case; [now try apply float_opp|lra|lra|tauto|ring].
Qed.
End LSE.
