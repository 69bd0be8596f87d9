(** * C91, continued: the pairwise files, the limit of relative accuracy, an example *)
From Coq Require Import Permutation Ascii String.
From Flocq Require Import Core.
From Verif Require Import Prelude Spec PreludeFacts M_Index M_Enum P_Index P_Params P_Enum Props_Enum M_Float P_Float M_FloatEnum P_Float3 P_Float4 Props_Float3 P_Energy Props_Float2.
Import ListNotations.
Local Open Scope R_scope.

(** The pairwise files: means and pair correlations. *)
Theorem C91_pairwise : forall (fexp flog : R -> R) (osum odot : list R -> sum_tree) (eps : R),
  u64 <= eps ->
  (forall x, float64 x -> x <= 1 -> float64 (fexp x) /\ Rabs (fexp x - exp x) <= eps) ->
  (forall y, float64 y -> 0 < y -> float64 (flog y) /\ Rabs (flog y - ln y) <= eps * Rabs (ln y)) ->
  sum_order osum -> sum_order odot ->
  forall (n : nat) (sym : bool) (params : list R) (P : R),
  (0 < n)%nat -> length params = (n + n * (n - 1) / 2)%nat ->
  Forall (fun x => float64 x /\ Rabs x <= P) params -> 0 <= P ->
  let m := INR (n + n * (n - 1) / 2 + 2) in
  512 * (2 ^ n + m + m * m * P) * eps <= 1 ->
  let states := map (map IZR) (all_states (if sym then [-1; 1]%Z else [0; 1]%Z) n) in
  let prob := boltzmann (ising_energy n params) states in
  let err := 150 * (2 ^ n + m * m * P) * eps in
  exists f Pout Cout, pairwise n sym = Ok f /\
    fl_run_p fexp flog osum odot f params = Ok (map Some Pout) /\
    Forall2 (fun s p => Rabs (p - prob s) <= err) states Pout /\
    fl_run_calc_observables fexp flog osum odot f params = Ok Cout /\ length Cout = (n + n * (n - 1) / 2)%nat /\
    (forall i, (i < n)%nat -> Rabs (nthR Cout i - expectation prob states (fun s => nthR s i)) <= err) /\
    (forall i j, (i < j)%nat -> (j < n)%nat ->
       Rabs (nthR Cout (n + pair_index n i j) - expectation prob states (fun s => nthR s i * nthR s j)) <= err).
Proof.
  intros fexp flog osum odot eps Hu He Hl Ho Hd n sym params P Hn Hp HP HP0 m Heps states prob err.
  destruct (C22_pairwise n sym params Hn Hp) as (f & Q & C & E1 & E2 & E3 & _ & _ & E6 & E7 & E8 & E9). fold states prob in E3, E8, E9.
  assert (Hw := E1). unfold pairwise in Hw. set (cts := [[range n]; [map fst (where_triu n); map snd (where_triu n)]]) in *.
  assert (Hne : forall subix, In subix cts -> subix <> []) by (intros subix [<-|[<-|[]]]; discriminate).
  destruct (file_shape n sym cts f ltac:(cbn; lia) Hne Hw) as (S1 & S2 & S3 & S4).
  assert (NN : INR (length (ef_terms f)) = 2 ^ n) by (rewrite S1, pow_INR; reflexivity).
  assert (LT : (length (all_tuples cts) + length cts = n + n * (n - 1) / 2 + 2)%nat).
  { unfold cts. rewrite pairwise_tuples, app_length, !map_length, seq_length, pairs_seq_length. reflexivity. }
  rewrite LT in S3. assert (Heps' : 512 * (INR (length (ef_terms f)) + m + m * m * P) * eps <= 1) by (rewrite NN; exact Heps).
  destruct (fl_p_near fexp flog osum odot eps Hu He Hl Ho f params P _ HP HP0 S3 Heps' _ S2 E2) as (Q1 & Pout & P1 & P2 & P3).
  destruct (fl_observables_near fexp flog osum odot eps Hu He Hl Ho Hd f params P _ HP HP0 S3 Heps' C S4 E6) as (Cout & C1 & C2).
  assert (EQ : Q1 = Q). { assert (Inj : forall a b : list R, map Some a = map Some b -> a = b) by (induction a as [|x a IH]; intros [|y b] H; try discriminate; [reflexivity|]; cbn in H; injection H as -> H; f_equal; auto). symmetry. now apply Inj. }
  subst Q1. unfold file_err in P3, C2. rewrite NN in P3, C2. fold m in P3, C2. fold err in P3, C2. exists f, Pout, Cout. split; [exact E1|]. split; [exact P2|]. split.
  { assert (G : forall A (g : A -> R) l l', Forall2 (near err) (map g l) l' -> Forall2 (fun s p => Rabs (p - g s) <= err) l l').
    { intros A g. induction l as [|a l IH]; intros l' F; cbn [map] in F; inversion F; subst; constructor; auto. }
    rewrite E3 in P3. exact (G _ _ _ _ P3). }
  split; [exact C1|]. assert (LC := Forall2_len _ _ _ C2). split; [lia|].
  assert (G : forall k, (k < length C)%nat -> Rabs (nthR Cout k - nthR C k) <= err).
  { clear - C2. induction C2 as [|c c' C C' H F IH]; intros k Hk; [cbn in Hk; lia|]. destruct k as [|k]; [exact H|]. apply (IH k). cbn in Hk. lia. }
  split.
  - intros i Hi. rewrite <- E8 by assumption. apply G. rewrite E7. lia.
  - intros i j Hij Hj. rewrite <- E9 by assumption. apply G. rewrite E7. assert (L := pair_index_lt n i j Hij Hj). lia.
Qed.
Print Assumptions C91_pairwise.

(** ** Correctly rounded exp and log *)
Lemma float_1 : float64 1.
Proof. replace 1 with (IZR 1 * bpow radix2 0) by (cbn; ring). apply float_grid; lia. Qed.

Lemma rnd_one_below x : 1 - / 2 ^ 54 < x <= 1 -> rnd x = 1.
Proof.
  intros [H1 H2]. assert (R1 : rnd 1 = 1) by (apply rnd_id, float_1).
  assert (V : Valid_exp fexp64) by (apply FLT_exp_valid; apply prec53).
  assert (L : rnd x <= 1) by (rewrite <- R1; unfold rnd; apply round_le; [exact V|apply valid_rnd_N|assumption]).
  destruct (Req_dec (rnd x) 1) as [|N]; [assumption|]. exfalso. assert (LT : rnd x < 1) by lra.
  assert (B := pred_ge_gt radix2 fexp64 (rnd x) 1 (rnd_float x) float_1 LT). change 1 with (bpow radix2 0) in B. rewrite pred_bpow in B.
  assert (E : fexp64 0 = (-53)%Z) by reflexivity. rewrite E in B. assert (B0 : bpow radix2 0 = 1) by reflexivity. assert (B1 : bpow radix2 (-53) = 2 * / 2 ^ 54).
  { change (bpow radix2 (-53)) with (/ IZR (2 ^ 53)). replace (2 ^ 54) with (IZR (2 ^ 54)) by (rewrite (pow_IZR 2 54); reflexivity). replace (IZR (2 ^ 54)) with (2 * IZR (2 ^ 53)) by (rewrite <- mult_IZR; reflexivity). field. apply not_0_IZR. discriminate. }
  rewrite B0, B1 in B. destruct (round_N_pt radix2 fexp64 (fun z => negb (Z.even z)) x) as [_ NP]. specialize (NP 1 float_1). fold (rnd x) in NP. change (round radix2 fexp64 ZnearestE x) with (rnd x) in NP.
  rewrite (Rabs_left1 (rnd x - x)) in NP by (assert (0 < / 2 ^ 54) by (apply Rinv_0_lt_compat, pow_lt; lra); lra). rewrite (Rabs_pos_eq (1 - x)) in NP by lra. lra.
Qed.

(** exp and log rounded to nearest meet the hypotheses above with eps = 4 u64. *)
Lemma valid64 : Valid_exp fexp64. Proof. apply FLT_exp_valid, prec53. Qed.

Lemma rnd_error x : Rabs (rnd x - x) <= u64 * Rabs x + bpow radix2 (-1074).
Proof.
  assert (H := @error_le_half_ulp radix2 fexp64 valid64 (fun z => negb (Z.even z)) x). change (round radix2 fexp64 (Znearest (fun z => negb (Z.even z))) x) with (rnd x) in H.
  eapply Rle_trans; [exact H|]. destruct (Req_dec x 0) as [-> |Nx].
  - rewrite Rabs_R0, Rmult_0_r, Rplus_0_l. assert (U : ulp radix2 fexp64 0 <= bpow radix2 (-1074)). { apply Req_le. unfold fexp64. apply (@ulp_FLT_0 radix2 (-1074) 53 prec53). } assert (B := bpow_gt_0 radix2 (-1074)). lra.
  - rewrite ulp_neq_0 by assumption. unfold cexp, fexp64, FLT_exp. assert (B := bpow_mag_le radix2 x Nx). set (e := mag radix2 x : Z) in *.
    assert (P1 := bpow_gt_0 radix2 (-1074)). destruct (Z.max_spec (e - 53) (-1074)) as [[_ ->]|[_ ->]].
    + assert (0 <= u64 * Rabs x) by (apply Rmult_le_pos; [left; apply u64_pos|apply Rabs_pos]). lra.
    + replace (e - 53)%Z with ((e - 1) + -52)%Z by ring. rewrite bpow_plus. assert (B2 : bpow radix2 (-52) = 2 * u64).
      { unfold u64. replace (2 ^ 53) with (IZR (2 ^ 53)) by (rewrite (pow_IZR 2 53); reflexivity). change (bpow radix2 (-52)) with (/ IZR (2 ^ 52)). replace (IZR (2 ^ 53)) with (2 * IZR (2 ^ 52)) by (rewrite <- mult_IZR; reflexivity). field. apply not_0_IZR. discriminate. }
      rewrite B2. assert (U := u64_pos). assert (K : bpow radix2 (e - 1) * u64 <= Rabs x * u64) by (apply Rmult_le_compat_r; lra). lra.
Qed.

Lemma u64_bpow : u64 = bpow radix2 (-53).
Proof. unfold u64. replace (2 ^ 53) with (IZR (2 ^ 53)) by (rewrite (pow_IZR 2 53); reflexivity). reflexivity. Qed.

Lemma tiny_le k : (k <= 1021)%Z -> bpow radix2 (-1074) <= u64 * bpow radix2 (- k).
Proof. intros H. rewrite u64_bpow, <- bpow_plus. apply bpow_le. lia. Qed.

Lemma exp_rounded x : float64 x -> x <= 1 -> float64 (rnd (exp x)) /\ Rabs (rnd (exp x) - exp x) <= 4 * u64.
Proof.
  intros _ H. split; [apply rnd_float|]. eapply Rle_trans; [apply rnd_error|]. rewrite (Rabs_pos_eq (exp x)) by (left; apply exp_pos). assert (E := exp_mono x 1 H). assert (E3 := exp_le_3). assert (U := u64_pos).
  assert (T := tiny_le 0 ltac:(lia)). change (bpow radix2 (- 0)) with 1 in T. assert (u64 * exp x <= u64 * 3) by (apply Rmult_le_compat_l; lra). lra.
Qed.

Lemma gap_one y : float64 y -> y <> 1 -> y <= 1 - u64 \/ 1 + 2 * u64 <= y.
Proof.
  intros Fy Ny. destruct (Rle_dec y 1) as [L|L].
  - left. assert (B := @pred_ge_gt radix2 fexp64 valid64 y 1 Fy float_1 ltac:(lra)). change 1 with (bpow radix2 0) in B. rewrite pred_bpow in B. change (fexp64 0) with (-53)%Z in B. rewrite <- u64_bpow in B. exact B.
  - right. assert (B := @succ_le_lt radix2 fexp64 valid64 1 y float_1 Fy ltac:(lra)). rewrite succ_eq_pos in B by lra. replace (ulp radix2 fexp64 1) with (2 * u64) in B; [exact B|].
    change 1 with (bpow radix2 0). rewrite (@ulp_bpow radix2 fexp64). change (fexp64 (0 + 1)) with (-52)%Z. rewrite u64_bpow. change (-52)%Z with (1 + -53)%Z. rewrite bpow_plus. reflexivity.
Qed.

Lemma log_rounded y : float64 y -> 0 < y -> float64 (rnd (ln y)) /\ Rabs (rnd (ln y) - ln y) <= 4 * u64 * Rabs (ln y).
Proof.
  intros Fy Hy. split; [apply rnd_float|]. assert (U := u64_pos). assert (U1 := u64_small). destruct (Req_dec y 1) as [-> |Ny].
  { rewrite ln_1, (rnd_id 0 float_0), Rminus_eq_0, Rabs_R0. lra. }
  assert (G : u64 <= Rabs (ln y)).
  { destruct (gap_one y Fy Ny) as [L|L].
    - assert (E := exp_ineq1_le (ln y)). rewrite exp_ln in E by assumption. rewrite Rabs_left1; lra.
    - assert (Pi : 0 < / y) by now apply Rinv_0_lt_compat. assert (E := exp_ineq1_le (ln (/ y))). rewrite exp_ln in E by assumption. rewrite ln_Rinv in E by assumption.
      assert (I : / y <= 1 - u64). { apply Rmult_le_reg_r with y; [assumption|]. rewrite Rinv_l by lra. nra. } rewrite Rabs_pos_eq; lra. }
  eapply Rle_trans; [apply rnd_error|]. assert (T := tiny_le 53 ltac:(lia)). change (- (53))%Z with (-53)%Z in T. rewrite <- u64_bpow in T. assert (u64 * u64 <= u64 * Rabs (ln y)) by (apply Rmult_le_compat_l; lra). assert (0 <= u64 * Rabs (ln y)) by nra. lra.
Qed.

(** Small averages have no relative accuracy: with correctly rounded exp and log, a field
    of magnitude at most 2^-56 gives the mean 0 exactly, although it is not 0. *)
Theorem C91_relative_refuted : forall (osum odot : list R -> sum_tree) (h : R),
  sum_order osum -> sum_order odot -> float64 h -> 0 < Rabs h <= / 2 ^ 56 ->
  exists f, pairwise 1 true = Ok f /\
    fl_run_calc_observables (fun x => rnd (exp x)) (fun x => rnd (ln x)) osum odot f [h] = Ok [0] /\
    expectation (boltzmann (ising_energy 1 [h]) [[-1]; [1]]) [[-1]; [1]] (fun s => nthR s 0) <> 0.
Proof.
  intros osum odot h Ho Hd Fh [H0 H1].
  set (f0 := {| ef_slices := [("H"%char, (0, 1)%nat); ("J"%char, (1, 1)%nat)]; ef_terms := [[(false, AVar "H" 0)]; [(true, AVar "H" 0)]];
    ef_coeffs := [[1%Z; (-1)%Z]]; ef_probs := [[(false, AVar "H" 0)]; [(true, AVar "H" 0)]]; ef_rev := true |}).
  exists f0. split; [reflexivity|]. split.
  - unfold fl_run_calc_observables. assert (ET : mapM (fl_eval_terms (make_env f0 [h])) (ef_terms f0) = Ok [h; - h]) by reflexivity. rewrite ET. cbn [bind]. change (ef_coeffs f0) with [[1%Z; (-1)%Z]]. clear ET f0.
    set (fe := fun x => rnd (exp x)). set (fl := fun x => rnd (ln x)). assert (F1 : rnd 1 = 1) by apply rnd_id, float_1. assert (P56 : 0 < / 2 ^ 56) by (apply Rinv_0_lt_compat, pow_lt; lra).
    assert (T1 : forall x, - / 2 ^ 55 <= x <= 0 -> fe x = 1).
    { intros x Hx. unfold fe. apply rnd_one_below. assert (E := exp_ineq1_le x). assert (E1 := exp_le_1 x ltac:(lra)). assert (Q : / 2 ^ 54 = 2 * / 2 ^ 55) by (change (2 ^ 55) with (2 * 2 ^ 54); field; apply pow_nonzero; lra). assert (0 < / 2 ^ 55) by (apply Rinv_0_lt_compat, pow_lt; lra). lra. }
    assert (Q : / 2 ^ 55 = 2 * / 2 ^ 56) by (change (2 ^ 56) with (2 * 2 ^ 55); field; apply pow_nonzero; lra).
    assert (Dbl : forall x, float64 x -> rnd (2 * x) = 2 * x) by (intros x Fx; now apply rnd_id, float_double).
    assert (ES : map (fun x => fe (fsub x (max_from h [- h]))) [h; - h] = [1; 1]).
    { assert (Fo := float_opp h Fh). cbn [map max_from]. unfold fsub. destruct (Rlt_dec h (- h)) as [L|L]; [rewrite (Rabs_left h) in H0, H1 by lra|rewrite (Rabs_pos_eq h) in H0, H1 by lra].
      - replace (h - - h) with (2 * h) by ring. replace (- h - - h) with 0 by ring. rewrite Dbl, (rnd_id 0 float_0) by assumption. rewrite !T1 by lra. reflexivity.
      - replace (- h - h) with (2 * - h) by ring. replace (h - h) with 0 by ring. rewrite Dbl, (rnd_id 0 float_0) by assumption. rewrite !T1 by lra. reflexivity. }
    assert (TS : forall o (a b : Z), sum_order o -> (Z.abs a + Z.abs b <= 2)%Z -> tree_sum (o [IZR a; IZR b]) = IZR (a + b)).
    { intros o a b Hoo Hab. assert (Pm := Hoo [IZR a; IZR b] ltac:(discriminate)). assert (Gr : forall z, on_grid 0 (IZR z)) by (intros z; exists z; cbn; ring).
      rewrite (proj1 (tree_exact 0 (o [IZR a; IZR b]) ltac:(lia) ltac:(refine (Permutation_Forall (Permutation_sym Pm) _); repeat constructor; apply Gr)
        ltac:(rewrite (sumf_perm _ _ _ Pm), !sumf_cons, sumf_nil, <- !abs_IZR, Rplus_0_r, <- plus_IZR; apply Rle_trans with (IZR 2); [now apply IZR_le|]; change (bpow radix2 (53 + 0)) with (IZR (2 ^ 53)); apply IZR_le; lia))).
      unfold sumR. rewrite (sumf_perm _ _ _ Pm), !sumf_cons, sumf_nil, plus_IZR. ring. }
    assert (L1 : fl_fast_logsumexp fe fl osum odot [h; - h] None = Ok (Fin (fadd (fl 2) (max_from h [- h])), 1)).
    { unfold fl_fast_logsumexp. rewrite ES. assert (TT := TS osum 1%Z 1%Z Ho ltac:(lia)). cbn [bind]. rewrite TT. change (IZR (1 + 1)) with 2. destruct (Rlt_dec 2 0); [lra|]. unfold fl_log. destruct (Req_EM_T 2 0); [lra|]. reflexivity. }
    assert (L2 : fl_fast_logsumexp fe fl osum odot [h; - h] (Some [1; -1]) = Ok (NegInf, 1)).
    { unfold fl_fast_logsumexp. rewrite ES. cbn [length Nat.eqb negb bind combine map fst snd]. destruct (fmul_unit 1 1 float_1 ltac:(tauto)) as [-> _]. destruct (fmul_unit 1 (-1) float_1 ltac:(tauto)) as [-> _]. rewrite !Rmult_1_l.
      assert (TT := TS odot 1%Z (-1)%Z Hd ltac:(lia)). rewrite TT. change (IZR (1 + -1)) with 0. destruct (Rlt_dec 0 0); [lra|]. unfold fl_log. destruct (Req_EM_T 0 0); [|lra]. reflexivity. }
    rewrite L1. cbn [bind mapM map]. rewrite L2. cbn [bind fst snd fl_exp_diff option_map nan_to_0]. destruct (fmul_unit 0 1 float_0 ltac:(tauto)) as [-> _]. now rewrite Rmult_0_l.
  - unfold expectation, boltzmann, partition, ising_energy. rewrite !sumf_cons, !sumf_nil. cbn. unfold sumf, nthR. cbn. intros K.
    assert (E1 := exp_pos h). assert (E2 := exp_pos (- h)).
    replace (- (- (h * -1 + 0) - (0 + 0))) with (- h) in K by ring. replace (- (- (h * 1 + 0) - (0 + 0))) with h in K by ring.
    assert (K2 : (exp h - exp (- h)) / (exp (- h) + exp h) = 0) by (rewrite <- K; field; lra). apply Rmult_integral in K2. destruct K2 as [K2|K2]; [|assert (0 < / (exp (- h) + exp h)) by (apply Rinv_0_lt_compat; lra); lra].
    assert (K3 : h = - h) by (apply exp_inv; lra). assert (Z : h = 0) by lra. rewrite Z, Rabs_R0 in H0. lra.
Qed.
Print Assumptions C91_relative_refuted.

(** Two coupled spins, exp and log rounded to nearest, sums from left to right. *)
Example C91_example : let params := [1; - (1 / 2); 1 / 4] in
  let states := [[-1; -1]; [-1; 1]; [1; -1]; [1; 1]] in
  let prob := boltzmann (ising_energy 2 params) states in
  exists f Pout Cout, pairwise 2 true = Ok f /\
    fl_run_p (fun x => rnd (exp x)) (fun x => rnd (ln x)) left_to_right left_to_right f params = Ok (map Some Pout) /\
    Forall2 (fun s p => Rabs (p - prob s) <= / 10 ^ 11) states Pout /\
    fl_run_calc_observables (fun x => rnd (exp x)) (fun x => rnd (ln x)) left_to_right left_to_right f params = Ok Cout /\
    (forall i, (i < 2)%nat -> Rabs (nthR Cout i - expectation prob states (fun s => nthR s i)) <= / 10 ^ 11) /\
    Rabs (nthR Cout 2 - expectation prob states (fun s => nthR s 0 * nthR s 1)) <= / 10 ^ 11.
Proof.
  intros params states prob. assert (U := u64_pos). assert (U11 : 20000 * u64 <= / 10 ^ 11).
  { unfold u64. apply Rmult_le_reg_r with (2 ^ 53 * 10 ^ 11); [apply Rmult_lt_0_compat; apply pow_lt; lra|]. replace (20000 * / 2 ^ 53 * (2 ^ 53 * 10 ^ 11)) with (20000 * 10 ^ 11) by (field; apply pow_nonzero; lra). replace (/ 10 ^ 11 * (2 ^ 53 * 10 ^ 11)) with (2 ^ 53) by (field; apply pow_nonzero; lra).
    rewrite !pow_IZR, <- mult_IZR. apply IZR_le. vm_compute. discriminate. }
  assert (G : forall z, (Z.abs z <= 2 ^ 53)%Z -> float64 (IZR z * bpow radix2 (-2))) by (intros z Hz; apply float_grid; lia).
  assert (B : bpow radix2 (-2) = / 4) by (change (bpow radix2 (-2)) with (/ IZR (2 ^ 2)); reflexivity). rewrite B in G.
  destruct (C91_pairwise (fun x => rnd (exp x)) (fun x => rnd (ln x)) left_to_right left_to_right (4 * u64) ltac:(lra) exp_rounded log_rounded left_to_right_order left_to_right_order 2 true params 1 ltac:(lia) eq_refl)
    as (f & Pout & Cout & A1 & A2 & A3 & A4 & A5 & A6 & A7).
  - apply Forall_cons; [|apply Forall_cons; [|apply Forall_cons; [|constructor]]]; (split; [|apply Rabs_le; lra]).
    + replace 1 with (IZR 4 * / 4) by lra. apply G. lia.
    + replace (- (1 / 2)) with (IZR (-2) * / 4) by lra. apply G. lia.
    + replace (1 / 4) with (IZR 1 * / 4) by lra. apply G. lia.
  - lra.
  - cbn -[u64]. assert (U2 : 20000 * u64 <= / 10) by (eapply Rle_trans; [exact U11|]; lra). lra.
  - assert (ER : 150 * (2 ^ 2 + INR (2 + 2 * (2 - 1) / 2 + 2) * INR (2 + 2 * (2 - 1) / 2 + 2) * 1) * (4 * u64) <= / 10 ^ 11). { eapply Rle_trans; [|exact U11]. cbn -[u64]. lra. }
    exists f, Pout, Cout. split; [exact A1|]. split; [exact A2|]. change (map (map IZR) (all_states (if true then [-1; 1]%Z else [0; 1]%Z) 2)) with states in *. fold prob in A3, A6, A7.
    assert (I2 : forall (A B : Type) (Q1 Q2 : A -> B -> Prop) l l', (forall a b, Q1 a b -> Q2 a b) -> Forall2 Q1 l l' -> Forall2 Q2 l l') by (intros A B' Q1 Q2 l l' HQ F; induction F; constructor; auto).
    split; [refine (I2 _ _ _ _ _ _ _ A3); intros s p Hs; exact (Rle_trans _ _ _ Hs ER)|]. split; [exact A4|]. split; [intros i Hi; eapply Rle_trans; [apply (A6 i Hi)|exact ER]|]. eapply Rle_trans; [apply (A7 0%nat 1%nat); lia|exact ER].
Qed.
