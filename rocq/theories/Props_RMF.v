(** * Properties C48, C72, C73. *)
From Coq Require Import Permutation.
From Verif Require Import Prelude PreludeFacts Spec Spec2 M_Index M_Params M_MeanField M_Cluster M_RMF P_Index P_Energy P_Params P_Enum P_MaxEnt
  P_MeanField P_MeanField2 P_MeanField3 P_Cluster4 P_Cluster5 P_RMF.
Import ListNotations.
Local Open Scope R_scope.

(** ** C48 *)
(** The first position of a smallest value, in plain words. *)
Definition first_min (fs : list R) (lo hi k : nat) : Prop :=
  (lo <= k < hi)%nat /\ (forall j, (lo <= j < hi)%nat -> nthR fs k <= nthR fs j) /\ (forall j, (lo <= j < k)%nat -> nthR fs k < nthR fs j).

Lemma first_min_unique fs lo hi k k' : first_min fs lo hi k -> first_min fs lo hi k' -> k = k'.
Proof.
  intros (A1 & A2 & A3) (B1 & B2 & B3). destruct (Nat.lt_trichotomy k k') as [L|[E|L]]; [|exact E|].
  - specialize (B3 k ltac:(lia)). specialize (A2 k' B1). lra.
  - specialize (A3 k' ltac:(lia)). specialize (B2 k A1). lra.
Qed.

Lemma argmin_first fs : fs <> [] -> exists k, argmin fs = Ok k /\ first_min fs 0 (length fs) k.
Proof.
  intros H. destruct (argmin_ok fs H) as (k & E & H1 & H2 & H3). exists k. split; [exact E|]. split; [lia|]. split; intros j Hj; [apply H2|apply H3]; lia.
Qed.

Theorem C48_bracket : forall xs fs, length xs = length fs ->
  (xs = [] -> bracket1d xs fs = Err ValueError) /\
  (forall k, first_min fs 0 (length fs) k ->
    ((k = 0 \/ k + 1 = length fs)%nat -> bracket1d xs fs = Err GenericException) /\
    ((0 < k)%nat -> (k + 1 < length fs)%nat -> exists ka kc, first_min fs 0 k ka /\ first_min fs (k + 1) (length fs) kc /\
      bracket1d xs fs = Ok (nthR xs ka, nthR xs k, nthR xs kc) /\ nthR fs k < nthR fs ka /\ nthR fs k <= nthR fs kc /\
      ((forall i j, (i < j < length xs)%nat -> nthR xs i < nthR xs j) -> nthR xs ka < nthR xs k < nthR xs kc))).
Proof.
  intros xs fs HL. split.
  - intros ->. destruct fs; [reflexivity|discriminate].
  - intros k Hk. assert (Hne : fs <> []) by (destruct Hk as [Hk _]; destruct fs; [cbn in Hk; lia|discriminate]).
    destruct (argmin_first fs Hne) as (k' & Ek & Hk'). assert (k' = k) by (eapply first_min_unique; eauto). subst k'.
    unfold bracket1d. rewrite Ek. cbn [bind]. pose proof (proj1 Hk) as Kr.
    rewrite (get_ok xs k 0) by lia. cbn [bind]. split.
    + intros [-> | E]; [reflexivity|]. rewrite HL. apply Nat.eqb_eq in E. rewrite E, orb_true_r. reflexivity.
    + intros H0 H1. assert (Nat.eqb k 0 || Nat.eqb (k + 1) (length xs) = false)%bool as ->.
      { destruct (Nat.eqb_spec k 0); [lia|]. destruct (Nat.eqb_spec (k + 1) (length xs)); [lia|reflexivity]. }
      assert (L1 : length (firstn k fs) = k) by (rewrite firstn_length; lia).
      destruct (argmin_first (firstn k fs)) as (ka & Ea & Ha); [destruct (firstn k fs); [cbn in L1; lia|discriminate]|].
      assert (L2 : length (skipn (k + 1) fs) = (length fs - (k + 1))%nat) by apply skipn_length.
      destruct (argmin_first (skipn (k + 1) fs)) as (c & Ec & Hc); [destruct (skipn (k + 1) fs); [cbn in L2; lia|discriminate]|].
      rewrite Ea, Ec. cbn [bind]. rewrite L1 in Ha. rewrite L2 in Hc.
      assert (F1 : forall j, (j < k)%nat -> nthR (firstn k fs) j = nthR fs j).
      { intros j Hj. unfold nthR. rewrite <- (firstn_skipn k fs) at 2. rewrite app_nth1 by lia. reflexivity. }
      assert (F2 : forall j, nthR (skipn (k + 1) fs) j = nthR fs (k + 1 + j)).
      { intros j. unfold nthR. rewrite <- (firstn_skipn (k + 1) fs) at 2. rewrite app_nth2 by (rewrite firstn_length; lia). f_equal. rewrite firstn_length. lia. }
      destruct Ha as (A1 & A2 & A3). destruct Hc as (B1 & B2 & B3).
      rewrite (get_ok xs ka 0) by lia. cbn [bind]. rewrite (get_ok xs (k + 1 + c) 0) by lia. cbn [bind].
      exists ka, (k + 1 + c)%nat. split; [|split; [|split; [reflexivity|]]].
      * split; [lia|]. split; intros j Hj; rewrite <- !F1 by lia; [apply A2|apply A3]; lia.
      * split; [lia|]. split; intros j Hj; replace j with (k + 1 + (j - (k + 1)))%nat by lia; rewrite <- !F2; [apply B2|apply B3]; lia.
      * destruct Hk as (_ & K2 & K3). split; [apply K3; lia|]. split; [apply K2; lia|]. intros Hx. split; apply Hx; lia.
Qed.
Print Assumptions C48_bracket.

(** Every non-empty grid has exactly one first minimum, so the two cases above are
    exhaustive. *)
Theorem C48_cases : forall fs, fs <> [] -> exists k, first_min fs 0 (length fs) k /\ forall k', first_min fs 0 (length fs) k' -> k' = k.
Proof.
  intros fs H. destruct (argmin_first fs H) as (k & _ & Hk). exists k. split; [exact Hk|]. intros k' Hk'. eapply first_min_unique; eauto.
Qed.
Print Assumptions C48_cases.

(** "f(b) < f(a) and f(c)": the second inequality fails for ties, however long the grid. *)
Theorem C48_strict_right_refuted : forall m : nat, exists xs fs a b c, length xs = (3 + m)%nat /\ length fs = length xs /\
  bracket1d xs fs = Ok (a, b, c) /\ exists kb kc, nthR xs kb = b /\ nthR xs kc = c /\ (kb < kc < length fs)%nat /\ nthR fs kb = nthR fs kc.
Proof.
  intros m. exists (map INR (seq 0 (3 + m))), (2 :: repeat 1 (2 + m)).
  assert (LX : length (map INR (seq 0 (3 + m))) = (3 + m)%nat) by (rewrite map_length; apply seq_length).
  assert (LF : length (2 :: repeat 1 (2 + m)) = (3 + m)%nat) by (cbn [length]; rewrite repeat_length; lia).
  assert (V : forall j, (1 <= j < 3 + m)%nat -> nthR (2 :: repeat 1 (2 + m)) j = 1).
  { intros j Hj. destruct j as [|j]; [lia|]. unfold nthR. cbn [nth]. transitivity (nth j (repeat 1 (2 + m)) 1); [apply nth_indep; rewrite repeat_length; lia|apply nth_repeat]. }
  assert (K : first_min (2 :: repeat 1 (2 + m)) 0 (length (2 :: repeat 1 (2 + m))) 1).
  { rewrite LF. split; [lia|]. rewrite V by lia. split.
    - intros j Hj. destruct j as [|j]; [unfold nthR; cbn [nth]; lra|]. rewrite V by lia. lra.
    - intros j Hj. replace j with 0%nat by lia. unfold nthR. cbn [nth]. lra. }
  destruct (C48_bracket _ _ (eq_trans LX (eq_sym LF))) as [_ H]. destruct (H 1%nat K) as [_ H1].
  destruct (H1 ltac:(lia) ltac:(lia)) as (ka & kc & _ & (C1 & _) & E & _).
  do 3 eexists. split; [exact LX|]. split; [now rewrite LX|]. split; [exact E|]. exists 1%nat, kc. split; [reflexivity|]. split; [reflexivity|]. split; [lia|].
  rewrite !V by lia. reflexivity.
Qed.
Print Assumptions C48_strict_right_refuted.

Example C48_example : bracket1d [0; 1; 2; 3] [5; 2; 4; 3] = Ok (0, 1, 3) /\ bracket1d [0; 1; 2] [1; 1; 2] = Err GenericException.
Proof.
  unfold bracket1d, argmin. cbn [argmin_from firstn skipn Nat.add length].
  repeat (destruct (Rlt_dec _ _) as [?|?]; try lra; cbn [argmin_from bind get nth_error Nat.eqb orb Nat.add firstn skipn]).
  all: split; reflexivity.
Qed.

Lemma derivable_pt_lim_inv f x l : f x <> 0 -> derivable_pt_lim f x l -> derivable_pt_lim (fun t => / f t) x (- l / (f x)²).
Proof.
  intros H0 H. pose proof (derivable_pt_lim_div (fun _ => 1) f x 0 l (derivable_pt_lim_const 1 x) H H0) as D. cbv beta in D.
  intros eps He. destruct (D eps He) as [del Hd]. exists del. intros u H1 H2. specialize (Hd u H1 H2). unfold div_fct in Hd.
  replace ((0 * f x - l * 1) / (f x)²) with (- l / (f x)²) in Hd by (unfold Rdiv; ring). unfold Rdiv in *. rewrite !Rmult_1_l in Hd. exact Hd.
Qed.

(** ** C72: thermodynamics of the scalar mean field model *)
(** What a root finder promises on a continuous function with a sign change. *)
Definition finds_roots (brentq : (R -> R) -> R -> R -> R) : Prop :=
  forall f a b, a < b -> continuity f -> f a < 0 < f b -> a <= brentq f a b <= b /\ f (brentq f a b) = 0.

(** Mean field free energy per spin U - T S with U = h m + (ell-1) J m^2. *)
Definition mf_energy (h J ell m : R) : R := h * m + (ell - 1) * J * m ^ 2.
Definition mf_free_energy (h J ell T m : R) : R := mf_energy h J ell m - T * binary_entropy m.

Theorem C72_magnetisation_is_stationary : forall brentq h J ell T, finds_roots brentq -> T <> 0 ->
  let mr := m_root brentq h J ell T in
  0 < mr < 1 /\ mr = / (1 + exp ((h + 2 * (ell - 1) * mr * J) / T)) /\ derivable_pt_lim (mf_free_energy h J ell T) mr 0.
Proof.
  intros brentq h J ell T HB HT mr. destruct (m_func_signs h J ell T) as [S0 S1].
  destruct (HB (m_func h J ell T) 0 1 ltac:(lra) (m_func_cont h J ell T HT) (conj S0 S1)) as [_ Hr]. change (m_func h J ell T mr = 0) in Hr.
  pose proof (m_func_root_in _ _ _ _ _ Hr) as Hin. split; [exact Hin|]. 
  assert (E : mr = / (1 + exp ((h + 2 * (ell - 1) * mr * J) / T))) by (unfold m_func in Hr; lra).
  split; [exact E|]. set (x := (h + 2 * (ell - 1) * mr * J) / T) in *.
  assert (Ex : ln mr - ln (1 - mr) = - x).
  { pose proof (exp_pos x). assert (1 - mr = exp x * mr) as -> by (rewrite E; field; lra). rewrite ln_mult, ln_exp by (try apply exp_pos; lra). ring. }
  replace 0 with (h * 1 + (ell - 1) * J * (INR 2 * mr ^ Nat.pred 2) - T * (- (1 * ln mr + mr * / mr) - ((0 - 1) * ln (1 - mr) + (1 - mr) * (/ (1 - mr) * (0 - 1))))).
  2:{ cbn [INR Nat.pred pow]. replace (- (1 * ln mr + mr * / mr) - ((0 - 1) * ln (1 - mr) + (1 - mr) * (/ (1 - mr) * (0 - 1)))) with (- (ln mr - ln (1 - mr))) by (field; lra).
      rewrite Ex. unfold x. field. exact HT. }
  unfold mf_free_energy, mf_energy, binary_entropy.
  apply (derivable_pt_lim_minus (fun m => h * m + (ell - 1) * J * m ^ 2) (fun m => T * (- (m * ln m) - (1 - m) * ln (1 - m)))).
  - apply (derivable_pt_lim_plus (fun m => h * m) (fun m => (ell - 1) * J * m ^ 2)).
    + apply (derivable_pt_lim_scal id). apply derivable_pt_lim_id.
    + apply (derivable_pt_lim_scal (fun m => m ^ 2)). apply derivable_pt_lim_pow.
  - apply (derivable_pt_lim_scal (fun m => - (m * ln m) - (1 - m) * ln (1 - m))).
    apply (derivable_pt_lim_minus (fun m => - (m * ln m)) (fun m => (1 - m) * ln (1 - m))).
    + apply (derivable_pt_lim_opp (fun m => m * ln m)). apply (derivable_pt_lim_mult id ln); [apply derivable_pt_lim_id|]. now apply derivable_pt_lim_ln.
    + assert (D1 : derivable_pt_lim (fun m => 1 - m) mr (0 - 1)) by (apply (derivable_pt_lim_minus (fun _ => 1) id); [apply derivable_pt_lim_const|apply derivable_pt_lim_id]).
      apply (derivable_pt_lim_mult (fun m => 1 - m) (fun m => ln (1 - m))); [exact D1|].
      apply (derivable_pt_lim_comp (fun m => 1 - m) ln); [exact D1|]. apply derivable_pt_lim_ln. lra.
Qed.
Print Assumptions C72_magnetisation_is_stationary.

(** avgE reports the interaction with the opposite sign. *)
Theorem C72_energy_sign_refuted : forall brentq h J ell T, finds_roots brentq -> T <> 0 -> ell <> 1 -> J <> 0 ->
  let mr := m_root brentq h J ell T in
  avgE brentq h J ell T = mf_energy h J ell mr - 2 * ((ell - 1) * J * mr ^ 2) /\ avgE brentq h J ell T <> mf_energy h J ell mr.
Proof.
  intros brentq h J ell T HB HT Hl HJ mr. destruct (C72_magnetisation_is_stationary brentq h J ell T HB HT) as [Hm _]. fold mr in Hm.
  assert (E : avgE brentq h J ell T = mf_energy h J ell mr - 2 * ((ell - 1) * J * mr ^ 2)) by (unfold avgE, mf_energy; fold mr; ring).
  split; [exact E|]. rewrite E. assert ((ell - 1) * J * mr ^ 2 <> 0); [|lra].
  apply Rmult_integral_contrapositive. split; [apply Rmult_integral_contrapositive; lra|]. apply pow_nonzero. lra.
Qed.
Print Assumptions C72_energy_sign_refuted.

Lemma m_free brentq h ell T : finds_roots brentq -> T <> 0 -> m_root brentq h 0 ell T = / (1 + exp (h / T)).
Proof.
  intros HB HT. destruct (C72_magnetisation_is_stationary brentq h 0 ell T HB HT) as (_ & E & _). rewrite E at 1. do 3 f_equal. field. exact HT.
Qed.

Lemma cosh_half x : cosh (x / 2) ^ 2 = (1 + exp x) ^ 2 / (4 * exp x).
Proof.
  unfold cosh. assert (E : exp x = exp (x / 2) * exp (x / 2)) by (rewrite <- exp_plus; f_equal; field).
  assert (E' : exp (- (x / 2)) = / exp (x / 2)) by apply exp_Ropp. rewrite E, E'. pose proof (exp_pos (x / 2)). field. lra.
Qed.

(** Already without interaction (J=0) dmdT is minus the derivative of m in T, and (below)
    susc at h=0 is off by a factor T from the derivative of -m in h. *)
Theorem C72_dmdT_refuted : forall brentq h ell T, finds_roots brentq -> 0 < T -> h <> 0 ->
  derivable_pt_lim (m_root brentq h 0 ell) T (- dmdT brentq h 0 ell T) /\ dmdT brentq h 0 ell T <> 0 /\
  ~ derivable_pt_lim (m_root brentq h 0 ell) T (dmdT brentq h 0 ell T).
Proof.
  intros brentq h ell T HB HT Hh.
  assert (P : 0 < exp (h / T)) by apply exp_pos.
  assert (D : dmdT brentq h 0 ell T = - (h / T ^ 2 * exp (h / T) / (1 + exp (h / T)) ^ 2)).
  { unfold dmdT. rewrite m_free by (try assumption; lra). cbv zeta.
    replace (- ((ell - 1) * / (1 + exp (h / T)) * 0 - h) / (2 * T)) with (h / T / 2) by (field; lra). rewrite cosh_half. field. repeat split; lra. }
  assert (N : dmdT brentq h 0 ell T <> 0).
  { rewrite D. apply Ropp_neq_0_compat. unfold Rdiv. repeat apply Rmult_integral_contrapositive_currified; try lra; apply Rinv_neq_0_compat; apply pow_nonzero; lra. }
  assert (L : derivable_pt_lim (m_root brentq h 0 ell) T (- dmdT brentq h 0 ell T)).
  { assert (X : derivable_pt_lim (fun t => / (1 + exp (h * / t))) T (- dmdT brentq h 0 ell T)).
    { assert (D1 : derivable_pt_lim (fun t => h * / t) T (h * (- 1 / T²))).
      { apply (derivable_pt_lim_scal (fun t => / t)). replace (-1 / T²) with (- 1 / (id T)²) by (unfold id; reflexivity).
        apply (derivable_pt_lim_inv id T 1); [unfold id; lra|apply derivable_pt_lim_id]. }
      assert (D2 : derivable_pt_lim (fun t => 1 + exp (h * / t)) T (0 + exp (h * / T) * (h * (- 1 / T²)))).
      { apply (derivable_pt_lim_plus (fun _ => 1) (fun t => exp (h * / t))); [apply derivable_pt_lim_const|].
        apply (derivable_pt_lim_comp (fun t => h * / t) exp); [exact D1|]. apply derivable_pt_lim_exp. }
      change (h * / T) with (h / T) in D2.
      replace (- dmdT brentq h 0 ell T) with (- (0 + exp (h / T) * (h * (-1 / T²))) / (1 + exp (h / T))²).
      - apply (derivable_pt_lim_inv (fun t => 1 + exp (h * / t)) T); [change (h * / T) with (h / T); lra|exact D2].
      - rewrite D. unfold Rsqr. field. split; lra. }
    intros eps He. destruct (X eps He) as [del Hd]. 
    assert (Hm : 0 < Rmin del (T / 2)) by (apply Rmin_pos; [apply cond_pos|lra]). exists (mkposreal _ Hm).
    intros u Hu Hu'. cbn [pos] in Hu'. pose proof (Rmin_l del (T / 2)). pose proof (Rmin_r del (T / 2)).
    assert (T + u <> 0) by (pose proof (Rle_abs (- u)); rewrite Rabs_Ropp in *; lra).
    rewrite !m_free by (try assumption; lra). apply Hd; [exact Hu|lra]. }
  split; [exact L|]. split; [exact N|]. intros L2. pose proof (uniqueness_limite _ _ _ _ L L2). lra.
Qed.
Print Assumptions C72_dmdT_refuted.

Theorem C72_susceptibility_refuted : forall brentq ell T, finds_roots brentq -> 0 < T -> T <> 1 ->
  derivable_pt_lim (fun h => m_root brentq h 0 ell T) 0 (- / (4 * T)) /\ susc brentq 0 0 ell T = / (4 * T ^ 2) /\
  ~ derivable_pt_lim (fun h => m_root brentq h 0 ell T) 0 (susc brentq 0 0 ell T) /\
  ~ derivable_pt_lim (fun h => - m_root brentq h 0 ell T) 0 (susc brentq 0 0 ell T).
Proof.
  intros brentq ell T HB HT HT1.
  assert (L : derivable_pt_lim (fun h => m_root brentq h 0 ell T) 0 (- / (4 * T))).
  { assert (X : derivable_pt_lim (fun h => / (1 + exp (/ T * h))) 0 (- / (4 * T))).
    { assert (D1 : derivable_pt_lim (fun h => / T * h) 0 (/ T * 1)) by (apply (derivable_pt_lim_scal id); apply derivable_pt_lim_id).
      assert (D2 : derivable_pt_lim (fun h => 1 + exp (/ T * h)) 0 (0 + exp (/ T * 0) * (/ T * 1))).
      { apply (derivable_pt_lim_plus (fun _ => 1) (fun h => exp (/ T * h))); [apply derivable_pt_lim_const|].
        apply (derivable_pt_lim_comp (fun h => / T * h) exp); [exact D1|]. apply derivable_pt_lim_exp. }
      replace (- / (4 * T)) with (- (0 + exp (/ T * 0) * (/ T * 1)) / (1 + exp (/ T * 0))²).
      - apply (derivable_pt_lim_inv (fun h => 1 + exp (/ T * h)) 0); [pose proof (exp_pos (/ T * 0)); lra|exact D2].
      - rewrite Rmult_0_r, exp_0. unfold Rsqr. field. lra. }
    intros eps He. destruct (X eps He) as [del Hd]. exists del. intros u Hu Hu'. rewrite !m_free by (try assumption; lra).
    replace ((0 + u) / T) with (/ T * (0 + u)) by (field; lra). replace (0 / T) with (/ T * 0) by (field; lra). now apply Hd. }
  assert (S : susc brentq 0 0 ell T = / (4 * T ^ 2)).
  { unfold susc. cbv zeta. replace ((ell - 1) * m_root brentq 0 0 ell T * 0 - 0) with 0 by ring. rewrite Ropp_0, exp_0. field. lra. }
  split; [exact L|]. split; [exact S|]. split; intros L2.
  - pose proof (uniqueness_limite _ _ _ _ L L2) as U. rewrite S in U. assert (0 < / (4 * T)) by (apply Rinv_0_lt_compat; lra).
    assert (0 < / (4 * T ^ 2)) by (apply Rinv_0_lt_compat; nra). lra.
  - apply derivable_pt_lim_opp in L. pose proof (uniqueness_limite _ _ _ _ L L2) as U. rewrite S, Ropp_involutive in U.
    apply (f_equal (fun z => z * (4 * T ^ 2))) in U. replace (/ (4 * T) * (4 * T ^ 2)) with T in U by (field; lra).
    rewrite Rinv_l in U by nra. contradiction.
Qed.
Print Assumptions C72_susceptibility_refuted.

(** The promise of the root finder can be met (so the theorems above are not vacuous), and
    the numbers for h=2, T=1: the derivative of m is positive. *)
Example C72_example : (exists brentq, finds_roots brentq) /\
  forall brentq, finds_roots brentq -> dmdT brentq 2 0 5 1 < 0 /\ derivable_pt_lim (m_root brentq 2 0 5) 1 (- dmdT brentq 2 0 5 1) /\
    avgE brentq 2 0 5 1 = 2 * / (1 + exp 2).
Proof.
  split.
  - assert (H : forall (f : R -> R) a b, {r : R | a < b -> continuity f -> f a < 0 < f b -> a <= r <= b /\ f r = 0}).
    { intros f a b. destruct (ClassicalDedekindReals.sig_not_dec (a < b /\ continuity f /\ f a < 0 < f b)) as [P|N].
      - apply Classical_Prop.NNPP in P. destruct P as (H1 & H2 & H3). destruct (IVT f a b H2 H1 (proj1 H3) (proj2 H3)) as (z & Hz). exists z. auto.
      - exists 0. intros H1 H2 H3. exfalso. apply N. auto. }
    exists (fun f a b => proj1_sig (H f a b)). intros f a b. exact (proj2_sig (H f a b)).
  - intros brentq HB. split; [|split; [now apply C72_dmdT_refuted; [|lra|lra]|]].
    + pose proof (m_free brentq 2 5 1 HB ltac:(lra)) as E. unfold dmdT. rewrite E. cbv zeta. pose proof (exp_pos 2) as P.
      replace (2 / 1) with 2 by field. replace (- ((5 - 1) * / (1 + exp 2) * 0 - 2) / (2 * 1)) with (2 / 2) by (field; lra). rewrite cosh_half.
      match goal with |- ?x < 0 => replace x with (- (2 * exp 2 / (1 + exp 2) ^ 2)) by (field; lra) end.
      apply Ropp_lt_gt_0_contravar, Rdiv_lt_0_compat; nra.
    + pose proof (m_free brentq 2 5 1 HB ltac:(lra)) as E. unfold avgE. rewrite E. cbv zeta. replace (2 / 1) with 2 by field. field. pose proof (exp_pos 2). lra.
Qed.

(** ** C73: mean field inversion of a cluster *)
(** Correlation matrix of the spins of a cluster listed in increasing order; joint
    frequencies are read at (i,j) with i<j. *)
Definition correlations (C : list (list R)) (cl : list nat) : list (list R) :=
  mk_mat (length cl) (length cl) (fun a b =>
    let i := nth (Nat.min a b) cl 0%nat in let j := nth (Nat.max a b) cl 0%nat in
    (entry C i j - entry C i i * entry C j j) / sqrt (entry C i i * (1 - entry C i i) * (entry C j j * (1 - entry C j j)))).

Lemma correlations_ok C cl : Mmat (length cl) (cc_of C cl) = correlations C cl.
Proof.
  unfold Mmat, correlations. apply mk_mat_ext. intros a b Ha Hb. unfold connected, Mdenom. rewrite !entry_cc_diag, entry_cc by assumption. cbv zeta.
  destruct (Nat.le_ge_cases a b) as [L|L].
  - now rewrite Nat.min_l, Nat.max_r by assumption.
  - rewrite Nat.min_r, Nat.max_l by assumption.
    rewrite (Rmult_comm (entry C (nth a cl 0%nat) (nth a cl 0%nat) * (1 - entry C (nth a cl 0%nat) (nth a cl 0%nat)))).
    now rewrite (Rmult_comm (entry C (nth a cl 0%nat) (nth a cl 0%nat)) (entry C (nth b cl 0%nat) (nth b cl 0%nat))).
Qed.

Definition valid_cluster (N : nat) (C : list (list R)) (cl : list nat) : Prop :=
  sq N C /\ (forall x, In x cl -> (x < N)%nat) /\ NoDup cl /\ cl <> [] /\ (forall x, In x cl -> 0 < entry C x x < 1).

Lemma valid_cc N C cl a : valid_cluster N C cl -> (a < length cl)%nat -> 0 < entry (cc_of C cl) a a < 1.
Proof. intros (_ & _ & _ & _ & H) Ha. rewrite entry_cc_diag by assumption. apply H. now apply nth_In. Qed.

(** The prior strength per sample; undefined when no sample size is given. *)
Definition strength (lmbda : R) (ns : option nat) (g : R) : Prop :=
  lmbda = 0 /\ g = 0 \/ lmbda <> 0 /\ exists m, ns = Some m /\ g = lmbda / INR m.
Lemma strength_ok lmbda ns g : strength lmbda ns g -> gamma_of lmbda ns = Ok g.
Proof.
  unfold gamma_of. intros [[-> ->]|[H (m & -> & ->)]]; destruct (Reqb_spec lmbda 0) as [E|E] || destruct (Reqb_spec 0 0) as [E|E]; congruence.
Qed.

(** Independent spins are recovered exactly for every prior strength. *)
Theorem C73_uncorrelated_exact : forall eig inv svdvals N C cl lmbda ns ur g, valid_cluster N C cl ->
  (forall a b, (a < b < length cl)%nat -> let i := nth a cl 0%nat in let j := nth b cl 0%nat in entry C i j = entry C i i * entry C j j) ->
  lmbda <> 0 \/ ur = true -> strength lmbda ns g -> 0 <= g ->
  eigen (length cl) (correlations C cl) (fst (eig (correlations C cl))) (snd (eig (correlations C cl))) ->
  exists J, SmeanField eig inv svdvals cl C lmbda ns true false ur = Ok (sumf cl (fun x => binary_entropy (entry C x x)), J) /\ sq N J /\
    forall i j, (i < N)%nat -> (j < N)%nat ->
      (In i cl -> i = j -> entry J i j = - ln (entry C i i / (1 - entry C i i))) /\ (~ In i cl \/ i <> j -> entry J i j = 0).
Proof.
  intros eig inv svdvals N C cl lmbda ns ur g HV Hun Hb Hg Hg0 HE. pose proof HV as (HC & Hin & Hnd & Hne & Hf).
  set (n := length cl) in *. destruct (eig (correlations C cl)) as [mq vq] eqn:Ee. cbn [fst snd] in HE.
  pose proof (strength_ok _ _ _ Hg) as Hg'.
  rewrite <- correlations_ok in Ee, HE. fold n in Ee, HE.
  assert (QS : forall a b, (a < n)%nat -> (b < n)%nat -> a <> b -> entry (cc_of C cl) a b = entry (cc_of C cl) a a * entry (cc_of C cl) b b).
  { intros a b Ha Hb' Hab. rewrite entry_cc, !entry_cc_diag by assumption. destruct (Nat.lt_gt_cases a b) as [H _]. destruct (H Hab) as [L|L].
    - rewrite Nat.min_l, Nat.max_r by lia. apply Hun. fold n. lia.
    - rewrite Nat.min_r, Nat.max_l by lia. rewrite Rmult_comm. apply Hun. fold n. lia. }
  assert (HI : forall i j, (i < n)%nat -> (j < n)%nat -> entry (Mmat n (cc_of C cl)) i j = delta i j).
  { intros i j Hi Hj. unfold delta. destruct (Nat.eqb_spec i j) as [->|Nij]; [apply Mmat_diag; [assumption|now apply (valid_cc N)]|].
    unfold Mmat. rewrite entry_mk_mat by assumption. unfold connected. rewrite QS by assumption. unfold Rdiv. ring. }
  assert (H1 : forall k, (k < n)%nat -> nthR (map (mqhat g) mq) k = 1).
  { intros k Hk. rewrite mqhat_nth by (destruct HE as [-> _]; assumption). rewrite (eigen_id n _ mq vq HE HI k Hk). now apply mqhat_1. }
  pose proof (mf_reg eig inv svdvals n (cc_of C cl) (independent_entropy C cl) lmbda ns ur g mq vq Hb Hg' Ee) as MF.
  destruct (SmeanField_ok eig inv svdvals N C cl lmbda ns true false ur _ _ HC Hin Hnd Hne MF) as (ent & J & Jc & E & SJ & SJc & E1 & _ & Hcl & Hout & Hoff & Hdiag).
  fold n in Hcl, Hoff, Hdiag, SJc.
  assert (Z : forall a b, (a < n)%nat -> (b < n)%nat -> a <> b -> sumf (range n) (fun k => entry vq a k * (1 / nthR (map (mqhat g) mq) k * entry vq b k)) = 0).
  { intros a b Ha Hb' Hab. transitivity (sumf (range n) (fun k => entry vq a k * entry vq b k)).
    - apply sumf_ext_in. intros k Hk. apply in_range in Hk. rewrite H1 by assumption. field.
    - destruct HE as (_ & _ & HE & _). rewrite HE by assumption. unfold delta. destruct (Nat.eqb_spec a b); [contradiction|reflexivity]. }
  assert (S0 : sumf (map (mqhat g) mq) (fun x => ln x + 1 - x) = 0).
  { apply sumf_zero. intros x Hx. apply (In_nth _ _ 0) in Hx. destruct Hx as (k & Hk & <-). rewrite map_length in Hk. destruct HE as [L _]. rewrite L in Hk.
    change (nth k (map (mqhat g) mq) 0) with (nthR (map (mqhat g) mq) k). rewrite H1 by assumption. rewrite ln_1. ring. }
  exists J. split.
  - rewrite E. f_equal. f_equal. rewrite E1 by reflexivity. rewrite S0. unfold independent_entropy. ring.
  - split; [exact SJ|]. intros i j Hi Hj. split.
    + intros Ii <-. destruct (In_nth cl i 0%nat Ii) as (a & Ha & <-). fold n in Ha. rewrite Hcl, Hdiag by assumption. cbv zeta.
      rewrite sumf_zero; [ring|]. intros b Hb'. apply in_range in Hb'. rewrite entry_mk_mat by assumption. destruct (Nat.eqb_spec a b) as [->|Nab]; [ring|].
      rewrite Z by assumption. unfold Rdiv. ring.
    + intros H. destruct (in_dec Nat.eq_dec i cl) as [Ii|Ni]; [|apply Hout; auto]. destruct (in_dec Nat.eq_dec j cl) as [Ij|Nj]; [|apply Hout; auto].
      destruct H as [H|Hij]; [contradiction|]. destruct (In_nth cl i 0%nat Ii) as (a & Ha & <-). destruct (In_nth cl j 0%nat Ij) as (b & Hb' & <-). fold n in Ha, Hb'.
      assert (a <> b) by congruence. rewrite Hcl, Hoff by assumption. rewrite entry_mk_mat by assumption. destruct (Nat.eqb_spec a b); [contradiction|].
      rewrite Z by assumption. unfold Rdiv. ring.
Qed.
Print Assumptions C73_uncorrelated_exact.

Lemma SmeanField_by_cc eig inv svdvals eig' inv' svdvals' N C C' cl lmbda ns it ae ur lmbda' ns' ur' : sq N C -> sq N C' ->
  (forall x, In x cl -> (x < N)%nat) -> cl <> [] -> cc_of C cl = cc_of C' cl ->
  (forall Sind, mf_couplings eig inv svdvals (length cl) (cc_of C cl) Sind lmbda ns ur = mf_couplings eig' inv' svdvals' (length cl) (cc_of C cl) Sind lmbda' ns' ur') ->
  SmeanField eig inv svdvals cl C lmbda ns it ae ur = SmeanField eig' inv' svdvals' cl C' lmbda' ns' it ae ur'.
Proof.
  intros HC HC' Hin Hne Ec Hm. unfold SmeanField. rewrite !(coocCluster_ok N) by assumption. cbn [bind].
  assert (Hn : (1 <= length cl)%nat) by (destruct cl; [congruence|cbn; lia]).
  rewrite !(symmetrizeUsingUpper_ok (length cl)) by (try assumption; apply mk_mat_sq). cbn [bind].
  assert (X : forall D, mk_mat (length cl) (length cl) (fun i j => entry (mk_mat (length cl) (length cl) (fun a b => entry D (nth a cl 0%nat) (nth b cl 0%nat))) (Nat.min i j) (Nat.max i j)) = cc_of D cl).
  { intros D. unfold cc_of. apply mk_mat_ext. intros i j Hi Hj. rewrite entry_mk_mat by lia. reflexivity. }
  rewrite !X, <- Ec, Hm. destruct HC as [-> _]. destruct HC' as [-> _]. reflexivity.
Qed.

(** The regularised equation without a prior and the direct inversion agree. *)
Theorem C73_regularised_and_direct_agree : forall eig inv svdvals N C cl ns it ae, valid_cluster N C cl ->
  let n := length cl in let M := correlations C cl in
  eigen n M (fst (eig M)) (snd (eig M)) -> (forall x, In x (fst (eig M)) -> 0 < x) ->
  (forall i j, (i < n)%nat -> (j < n)%nat -> sumf (range n) (fun k => entry M i k * entry (inv M) k j) = if Nat.eqb i j then 1 else 0) ->
  Permutation (svdvals M) (fst (eig M)) ->
  SmeanField eig inv svdvals cl C 0 ns it ae true = SmeanField eig inv svdvals cl C 0 ns it ae false.
Proof.
  intros eig inv svdvals N C cl ns it ae HV n M HE Hpos Hinv Hsvd. pose proof HV as (HC & Hin & Hnd & Hne & Hf).
  apply (SmeanField_by_cc _ _ _ _ _ _ N); try assumption; [reflexivity|]. intros Sind. fold n.
  destruct (eig M) as [mq vq] eqn:Ee. cbn [fst snd] in HE, Hpos, Hsvd.
  assert (EM : Mmat n (cc_of C cl) = M) by apply correlations_ok.
  assert (G0 : gamma_of 0 ns = Ok 0) by (apply strength_ok; left; split; reflexivity).
  rewrite (mf_reg eig inv svdvals n (cc_of C cl) Sind 0 ns true 0 mq vq (or_intror eq_refl) G0 ltac:(now rewrite EM)). rewrite mf_inv, EM.
  assert (Q : map (mqhat 0) mq = mq).
  { rewrite <- (map_id mq) at 2. apply map_ext_in. intros x Hx. apply mqhat_0. specialize (Hpos x Hx). lra. }
  rewrite Q. destruct HE as (HL & HE). pose proof (conj HL HE : eigen n M mq vq) as HE'.
  assert (Msym : forall i j, (i < n)%nat -> (j < n)%nat -> entry M i j = entry M j i).
  { intros i j Hi Hj. destruct HE as (_ & _ & H3). rewrite !H3 by assumption. apply sumf_ext. intros k. ring. }
  f_equal. f_equal.
  - apply mk_mat_ext. intros i j Hi Hj. destruct (Nat.eqb i j); [reflexivity|]. f_equal.
    apply (inverse_unique n (fun i j => sumf (range n) (fun k => entry vq i k * (1 / nthR mq k * entry vq j k))) (entry (inv M)) (entry M)); try assumption.
    intros a l Ha Hl. rewrite <- (eigen_inverse n M mq vq a l HE').
    + apply sumf_ext_in. intros b Hb. apply in_range in Hb. now rewrite (Msym b l) by assumption.
    + intros k Hk. specialize (Hpos (nthR mq k)). assert (In (nthR mq k) mq) by (apply nth_In; lia). specialize (Hpos H). lra.
    + assumption.
    + assumption.
  - f_equal. f_equal. rewrite (sumf_perm _ _ ln Hsvd). 
    assert (T : sumR mq = INR n).
    { rewrite <- (eigen_trace n M mq vq HE'). rewrite (sumf_ext_in (range n) _ (fun _ => 1)).
      - rewrite sumf_const. unfold range. rewrite seq_length. ring.
      - intros a Ha. apply in_range in Ha. rewrite <- EM. apply Mmat_diag; [assumption|now apply (valid_cc N)]. }
    transitivity (sumf mq ln + (sumf mq (fun _ => 1) - sumR mq)).
    + unfold sumR. rewrite <- sumf_minus, <- sumf_plus. apply sumf_ext. intros x. ring.
    + rewrite sumf_const, T, HL. ring.
Qed.
Print Assumptions C73_regularised_and_direct_agree.

(** Shape of the result and of the entropy, for any data and prior. *)
Theorem C73_shape_and_entropy_bound : forall eig inv svdvals N C cl lmbda ns it ae ur g, valid_cluster N C cl ->
  let n := length cl in let M := correlations C cl in
  length (fst (eig M)) = n ->
  lmbda <> 0 \/ ur = true -> strength lmbda ns g -> 0 < g \/ g = 0 /\ (forall x, In x (fst (eig M)) -> 0 < x) ->
  exists ent J, SmeanField eig inv svdvals cl C lmbda ns it ae ur = Ok (ent, J) /\ sq N J /\ symm N J /\
    (forall i j, (i < N)%nat -> (j < N)%nat -> ~ In i cl \/ ~ In j cl -> entry J i j = 0) /\
    (ae = false -> ent <= if it then sumf cl (fun x => binary_entropy (entry C x x)) else 0) /\
    (ae = true -> exists Jc, sq n Jc /\ (forall a b, (a < n)%nat -> (b < n)%nat -> entry Jc a b = entry J (nth a cl 0%nat) (nth b cl 0%nat)) /\
       ent = entropy (boltzmann (energy01 n Jc) (all_states [0; 1] n)) (all_states [0; 1] n)).
Proof.
  intros eig inv svdvals N C cl lmbda ns it ae ur g HV n M HL Hb Hg Hpos. pose proof HV as (HC & Hin & Hnd & Hne & Hf).
  assert (EM : Mmat n (cc_of C cl) = M) by apply correlations_ok. pose proof (strength_ok _ _ _ Hg) as Hg'.
  destruct (eig M) as [mq vq] eqn:Ee. cbn [fst snd] in *. rewrite <- EM in Ee.
  pose proof (mf_reg eig inv svdvals n (cc_of C cl) (if it then independent_entropy C cl else 0) lmbda ns ur g mq vq Hb Hg' Ee) as MF.
  destruct (SmeanField_ok eig inv svdvals N C cl lmbda ns it ae ur _ _ HC Hin Hnd Hne MF) as (ent & J & Jc & E & SJ & SJc & E1 & E2 & Hcl & Hout & Hoff & Hdiag).
  fold n in Hcl, Hoff, Hdiag, SJc. exists ent, J. split; [exact E|]. split; [exact SJ|]. split; [|split; [exact Hout|split]].
  - intros i j Hi Hj. destruct (in_dec Nat.eq_dec i cl) as [Ii|Ni]; [|rewrite !Hout; auto]. destruct (in_dec Nat.eq_dec j cl) as [Ij|Nj]; [|rewrite !Hout; auto].
    destruct (In_nth cl i 0%nat Ii) as (a & Ha & <-). destruct (In_nth cl j 0%nat Ij) as (b & Hb' & <-). fold n in Ha, Hb'. rewrite !Hcl by assumption.
    destruct (Nat.eq_dec a b) as [->|Nab]; [reflexivity|]. rewrite !Hoff by auto. f_equal. rewrite !entry_mk_mat by assumption.
    rewrite (Nat.eqb_sym b a). destruct (Nat.eqb a b); [reflexivity|]. apply reg_couplings_sym.
  - intros Ha. rewrite (E1 Ha). pose proof (reg_entropy_le g mq Hpos). unfold independent_entropy. destruct it; lra.
  - intros Ha. exists Jc. split; [exact SJc|]. split; [intros; symmetry; now apply Hcl|]. now apply E2.
Qed.
Print Assumptions C73_shape_and_entropy_bound.

(** The prior replaces an eigenvalue x of the correlation matrix by the positive root of
    y^2 - (x-g) y - g, which lies between x and the value 1 of independent spins. *)
Theorem C73_prior_shrinks_to_independence : forall g x, 0 <= g -> 0 < x ->
  let y := mqhat g x in
  0 < y /\ y ^ 2 - (x - g) * y - g = 0 /\ (x <= 1 -> x <= y <= 1) /\ (1 <= x -> 1 <= y <= x) /\ (g = 0 -> y = x) /\
  (forall z, 0 < z -> z ^ 2 - (x - g) * z - g = 0 -> z = y).
Proof.
  intros g x Hg Hx y. assert (Y : 0 < y) by (apply mqhat_pos; destruct (Req_dec g 0); [right; auto|left; lra]).
  pose proof (mqhat_root g x Hg) as Hr. fold y in Hr. split; [exact Y|]. split; [exact Hr|].
  destruct (mqhat_shrinks g x Hg ltac:(lra)) as [S1 S2]. split; [exact S1|]. split; [exact S2|]. split.
  - intros ->. unfold y. apply mqhat_0. lra.
  - intros z Hz Hrz. assert (E : (z - y) * (z + y - (x - g)) = 0) by lra. apply Rmult_integral in E. destruct E as [E|E]; [lra|].
    exfalso. (* the two roots have product -g <= 0 *)
    assert (y * (x - g - y) = - g) by lra. assert (z = x - g - y) by lra. subst z. destruct Hg as [Hg|<-]; [nra|].
    assert (y * (x - 0 - y) = 0) as Q by lra. apply Rmult_integral in Q. lra.
Qed.
Print Assumptions C73_prior_shrinks_to_independence.

(** The documented defaults combine badly: a prior without the sample size is a TypeError. *)
Theorem C73_prior_needs_sample_size : forall eig inv svdvals N C cl lmbda it ae ur, valid_cluster N C cl -> lmbda <> 0 ->
  SmeanField eig inv svdvals cl C lmbda None it ae ur = Err TypeError.
Proof.
  intros eig inv svdvals N C cl lmbda it ae ur (HC & Hin & Hnd & Hne & Hf) Hl. unfold SmeanField. rewrite (coocCluster_ok N) by assumption. cbn [bind].
  rewrite (symmetrizeUsingUpper_ok (length cl)) by first [apply mk_mat_sq | destruct cl; [congruence|cbn; lia]]. cbn [bind]. cbv zeta. unfold mf_couplings. cbv zeta.
  destruct (Reqb_spec lmbda 0); [contradiction|]. reflexivity.
Qed.
Print Assumptions C73_prior_needs_sample_size.

(** A pair given in decreasing order: the joint frequency stored above the diagonal is
    ignored, so that data with any correlation give the same answer. *)
Theorem C73_unsorted_pair_refuted : forall eig inv svdvals N C C' i j lmbda ns it ae ur, (i < j < N)%nat -> sq N C -> sq N C' ->
  (forall a b, (a < N)%nat -> (b < N)%nat -> (a, b) <> (i, j) -> entry C a b = entry C' a b) ->
  SmeanField eig inv svdvals [j; i] C lmbda ns it ae ur = SmeanField eig inv svdvals [j; i] C' lmbda ns it ae ur.
Proof.
  intros eig inv svdvals N C C' i j lmbda ns it ae ur H HC HC' Hs. apply (SmeanField_by_cc _ _ _ _ _ _ N); try assumption.
  - intros x [<-|[<-|[]]]; lia.
  - discriminate.
  - unfold cc_of. apply mk_mat_ext. intros a b Ha Hb. cbn in Ha, Hb. destruct a as [|[|a]]; destruct b as [|[|b]]; try lia; cbn [Nat.min Nat.max nth]; apply Hs; try lia; intros E; injection E; lia.
  - reflexivity.
Qed.
Print Assumptions C73_unsorted_pair_refuted.

Example C73_example : let C := [[/ 2; / 6]; [0; / 3]] in
  exists J, SmeanField (fun _ => ([1; 1], [[1; 0]; [0; 1]])) (fun M => M) (fun _ => []) [0; 1]%nat C 3 (Some 10%nat) true false true =
    Ok (binary_entropy (/ 2) + binary_entropy (/ 3), J) /\ entry J 1 1 = ln 2 /\ entry J 0 1 = 0.
Proof.
  intros C.
  assert (HE : eigen 2 (correlations C [0; 1]%nat) [1; 1] [[1; 0]; [0; 1]]).
  { cbn [fst snd length]. split; [reflexivity|]. unfold range. cbn [seq]. split; [|split]; intros [|[|a]] [|[|b]] Ha Hb; try lia; rewrite ?sumf_cons, ?sumf_nil.
    all: unfold delta, correlations; rewrite ?entry_mk_mat by (cbn; lia); unfold C, entry, nthR; cbn [nth Nat.eqb Nat.min Nat.max]; try ring.
    + rewrite sqrt_square by lra. field.
    + replace (/ 6 - / 2 * / 3) with 0 by field. unfold Rdiv. ring.
    + replace (/ 6 - / 2 * / 3) with 0 by field. unfold Rdiv. ring.
    + rewrite sqrt_square by lra. field. }
  destruct (C73_uncorrelated_exact (fun _ => ([1; 1], [[1; 0]; [0; 1]])) (fun M => M) (fun _ => []) 2 C [0; 1]%nat 3 (Some 10%nat) true (3 / INR 10)) as (J & E & _ & H).
  - split; [split; [reflexivity|intros [|[|k]] Hk; try lia; reflexivity]|]. split; [intros x [<-|[<-|[]]]; lia|]. split; [repeat constructor; cbn; intuition lia|].
    split; [discriminate|]. intros x [<-|[<-|[]]]; unfold C, entry, nthR; cbn [nth]; lra.
  - intros a b Hab. cbn in Hab. replace a with 0%nat by lia. replace b with 1%nat by lia. unfold C, entry, nthR. cbn [nth]. lra.
  - now right.
  - right. split; [lra|]. exists 10%nat. split; reflexivity.
  - apply Rlt_le, Rdiv_lt_0_compat; [lra|apply lt_0_INR; lia].
  - exact HE.
  - exists J. split; [|split].
    + rewrite E. f_equal. f_equal. rewrite !sumf_cons, sumf_nil. unfold C, entry, nthR. cbn [nth]. ring.
    + destruct (H 1%nat 1%nat ltac:(lia) ltac:(lia)) as [H1 _]. rewrite H1 by (cbn; auto). unfold C, entry, nthR. cbn [nth].
      replace (/ 3 / (1 - / 3)) with (/ 2) by field. rewrite ln_Rinv by lra. ring.
    + apply H; try lia.
Qed.
