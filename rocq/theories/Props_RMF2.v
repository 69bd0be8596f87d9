(** * Properties C49 (regularized mean field part), C74, C75. *)
From Verif Require Import Prelude PreludeFacts Spec Spec2 M_Index M_Params M_MeanField M_Cluster M_RMF P_Index P_Energy P_Energy2 P_Params P_Enum P_MaxEnt P_Unique
  P_MeanField P_MeanField2 P_MeanField3 P_Cluster4 P_Cluster5 P_RMF Props_MeanField Props_RMF P_RMF2.
Import ListNotations.
Local Open Scope R_scope.

(** ** C49 *)
(** The conversion at the end of RegularizedMeanField.solve doubles all energies of the
    mean field model (up to a constant), i.e. it samples at half the temperature. *)
Theorem C49_rmf_doubles_energies_refuted : forall n J, (1 <= n)%nat -> sq n J ->
  exists mult, rmf_multipliers J = Ok mult /\ length mult = (n + n * (n - 1) / 2)%nat /\
    (exists c, forall y, length y = n -> ising_energy n mult (map (fun x => 2 * x - 1) y) = 2 * energy01 n J y + c) /\
    (* so the returned model gives every state the squared weight of the mean field model *)
    forall y, In y (all_states [0; 1] n) ->
      boltzmann (ising_energy n mult) (all_states [-1; 1] n) (map (fun x => 2 * x - 1) y) =
      boltzmann (energy01 n J) (all_states [0; 1] n) y ^ 2 / sumf (all_states [0; 1] n) (fun t => boltzmann (energy01 n J) (all_states [0; 1] n) t ^ 2).
Proof.
  intros n J Hn HJ. destruct (rmf_multipliers_ok n J Hn (proj1 HJ)) as (mult & E & L & c & Hc). exists mult. split; [exact E|]. split; [exact L|].
  split; [now exists c|]. intros y Hy. set (st := all_states [0; 1] n) in *.
  replace [-1; 1] with (map (fun x => 2 * x - 1) [0; 1]) by (cbn [map]; f_equal; [ring|f_equal; ring]). rewrite all_states_map. fold st.
  rewrite (boltzmann_relabel (fun t => 2 * energy01 n J t) (ising_energy n mult) (map (fun x => 2 * x - 1)) c); [|intros t Ht; apply Hc; now apply all_states_spec in Ht|assumption].
  assert (Zp : 0 < partition (energy01 n J) st) by apply partition_pos, all_states01_ne.
  assert (X : forall t, exp (- (2 * energy01 n J t)) = exp (- energy01 n J t) ^ 2) by (intros t; cbn [pow]; rewrite Rmult_1_r, <- exp_plus; f_equal; ring).
  unfold boltzmann at 1. unfold partition. rewrite X, (sumf_ext st (fun s => exp (- (2 * energy01 n J s))) (fun t => exp (- energy01 n J t) ^ 2)) by (intros; apply X).
  unfold boltzmann. set (Z := partition _ st) in *.
  rewrite (sumf_ext st (fun t => (exp (- energy01 n J t) / Z) ^ 2) (fun t => exp (- energy01 n J t) ^ 2 * / Z ^ 2)) by (intros; field; lra).
  rewrite sumf_scal_r. field. split; [lra|]. apply Rgt_not_eq, sumf_pos; [apply all_states01_ne|]. intros t _. apply pow_lt, exp_pos.
Qed.
Print Assumptions C49_rmf_doubles_energies_refuted.

(** Data: rows of -1,1 spins. *)
Definition spin_data (n : nat) (X : list (list R)) : Prop :=
  X <> [] /\ forall s, In s X -> length s = n /\ forall v, In v s -> v = -1 \/ v = 1.
(** Frequency of 1 and joint frequency of 1,1. *)
Definition freq (X : list (list R)) (i : nat) : R := sample_mean X (fun s => (nthR s i + 1) / 2).
Definition joint (X : list (list R)) (i j : nat) : R := sample_mean X (fun s => (nthR s i + 1) / 2 * ((nthR s j + 1) / 2)).

Lemma nthR_map_half s i : (i < length s)%nat -> nthR (map (fun x => (x + 1) / 2) s) i = (nthR s i + 1) / 2.
Proof. intros H. unfold nthR. rewrite (nth_indep _ 0 ((0 + 1) / 2)) by now rewrite map_length. apply (map_nth (fun x => (x + 1) / 2)). Qed.

Lemma data_cooc n X : spin_data n X -> let C := cooccurrence_matrix (map (map (fun x => (x + 1) / 2)) X) true in
  sq n C /\ (forall i, (i < n)%nat -> entry C i i = freq X i) /\ (forall i j, (i < j < n)%nat -> entry C i j = joint X i j) /\
  (forall r x, In r C -> In x r -> 0 <= x <= 1).
Proof.
  intros [Hne HX] C. set (Y := map (map (fun x => (x + 1) / 2)) X) in *.
  assert (HY : Y <> []) by (unfold Y; destruct X; [congruence|discriminate]).
  assert (LY : forall s, In s Y -> length s = n) by (intros s Hs; apply in_map_iff in Hs; destruct Hs as (t & <- & Ht); rewrite map_length; now apply HX).
  assert (EC : C = mk_mat n n (fun i j => if Nat.ltb j i then 0 else sample_mean Y (fun s => nthR s i * nthR s j))) by (apply (cooccurrence_ok Y true n HY LY)).
  assert (SM : forall i j, (i < n)%nat -> (j < n)%nat -> sample_mean Y (fun s => nthR s i * nthR s j) = joint X i j).
  { intros i j Hi Hj. unfold sample_mean, joint, sample_mean, Y. rewrite map_length, sumf_map. f_equal. apply sumf_ext_in. intros s Hs. destruct (HX s Hs) as [L _].
    now rewrite !nthR_map_half by (rewrite L; assumption). }
  assert (V : forall s i, In s X -> (i < n)%nat -> nthR s i = -1 \/ nthR s i = 1).
  { intros s i Hs Hi. destruct (HX s Hs) as [L Hv]. apply Hv. apply nth_In. lia. }
  split; [rewrite EC; apply mk_mat_sq|]. split; [|split].
  - intros i Hi. rewrite EC, entry_mk_mat by assumption. rewrite Nat.ltb_irrefl, SM by assumption. unfold joint, freq. apply sample_mean_ext. intros s Hs. destruct (V s i Hs Hi) as [-> | ->]; field.
  - intros i j Hij. rewrite EC, entry_mk_mat by lia. destruct (Nat.ltb_spec j i); [lia|]. apply SM; lia.
  - intros r x Hr Hx. rewrite EC in Hr. unfold mk_mat in Hr. apply in_map_iff in Hr. destruct Hr as (i & <- & Hi). apply in_map_iff in Hx. destruct Hx as (j & <- & Hj).
    apply in_seq in Hi, Hj. destruct (j <? i)%nat; [lra|]. rewrite SM by lia. unfold joint, sample_mean.
    assert (NP : 0 < INR (length X)) by (apply lt_0_INR; destruct X; [congruence|cbn; lia]).
    assert (B : forall s, In s X -> 0 <= (nthR s i + 1) / 2 * ((nthR s j + 1) / 2) <= 1) by (intros s Hs; destruct (V s i Hs ltac:(lia)) as [-> | ->], (V s j Hs ltac:(lia)) as [-> | ->]; lra).
    split; [apply Rle_mult_inv_pos; [apply sumf_nonneg; intros s Hs; now apply B|assumption]|].
    apply (Rmult_le_reg_r (INR (length X))); [assumption|]. unfold Rdiv. rewrite Rmult_assoc, Rinv_l, Rmult_1_r, Rmult_1_l by lra.
    rewrite <- (Rmult_1_r (INR (length X))), <- sumf_const. apply sumf_le. intros s Hs. now apply B.
Qed.

Lemma average_in n (f : nat -> R) : (1 <= n)%nat -> (forall i, (i < n)%nat -> 0 < f i < 1) -> 0 < sumf (range n) f / INR n < 1.
Proof.
  intros Hn H. assert (NP : 0 < INR n) by (apply lt_0_INR; lia). assert (NE : range n <> []) by (unfold range; destruct n; [lia|discriminate]).
  assert (P : 0 < sumf (range n) f) by (apply sumf_pos; [exact NE|intros i Hi; apply H; now apply in_range]).
  assert (Q : 0 < sumf (range n) (fun i => 1 - f i)) by (apply sumf_pos; [exact NE|intros i Hi; apply in_range in Hi; specialize (H i Hi); lra]).
  rewrite sumf_minus, sumf_const in Q. unfold range in Q at 1. rewrite seq_length in Q. split; [now apply Rdiv_lt_0_compat|].
  apply (Rmult_lt_reg_r (INR n)); [assumption|]. unfold Rdiv. rewrite Rmult_assoc, Rinv_l by lra. lra.
Qed.

Lemma covariance_ok n X b p : X <> [] -> (forall s, In s X -> length s = n) -> exists r, coocSampleCovariance X b p = Ok r.
Proof.
  intros Hne HL. unfold coocSampleCovariance. destruct (fourthOrder_ok n X Hne HL) as (F & -> & SF & _). cbn [bind]. destruct b.
  - rewrite (replaceDiag_ok _ F _ SF) by (rewrite map_length; unfold range; rewrite seq_length; apply SF). cbn [bind]. destruct p; eexists; reflexivity.
  - cbn [bind]. destruct p; eexists; reflexivity.
Qed.

(** Which settings of solve can succeed at all. *)
Theorem C49_rmf_flags : forall eig inv svdvals generate linspace minimize n X grid mc mi prior bracket, (1 <= n)%nat -> spin_data n X ->
  let solve := rmf_solve eig inv svdvals generate linspace minimize X grid in
  (prior <> 0 -> solve mc mi prior bracket = Err NotImplementedError) /\
  (solve false false 0 bracket = Err NotImplementedError) /\
  (solve true false 0 bracket = Err GenericException) /\
  (forall r a b, solve true true 0 (Some (a, b)) <> Ok r).
Proof.
  intros eig inv svdvals generate linspace minimize n X grid mc mi prior bracket Hn [Hne HX] solve. unfold solve, rmf_solve.
  destruct (covariance_ok n X true true Hne (fun s Hs => proj1 (HX s Hs))) as (r & ->). cbn [bind].
  assert (R0 : Reqb 0 0 = true) by (destruct (Reqb_spec 0 0); congruence). rewrite R0. cbn [negb]. split; [|split; [reflexivity|split; [reflexivity|]]].
  - intros H. destruct (Reqb_spec prior 0); [contradiction|reflexivity].
  - intros r' a b E. destruct (coocStdevsFlat _ _) as [sd|]; cbn [bind] in E; [|discriminate].
    destruct (linspace a b grid) as [|g0 gs]; [discriminate|]. cbn [mapM] in E.
    destruct (JmeanField _ _ _ _ _ _); cbn [bind] in E; discriminate.
Qed.
Print Assumptions C49_rmf_flags.

(** For uncorrelated data the mean field matrix is exact for every prior strength, yet the
    multipliers returned have the frequencies p^2/(p^2+(1-p)^2). *)
Theorem C49_rmf_uncorrelated_data_refuted : forall eig inv svdvals generate linspace minimize n X grid x, (1 <= n)%nat -> spin_data n X ->
  (forall i, (i < n)%nat -> 0 < freq X i < 1) -> (forall i j, (i < j < n)%nat -> joint X i j = freq X i * freq X j) ->
  (forall f, minimize f None = Ok x) -> 0 <= x ->
  (let I := mk_mat n n (fun i j => if Nat.eqb i j then 1 else 0) in eigen n I (fst (eig I)) (snd (eig I))) ->
  exists mult, rmf_solve eig inv svdvals generate linspace minimize X grid false true 0 None = Ok mult /\
    forall i, (i < n)%nat ->
      let p := freq X i in let st := all_states [-1; 1] n in
      let q := expectation (boltzmann (ising_energy n mult) st) st (fun s => (nthR s i + 1) / 2) in
      q = p ^ 2 / (p ^ 2 + (1 - p) ^ 2) /\ (p <> / 2 -> q <> p).
Proof.
  intros eig inv svdvals generate linspace minimize n X grid x Hn HX Hp Hj Hmin Hx HE. pose proof HX as [Hne HX'].
  destruct (data_cooc n X HX) as (SC & D1 & D2 & D3). unfold rmf_solve. set (C := cooccurrence_matrix _ true) in *.
  assert (LC : length C = n) by apply SC.
  destruct (covariance_ok n X true true Hne (fun s Hs => proj1 (HX' s Hs))) as (r & ->). cbn [bind].
  assert (R0 : Reqb 0 0 = true) by (destruct (Reqb_spec 0 0); congruence). rewrite R0. cbn [negb].
  assert (LX : (1 <= length X)%nat) by (destruct X; [congruence|cbn; lia]).
  destruct (C52_stdevs_positive n C (length X) Hn ltac:(lia) SC D3) as (sd & -> & _). cbn [bind]. rewrite Hmin. cbn [bind].
  assert (PM : 0 < sumf (range (length C)) (fun i => entry C i i) / INR (length C) < 1).
  { rewrite LC. apply average_in; [assumption|]. intros i Hi. rewrite D1 by assumption. now apply Hp. }
  set (pm := sumf _ _ / _) in *.
  assert (Hl : 0 <= x / (pm ^ 2 * (1 - pm) ^ 2)).
  { apply Rle_mult_inv_pos; [assumption|]. apply Rmult_lt_0_compat; apply pow_lt; lra. }
  destruct (JmeanField_uncorrelated eig inv svdvals n C Hn SC) with (lmbda := x / (pm ^ 2 * (1 - pm) ^ 2)) (N := length X) as (J & -> & SJ & HJ).
  - intros i Hi. rewrite D1 by assumption. now apply Hp.
  - intros i j Hij. rewrite D2, !D1 by lia. now apply Hj.
  - exact HE.
  - exact Hl.
  - exact LX.
  - cbn [bind]. destruct (rmf_multipliers_ok n J Hn (proj1 SJ)) as (mult & E & L & c & Hc). exists mult. split; [exact E|]. intros i Hi. cbv zeta. set (p := freq X i). set (st := all_states [-1; 1] n). set (q := expectation _ st _).
    assert (P : 0 < p < 1) by now apply Hp.
    assert (Q : q = p ^ 2 / (p ^ 2 + (1 - p) ^ 2)).
    { unfold q, st. rewrite (expect_relabel n mult (twice n J) c) by (intros y Hy; rewrite energy01_twice; now apply Hc).
      transitivity (expectation (boltzmann (energy01 n (twice n J)) (all_states [0; 1] n)) (all_states [0; 1] n) (fun y => (fun v => v) (nthR y i))).
      - apply sumf_ext_in. intros y Hy. f_equal. apply all_states_spec in Hy. destruct Hy as [Ly _]. unfold nthR.
        rewrite (nth_indep _ 0 (2 * 0 - 1)) by (rewrite map_length; lia). rewrite (map_nth (fun x => 2 * x - 1)). field.
      - rewrite (single_spin_mean 0 1 n i (2 * - ln (p / (1 - p))) _ (fun v => v) Hi).
        + assert (EX : exp (- (2 * - ln (p / (1 - p)))) = (p / (1 - p)) ^ 2).
          { replace (- (2 * - ln (p / (1 - p)))) with (ln (p / (1 - p)) + ln (p / (1 - p))) by ring. rewrite exp_plus, exp_ln; [ring|]. apply Rdiv_lt_0_compat; lra. }
          rewrite EX. field. split; [nra|lra].
        + intros s Hs. rewrite !energy01_twice. apply all_states_spec in Hs.
          rewrite !(energy01_diag n J (fun i => - ln (entry C i i / (1 - entry C i i)))) by exact HJ.
          rewrite (linear_upd n (fun i => - ln (entry C i i / (1 - entry C i i))) s i 0 1 Hi (proj1 Hs)). rewrite D1 by assumption. fold p. ring. }
    split; [exact Q|]. intros Hh Eq. rewrite Q in Eq. assert (D : p ^ 2 + (1 - p) ^ 2 > 0) by nra.
    apply (f_equal (fun z => z * (p ^ 2 + (1 - p) ^ 2))) in Eq. unfold Rdiv in Eq. rewrite Rmult_assoc, Rinv_l, Rmult_1_r in Eq by lra.
    assert (F : p * (1 - p) * (2 * p - 1) = 0) by lra. apply Rmult_integral in F. destruct F as [F|F]; [apply Rmult_integral in F; lra|]. lra.
Qed.
Print Assumptions C49_rmf_uncorrelated_data_refuted.

(** ** C75: what the objective of RegularizedMeanField measures *)
Lemma zero_diag_mk n f : zero_diag (mk_mat n n f) = Ok (mk_mat n n (fun i j => if Nat.eqb i j then 0 else f i j)).
Proof.
  unfold zero_diag. rewrite mk_mat_length, replace_diag_ok by apply repeat_length. f_equal. apply mk_mat_ext.
  intros i j _ _. destruct (i =? j)%nat; [|reflexivity]. unfold nthR. destruct (nth_in_or_default i (repeat 0 n) 0) as [H|H]; [now apply repeat_spec in H|assumption].
Qed.

Lemma sampled_ok n J : length J = n -> rmf_sampled_multipliers J =
  Ok (map (fun i => 2 * entry J i i) (range n) ++ map (fun p => - (entry J (fst p) (snd p) + entry J (snd p) (fst p))) (pairs (seq 0 n))).
Proof.
  intros L. unfold rmf_sampled_multipliers. rewrite L, map_neg_mk, zero_diag_mk. cbn [bind]. rewrite squareform_mat_ok.
  - cbn [bind]. f_equal. f_equal.
    + apply map_ext_in. intros i Hi. apply in_range in Hi. rewrite entry_mk_mat by assumption. ring.
    + apply map_ext_in. intros [i j] Hp. apply in_pairs_seq in Hp. cbn [fst snd]. destruct (Nat.eqb_spec i j); [lia|reflexivity].
  - intros i j _ _. rewrite (Nat.eqb_sym j i). destruct (Nat.eqb i j); [reflexivity|ring].
  - intros i _. now rewrite Nat.eqb_refl.
Qed.

Lemma sampled_energy n J m s : length J = n -> rmf_sampled_multipliers J = Ok m ->
  (forall i j, (i < n)%nat -> (j < n)%nat -> i <> j -> entry J i j = 0) ->
  ising_energy n m s = sumf (seq 0 n) (fun i => -2 * entry J i i * nthR s i).
Proof.
  intros L E H. rewrite (sampled_ok n J L) in E. injection E as <-. unfold ising_energy.
  assert (L1 : length (map (fun i => 2 * entry J i i) (range n)) = n) by (unfold range; now rewrite map_length, seq_length).
  rewrite (sumf_zero (seq 0 n) (fun i => sumf (seq (Datatypes.S i) _) _)).
  - rewrite Rminus_0_r, <- sumf_opp. apply sumf_ext_in. intros i Hi. apply in_seq in Hi. unfold nthR at 1. rewrite app_nth1 by lia. unfold range.
    rewrite (nth_map_seq (fun i => 2 * entry J i i)) by lia. ring.
  - intros i Hi. apply sumf_zero. intros j Hj. apply in_seq in Hi, Hj. unfold coupling. destruct (Nat.ltb_spec i j); [|lia]. unfold nthR at 1. rewrite app_nth2 by lia. rewrite L1.
    replace (n + pair_index n i j - n)%nat with (pair_index n i j) by lia. erewrite nth_error_nth; [|rewrite nth_error_map, pair_index_spec by lia; reflexivity].
    cbn [fst snd]. rewrite !H by lia. ring.
Qed.

(** For uncorrelated data, whose mean field model is exact, the model that is sampled has
    magnetisations of the wrong sign. *)
Theorem C75_sampled_magnetisation_has_wrong_sign_refuted : forall eig inv svdvals n X lmbda N, (1 <= n)%nat -> (1 <= N)%nat -> spin_data n X -> 0 <= lmbda ->
  (forall i, (i < n)%nat -> 0 < freq X i < 1) -> (forall i j, (i < j < n)%nat -> joint X i j = freq X i * freq X j) ->
  (let I := mk_mat n n (fun i j => if Nat.eqb i j then 1 else 0) in eigen n I (fst (eig I)) (snd (eig I))) ->
  exists J mult, JmeanField eig inv svdvals (cooccurrence_matrix (map (map (fun x => (x + 1) / 2)) X) true) lmbda (Some N) = Ok J /\
    rmf_sampled_multipliers J = Ok mult /\
    forall i, (i < n)%nat ->
      let p := freq X i in let st := all_states [-1; 1] n in
      let ms := expectation (boltzmann (ising_energy n mult) st) st (fun s => nthR s i) in
      ms = ((1 - p) ^ 4 - p ^ 4) / ((1 - p) ^ 4 + p ^ 4) /\ (p <> / 2 -> ms * sample_mean X (fun s => nthR s i) < 0).
Proof.
  intros eig inv svdvals n X lmbda N Hn HN HX Hl Hp Hj HE. pose proof HX as [Hne HX'].
  destruct (data_cooc n X HX) as (SC & D1 & D2 & D3). set (C := cooccurrence_matrix _ true) in *.
  destruct (JmeanField_uncorrelated eig inv svdvals n C Hn SC) with (lmbda := lmbda) (N := N) as (J & EJ & SJ & HJ); try assumption.
  - intros i Hi. rewrite D1 by assumption. now apply Hp.
  - intros i j Hij. rewrite D2, !D1 by lia. now apply Hj.
  - exists J. eexists. split; [exact EJ|]. split; [apply (sampled_ok n J (proj1 SJ))|]. intros i Hi. cbv zeta.
    set (mult := _ ++ _). assert (EM : rmf_sampled_multipliers J = Ok mult) by apply (sampled_ok n J (proj1 SJ)).
    set (p := freq X i). assert (P : 0 < p < 1) by now apply Hp. set (st := all_states [-1; 1] n). set (ms := expectation _ st _).
    assert (M : ms = ((1 - p) ^ 4 - p ^ 4) / ((1 - p) ^ 4 + p ^ 4)).
    { unfold ms, st. rewrite (single_spin_mean (-1) 1 n i (4 * ln (p / (1 - p))) _ (fun v => v) Hi).
      - assert (EX : exp (- (4 * ln (p / (1 - p)))) = ((1 - p) / p) ^ 4).
        { replace (- (4 * ln (p / (1 - p)))) with (ln ((1 - p) / p) + ln ((1 - p) / p) + ln ((1 - p) / p) + ln ((1 - p) / p)).
          - rewrite !exp_plus, exp_ln by (apply Rdiv_lt_0_compat; lra). ring.
          - rewrite !ln_quot by lra. ring. }
        rewrite EX. pose proof (pow_lt p 4 ltac:(lra)). pose proof (pow_lt (1 - p) 4 ltac:(lra)). field. split; lra.
      - intros s Hs. apply all_states_spec in Hs. rewrite !(sampled_energy n J mult) by first [apply SJ | exact EM | intros a b Ha Hb Hab; rewrite HJ by assumption; destruct (Nat.eqb_spec a b); [contradiction|reflexivity]].
        rewrite (linear_upd n (fun i => -2 * entry J i i) s i (-1) 1 Hi (proj1 Hs)). rewrite HJ, Nat.eqb_refl, D1 by assumption. fold p. ring. }
    split; [exact M|]. intros Hh. assert (EX : sample_mean X (fun s => nthR s i) = 2 * p - 1).
    { unfold p, freq. rewrite (sample_mean_ext X _ (fun s => 1 * ((nthR s i + 1) / 2) + 1 * ((nthR s i + 1) / 2) + 0 * 0 + -1)) by (intros; field).
      rewrite sample_mean_lin by assumption. ring. }
    rewrite EX, M. pose proof (pow_lt p 4 ltac:(lra)) as P4. pose proof (pow_lt (1 - p) 4 ltac:(lra)) as Q4.
    replace (((1 - p) ^ 4 - p ^ 4) / ((1 - p) ^ 4 + p ^ 4) * (2 * p - 1)) with (- ((2 * p - 1) ^ 2 * ((1 - p) ^ 2 + p ^ 2) / ((1 - p) ^ 4 + p ^ 4))) by (field; lra).
    apply Ropp_lt_gt_0_contravar, Rdiv_lt_0_compat; [|lra]. apply Rmult_lt_0_compat; [|nra].
    replace ((2 * p - 1) ^ 2) with ((2 * p - 1)²) by (unfold Rsqr; ring). apply Rsqr_pos_lt. lra.
Qed.
Print Assumptions C75_sampled_magnetisation_has_wrong_sign_refuted.

Definition flat_pos (n i j : nat) : nat := Z.to_nat (diagFlatIndex (Z.of_nat i) (Z.of_nat j) (Z.of_nat n)).

(** The sample consists of -1,1 spins while the target holds frequencies of 1: the residual
    of every frequency is 1-p whatever the sample, and the pair residuals compare a
    correlation with a joint frequency. *)
Theorem C75_residual_ignores_frequencies_refuted : forall n S C, (1 <= n)%nat -> sq n C -> spin_data n S ->
  exists dc, isingDeltaCooc S C = Ok dc /\ length dc = (n * (n + 1) / 2)%nat /\
    (forall i, (i < n)%nat -> nthR dc (flat_pos n i i) = 1 - entry C i i) /\
    (forall i j, (i < j < n)%nat -> nthR dc (flat_pos n i j) = sample_mean S (fun s => nthR s i * nthR s j) - entry C i j).
Proof.
  intros n S C Hn HC [Hne HS]. unfold isingDeltaCooc. rewrite (cooccurrence_ok S true n Hne (fun s Hs => proj1 (HS s Hs))). rewrite mk_mat_length.
  destruct (C50_flat_layout n (mk_mat n n (fun i j => entry (mk_mat n n (fun i j => if (j <? i)%nat then 0 else sample_mean S (fun s => nthR s i * nthR s j))) i j - entry C i j)) Hn (mk_mat_length n n _)) as (x & E & L & H).
  exists x. split; [exact E|]. split; [exact L|]. split.
  - intros i Hi. unfold flat_pos. rewrite H by lia. rewrite !entry_mk_mat by assumption. rewrite Nat.ltb_irrefl. f_equal.
    rewrite (sample_mean_ext S _ (fun _ => 0 * 0 + 0 * 0 + 0 * 0 + 1)).
    + rewrite sample_mean_lin by assumption. ring.
    + intros s Hs. destruct (HS s Hs) as [Ls Hv]. assert (V : In (nthR s i) s) by (apply nth_In; lia). destruct (Hv _ V) as [-> | ->]; ring.
  - intros i j Hij. unfold flat_pos. rewrite H by lia. rewrite !entry_mk_mat by lia. destruct (Nat.ltb_spec j i); [lia|reflexivity].
Qed.
Print Assumptions C75_residual_ignores_frequencies_refuted.

(** Hence the objective stays above a positive constant even if the sample reproduces the
    data exactly. *)
Theorem C75_objective_never_vanishes_refuted : forall eig inv svdvals generate n X g v, (1 <= n)%nat -> spin_data n X ->
  (forall m, spin_data n (generate m)) ->
  let C := cooccurrence_matrix (map (map (fun x => (x + 1) / 2)) X) true in
  forall sd pmean, coocStdevsFlat C (length X) = Ok sd ->
  rmf_func eig inv svdvals generate C sd (length X) pmean g = Ok v ->
  forall i, (i < n)%nat -> freq X i < 1 -> 0 < ((1 - freq X i) / nthR sd (flat_pos n i i)) ^ 2 <= v.
Proof.
  intros eig inv svdvals generate n X g v Hn HX HG C sd pmean Hsd Hv i Hi Hp. destruct (data_cooc n X HX) as (SC & D1 & D2 & D3). fold C in SC, D1, D2, D3.
  assert (LX : (0 < length X)%nat) by (destruct HX as [Hne _]; destruct X; [congruence|cbn; lia]).
  destruct (C52_stdevs_positive n C (length X) Hn LX SC D3) as (sd' & E & L & Pos & _). assert (sd' = sd) by congruence. subst sd'.
  unfold rmf_func in Hv. cbv zeta in Hv. destruct (JmeanField _ _ _ _ _ _) as [J|]; cbn [bind] in Hv; [|discriminate].
  destruct (rmf_sampled_multipliers J) as [m|]; cbn [bind] in Hv; [|discriminate].
  destruct (C75_residual_ignores_frequencies_refuted n (generate m) C Hn SC (HG m)) as (dc & Ed & Ld & H1 & _). rewrite Ed in Hv. cbn [bind] in Hv. injection Hv as <-.
  assert (K : (flat_pos n i i < n * (n + 1) / 2)%nat).
  { unfold flat_pos. destruct (C50_flat_index_bijection n) as [B _]. specialize (B i i ltac:(lia)). lia. }
  assert (Ps : 0 < nthR sd (flat_pos n i i)) by (apply Pos, nth_In; lia).
  split.
  - apply pow_lt. apply Rdiv_lt_0_compat; lra.
  - replace (1 - freq X i) with (nthR dc (flat_pos n i i)) by (rewrite H1, D1 by assumption; reflexivity).
    set (k := flat_pos n i i) in *. pose proof (combine_nth dc sd k 0 0 ltac:(lia)) as CN.
    assert (I : In (nth k dc 0, nth k sd 0) (combine dc sd)) by (rewrite <- CN; apply nth_In; rewrite combine_length; lia).
    change ((fun p : R * R => (fst p / snd p) ^ 2) (nth k dc 0, nth k sd 0) <= sumf (combine dc sd) (fun p => (fst p / snd p) ^ 2)).
    apply (sumf_in_le (combine dc sd) (fun p => (fst p / snd p) ^ 2)); [|exact I]. intros [a b] _. cbn [fst snd]. apply pow2_ge_0.
Qed.
Print Assumptions C75_objective_never_vanishes_refuted.

(** ** C74: covariance of co-occurrences *)
Theorem C74_covariance_matrix_refuted : forall n X, X <> [] -> (forall s, In s X -> length s = n /\ forall v, In v s -> v = 0 \/ v = 1) ->
  exists K, coocSampleCovariance X false false = Ok K /\ sq (n * (n + 1) / 2) K /\
  forall i j k l, (i <= j < n)%nat -> (k <= l < n)%nat ->
    let P := fun s => nthR s i * nthR s j in let Q := fun s => nthR s k * nthR s l in
    let mp := sample_mean X P in let mq := sample_mean X Q in let mpq := sample_mean X (fun s => P s * Q s) in
    let cov := sample_mean X (fun s => (P s - mp) * (Q s - mq)) in
    (* on the diagonal: the variance *)
    ((i, j) = (k, l) -> entry K (flat_pos n i j) (flat_pos n k l) = cov) /\
    (* elsewhere: the variance of the product, which is positive for uncorrelated P and Q *)
    entry K (flat_pos n i j) (flat_pos n k l) = mpq * (1 - mpq) /\
    (cov = 0 -> 0 < mp < 1 -> 0 < mq < 1 -> 0 < entry K (flat_pos n i j) (flat_pos n k l)).
Proof.
  intros n X Hne HX. destruct (fourthOrder_ok n X Hne (fun s Hs => proj1 (HX s Hs))) as (F & EF & SF & HF).
  assert (EC : coocSampleCovariance X false false = Ok (map (map (fun x => x * (1 - x))) F)) by (unfold coocSampleCovariance; rewrite EF; reflexivity).
  set (D := (n * (n + 1) / 2)%nat) in *.
  assert (EK : map (map (fun x => x * (1 - x))) F = mk_mat D D (fun a b => entry F a b * (1 - entry F a b))).
  { rewrite (sq_mk_mat D F SF) at 1. unfold mk_mat. rewrite map_map. apply map_ext. intros a. now rewrite map_map. }
  eexists. split; [exact EC|]. split; [rewrite EK; apply mk_mat_sq|]. intros i j k l Hij Hkl P Q mp mq mpq cov.
  assert (Pij : (flat_pos n i j < D)%nat) by (unfold flat_pos; rewrite ix_diag by lia; apply ix_lt; lia).
  assert (Pkl : (flat_pos n k l < D)%nat) by (unfold flat_pos; rewrite ix_diag by lia; apply ix_lt; lia).
  assert (E : entry (map (map (fun x => x * (1 - x))) F) (flat_pos n i j) (flat_pos n k l) = mpq * (1 - mpq)).
  { rewrite EK, entry_mk_mat by assumption. unfold flat_pos. rewrite !ix_diag by lia. rewrite HF by assumption. reflexivity. }
  assert (Ecov : cov = mpq - mp * mq).
  { unfold cov. rewrite (sample_mean_ext X _ (fun s => 1 * (P s * Q s) + (- mq) * P s + (- mp) * Q s + mp * mq)) by (intros; ring).
    rewrite sample_mean_lin by assumption. fold mpq mp mq. ring. }
  rewrite E. split; [|split; [reflexivity|]].
  - intros Heq. injection Heq as <- <-. rewrite Ecov.
    assert (mpq = mp) as ->; [|fold mp; change mq with mp; ring]. unfold mpq, mp. apply sample_mean_ext. intros s Hs. destruct (HX s Hs) as [L Hv]. unfold Q, P.
    destruct (Hv (nthR s i)) as [-> | ->]; [apply nth_In; lia| |]; destruct (Hv (nthR s j)) as [-> | ->]; try (apply nth_In; lia); ring.
  - intros Hc H1 H2. assert (mpq = mp * mq) as -> by lra. assert (0 < mp * mq < 1) by nra. nra.
Qed.
Print Assumptions C74_covariance_matrix_refuted.

Example C74_example : exists K, coocSampleCovariance [[0; 0]; [0; 1]; [1; 0]; [1; 1]] false false = Ok K /\ 0 < entry K 0 1.
Proof.
  destruct (C74_covariance_matrix_refuted 2 [[0; 0]; [0; 1]; [1; 0]; [1; 1]]) as (K & E & _ & H).
  - discriminate.
  - intros s [<-|[<-|[<-|[<-|[]]]]]; (split; [reflexivity|]); intros v [<-|[<-|[]]]; auto.
  - exists K. split; [exact E|]. destruct (H 0%nat 0%nat 1%nat 1%nat ltac:(lia) ltac:(lia)) as (_ & _ & H1). apply H1; unfold sample_mean; cbn [length]; rewrite !sumf_cons, !sumf_nil; unfold nthR; cbn [nth INR]; lra.
Qed.

Lemma eigen_identity n : eigen n (mk_mat n n (fun i j => if Nat.eqb i j then 1 else 0)) (repeat 1 n) (mk_mat n n (fun i j => if Nat.eqb i j then 1 else 0)).
Proof.
  assert (D : forall i j, (i < n)%nat -> (j < n)%nat -> sumf (range n) (fun k => delta i k * delta j k) = delta i j).
  { intros i j Hi Hj. rewrite (delta_sum n (delta j) i Hi). apply delta_sym. }
  split; [apply repeat_length|]. split; [|split].
  - intros k l Hk Hl. rewrite <- D by assumption. apply sumf_ext_in. intros i Hi. apply in_range in Hi. rewrite !entry_mk_mat by assumption. unfold delta. now rewrite (Nat.eqb_sym i k), (Nat.eqb_sym i l).
  - intros i j Hi Hj. rewrite <- D by assumption. apply sumf_ext_in. intros k Hk. apply in_range in Hk. now rewrite !entry_mk_mat by assumption.
  - intros i j Hi Hj. rewrite entry_mk_mat by assumption. change (if (i =? j)%nat then 1 else 0) with (delta i j). rewrite <- (D i j) by assumption.
    apply sumf_ext_in. intros k Hk. apply in_range in Hk. rewrite !entry_mk_mat by assumption. unfold delta.
    assert (nthR (repeat 1 n) k = 1) as -> by (unfold nthR; transitivity (nth k (repeat 1 n) 1); [apply nth_indep; rewrite repeat_length; lia|apply nth_repeat]). ring.
Qed.

(** Data with frequencies 2/3 and 1/2 and no correlation: solve returns a model with
    frequency 4/5 for the first spin, and the objective samples a model in which it has
    mean -15/17. *)
Example C49_rmf_example : let X := [[1; 1]; [1; 1]; [-1; 1]; [1; -1]; [1; -1]; [-1; -1]] in
  let I := mk_mat 2 2 (fun i j => if Nat.eqb i j then 1 else 0) in
  exists mult, rmf_solve (fun _ => (repeat 1 2, I)) (fun M => M) (fun _ => []) (fun _ => X) (fun _ _ _ => []) (fun _ _ => Ok 1) X 10 false true 0 None = Ok mult /\
    freq X 0 = 2 / 3 /\
    expectation (boltzmann (ising_energy 2 mult) (all_states [-1; 1] 2)) (all_states [-1; 1] 2) (fun s => (nthR s 0 + 1) / 2) = 4 / 5.
Proof.
  intros X I.
  assert (HX : spin_data 2 X).
  { split; [discriminate|]. intros s Hs. unfold X in Hs. cbn [In] in Hs. repeat (destruct Hs as [<-|Hs]; [split; [reflexivity|intros v [<-|[<-|[]]]; auto]|]). destruct Hs. }
  assert (F0 : freq X 0 = 2 / 3) by (unfold freq, sample_mean, X; rewrite !sumf_cons, sumf_nil; unfold nthR; cbn [nth length INR]; field).
  assert (F1 : freq X 1 = / 2) by (unfold freq, sample_mean, X; rewrite !sumf_cons, sumf_nil; unfold nthR; cbn [nth length INR]; field).
  assert (J01 : joint X 0 1 = / 3) by (unfold joint, sample_mean, X; rewrite !sumf_cons, sumf_nil; unfold nthR; cbn [nth length INR]; field).
  destruct (C49_rmf_uncorrelated_data_refuted (fun _ => (repeat 1 2, I)) (fun M => M) (fun _ => []) (fun _ => X) (fun _ _ _ => []) (fun _ _ => Ok 1) 2 X 10 1) as (mult & E & H).
  - lia.
  - exact HX.
  - intros [|[|i]] Hi; try lia; rewrite ?F0, ?F1; lra.
  - intros i j Hij. replace i with 0%nat by lia. replace j with 1%nat by lia. rewrite F0, F1, J01. field.
  - reflexivity.
  - lra.
  - cbv zeta. cbn [fst snd]. apply eigen_identity.
  - exists mult. split; [exact E|]. split; [exact F0|]. destruct (H 0%nat ltac:(lia)) as [H0 _]. rewrite H0, F0. field.
Qed.

Example C75_example : let S := [[1; -1]; [-1; -1]] in exists dc, isingDeltaCooc S [[/ 2; 0]; [0; / 3]] = Ok dc /\ length dc = 3%nat /\ nthR dc 0 = / 2 /\ nthR dc 1 = 2 / 3.
Proof.
  intros S. destruct (C75_residual_ignores_frequencies_refuted 2 S [[/ 2; 0]; [0; / 3]]) as (dc & E & L & H & _).
  - lia.
  - split; [reflexivity|intros [|[|k]] Hk; try lia; reflexivity].
  - split; [discriminate|]. intros s [<-|[<-|[]]]; (split; [reflexivity|]); intros v [<-|[<-|[]]]; auto.
  - exists dc. split; [exact E|]. split; [exact L|]. split.
    + change 0%nat with (flat_pos 2 0 0). rewrite (H 0%nat ltac:(lia)). unfold entry, nthR. cbn [nth]. field.
    + change 1%nat with (flat_pos 2 1 1). rewrite (H 1%nat ltac:(lia)). unfold entry, nthR. cbn [nth]. field.
Qed.
