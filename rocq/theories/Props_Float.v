(** * C90: rounding in energies and Metropolis runs *)
From Coq Require Import Permutation.
From Coquelicot Require Import Coquelicot.
From Flocq Require Import Core.
From Verif Require Import Prelude Spec PreludeFacts M_Index M_Energy M_Sampler P_Index P_Energy P_Energy2 P_Sampler P_Metro P_Cpp P_Converge P_Converge2 M_Float P_Float P_Float2 Props_Energy Props_Converge.
Import ListNotations.
Local Open Scope R_scope.

(** The energy in floats, whatever order np.sum uses. *)
Theorem C90_energy : forall (n : nat) (order : list R -> sum_tree) (s params : list R),
  (0 < n)%nat -> length s = n -> Forall (fun x => x = -1 \/ x = 0 \/ x = 1) s -> length params = (n + n * (n - 1) / 2)%nat ->
  Forall float64 params -> (forall l, l <> [] -> Permutation (leaves (order l)) l) ->
  let m := INR (length params) in
  Rabs (fl_calc_e order s params - ising_energy n params s) <= ((1 + / 2 ^ 53) ^ length params - 1) * sumf params Rabs /\
  (m <= 2 ^ 53 -> Rabs (fl_calc_e order s params - ising_energy n params s) <= 2 * m / 2 ^ 53 * sumf params Rabs).
Proof.
  intros n order s params Hn Hl Hu Hp Hf Ho m. assert (Hs : s <> []) by (destruct s; [cbn in Hl; lia|discriminate]).
  destruct (C15_ising_energy n s params Hl Hp) as [E _]. rewrite <- E. assert (A := fl_energy_error order s params Ho Hs Hu Hf ltac:(now rewrite Hl)).
  split; [exact A|]. intros Hm. eapply Rle_trans; [exact A|]. apply Rmult_le_compat_r; [apply sumf_nonneg; intros; apply Rabs_pos|].
  apply grow_linear. unfold u64. apply (Rmult_le_reg_r (2 ^ 53)); [apply pow_lt; lra|]. rewrite Rmult_assoc, Rinv_l by (apply pow_nonzero; lra). unfold m in Hm. lra.
Qed.
Print Assumptions C90_energy.

(** No rounding at all for parameters on a coarse enough binary grid. *)
Theorem C90_energy_exact : forall (n : nat) (order : list R -> sum_tree) (s params : list R) (e : Z),
  (0 < n)%nat -> length s = n -> Forall (fun x => x = -1 \/ x = 0 \/ x = 1) s -> length params = (n + n * (n - 1) / 2)%nat ->
  (forall l, l <> [] -> Permutation (leaves (order l)) l) ->
  (-1074 <= e)%Z -> Forall (fun x => exists k, x = IZR k * powerRZ 2 e) params -> sumf params Rabs <= powerRZ 2 (53 + e) ->
  fl_calc_e order s params = ising_energy n params s.
Proof.
  intros n order s params e Hn Hl Hu Hp Ho He Hg HS. assert (Hs : s <> []) by (destruct s; [cbn in Hl; lia|discriminate]).
  destruct (C15_ising_energy n s params Hl Hp) as [E _]. rewrite <- E. change 2 with (IZR radix2) in Hg, HS. rewrite <- bpow_powerRZ in HS.
  apply (fl_energy_exact e); try assumption; [now rewrite Hl|]. eapply Forall_impl; [|exact Hg]. intros x [k Hk]. exists k. now rewrite bpow_powerRZ.
Qed.
Print Assumptions C90_energy_exact.

(** ** The ising energy as the sampler sees it *)
Section Ising.
Variables (n : nat) (params : list R) (order : list R -> sum_tree).
Hypothesis Hn : (0 < n)%nat.
Hypothesis Hp : length params = (n + n * (n - 1) / 2)%nat.
Hypothesis Hf : Forall float64 params.
Hypothesis Hm : INR (length params) <= 2 ^ 53.
Hypothesis Ho : forall l, l <> [] -> Permutation (leaves (order l)) l.

Let fE := fun s : list Z => fl_calc_e order (map IZR s) params.
Let E := fun s : list Z => ising_energy n params (map IZR s).
Let S := sumf params Rabs.
Let m := INR (length params).

Lemma spins_unit s : In s (spin_states n) -> Forall (fun x => x = -1 \/ x = 0 \/ x = 1) (map IZR s).
Proof.
  intros H. apply spin_states_spec in H. destruct H as [_ H]. apply Forall_map. eapply Forall_impl; [|exact H]. intros x Hx. unfold spin in Hx. destruct Hx as [-> | ->]; [now left|now right; right].
Qed.

Lemma S_nonneg : 0 <= S. Proof. apply sumf_nonneg. intros; apply Rabs_pos. Qed.

Lemma fE_tau s : In s (spin_states n) -> Rabs (fE s - E s) <= 2 * m * u64 * S.
Proof.
  intros H. assert (A := spin_states_spec n s). destruct (C90_energy n order (map IZR s) params Hn ltac:(rewrite map_length; now apply A) (spins_unit s H) Hp Hf Ho) as [_ K].
  apply (K Hm).
Qed.

Lemma mu_le : m * u64 <= 1.
Proof. unfold m, u64. apply (Rmult_le_reg_r (2 ^ 53)); [apply pow_lt; lra|]. rewrite Rmult_assoc, Rinv_l by (apply pow_nonzero; lra). lra. Qed.

Lemma E_abs s : In s (spin_states n) -> Rabs (E s) <= S.
Proof.
  intros H. assert (A := proj1 (spin_states_spec n s) H). destruct A as [A _]. assert (Hs : map IZR s <> []) by (destruct s; [cbn in A; lia|discriminate]).
  assert (L : length params = (length (map IZR s) + length (map IZR s) * (length (map IZR s) - 1) / 2)%nat) by (rewrite map_length, A; exact Hp).
  destruct (C15_ising_energy n (map IZR s) params ltac:(now rewrite map_length) Hp) as [Q _]. unfold E. rewrite <- Q, <- (e_tree_sum order (map IZR s) params Ho Hs L).
  eapply Rle_trans; [apply sumf_abs_le|]. apply (e_tree_abs order (map IZR s) params Ho Hs (spins_unit s H) L).
Qed.

Lemma fE_abs s : In s (spin_states n) -> Rabs (fE s) <= 3 * S.
Proof.
  intros H. assert (A := fE_tau s H). assert (B := E_abs s H). assert (C := mu_le). assert (D := S_nonneg).
  replace (fE s) with ((fE s - E s) + E s) by ring. eapply Rle_trans; [apply Rabs_triang|]. assert (2 * m * u64 * S <= 2 * S) by (apply Rmult_le_compat_r; lra). lra.
Qed.

Lemma fE_float s : float64 (fE s). Proof. apply rnd_float. Qed.

Definition ising_err : R := (4 * m + 20) / 2 ^ 53 * S.

Lemma de_err_le : de_err (3 * S) (2 * m * u64 * S) <= ising_err.
Proof.
  unfold de_err, drift, ising_err. unfold Rdiv. fold u64. assert (U := u64_pos). assert (U1 := u64_small). assert (P := S_nonneg).
  replace (u64 * (2 * (3 * S) + 4 * u64 * (3 * S)) + 4 * u64 * (3 * S) + 2 * (2 * m * u64 * S)) with ((18 * u64 + 12 * (u64 * u64) + 4 * m * u64) * S) by ring.
  apply Rmult_le_compat_r; [assumption|]. assert (u64 * u64 <= / 64 * u64) by (apply Rmult_le_compat_r; lra). lra.
Qed.

Lemma ising_err_nonneg : 0 <= ising_err.
Proof. unfold ising_err. apply Rmult_le_pos; [|apply S_nonneg]. unfold Rdiv. apply Rmult_le_pos; [|left; apply u64_pos]. assert (0 <= m) by apply pos_INR. lra. Qed.
End Ising.

(** The running energy does not drift: whatever the length of the run. *)
Theorem C90_no_drift : forall (T : Type) (g : rng T) (fexp : R -> R) (n : nat) (params : list R) (order : list R -> sum_tree) (fs : list (option nat)) s0 t0 s E t,
  (0 < n)%nat -> length params = (n + n * (n - 1) / 2)%nat -> Forall float64 params -> INR (length params) <= 2 ^ 53 ->
  (forall l, l <> [] -> Permutation (leaves (order l)) l) -> In s0 (all_states [-1; 1]%Z n) ->
  let calc_e := fun s => fl_calc_e order (map IZR s) params in
  fl_run (fl_sample_metropolis g fexp calc_e) fs s0 (calc_e s0) t0 = (s, E, t) ->
  Rabs (E - calc_e s) <= 12 / 2 ^ 53 * sumf params Rabs /\
  Rabs (E - ising_energy n params (map IZR s)) <= (2 * INR (length params) + 12) / 2 ^ 53 * sumf params Rabs.
Proof.
  intros T g fexp n params order fs s0 t0 s E t Hn Hp Hf Hm Ho Hs calc_e H.
  set (St := sumf params Rabs). set (m := INR (length params)).
  assert (W : forall x, In x (spin_states n) -> Rabs (calc_e x) <= 3 * St) by (intros x Hx; exact (fE_abs n params order Hn Hp Hf Hm Ho x Hx)).
  assert (W2 : forall x, In x (spin_states n) -> Rabs (calc_e x - ising_energy n params (map IZR x)) <= 2 * m * u64 * St) by (intros x Hx; exact (fE_tau n params order Hn Hp Hf Hm Ho x Hx)).
  assert (W3 : forall x, In x (spin_states n) -> float64 (calc_e x)) by (intros x _; apply rnd_float).
  assert (V := run_valid n (fun s => ising_energy n params (map IZR s)) calc_e (3 * St) (2 * m * u64 * St) W3 W W2 g fexp fs s0 (calc_e s0) t0 s E t (valid_start n calc_e (3 * St) W3 W s0 Hs) H).
  destruct V as (V1 & _ & V3). unfold drift in V3. assert (Q : 4 * u64 * (3 * St) = 12 / 2 ^ 53 * St) by (unfold u64; field; apply pow_nonzero; lra).
  split; [lra|]. assert (K := fE_tau n params order Hn Hp Hf Hm Ho s V1). fold m St in K. replace (E - ising_energy n params (map IZR s)) with ((E - calc_e s) + (calc_e s - ising_energy n params (map IZR s))) by ring.
  eapply Rle_trans; [apply Rabs_triang|]. replace ((2 * m + 12) / 2 ^ 53 * St) with (4 * u64 * (3 * St) + 2 * m * u64 * St) by (unfold u64; field; apply pow_nonzero; lra). unfold calc_e in *. lra.
Qed.
Print Assumptions C90_no_drift.

(** Two decisions agree unless the random number is next to the threshold. *)
Theorem C90_decision : forall (fexp : R -> R) (d : R) (n : nat) (params : list R) (order : list R -> sum_tree) s i u,
  (0 < n)%nat -> length params = (n + n * (n - 1) / 2)%nat -> Forall float64 params -> INR (length params) <= 2 ^ 53 ->
  (forall l, l <> [] -> Permutation (leaves (order l)) l) -> (forall x, x <= 0 -> Rabs (fexp x - exp x) <= d) ->
  In s (all_states [-1; 1]%Z n) -> 0 < u < 1 ->
  let calc_e := fun s => fl_calc_e order (map IZR s) params in let E := fun s => ising_energy n params (map IZR s) in
  (4 * INR (length params) + 20) / 2 ^ 53 * sumf params Rabs + d < Rabs (u - Rmin 1 (exp (- (E (flip s i) - E s)))) ->
  fst (fl_outcome fexp calc_e (Some i) 0 s (calc_e s) u) = fst (outcome E (Some i) 0 s (E s) u).
Proof.
  intros fexp d n params order s i u Hn Hp Hf Hm Ho He Hs Hu calc_e E Hd. set (St := sumf params Rabs) in *. set (m := INR (length params)) in *.
  assert (W : forall x, In x (spin_states n) -> Rabs (calc_e x) <= 3 * St) by (intros x Hx; exact (fE_abs n params order Hn Hp Hf Hm Ho x Hx)).
  assert (W2 : forall x, In x (spin_states n) -> Rabs (calc_e x - E x) <= 2 * m * u64 * St) by (intros x Hx; exact (fE_tau n params order Hn Hp Hf Hm Ho x Hx)).
  assert (W3 : forall x, In x (spin_states n) -> float64 (calc_e x)) by (intros x _; apply rnd_float).
  assert (V := valid_start n calc_e (3 * St) W3 W s Hs).
  destruct (valid_move n E calc_e (3 * St) (2 * m * u64 * St) W3 W W2 s (calc_e s) i V) as [_ DE]. cbv zeta in DE.
  assert (A := fl_accept_near fexp d _ _ _ He DE). assert (B := de_err_le params). fold m St in B. unfold ising_err in B. fold m St in B. fold (accept_prob (E (flip s i) - E s)) in Hd.
  rewrite outcome_eq. cbn [site_or]. cbv zeta. set (a0 := accept_prob (E (flip s i) - E s)) in *. set (de := fsub (calc_e (flip s i)) (calc_e s)) in *.
  unfold fl_outcome, fl_sample_metropolis. cbn [const_rng rand]. fold de.
  assert (C : (fl_accept fexp de < u) <-> (a0 < u)).
  { apply Rabs_le_between in A. revert Hd. unfold Rabs. destruct (Rcase_abs _); intros Hd; split; intros; lra. }
  destruct (Rlt_dec a0 u) as [L|L].
  - destruct (Rlt_dec 1 u); [lra|]. cbn [fst]. apply C in L. destruct (Rlt_dec 0 de) as [P|P].
    + destruct (Rlt_dec (fexp (- de)) u) as [Q|Q]; [cbn [fst]; apply flip_flip|]. exfalso. apply Q. now apply threshold_clip.
    + exfalso. unfold fl_accept in L. destruct (Rlt_dec 0 de); lra.
  - cbn [fst]. destruct (Rlt_dec 0 de) as [P|P]; [|reflexivity]. destruct (Rlt_dec (fexp (- de)) u) as [Q|Q]; [|reflexivity].
    exfalso. apply L. apply C. now apply threshold_clip.
Qed.
Print Assumptions C90_decision.

(** After k updates at any sites, rounding has changed expected values by at most a
    multiple of k 2^-53. *)
Theorem C90_runs : forall (fexp : R -> R) (d : R) (n : nat) (params : list R) (order : list R -> sum_tree) (fs : list (option nat)) (F : list Z -> R) (B : R) s,
  (0 < n)%nat -> length params = (n + n * (n - 1) / 2)%nat -> Forall float64 params -> INR (length params) <= 2 ^ 53 ->
  (forall l, l <> [] -> Permutation (leaves (order l)) l) -> (forall x, x <= 0 -> Rabs (fexp x - exp x) <= d) ->
  let states := all_states [-1; 1]%Z n in (forall s, In s states -> Rabs (F s) <= B) -> In s states -> (forall j, In (Some j) fs -> (j < n)%nat) ->
  let calc_e := fun s => fl_calc_e order (map IZR s) params in let E := fun s => ising_energy n params (map IZR s) in
  Rabs (Efl_run fexp calc_e n fs F s (calc_e s) - Erun E n fs F s (E s)) <=
  INR (length fs) * (((4 * INR (length params) + 20) / 2 ^ 53 * sumf params Rabs + d) * (2 * B)).
Proof.
  intros fexp d n params order fs F B s Hn Hp Hf Hm Ho He states HF Hs Hj calc_e E. set (St := sumf params Rabs) in *. set (m := INR (length params)) in *.
  assert (W : forall x, In x (spin_states n) -> Rabs (calc_e x) <= 3 * St) by (intros x Hx; exact (fE_abs n params order Hn Hp Hf Hm Ho x Hx)).
  assert (W2 : forall x, In x (spin_states n) -> Rabs (calc_e x - E x) <= 2 * m * u64 * St) by (intros x Hx; exact (fE_tau n params order Hn Hp Hf Hm Ho x Hx)).
  assert (W3 : forall x, In x (spin_states n) -> float64 (calc_e x)) by (intros x _; apply rnd_float).
  eapply Rle_trans; [apply (runs_near n E calc_e (3 * St) (2 * m * u64 * St) Hn W3 W W2 fexp d He F B HF fs s (calc_e s) Hj (valid_start n calc_e (3 * St) W3 W s Hs))|].
  apply Rmult_le_compat_l; [apply pos_INR|]. apply Rmult_le_compat_r; [assert (K := HF s Hs); assert (0 <= Rabs (F s)) by apply Rabs_pos; lra|].
  unfold acc_err. apply Rplus_le_compat_r. apply (de_err_le params).
Qed.
Print Assumptions C90_runs.

(** The oscillation of exact expectations dies out, so that rounding errors of long
    random scan runs do not add up. *)
Theorem C90_limit : forall (n : nat) (params : list R), (0 < n)%nat -> length params = (n + n * (n - 1) / 2)%nat ->
  Forall float64 params -> INR (length params) <= 2 ^ 53 -> (exists k, (k < length params)%nat /\ nthR params k <> 0) ->
  let states := all_states [-1; 1]%Z n in let E := fun s => ising_energy n params (map IZR s) in
  exists rho C, 0 <= rho < 1 /\ forall (fexp : R -> R) (d : R) (order : list R -> sum_tree),
    (forall l, l <> [] -> Permutation (leaves (order l)) l) -> (forall x, x <= 0 -> Rabs (fexp x - exp x) <= d) ->
    let calc_e := fun s => fl_calc_e order (map IZR s) params in
    forall (F : list Z -> R) (B : R), (forall s, In s states -> Rabs (F s) <= B) -> forall s t, In s states ->
    Rabs (Efl_run fexp calc_e n (repeat None t) F s (calc_e s) - expectation (boltzmann E states) states F) <=
    2 * B * rho ^ (t / (2 * n)) + C * B * ((4 * INR (length params) + 20) / 2 ^ 53 * sumf params Rabs + d).
Proof.
  intros n params Hn Hp Hf Hm NZ states E.
  assert (NC : nonconstant E states).
  { apply (energy_zero_iff n params Hp) in NZ. destruct NZ as (s & s' & Hs & Hs' & NE). exists s, s'. split; [assumption|]. split; [assumption|].
    assert (Q : forall x, In x states -> ising_calc_e_row (map IZR x) params = E x). { intros x Hx. apply C15_ising_energy; [rewrite map_length; now apply spin_states_spec in Hx|assumption]. }
    rewrite <- !Q by assumption. assumption. }
  destruct (C87_ising_rate E n Hn NC) as (rho & Hr & HR). exists rho, (4 * (INR (2 * n) / (1 - rho))). split; [assumption|].
  intros fexp d order Ho He calc_e F B HF s t Hs. set (St := sumf params Rabs) in *. set (m := INR (length params)) in *.
  assert (W : forall x, In x (spin_states n) -> Rabs (calc_e x) <= 3 * St) by (intros x Hx; exact (fE_abs n params order Hn Hp Hf Hm Ho x Hx)).
  assert (W2 : forall x, In x (spin_states n) -> Rabs (calc_e x - E x) <= 2 * m * u64 * St) by (intros x Hx; exact (fE_tau n params order Hn Hp Hf Hm Ho x Hx)).
  assert (W3 : forall x, In x (spin_states n) -> float64 (calc_e x)) by (intros x _; apply rnd_float).
  assert (B0 : 0 <= B) by (assert (K := HF s Hs); assert (0 <= Rabs (F s)) by apply Rabs_pos; lra).
  assert (D0 : 0 <= d) by (eapply Rle_trans; [apply Rabs_pos|apply (He 0); lra]).
  assert (OS : forall t x y, In x (spin_states n) -> In y (spin_states n) -> Rabs (Erun E n (repeat None t) F x (E x) - Erun E n (repeat None t) F y (E y)) <= 4 * B * rho ^ (t / (2 * n))).
  { intros k x y Hx Hy. assert (X := HR F B HF x k Hx). assert (Y := HR F B HF y k Hy). set (L := expectation _ _ _) in *.
    apply Rabs_le_between in X, Y. apply Rabs_le. lra. }
  assert (A := random_near n E calc_e (3 * St) (2 * m * u64 * St) Hn W3 W W2 fexp d He F (fun k => 4 * B * rho ^ (k / (2 * n))) OS t s (calc_e s) (valid_start n calc_e (3 * St) W3 W s Hs)).
  assert (X := HR F B HF s t Hs). rewrite sumf_scal_l in A. assert (G := slow_geometric rho (2 * n) Hr ltac:(lia) t).
  set (L := expectation _ _ _) in *. set (p := Efl_run _ _ _ _ _ _ _) in *. set (q := Erun _ _ _ _ _ _) in *.
  replace (p - L) with ((q - L) + (p - q)) by ring. eapply Rle_trans; [apply Rabs_triang|]. apply Rplus_le_compat; [assumption|]. eapply Rle_trans; [exact A|].
  assert (EP := ising_err_nonneg params). unfold ising_err in EP. fold m St in EP. assert (EQ := de_err_le params). unfold ising_err in EQ. fold m St in EQ.
  set (eps := (4 * m + 20) / 2 ^ 53 * St) in *. unfold acc_err. set (dd := de_err (3 * St) (2 * m * u64 * St)) in *.
  assert (SN : 0 <= sumf (seq 0 t) (fun k => rho ^ (k / (2 * n)))) by (apply sumf_nonneg; intros; apply pow_le; lra).
  apply Rle_trans with ((eps + d) * (4 * B * sumf (seq 0 t) (fun k => rho ^ (k / (2 * n))))).
  - apply Rmult_le_compat_r; [|lra]. apply Rmult_le_pos; lra.
  - replace (4 * (INR (2 * n) / (1 - rho)) * B * (eps + d)) with ((eps + d) * (4 * B * (INR (2 * n) / (1 - rho)))) by ring.
    apply Rmult_le_compat_l; [lra|]. apply Rmult_le_compat_l; [lra|assumption].
Qed.
Print Assumptions C90_limit.
