(** * C90 continued: the C++ updates, and runs without any rounding *)
From Coq Require Import Permutation.
From Coquelicot Require Import Coquelicot.
From Flocq Require Import Core.
From Verif Require Import Prelude Spec PreludeFacts M_Index M_Energy M_Sampler P_Index P_Energy P_Energy2 P_Sampler P_Metro P_Cpp P_Converge P_Converge2 M_Float P_Float P_Float2 Props_Energy Props_Converge Props_Float.
Import ListNotations.
Local Open Scope R_scope.

(** Sum of the magnitudes of the parameters that act on spin i. *)
Definition row_weight (n : nat) (params : list R) (i : nat) : R :=
  Rabs (nthR params i) + sumf (seq 0 n) (fun j => if Nat.eqb i j then 0 else Rabs (coupling n params i j)).

Lemma fold_fsub {A} (f : A -> R) L : forall e, fold_left (fun de i => fsub de (f i)) L e = fold_left fadd (map (fun i => - f i) L) e.
Proof. induction L as [|a L IH]; intros e; [reflexivity|]. cbn [fold_left map]. now rewrite IH. Qed.

Lemma fold_left_ext_seq {A B} (f g : A -> B -> A) : (forall a b, f a b = g a b) -> forall l a, fold_left f l a = fold_left g l a.
Proof. intros H. induction l as [|b l IH]; intros a; cbn; [reflexivity|]. now rewrite H, IH. Qed.

Lemma spin_unit n s i : In s (spin_states n) -> IZR (nth i s 0%Z) = -1 \/ IZR (nth i s 0%Z) = 0 \/ IZR (nth i s 0%Z) = 1.
Proof. intros H. rewrite <- map_IZR_nth. apply unit_nth. now apply spins_unit with n. Qed.

Lemma coupling_float n params i j : Forall float64 params -> float64 (coupling n params i j).
Proof. intros H. unfold coupling. now apply nth_float. Qed.

Lemma cpp_de_error n params s i : (i < n)%nat -> In s (spin_states n) -> Forall float64 params ->
  Rabs (fl_cpp_de n params (coupling_mat n n params) (flip s i) i - (ising_energy n params (map IZR (flip s i)) - ising_energy n params (map IZR s)))
  <= ((1 + u64) ^ n - 1) * (2 * row_weight n params i).
Proof.
  intros Hi Hs Hf. assert (Hs1 : In (flip s i) (spin_states n)) by (now apply flip_in_states). assert (Hl : length s = n) by (now apply spin_states_spec in Hs).
  assert (Q := cpp_de_eq n params s i Hi Hl). cbv zeta in Q. rewrite !cpp_calc_e_eq in Q by lia.
  set (s1 := flip s i) in *. set (a := fun k => IZR (nth k s1 0%Z)). set (c := fun k => entry (coupling_mat n n params) i k).
  assert (CF : forall k, (k < n)%nat -> float64 (c k) /\ Rabs (c k) = if Nat.eqb i k then 0 else Rabs (coupling n params i k)).
  { intros k Hk. unfold c. rewrite coupling_mat_ising by assumption. unfold csym. destruct (Nat.eqb i k); [split; [apply float_0|apply Rabs_R0]|]. split; [now apply coupling_float|reflexivity]. }
  assert (TF : forall k, (k < n)%nat -> fmul (fmul (fmul 2 (c k)) (a i)) (a k) = 2 * c k * a i * a k /\ float64 (2 * c k * a i * a k)).
  { intros k Hk. destruct (CF k Hk) as [F _]. assert (F2 := float_double _ F).
    unfold fmul at 3. rewrite (rnd_id _ F2). destruct (fmul_unit _ (a i) F2 (spin_unit n s1 i Hs1)) as [-> F3]. now apply fmul_unit; [|apply (spin_unit n s1 k Hs1)]. }
  assert (HF : fmul (fmul (-2) (nthR params i)) (a i) = -2 * nthR params i * a i /\ float64 (-2 * nthR params i * a i)).
  { assert (F : float64 (-2 * nthR params i)). { replace (-2 * nthR params i) with (- (2 * nthR params i)) by ring. apply float_opp, float_double, nth_float, Hf. }
    unfold fmul at 2. rewrite (rnd_id _ F). apply fmul_unit; [assumption|apply (spin_unit n s1 i Hs1)]. }
  set (terms := map (fun k => - (2 * c k * a i * a k)) (seq 0 n)). set (h0 := -2 * nthR params i * a i) in *.
  assert (E1 : fl_cpp_de n params (coupling_mat n n params) s1 i = tree_sum (comb (Leaf h0) terms)).
  { unfold fl_cpp_de. rewrite fold_fsub, comb_sum. cbn [tree_sum]. assert (HF1 := proj1 HF). unfold a in HF1. rewrite HF1. f_equal. unfold terms, range. apply map_ext_in. intros k Hk. apply in_seq in Hk. f_equal. apply TF. lia. }
  assert (E2 : fold_left (fun de k => de - 2 * entry (coupling_mat n n params) i k * IZR (nth i s1 0%Z) * IZR (nth k s1 0%Z)) (range n) (-2 * nthR params i * IZR (nth i s1 0%Z)) = sumR (leaves (comb (Leaf h0) terms))).
  { rewrite (fold_minus (fun k => 2 * c k * a i * a k)). rewrite comb_leaves. unfold sumR. cbn [leaves app]. rewrite sumf_cons. unfold terms, range, h0. rewrite sumf_map, sumf_opp. reflexivity. }
  assert (LF : Forall float64 (leaves (comb (Leaf h0) terms))).
  { rewrite comb_leaves. cbn [leaves app]. constructor; [apply HF|]. apply Forall_forall. intros x Hx. unfold terms in Hx. apply in_map_iff in Hx. destruct Hx as (k & <- & Hk). apply in_seq in Hk. apply float_opp, TF. lia. }
  rewrite E1, <- Q, E2. eapply Rle_trans; [now apply tree_error|]. rewrite comb_depth. cbn [depth Nat.add]. unfold terms at 1. rewrite map_length, seq_length.
  apply Rmult_le_compat_l; [assert (K := grow_le 0 n ltac:(lia)); cbn [pow] in K; lra|].
  rewrite comb_leaves. cbn [leaves app]. rewrite sumf_cons. unfold terms. rewrite sumf_map. unfold row_weight. rewrite Rmult_plus_distr_l. apply Rplus_le_compat.
  - unfold h0. rewrite !Rabs_mult. replace (Rabs (-2)) with 2 by (rewrite Rabs_left; lra). assert (U := unit_abs _ (spin_unit n s1 i Hs1)). fold (a i) in U. assert (P := Rabs_pos (nthR params i)). assert (P2 := Rabs_pos (a i)). nra.
  - rewrite <- sumf_scal_l. apply sumf_le. intros k Hk. apply in_seq in Hk. destruct (CF k ltac:(lia)) as [_ <-]. rewrite Rabs_Ropp, !Rabs_mult, (Rabs_pos_eq 2) by lra.
    assert (U := unit_abs _ (spin_unit n s1 i Hs1)). fold (a i) in U. assert (U2 := unit_abs _ (spin_unit n s1 k Hs1)). fold (a k) in U2. assert (P := Rabs_pos (c k)). assert (P2 := Rabs_pos (a i)). assert (P3 := Rabs_pos (a k)).
    rewrite Rmult_assoc. rewrite <- (Rmult_1_r (2 * Rabs (c k))) at 2. apply Rmult_le_compat_l; [lra|]. nra.
Qed.

(** The C++ energy difference uses only the parameters of the flipped spin, and so does
    its error. *)
Theorem C90_cpp_difference : forall (n : nat) (params : list R) (s : list Z) (i : nat),
  (i < n)%nat -> In s (all_states [-1; 1]%Z n) -> length params = (n + n * (n - 1) / 2)%nat -> Forall float64 params -> INR n <= 2 ^ 53 ->
  let E := fun s => ising_energy n params (map IZR s) in
  Rabs (fl_cpp_de n params (coupling_mat n n params) (flip s i) i - (E (flip s i) - E s)) <= 4 * INR n / 2 ^ 53 * row_weight n params i.
Proof.
  intros n params s i Hi Hs Hp Hf Hm E. eapply Rle_trans; [now apply cpp_de_error|].
  assert (W : 0 <= row_weight n params i). { unfold row_weight. apply Rplus_le_le_0_compat; [apply Rabs_pos|]. apply sumf_nonneg. intros j _. destruct (Nat.eqb i j); [lra|apply Rabs_pos]. }
  assert (G := grow_linear n). replace (4 * INR n / 2 ^ 53 * row_weight n params i) with (2 * INR n * u64 * (2 * row_weight n params i)) by (unfold u64, Rdiv; ring).
  apply Rmult_le_compat_r; [lra|]. apply G. unfold u64. apply (Rmult_le_reg_r (2 ^ 53)); [apply pow_lt; lra|]. rewrite Rmult_assoc, Rinv_l by (apply pow_nonzero; lra). lra.
Qed.
Print Assumptions C90_cpp_difference.

(** Expected value of F after t random scan updates of the C++ code in floats. *)
Fixpoint Efl_cpp (fexp : R -> R) (n : nat) (params : list R) (t : nat) (F : list Z -> R) (s : list Z) : R :=
  match t with
  | O => F s
  | S t' => sumf (seq 0 n) (fun i =>
      RInt (fun u => Efl_cpp fexp n params t' F (fst (fst (fl_cpp_sample_metropolis (const_rng i 0 u) fexp n params (coupling_mat n n params) s i tt)))) 0 1) / INR n
  end.

Lemma cpp_RInt fexp n params i s (G : list Z -> R) :
  let a := fl_accept fexp (fl_cpp_de n params (coupling_mat n n params) (flip s i) i) in
  RInt (fun u => G (fst (fst (fl_cpp_sample_metropolis (const_rng i 0 u) fexp n params (coupling_mat n n params) s i tt)))) 0 1 = a * G (flip s i) + (1 - a) * G s.
Proof.
  cbv zeta. apply is_RInt_unique. apply RInt_threshold; [apply fl_accept_range|]. intros u Hu. unfold fl_cpp_sample_metropolis. set (de := fl_cpp_de _ _ _ _ _). cbn [const_rng rand].
  destruct (Rlt_dec 0 de) as [Hd|Hd].
  - assert (K := threshold_clip fexp de u Hu Hd). destruct (Rlt_dec (fexp (- de)) u) as [L|L]; destruct (Rlt_dec (fl_accept fexp de) u) as [L'|L']; try tauto.
    cbn [fst]. now rewrite flip_flip.
  - cbn [fst]. unfold fl_accept. destruct (Rlt_dec 0 de); [lra|]. destruct (Rlt_dec 1 u); [lra|reflexivity].
Qed.

(** Long runs of the C++ sampler. *)
Theorem C90_cpp_limit : forall (n : nat) (params : list R), (0 < n)%nat -> length params = (n + n * (n - 1) / 2)%nat ->
  Forall float64 params -> INR n <= 2 ^ 53 -> (exists k, (k < length params)%nat /\ nthR params k <> 0) ->
  let states := all_states [-1; 1]%Z n in let E := fun s => ising_energy n params (map IZR s) in
  exists rho C, 0 <= rho < 1 /\ forall (fexp : R -> R) (d A : R), (forall x, x <= 0 -> Rabs (fexp x - exp x) <= d) -> (forall i, (i < n)%nat -> row_weight n params i <= A) ->
    forall (F : list Z -> R) (B : R), (forall s, In s states -> Rabs (F s) <= B) -> forall s t, In s states ->
    Rabs (Efl_cpp fexp n params t F s - expectation (boltzmann E states) states F) <= 2 * B * rho ^ (t / (2 * n)) + C * B * (4 * INR n / 2 ^ 53 * A + d).
Proof.
  intros n params Hn Hp Hf Hm NZ states E.
  assert (NC : nonconstant E states).
  { apply (energy_zero_iff n params Hp) in NZ. destruct NZ as (s & s' & Hs & Hs' & NE). exists s, s'. split; [assumption|]. split; [assumption|].
    assert (Q : forall x, In x states -> ising_calc_e_row (map IZR x) params = E x). { intros x Hx. apply C15_ising_energy; [rewrite map_length; now apply spin_states_spec in Hx|assumption]. }
    rewrite <- !Q by assumption. assumption. }
  destruct (C87_ising_rate E n Hn NC) as (rho & Hr & HR). exists rho, (4 * (INR (2 * n) / (1 - rho))). split; [assumption|].
  intros fexp d A He HA F B HF s t Hs.
  assert (B0 : 0 <= B) by (assert (K := HF s Hs); assert (0 <= Rabs (F s)) by apply Rabs_pos; lra).
  assert (D0 : 0 <= d) by (eapply Rle_trans; [apply Rabs_pos|apply (He 0); lra]).
  set (eps := 4 * INR n / 2 ^ 53 * A + d).
  assert (OS : forall t x y, In x states -> In y states -> Rabs (Erun E n (repeat None t) F x (E x) - Erun E n (repeat None t) F y (E y)) <= 4 * B * rho ^ (t / (2 * n))).
  { intros k x y Hx Hy. assert (X := HR F B HF x k Hx). assert (Y := HR F B HF y k Hy). set (L := expectation _ _ _) in *.
    apply Rabs_le_between in X, Y. apply Rabs_le. lra. }
  assert (N0 : 0 <= 4 * INR n / 2 ^ 53) by (unfold Rdiv; apply Rmult_le_pos; [assert (K := pos_INR n); lra|left; apply u64_pos]).
  assert (K : forall t s, In s states -> Rabs (Efl_cpp fexp n params t F s - Erun E n (repeat None t) F s (E s)) <= eps * sumf (seq 0 t) (fun k => 4 * B * rho ^ (k / (2 * n)))).
  { clear s t Hs. induction t as [|t IH]; intros s Hs; [cbn [repeat Efl_cpp Erun]; rewrite Rminus_eq_0, Rabs_R0; cbn; lra|].
    cbn [repeat Efl_cpp]. rewrite Erun_none, sumf_seq_last, Rmult_plus_distr_l. apply mean_near; [assumption|]. intros i Hi. rewrite (cpp_RInt fexp n params i s (Efl_cpp fexp n params t F)). unfold kernel.
    assert (Hs1 : In (flip s i) states) by (now apply flip_in_states).
    apply mix_near; [apply fl_accept_range| |now apply IH|now apply IH|now apply OS]. apply fl_accept_near; [assumption|].
    eapply Rle_trans; [now apply C90_cpp_difference|]. apply Rmult_le_compat_l; [assumption|]. now apply HA. }
  assert (X := HR F B HF s t Hs). specialize (K t s Hs). rewrite sumf_scal_l in K. assert (G := slow_geometric rho (2 * n) Hr ltac:(lia) t).
  set (L := expectation _ _ _) in *. set (p := Efl_cpp _ _ _ _ _ _) in *. set (q := Erun _ _ _ _ _ _) in *.
  replace (p - L) with ((q - L) + (p - q)) by ring. eapply Rle_trans; [apply Rabs_triang|]. apply Rplus_le_compat; [assumption|]. eapply Rle_trans; [exact K|].
  assert (W : 0 <= A). { eapply Rle_trans; [|apply (HA 0%nat Hn)]. unfold row_weight. apply Rplus_le_le_0_compat; [apply Rabs_pos|]. apply sumf_nonneg. intros j _. destruct (Nat.eqb 0 j); [lra|apply Rabs_pos]. }
  assert (EP : 0 <= eps) by (unfold eps; apply Rplus_le_le_0_compat; [apply Rmult_le_pos|]; assumption).
  replace (4 * (INR (2 * n) / (1 - rho)) * B * eps) with (eps * (4 * B * (INR (2 * n) / (1 - rho)))) by ring.
  apply Rmult_le_compat_l; [assumption|]. apply Rmult_le_compat_l; [lra|assumption].
Qed.
Print Assumptions C90_cpp_limit.

(** With parameters on a coarse enough binary grid the float run is the exact run. *)
Theorem C90_exact_run : forall (T : Type) (g : rng T) (n : nat) (params : list R) (order : list R -> sum_tree) (e : Z) (fs : list (option nat)) s0 t0,
  (0 < n)%nat -> length params = (n + n * (n - 1) / 2)%nat -> (forall l, l <> [] -> Permutation (leaves (order l)) l) ->
  (-1074 <= e)%Z -> Forall (fun x => exists k, x = IZR k * powerRZ 2 e) params -> sumf params Rabs <= powerRZ 2 (52 + e) -> In s0 (all_states [-1; 1]%Z n) ->
  let calc_e := fun s => fl_calc_e order (map IZR s) params in let E := fun s => ising_energy n params (map IZR s) in
  fl_run (fl_sample_metropolis g exp calc_e) fs s0 (calc_e s0) t0 = fst (run (sample_metropolis g E) fs s0 (E s0) t0).
Proof.
  intros T g n params order e fs s0 t0 Hn Hp Ho He Hg HS Hs calc_e E.
  assert (HS' : sumf params Rabs <= powerRZ 2 (53 + e)). { eapply Rle_trans; [exact HS|]. replace (53 + e)%Z with (1 + (52 + e))%Z by lia. rewrite (powerRZ_add 2 1), powerRZ_1 by lra. assert (P : 0 < powerRZ 2 (52 + e)) by (apply powerRZ_lt; lra). lra. }
  assert (EX : forall s, In s (spin_states n) -> calc_e s = E s).
  { intros s H. apply (C90_energy_exact n order (map IZR s) params e); try assumption; [rewrite map_length; now apply spin_states_spec in H|now apply spins_unit with n]. }
  assert (GR : forall s, In s (spin_states n) -> on_grid e (E s) /\ Rabs (E s) <= bpow radix2 (52 + e)).
  { intros s H. assert (L : length s = n) by (now apply spin_states_spec in H). assert (Ls : length (map IZR s) = n) by (now rewrite map_length).
    destruct (C15_ising_energy n (map IZR s) params Ls Hp) as [Q _]. unfold E. rewrite bpow_powerRZ. change (IZR radix2) with 2. split.
    - rewrite <- Q. apply (fl_energy_exact e order); try assumption; [destruct s; [cbn in L; lia|discriminate]|now apply spins_unit with n|now rewrite Ls| |].
      + eapply Forall_impl; [|exact Hg]. intros x [k Hk]. exists k. rewrite bpow_powerRZ. assumption.
      + rewrite bpow_powerRZ. assumption.
    - eapply Rle_trans; [apply (E_abs n params order Hn Hp Ho s H)|assumption]. }
  rewrite (EX s0 Hs). revert s0 t0 Hs. induction fs as [|f fs IH]; intros s t Hs; [reflexivity|].
  cbn [fl_run run]. unfold fl_sample_metropolis at 1, sample_metropolis at 1. destruct (match f with Some i => (i, t) | None => randint g t 0%nat (length s) end) as [i t1].
  set (s1 := flip s i). assert (Hs1 : In s1 (spin_states n)) by (now apply flip_in_states). rewrite (EX s1 Hs1).
  destruct (GR s Hs) as [G0 A0]. destruct (GR s1 Hs1) as [G1 A1].
  assert (BP : bpow radix2 (53 + e) = 2 * bpow radix2 (52 + e)) by (replace (53 + e)%Z with (1 + (52 + e))%Z by lia; rewrite bpow_plus; reflexivity).
  assert (DE : fsub (E s1) (E s) = E s1 - E s).
  { unfold fsub. apply rnd_id. apply (grid_float e); [assumption|apply grid_plus; [assumption|now apply grid_opp]|]. eapply Rle_trans; [apply Rabs_triang|]. rewrite Rabs_Ropp, BP. lra. }
  assert (E1 : fadd (E s) (E s1 - E s) = E s1). { unfold fadd. replace (E s + (E s1 - E s)) with (E s1) by ring. apply rnd_id. apply (grid_float e); [assumption|assumption|]. rewrite BP. assert (K := Rabs_pos (E s1)). lra. }
  assert (E0 : fadd (E s) 0 = E s). { unfold fadd. rewrite Rplus_0_r. apply rnd_id. apply (grid_float e); [assumption|assumption|]. rewrite BP. assert (K := Rabs_pos (E s)). lra. }
  rewrite DE. destruct (Rlt_dec 0 (E s1 - E s)); [destruct (rand g t1) as [u t2]; destruct (Rlt_dec (exp (- (E s1 - E s))) u)|].
  - unfold s1. rewrite flip_flip, E0, Rplus_0_r. rewrite (IH s t2 Hs). now destruct (run _ _ _ _ _) as [? ?].
  - rewrite E1. replace (E s + (E s1 - E s)) with (E s1) by ring. rewrite (IH s1 t2 Hs1). now destruct (run _ _ _ _ _) as [? ?].
  - rewrite E1. replace (E s + (E s1 - E s)) with (E s1) by ring. rewrite (IH s1 t1 Hs1). now destruct (run _ _ _ _ _) as [? ?].
Qed.
Print Assumptions C90_exact_run.

(** A number that needs 61 binary digits. *)
Lemma not_float : ~ float64 (- (1 + / 2 ^ 60)).
Proof.
  intros H. apply FLT_format_generic in H; [|apply prec53]. destruct H as [f H1 H2 _]. unfold F2R in H1. destruct f as [m e]. cbn [Fnum Fexp] in *.
  change (radix2 ^ 53)%Z with (2 ^ 53)%Z in H2.
  assert (B : bpow radix2 60 = 2 ^ 60) by (rewrite (pow_IZR 2 60), <- IZR_Zpower by lia; reflexivity).
  assert (Q : IZR m * bpow radix2 (e + 60) = IZR (- (2 ^ 60 + 1))).
  { rewrite bpow_plus, <- Rmult_assoc, <- H1, B, opp_IZR, plus_IZR. replace (IZR (2 ^ 60)) with (2 ^ 60) by (exact (pow_IZR 2 60)). field. }
  destruct (Z.le_gt_cases 0 (e + 60)) as [L|L].
  - rewrite <- IZR_Zpower, <- mult_IZR in Q by assumption. apply eq_IZR in Q. change (radix_val radix2) with 2%Z in Q. destruct (Z.eq_dec (e + 60) 0) as [Z0|Z0].
    + rewrite Z0 in Q. lia.
    + replace (e + 60)%Z with (1 + (e + 59))%Z in Q by lia. rewrite Z.pow_add_r in Q by lia. change (2 ^ 1)%Z with 2%Z in Q. assert (K : exists z, z = (m * 2 ^ (e + 59))%Z) by (eexists; reflexivity). destruct K as [z Kz].
      replace (m * (2 * 2 ^ (e + 59)))%Z with (2 * z)%Z in Q by (rewrite Kz; ring). lia.
  - assert (Q' : IZR m = IZR (- (2 ^ 60 + 1) * 2 ^ (- (e + 60)))).
    { rewrite mult_IZR, <- Q. change 2%Z with (radix_val radix2) at 1. rewrite IZR_Zpower by lia. rewrite Rmult_assoc, <- bpow_plus. replace (e + 60 + - (e + 60))%Z with 0%Z by lia. cbn [bpow]. ring. }
    apply eq_IZR in Q'. assert (P : (1 <= 2 ^ (- (e + 60)))%Z) by (apply (Z.pow_le_mono_r 2 0); lia). lia.
Qed.

(** np.sum from left to right. *)
Definition left_to_right (l : list R) : sum_tree := match l with [] => Leaf 0 | x :: l => comb (Leaf x) l end.

Lemma left_to_right_order l : l <> [] -> Permutation (leaves (left_to_right l)) l.
Proof. destruct l as [|x l]; [easy|]. intros _. unfold left_to_right. rewrite comb_leaves. reflexivity. Qed.

Example C90_example : let params := [1; / 2 ^ 60; 0] in let grid := [1 / 2; - (1 / 4); 3 / 4] in
  Forall float64 params /\
  fl_calc_e left_to_right [1; 1] params <> ising_energy 2 params [1; 1] /\
  Rabs (fl_calc_e left_to_right [1; 1] params - ising_energy 2 params [1; 1]) <= 6 / 2 ^ 53 * (1 + / 2 ^ 60) /\
  fl_calc_e left_to_right [1; -1] grid = ising_energy 2 grid [1; -1].
Proof.
  intros params grid.
  assert (P : Forall float64 params).
  { assert (B : bpow radix2 (-60) = / 2 ^ 60). { change (-60)%Z with (- (60))%Z. rewrite bpow_opp. f_equal. rewrite (pow_IZR 2 60), <- IZR_Zpower by lia. reflexivity. }
    constructor; [|constructor; [|constructor; [apply float_0|constructor]]].
    - replace 1 with (IZR 1 * bpow radix2 0) by (cbn; ring). apply float_grid; lia.
    - rewrite <- B. replace (bpow radix2 (-60)) with (IZR 1 * bpow radix2 (-60)) by ring. apply float_grid; lia. }
  assert (U : forall x y, (x = 1 \/ x = -1) -> (y = 1 \/ y = -1) -> Forall (fun x => x = -1 \/ x = 0 \/ x = 1) [x; y]) by (intros x y Hx Hy; constructor; [tauto|constructor; [tauto|constructor]]).
  assert (EQ : ising_energy 2 params [1; 1] = - (1 + / 2 ^ 60)).
  { destruct (C15_ising_energy 2 [1; 1] params eq_refl eq_refl) as [<- _]. unfold ising_calc_e_row, fast_sum_row. cbn [length skipn firstn params combine map fst snd]. cbn [loop_ij]. unfold loop_ij, range, range2. cbn. unfold sumR, nthR. cbn. lra. }
  split; [exact P|]. split; [|split].
  - intros H. apply not_float. rewrite <- EQ, <- H. apply rnd_float.
  - destruct (C90_energy 2 left_to_right [1; 1] params ltac:(lia) eq_refl (U 1 1 ltac:(tauto) ltac:(tauto)) eq_refl P left_to_right_order) as [_ K].
    assert (M : INR (length params) <= 2 ^ 53). { cbn [params length]. replace (INR 3) with 3 by (cbn; lra). apply Rle_trans with (2 ^ 2); [cbn [pow]; lra|]. apply Rle_pow; [lra|lia]. }
    specialize (K M). replace (sumf params Rabs) with (1 + / 2 ^ 60) in K.
    + replace (INR (length params)) with 3 in K by (cbn; lra). replace (2 * 3) with 6 in K by ring. exact K.
    + unfold params, sumf, fold_right. rewrite Rabs_R0, Rabs_R1, Rabs_pos_eq by (left; apply Rinv_0_lt_compat, pow_lt; lra). ring.
  - apply (C90_energy_exact 2 left_to_right [1; -1] grid (-2)); [lia|reflexivity|apply U; tauto|reflexivity|apply left_to_right_order|lia| |].
    + assert (B : powerRZ 2 (-2) = / 4) by (replace 4 with (2 ^ 2) by (cbn [pow]; lra); reflexivity). rewrite B. constructor; [exists 2%Z; lra|]. constructor; [exists (-1)%Z; lra|]. constructor; [exists 3%Z; lra|constructor].
    + apply Rle_trans with (powerRZ 2 2).
      * replace (powerRZ 2 2) with (2 ^ 2) by reflexivity. unfold grid, sumf, fold_right. rewrite Rabs_Ropp, !Rabs_pos_eq by lra. cbn [pow]. lra.
      * rewrite !powerRZ_Rpower by lra. apply Rle_Rpower; [lra|]. apply IZR_le. lia.
Qed.
