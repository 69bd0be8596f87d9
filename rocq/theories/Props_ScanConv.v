(** * Property C103: systematic scans sample the Boltzmann distribution. *)
From Coq Require Import Permutation Classical FunctionalExtensionality.
From Coquelicot Require Import Coquelicot.
From Verif Require Import Prelude Spec PreludeFacts M_Index M_Sampler P_Energy P_Energy2 P_Sampler P_Metro P_Cpp P_Ising M_Energy Props_Energy
  P_Converge P_Converge2 P_Converge3 Props_Converge Props_Converge2 P_ScanConv.
Import ListNotations.
Local Open Scope R_scope.

(** No flip of a single spin leaves the energy unchanged. *)
Definition no_ties (E : list Z -> R) (n : nat) : Prop :=
  forall s i, In s (all_states [-1; 1]%Z n) -> (i < n)%nat -> E (upd s i (- nth i s 0)%Z) <> E s.

(** Uniform numbers in [0,1], drawn one by one; sites are never drawn. *)
Definition unit_draw (H : R -> R) : R := RInt H 0 1.
Definition stape : rng (@tstate R) :=
  Rng _ (fun t lo hi => (lo, t)) (fun t => match fst t with u :: l => (clampu u, (l, u)) | [] => (0, t) end).

(** Increments 1 or 2 and uniform numbers. *)
Definition incr_draw (H : nat * R -> R) : R := sumf [1; 2]%nat (fun r => RInt (fun u => H (r, u)) 0 1) / 2.
Definition sptape : rng (@tstate (nat * R)) :=
  Rng _ (fun t lo hi => match fst t with e :: l => (clampi (fst e) lo hi, (l, e)) | [] => (lo, t) end) (fun t => (clampu (snd (snd t)), t)).

Lemma unit_draw_ext H H' : (forall u, 0 < u < 1 -> H u = H' u) -> unit_draw H = unit_draw H'.
Proof. intros HH. apply RInt_ext. intros u Hu. rewrite Rmin_left, Rmax_right in Hu by lra. now apply HH. Qed.

Lemma unit_draw_const c : unit_draw (fun _ => c) = c.
Proof. unfold unit_draw. rewrite RInt_const. unfold scal. cbn. unfold mult. cbn. ring. Qed.

Definition okincr (e : nat * R) : Prop := In (fst e) [1; 2]%nat /\ 0 < snd e < 1.

Lemma incr_draw_ext H H' : (forall e, okincr e -> H e = H' e) -> incr_draw H = incr_draw H'.
Proof.
  intros HH. unfold incr_draw. f_equal. apply sumf_ext_in. intros r Hr. apply RInt_ext. intros u Hu. rewrite Rmin_left, Rmax_right in Hu by lra. apply HH. split; cbn [fst snd]; assumption.
Qed.

Lemma incr_draw_const c : incr_draw (fun _ => c) = c.
Proof. unfold incr_draw. rewrite (sumf_ext _ _ (fun _ => c)) by (intros r; apply unit_draw_const). rewrite sumf_const. cbn. field. Qed.

(** ** One update *)
Lemma ising_step_law E n N phi psi j : law unit_draw E (fun s => In s (spin_states n)) N phi psi -> (j < n)%nat ->
  law unit_draw E (fun s => In s (spin_states n)) (S N) (fun s e t => let '(s1, de, t1) := sample_metropolis stape E (Some j) s e t in phi s1 (e + de) t1) (kernel E j psi).
Proof.
  intros HL Hj N' s c HN Hs. destruct (flip_in_states n s j Hs) as [Hf _]. unfold sample_metropolis, kernel, accept_prob. set (s1 := flip s j) in *. set (de := E s1 - E s).
  assert (E1 : E s + de = E s1) by (unfold de; ring). destruct (Rlt_dec 0 de) as [Hd|Hd].
  - destruct N' as [|N']; [lia|]. cbn [Etape]. unfold unit_draw at 1. apply is_RInt_unique. rewrite Rmin_right by (rewrite <- exp_0; left; apply exp_increasing; lra).
    apply RInt_threshold; [split; [left; apply exp_pos|rewrite <- exp_0; left; apply exp_increasing; lra]|]. intros u Hu. cbn [stape rand fst]. rewrite clampu_in by assumption.
    destruct (Rlt_dec (exp (- de)) u) as [L|L].
    + rewrite <- (HL N' s u ltac:(lia) Hs). apply (Etape_ext unit_draw (fun u => 0 < u < 1) unit_draw_ext). intros l _ _. unfold s1. now rewrite flip_flip, Rplus_0_r.
    + rewrite <- (HL N' s1 u ltac:(lia) Hf). apply (Etape_ext unit_draw (fun u => 0 < u < 1) unit_draw_ext). intros l _ _. now rewrite E1.
  - rewrite Rmin_left, Rmult_1_l, Rminus_diag_eq, Rmult_0_l, Rplus_0_r by (reflexivity || (rewrite <- exp_0; destruct (Rle_lt_or_eq_dec de 0 ltac:(lra)) as [L|L]; [left; apply exp_increasing; lra|rewrite L, Ropp_0; lra])).
    rewrite <- (HL N' s1 c ltac:(lia) Hf). apply (Etape_ext unit_draw (fun u => 0 < u < 1) unit_draw_ext). intros l _ _. now rewrite E1.
Qed.

Lemma potts_step_law E n N phi psi j : law incr_draw E (fun s => In s (potts_states n)) N phi psi -> (j < n)%nat ->
  law incr_draw E (fun s => In s (potts_states n)) (S N) (fun s e t => let '(s1, de, t1) := potts_sample_metropolis sptape E (Some j) s e t in phi s1 (e + de) t1) (pk E j psi).
Proof.
  intros HL Hj N' s c HN Hs. destruct N' as [|N']; [lia|]. cbn [Etape]. unfold incr_draw at 1, pk. f_equal. apply sumf_ext_in. intros r Hr. apply is_RInt_unique.
  assert (A := potts_update_average E (Some j) 0 r s (fun p => psi (fst p))). cbv zeta in A. cbn [fst site_or] in A. unfold pkernel.
  eapply is_RInt_ext; [|exact A]. intros u Hu. rewrite Rmin_left, Rmax_right in Hu by lra. cbv beta.
  destruct (shift3_back n s j r (in_12 r Hr) Hs) as [Hf _]. rewrite poutcome_eq by assumption. cbv zeta. cbn [site_or].
  unfold potts_sample_metropolis. cbn [sptape randint rand fst snd]. rewrite clampi_12 by assumption. fold (shift3 s j r). set (s1 := shift3 s j r) in *. rewrite clampu_in by assumption.
  set (de := E s1 - E s). assert (E1 : E s + de = E s1) by (unfold de; ring). symmetry.
  assert (K1 : Etape incr_draw N' (fun l => phi s1 (E s + de) (l, (r, u))) = psi s1) by (rewrite E1; apply HL; [lia|assumption]).
  assert (K0 : Etape incr_draw N' (fun l => phi (upd s1 j (nth j s 0%nat)) (E s + 0) (l, (r, u))) = psi s).
  { rewrite Rplus_0_r. replace (upd s1 j (nth j s 0%nat)) with s by (unfold s1, shift3; now rewrite upd_upd, upd_same). apply HL; [lia|assumption]. }
  unfold accept_prob. destruct (Rlt_dec 0 de) as [Hd|Hd].
  - rewrite Rmin_right by (rewrite <- exp_0; left; apply exp_increasing; lra). destruct (Rlt_dec (exp (- de)) u); [exact K0|exact K1].
  - rewrite Rmin_left by (rewrite <- exp_0; destruct (Rle_lt_or_eq_dec de 0 ltac:(lra)) as [L|L]; [left; apply exp_increasing; lra|rewrite L, Ropp_0; lra]).
    destruct (Rlt_dec 1 u); [lra|exact K1].
Qed.

(** ** Single rows *)
Lemma rows_exp_nth {X} (St : list X) Q m F d : averaging St Q -> forall j s, (j < m)%nat -> In s St -> rows_exp Q m (fun rows => F (nth j rows d)) s = iterf (S j) Q F s.
Proof.
  intros HQ. assert (HQ' := HQ). destruct HQ' as (A1 & _ & _ & _). induction m as [|m IH]; intros j s Hj Hs; [lia|]. cbn [rows_exp iterf]. apply A1; [|assumption]. intros x Hx. destruct j as [|j].
  - cbn [nth iterf]. now apply (rows_exp_const St).
  - cbn [nth]. rewrite IH by (assumption || lia). reflexivity.
Qed.

Lemma iter_kseq {X} (U : nat -> (X -> R) -> X -> R) js : forall k F, iterf k (kseq U js) F = kseq U (concat (repeat js k)) F.
Proof. induction k as [|k IH]; intros F; [reflexivity|]. cbn [iterf repeat concat]. now rewrite kseq_app, IH. Qed.

Lemma rows_seq_const {V} (St : list (list V)) m : forall (Qs : nat -> (list V -> R) -> list V -> R) c s, (forall i, averaging St (Qs i)) -> In s St -> rows_seq Qs m (fun _ => c) s = c.
Proof.
  induction m as [|m IH]; intros Qs c s HQ Hs; [reflexivity|]. cbn [rows_seq]. destruct (HQ 0%nat) as (A1 & _ & A3 & _). transitivity (Qs 0%nat (fun _ => c) s); [|now apply A3]. apply A1; [|assumption]. intros x Hx. apply IH; [intros i; apply HQ|assumption].
Qed.

Lemma rows_seq_nth {V} (St : list (list V)) U n k F d : (forall j, averaging St (U j)) -> forall m ctr j s, (j < m)%nat -> In s St ->
  rows_seq (fun i => kseq U (cyc n (ctr + i * k) k)) m (fun rows => F (nth j rows d)) s = kseq U (cyc n ctr (S j * k)) F s.
Proof.
  intros HU. induction m as [|m IH]; intros ctr j s Hj Hs; [lia|]. cbn [rows_seq]. rewrite Nat.mul_0_l, Nat.add_0_r. cbn [Nat.mul]. rewrite cyc_app, kseq_app.
  destruct (kseq_averaging U St HU (cyc n ctr k)) as (A1 & _). apply A1; [|assumption]. intros x Hx. destruct j as [|j].
  - cbn [nth Nat.mul]. apply (rows_seq_const St); [|assumption]. intros i. now apply kseq_averaging.
  - cbn [nth]. rewrite <- (IH (ctr + k)%nat j x) by (assumption || lia).
    assert (EQ : (fun i => kseq U (cyc n (ctr + (k + i * k)) k)) = (fun i => kseq U (cyc n (ctr + k + i * k) k))) by (apply functional_extensionality; intros i; f_equal; f_equal; lia). now rewrite EQ.
Qed.

Lemma rows_seq_same {V} (Q : (list V -> R) -> list V -> R) m : forall G s, rows_seq (fun _ => Q) m G s = rows_exp Q m G s.
Proof. induction m as [|m IH]; intros G s; [reflexivity|]. cbn [rows_seq rows_exp]. f_equal. apply functional_extensionality. intros x. apply IH. Qed.

Lemma rows_seq_sweeps {V} (U : nat -> (list V -> R) -> list V -> R) n b q m G s : (0 < n)%nat ->
  rows_seq (fun i => kseq U (cyc n (b + i * (q * n)) (q * n))) m G s = rows_exp (fun F => iterf q (kseq U (cyc n (b mod n) n)) F) m G s.
Proof.
  intros Hn. rewrite <- rows_seq_same. f_equal. apply functional_extensionality. intros i. apply functional_extensionality. intros F.
  replace (b + i * (q * n))%nat with (b + (i * q) * n)%nat by lia. rewrite cyc_shifts, cyc_mod by assumption. now apply cyc_sweeps.
Qed.

Lemma no_ties_flip E n : no_ties E n -> forall s i, In s (spin_states n) -> (i < n)%nat -> E (flip s i) <> E s.
Proof. intros H s i Hs Hi. rewrite flip_upd. now apply H. Qed.

Lemma kernel_boltzmann E n j G : sumf (spin_states n) (fun x => boltzmann E (spin_states n) x * kernel E j G x) = sumf (spin_states n) (fun x => boltzmann E (spin_states n) x * G x).
Proof. apply (boltzmann_stationary E (spin_states n) (kernel E j)). intros F. apply kernel_stationary. Qed.

(** ** Theorems *)
(** Metropolis.generate_sample_py with systematic iteration, when no single flip leaves the
    energy unchanged: the distribution of every row approaches the Boltzmann distribution at a
    geometric rate in the burn-in; averages over m rows have mean square error at most C B^2 / m
    if at least n updates lie between rows. *)
Theorem C103_python : forall (E : list Z -> R) (n : nat), (0 < n)%nat -> no_ties E n -> let states := all_states [-1; 1]%Z n in
  let mean := fun s0 burn_in n_iters m samples c z (H : list (list Z) -> R) => Etape unit_draw (burn_in_or burn_in n_iters + m * n_iters) (fun l =>
      match ising_generate_sample_py stape E n m n_iters burn_in true samples (Some [s0]) (l, c) with Ok r => H (g_sample r) | Err _ => z end) in
  (exists rho m0, 0 <= rho < 1 /\ (0 < m0)%nat /\ forall (F : list Z -> R) (B : R), (forall s, In s states -> Rabs (F s) <= B) ->
    forall samples s0 burn_in n_iters m c z j, In s0 states -> (j < m)%nat ->
    Rabs (mean s0 burn_in n_iters m samples c z (fun rows => F (nth j rows [])) - expectation (boltzmann E states) states F) <= 2 * B * rho ^ (burn_in_or burn_in n_iters / n / m0)) /\
  (forall n_iters, (n <= n_iters)%nat -> exists C, forall (F : list Z -> R) (B : R), (forall s, In s states -> Rabs (F s) <= B) ->
    forall samples s0 burn_in m c z, In s0 states -> (0 < m)%nat ->
    let err := fun rows => sumf rows F / INR m - expectation (boltzmann E states) states F in
    mean s0 burn_in n_iters m samples c z (fun rows => err rows ^ 2) <= C * B ^ 2 / INR m /\
    forall d, 0 < d -> mean s0 burn_in n_iters m samples c z (fun rows => if Rlt_dec d (Rabs (err rows)) then 1 else 0) <= C * B ^ 2 / (INR m * d ^ 2)).
Proof.
  intros E n Hn NT states mean. assert (NT0 := NT); clear NT; assert (NT := no_ties_flip E n NT0).
  assert (Q : forall s0 b k m samples c z H, In s0 states -> mean s0 b k m samples c z H = kseq (kernel E) (cyc n 0 (burn_in_or b k)) (rows_exp (kseq (kernel E) (cyc n 0 k)) m H) s0).
  { intros s0 b k m samples c z H Hs. unfold mean, ising_generate_sample_py.
    apply (generate_law unit_draw (fun u => 0 < u < 1) unit_draw_ext unit_draw_const E (fun s => In s (spin_states n)) n Hn (kernel E)); [|assumption|now apply spin_states_spec in Hs|lia].
    intros N phi psi j HL Hj. now apply ising_step_law. }
  assert (HA := kernel_averaging E n). assert (HM := scan_minor E n NT). assert (HW := boltzmann_dist E (spin_states n) (spin_states_ne n)). assert (HS := kernel_boltzmann E n). split.
  - destruct (cyc_rate (spin_states n) (spin_states_NoDup n) (spin_states_ne n) (kernel E) HA (boltzmann E states) HW HS n Hn HM) as (rho & m0 & Hr & Hm & H).
    exists rho, m0. split; [assumption|]. split; [assumption|]. intros F B HF samples s0 b k m c z j Hs Hj. rewrite Q by assumption.
    specialize (H F B (concat (repeat (cyc n 0 k) (S j))) (burn_in_or b k) s0 HF Hs). rewrite kseq_app in H. unfold expectation.
    erewrite (proj1 (kseq_averaging (kernel E) (spin_states n) HA (cyc n 0 (burn_in_or b k)))); [exact H| |assumption].
    intros x Hx. rewrite <- iter_kseq. apply (rows_exp_nth (spin_states n)); try assumption. now apply kseq_averaging.
  - intros k Hk. destruct (scan_errors state_eq_dec (spin_states n) (spin_states_NoDup n) (spin_states_ne n) (kernel E) HA (boltzmann E states) HW HS n HM (cyc n 0 k) (cyc_lt n 0 k Hn) (fun i Hi => cyc_covers n 0 k i Hi Hk)) as (C & _ & H).
    exists C. intros F B HF samples s0 b m c z Hs Hm err. destruct (H F B HF (cyc n 0 (burn_in_or b k)) 1%nat m s0 ltac:(lia) Hm Hs) as [H1 H2].
    split; [|intros d Hd]; rewrite Q by assumption; [exact H1|now apply H2].
Qed.
Print Assumptions C103_python.

(** The same for the three state Potts sampler, for every energy. *)
Theorem C103_python_potts : forall (E : list nat -> R) (n : nat), (0 < n)%nat -> let states := all_states [0; 1; 2]%nat n in
  let mean := fun s0 burn_in n_iters m samples c z (H : list (list nat) -> R) => Etape incr_draw (burn_in_or burn_in n_iters + m * n_iters) (fun l =>
      match potts_generate_sample_py sptape E n m n_iters burn_in true samples (Some [s0]) (l, c) with Ok r => H (g_sample r) | Err _ => z end) in
  (exists rho m0, 0 <= rho < 1 /\ (0 < m0)%nat /\ forall (F : list nat -> R) (B : R), (forall s, In s states -> Rabs (F s) <= B) ->
    forall samples s0 burn_in n_iters m c z j, In s0 states -> (j < m)%nat ->
    Rabs (mean s0 burn_in n_iters m samples c z (fun rows => F (nth j rows [])) - expectation (boltzmann E states) states F) <= 2 * B * rho ^ (burn_in_or burn_in n_iters / n / m0)) /\
  (forall n_iters, (n <= n_iters)%nat -> exists C, forall (F : list nat -> R) (B : R), (forall s, In s states -> Rabs (F s) <= B) ->
    forall samples s0 burn_in m c z, In s0 states -> (0 < m)%nat ->
    let err := fun rows => sumf rows F / INR m - expectation (boltzmann E states) states F in
    mean s0 burn_in n_iters m samples c z (fun rows => err rows ^ 2) <= C * B ^ 2 / INR m /\
    forall d, 0 < d -> mean s0 burn_in n_iters m samples c z (fun rows => if Rlt_dec d (Rabs (err rows)) then 1 else 0) <= C * B ^ 2 / (INR m * d ^ 2)).
Proof.
  intros E n Hn states mean.
  assert (Q : forall s0 b k m samples c z H, In s0 states -> mean s0 b k m samples c z H = kseq (pk E) (cyc n 0 (burn_in_or b k)) (rows_exp (kseq (pk E) (cyc n 0 k)) m H) s0).
  { intros s0 b k m samples c z H Hs. unfold mean, potts_generate_sample_py.
    apply (generate_law incr_draw okincr incr_draw_ext incr_draw_const E (fun s => In s (potts_states n)) n Hn (pk E)); [|assumption|now apply potts_states_spec in Hs|lia].
    intros N phi psi j HL Hj. now apply potts_step_law. }
  assert (HA := pk_averaging E n). assert (HM := potts_scan_minor E n). assert (HW := boltzmann_dist E (potts_states n) (potts_states_ne n)). assert (HS := pk_stationary E n). split.
  - destruct (cyc_rate (potts_states n) (potts_states_NoDup n) (potts_states_ne n) (pk E) HA (boltzmann E states) HW HS n Hn HM) as (rho & m0 & Hr & Hm & H).
    exists rho, m0. split; [assumption|]. split; [assumption|]. intros F B HF samples s0 b k m c z j Hs Hj. rewrite Q by assumption.
    specialize (H F B (concat (repeat (cyc n 0 k) (S j))) (burn_in_or b k) s0 HF Hs). rewrite kseq_app in H. unfold expectation.
    erewrite (proj1 (kseq_averaging (pk E) (potts_states n) HA (cyc n 0 (burn_in_or b k)))); [exact H| |assumption].
    intros x Hx. rewrite <- iter_kseq. apply (rows_exp_nth (potts_states n)); try assumption. now apply kseq_averaging.
  - intros k Hk. destruct (scan_errors pstate_eq_dec (potts_states n) (potts_states_NoDup n) (potts_states_ne n) (pk E) HA (boltzmann E states) HW HS n HM (cyc n 0 k) (cyc_lt n 0 k Hn) (fun i Hi => cyc_covers n 0 k i Hi Hk)) as (C & _ & H).
    exists C. intros F B HF samples s0 b m c z Hs Hm err. destruct (H F B HF (cyc n 0 (burn_in_or b k)) 1%nat m s0 ltac:(lia) Hm Hs) as [H1 H2].
    split; [|intros d Hd]; rewrite Q by assumption; [exact H1|now apply H2].
Qed.
Print Assumptions C103_python_potts.

(** The compiled Ising sampler, whose counter goes on from row to row: row j has seen
    burn_in + (j+1) n_iters updates; averages are covered when n_iters is a multiple of n, by
    one constant for all burn-ins and all such n_iters. *)
Theorem C103_compiled : forall (n : nat) (params : list R), (0 < n)%nat ->
  let E := fun s => ising_energy n params (map IZR s) in no_ties E n -> let states := all_states [-1; 1]%Z n in
  let mean := fun s0 burn_in n_iters m c (H : list (list Z) -> R) => Etape unit_draw (burn_in + m * n_iters) (fun l =>
      H (fst (cpp_generate_sample stape (cpp_sample_metropolis stape n params (coupling_mat n n params)) (cpp_calc_e n params) n m burn_in n_iters true s0 (l, c)))) in
  (exists rho m0, 0 <= rho < 1 /\ (0 < m0)%nat /\ forall (F : list Z -> R) (B : R), (forall s, In s states -> Rabs (F s) <= B) ->
    forall s0 burn_in n_iters m c j, In s0 states -> (j < m)%nat ->
    Rabs (mean s0 burn_in n_iters m c (fun rows => F (nth j rows [])) - expectation (boltzmann E states) states F) <= 2 * B * rho ^ ((burn_in + (j + 1) * n_iters) / n / m0)) /\
  (exists C, forall (F : list Z -> R) (B : R), (forall s, In s states -> Rabs (F s) <= B) ->
    forall s0 burn_in sweeps m c, In s0 states -> (0 < sweeps)%nat -> (0 < m)%nat ->
    let err := fun rows => sumf rows F / INR m - expectation (boltzmann E states) states F in
    mean s0 burn_in (sweeps * n)%nat m c (fun rows => err rows ^ 2) <= C * B ^ 2 / INR m /\
    forall d, 0 < d -> mean s0 burn_in (sweeps * n)%nat m c (fun rows => if Rlt_dec d (Rabs (err rows)) then 1 else 0) <= C * B ^ 2 / (INR m * d ^ 2)).
Proof.
  intros n params Hn E NT0 states mean. set (ce := cpp_calc_e n params).
  assert (EE : forall s, In s states -> ce s = E s).
  { intros s Hs. apply spin_states_spec in Hs. unfold ce, E. now apply cpp_calc_e_eq. }
  assert (NT : forall s i, In s (spin_states n) -> (i < n)%nat -> ce (flip s i) <> ce s).
  { intros s i Hs Hi. rewrite !EE by (try apply flip_in_states; assumption). now apply (no_ties_flip E n NT0). }
  assert (Q : forall s0 b k m c H, In s0 states -> mean s0 b k m c H = kseq (kernel ce) (cyc n 0 b) (rows_seq (fun i => kseq (kernel ce) (cyc n (b + i * k) k)) m H) s0).
  { intros s0 b k m c H Hs. unfold mean. fold ce.
    apply (cpp_generate_law unit_draw (fun u => 0 < u < 1) unit_draw_ext unit_draw_const ce (fun s => In s (spin_states n)) n Hn (kernel ce)); [|assumption|lia].
    intros N phi psi j HL Hj N' s c' HN Hs'. rewrite <- (ising_step_law ce n N phi psi j HL Hj N' s c' HN Hs'). apply (Etape_ext unit_draw (fun u => 0 < u < 1) unit_draw_ext). intros l _ _.
    rewrite cpp_sample_metropolis_eq; [reflexivity|assumption|now apply spin_states_spec in Hs']. }
  assert (HA := kernel_averaging ce n). assert (HM := scan_minor ce n NT). assert (HW := boltzmann_dist ce (spin_states n) (spin_states_ne n)). assert (HS := kernel_boltzmann ce n). split.
  - destruct (cyc_rate (spin_states n) (spin_states_NoDup n) (spin_states_ne n) (kernel ce) HA (boltzmann ce states) HW HS n Hn HM) as (rho & m0 & Hr & Hm & H).
    exists rho, m0. split; [assumption|]. split; [assumption|]. intros F B HF s0 b k m c j Hs Hj. rewrite Q by assumption. rewrite <- (boltzmann_ext ce E states F EE).
    specialize (H F B [] (b + (j + 1) * k)%nat s0 HF Hs). rewrite app_nil_r, cyc_app, kseq_app in H. unfold expectation. replace (j + 1)%nat with (S j) in H |- * by lia.
    erewrite (proj1 (kseq_averaging (kernel ce) (spin_states n) HA (cyc n 0 b))); [exact H| |assumption].
    intros x Hx. now apply (rows_seq_nth (spin_states n)).
  - destruct (scan_errors_all state_eq_dec (spin_states n) (spin_states_NoDup n) (spin_states_ne n) (kernel ce) HA (boltzmann ce states) HW HS n Hn HM (fun a => cyc n a n)
      (fun a => conj (cyc_lt n a n Hn) (fun i Hi => cyc_covers n a n i Hi (Nat.le_refl n))) n) as (C & _ & H).
    exists C. intros F B HF s0 b q m c Hs Hq Hm err. destruct (H (b mod n)%nat ltac:(apply Nat.mod_upper_bound; lia) F B HF (cyc n 0 b) q m s0 Hq Hm Hs) as [H1 H2].
    assert (EQ : forall G, mean s0 b (q * n)%nat m c G = kseq (kernel ce) (cyc n 0 b) (rows_exp (fun F => iterf q (kseq (kernel ce) (cyc n (b mod n) n)) F) m G) s0).
    { intros G. rewrite Q by assumption. f_equal. apply functional_extensionality. intros x. now apply rows_seq_sweeps. }
    assert (EB := boltzmann_ext ce E states F EE). unfold expectation at 1 in EB. change states with (spin_states n) in EB at 2. split; [|intros d Hd]; rewrite EQ; unfold err; rewrite <- EB; [exact H1|now apply H2].
Qed.
Print Assumptions C103_compiled.

(** The compiled Potts sampler, for all parameters. *)
Theorem C103_compiled_potts : forall (n : nat) (params : list R), (0 < n)%nat -> length params = (3 * n + n * (n - 1) / 2)%nat ->
  let E := fun s => potts_energy n 3 params s in let states := all_states [0; 1; 2]%nat n in
  let mean := fun s0 burn_in n_iters m c (H : list (list nat) -> R) => Etape incr_draw (burn_in + m * n_iters) (fun l =>
      H (fst (cpp_generate_sample sptape (cpp_potts_sample_metropolis sptape n params (coupling_mat n (3 * n) params)) (cpp_potts_calc_e n params) n m burn_in n_iters true s0 (l, c)))) in
  (exists rho m0, 0 <= rho < 1 /\ (0 < m0)%nat /\ forall (F : list nat -> R) (B : R), (forall s, In s states -> Rabs (F s) <= B) ->
    forall s0 burn_in n_iters m c j, In s0 states -> (j < m)%nat ->
    Rabs (mean s0 burn_in n_iters m c (fun rows => F (nth j rows [])) - expectation (boltzmann E states) states F) <= 2 * B * rho ^ ((burn_in + (j + 1) * n_iters) / n / m0)) /\
  (exists C, forall (F : list nat -> R) (B : R), (forall s, In s states -> Rabs (F s) <= B) ->
    forall s0 burn_in sweeps m c, In s0 states -> (0 < sweeps)%nat -> (0 < m)%nat ->
    let err := fun rows => sumf rows F / INR m - expectation (boltzmann E states) states F in
    mean s0 burn_in (sweeps * n)%nat m c (fun rows => err rows ^ 2) <= C * B ^ 2 / INR m /\
    forall d, 0 < d -> mean s0 burn_in (sweeps * n)%nat m c (fun rows => if Rlt_dec d (Rabs (err rows)) then 1 else 0) <= C * B ^ 2 / (INR m * d ^ 2)).
Proof.
  intros n params Hn Hp E states mean. set (ce := cpp_potts_calc_e n params).
  assert (EE : forall s, In s states -> ce s = E s).
  { intros s Hs. apply potts_states_spec in Hs. unfold ce, E. apply cpp_potts_calc_e_eq; [assumption|apply Hs|apply Hs]. }
  assert (ok : rng_ok sptape).
  { split; cbn.
    - intros [[|e l] c] lo hi H; cbn; [lia|]. unfold clampi. destruct (Nat.leb_spec lo (fst e)), (Nat.ltb_spec (fst e) hi); cbn; lia.
    - intros t. unfold clampu. destruct (Rle_dec 0 _); [destruct (Rlt_dec _ 1)|]; lra. }
  assert (Q : forall s0 b k m c H, In s0 states -> mean s0 b k m c H = kseq (pk ce) (cyc n 0 b) (rows_seq (fun i => kseq (pk ce) (cyc n (b + i * k) k)) m H) s0).
  { intros s0 b k m c H Hs. unfold mean. fold ce.
    apply (cpp_generate_law incr_draw okincr incr_draw_ext incr_draw_const ce (fun s => In s (potts_states n)) n Hn (pk ce)); [|assumption|lia].
    intros N phi psi j HL Hj N' s c' HN Hs'. rewrite <- (potts_step_law ce n N phi psi j HL Hj N' s c' HN Hs'). apply (Etape_ext incr_draw okincr incr_draw_ext). intros l _ _.
    apply potts_states_spec in Hs'. rewrite cpp_potts_sample_metropolis_eq; [reflexivity|assumption|assumption|apply Hs'|apply Hs']. }
  assert (HA := pk_averaging ce n). assert (HM := potts_scan_minor ce n). assert (HW := boltzmann_dist ce (potts_states n) (potts_states_ne n)). assert (HS := pk_stationary ce n). split.
  - destruct (cyc_rate (potts_states n) (potts_states_NoDup n) (potts_states_ne n) (pk ce) HA (boltzmann ce states) HW HS n Hn HM) as (rho & m0 & Hr & Hm & H).
    exists rho, m0. split; [assumption|]. split; [assumption|]. intros F B HF s0 b k m c j Hs Hj. rewrite Q by assumption. rewrite <- (boltzmann_ext ce E states F EE).
    specialize (H F B [] (b + (j + 1) * k)%nat s0 HF Hs). rewrite app_nil_r, cyc_app, kseq_app in H. unfold expectation. replace (j + 1)%nat with (S j) in H |- * by lia.
    erewrite (proj1 (kseq_averaging (pk ce) (potts_states n) HA (cyc n 0 b))); [exact H| |assumption].
    intros x Hx. now apply (rows_seq_nth (potts_states n)).
  - destruct (scan_errors_all pstate_eq_dec (potts_states n) (potts_states_NoDup n) (potts_states_ne n) (pk ce) HA (boltzmann ce states) HW HS n Hn HM (fun a => cyc n a n)
      (fun a => conj (cyc_lt n a n Hn) (fun i Hi => cyc_covers n a n i Hi (Nat.le_refl n))) n) as (C & _ & H).
    exists C. intros F B HF s0 b q m c Hs Hq Hm err. destruct (H (b mod n)%nat ltac:(apply Nat.mod_upper_bound; lia) F B HF (cyc n 0 b) q m s0 Hq Hm Hs) as [H1 H2].
    assert (EQ : forall G, mean s0 b (q * n)%nat m c G = kseq (pk ce) (cyc n 0 b) (rows_exp (fun F => iterf q (kseq (pk ce) (cyc n (b mod n) n)) F) m G) s0).
    { intros G. rewrite Q by assumption. f_equal. apply functional_extensionality. intros x. now apply rows_seq_sweeps. }
    assert (EB := boltzmann_ext ce E states F EE). unfold expectation at 1 in EB. change states with (potts_states n) in EB at 2. split; [|intros d Hd]; rewrite EQ; unfold err; rewrite <- EB; [exact H1|now apply H2].
Qed.
Print Assumptions C103_compiled_potts.

(** Two spins with fields 1 and coupling 1/2, one sweep between rows: sample correlations approach the model's. *)
Example C103_example : let E := fun s => ising_energy 2 [1; 1; 1 / 2] (map IZR s) in let states := all_states [-1; 1]%Z 2 in
  no_ties E 2 /\
  exists C, forall m, (0 < m)%nat -> forall d, 0 < d ->
  Etape unit_draw (2 + m * 2) (fun l => match ising_generate_sample_py stape E 2 m 2 None true None (Some [[1; 1]%Z]) (l, 0) with
    | Ok r => if Rlt_dec d (Rabs (sumf (g_sample r) (fun s => IZR (spin_product s)) / INR m - expectation (boltzmann E states) states (fun s => IZR (spin_product s)))) then 1 else 0
    | Err _ => 1 end) <= C / (INR m * d ^ 2).
Proof.
  intros E states.
  assert (NT : no_ties E 2).
  { intros s i Hs Hi. change (all_states [-1; 1]%Z 2) with [[-1; -1]; [-1; 1]; [1; -1]; [1; 1]]%Z in Hs.
    destruct i as [|[|i]]; [| |lia]; repeat (destruct Hs as [<-|Hs]; [unfold E, ising_energy, coupling, nthR, sumf; cbn; lra|]); destruct Hs. }
  split; [assumption|]. destruct (C103_python E 2 ltac:(lia) NT) as [_ H]. destruct (H 2%nat ltac:(lia)) as (C & K). exists (C * 1 ^ 2). intros m Hm d Hd.
  assert (HF : forall s, In s states -> Rabs (IZR (spin_product s)) <= 1).
  { intros s Hs. change states with [[-1; -1]; [-1; 1]; [1; -1]; [1; 1]]%Z in Hs. repeat (destruct Hs as [<-|Hs]; [cbn; unfold Rabs; destruct (Rcase_abs _); lra|]). destruct Hs. }
  destruct (K (fun s => IZR (spin_product s)) 1 HF None [1; 1]%Z None m 0 1 ltac:(cbn; auto) Hm) as [_ K2]. exact (K2 d Hd).
Qed.
