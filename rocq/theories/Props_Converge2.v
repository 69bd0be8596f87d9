(** * C87 (Swendsen-Wang) and C88: averages over samples *)
From Coq Require Import Permutation Classical FunctionalExtensionality.
From Coquelicot Require Import Coquelicot.
From Verif Require Import Prelude Spec PreludeFacts M_Index M_Sampler P_Energy P_Energy2 P_Sampler P_Metro P_Cpp M_Energy Props_Energy
  P_Index P_Params P_RMF P_Ising P_Lattice M_Wolff P_Wolff P_Wolff2 P_Wolff3 P_Comp P_SW Props_SW P_Converge P_Converge2 P_Converge3 Props_Converge.
Import ListNotations.
Local Open Scope R_scope.

(** ** Swendsen-Wang *)
Section SWrate.
Variables (n : nat) (h v : list R).
Hypothesis Hn : (1 <= n)%nat.
Hypothesis Hh : length h = n.
Hypothesis Hv : length v = (n * (n - 1) / 2)%nat.

Lemma Psw_averaging o : averaging (spin_states n) (Psw n h v o).
Proof.
  repeat split.
  - intros F G H s Hs. apply Psw_ext; [now apply spin_states_spec|]. intros x Hx. apply H. now apply spin_states_spec.
  - intros a b F G s Hs. apply Psw_lin.
  - intros c s Hs. apply Psw_const; assumption.
  - intros F H s Hs. unfold Psw. apply sumf_nonneg. intros b _. apply Rmult_le_pos; [apply pbits_nonneg, qs_bounds|].
    apply (Gs_nonneg n); [|now apply spin_states_spec]. intros x Hx. apply H. now apply spin_states_spec.
Qed.

(** The probability of reaching s' without any bond, sites being visited in the order w. *)
Definition free_prob (q : list nat * (list Z * list Z)) : R :=
  pbits (qs n v (fst (snd q))) (repeat 0 (length v)) * Gs h (map (fun i => [i]) (fst q)) (ind state_eq_dec (snd (snd q))) (fst (snd q)).

Lemma lower_bound_if {A} (Q : A -> Prop) (l : list A) (f : A -> R) : (forall x, In x l -> Q x -> 0 < f x) -> exists eps, 0 < eps <= 1 /\ forall x, In x l -> Q x -> eps <= f x.
Proof.
  induction l as [|a l IH]; intros H.
  - exists 1. split; [lra|]. intros x [].
  - destruct IH as (e & He & Hl); [intros x Hx; apply H; now right|]. destruct (classic (Q a)) as [Qa|Qa].
    + exists (Rmin e (f a)). split.
      * split; [apply Rmin_glb_lt; [lra|apply H; [now left|assumption]]|]. eapply Rle_trans; [apply Rmin_l|lra].
      * intros x [<-|Hx] Qx; [apply Rmin_r|]. eapply Rle_trans; [apply Rmin_l|now apply Hl].
    + exists e. split; [assumption|]. intros x [<-|Hx] Qx; [contradiction|now apply Hl].
Qed.

Lemma ind_nonneg (x y : list Z) : 0 <= ind state_eq_dec x y.
Proof. unfold ind. destruct (state_eq_dec y x); lra. Qed.

Lemma sw_minor : exists eps, 0 < eps <= 1 /\ forall o, good_order o -> minor (spin_states n) eps (Psw n h v o).
Proof.
  destruct (lower_bound_if (fun q => Permutation (fst q) (range n)) (list_prod (all_states (range n) n) (list_prod (spin_states n) (spin_states n))) free_prob) as (eps & He & HL).
  - intros [w [s s']] Hq Hw. apply in_prod_iff in Hq. destruct Hq as [_ Hq]. apply in_prod_iff in Hq. destruct Hq as [Hs Hs']. apply spin_states_spec in Hs, Hs'. unfold free_prob. cbn [fst snd] in *.
    apply Rmult_lt_0_compat; [now apply pbits_zero_pos|]. apply (Gs_pos n h _ _ s'); [intros; apply ind_nonneg| |assumption|].
    + unfold ind. destruct (state_eq_dec s' s'); [lra|congruence].
    + apply (reach_singles n h v Hn Hh Hv); [|destruct Hs, Hs'; congruence|apply Hs|apply Hs'|].
      * apply Forall_forall. intros c Hc. apply in_map_iff in Hc. destruct Hc as (i & <- & _). now exists i.
      * intros k Hk. rewrite !nth_overflow; [reflexivity| |]; destruct Hs as [L1 _], Hs' as [L2 _]; destruct (Nat.lt_ge_cases k n) as [Lk|Lk]; try lia; exfalso; apply Hk;
          apply in_concat; exists [k]; (split; [|now left]); apply in_map_iff; exists k; (split; [reflexivity|]); apply (Permutation_in _ (Permutation_sym Hw)), in_range; assumption.
  - exists eps. split; [assumption|]. intros o Ho F HF s Hs.
    rewrite (avg_expand state_eq_dec (spin_states n) (spin_states_NoDup n) _ F s (Psw_averaging o) Hs), <- sumf_scal_l. apply sumf_le. intros x Hx. rewrite Rmult_comm. apply Rmult_le_compat_l; [now apply HF|].
    destruct (zero_clusters n h v Hn Hh Hv o Ho) as [Z1 Z2].
    assert (W : exists w, clusters_of n o (repeat 0 (length v)) = map (fun i => [i]) w).
    { clear - Z1. induction Z1 as [|c cs [i ->] _ [w IH]]; [now exists []|]. exists (i :: w). cbn. now rewrite IH. }
    destruct W as [w Ew]. rewrite Ew in Z2.
    assert (Pw : Permutation w (range n)). { rewrite <- Z2. clear. induction w as [|i w IH]; [constructor|]. cbn. now constructor. }
    assert (Iw : In w (all_states (range n) n)).
    { apply all_states_spec. split; [rewrite (Permutation_length Pw); unfold range; apply seq_length|]. intros y Hy. now apply (Permutation_in _ Pw). }
    eapply Rle_trans; [apply (HL (w, (s, x))); [apply in_prod; [assumption|now apply in_prod]|assumption]|]. unfold free_prob. cbn [fst snd]. unfold Psw.
    assert (Hin : In (repeat 0 (length v)) (all_states [1; 0] (length v))).
    { apply all_states_spec. split; [apply repeat_length|]. intros y Hy. apply repeat_spec in Hy. subst. cbn. auto. }
    rewrite <- Ew. apply (sumf_in_le _ (fun b => pbits (qs n v s) b * Gs h (clusters_of n o b) (ind state_eq_dec x) s)); [|assumption].
    intros b _. apply Rmult_le_pos; [apply pbits_nonneg, qs_bounds|]. apply (Gs_nonneg n); [intros; apply ind_nonneg|now apply spin_states_spec].
Qed.

Lemma seqop_ext {X} (k : nat) : forall (Ps Ps' : nat -> (X -> R) -> X -> R) F, (forall i, (i < k)%nat -> Ps i = Ps' i) -> seqop Ps k F = seqop Ps' k F.
Proof.
  induction k as [|k IH]; intros Ps Ps' F H; [reflexivity|]. cbn [seqop]. rewrite (H 0%nat) by lia. f_equal. apply IH. intros i Hi. apply H. lia.
Qed.

Lemma Psteps_seqop os F : forall k, Psteps n h v os k F = seqop (fun i => Psw n h v (os (k - 1 - i)%nat)) k F.
Proof.
  induction k as [|k IH]; [reflexivity|]. cbn [Psteps seqop]. rewrite IH. replace (S k - 1 - 0)%nat with k by lia. f_equal. apply seqop_ext. intros i Hi. f_equal. f_equal. lia.
Qed.
End SWrate.

(** t steps of the Swendsen-Wang sampler, from any start and whatever the order in which
    Python sets are traversed: the distance to the Boltzmann expectation is at most 2 B rho^t. *)
Theorem C87_swendsen_wang : forall (h v : list R), let n := length h in (1 <= n)%nat -> length v = (n * (n - 1) / 2)%nat ->
  let E := fun s => ising_energy n (h ++ v) (map IZR s) in let states := all_states [-1; 1]%Z n in
  exists rho, 0 <= rho < 1 /\ forall (F : list Z -> R) (B : R), (forall s, In s states -> Rabs (F s) <= B) ->
    forall os, (forall k, any_order (os k)) -> forall (s : list Z) (t : nat), In s states ->
    Rabs (sw_expect os h v t F s - expectation (boltzmann E states) states F) <= 2 * B * rho ^ t.
Proof.
  intros h v n Hn Hv E states. destruct (sw_minor n h v Hn eq_refl Hv) as (eps & He & HM). exists (1 - eps). split; [lra|].
  intros F B HF os Ho s t Hs. unfold sw_expect. rewrite (Evec_steps n h v Hn eq_refl Hv); [|assumption|now apply spin_states_spec|unfold n; lia].
  rewrite Psteps_seqop by (assumption || reflexivity). unfold expectation. rewrite Rmult_comm. replace (2 * B) with (B - - B) by ring.
  apply (seqop_converges (spin_states n) (spin_states_NoDup n) (spin_states_ne n) eps (boltzmann E states)); try assumption; try lra.
  - intros i. now apply Psw_averaging.
  - intros i. apply HM. apply Ho.
  - apply boltzmann_dist, spin_states_ne.
  - intros i G. apply (boltzmann_stationary E states (Psw n h v (os (t - 1 - i)%nat))). intros G'. apply (Psw_stationary n h v Hn eq_refl Hv). apply Ho.
  - intros x Hx. apply Rabs_le_between. now apply HF.
Qed.
Print Assumptions C87_swendsen_wang.

(** ** C88 *)
Lemma rows_exp_le {X} (St : list X) Q m : averaging St Q -> forall G G' s, In s St -> (forall l, Forall (fun x => In x St) l -> length l = m -> G l <= G' l) ->
  rows_exp Q m G s <= rows_exp Q m G' s.
Proof.
  intros HQ. induction m as [|m IH]; intros G G' s Hs H; cbn [rows_exp]; [apply H; [constructor|reflexivity]|].
  apply (avg_ge St Q); [assumption| |assumption]. intros x Hx. apply IH; [assumption|]. intros l Hl Lm. apply H; [now constructor|cbn; lia].
Qed.

Lemma iter_bound {X} (St : list X) P b G c s : averaging St P -> In s St -> (forall x, In x St -> G x <= c) -> iterf b P G s <= c.
Proof.
  intros HP Hs H. destruct (avg_iter St P b HP) as (_ & _ & A3 & _). rewrite <- (A3 c s Hs). apply (avg_ge St (fun F => iterf b P F)); [now apply avg_iter|assumption|assumption].
Qed.

(** Mean square and probability of an error of a sample average. *)
Lemma sample_errors {X} (dec : forall a b : X, {a = b} + {a <> b}) (St : list X) (P : (X -> R) -> X -> R) m0 eps w F B :
  NoDup St -> St <> [] -> 0 < eps <= 1 -> (0 < m0)%nat -> averaging St P -> minor St eps (fun F => iterf m0 P F) -> dist St w ->
  (forall G, sumf St (fun x => w x * P G x) = sumf St (fun x => w x * G x)) -> (forall x, In x St -> Rabs (F x) <= B) ->
  forall b n_iters m s, (0 < n_iters)%nat -> (0 < m)%nat -> In s St ->
  let err := fun rows => sumf rows F / INR m - sumf St (fun x => w x * F x) in
  let C := 4 * (1 + 2 * INR m0 / eps) in
  iterf b P (rows_exp (fun F => iterf n_iters P F) m (fun rows => err rows ^ 2)) s <= C * B ^ 2 / INR m /\
  forall d, 0 < d -> iterf b P (rows_exp (fun F => iterf n_iters P F) m (fun rows => if Rlt_dec d (Rabs (err rows)) then 1 else 0)) s <= C * B ^ 2 / (INR m * d ^ 2).
Proof.
  intros Hnd Hne He Hm0 HA HM HW Hst HF b ni m s Hni Hm Hs err C. assert (Pm : 0 < INR m) by (now apply lt_0_INR).
  assert (K : forall x, In x St -> rows_exp (fun F => iterf ni P F) m (fun rows => err rows ^ 2) x <= C * B ^ 2 / INR m).
  { intros x Hx. eapply Rle_trans; [apply (average_converges dec St P m0 eps w F B); assumption|]. right. unfold C. field. lra. }
  assert (HQ : averaging St (fun F => iterf ni P F)) by (now apply avg_iter). split.
  - now apply (iter_bound St).
  - intros d Hd. apply (iter_bound St); [assumption|assumption|]. intros x Hx. assert (D2 : 0 < d ^ 2) by (now apply pow_lt).
    eapply Rle_trans; [apply (rows_exp_le St _ m HQ _ (fun l => / d ^ 2 * err l ^ 2 + 0 * err l ^ 2) x Hx)|].
    + intros l _ _. rewrite Rmult_0_l, Rplus_0_r. assert (S0 : 0 <= err l ^ 2) by apply pow2_ge_0. assert (I0 : 0 < / d ^ 2) by (now apply Rinv_0_lt_compat).
      destruct (Rlt_dec d (Rabs (err l))) as [L|L]; [|now apply Rmult_le_pos; [left|]].
      apply (Rmult_le_reg_l (d ^ 2)); [assumption|]. rewrite <- Rmult_assoc, Rinv_r, Rmult_1_l, Rmult_1_r by lra. rewrite <- (pow2_abs (err l)). apply pow_incr. lra.
    + rewrite (rows_exp_lin St _ m HQ (/ d ^ 2) 0 (fun l => err l ^ 2) (fun l => err l ^ 2) x Hx), Rmult_0_l, Rplus_0_r. specialize (K x Hx).
      apply Rle_trans with (/ d ^ 2 * (C * B ^ 2 / INR m)); [apply Rmult_le_compat_l; [left; now apply Rinv_0_lt_compat|assumption]|]. right. field. split; lra.
Qed.

(** The operators are determined by their values on valid states. *)
Lemma iterf_fun_ext {X} (P P' : (X -> R) -> X -> R) : (forall G s, P G s = P' G s) -> forall k G s, iterf k P G s = iterf k P' G s.
Proof. intros H. assert (E : P = P') by (apply functional_extensionality; intros G; apply functional_extensionality; intros s; apply H). now rewrite E. Qed.

(** Metropolis.generate_sample_py with random sites and a given initial row, every site
    uniform over the n sites and every uniform number over [0,1], all independent (tape
    hands out the list of these draws; z is counted for a run that raises).  The mean square error of the average of F over the
    m rows is at most C B^2 / m, and the probability of an error above d at most
    C B^2 / (m d^2); C depends on the energy only. *)
Theorem C88_ising : forall (E : list Z -> R) (n : nat), (0 < n)%nat -> let states := all_states [-1; 1]%Z n in nonconstant E states ->
  exists C, forall (F : list Z -> R) (B : R), (forall s, In s states -> Rabs (F s) <= B) ->
  forall samples s0 burn_in n_iters m c z, In s0 states -> (0 < n_iters)%nat -> (0 < m)%nat ->
  let err := fun rows => sumf rows F / INR m - expectation (boltzmann E states) states F in
  let mean := fun H => Etape (draw n) (burn_in_or burn_in n_iters + m * n_iters) (fun l =>
      match ising_generate_sample_py tape E n m n_iters burn_in false samples (Some [s0]) (l, c) with Ok r => H (g_sample r) | Err _ => z end) in
  mean (fun rows => err rows ^ 2) <= C * B ^ 2 / INR m /\
  forall d, 0 < d -> mean (fun rows => if Rlt_dec d (Rabs (err rows)) then 1 else 0) <= C * B ^ 2 / (INR m * d ^ 2).
Proof.
  intros E n Hn states NE. destruct (rs_minor E n Hn NE) as (eps & He & HM). exists (4 * (1 + 2 * INR (2 * n) / eps)).
  intros F B HF samples s0 b k m c z Hs Hk Hm err mean.
  assert (Q : forall H, mean H = iterf (burn_in_or b k) (rs_step E n) (rows_exp (fun F => iterf k (rs_step E n) F) m H) s0).
  { intros H. unfold mean, ising_generate_sample_py.
    rewrite (generate_tape (draw n) (okdraw n) (draw_ext n) E (fun s => In s states) (inext E) (fun e s He Hs => inext_ok E n e s He Hs)); [| |assumption|now apply spin_states_spec in Hs].
    - assert (EP : Pnext (draw n) (inext E) = rs_step E n) by (apply functional_extensionality; intros G; apply functional_extensionality; intros s; apply draw_next). now rewrite EP.
    - intros s [i u] l c0 H1 H2. apply (ising_tape_step E n); [now apply spin_states_spec in H1|assumption]. }
  destruct (sample_errors state_eq_dec (spin_states n) (rs_step E n) (2 * n) eps (boltzmann E states) F B (spin_states_NoDup n) (spin_states_ne n) He ltac:(lia) (rs_averaging E n Hn) HM
    (boltzmann_dist _ _ (spin_states_ne n)) (rs_stationary E n Hn) HF (burn_in_or b k) k m s0 Hk Hm Hs) as [A1 A2].
  split; [rewrite Q; exact A1|]. intros d Hd. rewrite Q. now apply A2.
Qed.
Print Assumptions C88_ising.

(** The same for the three state Potts sampler, for every energy. *)
Theorem C88_potts : forall (E : list nat -> R) (n : nat), (0 < n)%nat -> let states := all_states [0; 1; 2]%nat n in
  exists C, forall (F : list nat -> R) (B : R), (forall s, In s states -> Rabs (F s) <= B) ->
  forall samples s0 burn_in n_iters m c z, In s0 states -> (0 < n_iters)%nat -> (0 < m)%nat ->
  let err := fun rows => sumf rows F / INR m - expectation (boltzmann E states) states F in
  let mean := fun H => Etape (pdraw n) (burn_in_or burn_in n_iters + m * n_iters) (fun l =>
      match potts_generate_sample_py ptape E n m n_iters burn_in false samples (Some [s0]) (l, c) with Ok r => H (g_sample r) | Err _ => z end) in
  mean (fun rows => err rows ^ 2) <= C * B ^ 2 / INR m /\
  forall d, 0 < d -> mean (fun rows => if Rlt_dec d (Rabs (err rows)) then 1 else 0) <= C * B ^ 2 / (INR m * d ^ 2).
Proof.
  intros E n Hn states. destruct (rsp_minor E n Hn) as (eps & He & HM). exists (4 * (1 + 2 * INR (2 * n) / eps)).
  intros F B HF samples s0 b k m c z Hs Hk Hm err mean.
  assert (Q : forall H, mean H = iterf (burn_in_or b k) (rs_potts E n) (rows_exp (fun F => iterf k (rs_potts E n) F) m H) s0).
  { intros H. unfold mean, potts_generate_sample_py.
    rewrite (generate_tape (pdraw n) (okpdraw n) (pdraw_ext n) E (fun s => In s states) (pnext E) (fun e s He Hs => pnext_ok E n e s He Hs)); [| |assumption|now apply potts_states_spec in Hs].
    - assert (EP : Pnext (pdraw n) (pnext E) = rs_potts E n) by (apply functional_extensionality; intros G; apply functional_extensionality; intros s; apply pdraw_next). now rewrite EP.
    - intros s [[i r] u] l c0 H1 H2. apply (potts_tape_step E n); [now apply potts_states_spec in H1|assumption]. }
  destruct (sample_errors pstate_eq_dec (potts_states n) (rs_potts E n) (2 * n) eps (boltzmann E states) F B (potts_states_NoDup n) (potts_states_ne n) He ltac:(lia) (rsp_averaging E n Hn) HM
    (boltzmann_dist _ _ (potts_states_ne n)) (rsp_stationary E n Hn) HF (burn_in_or b k) k m s0 Hk Hm Hs) as [A1 A2].
  split; [rewrite Q; exact A1|]. intros d Hd. rewrite Q. now apply A2.
Qed.
Print Assumptions C88_potts.

Lemma boltzmann_ext {A} (E E' : A -> R) (St : list A) F : (forall s, In s St -> E s = E' s) -> expectation (boltzmann E St) St F = expectation (boltzmann E' St) St F.
Proof.
  intros H. unfold expectation. apply sumf_ext_in. intros s Hs. unfold boltzmann. rewrite (H s Hs). f_equal. f_equal. unfold partition. apply sumf_ext_in. intros x Hx. now rewrite H.
Qed.

(** The compiled Ising sampler, started from any state, when some parameter is not zero. *)
Theorem C88_boost_ising : forall (n : nat) (params : list R), (0 < n)%nat -> length params = (n + n * (n - 1) / 2)%nat ->
  (exists k, (k < length params)%nat /\ nthR params k <> 0) ->
  let E := fun s => ising_energy n params (map IZR s) in let states := all_states [-1; 1]%Z n in
  exists C, forall (F : list Z -> R) (B : R), (forall s, In s states -> Rabs (F s) <= B) ->
  forall s0 burn_in n_iters m c, In s0 states -> (0 < n_iters)%nat -> (0 < m)%nat ->
  let err := fun rows => sumf rows F / INR m - expectation (boltzmann E states) states F in
  let mean := fun H => Etape (draw n) (burn_in + m * n_iters) (fun l =>
      H (fst (cpp_generate_sample tape (cpp_sample_metropolis tape n params (coupling_mat n n params)) (cpp_calc_e n params) n m burn_in n_iters false s0 (l, c)))) in
  mean (fun rows => err rows ^ 2) <= C * B ^ 2 / INR m /\
  forall d, 0 < d -> mean (fun rows => if Rlt_dec d (Rabs (err rows)) then 1 else 0) <= C * B ^ 2 / (INR m * d ^ 2).
Proof.
  intros n params Hn Hp NZ E states. set (ce := cpp_calc_e n params).
  assert (EE : forall s, In s states -> ce s = E s).
  { intros s Hs. apply spin_states_spec in Hs. unfold ce, E. now apply cpp_calc_e_eq. }
  assert (NE : nonconstant ce states).
  { apply (energy_zero_iff n params Hp) in NZ. destruct NZ as (s & s' & Hs & Hs' & NE). exists s, s'. split; [assumption|]. split; [assumption|]. rewrite !EE by assumption. unfold E. intros Q. apply NE.
    rewrite (proj1 (C15_ising_energy n (map IZR s) params ltac:(rewrite map_length; now apply spin_states_spec in Hs) Hp)).
    now rewrite (proj1 (C15_ising_energy n (map IZR s') params ltac:(rewrite map_length; now apply spin_states_spec in Hs') Hp)). }
  destruct (rs_minor ce n Hn NE) as (eps & He & HM). exists (4 * (1 + 2 * INR (2 * n) / eps)).
  intros F B HF s0 b k m c Hs Hk Hm err mean.
  assert (Q : forall H, mean H = iterf b (rs_step ce n) (rows_exp (fun F => iterf k (rs_step ce n) F) m H) s0).
  { intros H. unfold mean. fold ce.
    rewrite (cpp_generate_tape (draw n) (okdraw n) (draw_ext n) ce (fun s => In s states) (inext ce) (fun e s He Hs => inext_ok ce n e s He Hs)); [| |assumption].
    - assert (EP : Pnext (draw n) (inext ce) = rs_step ce n) by (apply functional_extensionality; intros G; apply functional_extensionality; intros s; apply draw_next). now rewrite EP.
    - intros s [i u] l c0 H1 H2. assert (Ls : length s = n) by (now apply spin_states_spec in H1). rewrite <- (ising_tape_step ce n s i u l c0 Ls H2).
      cbn [tape randint fst]. rewrite clampi_in by apply H2. rewrite cpp_sample_metropolis_eq; [|apply H2|assumption].
      unfold sample_metropolis at 2. cbn [tape randint fst]. rewrite Ls, clampi_in by apply H2. reflexivity. }
  destruct (sample_errors state_eq_dec (spin_states n) (rs_step ce n) (2 * n) eps (boltzmann ce states) F B (spin_states_NoDup n) (spin_states_ne n) He ltac:(lia) (rs_averaging ce n Hn) HM
    (boltzmann_dist _ _ (spin_states_ne n)) (rs_stationary ce n Hn) HF b k m s0 Hk Hm Hs) as [A1 A2].
  change (sumf (spin_states n) (fun x => boltzmann ce states x * F x)) with (expectation (boltzmann ce states) states F) in A1, A2. rewrite (boltzmann_ext ce E states F EE) in A1.
  split; [rewrite Q; exact A1|]. intros d Hd. rewrite Q. specialize (A2 d Hd). cbv beta zeta in A2. rewrite (boltzmann_ext ce E states F EE) in A2. exact A2.
Qed.
Print Assumptions C88_boost_ising.

(** The compiled Potts sampler. *)
Theorem C88_boost_potts : forall (n : nat) (params : list R), (0 < n)%nat -> length params = (3 * n + n * (n - 1) / 2)%nat ->
  let E := fun s => potts_energy n 3 params s in let states := all_states [0; 1; 2]%nat n in
  exists C, forall (F : list nat -> R) (B : R), (forall s, In s states -> Rabs (F s) <= B) ->
  forall s0 burn_in n_iters m c, In s0 states -> (0 < n_iters)%nat -> (0 < m)%nat ->
  let err := fun rows => sumf rows F / INR m - expectation (boltzmann E states) states F in
  let mean := fun H => Etape (pdraw n) (burn_in + m * n_iters) (fun l =>
      H (fst (cpp_generate_sample ptape (cpp_potts_sample_metropolis ptape n params (coupling_mat n (3 * n) params)) (cpp_potts_calc_e n params) n m burn_in n_iters false s0 (l, c)))) in
  mean (fun rows => err rows ^ 2) <= C * B ^ 2 / INR m /\
  forall d, 0 < d -> mean (fun rows => if Rlt_dec d (Rabs (err rows)) then 1 else 0) <= C * B ^ 2 / (INR m * d ^ 2).
Proof.
  intros n params Hn Hp E states. set (ce := cpp_potts_calc_e n params).
  assert (EE : forall s, In s states -> ce s = E s).
  { intros s Hs. apply potts_states_spec in Hs. unfold ce, E. apply cpp_potts_calc_e_eq; [assumption|apply Hs|apply Hs]. }
  destruct (rsp_minor ce n Hn) as (eps & He & HM). exists (4 * (1 + 2 * INR (2 * n) / eps)).
  intros F B HF s0 b k m c Hs Hk Hm err mean.
  assert (Q : forall H, mean H = iterf b (rs_potts ce n) (rows_exp (fun F => iterf k (rs_potts ce n) F) m H) s0).
  { intros H. unfold mean. fold ce.
    rewrite (cpp_generate_tape (pdraw n) (okpdraw n) (pdraw_ext n) ce (fun s => In s states) (pnext ce) (fun e s He Hs => pnext_ok ce n e s He Hs)); [| |assumption].
    - assert (EP : Pnext (pdraw n) (pnext ce) = rs_potts ce n) by (apply functional_extensionality; intros G; apply functional_extensionality; intros s; apply pdraw_next). now rewrite EP.
    - intros s [[i r] u] l c0 H1 H2. assert (Ls : length s = n) by (now apply potts_states_spec in H1). rewrite <- (potts_tape_step ce n s i r u l c0 Ls H2).
      cbn [ptape randint fst Nat.eqb]. rewrite clampi_in by apply H2. rewrite cpp_potts_sample_metropolis_eq; [|apply ptape_ok|apply H2|assumption|now apply potts_states_spec in H1].
      unfold potts_sample_metropolis at 2. cbn [ptape randint fst Nat.eqb]. rewrite Ls, clampi_in by apply H2. reflexivity. }
  destruct (sample_errors pstate_eq_dec (potts_states n) (rs_potts ce n) (2 * n) eps (boltzmann ce states) F B (potts_states_NoDup n) (potts_states_ne n) He ltac:(lia) (rsp_averaging ce n Hn) HM
    (boltzmann_dist _ _ (potts_states_ne n)) (rsp_stationary ce n Hn) HF b k m s0 Hk Hm Hs) as [A1 A2].
  change (sumf (potts_states n) (fun x => boltzmann ce states x * F x)) with (expectation (boltzmann ce states) states F) in A1, A2. rewrite (boltzmann_ext ce E states F EE) in A1.
  split; [rewrite Q; exact A1|]. intros d Hd. rewrite Q. specialize (A2 d Hd). cbv beta zeta in A2. rewrite (boltzmann_ext ce E states F EE) in A2. exact A2.
Qed.
Print Assumptions C88_boost_potts.

(** ** Examples *)
(** Two spins with fields 0 and coupling 1: the correlation of long runs approaches that of
    the Boltzmann distribution, tanh 1, from every start; averages over samples do so at
    rate 1/m, the sampler being started from (1,1) (a burn-in of 0 is replaced by n_iters). *)
Example C87_example : let E := fun s => ising_calc_e_row (map IZR s) [0; 0; 1] in let states := all_states [-1; 1]%Z 2 in
  let F := fun s => IZR (spin_product s) in
  expectation (boltzmann E states) states F = (exp 1 - exp (-1)) / (exp 1 + exp (-1)) /\
  (forall s, In s states -> is_lim_seq (fun t => Erun E 2 (repeat None t) F s (E s)) ((exp 1 - exp (-1)) / (exp 1 + exp (-1)))) /\
  (exists rho, 0 <= rho < 1 /\ forall t, Rabs (Erun E 2 (repeat None t) F [1; 1]%Z (E [1; 1]%Z) - (exp 1 - exp (-1)) / (exp 1 + exp (-1))) <= 2 * 1 * rho ^ (t / 4)).
Proof.
  intros E states F.
  assert (E1 : E [1; 1]%Z = -1) by (unfold E, ising_calc_e_row, fast_sum_row; cbn; unfold nthR; cbn; lra). assert (E2 : E [-1; -1]%Z = -1) by (unfold E, ising_calc_e_row, fast_sum_row; cbn; unfold nthR; cbn; lra).
  assert (E3 : E [-1; 1]%Z = 1) by (unfold E, ising_calc_e_row, fast_sum_row; cbn; unfold nthR; cbn; lra). assert (E4 : E [1; -1]%Z = 1) by (unfold E, ising_calc_e_row, fast_sum_row; cbn; unfold nthR; cbn; lra).
  assert (I1 : In [1; 1]%Z states) by (cbn; auto). assert (I3 : In [-1; 1]%Z states) by (cbn; auto).
  assert (NC : nonconstant E states) by (exists [1; 1]%Z, [-1; 1]%Z; repeat split; [assumption|assumption|lra]).
  assert (EV : expectation (boltzmann E states) states F = (exp 1 - exp (-1)) / (exp 1 + exp (-1))).
  { assert (P1 := exp_pos 1). assert (P2 := exp_pos (-1)). unfold expectation, boltzmann, partition, states, F, spin_product. change (all_states [-1; 1]%Z 2) with [[-1; -1]; [-1; 1]; [1; -1]; [1; 1]]%Z. unfold sumf, sumR. cbn [map fold_right].
    rewrite E1, E2, E3, E4. cbn [fold_right Z.mul Pos.mul]. replace (- -1) with 1 by lra. cbn. replace (- (1)) with (-1) by lra. generalize dependent (exp 1). generalize dependent (exp (-1)). intros. field. lra. }
  split; [assumption|]. split.
  - intros s Hs. rewrite <- EV. revert s Hs. apply (C87_ising_iff E 2 ltac:(lia)). assumption.
  - destruct (C87_ising_rate E 2 ltac:(lia) NC) as (rho & Hr & H). exists rho. split; [assumption|]. intros t. rewrite <- EV. apply (H F 1); [|assumption].
    intros s Hs. cbn in Hs. unfold F. repeat (destruct Hs as [<-|Hs]; [cbn; unfold Rabs; destruct (Rcase_abs _); lra|]). destruct Hs.
Qed.

Example C88_example : let E := fun s => ising_calc_e_row (map IZR s) [0; 0; 1] in
  exists C, forall m, (0 < m)%nat -> forall d, 0 < d ->
  Etape (draw 2) (10 + m * 10) (fun l => match ising_generate_sample_py tape E 2 m 10 (Some 0%nat) false None (Some [[1; 1]%Z]) (l, (0%nat, 0)) with
    | Ok r => if Rlt_dec d (Rabs (sumf (g_sample r) (fun s => IZR (spin_product s)) / INR m - (exp 1 - exp (-1)) / (exp 1 + exp (-1)))) then 1 else 0
    | Err _ => 1 end) <= C / (INR m * d ^ 2).
Proof.
  intros E. set (F := fun s => IZR (spin_product s)).
  destruct C87_example as [EV _]. fold E F in EV. cbv zeta in EV.
  assert (NC : nonconstant E (all_states [-1; 1]%Z 2)).
  { exists [1; 1]%Z, [-1; 1]%Z. cbn [all_states flat_map map app In]. repeat split; [auto|auto|]. unfold E, ising_calc_e_row, fast_sum_row. cbn. unfold nthR. cbn. lra. }
  destruct (C88_ising E 2 ltac:(lia) NC) as (C & H). exists (C * 1 ^ 2). intros m Hm d Hd.
  assert (HF : forall s, In s (all_states [-1; 1]%Z 2) -> Rabs (F s) <= 1).
  { intros s Hs. cbn in Hs. unfold F. repeat (destruct Hs as [<-|Hs]; [cbn; unfold Rabs; destruct (Rcase_abs _); lra|]). destruct Hs. }
  destruct (H F 1 HF None [1; 1]%Z (Some 0%nat) 10%nat m (0%nat, 0) 1 ltac:(cbn; auto) ltac:(lia) Hm) as [_ K]. specialize (K d Hd). cbv beta zeta in K. rewrite EV in K. exact K.
Qed.
