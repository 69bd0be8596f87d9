(** * Potts models: what correlations and pseudolikelihoods determine (C117, C118). *)
From Coquelicot Require Import Coquelicot.
From Coq Require ClassicalEpsilon.
From Verif Require Import Prelude Spec PreludeFacts M_Index M_Params M_Energy M_Corr M_Enum M_Models M_Pseudo M_PottsSolve P_Index P_Unravel P_Energy P_Energy2 P_Params P_MaxEnt P_Unique P_EnumPotts P_Models P_Pseudo4 P_PottsGauge Props_Energy Props_Enum Props_Models Props_Pseudo Props_Pseudo2.
From Verif Require Props_Incomplete.
Import ListNotations.
Local Open Scope R_scope.

(** ** Adding a constant to the fields of one spin *)
Definition shift_spin (n k i : nat) (c : R) (p : list R) : list R :=
  map (fun j => nthR p j + (if Nat.ltb j (k * n) && Nat.eqb (j mod n) i then c else 0)) (seq 0 (length p)).

Lemma shift_length n k i c p : length (shift_spin n k i c p) = length p.
Proof. unfold shift_spin. now rewrite map_length, seq_length. Qed.

Lemma shift_nth n k i c p j : (j < length p)%nat -> nthR (shift_spin n k i c p) j = nthR p j + (if Nat.ltb j (k * n) && Nat.eqb (j mod n) i then c else 0).
Proof. intros Hj. unfold shift_spin, nthR at 1. rewrite nth_map_seq by exact Hj. reflexivity. Qed.

Lemma field_mod n v i : (i < n)%nat -> ((v * n + i) mod n = i)%nat.
Proof. intros Hi. rewrite Nat.add_comm, Nat.mod_add by lia. now apply Nat.mod_small. Qed.

Lemma shift_field n k i c p j v : length p = (k * n + n * (n - 1) / 2)%nat -> (j < n)%nat -> (v < k)%nat ->
  nthR (shift_spin n k i c p) (v * n + j) = nthR p (v * n + j) + (if Nat.eqb j i then c else 0).
Proof.
  intros Hp Hj Hv. rewrite shift_nth by (rewrite Hp; nia). rewrite field_mod by exact Hj. destruct (Nat.ltb_spec (v * n + j) (k * n)); [reflexivity|nia].
Qed.

Lemma shift_same n k i c p : length p = (k * n + n * (n - 1) / 2)%nat -> potts_same n k (shift_spin n k i c p) p.
Proof.
  intros Hp. split.
  - intros a b Hab Hb. pose proof (pair_index_lt n a b Hab Hb). rewrite shift_nth by lia. destruct (Nat.ltb_spec (k * n + pair_index n a b) (k * n)); [lia|]. cbn [andb]. ring.
  - intros a v w Ha Hv Hw. rewrite !shift_field by assumption. ring.
Qed.

(** ** C117 *)
(** Two parameter vectors give the same probabilities of all states exactly if they have the
    same couplings and, for every spin, fields that differ by a constant. *)
Theorem C117_same_distribution : forall (n k : nat) (p q : list R), (2 <= k)%nat ->
  let states := all_states (seq 0 k) n in
  (forall x, In x states -> boltzmann (potts_energy n k p) states x = boltzmann (potts_energy n k q) states x) <-> potts_same n k p q.
Proof. intros n k p q Hk states. symmetry. now apply same_iff_boltzmann. Qed.
Print Assumptions C117_same_distribution.

(** The written function calc_observables of the Potts file. *)
Definition potts_file_observables (logest : nat -> nat -> nat) (n k : nat) (params : list R) : list R :=
  match write_potts logest n k with
  | Ok f => match run_potts_observables f params with Ok C => map nan_to_0 C | Err _ => [] end
  | Err _ => []
  end.

(** Hypothesis on the float logarithm, as in C23. *)
Definition log_ok (logest : nat -> nat -> nat) (n k : nat) : Prop :=
  forall i e, (0 < i < k ^ n)%nat -> is_floor_log k i e ->
     logest i k = e \/ (logest i k + 1 = e /\ i < k ^ e + k ^ (logest i k))%nat.

Section File.
Variables (logest : nat -> nat -> nat) (n k : nat).
Hypothesis Hn : (2 < n)%nat.
Hypothesis Hk : (2 <= k <= 10)%nat.
Hypothesis Hlog : log_ok logest n k.
Let states := all_states (seq 0 k) n.

Lemma file_obs_ok p : length p = (n * k + n * (n - 1) / 2)%nat ->
  length (potts_file_observables logest n k p) = length p /\
  forall c, (c < length p)%nat -> nthR (potts_file_observables logest n k p) c =
    expectation (boltzmann (potts_energy n k p) states) states (fun s => nthR (potts_obs k s) c).
Proof using Hn Hk Hlog.
  intros Hp. destruct (C23_potts_file logest n k p Hn Hk Hlog Hp) as (f & P & C & E1 & _ & _ & _ & _ & E2 & LC & HC & _).
  unfold potts_file_observables. rewrite E1, E2. rewrite map_map. cbn [nan_to_0]. rewrite map_id. split; [exact LC|]. intros c Hc. apply HC. lia.
Qed.

Lemma states_ne : states <> [].
Proof using Hn Hk.
  intros H. apply (f_equal (@length _)) in H. unfold states in H. rewrite all_states_length, seq_length in H. cbn in H. pose proof (Nat.pow_nonzero k n). lia.
Qed.

Lemma same_obs p q : length p = (n * k + n * (n - 1) / 2)%nat -> length q = length p ->
  potts_file_observables logest n k p = potts_file_observables logest n k q <-> potts_same n k p q.
Proof using Hn Hk Hlog.
  intros Hp Hq. destruct (file_obs_ok p Hp) as [Lp Fp]. destruct (file_obs_ok q ltac:(congruence)) as [Lq Fq]. split.
  - intros H. apply C117_same_distribution; [lia|]. fold states.
    assert (Ho : forall s, In s states -> length (potts_obs k s) = length p).
    { intros s Hs. apply all_states_k in Hs. destruct Hs as [Hs _]. rewrite (potts_obs_as_fns n k s Hs), map_length, potts_obs_fns_length. lia. }
    assert (EE : forall (w : list nat -> R) (r : list R), length r = length p ->
      expectation w states (potts_energy n k r) = expectation w states (fun s => - dot (potts_obs k s) r)).
    { intros w r Hr. apply sumf_ext_in. intros s Hs. f_equal. apply all_states_k in Hs. destruct Hs as [Hs Vs]. rewrite (potts_obs_dot n k) by (auto; lia). ring. }
    assert (G : forall r, length r = length p -> expectation (boltzmann (potts_energy n k p) states) states (potts_energy n k r) =
      expectation (boltzmann (potts_energy n k q) states) states (potts_energy n k r)).
    { intros r Hr. rewrite !EE by exact Hr. rewrite !(expectation_dot _ states (potts_obs k) r _ Hr Ho). f_equal. apply sumf_ext_in.
      intros c Hc. apply in_seq in Hc. f_equal. rewrite <- Fp, <- Fq by lia. now rewrite H. }
    exact (boltzmann_unique (potts_energy n k p) (potts_energy n k q) states states_ne (G p eq_refl) (G q Hq)).
  - intros H. pose proof (proj2 (C117_same_distribution n k p q ltac:(lia)) H) as B. fold states in B. cbv zeta in B.
    apply (list_eq_nth 0); [congruence|]. intros c Hc. rewrite Lp in Hc. change (nthR (potts_file_observables logest n k p) c = nthR (potts_file_observables logest n k q) c).
    rewrite Fp, Fq by lia. apply sumf_ext_in. intros s Hs. now rewrite B.
Qed.

Lemma same_p p q f : length p = (n * k + n * (n - 1) / 2)%nat -> length q = length p -> write_potts logest n k = Ok f ->
  potts_same n k p q -> run_potts_p f p = run_potts_p f q.
Proof using Hn Hk Hlog.
  intros Hp Hq Ef H. pose proof (proj2 (C117_same_distribution n k p q ltac:(lia)) H) as B. fold states in B. cbv zeta in B.
  destruct (C23_potts_file logest n k p Hn Hk Hlog Hp) as (f1 & P1 & C1 & E1 & R1 & -> & _).
  destruct (C23_potts_file logest n k q Hn Hk Hlog ltac:(congruence)) as (f2 & P2 & C2 & E2 & R2 & -> & _).
  rewrite Ef in E1, E2. injection E1 as <-. injection E2 as <-. rewrite R1, R2. do 2 f_equal. apply map_ext_in. exact B.
Qed.
End File.

(** Enumerate on a Potts model: with the correlations of the parameters hJ as constraints, the
    function whose root is sought vanishes exactly at the parameter vectors (within the bound)
    that agree with hJ up to constants; they all give the probabilities of hJ. *)
Theorem C117_enumerate : forall (logest : nat -> nat -> nat) (n k : nat) (max : option R) (hJ params : list R) f,
  (2 < n)%nat -> (2 <= k <= 10)%nat -> log_ok logest n k ->
  length hJ = (n * k + n * (n - 1) / 2)%nat -> length params = length hJ -> write_potts logest n k = Ok f ->
  let c := potts_file_observables logest n k hJ in
  (enumerate_root_f (potts_file_observables logest n k) max c params = Ok (map (fun _ => 0) c) <->
     (forall m x, max = Some m -> In x params -> Rabs x <= m) /\ potts_same n k params hJ) /\
  (enumerate_root_f (potts_file_observables logest n k) max c params = Ok (map (fun _ => 0) c) -> run_potts_p f params = run_potts_p f hJ).
Proof.
  intros logest n k max hJ params f Hn Hk Hl Hh Hp Ef c. destruct (file_obs_ok logest n k Hn Hk Hl hJ Hh) as [Lc _]. fold c in Lc.
  destruct (file_obs_ok logest n k Hn Hk Hl params ltac:(congruence)) as [Lp _].
  assert (I : enumerate_root_f (potts_file_observables logest n k) max c params = Ok (map (fun _ => 0) c) <->
     (forall m x, max = Some m -> In x params -> Rabs x <= m) /\ potts_same n k params hJ).
  { unfold enumerate_root_f. split.
    - destruct (exceeds max params) eqn:Ex.
      + intros H. injection H as H. apply big_not_zero in H; [destruct H|]. intros E. rewrite E in Lc. cbn in Lc. rewrite Hh in Lc. nia.
      + intros H. apply vsub_zero in H; [|congruence]. split.
        * intros m x -> Hx. exact (proj1 (exceeds_spec m params) Ex x Hx).
        * now apply (same_obs logest n k Hn Hk Hl); [congruence|congruence|].
    - intros [H1 H2]. assert (Ex : exceeds max params = false).
      { destruct max as [m|]; [|reflexivity]. apply exceeds_spec. intros x Hx. now apply (H1 m). }
      rewrite Ex. apply vsub_zero; [congruence|]. apply (same_obs logest n k Hn Hk Hl); [congruence|congruence|exact H2]. }
  split; [exact I|]. intros H. apply I in H. now apply (same_p logest n k Hn Hk Hl); [congruence|congruence| |].
Qed.
Print Assumptions C117_enumerate.

(** "Enumerate gives back the parameters of a Potts model" does not hold: for every model there
    is another vector that solves the equations (here the fields of the first spin are all
    larger by 1), so that the equations have no isolated solution. *)
Theorem C117_recovers_refuted : forall (logest : nat -> nat -> nat) (n k : nat) (hJ : list R),
  (2 < n)%nat -> (2 <= k <= 10)%nat -> log_ok logest n k -> length hJ = (n * k + n * (n - 1) / 2)%nat ->
  let c := potts_file_observables logest n k hJ in
  forall t, exists params, length params = length hJ /\ nthR params 0 = nthR hJ 0 + t /\
    enumerate_root_f (potts_file_observables logest n k) None c params = Ok (map (fun _ => 0) c).
Proof.
  intros logest n k hJ Hn Hk Hl Hh c t. exists (shift_spin n k 0 t hJ).
  destruct (C23_potts_file logest n k hJ Hn Hk Hl Hh) as (f & _ & _ & Ef & _).
  split; [apply shift_length|]. split.
  - pose proof (shift_field n k 0 t hJ 0 0 ltac:(lia) ltac:(lia) ltac:(lia)) as E. cbn in E. exact E.
  - apply (C117_enumerate logest n k None hJ _ f Hn Hk Hl Hh (shift_length _ _ _ _ _) Ef). split; [discriminate|]. apply shift_same. lia.
Qed.
Print Assumptions C117_recovers_refuted.

(** Three spins with three states: the vectors of the theorems exist; the float logarithm may
    be the exact one. *)
Example C117_example : exists logest, log_ok logest 3 3 /\ length [1; 0; 0; 0; 2; 0; 0; 0; 3; 1; -1; 2]%R = (3 * 3 + 3 * (3 - 1) / 2)%nat /\
  (exists f, write_potts logest 3 3 = Ok f) /\
  shift_spin 3 3 0 5 [1; 0; 0; 0; 2; 0; 0; 0; 3; 1; -1; 2] <> [1; 0; 0; 0; 2; 0; 0; 0; 3; 1; -1; 2].
Proof.
  assert (Hl : log_ok (fun i k => if Nat.ltb i 3 then 0 else if Nat.ltb i 9 then 1 else 2)%nat 3 3).
  { intros i e Hi [H1 H2]. left. destruct (Nat.ltb_spec i 3), (Nat.ltb_spec i 9); cbn in Hi.
    - destruct e; [reflexivity|]. cbn in H1. pose proof (Nat.pow_nonzero 3 e). lia.
    - lia.
    - destruct e as [|[|e]]; cbn in H1, H2; [lia|reflexivity|]. pose proof (Nat.pow_nonzero 3 e). lia.
    - destruct e as [|[|[|e]]]; cbn in H1, H2; [lia|lia|reflexivity|]. pose proof (Nat.pow_nonzero 3 e). lia. }
  eexists. split; [exact Hl|]. split; [reflexivity|]. split.
  - destruct (C23_potts_file _ 3 3 (repeat 0 12) ltac:(lia) ltac:(lia) Hl eq_refl) as (f & _ & _ & E & _). exists f. exact E.
  - intros H. apply (f_equal (fun l => nthR l 0)) in H. unfold shift_spin, nthR in H. cbn in H. lra.
Qed.

(** ** C118 *)
(** The frequencies in the sample are exactly the probabilities of the Potts model hJ. *)
Definition exact_potts (n k : nat) (hJ : list R) (sample : list (list nat)) : Prop :=
  let states := all_states (seq 0 k) n in
  sample <> [] /\ (forall x, In x sample -> In x states) /\
  forall x, In x states -> frequency (list_eq_dec Nat.eq_dec) sample x = boltzmann (potts_energy n k hJ) states x.

Section Exact.
Variables (n k : nat) (hJ : list R) (sample : list (list nat)).
Hypothesis Hk : (2 <= k)%nat.
Hypothesis Hex : exact_potts n k hJ sample.
Let states := all_states (seq 0 k) n.

Lemma exact_weight : exists W, 0 < W /\ forall x, In x states -> INR (count_occ (list_eq_dec Nat.eq_dec) sample x) = W * exp (- potts_energy n k hJ x).
Proof using Hk Hex.
  destruct Hex as (Hne & Hin & H). fold states in Hin, H. set (Z := partition (potts_energy n k hJ) states).
  assert (LP : 0 < INR (length sample)) by (apply lt_0_INR; destruct sample; [congruence|cbn; lia]).
  assert (ne : states <> []) by (intros E; destruct sample as [|x l]; [congruence|]; specialize (Hin x (or_introl eq_refl)); rewrite E in Hin; destruct Hin).
  assert (ZP : 0 < Z) by (apply partition_pos; exact ne).
  exists (INR (length sample) / Z). split; [now apply Rdiv_lt_0_compat|]. intros x Hx. specialize (H x Hx). unfold boltzmann, frequency in H. fold Z in H.
  replace (INR (count_occ (list_eq_dec Nat.eq_dec) sample x)) with (INR (count_occ (list_eq_dec Nat.eq_dec) sample x) / INR (length sample) * INR (length sample)) by (field; lra).
  rewrite H. field. lra.
Qed.

Lemma pl_weights W p r : (forall x, In x states -> INR (count_occ (list_eq_dec Nat.eq_dec) sample x) = W * exp (- potts_energy n k hJ x)) ->
  neg_log_pl_potts n k p sample r = W * sumf states (fun x => exp (- potts_energy n k hJ x) * - ln (cond_prob (potts_energy n k p) (seq 0 k) x r (nth r x 0%nat))).
Proof using Hk Hex.
  intros HW. unfold neg_log_pl_potts. rewrite <- sumf_opp.
  rewrite <- (Props_Incomplete.sumf_count (list_eq_dec Nat.eq_dec) states); [|apply all_states_NoDup, seq_NoDup|apply Hex].
  rewrite <- sumf_scal_l. apply sumf_ext_in. intros x Hx. rewrite HW by exact Hx. ring.
Qed.

Lemma exact_spin p r : (r < n)%nat -> neg_log_pl_potts n k hJ sample r <= neg_log_pl_potts n k p sample r /\
  (neg_log_pl_potts n k p sample r = neg_log_pl_potts n k hJ sample r ->
   forall x v, In x states -> (v < k)%nat -> cond_prob (potts_energy n k p) (seq 0 k) x r v = cond_prob (potts_energy n k hJ) (seq 0 k) x r v).
Proof using Hk Hex.
  intros Hr. destruct exact_weight as (W & PW & HW). rewrite !(pl_weights W _ r HW).
  assert (ne : seq 0 k <> []) by (destruct k; [lia|discriminate]).
  destruct (cond_gibbs (seq 0 k) n r (potts_energy n k hJ) (potts_energy n k p) Hr ne 0%nat) as [A B]. fold states in A, B. split.
  - apply Rmult_le_compat_l; [lra|exact A].
  - intros E x v Hx Hv. apply Rmult_eq_reg_l in E; [|lra]. apply B; [exact E|exact Hx|apply in_seq; lia].
Qed.

End Exact.

(** Parameters that agree up to constants have the same likelihoods. *)
Lemma same_pl n k p q sample' r : (2 <= k)%nat -> potts_same n k p q -> (r < n)%nat -> (forall x, In x sample' -> In x (all_states (seq 0 k) n)) ->
  neg_log_pl_potts n k p sample' r = neg_log_pl_potts n k q sample' r.
Proof.
  intros Hk H Hr Hin. destruct (same_energy n k p q H ltac:(lia)) as [c Hc]. unfold neg_log_pl_potts. f_equal. apply sumf_ext_in. intros x Hx. f_equal.
  specialize (Hin x Hx). pose proof (proj1 (all_states_k n k x) Hin) as [Lx Vx].
  assert (U : forall v, (v < k)%nat -> exp (- potts_energy n k p (upd x r v)) = exp (- potts_energy n k q (upd x r v)) * exp (- c)).
  { intros v Hv. rewrite Hc by (apply in_all_states_upd; [exact Hin|apply in_seq; lia]). rewrite <- exp_plus. f_equal. ring. }
  unfold cond_prob. rewrite (sumf_ext_in (seq 0 k) (fun w => exp (- potts_energy n k p (upd x r w))) (fun w => exp (- potts_energy n k q (upd x r w)) * exp (- c))) by (intros w Hw; apply in_seq in Hw; apply U; lia).
  rewrite sumf_scal_r, U by (apply Vx, nth_In; lia).
  assert (0 < sumf (seq 0 k) (fun w => exp (- potts_energy n k q (upd x r w)))) by (apply sumf_pos; [destruct k; [lia|discriminate]|intros; apply exp_pos]).
  pose proof (exp_pos (- c)). field. lra.
Qed.

(** With exact data the true parameters maximise the pseudolikelihood, and so do exactly the
    vectors that agree with them up to a constant per spin, that is, those with the true
    probabilities of all states. *)
Theorem C118_maximum : forall (n k : nat) (hJ p : list R) (sample : list (list nat)), (2 <= k)%nat -> exact_potts n k hJ sample ->
  let L := fun p => sumf (seq 0 n) (neg_log_pl_potts n k p sample) in
  let states := all_states (seq 0 k) n in
  L hJ <= L p /\ (L p = L hJ <-> potts_same n k p hJ) /\
  (L p = L hJ <-> forall x, In x states -> boltzmann (potts_energy n k p) states x = boltzmann (potts_energy n k hJ) states x).
Proof.
  intros n k hJ p sample Hk Hex L states.
  assert (A : forall r, In r (seq 0 n) -> neg_log_pl_potts n k hJ sample r <= neg_log_pl_potts n k p sample r).
  { intros r Hr. apply in_seq in Hr. apply (exact_spin n k hJ sample Hk Hex p r). lia. }
  assert (I : L p = L hJ <-> potts_same n k p hJ).
  { split.
    - intros E. apply site_free_same; [exact Hk|]. intros x r v w Hx Hr Hv Hw.
      assert (Er : neg_log_pl_potts n k p sample r = neg_log_pl_potts n k hJ sample r).
      { assert (N : forall a, In a (seq 0 n) -> 0 <= neg_log_pl_potts n k p sample a - neg_log_pl_potts n k hJ sample a) by (intros a Ha; specialize (A a Ha); lra).
        assert (Z : sumf (seq 0 n) (fun a => neg_log_pl_potts n k p sample a - neg_log_pl_potts n k hJ sample a) = 0) by (rewrite sumf_minus; unfold L in E; lra).
        pose proof (sumf_nonneg_zero _ _ N Z r ltac:(apply in_seq; lia)). cbn beta in *. lra. }
      pose proof (proj2 (exact_spin n k hJ sample Hk Hex p r Hr) Er x) as C.
      destruct (cond_eq_energy (seq 0 k) (potts_energy n k p) (potts_energy n k hJ) x r) as [c Hc].
      { destruct k; [lia|discriminate]. }
      { intros u Hu. apply in_seq in Hu. apply C; [exact Hx|lia]. }
      rewrite !Hc by (apply in_seq; lia). ring.
    - intros H. unfold L. apply sumf_ext_in. intros r Hr. apply in_seq in Hr. apply same_pl; [exact Hk|exact H|lia|apply Hex]. }
  split; [now apply sumf_le|]. split; [exact I|]. rewrite I. symmetry. now apply C117_same_distribution.
Qed.
Print Assumptions C118_maximum.

Section Solver.
Variables (n k : nat) (sample : list (list nat)).
Hypothesis Hs : forall x, In x sample -> length x = n /\ forall v, In v x -> (v < k)%nat.
Let m := (k * n + n * (n - 1) / 2)%nat.
Let obj (cost : list R -> R) (jac : list R -> list R) := pseudo_potts_f (pseudo_potts_get_multipliers_r n k) (pseudo_potts_calc_observables_r n k) n k m sample cost jac.

Lemma potts_value cost jac p : length p = m -> exists grad, obj cost jac p = Ok (sumf (seq 0 n) (neg_log_pl_potts n k p sample) + cost p, grad) /\ length grad = m.
Proof using Hs.
  intros Hp. destruct (potts_f_ok n k sample p Hs Hp cost jac) as (grad & E & Lg & _). exists grad. unfold obj. rewrite <- Hp. rewrite E. split; [|exact Lg].
  do 3 f_equal. apply sumf_ext_in. intros r Hr. apply in_seq in Hr. unfold neg_log_pl_potts. rewrite <- sumf_opp. apply sumf_ext_in. intros x Hx.
  destruct (Hs x Hx). apply potts_D_cond; [lia|assumption|assumption].
Qed.
End Solver.

(** With exact data, no cost function and a minimiser that finds a minimum when there is one,
    the solver returns the true couplings and the true fields up to a constant per spin;
    the fitted model has the true probabilities. *)
Theorem C118_solver : forall (n k nobs : nat) (hJ : list R) (sample : list (list nat)) (guess : option (list R)) minimize,
  let m := (k * n + n * (n - 1) / 2)%nat in
  let states := all_states (seq 0 k) n in
  (2 <= k)%nat -> nobs = m -> length hJ = m -> (forall g, guess = Some g -> length g = m) -> exact_potts n k hJ sample -> finds_minimum minimize ->
  exists p, solve_potts (pseudo_potts_get_multipliers_r n k) (pseudo_potts_calc_observables_r n k) n k nobs sample guess None minimize = Ok p /\
    length p = m /\ potts_same n k p hJ /\
    forall x, In x states -> boltzmann (potts_energy n k p) states x = boltzmann (potts_energy n k hJ) states x.
Proof.
  intros n k nobs hJ sample guess minimize m states Hk Hm Hh Hg Hex Hmin. subst nobs.
  assert (Hs : forall x, In x sample -> length x = n /\ forall v, In v x -> (v < k)%nat) by (intros x Hx; apply all_states_k, Hex, Hx).
  unfold solve_potts. set (g := match guess with Some g => g | None => repeat 0 m end).
  assert (Lg : length g = m) by (unfold g; destruct guess; [now apply Hg|apply repeat_length]).
  assert (Eg : match guess, sample with Some g, _ => Ok g | None, [] => Err IndexError | None, _ => Ok (repeat 0 m) end = Ok g).
  { unfold g. destruct guess; [reflexivity|]. destruct sample; [now destruct Hex as (H & _)|reflexivity]. }
  rewrite Eg. cbn [bind fst snd]. rewrite Lg.
  set (f := pseudo_potts_f _ _ n k m sample _ _).
  assert (V : forall y, length y = m -> exists gr, f y = Ok (sumf (seq 0 n) (neg_log_pl_potts n k y sample) + 0, gr)).
  { intros y Hy. destruct (potts_value n k sample Hs (fun _ => 0) (fun _ => []) y Hy) as (gr & E & _). exists gr. exact E. }
  assert (M : pl_minimum f (length g) hJ).
  { rewrite Lg. split; [exact Hh|]. destruct (V hJ Hh) as [gr E]. do 2 eexists. split; [exact E|]. intros z Hz. destruct (V z Hz) as [gz Ez].
    do 2 eexists. split; [exact Ez|]. pose proof (proj1 (C118_maximum n k hJ z sample Hk Hex)). lra. }
  apply Hmin in M. destruct M as (Lm & v & gr & Em & Min). rewrite Lg in Lm, Min. set (p := minimize f g) in *. exists p. split; [reflexivity|]. split; [exact Lm|].
  destruct (V p Lm) as [g1 E1]. rewrite E1 in Em. injection Em as Ev _. destruct (Min hJ Hh) as (w & g2 & E2 & Hw). destruct (V hJ Hh) as [g3 E3]. rewrite E3 in E2. injection E2 as E2 _.
  destruct (C118_maximum n k hJ p sample Hk Hex) as (A & B & C). assert (Eq : sumf (seq 0 n) (neg_log_pl_potts n k p sample) = sumf (seq 0 n) (neg_log_pl_potts n k hJ sample)) by lra.
  split; [now apply B|now apply C].
Qed.
Print Assumptions C118_solver.

(** "The solver gives back the fields" does not hold: for every t there is a minimiser that
    finds minima and with which the first field is larger than the true one by t. *)
Theorem C118_fields_refuted : forall (n k nobs : nat) (hJ : list R) (sample : list (list nat)) (t : R),
  let m := (k * n + n * (n - 1) / 2)%nat in
  (2 <= k)%nat -> (1 <= n)%nat -> nobs = m -> length hJ = m -> exact_potts n k hJ sample ->
  exists minimize p, finds_minimum minimize /\
    solve_potts (pseudo_potts_get_multipliers_r n k) (pseudo_potts_calc_observables_r n k) n k nobs sample None None minimize = Ok p /\
    nthR p 0 = nthR hJ 0 + t.
Proof.
  intros n k nobs hJ sample t m Hk Hn Hm Hh Hex.
  set (target := shift_spin n k 0 t hJ).
  set (minimize := fun (f : list R -> result (R * list R)) (x0 : list R) =>
    if ClassicalEpsilon.excluded_middle_informative (pl_minimum f (length x0) target) then target else ClassicalEpsilon.epsilon (inhabits []) (pl_minimum f (length x0))).
  assert (FM : finds_minimum minimize).
  { intros f x0 y H. unfold minimize. destruct (ClassicalEpsilon.excluded_middle_informative _) as [T|T]; [exact T|]. apply ClassicalEpsilon.epsilon_spec. now exists y. }
  assert (T0 : nthR target 0 = nthR hJ 0 + t).
  { pose proof (shift_field n k 0 t hJ 0 0 Hh ltac:(lia) ltac:(lia)) as E. cbn in E. exact E. }
  assert (Hs : forall x, In x sample -> length x = n /\ forall v, In v x -> (v < k)%nat) by (intros x Hx; apply all_states_k, Hex, Hx).
  exists minimize, target. split; [exact FM|]. split; [|exact T0].
  unfold solve_potts. destruct sample as [|x0 sample0] eqn:Es; [now destruct Hex as (H & _)|]. rewrite <- Es in *. clear Es. cbn [bind fst snd]. rewrite repeat_length. subst nobs. f_equal.
  unfold minimize. destruct (ClassicalEpsilon.excluded_middle_informative _) as [T|T]; [reflexivity|]. exfalso. apply T. rewrite repeat_length.
  assert (LT : length target = m) by (unfold target; now rewrite shift_length).
  split; [exact LT|]. destruct (potts_value n k sample Hs (fun _ => 0) (fun _ => []) target LT) as (g1 & E1 & _). do 2 eexists. split; [exact E1|].
  intros z Hz. destruct (potts_value n k sample Hs (fun _ => 0) (fun _ => []) z Hz) as (g2 & E2 & _). do 2 eexists. split; [exact E2|].
  pose proof (proj1 (C118_maximum n k hJ z sample Hk Hex)) as A.
  pose proof (proj2 (proj1 (proj2 (C118_maximum n k hJ target sample Hk Hex))) (shift_same n k 0 t hJ Hh)) as B. cbn beta in *. lra.
Qed.
Print Assumptions C118_fields_refuted.

(** ** Which of the equivalent vectors is found *)
Lemma sum_delta k a : (a < k)%nat -> forall F : nat -> R, sumf (seq 0 k) (fun h => if Nat.eqb a h then F h else 0) = F a.
Proof.
  intros Ha F. rewrite (sumf_ext _ _ (fun h => if Nat.eqb a h then F a else 0)) by (intros h; destruct (Nat.eqb_spec a h); subst; reflexivity).
  assert (Hin : In a (seq 0 k)) by (apply in_seq; lia). pose proof (seq_NoDup k 0) as ND. revert Hin ND. induction (seq 0 k) as [|b l IH]; intros Hin ND; [destruct Hin|].
  rewrite sumf_cons. inversion_clear ND as [|? ? Hb Hl]. destruct Hin as [->|Hin].
  - rewrite Nat.eqb_refl, sumf_zero; [ring|]. intros c Hc. destruct (Nat.eqb_spec a c) as [->|]; [contradiction|reflexivity].
  - destruct (Nat.eqb_spec a b) as [->|]; [contradiction|]. rewrite IH by assumption. ring.
Qed.

Lemma dterm_fields n k r x p i : (r < n)%nat -> (i < n)%nat -> (nth r x 0 < k)%nat -> sumf (seq 0 k) (fun v => potts_dterm n k r x p (v * n + i)) = 0.
Proof.
  intros Hr Hi Hx. set (F := fun h => potts_num_field k r h (map (nthR p) (potts_ixs n k r)) x (pseudo_potts_calc_observables_r n k r x) / potts_D n k r x p).
  rewrite (sumf_ext_in _ _ (fun v => if Nat.eqb r i then F v else 0)).
  - destruct (Nat.eqb r i); [|now apply sumf_zero]. unfold F, Rdiv. rewrite sumf_scal_r.
    rewrite (sumf_ext _ _ (fun h => sumf (others k (nth r x 0%nat)) (fun st => (b2R (Nat.eqb st h) - b2R (Nat.eqb (nth r x 0%nat) h)) *
      exp (dot (obs_st n k r x st) (map (nthR p) (potts_ixs n k r)) - dot (obs_st n k r x (nth r x 0%nat)) (map (nthR p) (potts_ixs n k r)))))) by (intros h; now apply potts_num_field_eq).
    rewrite sumf_swap, (sumf_zero (others k (nth r x 0%nat))); [ring|]. intros st Hst. apply in_others in Hst. rewrite sumf_scal_r, sumf_minus.
    assert (B : forall a, (a < k)%nat -> sumf (seq 0 k) (fun h => b2R (Nat.eqb a h)) = 1).
    { intros a Ha. rewrite <- (sum_delta k a Ha (fun _ => 1)). apply sumf_ext. intros h. destruct (Nat.eqb a h); reflexivity. }
    rewrite !B by lia. ring.
  - intros v Hv. apply in_seq in Hv. rewrite potts_dterm_eq by assumption. fold F.
    rewrite (sumf_zero (others n r)).
    2:{ intros j Hj. destruct (Nat.eqb_spec (k * n + (if Nat.ltb j r then pair_index n j r else pair_index n r j)) (v * n + i)); [nia|reflexivity]. }
    rewrite Rplus_0_r. destruct (Nat.eqb_spec r i) as [->|Hne].
    + rewrite (sumf_ext _ _ (fun h => if Nat.eqb v h then F h else 0)); [apply sum_delta; lia|]. intros h.
      destruct (Nat.eqb_spec (i + n * h) (v * n + i)), (Nat.eqb_spec v h); try reflexivity; exfalso; nia.
    + apply sumf_zero. intros h _. destruct (Nat.eqb_spec (r + n * h) (v * n + i)) as [E|]; [|reflexivity]. exfalso. apply Hne.
      rewrite <- (field_mod n h r Hr), <- (field_mod n v i Hi). f_equal. lia.
Qed.

(** The derivatives with respect to the fields of a spin add up to zero, for all parameters and
    data: no step along gradients changes the sum of the fields of a spin. *)
Theorem C118_gradient : forall (n k : nat) (sample : list (list nat)) (p : list R) v grad,
  (forall x, In x sample -> length x = n /\ forall u, In u x -> (u < k)%nat) -> length p = (k * n + n * (n - 1) / 2)%nat ->
  pseudo_potts_f (pseudo_potts_get_multipliers_r n k) (pseudo_potts_calc_observables_r n k) n k (length p) sample (fun _ => 0) (fun _ => []) p = Ok (v, grad) ->
  forall i, (i < n)%nat -> sumf (seq 0 k) (fun u => nthR grad (u * n + i)) = 0.
Proof.
  intros n k sample p v grad Hs Hp E i Hi. destruct (potts_f_ok n k sample p Hs Hp (fun _ => 0) (fun _ => [])) as (g & E' & _ & Hg).
  rewrite E' in E. injection E as _ <-.
  rewrite (sumf_ext_in _ _ (fun u => sumf (seq 0 n) (fun r => sumf sample (fun x => potts_dterm n k r x p (u * n + i))))).
  2:{ intros u Hu. apply in_seq in Hu. rewrite Hg by (rewrite Hp; nia). unfold nthR at 1. destruct (u * n + i)%nat; cbn; ring. }
  rewrite sumf_swap. apply sumf_zero. intros r Hr. apply in_seq in Hr. rewrite sumf_swap. apply sumf_zero. intros x Hx.
  apply dterm_fields; [lia|exact Hi|]. destruct (Hs x Hx) as [Lx Vx]. apply Vx, nth_In. lia.
Qed.
Print Assumptions C118_gradient.

(** Points that a method can reach whose steps combine gradients at points reached before
    (gradient descent, conjugate gradients, BFGS from a multiple of the unit matrix). *)
Inductive reachable (f : list R -> result (R * list R)) (x0 : list R) : list R -> Prop :=
| reach_start : reachable f x0 x0
| reach_step x y v grad c : reachable f x0 x -> reachable f x0 y -> f y = Ok (v, grad) -> reachable f x0 (vadd x (map (Rmult c) grad)).

Lemma reach_sums n k sample x0 x : let m := (k * n + n * (n - 1) / 2)%nat in
  (forall x, In x sample -> length x = n /\ forall u, In u x -> (u < k)%nat) -> length x0 = m ->
  reachable (pseudo_potts_f (pseudo_potts_get_multipliers_r n k) (pseudo_potts_calc_observables_r n k) n k m sample (fun _ => 0) (fun _ => [])) x0 x ->
  length x = m /\ forall i, (i < n)%nat -> sumf (seq 0 k) (fun u => nthR x (u * n + i)) = sumf (seq 0 k) (fun u => nthR x0 (u * n + i)).
Proof.
  intros m Hs H0. induction 1 as [|x y v grad c _ [Lx IHx] _ [Ly _] E]; [now split|].
  destruct (potts_value n k sample Hs (fun _ => 0) (fun _ => []) y Ly) as (g & Eg & Lg). fold m in Eg. rewrite Eg in E. injection E as _ <-.
  assert (Lv : length (vadd x (map (Rmult c) g)) = m) by (unfold vadd; rewrite map_length, combine_length, map_length; lia).
  split; [exact Lv|]. intros i Hi.
  rewrite (sumf_ext_in _ _ (fun u => nthR x (u * n + i) + c * nthR g (u * n + i))).
  2:{ intros u Hu. apply in_seq in Hu. assert (Hj : (u * n + i < m)%nat) by (unfold m; nia). unfold vadd, nthR.
      rewrite (nth_indep _ 0 (fst (0, 0) + snd (0, 0))) by (fold (vadd x (map (Rmult c) g)); rewrite Lv; exact Hj).
      rewrite (map_nth (fun xy => fst xy + snd xy)), combine_nth by (rewrite map_length; lia). cbn [fst snd]. f_equal.
      rewrite (nth_indep _ 0 (c * 0)) by (rewrite map_length; lia). now rewrite (map_nth (Rmult c)). }
  rewrite sumf_plus, sumf_scal_l, IHx by exact Hi.
  rewrite (C118_gradient n k sample y _ g Hs Ly ltac:(rewrite Ly; exact Eg) i Hi). ring.
Qed.

(** If the minimum is reached by such steps, the result is determined: the true couplings, and
    the true fields moved so that their average over the states of a spin is that of the
    starting point (zero without an initial guess). *)
Theorem C118_zero_mean : forall (n k nobs : nat) (hJ : list R) (sample : list (list nat)) (guess : option (list R)) minimize,
  let m := (k * n + n * (n - 1) / 2)%nat in
  let g := match guess with Some g => g | None => repeat 0 m end in
  let f := pseudo_potts_f (pseudo_potts_get_multipliers_r n k) (pseudo_potts_calc_observables_r n k) n k m sample (fun _ => 0) (fun _ => []) in
  let mean := fun p i => sumf (seq 0 k) (fun u => nthR p (u * n + i)%nat) / INR k in
  (2 <= k)%nat -> nobs = m -> length hJ = m -> length g = m -> exact_potts n k hJ sample ->
  pl_minimum f m (minimize f g) -> reachable f g (minimize f g) ->
  exists p, solve_potts (pseudo_potts_get_multipliers_r n k) (pseudo_potts_calc_observables_r n k) n k nobs sample guess None minimize = Ok p /\
    (forall i j, (i < j)%nat -> (j < n)%nat -> nthR p (k * n + pair_index n i j) = nthR hJ (k * n + pair_index n i j)) /\
    (forall i v, (i < n)%nat -> (v < k)%nat -> nthR p (v * n + i) = nthR hJ (v * n + i) - mean hJ i + mean g i) /\
    (guess = None -> forall i, (i < n)%nat -> mean g i = 0).
Proof.
  intros n k nobs hJ sample guess minimize m g f mean Hk Hm Hh Lg Hex Hmin Hreach. subst nobs.
  assert (Hs : forall x, In x sample -> length x = n /\ forall v, In v x -> (v < k)%nat) by (intros x Hx; apply all_states_k, Hex, Hx).
  assert (Eg : match guess, sample with Some g, _ => Ok g | None, [] => Err IndexError | None, _ => Ok (repeat 0 m) end = Ok g).
  { unfold g. destruct guess; [reflexivity|]. destruct sample; [now destruct Hex as (H & _)|reflexivity]. }
  exists (minimize f g). split; [unfold solve_potts; rewrite Eg; cbn [bind fst snd]; rewrite Lg; reflexivity|].
  assert (V : forall y, length y = m -> exists gr, f y = Ok (sumf (seq 0 n) (neg_log_pl_potts n k y sample) + 0, gr)).
  { intros y Hy. destruct (potts_value n k sample Hs (fun _ => 0) (fun _ => []) y Hy) as (gr & E & _). exists gr. exact E. }
  destruct (reach_sums n k sample g _ Hs Lg Hreach) as [Lp Sp].
  set (p := minimize f g) in *. destruct Hmin as (_ & v & gr & Em & Min).
  destruct (V p Lp) as [g1 E1]. rewrite E1 in Em. injection Em as Ev _. destruct (Min hJ Hh) as (w & g2 & E2 & Hw). destruct (V hJ Hh) as [g3 E3]. rewrite E3 in E2. injection E2 as E2 _.
  destruct (C118_maximum n k hJ p sample Hk Hex) as (A & B & _).
  assert (Sm : potts_same n k p hJ) by (apply B; lra). destruct Sm as [SJ Sh]. split; [exact SJ|].
  assert (Kp : 0 < INR k) by (apply lt_0_INR; lia). split.
  - intros i u Hi Hu. unfold mean. rewrite <- Sp by exact Hi.
    assert (D : sumf (seq 0 k) (fun w => nthR p (u * n + i) - nthR p (w * n + i)) = sumf (seq 0 k) (fun w => nthR hJ (u * n + i) - nthR hJ (w * n + i))).
    { apply sumf_ext_in. intros w0 Hw0. apply in_seq in Hw0. apply Sh; lia. }
    rewrite !sumf_minus, !sumf_const, !seq_length in D.
    apply (Rmult_eq_reg_l (INR k)); [|lra]. unfold Rdiv. rewrite Rmult_plus_distr_l, Rmult_minus_distr_l.
    replace (INR k * (sumf (seq 0 k) (fun w => nthR hJ (w * n + i)) * / INR k)) with (sumf (seq 0 k) (fun w => nthR hJ (w * n + i))) by (field; lra).
    replace (INR k * (sumf (seq 0 k) (fun w => nthR p (w * n + i)) * / INR k)) with (sumf (seq 0 k) (fun w => nthR p (w * n + i))) by (field; lra). lra.
  - intros -> i Hi. unfold mean, g. rewrite sumf_zero; [unfold Rdiv; ring|]. intros u _. unfold nthR. apply nth_repeat.
Qed.
Print Assumptions C118_zero_mean.

(** Sums over the fields of one spin. *)
Lemma sum_spin_fields n k i m : (i < n)%nat -> (k * n <= m)%nat -> forall F : nat -> R,
  sumf (seq 0 m) (fun j => if Nat.ltb j (k * n) && Nat.eqb (j mod n) i then F j else 0) = sumf (seq 0 k) (fun v => F (v * n + i)%nat).
Proof.
  intros Hi Hm F. rewrite (sumf_ext_in (seq 0 k) (fun v => F (v * n + i)%nat) (fun v => sumf (seq 0 m) (fun j => if Nat.eqb (v * n + i) j then F j else 0))).
  2:{ intros v Hv. apply in_seq in Hv. rewrite sum_delta; [reflexivity|nia]. }
  rewrite sumf_swap. apply sumf_ext. intros j. destruct (Nat.ltb_spec j (k * n)) as [Hj|Hj], (Nat.eqb_spec (j mod n) i) as [E|E]; cbn [andb].
  - pose proof (Nat.div_mod j n ltac:(lia)) as D. rewrite E in D.
    rewrite (sumf_ext _ _ (fun v => if Nat.eqb (j / n) v then F j else 0)).
    + rewrite (sum_delta k (j / n)); [reflexivity|]. apply Nat.div_lt_upper_bound; lia.
    + intros v. destruct (Nat.eqb_spec (v * n + i) j), (Nat.eqb_spec (j / n) v); try reflexivity; exfalso; nia.
  - symmetry. apply sumf_zero. intros v _. destruct (Nat.eqb_spec (v * n + i) j) as [<-|]; [|reflexivity]. exfalso. apply E. now apply field_mod.
  - symmetry. apply sumf_zero. intros v Hv. apply in_seq in Hv. destruct (Nat.eqb_spec (v * n + i) j); [nia|reflexivity].
  - symmetry. apply sumf_zero. intros v Hv. apply in_seq in Hv. destruct (Nat.eqb_spec (v * n + i) j); [nia|reflexivity].
Qed.

(** With the cost of a Gaussian prior, lam times the sum of the squares of the parameters, every
    minimum has fields whose sum over the states of each spin is zero, whatever the data. *)
Theorem C118_prior : forall (n k : nat) (sample : list (list nat)) (lam : R) jac (p : list R),
  let m := (k * n + n * (n - 1) / 2)%nat in
  (2 <= k)%nat -> 0 < lam -> (forall x, In x sample -> length x = n /\ forall u, In u x -> (u < k)%nat) ->
  pl_minimum (pseudo_potts_f (pseudo_potts_get_multipliers_r n k) (pseudo_potts_calc_observables_r n k) n k m sample (fun x => lam * sumf x (fun a => a * a)) jac) m p ->
  forall i, (i < n)%nat -> sumf (seq 0 k) (fun v => nthR p (v * n + i)) = 0.
Proof.
  intros n k sample lam jac p m Hk Hl Hs (Lp & v & gr & E & Min) i Hi. set (S := sumf (seq 0 k) _).
  assert (Kp : 0 < INR k) by (apply lt_0_INR; lia).
  set (q := shift_spin n k i (- (S / INR k)) p). assert (Lq : length q = m) by (unfold q; now rewrite shift_length).
  destruct (Min q Lq) as (w & g2 & E2 & Hw).
  destruct (potts_value n k sample Hs (fun x => lam * sumf x (fun a => a * a)) jac p Lp) as (g3 & E3 & _).
  destruct (potts_value n k sample Hs (fun x => lam * sumf x (fun a => a * a)) jac q Lq) as (g4 & E4 & _).
  fold m in E3, E4. rewrite E3 in E. injection E as E _. rewrite E4 in E2. injection E2 as E2 _.
  assert (PL : sumf (seq 0 n) (neg_log_pl_potts n k q sample) = sumf (seq 0 n) (neg_log_pl_potts n k p sample)).
  { apply sumf_ext_in. intros r Hr. apply in_seq in Hr. apply same_pl; [exact Hk|now apply shift_same|lia|]. intros x Hx. now apply all_states_k, Hs. }
  assert (C : sumf q (fun a => a * a) = sumf p (fun a => a * a) - S * S / INR k).
  { pose proof (sumf_seq_nth 0 q (fun a => a * a)) as Eq. pose proof (sumf_seq_nth 0 p (fun a => a * a)) as Ep. rewrite Lq in Eq. rewrite Lp in Ep. rewrite <- Eq, <- Ep.
    change (sumf (seq 0 m) (fun j => nthR q j * nthR q j) = sumf (seq 0 m) (fun j => nthR p j * nthR p j) - S * S / INR k).
    rewrite (sumf_ext_in (seq 0 m) (fun j => nthR q j * nthR q j)
      (fun j => nthR p j * nthR p j + (if Nat.ltb j (k * n) && Nat.eqb (j mod n) i then 2 * (- (S / INR k)) * nthR p j + (S / INR k) * (S / INR k) else 0))).
    2:{ intros j Hj. apply in_seq in Hj. unfold q. rewrite shift_nth by lia. destruct (_ && _); ring. }
    rewrite sumf_plus, (sum_spin_fields n k i m Hi ltac:(lia) (fun j => 2 * (- (S / INR k)) * nthR p j + (S / INR k) * (S / INR k))).
    rewrite sumf_plus, sumf_scal_l, sumf_const, seq_length. fold S. field. lra. }
  assert (Sq : S * S / INR k <= 0) by nra.
  assert (0 <= S * S) by nra. destruct (Req_dec S 0) as [|N]; [assumption|]. exfalso.
  assert (0 < S * S) by (apply Rsqr_pos_lt in N; exact N). assert (0 < S * S / INR k) by (now apply Rdiv_lt_0_compat). lra.
Qed.
Print Assumptions C118_prior.

(** With a cost function and its Jacobian the minimiser is given the negative log
    pseudolikelihood plus the cost, with the right gradient, and the guess; a cost function
    without a Jacobian is refused. *)
Theorem C118_cost : forall (n k nobs : nat) (sample : list (list nat)) (guess : option (list R)) cost jac minimize,
  let m := (k * n + n * (n - 1) / 2)%nat in
  let g := match guess with Some g => g | None => repeat 0 m end in
  let L := fun p => sumf (seq 0 n) (neg_log_pl_potts n k p sample) in
  let solve := solve_potts (pseudo_potts_get_multipliers_r n k) (pseudo_potts_calc_observables_r n k) n k nobs sample guess in
  nobs = m -> length g = m -> sample <> [] -> (forall x, In x sample -> length x = n /\ forall u, In u x -> (u < k)%nat) ->
  (forall y j, length y = m -> (j < m)%nat -> is_derive (fun t : R => cost (upd y j t)) (nthR y j) (nthR (jac y) j)) ->
  (exists f, solve (Some (cost, Some jac)) minimize = Ok (minimize f g) /\
     forall y, length y = m -> exists grad, f y = Ok (L y + cost y, grad) /\ length grad = m /\
       forall j, (j < m)%nat -> is_derive (fun t : R => L (upd y j t) + cost (upd y j t)) (nthR y j) (nthR grad j)) /\
  solve (Some (cost, None)) minimize = Err AssertionError.
Proof.
  intros n k nobs sample guess cost jac minimize m g L solve Hm Lg Hne Hs Hc. subst nobs.
  assert (Eg : match guess, sample with Some g, _ => Ok g | None, [] => Err IndexError | None, _ => Ok (repeat 0 m) end = Ok g).
  { unfold g. destruct guess; [reflexivity|]. destruct sample; [congruence|reflexivity]. }
  unfold solve, solve_potts. rewrite Eg. cbn [bind fst snd]. rewrite Lg. split; [|reflexivity]. eexists. split; [reflexivity|].
  intros y Hy. destruct (C41_potts_objective n k sample y cost jac Hs Hy (fun j Hj => Hc y j Hy ltac:(lia))) as (grad & E & Lgr & _ & D).
  rewrite Hy in E. exists grad. split; [exact E|]. split; [congruence|]. intros j Hj. apply D. lia.
Qed.
Print Assumptions C118_cost.

(** Two spins with two states: state 0 is twice as likely as state 1 for the first spin. One
    step of gradient descent from zero, of the right length, reaches the minimum; it is the
    vector with fields (ln 2)/2 and - (ln 2)/2 for the true ln 2 and 0. *)
Definition ex_potts : list (list nat) := [[0; 0]; [0; 0]; [1; 0]; [0; 1]; [0; 1]; [1; 1]]%nat.
Definition ex_hJ : list R := [ln 2; 0; 0; 0; 0].

Lemma ex_exact : exact_potts 2 2 ex_hJ ex_potts.
Proof.
  split; [discriminate|]. split.
  - intros x Hx. apply all_states_k. cbn in Hx. repeat destruct Hx as [<-|Hx]; try destruct Hx; (split; [reflexivity|]); intros v Hv; cbn in Hv; repeat destruct Hv as [<-|Hv]; try lia; destruct Hv.
  - assert (E : forall x, In x (all_states (seq 0 2) 2) -> potts_energy 2 2 ex_hJ x = - (if Nat.eqb (nth 0 x 0%nat) 0 then ln 2 else 0)).
    { intros x Hx. cbn in Hx. repeat destruct Hx as [<-|Hx]; try destruct Hx; unfold potts_energy, ex_hJ; cbn; ring. }
    assert (P2 : exp (ln 2) = 2) by (apply exp_ln; lra).
    assert (Z : partition (potts_energy 2 2 ex_hJ) (all_states (seq 0 2) 2) = 6).
    { unfold partition. rewrite (sumf_ext_in _ _ (fun x => exp (- - (if Nat.eqb (nth 0 x 0%nat) 0 then ln 2 else 0)))) by (intros x Hx; now rewrite E by exact Hx).
      unfold sumf. cbn. rewrite !Ropp_involutive, exp_0, P2. ring. }
    intros x Hx. unfold boltzmann. rewrite Z, E by exact Hx. cbn in Hx. repeat destruct Hx as [<-|Hx]; try destruct Hx; unfold frequency; cbn [nth Nat.eqb]; rewrite Ropp_involutive, ?exp_0, ?P2; cbn; field.
Qed.

Lemma ex_gradient : exists v, pseudo_potts_f (pseudo_potts_get_multipliers_r 2 2) (pseudo_potts_calc_observables_r 2 2) 2 2 5 ex_potts (fun _ => 0) (fun _ => []) (repeat 0 5) = Ok (v, [-1; 0; 1; 0; 0]).
Proof.
  assert (Hs : forall x, In x ex_potts -> length x = 2%nat /\ forall v, In v x -> (v < 2)%nat) by (intros x Hx; apply all_states_k, ex_exact, Hx).
  destruct (potts_f_ok 2 2 ex_potts (repeat 0 5) Hs eq_refl (fun _ => 0) (fun _ => [])) as (g & E & Lg & Hg). cbn [length repeat] in E. cbn [repeat]. eexists. rewrite E. do 2 f_equal. clear E.
  apply (list_eq_nth 0); [exact Lg|]. intros j Hj. fold (nthR g j). rewrite Hg by lia.
  rewrite Lg in Hj. cbn in Hj. assert (HR : 1 + 1 <> 0) by lra.
  destruct j as [|[|[|[|[|j]]]]]; [| | | | |exfalso; lia].
  all: cbv -[Rplus Rmult Ropp Rinv exp ln IZR]; rewrite ?Rmult_0_r, ?Rplus_0_r, ?Rplus_0_l, ?Ropp_0, ?Rplus_0_r, ?exp_0; field.
Qed.

Definition one_step (c : R) (f : list R -> result (R * list R)) (x0 : list R) : list R :=
  match f x0 with Ok (_, grad) => vadd x0 (map (Rmult c) grad) | Err _ => x0 end.

Lemma ex_step : one_step (- (ln 2 / 2)) (pseudo_potts_f (pseudo_potts_get_multipliers_r 2 2) (pseudo_potts_calc_observables_r 2 2) 2 2 5 ex_potts (fun _ => 0) (fun _ => [])) (repeat 0 5)
  = [ln 2 / 2; 0; - (ln 2 / 2); 0; 0].
Proof. unfold one_step. destruct ex_gradient as [v ->]. unfold vadd. cbn. apply (f_equal2 cons); [ring|]. apply (f_equal2 cons); [ring|]. apply (f_equal2 cons); [ring|]. apply (f_equal2 cons); [ring|]. apply (f_equal2 cons); [ring|reflexivity]. Qed.

Lemma ex_same : potts_same 2 2 [ln 2 / 2; 0; - (ln 2 / 2); 0; 0] ex_hJ.
Proof.
  split.
  - intros i j Hij Hj. assert (i = 0%nat) by lia. assert (j = 1%nat) by lia. subst. reflexivity.
  - intros i v w Hi Hv Hw. destruct i as [|[|i]]; [| |exfalso; lia]; destruct v as [|[|v]]; [| |exfalso; lia| | |exfalso; lia]; destruct w as [|[|w]];
      try (exfalso; lia); unfold nthR, ex_hJ; cbn; field.
Qed.

Example C118_example :
  let f := pseudo_potts_f (pseudo_potts_get_multipliers_r 2 2) (pseudo_potts_calc_observables_r 2 2) 2 2 5 ex_potts (fun _ => 0) (fun _ => []) in
  exact_potts 2 2 ex_hJ ex_potts /\ pl_minimum f 5 (one_step (- (ln 2 / 2)) f (repeat 0 5)) /\ reachable f (repeat 0 5) (one_step (- (ln 2 / 2)) f (repeat 0 5)) /\
  one_step (- (ln 2 / 2)) f (repeat 0 5) = [ln 2 / 2; 0; - (ln 2 / 2); 0; 0] /\ (exists minimize, finds_minimum minimize) /\
  pl_minimum (pseudo_potts_f (pseudo_potts_get_multipliers_r 2 2) (pseudo_potts_calc_observables_r 2 2) 2 2 5 [[0; 0]; [0; 1]; [1; 0]; [1; 1]]%nat (fun x => 3 * sumf x (fun a => a * a)) (fun _ => [])) 5 (repeat 0 5).
Proof.
  intros f. split; [exact ex_exact|]. split; [|split; [|split; [exact ex_step|split]]].
  - unfold f. rewrite ex_step. split; [reflexivity|].
    assert (Hs : forall x, In x ex_potts -> length x = 2%nat /\ forall v, In v x -> (v < 2)%nat) by (intros x Hx; apply all_states_k, ex_exact, Hx).
    destruct (potts_value 2 2 ex_potts Hs (fun _ => 0) (fun _ => []) [ln 2 / 2; 0; - (ln 2 / 2); 0; 0] eq_refl) as (g1 & E1 & _).
    do 2 eexists. split; [exact E1|]. intros z Hz. destruct (potts_value 2 2 ex_potts Hs (fun _ => 0) (fun _ => []) z Hz) as (g2 & E2 & _).
    do 2 eexists. split; [exact E2|]. pose proof (proj1 (C118_maximum 2 2 ex_hJ z ex_potts (Nat.le_refl 2) ex_exact)) as A.
    pose proof (proj2 (proj1 (proj2 (C118_maximum 2 2 ex_hJ _ ex_potts (Nat.le_refl 2) ex_exact))) ex_same) as B. cbn beta zeta in *. lra.
  - unfold one_step, f. destruct ex_gradient as [v Ev]. rewrite Ev. apply (reach_step _ _ (repeat 0 5) (repeat 0 5) v); [apply reach_start|apply reach_start|exact Ev].
  - exists (fun f x0 => ClassicalEpsilon.epsilon (inhabits []) (pl_minimum f (length x0))). intros f0 x0 y H. apply ClassicalEpsilon.epsilon_spec. now exists y.
  - assert (Ex : exact_potts 2 2 (repeat 0 5) [[0; 0]; [0; 1]; [1; 0]; [1; 1]]%nat).
    { split; [discriminate|]. split.
      - intros x Hx. cbn. cbn in Hx. tauto.
      - assert (E : forall x, In x (all_states (seq 0 2) 2) -> potts_energy 2 2 (repeat 0 5) x = 0).
        { intros x Hx. cbn in Hx. repeat destruct Hx as [<-|Hx]; try destruct Hx; unfold potts_energy; cbn; ring. }
        assert (Z : partition (potts_energy 2 2 (repeat 0 5)) (all_states (seq 0 2) 2) = 4).
        { unfold partition. rewrite (sumf_ext_in _ _ (fun x => 1)) by (intros x Hx; rewrite E by exact Hx; now rewrite Ropp_0, exp_0). unfold sumf. cbn. ring. }
        intros x Hx. unfold boltzmann. rewrite Z, E by exact Hx. rewrite Ropp_0, exp_0. cbn in Hx. repeat destruct Hx as [<-|Hx]; try destruct Hx; unfold frequency; cbn; field. }
    split; [reflexivity|]. set (us := [[0; 0]; [0; 1]; [1; 0]; [1; 1]]%nat) in *.
    assert (Hs : forall x, In x us -> length x = 2%nat /\ forall v, In v x -> (v < 2)%nat) by (intros x Hx; apply all_states_k, Ex, Hx).
    destruct (potts_value 2 2 us Hs (fun x => 3 * sumf x (fun a => a * a)) (fun _ => []) (repeat 0 5) eq_refl) as (g1 & E1 & _).
    do 2 eexists. split; [exact E1|]. intros z Hz. destruct (potts_value 2 2 us Hs (fun x => 3 * sumf x (fun a => a * a)) (fun _ => []) z Hz) as (g2 & E2 & _).
    do 2 eexists. split; [exact E2|]. pose proof (proj1 (C118_maximum 2 2 (repeat 0 5) z us (Nat.le_refl 2) Ex)) as A. cbn beta zeta in A.
    assert (0 <= sumf z (fun a => a * a)) by (apply sumf_nonneg; intros; nra).
    assert (Z0 : sumf (repeat 0 5) (fun a => a * a) = 0) by (unfold sumf; cbn; ring). rewrite Z0. lra.
Qed.
