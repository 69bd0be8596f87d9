(** * Property theorems C37, C38, C66: minimum probability flow. *)
From Coq Require ClassicalEpsilon.
From Coquelicot Require Import Coquelicot.
From Verif Require Import Prelude Spec PreludeFacts M_Index M_Params M_Energy M_Corr M_MPF
  P_Index P_Params P_Convert P_Energy P_Energy2 P_Unique P_Corr2 P_MPF Props_Energy Props_Index.
Import ListNotations.

Lemma binom_n_2 n : binom n 2 = n * (n - 1) / 2.
Proof.
  rewrite <- (seq_length n 0) at 1. rewrite <- combinations_length, combinations_2_pairs, map_length. apply pairs_seq_length.
Qed.
Local Open Scope R_scope.

(** Specification: the probability flow from the data states (c_k copies of state s_k) to
    the listed neighbours, divided by the number of samples. *)
Definition prob_flow (E : list R -> R) (Xuniq : list (list R)) (Xcount : list R) (adjs : list (list (list R))) : R :=
  sumf (seq 0 (length Xuniq)) (fun k => nthR Xcount k *
    sumf (nth k adjs []) (fun a => exp ((E (nth k Xuniq []) - E a) / 2))) / sumR Xcount.

(** All states handed to the objective have n spins. *)
Definition states_of_size (n : nat) (Xuniq : list (list R)) (adjs : list (list (list R))) : Prop :=
  (forall s, In s Xuniq -> length s = n) /\ (forall l a, In l adjs -> In a l -> length a = n).

Lemma prob_flow_flow calc_e Xuniq Xcount adjs params :
  prob_flow (fun s => calc_e s params) Xuniq Xcount adjs = flow calc_e Xuniq Xcount adjs params / sumR Xcount.
Proof.
  unfold prob_flow, flow. f_equal. apply sumf_ext. intros k. rewrite <- sumf_scal_l. apply sumf_ext. intros a. do 2 f_equal. field.
Qed.

Lemma occurs_length n Xuniq adjs s : states_of_size n Xuniq adjs -> occurs Xuniq adjs s -> length s = n.
Proof.
  intros [H1 H2] [H|(k & H)]; [now apply H1|]. destruct (lt_dec k (length adjs)) as [Hk|Hk].
  - exact (H2 (nth k adjs []) s (nth_In _ _ Hk) H).
  - rewrite nth_overflow in H by lia. destruct H.
Qed.

Lemma ising_e_derive n s params j : length s = n -> length params = (n + n * (n - 1) / 2)%nat -> (j < length params)%nat ->
  is_derive (fun t => ising_calc_e_row s (upd params j t)) (nthR params j) (- nthR (ising_obs s) j).
Proof.
  intros Hs Hp Hj. destruct (C16_calc_de_is_derivative n s params j Hs Hp Hj) as (d & E & Hd).
  rewrite calc_de_row_obs in E by (subst n; lia). injection E as <-. now apply is_derive_Reals.
Qed.

(** ** C37 *)
(** For any energy function and any way of listing neighbours, K is the probability flow
    and logK its logarithm. *)
Theorem C37_objective_values : forall (calc_e : list R -> list R -> R) (Xuniq : list (list R)) (Xcount : list R)
  (adjs : list (list (list R))) (params : list R) (nb : nat),
  length Xcount = length Xuniq -> length adjs = length Xuniq -> (0 < length Xuniq)%nat ->
  (forall l, In l adjs -> length l = nb) -> (forall c, In c Xcount -> 0 < c) ->
  let K := prob_flow (fun s => calc_e s params) Xuniq Xcount adjs in
  mpf_K calc_e None Xuniq Xcount adjs params = Ok (K, None) /\
  mpf_logK calc_e None Xuniq Xcount adjs params = Ok (ln K, None).
Proof.
  intros calc_e Xuniq Xcount adjs params nb HC HA Hm Hreg Hpos K. unfold K. rewrite prob_flow_flow.
  split; [now apply mpf_K_value|]. apply mpf_logK_value; auto.
  - intros k Hk. rewrite !Hreg; [reflexivity| |]; apply nth_In; lia.
  - intros k Hk. apply Hpos. apply nth_In. lia.
Qed.
Print Assumptions C37_objective_values.

(** With the energy derivatives of the Ising model, the gradient returned with K is the
    gradient of K. *)
Theorem C37_K_gradient : forall (n : nat) (Xuniq : list (list R)) (Xcount : list R) (adjs : list (list (list R))) (params : list R),
  length Xcount = length Xuniq -> length adjs = length Xuniq -> states_of_size n Xuniq adjs ->
  length params = (n + n * (n - 1) / 2)%nat ->
  let K := fun p => prob_flow (ising_energy n p) Xuniq Xcount adjs in
  exists grad, mpf_K ising_calc_e_row (Some calc_de_row) Xuniq Xcount adjs params = Ok (K params, Some grad) /\
    length grad = length params /\
    forall j, (j < length params)%nat -> is_derive (fun t => K (upd params j t)) (nthR params j) (nthR grad j).
Proof.
  intros n Xuniq Xcount adjs params HC HA HS Hp K.
  assert (EK : forall p, length p = length params -> K p = flow ising_calc_e_row Xuniq Xcount adjs p / sumR Xcount).
  { intros p Hl. rewrite <- prob_flow_flow. unfold K, prob_flow. f_equal. apply sumf_ext_in. intros k Hk. apply in_seq in Hk. f_equal.
    apply sumf_ext_in. intros a Ha.
    rewrite (proj1 (C15_ising_energy n (nth k Xuniq []) p (proj1 HS _ (nth_In _ _ (proj2 Hk))) ltac:(congruence))).
    assert (Hka : (k < length adjs)%nat) by lia.
    rewrite (proj1 (C15_ising_energy n a p (proj2 HS (nth k adjs []) a (nth_In _ _ Hka) Ha) ltac:(congruence))). reflexivity. }
  set (D := fun s j => - nthR (ising_obs s) j).
  eexists. split; [|split].
  - rewrite (mpf_K_grad _ _ _ _ HC HA calc_de_row D).
    + rewrite <- EK by reflexivity. reflexivity.
    + intros s j Ho Hj. apply calc_de_row_obs. rewrite (occurs_length n _ _ s HS Ho). lia.
  - now rewrite map_length, seq_length.
  - intros j Hj. rewrite nthR_map_seq by assumption.
    apply (is_derive_ext (fun t => / sumR Xcount * flow ising_calc_e_row Xuniq Xcount adjs (upd params j t))).
    { intros t. rewrite EK by (now rewrite upd_length). unfold Rdiv. apply Rmult_comm. }
    replace (dflow ising_calc_e_row Xuniq Xcount adjs D params j / sumR Xcount)
      with (/ sumR Xcount * dflow ising_calc_e_row Xuniq Xcount adjs D params j) by (unfold Rdiv; ring).
    apply is_derive_scal, (flow_derive ising_calc_e_row Xuniq Xcount adjs HC HA D).
    intros s Ho. apply (ising_e_derive n); [now apply (occurs_length n Xuniq adjs)|assumption|assumption].
Qed.
Print Assumptions C37_K_gradient.

(** The gradient returned with logK misses the gradient of logK by ln(number of samples)
    in every component: it is the gradient only for a single sample. *)
Theorem C37_logK_gradient_refuted : forall (n : nat) (Xuniq : list (list R)) (Xcount : list R) (adjs : list (list (list R)))
  (params : list R) (nb : nat), length Xcount = length Xuniq -> length adjs = length Xuniq -> (0 < length Xuniq)%nat ->
  (0 < nb)%nat -> (forall l, In l adjs -> length l = nb) -> (forall c, In c Xcount -> 0 < c) ->
  states_of_size n Xuniq adjs -> (2 <= n)%nat -> length params = (n + n * (n - 1) / 2)%nat ->
  let logK := fun p => ln (prob_flow (ising_energy n p) Xuniq Xcount adjs) in
  exists grad, mpf_logK ising_calc_e_row (Some calc_de_row) Xuniq Xcount adjs params = Ok (logK params, Some grad) /\
    length grad = length params /\
    forall j, (j < length params)%nat ->
      is_derive (fun t => logK (upd params j t)) (nthR params j) (nthR grad j + ln (sumR Xcount)) /\
      (is_derive (fun t => logK (upd params j t)) (nthR params j) (nthR grad j) <-> sumR Xcount = 1).
Proof.
  intros n Xuniq Xcount adjs params nb HC HA Hm Hnb Hreg0 Hpos0 HS Hn Hp logK.
  assert (Hreg : forall k, (k < length Xuniq)%nat -> length (nth k adjs []) = length (nth 0 adjs [])).
  { intros k Hk. rewrite !Hreg0; [reflexivity| |]; apply nth_In; lia. }
  assert (Hpos : forall k, (k < length Xuniq)%nat -> 0 < nthR Xcount k) by (intros k Hk; apply Hpos0, nth_In; lia).
  assert (Hne : (0 < length (nth 0 adjs []))%nat) by (rewrite Hreg0; [assumption|apply nth_In; lia]).
  assert (EK : forall p, length p = length params -> prob_flow (ising_energy n p) Xuniq Xcount adjs = flow ising_calc_e_row Xuniq Xcount adjs p / sumR Xcount).
  { intros p Hl. rewrite <- prob_flow_flow. unfold prob_flow. f_equal. apply sumf_ext_in. intros k Hk. apply in_seq in Hk. f_equal.
    apply sumf_ext_in. intros a Ha.
    rewrite (proj1 (C15_ising_energy n (nth k Xuniq []) p (proj1 HS _ (nth_In _ _ (proj2 Hk))) ltac:(congruence))).
    assert (Hka : (k < length adjs)%nat) by lia.
    rewrite (proj1 (C15_ising_energy n a p (proj2 HS (nth k adjs []) a (nth_In _ _ Hka) Ha) ltac:(congruence))). reflexivity. }
  assert (HN : 0 < sumR Xcount) by (apply (Ntot_pos Xuniq Xcount adjs); auto).
  assert (HF : forall p, 0 < flow ising_calc_e_row Xuniq Xcount adjs p) by (intros p; apply flow_pos; auto).
  set (D := fun s j => - nthR (ising_obs s) j).
  eexists. split; [|split].
  - rewrite (mpf_logK_grad ising_calc_e_row Xuniq Xcount adjs HC HA Hm Hreg Hpos Hne calc_de_row D).
    + unfold logK. rewrite EK by reflexivity. reflexivity.
    + rewrite Hp. lia.
    + intros s j Ho Hj. apply calc_de_row_obs. rewrite (occurs_length n _ _ s HS Ho). lia.
  - now rewrite map_length, seq_length.
  - intros j Hj. rewrite nthR_map_seq by assumption.
    assert (G : is_derive (fun t => logK (upd params j t)) (nthR params j)
      (dflow ising_calc_e_row Xuniq Xcount adjs D params j / flow ising_calc_e_row Xuniq Xcount adjs params)).
    { apply (is_derive_ext (fun t => ln (/ sumR Xcount * flow ising_calc_e_row Xuniq Xcount adjs (upd params j t)))).
      { intros t. unfold logK. rewrite EK by (now rewrite upd_length). f_equal. unfold Rdiv. ring. }
      assert (Hd : is_derive (fun t => flow ising_calc_e_row Xuniq Xcount adjs (upd params j t)) (nthR params j)
        (dflow ising_calc_e_row Xuniq Xcount adjs D params j)).
      { apply (flow_derive ising_calc_e_row Xuniq Xcount adjs HC HA D).
        intros s Ho. apply (ising_e_derive n); [now apply (occurs_length n Xuniq adjs)|assumption|assumption]. }
      set (F := fun t => flow ising_calc_e_row Xuniq Xcount adjs (upd params j t)) in *.
      assert (E1 : F (nthR params j) = flow ising_calc_e_row Xuniq Xcount adjs params) by (unfold F, nthR; now rewrite upd_same).
      change (is_derive F (nthR params j) (dflow ising_calc_e_row Xuniq Xcount adjs D params j)) in Hd.
      change (is_derive (fun t => ln (/ sumR Xcount * F t)) (nthR params j)
        (dflow ising_calc_e_row Xuniq Xcount adjs D params j / flow ising_calc_e_row Xuniq Xcount adjs params)).
      rewrite <- E1. assert (HF1 : 0 < F (nthR params j)) by (rewrite E1; apply HF).
      set (x := nthR params j) in *. clearbody F x.
      assert (HN' : 0 < / sumR Xcount) by (now apply Rinv_0_lt_compat).
      auto_derive.
      - split; [exists (dflow ising_calc_e_row Xuniq Xcount adjs D params j); exact Hd|]. split; [|exact I]. now apply Rmult_lt_0_compat.
      - change (Derive (fun t => F t) x) with (Derive F x). rewrite (is_derive_unique F _ _ Hd). field. split; lra. }
    set (G0 := dflow ising_calc_e_row Xuniq Xcount adjs D params j / flow ising_calc_e_row Xuniq Xcount adjs params) in *.
    split.
    + replace (G0 - ln (sumR Xcount) + ln (sumR Xcount)) with G0 by ring. exact G.
    + split; intros H.
      * pose proof (is_derive_unique _ _ _ H) as U. rewrite (is_derive_unique _ _ _ G) in U.
        assert (L : ln (sumR Xcount) = ln 1) by (rewrite ln_1; lra). apply ln_inv in L; lra.
      * rewrite H, ln_1. replace (G0 - 0) with G0 by ring. exact G.
Qed.
Print Assumptions C37_logK_gradient_refuted.

(** Two spins, four samples in three distinct states. *)
(** The gradient of logK cannot overflow nor divide by zero: after the shift of line 616 all
    exponents are at most 0 and one of them is 0, so that every exponential is at most 1 and
    the denominator is at least the smallest number of occurrences. *)
Theorem C37_logK_exponents : forall (power : list (list R)) (Xcount : list R) (m : R),
  concat power <> [] -> length Xcount = length power -> 0 < m -> (forall x, In x Xcount -> m <= x) ->
  (forall p, In p (concat (shift_power power)) -> p <= 0 /\ exp p <= 1) /\
  In 0 (concat (shift_power power)) /\
  m <= weight_sum Xcount (shift_power power).
Proof.
  intros power Xcount m Hne HL Hm Hx.
  assert (HC : concat (shift_power power) = map (fun p => p - rmax (concat power)) (concat power)) by (unfold shift_power; now rewrite concat_map).
  assert (H0 : In 0 (concat (shift_power power))).
  { rewrite HC. apply in_map_iff. exists (rmax (concat power)). split; [ring|]. now apply rmax_in. }
  split; [|split; [exact H0|]].
  - rewrite HC. intros p Hp. apply in_map_iff in Hp. destruct Hp as (q & <- & Hq). apply rmax_ub in Hq. split; [lra|].
    rewrite <- exp_0. destruct (Req_dec (q - rmax (concat power)) 0) as [E|E]; [rewrite E; lra|left; apply exp_increasing; lra].
  - assert (HL2 : length Xcount = length (shift_power power)) by (unfold shift_power; now rewrite map_length).
    revert H0 HL2. generalize (shift_power power). clear - Hm Hx. intros rows. revert rows.
    assert (PS : forall c r, 0 < c -> 0 <= sumf r (fun p => exp p * c)).
    { intros c r Hc. induction r as [|p r IH]; cbn; [lra|]. unfold sumf in *. cbn. pose proof (exp_pos p). nra. }
    induction Xcount as [|c cs IH]; intros [|r rows] H0 HL; cbn in HL; try discriminate; [contradiction|].
    assert (Hc : m <= c) by (apply Hx; now left).
    assert (Hcs : forall x, In x cs -> m <= x) by (intros; apply Hx; now right).
    assert (Hrest : 0 <= weight_sum cs rows).
    { clear - Hcs PS Hm. unfold weight_sum. revert rows. induction cs as [|d ds IH]; intros [|r rows]; unfold sumf; cbn; try lra.
      assert (Hd : m <= d) by (apply Hcs; now left). pose proof (PS d r ltac:(lra)) as P1. pose proof (IH (fun x H => Hcs x (or_intror H)) rows) as P2.
      unfold sumf in *. lra. }
    unfold weight_sum in *. unfold sumf in *. cbn [combine fold_right fst snd]. cbn [concat] in H0. apply in_app_or in H0. destruct H0 as [H0|H0].
    + assert (P : m <= fold_right (fun a acc => exp a * c + acc) 0 r).
      { clear - H0 Hc Hm PS. induction r as [|p r IH]; [contradiction|]. cbn [fold_right]. pose proof (PS c r ltac:(lra)) as P1. pose proof (exp_pos p).
        destruct H0 as [->|H0]; [rewrite exp_0; lra|]. specialize (IH H0). nra. }
      lra.
    + pose proof (IH Hcs rows H0 ltac:(lia)). pose proof (PS c r ltac:(lra)). lra.
Qed.
Print Assumptions C37_logK_exponents.

Example C37_exponents_example : concat (shift_power [[1; 3]; [2; 0]]) = [-2; 0; -1; -3] /\ 1 <= weight_sum [1; 4] (shift_power [[1; 3]; [2; 0]]).
Proof.
  split; [|apply C37_logK_exponents; [discriminate|reflexivity|lra|intros x [<-|[<-|[]]]; lra]].
  assert (E : rmax [1; 3; 2; 0] = 3) by (unfold rmax; cbn [fold_left]; rewrite (Rmax_right 1 3), (Rmax_left 3 2), (Rmax_left 3 0) by lra; reflexivity).
  unfold shift_power. cbn [concat app map]. rewrite E. repeat f_equal; lra.
Qed.

Example C37_example : let X := [[0; 0]; [1; 0]; [1; 1]] in let c := [1; 2; 1] in let a := map (fun s => fst (adj s)) X in
  length c = length X /\ length a = length X /\ (forall l, In l a -> length l = 2%nat) /\ (forall x, In x c -> 0 < x) /\
  states_of_size 2 X a /\ sumR c = 4.
Proof.
  cbn zeta. repeat split; try reflexivity.
  - intros l H. cbn in H. repeat (destruct H as [<-|H]; [reflexivity|]). destruct H.
  - intros x H. cbn in H. repeat (destruct H as [<-|H]; [lra|]). destruct H.
  - intros l H. cbn in H. repeat (destruct H as [<-|H]; [reflexivity|]). destruct H.
  - intros l x H. cbn in H.
    repeat (destruct H as [<-|H]; [cbn; intros H; repeat (destruct H as [<-|H]; [reflexivity|]); destruct H|]). destruct H.
  - cbn. ring.
Qed.

(** ** C38 *)
(** Setting of C38: [us] lists every state in {0,1}^n exactly once, the weight of state u
    is [c u], and the weights are proportional to the Boltzmann weights of the model with
    parameters [theta] (exact data, infinite-data limit). *)
Definition all_binary (n : nat) (us : list (list Z)) : Prop :=
  NoDup us /\ forall u, In u us <-> In u (all_states [0; 1]%Z n).
Definition exact_weights (n : nat) (theta : list R) (us : list (list Z)) (c : list Z -> R) : Prop :=
  exists W, 0 < W /\ forall u, In u us -> c u = W * exp (- ising_energy n theta (map IZR u)).

Section Exact.
Variables (n : nat) (us : list (list Z)) (c : list Z -> R).
Hypothesis Hus : all_binary n us.
Let Xuniq := map (map IZR) us.
Let Xcount := map c us.
Let adjs := map (fun s => fst (adj s)) Xuniq.
Let flz (i : nat) (u : list Z) := upd u i (1 - nth i u 0)%Z.

Lemma us_len u : In u us -> length u = n /\ forall x, In x u -> x = 0%Z \/ x = 1%Z.
Proof.
  intros H. apply (proj2 Hus) in H. apply all_states_spec in H. destruct H as [H1 H2]. split; [assumption|].
  intros x Hx. specialize (H2 x Hx). cbn in H2. intuition.
Qed.

Lemma map_upd_gen {A B} (f : A -> B) l i v : map f (upd l i v) = upd (map f l) i (f v).
Proof. revert i. induction l as [|x l IH]; intros [|i]; cbn [upd map]; f_equal; auto. Qed.

Lemma nth_map_IZR u i : nthR (map IZR u) i = IZR (nth i u 0%Z).
Proof. unfold nthR. exact (map_nth IZR u 0%Z i). Qed.

Lemma flz_spec i u : (i < n)%nat -> In u us -> In (flz i u) us /\ flz i (flz i u) = u.
Proof.
  intros Hi Hu. destruct (us_len u Hu) as [L V]. split.
  - apply (proj2 Hus). apply in_all_states_upd; [now apply (proj2 Hus)|].
    destruct (V (nth i u 0%Z)) as [->| ->]; [apply nth_In; lia|right; left; reflexivity|left; reflexivity].
  - unfold flz. rewrite nth_upd_same by lia. rewrite upd_upd. replace (1 - (1 - nth i u 0))%Z with (nth i u 0)%Z by lia. apply upd_same.
Qed.

Lemma adj_row u : In u us -> fst (adj (map IZR u)) = map (fun i => map IZR (flz i u)) (seq 0 n).
Proof.
  intros Hu. rewrite adj_eq. cbn [fst]. rewrite map_length, (proj1 (us_len u Hu)). apply map_ext. intros i.
  unfold flz. rewrite map_upd_gen, nth_map_IZR, minus_IZR. reflexivity.
Qed.

Lemma flow_exact (E : list R -> list R -> R) params :
  flow E Xuniq Xcount adjs params = tflow us n flz c (fun u => E (map IZR u) params).
Proof.
  unfold flow, tflow. unfold Xuniq at 1. rewrite map_length.
  rewrite <- (sumf_seq_nth [] us (fun s => sumf (seq 0 n) (fun i => c s * exp (/ 2 * (E (map IZR s) params - E (map IZR (flz i s)) params))))).
  apply sumf_ext_in. intros k Hk. apply in_seq in Hk. assert (Hin : In (nth k us []) us) by (apply nth_In; lia).
  assert (E1 : nth k Xuniq [] = map IZR (nth k us [])) by exact (map_nth (map IZR) us [] k).
  assert (E2 : nth k adjs [] = fst (adj (map IZR (nth k us [])))).
  { unfold adjs. rewrite (nth_indep _ [] (fst (adj (map IZR (nth k us []))))) by (unfold Xuniq; rewrite !map_length; lia).
    rewrite <- E1. rewrite (nth_indep _ _ (fst (adj (@nil R)))) by (unfold Xuniq; rewrite !map_length; lia). exact (map_nth (fun s => fst (adj s)) Xuniq [] k). }
  assert (E3 : nthR Xcount k = c (nth k us [])).
  { unfold Xcount, nthR. rewrite (nth_indep _ 0 (c [])) by (rewrite map_length; lia). apply map_nth. }
  rewrite E1, E2, E3, adj_row by assumption. now rewrite sumf_map.
Qed.

Lemma dflow_exact (E : list R -> list R -> R) D params j :
  dflow E Xuniq Xcount adjs D params j =
  sumf us (fun s => sumf (seq 0 n) (fun i => / 2 * (c s * exp (/ 2 * (E (map IZR s) params - E (map IZR (flz i s)) params)) *
    (D (map IZR s) j - D (map IZR (flz i s)) j)))).
Proof.
  unfold dflow. unfold Xuniq at 1. rewrite map_length.
  rewrite <- (sumf_seq_nth [] us (fun s => sumf (seq 0 n) (fun i => / 2 * (c s * exp (/ 2 * (E (map IZR s) params - E (map IZR (flz i s)) params)) *
    (D (map IZR s) j - D (map IZR (flz i s)) j))))).
  apply sumf_ext_in. intros k Hk. apply in_seq in Hk. assert (Hin : In (nth k us []) us) by (apply nth_In; lia).
  assert (E1 : nth k Xuniq [] = map IZR (nth k us [])) by exact (map_nth (map IZR) us [] k).
  assert (E2 : nth k adjs [] = fst (adj (map IZR (nth k us [])))).
  { unfold adjs. rewrite (nth_indep _ [] (fst (adj (map IZR (nth k us []))))) by (unfold Xuniq; rewrite !map_length; lia).
    rewrite <- E1. rewrite (nth_indep _ _ (fst (adj (@nil R)))) by (unfold Xuniq; rewrite !map_length; lia). exact (map_nth (fun s => fst (adj s)) Xuniq [] k). }
  assert (E3 : nthR Xcount k = c (nth k us [])).
  { unfold Xcount, nthR. rewrite (nth_indep _ 0 (c [])) by (rewrite map_length; lia). apply map_nth. }
  rewrite E1, E2, E3, adj_row by assumption. now rewrite sumf_map.
Qed.

(** Energies that differ by the same amount across every flip differ by a constant. *)
Lemma flips_const (D : list Z -> R) : (forall u i, In u us -> (i < n)%nat -> D (flz i u) = D u) ->
  forall u, In u us -> D u = D (repeat 0%Z n).
Proof.
  intros HD u Hu.
  assert (G : forall k u, (k <= n)%nat -> In u us -> In (repeat 0%Z k ++ skipn k u) us /\ D (repeat 0%Z k ++ skipn k u) = D u).
  { clear u Hu. induction k as [|k IH]; intros u Hk Hu; [split; [exact Hu|reflexivity]|].
    destruct (IH u ltac:(lia) Hu) as [I1 I2]. destruct (us_len u Hu) as [L V].
    set (w := repeat 0%Z k ++ skipn k u) in *.
    assert (Ew : repeat 0%Z (S k) ++ skipn (S k) u = upd w k 0%Z).
    { unfold w. replace (repeat 0%Z (S k)) with (repeat 0%Z k ++ [0%Z]) by (symmetry; apply repeat_cons).
      rewrite <- app_assoc. cbn [app].
      destruct (skipn k u) as [|x t] eqn:Es.
      { exfalso. apply (f_equal (@length Z)) in Es. rewrite skipn_length in Es. cbn in Es. lia. }
      replace (skipn (S k) u) with t.
      2:{ clear - Es. revert u Es. induction k as [|k IH]; intros [|y u] Es; cbn [skipn] in *; try discriminate; [now injection Es|now apply IH]. }
      clear. induction k as [|k IH]; cbn [repeat app upd]; [reflexivity|]. now rewrite <- IH. }
    rewrite Ew. destruct (us_len w I1) as [Lw Vw].
    destruct (Vw (nth k w 0%Z)) as [E0|E0]; [apply nth_In; lia| |].
    - replace (upd w k 0%Z) with w; [auto|]. rewrite <- E0 at 1. symmetry. apply upd_same.
    - assert (Ef : upd w k 0%Z = flz k w) by (unfold flz; rewrite E0; reflexivity). rewrite Ef.
      split; [now apply flz_spec|]. rewrite HD by (assumption || lia). exact I2. }
  destruct (G n u (Nat.le_refl _) Hu) as [_ H]. rewrite skipn_all2 in H by (rewrite (proj1 (us_len u Hu)); lia). rewrite app_nil_r in H. symmetry. exact H.
Qed.

Variables (theta : list R).
Hypothesis Hc : exact_weights n theta us c.
Hypothesis Ht : length theta = (n + n * (n - 1) / 2)%nat.

Lemma exact_minimum params : length params = length theta ->
  flow ising_calc_e_row Xuniq Xcount adjs theta <= flow ising_calc_e_row Xuniq Xcount adjs params /\
  (flow ising_calc_e_row Xuniq Xcount adjs params = flow ising_calc_e_row Xuniq Xcount adjs theta -> params = theta).
Proof.
  intros Hp. rewrite !flow_exact. destruct Hc as (W & HW & Hw).
  assert (Hw' : forall s, In s us -> c s = W * exp (- ising_calc_e_row (map IZR s) theta)).
  { intros s Hs. rewrite Hw by assumption. do 3 f_equal. symmetry. apply C15_ising_energy; [rewrite map_length; now apply us_len|assumption]. }
  destruct (tflow_min us n flz (proj1 Hus) flz_spec (fun u => ising_calc_e_row (map IZR u) theta) W c HW Hw'
    (fun u => ising_calc_e_row (map IZR u) params)) as [M1 M2].
  split; [exact M1|]. intros E. specialize (M2 E).
  set (D := fun u => ising_energy n params (map IZR u) - ising_energy n theta (map IZR u)).
  assert (HD : forall u, In u us -> D u = D (repeat 0%Z n)).
  { apply flips_const. intros u i Hu Hi. pose proof (M2 u i Hu Hi) as H. destruct (flz_spec i u Hi Hu) as [Hf _]. unfold D.
    assert (Q : forall p v, length p = length theta -> In v us -> ising_calc_e_row (map IZR v) p = ising_energy n p (map IZR v)).
    { intros p v Lp Hv. apply C15_ising_energy; [rewrite map_length; now apply us_len|congruence]. }
    rewrite !Q in H by auto. lra. }
  apply (ising_energy_unique 0 1 n params theta (D (repeat 0%Z n))); [lra|congruence|assumption|].
  intros s Hs. change [0; 1] with (map IZR [0; 1]%Z) in Hs. rewrite all_states_map in Hs. apply in_map_iff in Hs. destruct Hs as (u & <- & Hu).
  apply (proj2 Hus) in Hu. specialize (HD u Hu). unfold D in HD at 1. lra.
Qed.

Lemma exact_stationary D j :
  dflow ising_calc_e_row Xuniq Xcount adjs D theta j = 0.
Proof.
  rewrite dflow_exact. destruct Hc as (W & HW & Hw).
  assert (Hw' : forall s, In s us -> c s = W * exp (- ising_calc_e_row (map IZR s) theta)).
  { intros s Hs. rewrite Hw by assumption. do 3 f_equal. symmetry. apply C15_ising_energy; [rewrite map_length; now apply us_len|assumption]. }
  apply (tflow_stationary us n flz (proj1 Hus) flz_spec (fun u => ising_calc_e_row (map IZR u) theta) W c Hw' (fun u => D (map IZR u) j)).
Qed.
End Exact.

(** Exact data: the derivatives of K at the true parameters vanish (the gradient that K
    returns when calc_de is available is zero). *)
Theorem C38_true_parameters_stationary : forall (n : nat) (us : list (list Z)) (c : list Z -> R) (theta : list R),
  all_binary n us -> exact_weights n theta us c -> length theta = (n + n * (n - 1) / 2)%nat ->
  let Xuniq := map (map IZR) us in let adjs := map (fun s => fst (adj s)) Xuniq in
  (forall j, (j < length theta)%nat ->
    is_derive (fun t => prob_flow (ising_energy n (upd theta j t)) Xuniq (map c us) adjs) (nthR theta j) 0) /\
  exists K, mpf_K ising_calc_e_row (Some calc_de_row) Xuniq (map c us) adjs theta = Ok (K, Some (repeat 0 (length theta))).
Proof.
  intros n us c theta Hus Hc Ht Xuniq adjs.
  assert (HS : states_of_size n Xuniq adjs).
  { split.
    - intros s Hs. unfold Xuniq in Hs. apply in_map_iff in Hs. destruct Hs as (u & <- & Hu). rewrite map_length. now apply (us_len n us Hus).
    - intros l a Hl Ha. unfold adjs in Hl. apply in_map_iff in Hl. destruct Hl as (s & <- & Hs).
      unfold Xuniq in Hs. apply in_map_iff in Hs. destruct Hs as (u & <- & Hu). rewrite (adj_row n us Hus u Hu) in Ha.
      apply in_map_iff in Ha. destruct Ha as (i & <- & Hi). rewrite map_length, upd_length. now apply (us_len n us Hus). }
  assert (HC : length (map c us) = length Xuniq) by (unfold Xuniq; now rewrite !map_length).
  assert (HA : length adjs = length Xuniq) by (unfold adjs; now rewrite map_length).
  destruct (C37_K_gradient n Xuniq (map c us) adjs theta HC HA HS Ht) as (grad & EK & Lg & Hg).
  assert (EG : grad = repeat 0 (length theta)).
  { rewrite (mpf_K_grad _ _ _ _ HC HA calc_de_row (fun s j => - nthR (ising_obs s) j)) in EK.
    - injection EK as _ <-. transitivity (map (fun _ : nat => 0) (seq 0 (length theta))).
      + apply map_ext. intros j. unfold adjs, Xuniq. rewrite (exact_stationary n us c Hus theta Hc Ht). unfold Rdiv. ring.
      + clear. generalize 0%nat. induction (length theta) as [|m IH]; intros k; cbn; [reflexivity|]. now rewrite IH.
    - intros s j Ho Hj. apply calc_de_row_obs. rewrite (occurs_length n _ _ s HS Ho). lia. }
  split.
  - intros j Hj. specialize (Hg j Hj). rewrite EG in Hg. unfold nthR at 2 in Hg. rewrite nth_repeat in Hg. exact Hg.
  - eexists. rewrite EK, EG. reflexivity.
Qed.
Print Assumptions C38_true_parameters_stationary.

(** ... and they are the only global minimum of K and of logK. *)
Theorem C38_true_parameters_unique_minimum : forall (n : nat) (us : list (list Z)) (c : list Z -> R) (theta params : list R),
  (1 <= n)%nat -> all_binary n us -> exact_weights n theta us c ->
  length theta = (n + n * (n - 1) / 2)%nat -> length params = length theta ->
  let Xuniq := map (map IZR) us in let adjs := map (fun s => fst (adj s)) Xuniq in
  exists K0 K, mpf_K ising_calc_e_row None Xuniq (map c us) adjs theta = Ok (K0, None) /\
    mpf_K ising_calc_e_row None Xuniq (map c us) adjs params = Ok (K, None) /\
    mpf_logK ising_calc_e_row None Xuniq (map c us) adjs theta = Ok (ln K0, None) /\
    mpf_logK ising_calc_e_row None Xuniq (map c us) adjs params = Ok (ln K, None) /\
    K0 <= K /\ ln K0 <= ln K /\ (K = K0 -> params = theta) /\ (ln K = ln K0 -> params = theta).
Proof.
  intros n us c theta params Hn Hus Hc Ht Hp Xuniq adjs.
  assert (HC : length (map c us) = length Xuniq) by (unfold Xuniq; now rewrite !map_length).
  assert (HA : length adjs = length Xuniq) by (unfold adjs; now rewrite map_length).
  assert (H0 : In (repeat 0%Z n) us).
  { apply (proj2 Hus). apply all_states_spec. rewrite repeat_length. split; [reflexivity|]. intros x Hx. apply repeat_spec in Hx. subst. now left. }
  assert (Hm : (0 < length Xuniq)%nat) by (unfold Xuniq; rewrite map_length; destruct us; [destruct H0|cbn; lia]).
  assert (Hr : forall l, In l adjs -> length l = n).
  { intros l Hl. unfold adjs in Hl. apply in_map_iff in Hl. destruct Hl as (s & <- & Hs).
    unfold Xuniq in Hs. apply in_map_iff in Hs. destruct Hs as (u & <- & Hu). rewrite (adj_row n us Hus u Hu). now rewrite map_length, seq_length. }
  assert (Hpos : forall x, In x (map c us) -> 0 < x).
  { intros x Hx. apply in_map_iff in Hx. destruct Hx as (u & <- & Hu). destruct Hc as (W & HW & Hw). rewrite Hw by assumption.
    apply Rmult_lt_0_compat; [assumption|apply exp_pos]. }
  destruct (C37_objective_values ising_calc_e_row Xuniq (map c us) adjs theta n HC HA Hm Hr Hpos) as [A1 A2].
  destruct (C37_objective_values ising_calc_e_row Xuniq (map c us) adjs params n HC HA Hm Hr Hpos) as [B1 B2].
  rewrite prob_flow_flow in A1, A2, B1, B2.
  destruct (exact_minimum n us c Hus theta Hc Ht params Hp) as [M1 M2]. fold Xuniq adjs in M1, M2.
  assert (HN : 0 < sumR (map c us)).
  { unfold sumR. apply sumf_pos; [|intros x Hx; now apply Hpos]. intros E. apply (f_equal (@length R)) in E. cbn [length] in E. lia. }
  assert (HF : forall p, 0 < flow ising_calc_e_row Xuniq (map c us) adjs p).
  { intros p. apply flow_pos; auto.
    - intros k Hk. rewrite !Hr; [reflexivity| |]; apply nth_In; lia.
    - intros k Hk. apply Hpos, nth_In. rewrite map_length. unfold Xuniq in Hk. rewrite map_length in Hk. exact Hk.
    - rewrite Hr; [lia|apply nth_In; lia]. }
  set (F0 := flow ising_calc_e_row Xuniq (map c us) adjs theta) in *. set (F := flow ising_calc_e_row Xuniq (map c us) adjs params) in *.
  set (N := sumR (map c us)) in *. assert (P0 : 0 < F0) by apply HF. assert (P1 : 0 < F) by apply HF.
  assert (Q0 : 0 < F0 / N) by (now apply Rdiv_lt_0_compat). assert (Q1 : 0 < F / N) by (now apply Rdiv_lt_0_compat).
  assert (L : F0 / N <= F / N) by (apply Rmult_le_compat_r; [left; now apply Rinv_0_lt_compat|assumption]).
  assert (U : F / N = F0 / N -> params = theta).
  { intros H. apply M2. apply (Rmult_eq_reg_r (/ N)); [exact H|]. apply Rinv_neq_0_compat. lra. }
  exists (F0 / N), (F / N). repeat split; try assumption.
  - destruct L as [L|L]; [left; now apply ln_increasing|right; now rewrite L].
  - intros H. apply U. now apply ln_inv.
Qed.
Print Assumptions C38_true_parameters_unique_minimum.

(** *** End to end *)
Lemma convert_concat_ok n x b : (1 <= n)%nat -> length x = (n + n * (n - 1) / 2)%nat -> b <> ToOther ->
  exists y c, convert_concat n x b = Ok y /\ length y = length x /\
    forall s, length s = n -> ising_energy n y s =
      ising_energy n x (map (fun v => match b with To01 => 2 * v + -1 | _ => / 2 * v + / 2 end) s) + c.
Proof.
  intros Hn Hx Hb. set (h := firstn n x). set (J := skipn n x).
  assert (Lh : length h = n) by (unfold h; rewrite firstn_length; lia).
  assert (LJ : length J = (n * (n - 1) / 2)%nat) by (unfold J; rewrite skipn_length; lia).
  assert (Ex : x = h ++ J) by (symmetry; apply firstn_skipn). clearbody h J. unfold convert_concat.
  destruct (Nat.eq_dec n 1) as [E1|N1].
  - rewrite E1 in *. assert (EJ : J = []) by (destruct J; [reflexivity|discriminate LJ]).
    assert (Ec : x = concat [h]) by (cbn [concat]; rewrite Ex, EJ; reflexivity).
    rewrite (f_equal (fun z => split_concat_params (S (length x)) z 1) Ec).
    rewrite C07_split_concat_round_trip.
    2: cbn; lia. 2:{ intros [|k] Hk; cbn [nth length] in *; [rewrite Lh; reflexivity|lia]. } 2:{ cbn [length]. rewrite Hx. cbn. lia. }
    cbn [bind].
    assert (Hg : good_params 1 [h]).
    { split; [discriminate|]. intros [|k] Hk; cbn [nth length] in *; [now rewrite binom_n_1|lia]. }
    destruct (convert_any 1 [h] b Hg Hb) as (ps & E & L & Hl & c & Hc). rewrite E. cbn [bind].
    destruct ps as [|h2 [|]]; try discriminate. pose proof (Hl 0%nat ltac:(cbn; lia)) as L1. cbn [nth] in L1. rewrite binom_n_1 in L1.
    exists (concat [h2]), c. split; [reflexivity|]. split; [cbn [concat]; rewrite app_nil_r, Ex, EJ, app_nil_r; congruence|].
    intros s Hs. cbn [concat].
    assert (M1 : forall g s, length g = 1%nat -> length s = 1%nat -> multi_energy [g] s = ising_energy 1 (g ++ []) s).
    { intros g t Hg1 Ht1. rewrite <- (multi_energy_2 1 g [] t) by (auto; reflexivity). unfold multi_energy. cbn [length seq].
      rewrite !sumf_cons, !sumf_nil. cbn [nth]. unfold dot. destruct (corr_obs 2 t); cbn; ring. }
    rewrite <- M1 by assumption. rewrite Hc by assumption. rewrite M1 by (rewrite ?map_length; assumption).
    rewrite Ex, EJ. reflexivity.
  - assert (Hn2 : (2 <= n)%nat) by lia.
    assert (Ec : x = concat [h; J]) by (cbn [concat]; rewrite app_nil_r; exact Ex).
    rewrite (f_equal (fun z => split_concat_params (S (length x)) z n) Ec).
    rewrite C07_split_concat_round_trip.
    2: cbn; lia. 2:{ intros [|[|k]] Hk; cbn [nth length] in *; [cbn [Nat.add]; now rewrite Lh, binom_n_1|cbn [Nat.add]; now rewrite LJ, binom_n_2|lia]. }
    2:{ cbn [length]. lia. }
    cbn [bind].
    assert (Hg : good_params n [h; J]).
    { split; [discriminate|]. intros [|[|k]] Hk; cbn [nth length] in *; [now rewrite binom_n_1|now rewrite binom_n_2|lia]. }
    destruct (convert_any n [h; J] b Hg Hb) as (ps & E & L & Hl & c & Hc). rewrite E. cbn [bind].
    destruct ps as [|h2 [|J2 [|]]]; try discriminate. pose proof (Hl 0%nat ltac:(cbn; lia)) as L1. pose proof (Hl 1%nat ltac:(cbn; lia)) as L2.
    cbn [nth] in L1, L2. rewrite binom_n_1 in L1. rewrite binom_n_2 in L2.
    exists (concat [h2; J2]), c. split; [reflexivity|]. cbn [concat]. rewrite app_nil_r. split; [rewrite app_length; lia|].
    intros s Hs. rewrite <- (multi_energy_2 n h2 J2 s L1 L2 Hs), Hc by assumption.
    rewrite (multi_energy_2 n h J) by (rewrite ?map_length; auto). now rewrite <- Ex.
Qed.

(** Points in the search box of the minimiser. *)
Definition in_box (L : R) (x : list R) : Prop := forall v, In v x -> Rabs v <= L.
(** [y] is a global minimum of the objective in the box, where the objective is defined. *)
Definition is_minimum (f : list R -> result (R * option (list R))) (m : nat) (L : R) (y : list R) : Prop :=
  length y = m /\ in_box L y /\ exists v o, f y = Ok (v, o) /\
  forall z, length z = m -> in_box L z -> exists w o', f z = Ok (w, o') /\ v <= w.
(** A minimiser that finds the global minimum whenever there is one. *)
Definition exact_minimiser (minimize : (list R -> result (R * option (list R))) -> list R -> R -> list R) : Prop :=
  forall f guess L y, is_minimum f (length guess) L y -> is_minimum f (length guess) L (minimize f guess L).

(** Given samples whose frequencies are exactly those of the model with fields and
    couplings hJ, and a minimiser that finds the minimum, solve returns hJ, with and without the logarithm. *)
Theorem C38_solve_recovers_parameters : forall (lt : list Z -> list Z -> bool) (n : nat) (sample : list (list Z))
  (guess : option (list R)) (limit : R) (uselog : bool) minimize (hJ theta : list R) (c0 : R),
  strict_total lt -> (1 <= n)%nat -> length hJ = (n + n * (n - 1) / 2)%nat -> 0 < limit ->
  (forall g, guess = Some g -> length g = length hJ) ->
  (* the data: spins in {-1,1}, each state as often as the model says *)
  sample <> [] -> (forall r, In r sample -> In r (all_states [-1; 1]%Z n)) ->
  (forall s, In s (all_states [-1; 1]%Z n) ->
    INR (count_occ rows_dec sample s) / INR (length sample) =
    boltzmann (ising_energy n hJ) (all_states [-1; 1] n) (map IZR s)) ->
  (* theta: the same model for spins in {0,1}; it lies within the parameter limits *)
  length theta = length hJ -> in_box limit theta ->
  (forall s, In s (all_states [0; 1] n) -> ising_energy n theta s = ising_energy n hJ (map (fun y => 2 * y - 1) s) + c0) ->
  exact_minimiser minimize ->
  mpf_solve ising_calc_e_row ising_calc_observables_row lt (mpf_new None None) n sample guess true limit uselog minimize = Ok hJ.
Proof.
  intros lt n sample guess limit uselog minimize hJ theta c0 Hlt Hn HhJ Hlim Hguess Hne Hrows Hfreq Lth Hbox Hth Hmin.
  set (X := map (map (fun x => ((x + 1) / 2)%Z)) sample).
  set (us := np_unique lt X).
  set (Xuniq := map (map IZR) us).
  set (c := fun u => INR (length (filter (row_eqb u) X))).
  (* rescaling of the rows *)
  set (up := map (fun y : Z => (2 * y - 1)%Z)). set (dn := map (fun x : Z => ((x + 1) / 2)%Z)).
  assert (UD : forall s, In s (all_states [-1; 1]%Z n) -> In (dn s) (all_states [0; 1]%Z n) /\ up (dn s) = s).
  { intros s Hs. apply all_states_spec in Hs. destruct Hs as [Hl Hv]. split.
    - apply all_states_spec. unfold dn. rewrite map_length. split; [assumption|]. intros x Hx. apply in_map_iff in Hx. destruct Hx as (y & <- & Hy).
      specialize (Hv y Hy). cbn in Hv. destruct Hv as [<-|[<-|[]]]; cbn; auto.
    - unfold up, dn. rewrite map_map. rewrite <- (map_id s) at 2. apply map_ext_in. intros y Hy. specialize (Hv y Hy). cbn in Hv.
      destruct Hv as [<-|[<-|[]]]; reflexivity. }
  assert (DU : forall s, In s (all_states [0; 1]%Z n) -> In (up s) (all_states [-1; 1]%Z n) /\ dn (up s) = s).
  { intros s Hs. apply all_states_spec in Hs. destruct Hs as [Hl Hv]. split.
    - apply all_states_spec. unfold up. rewrite map_length. split; [assumption|]. intros x Hx. apply in_map_iff in Hx. destruct Hx as (y & <- & Hy).
      specialize (Hv y Hy). cbn in Hv. destruct Hv as [<-|[<-|[]]]; cbn; auto.
    - unfold up, dn. rewrite map_map. rewrite <- (map_id s) at 2. apply map_ext_in. intros y Hy. specialize (Hv y Hy). cbn in Hv.
      destruct Hv as [<-|[<-|[]]]; reflexivity. }
  assert (CNT : forall u, In u (all_states [0; 1]%Z n) -> c u = INR (count_occ rows_dec sample (up u))).
  { intros u Hu. unfold c, X. f_equal. clear Hne Hfreq. induction sample as [|r l IH]; [reflexivity|]. cbn [map filter].
    fold dn. assert (Hr := Hrows r (or_introl eq_refl)). destruct (UD r Hr) as [_ Er]. destruct (DU u Hu) as [_ Eu].
    assert (IH' : length (filter (row_eqb u) (map dn l)) = count_occ rows_dec l (up u))
      by (apply IH; intros q Hq; apply Hrows; now right).
    destruct (row_eqb u (dn r)) eqn:Eq.
    - apply row_eqb_eq in Eq. rewrite count_occ_cons_eq by congruence. cbn [length]. now rewrite IH'.
    - rewrite count_occ_cons_neq; [exact IH'|]. intros H. rewrite H, Eu, row_eqb_refl in Eq. discriminate. }
  assert (HNs : 0 < INR (length sample)) by (apply lt_0_INR; destruct sample; [congruence|cbn; lia]).
  assert (HZ : 0 < partition (ising_energy n hJ) (all_states [-1; 1] n)).
  { apply sumf_pos; [|intros; apply exp_pos]. intros E. assert (I : In (repeat 1 n) (all_states [-1; 1] n)).
    { apply all_states_spec. rewrite repeat_length. split; [reflexivity|]. intros x Hx. apply repeat_spec in Hx. subst. right. now left. }
    rewrite E in I. destruct I. }
  assert (UPR : forall u, map IZR (up u) = map (fun y => 2 * y - 1) (map IZR u)).
  { intros u. unfold up. rewrite !map_map. apply map_ext. intros y. rewrite minus_IZR, mult_IZR. reflexivity. }
  assert (EW : exact_weights n theta (all_states [0; 1]%Z n) c).
  { exists (INR (length sample) / partition (ising_energy n hJ) (all_states [-1; 1] n) * exp c0). split.
    - apply Rmult_lt_0_compat; [now apply Rdiv_lt_0_compat|apply exp_pos].
    - intros u Hu. rewrite CNT by assumption. destruct (DU u Hu) as [HU _]. specialize (Hfreq (up u) HU).
      assert (Hu' : In (map IZR u) (all_states [0; 1] n)) by (change [0; 1] with (map IZR [0; 1]%Z); rewrite all_states_map; now apply in_map).
      rewrite Hth by assumption. rewrite UPR in Hfreq. unfold boltzmann in Hfreq.
      set (e := ising_energy n hJ (map (fun y => 2 * y - 1) (map IZR u))) in *.
      replace (- (e + c0)) with (- e + - c0) by ring. rewrite exp_plus, (exp_Ropp c0).
      apply (Rmult_eq_compat_r (INR (length sample))) in Hfreq. unfold Rdiv in Hfreq. rewrite Rmult_assoc, Rinv_l, Rmult_1_r in Hfreq by lra.
      rewrite Hfreq. pose proof (exp_pos c0). field. split; lra. }
  assert (Hus : all_binary n us).
  { split; [now apply np_unique_NoDup|]. intros u. unfold us. rewrite np_unique_in. split.
    - intros H. unfold X in H. apply in_map_iff in H. destruct H as (r & <- & Hr). now apply UD, Hrows.
    - intros Hu. destruct (DU u Hu) as [HU Eu]. assert (Hin : In (up u) sample).
      { apply (count_occ_In rows_dec). destruct (count_occ rows_dec sample (up u)) eqn:E0; [|lia]. exfalso.
        destruct EW as (W & HW & Hw). specialize (Hw u Hu). rewrite CNT, E0 in Hw by assumption. cbn [INR] in Hw.
        pose proof (Rmult_lt_0_compat _ _ HW (exp_pos (- ising_energy n theta (map IZR u)))). lra. }
      rewrite <- Eu. unfold X. apply (in_map dn). exact Hin. }
  assert (Hc : exact_weights n theta us c).
  { destruct EW as (W & HW & Hw). exists W. split; [assumption|]. intros u Hu. apply Hw. now apply (proj2 Hus). }
  assert (Hex : Xuniq <> []).
  { intros E. assert (I : In (repeat 0%Z n) us).
    { apply (proj2 Hus). apply all_states_spec. rewrite repeat_length. split; [reflexivity|]. intros x Hx. apply repeat_spec in Hx. subst. now left. }
    unfold Xuniq in E. apply map_eq_nil in E. rewrite E in I. destruct I. }
  unfold mpf_solve. unfold Rltb. destruct (Rlt_dec 0 limit) as [_|NL]; [|lra]. cbn [negb]. fold X. cbn [mpf_new mpf_adj mpf_calc_de attr bind].
  fold us. fold Xuniq. change (map (fun u => INR (length (filter (row_eqb u) X))) us) with (map c us).
  (* the initial guess only matters for its length *)
  match goal with |- bind ?e ?k = _ => assert (G : exists g, e = Ok g /\ length g = length hJ) end.
  { destruct guess as [g|].
    - destruct (convert_concat_ok n g To01) as (y & cc & E & Ly & _); [assumption|rewrite (Hguess g eq_refl); assumption|discriminate|].
      exists y. split; [exact E|]. rewrite Ly. now apply Hguess.
    - eexists. split; [reflexivity|]. unfold range. rewrite map_length, seq_length, ising_calc_observables_row_eq, ising_obs_length, repeat_length. congruence. }
  destruct G as (g & EG & Lg). rewrite EG. cbn [bind].
  match goal with |- bind ?e ?k = _ => assert (EA : e = Ok (fun s => fst (adj s))) by (destruct Xuniq; [congruence|reflexivity]) end.
  rewrite EA. cbn [bind list_adjacent_states].
  set (adjs := map (fun s => fst (adj s)) Xuniq).
  set (f := fun params => if uselog then mpf_logK ising_calc_e_row None Xuniq (map c us) adjs params else mpf_K ising_calc_e_row None Xuniq (map c us) adjs params).
  assert (MIN : forall z, length z = length hJ -> exists v w, f theta = Ok (v, None) /\ f z = Ok (w, None) /\ v <= w /\ (w = v -> z = theta)).
  { intros z Lz. destruct (C38_true_parameters_unique_minimum n us c theta z Hn Hus Hc ltac:(congruence) ltac:(congruence)) as (K0 & K & A1 & A2 & A3 & A4 & A5 & A6 & A7 & A8).
    unfold f. destruct uselog; [exists (ln K0), (ln K)|exists K0, K]; repeat split; assumption. }
  assert (IM : is_minimum f (length g) limit theta).
  { split; [congruence|]. split; [assumption|]. destruct (MIN theta Lth) as (v & w & E1 & _). exists v, None. split; [exact E1|].
    intros z Lz _. destruct (MIN z ltac:(congruence)) as (v' & w' & E1' & E2' & Le & _). exists w', None. split; [exact E2'|].
    rewrite E1 in E1'. injection E1' as <-. exact Le. }
  pose proof (Hmin f g limit theta IM) as (Lx & _ & vx & ox & Ex & Hx).
  set (x := minimize f g limit) in *. destruct (MIN x ltac:(congruence)) as (v & w & E1 & E2 & Le & Heq).
  destruct (Hx theta ltac:(congruence) Hbox) as (w' & o' & E3 & Le').
  rewrite E1 in E3. injection E3 as <- <-. rewrite E2 in Ex. injection Ex as <- <-.
  assert (Exx : x = theta) by (apply Heq; lra). rewrite Exx.
  destruct (convert_concat_ok n theta To11 Hn ltac:(congruence) ltac:(discriminate)) as (y & cc & E & Ly & Hy). rewrite E. f_equal.
  apply (ising_energy_unique (-1) 1 n y hJ (c0 + cc)); [lra|congruence|assumption|].
  intros s Hs. assert (Ls : length s = n) by (now apply all_states_spec in Hs). rewrite Hy by assumption. rewrite Hth.
  - rewrite map_map. replace (map (fun x0 => 2 * (/ 2 * x0 + / 2) - 1) s) with s; [ring|].
    rewrite <- (map_id s) at 1. apply map_ext. intros; field.
  - apply all_states_spec. rewrite map_length. split; [assumption|]. apply all_states_spec in Hs. destruct Hs as [_ Hv].
    intros z Hz. apply in_map_iff in Hz. destruct Hz as (q & <- & Hq). specialize (Hv q Hq). cbn in Hv.
    destruct Hv as [<-|[<-|[]]]; cbn; [left; field|right; left; field].
Qed.
Print Assumptions C38_solve_recovers_parameters.

(** Two spins with coupling ln(2)/2 and six samples: aligned states twice as frequent. *)
Example C38_example :
  let hJ := [0; 0; ln 2 / 2] in let theta := [- ln 2; - ln 2; 2 * ln 2] in
  let sample := [[1; 1]; [1; 1]; [-1; -1]; [-1; -1]; [1; -1]; [-1; 1]]%Z in
  (forall r, In r sample -> In r (all_states [-1; 1]%Z 2)) /\
  (forall s, In s (all_states [-1; 1]%Z 2) ->
    INR (count_occ rows_dec sample s) / INR (length sample) =
    boltzmann (ising_energy 2 hJ) (all_states [-1; 1] 2) (map IZR s)) /\
  in_box 2 theta /\
  (forall s, In s (all_states [0; 1] 2) -> ising_energy 2 theta s = ising_energy 2 hJ (map (fun y => 2 * y - 1) s) + ln 2 / 2) /\
  exists minimize, exact_minimiser minimize.
Proof.
  assert (L : 0 < ln 2 < 1).
  { split; [rewrite <- ln_1; apply ln_increasing; lra|]. rewrite <- (ln_exp 1). apply ln_increasing; [lra|].
    pose proof (exp_ineq1 1 ltac:(lra)). lra. }
  assert (E : forall a b c x y, ising_energy 2 [a; b; c] [x; y] = - (a * x + b * y + c * (x * y))).
  { intros. unfold ising_energy, coupling, nthR. cbn. ring. }
  assert (X1 : exp (ln 2 / 2) * exp (ln 2 / 2) = 2) by (rewrite <- exp_plus; replace (ln 2 / 2 + ln 2 / 2) with (ln 2) by field; apply exp_ln; lra).
  assert (X2 : exp (- (ln 2 / 2)) = / exp (ln 2 / 2)) by apply exp_Ropp.
  pose proof (exp_pos (ln 2 / 2)) as X3.
  intros hJ theta sample. split; [|split; [|split; [|split]]].
  - intros r H. cbn in H. repeat (destruct H as [<-|H]; [cbn; tauto|]). destruct H.
  - intros s H. cbn [all_states flat_map map app] in H.
    assert (P : partition (ising_energy 2 hJ) (all_states [-1; 1] 2) = 2 * exp (ln 2 / 2) + 2 * / exp (ln 2 / 2)).
    { unfold partition. cbn [all_states flat_map map app]. rewrite !sumf_cons, sumf_nil. unfold hJ. rewrite !E, <- X2.
      replace (- - (0 * -1 + 0 * -1 + ln 2 / 2 * (-1 * -1))) with (ln 2 / 2) by ring.
      replace (- - (0 * -1 + 0 * 1 + ln 2 / 2 * (-1 * 1))) with (- (ln 2 / 2)) by ring.
      replace (- - (0 * 1 + 0 * -1 + ln 2 / 2 * (1 * -1))) with (- (ln 2 / 2)) by ring.
      replace (- - (0 * 1 + 0 * 1 + ln 2 / 2 * (1 * 1))) with (ln 2 / 2) by ring. ring. }
    unfold boltzmann. rewrite P. clear P. set (q := exp (ln 2 / 2)) in *.
    assert (A1 : q / (2 * q + 2 * / q) = 2 / 6).
    { apply (Rmult_eq_reg_r (2 * q + 2 * / q)); [|pose proof (Rinv_0_lt_compat q X3); lra]. unfold Rdiv at 1. rewrite Rmult_assoc, Rinv_l by (pose proof (Rinv_0_lt_compat q X3); lra).
      apply (Rmult_eq_reg_r q); [|lra]. replace (2 / 6 * (2 * q + 2 * / q) * q) with (2 / 6 * (2 * (q * q) + 2)) by (field; lra). rewrite X1, Rmult_1_r, X1. field. }
    assert (A2 : / q / (2 * q + 2 * / q) = 1 / 6).
    { replace (/ q) with (q * / 2) at 1 by (rewrite <- X1; field; lra). replace (q * / 2 / (2 * q + 2 * / q)) with (/ 2 * (q / (2 * q + 2 * / q))) by (unfold Rdiv; ring). rewrite A1. field. }
    repeat (destruct H as [<-|H]); [| | | |destruct H]; cbn [map]; unfold hJ; rewrite E; cbn [IZR].
    + replace (INR _ / INR _) with (2 / 6) by (cbn; field). rewrite <- A1. f_equal. unfold q. f_equal. ring.
    + replace (INR _ / INR _) with (1 / 6) by (cbn; field). rewrite <- A2. f_equal. rewrite <- X2. f_equal. ring.
    + replace (INR _ / INR _) with (1 / 6) by (cbn; field). rewrite <- A2. f_equal. rewrite <- X2. f_equal. ring.
    + replace (INR _ / INR _) with (2 / 6) by (cbn; field). rewrite <- A1. f_equal. unfold q. f_equal. ring.
  - intros v H. cbn in H. repeat (destruct H as [<-|H]; [apply Rabs_le; lra|]). destruct H.
  - intros s H. cbn [all_states flat_map map app] in H.
    repeat (destruct H as [<-|H]); [| | | |destruct H]; cbn [map]; unfold hJ, theta; rewrite !E; field.
  - exists (fun f guess L => ClassicalEpsilon.epsilon (inhabits []) (is_minimum f (length guess) L)).
    intros f guess L0 y H. apply ClassicalEpsilon.epsilon_spec. exists y. exact H.
Qed.

(** ** C66 *)
(** A user-supplied neighbour function or energy derivative is not usable: the constructor
    does not store it, and solve fails with AttributeError. *)
Theorem C66_custom_arguments_refuted :
  (forall calc_e obs lt adj_arg (calc_de : list R -> nat -> result R) n sample guess all_connected limit uselog minimize, 0 < limit ->
    mpf_solve calc_e obs lt (mpf_new adj_arg (Some calc_de)) n sample guess all_connected limit uselog minimize = Err AttributeError) /\
  (forall calc_e obs lt (adjf : list R -> list (list R)) n sample all_connected limit uselog minimize, 0 < limit -> sample <> [] ->
    mpf_solve calc_e obs lt (mpf_new (Some adjf) None) n sample None all_connected limit uselog minimize = Err AttributeError).
Proof.
  split.
  - intros. unfold mpf_solve, Rltb. destruct (Rlt_dec 0 limit) as [_|NL]; [|lra]. reflexivity.
  - intros calc_e obs lt adjf n sample all_connected limit uselog minimize Hl Hs. unfold mpf_solve, Rltb. destruct (Rlt_dec 0 limit) as [_|NL]; [|lra].
    cbn [negb mpf_new mpf_calc_de mpf_adj attr bind].
    destruct (map (map IZR) (np_unique lt (map (map (fun x => ((x + 1) / 2)%Z)) sample))) eqn:E; [|reflexivity].
    exfalso. apply map_eq_nil in E. destruct sample as [|r l]; [congruence|].
    assert (I : In (map (fun x => ((x + 1) / 2)%Z) r) (np_unique lt (map (map (fun x => ((x + 1) / 2)%Z)) (r :: l)))) by (apply np_unique_in; now left).
    rewrite E in I. destruct I.
Qed.
Print Assumptions C66_custom_arguments_refuted.

(** solve(..., all_connected=False) raises NameError on every non-empty sample. *)
Theorem C66_not_all_connected_refuted :
  forall calc_e obs lt n sample limit uselog minimize, 0 < limit -> sample <> [] ->
  mpf_solve calc_e obs lt (mpf_new None None) n sample None false limit uselog minimize = Err NameError.
Proof.
  intros calc_e obs lt n sample limit uselog minimize Hl Hs. unfold mpf_solve, Rltb. destruct (Rlt_dec 0 limit) as [_|NL]; [|lra].
  cbn [negb mpf_new mpf_calc_de mpf_adj attr bind].
  destruct (map (map IZR) (np_unique lt (map (map (fun x => ((x + 1) / 2)%Z)) sample))) eqn:E; [|reflexivity].
  exfalso. apply map_eq_nil in E. destruct sample as [|r l]; [congruence|].
  assert (I : In (map (fun x => ((x + 1) / 2)%Z) r) (np_unique lt (map (map (fun x => ((x + 1) / 2)%Z)) (r :: l)))) by (apply np_unique_in; now left).
  rewrite E in I. destruct I.
Qed.
Print Assumptions C66_not_all_connected_refuted.

(** With gradients, logK of a one-parameter model raises. *)
Theorem C66_one_parameter_logK_gradient_refuted : forall calc_e de Xuniq Xcount adjs theta power,
  power_rows calc_e [theta] Xuniq adjs = Ok power -> length Xcount = length Xuniq -> (forall s, exists d, de s 0%nat = Ok d) -> length adjs = length Xuniq ->
  mpf_logK calc_e (Some de) Xuniq Xcount adjs [theta] = Err GenericException.
Proof.
  intros calc_e de Xuniq Xcount adjs theta power E HC Hde HA. unfold mpf_logK. rewrite E. cbn [bind]. rewrite HC, Nat.eqb_refl. cbn [negb].
  cbn [length range seq foldM].
  assert (G : exists rows, gradcoef_rows de 0 Xuniq adjs = Ok rows).
  { unfold gradcoef_rows, range. assert (HI : forall j, In j (seq 0 (length Xuniq)) -> (j < length Xuniq)%nat) by (intros j Hj; apply in_seq in Hj; lia).
    induction (seq 0 (length Xuniq)) as [|j l IH]; [eexists; reflexivity|]. cbn [mapM].
    rewrite (get_nth [] Xuniq), (get_nth [] adjs) by (pose proof (HI j (or_introl eq_refl)); lia). cbn [bind].
    destruct (Hde (nth j Xuniq [])) as (d & ->). cbn [bind].
    assert (M : exists ds, mapM (fun a => de a 0%nat) (nth j adjs []) = Ok ds).
    { induction (nth j adjs []) as [|a t IHt]; [eexists; reflexivity|]. cbn [mapM]. destruct (Hde a) as (da & ->). destruct IHt as (ds & ->). eexists. reflexivity. }
    destruct M as (ds & ->). cbn [bind]. destruct IH as (rows & ->); [intros; apply HI; now right|]. eexists. reflexivity. }
  destruct G as (rows & G). unfold range. cbn [seq foldM]. rewrite G. cbn [bind app map snd length Nat.eqb]. reflexivity.
Qed.
Print Assumptions C66_one_parameter_logK_gradient_refuted.

Example C66_example : [[1; -1]; [1; 1]]%Z <> [] /\ power_rows ising_calc_e_row [1] [[0]; [1]] [[[1]]; [[0]]] = Ok [[1 / 2]; [- (1 / 2)]].
Proof.
  split; [discriminate|]. unfold power_rows, ising_calc_e_row. cbn. do 2 f_equal; [|f_equal]; f_equal; field.
Qed.
