(** * Property theorems C15-C18, C20: energies, observables, neighbours. *)
From Verif Require Import Prelude Spec PreludeFacts M_Index M_Energy P_Index P_Unravel P_Energy P_Energy2.
Import ListNotations.
Local Open Scope R_scope.

(** ** C15 *)
(** Energy of the Ising helpers = textbook Hamiltonian = - observables . parameters. *)
Theorem C15_ising_energy : forall (n : nat) (s params : list R),
  length s = n -> length params = (n + n * (n - 1) / 2)%nat ->
  ising_calc_e_row s params = ising_energy n params s /\
  ising_calc_e_row s params = - dot (ising_calc_observables_row s) params /\
  ising_calc_observables_row s = ising_obs s.
Proof.
  intros n s params Hs Hp.
  assert (E : ising_calc_e_row s params = - dot (ising_calc_observables_row s) params).
  { rewrite ising_calc_observables_row_eq. apply ising_calc_e_row_eq. rewrite Hs. assumption. }
  split; [|split]; [|exact E|apply ising_calc_observables_row_eq].
  rewrite E, ising_calc_observables_row_eq. now rewrite (ising_energy_dot n params s).
Qed.
Print Assumptions C15_ising_energy.

(** The array version is the row version applied to every row. *)
Theorem C15_ising_energy_rows : forall (n : nat) (S : list (list R)) (params : list R),
  (forall s, In s S -> length s = n) -> length params = (n + n * (n - 1) / 2)%nat ->
  ising_calc_e S params = map (ising_energy n params) S.
Proof.
  intros n S params HS Hp. unfold ising_calc_e. apply map_ext_in. intros s Hin.
  apply C15_ising_energy; auto.
Qed.
Print Assumptions C15_ising_energy_rows.

(** Field-free variant. *)
Theorem C15_ising_sym_energy : forall s params : list R,
  length params = (length s * (length s - 1) / 2)%nat ->
  ising_sym_calc_e_row s params = - dot (ising_sym_calc_observables_row s) params /\
  ising_sym_calc_observables_row s = map (fun p => fst p * snd p) (pairs s).
Proof.
  intros s params Hp. rewrite ising_sym_obs_eq. split; [|reflexivity].
  unfold ising_sym_calc_e_row. rewrite fast_sum_row_eq by assumption. rewrite dot_comm. reflexivity.
Qed.
Print Assumptions C15_ising_sym_energy.

(** Triplet: products of 1, 2 and 3 spins in combinations order. *)
Theorem C15_triplet_energy : forall (n : nat) (s h J K : list R),
  length s = n -> length h = n -> length J = binom n 2 -> length K = binom n 3 ->
  triplet_calc_e_row s (h ++ J ++ K) = - dot s h - dot (corr_obs 2 s) J - dot (corr_obs 3 s) K /\
  triplet_calc_observables_row s = s ++ corr_obs 2 s ++ corr_obs 3 s.
Proof.
  intros n s h J K Hs Hh HJ HK. split; [|apply triplet_obs_eq].
  unfold triplet_calc_e_row. rewrite triplet_obs_eq.
  rewrite dot_app by lia. rewrite dot_app. ring.
  unfold corr_obs. rewrite map_length, combinations_length, Hs. lia.
Qed.
Print Assumptions C15_triplet_energy.

Theorem C15_potts_energy : forall (n k : nat) (s : list nat) (params : list R),
  length s = n -> (forall x, In x s -> (x < k)%nat) -> length params = (k * n + n * (n - 1) / 2)%nat ->
  potts_calc_e_row k s params = potts_energy n k params s /\
  potts_calc_observables_row k s = potts_obs k s.
Proof.
  intros n k s params Hs Hv Hp. split; [|apply potts_obs_eq].
  unfold potts_calc_e_row. rewrite potts_obs_eq, (potts_obs_dot n k) by assumption. ring.
Qed.
Print Assumptions C15_potts_energy.

(** The ternary helpers read columns 0..3n-1 of an n-column array: out of range for
    every n>0. *)
Theorem C15_ternary_refuted : forall s : list R, s <> [] -> ternary_calc_observables_row s = Err IndexError.
Proof.
  intros s Hs. unfold ternary_calc_observables_row.
  assert (G : forall l, (exists i, In i l /\ (length s <= i)%nat) -> mapM (fun i => get s i) l = Err IndexError).
  { induction l as [|a l IH]; intros (i & Hin & Hi); [destruct Hin|].
    cbn [mapM]. unfold get at 1. destruct (nth_error s a) eqn:Ea; [|reflexivity]. cbn [bind].
    destruct Hin as [->|Hin].
    - exfalso. apply nth_error_None in Hi. congruence.
    - rewrite IH by eauto. reflexivity. }
  rewrite G; [reflexivity|]. exists (length s). split; [|lia].
  unfold range. apply in_seq. destruct s; [congruence|]. cbn [length]. lia.
Qed.
Print Assumptions C15_ternary_refuted.

Example C15_example : ising_calc_e_row [1; -1; 1] [1/2; 1/3; 1/5; 2; 3; 5] = 19/30 + 3.
Proof.
  rewrite (proj1 (C15_ising_energy 3 [1; -1; 1] [1/2; 1/3; 1/5; 2; 3; 5] eq_refl eq_refl)).
  unfold ising_energy, coupling, nthR, pair_index. cbn. field.
Qed.

(** ** C16 *)
Theorem C16_calc_de_is_increment : forall (n : nat) (s params : list R) (i : nat) (t : R),
  length s = n -> length params = (n + n * (n - 1) / 2)%nat -> (i < length params)%nat ->
  exists d, calc_de_row s i = Ok d /\
  ising_calc_e_row s (upd params i (nthR params i + t)) = ising_calc_e_row s params + t * d.
Proof.
  intros n s params i t Hs Hp Hi. exists (- nthR (ising_obs s) i).
  split; [apply calc_de_row_obs; subst n; lia|].
  rewrite !(ising_calc_e_row_eq s) by (rewrite ?upd_length, Hs; assumption).
  rewrite dot_upd; [ring| |assumption]. rewrite ising_obs_length. congruence.
Qed.
Print Assumptions C16_calc_de_is_increment.

Theorem C16_calc_de_is_derivative : forall (n : nat) (s params : list R) (i : nat),
  length s = n -> length params = (n + n * (n - 1) / 2)%nat -> (i < length params)%nat ->
  exists d, calc_de_row s i = Ok d /\
  derivable_pt_lim (fun x => ising_calc_e_row s (upd params i x)) (nthR params i) d.
Proof.
  intros n s params i Hs Hp Hi. exists (- nthR (ising_obs s) i).
  split; [apply calc_de_row_obs; subst n; lia|].
  set (a := - dot (ising_obs s) params + nthR (ising_obs s) i * nthR params i).
  assert (E : forall x, ising_calc_e_row s (upd params i x) = a + - nthR (ising_obs s) i * x).
  { intros x. rewrite (ising_calc_e_row_eq s) by (rewrite ?upd_length, Hs; assumption).
    rewrite dot_upd; [unfold a; ring| |assumption]. rewrite ising_obs_length. congruence. }
  intros eps He. destruct (derivable_affine a (- nthR (ising_obs s) i) (nthR params i) eps He) as (d & Hd).
  exists d. intros h H1 H2. rewrite !E. apply Hd; assumption.
Qed.
Print Assumptions C16_calc_de_is_derivative.

Theorem C16_out_of_range_raises : forall (s : list R) (i : nat),
  (length s + length s * (length s - 1) / 2 <= i)%nat -> calc_de_row s i = Err TypeError.
Proof. exact calc_de_row_raises. Qed.
Print Assumptions C16_out_of_range_raises.

Example C16_example : exists d, calc_de_row [1; -1; 1] 4 = Ok d /\ d = -1.
Proof.
  exists (- nthR (ising_obs [1; -1; 1]) 4). split; [apply calc_de_row_obs; cbn; lia|].
  unfold nthR, ising_obs. cbn. ring.
Qed.

(** ** C17 *)
(** Conditional energy: obs_r . mult_r.  Flipping spin r changes the energy by twice
    this value, and the conditional probability of the present value of spin r is
    1/(1+exp(-2 E_r)). *)
Theorem C17_pseudo_ising_conditional : forall (n r : nat) (s params : list R),
  length s = n -> length params = (n + n * (n - 1) / 2)%nat -> (r < n)%nat ->
  (nthR s r = 1 \/ nthR s r = -1) ->
  exists mult ix, pseudo_ising_get_multipliers_r n r params = Ok (mult, ix) /\
  let Er := dot (pseudo_ising_calc_observables_r n r s) mult in
  ising_energy n params (upd s r (- nthR s r)) - ising_energy n params s = 2 * Er /\
  cond_prob (ising_energy n params) [-1; 1] s r (nthR s r) = 1 / (1 + exp (-2 * Er)).
Proof.
  intros n r s params Hs Hp Hr Hv.
  destruct (pseudo_ising_dot n r params s Hr Hs) as (mult & ix & E & Hd).
  exists mult, ix. split; [exact E|]. cbv zeta. rewrite Hd.
  assert (H1 : ising_energy n params (upd s r (- nthR s r)) = ising_energy n params s + 2 * (nthR s r * local_field n params s r)).
  { pose proof (ising_energy_upd n params s r (- nthR s r) Hr Hs). lra. }
  split; [rewrite H1; ring|].
  assert (Es : upd s r (nthR s r) = s) by (unfold nthR; apply upd_same).
  unfold cond_prob. rewrite Es. cbn [sumf fold_right]. rewrite Rplus_0_r.
  assert (E0 : exp (- ising_energy n params (upd s r (-1))) + exp (- ising_energy n params (upd s r 1)) =
               exp (- ising_energy n params s) * (1 + exp (-2 * (nthR s r * local_field n params s r)))).
  { rewrite Rmult_plus_distr_l, Rmult_1_r, <- exp_plus.
    replace (- ising_energy n params s + -2 * (nthR s r * local_field n params s r)) with
      (- ising_energy n params (upd s r (- nthR s r))) by (rewrite H1; ring).
    destruct Hv as [Hv|Hv]; rewrite Hv in *.
    - replace (-(1)) with (-1) by ring. rewrite Es. ring.
    - replace (- -1) with 1 by ring. rewrite Es. ring. }
  rewrite E0. pose proof (exp_pos (- ising_energy n params s)).
  pose proof (exp_pos (-2 * (nthR s r * local_field n params s r))). field. split; lra.
Qed.
Print Assumptions C17_pseudo_ising_conditional.

(** Explicit form: spin times local field h_r + sum_{i<>r} J_ir s_i. *)
Theorem C17_pseudo_ising_local_field : forall (n r : nat) (s params : list R),
  length s = n -> (r < n)%nat ->
  exists mult ix, pseudo_ising_get_multipliers_r n r params = Ok (mult, ix) /\
  dot (pseudo_ising_calc_observables_r n r s) mult =
    nthR s r * (nthR params r + sumf (filter (fun i => negb (Nat.eqb i r)) (seq 0 n))
                                    (fun i => coupling n params r i * nthR s i)).
Proof.
  intros n r s params Hs Hr. destruct (pseudo_ising_dot n r params s Hr Hs) as (mult & ix & E & Hd).
  exists mult, ix. split; [exact E|]. exact Hd.
Qed.
Print Assumptions C17_pseudo_ising_local_field.

Example C17_example :
  pseudo_ising_get_multipliers_r 3 1 [1; 2; 3; 4; 5; 6] = Ok ([2; 4; 6], [1; 3; 5]%nat) /\
  pseudo_ising_calc_observables_r 3 1 [1; -1; -1] = [-1; 1 * -1; -1 * -1].
Proof. split; reflexivity. Qed.

(** ** C18 *)
Theorem C18_pseudo_potts_conditional : forall (n k r : nat) (s : list nat) (params : list R),
  length s = n -> (forall x, In x s -> (x < k)%nat) -> (r < n)%nat ->
  exists mult ix obs otherobs otherstates,
  pseudo_potts_get_multipliers_r n k r params = Ok (mult, ix) /\
  pseudo_potts_calc_observables_r n k r s = (obs, otherobs, otherstates) /\
  (* the counterfactual states are exactly the other k-1 values, each once *)
  NoDup otherstates /\ (forall v, In v otherstates <-> (v < k)%nat /\ v <> nth r s 0%nat) /\
  length otherobs = length otherstates /\
  (* energies, up to one constant for all values at site r *)
  (exists c, potts_energy n k params s = - dot obs mult + c /\
     forall m, (m < length otherstates)%nat ->
       potts_energy n k params (upd s r (nth m otherstates 0%nat)) = - dot (nth m otherobs []) mult + c) /\
  (* exact conditional probability *)
  cond_prob (potts_energy n k params) (seq 0 k) s r (nth r s 0%nat) =
    exp (dot obs mult) / (exp (dot obs mult) + sumf otherobs (fun o => exp (dot o mult))).
Proof.
  intros n k r s params Hs Hv Hr.
  destruct (pseudo_potts_dot n k r params s Hr Hs Hv) as (mult & ix & E & H).
  destruct (pseudo_potts_calc_observables_r n k r s) as [[obs otherobs] otherstates] eqn:Eo.
  destruct (H _ _ _ eq_refl) as (H1 & H2 & H3 & H4).
  exists mult, ix, obs, otherobs, otherstates.
  assert (Hin : forall v, In v otherstates <-> (v < k)%nat /\ v <> nth r s 0%nat).
  { intros v. rewrite H3, filter_In, in_seq, negb_true_iff, Nat.eqb_neq. intuition lia. }
  assert (Ee : forall v, potts_energy n k params (upd s r v) = - potts_local n k params s r v + potts_rest n k params s r).
  { intros v. rewrite (potts_energy_split n k params _ r Hr), potts_local_upd, potts_rest_upd, nth_upd_same by lia. reflexivity. }
  split; [exact E|]. split; [reflexivity|]. split; [rewrite H3; apply NoDup_filter, seq_NoDup|].
  split; [exact Hin|]. split; [exact H2|]. split.
  - exists (potts_rest n k params s r). split.
    + rewrite H1. now apply potts_energy_split.
    + intros m Hm. rewrite H4 by assumption. apply Ee.
  - unfold cond_prob. rewrite upd_same. rewrite (potts_energy_split n k params s r Hr), <- H1.
    assert (Hsr : (nth r s 0 < k)%nat) by (apply Hv, nth_In; lia).
    rewrite (sumf_ext (seq 0 k) _ (fun w => exp (potts_local n k params s r w) * exp (- potts_rest n k params s r))).
    2:{ intros w. rewrite Ee, <- exp_plus. f_equal. ring. }
    rewrite sumf_scal_r, (sumf_others k (nth r s 0%nat) _ Hsr), <- H1.
    replace (sumf (others k (nth r s 0%nat)) (fun w => exp (potts_local n k params s r w)))
      with (sumf otherobs (fun o => exp (dot o mult))).
    2:{ rewrite <- (sumf_seq_nth [] otherobs), H2.
        rewrite (sumf_ext_in _ _ (fun m => exp (potts_local n k params s r (nth m otherstates 0%nat)))).
        2:{ intros m Hm. apply in_seq in Hm. rewrite H4 by lia. reflexivity. }
        rewrite (sumf_seq_nth 0%nat otherstates (fun v => exp (potts_local n k params s r v))). rewrite H3. unfold others.
        f_equal. apply filter_ext. intros i. now rewrite Nat.eqb_sym. }
    replace (- (- dot obs mult + potts_rest n k params s r)) with (dot obs mult + - potts_rest n k params s r) by ring.
    rewrite exp_plus. pose proof (exp_pos (dot obs mult)). pose proof (exp_pos (- potts_rest n k params s r)).
    assert (0 <= sumf otherobs (fun o => exp (dot o mult))) by (apply sumf_nonneg; intros; apply Rlt_le, exp_pos).
    field. split; lra.
Qed.
Print Assumptions C18_pseudo_potts_conditional.

Example C18_example :
  pseudo_potts_get_multipliers_r 3 2 1 [1; 2; 3; 4; 5; 6; 7; 8; 9] = Ok ([2; 5; 7; 9], [1; 4; 6; 8]%nat) /\
  pseudo_potts_calc_observables_r 3 2 1 [0; 1; 1]%nat = ([0; 1; 0; 1], [[1; 0; 1; 0]], [0%nat]).
Proof. split; reflexivity. Qed.

(** ** C20 *)
Theorem C20_adj_lists_single_flips : forall s : list R,
  exists nb, adj s = (nb, s) (* the caller's array is restored *) /\
  length nb = length s /\
  forall i j, (i < length s)%nat -> (j < length s)%nat ->
    length (nth i nb []) = length s /\
    nthR (nth i nb []) j = if Nat.eqb i j then 1 - nthR s j else nthR s j.
Proof.
  intros s. eexists. split; [apply adj_eq|]. split; [now rewrite map_length, seq_length|].
  intros i j Hi Hj. rewrite nth_map_seq by assumption. split; [apply upd_length|].
  destruct (Nat.eqb_spec i j) as [->|Hne]; [now apply nthR_upd_same|now apply nthR_upd_other].
Qed.
Print Assumptions C20_adj_lists_single_flips.

Theorem C20_adj_sym_lists_single_flips : forall s : list R,
  exists nb, adj_sym s = (nb, s) /\
  length nb = length s /\
  forall i j, (i < length s)%nat -> (j < length s)%nat ->
    length (nth i nb []) = length s /\
    nthR (nth i nb []) j = if Nat.eqb i j then - nthR s j else nthR s j.
Proof.
  intros s. eexists. split; [apply adj_sym_eq|]. split; [now rewrite map_length, seq_length|].
  intros i j Hi Hj. rewrite nth_map_seq by assumption. split; [apply upd_length|].
  destruct (Nat.eqb_spec i j) as [->|Hne]; [|now apply nthR_upd_other].
  rewrite nthR_upd_same by assumption. ring.
Qed.
Print Assumptions C20_adj_sym_lists_single_flips.

(** The neighbour relation is symmetric. *)
Theorem C20_neighbour_symmetric : forall s t : list R,
  (In t (fst (adj s)) <-> In s (fst (adj t))) /\ (In t (fst (adj_sym s)) <-> In s (fst (adj_sym t))).
Proof.
  assert (G : forall (g : R -> R), (forall x, g (g x) = x) -> forall s t,
     In t (map (fun i => upd s i (g (nthR s i))) (seq 0 (length s))) ->
     In s (map (fun i => upd t i (g (nthR t i))) (seq 0 (length t)))).
  { intros g Hg s t Hin. apply in_map_iff in Hin. destruct Hin as (i & <- & Hi). apply in_seq in Hi.
    apply in_map_iff. exists i. split; [|apply in_seq; rewrite upd_length; lia].
    rewrite nthR_upd_same by lia. rewrite upd_upd, Hg. unfold nthR. apply upd_same. }
  intros s t. rewrite !adj_eq, !adj_sym_eq. cbn [fst].
  split; split; apply G; intros; ring.
Qed.
Print Assumptions C20_neighbour_symmetric.

(** Random neighbours: [m] rows, none equal to [s], whatever the random draws. *)
Theorem C20_random_neighbours_differ : forall (eqb : list R -> list R -> bool),
  (forall a b, eqb a b = true <-> a = b) ->
  forall m s draws rows, random_neighbors eqb s m draws = Ok rows ->
  length rows = m /\ ~ In s rows.
Proof.
  intros eqb He m s. induction m as [|m IH]; intros draws rows H; cbn [random_neighbors] in H.
  - injection H as <-. split; [reflexivity|intros []].
  - induction draws as [|d draws IHd]; [discriminate|].
    destruct (eqb d s) eqn:Ed; [now apply IHd|].
    destruct (random_neighbors eqb s m draws) as [l|e] eqn:El; cbn [bind] in H; [|discriminate].
    injection H as <-. destruct (IH _ _ El) as [L N]. cbn [length]. split; [now rewrite L|].
    intros [->|Hin]; [|now apply N]. rewrite (proj2 (He s s) eq_refl) in Ed. discriminate.
Qed.
Print Assumptions C20_random_neighbours_differ.

Example C20_example : adj [0; 1; 0] = ([[1 - 0; 1; 0]; [1 - (1 - 0) ; 1 - 1; 0]; [1 - (1 - 0); 1 - (1 - 1); 1 - 0]],
   [1 - (1 - 0); 1 - (1 - 1); 1 - (1 - 0)]).
Proof. reflexivity. Qed.
