(** * C87, C88: long runs of the samplers *)
From Coq Require Import Permutation Classical.
From Coquelicot Require Import Coquelicot.
From Verif Require Import Prelude Spec PreludeFacts M_Index M_Sampler P_Energy P_Energy2 P_Sampler P_Metro P_Cpp P_Converge P_Converge2 P_Converge3 M_Energy Props_Energy.
Import ListNotations.
Local Open Scope R_scope.

(** ** C87 *)
(** The energy is not the same for all spin vectors. *)
Definition nonconstant {A} (E : A -> R) (states : list A) : Prop := exists s s', In s states /\ In s' states /\ E s <> E s'.

(** t random site updates, from any start: the expectation of F approaches the Boltzmann
    one at a geometric rate. *)
Theorem C87_ising_rate : forall (E : list Z -> R) (n : nat), (0 < n)%nat -> let states := all_states [-1; 1]%Z n in nonconstant E states ->
  exists rho, 0 <= rho < 1 /\ forall (F : list Z -> R) (B : R), (forall s, In s states -> Rabs (F s) <= B) ->
    forall (s : list Z) (t : nat), In s states ->
    Rabs (Erun E n (repeat None t) F s (E s) - expectation (boltzmann E states) states F) <= 2 * B * rho ^ (t / (2 * n)).
Proof.
  intros E n Hn states NE. destruct (rs_minor E n Hn NE) as (eps & He & HM). exists (1 - eps). split; [lra|].
  intros F B HF s t Hs. rewrite Erun_iter. unfold expectation. rewrite Rmult_comm. replace (2 * B) with (B - - B) by ring.
  apply (iter_converges (spin_states n) (spin_states_NoDup n) (spin_states_ne n) (rs_step E n) (2 * n) eps (boltzmann E states)); try assumption; try lra; try lia.
  - now apply rs_averaging.
  - apply boltzmann_dist, spin_states_ne.
  - now apply rs_stationary.
  - intros x Hx. apply Rabs_le_between. now apply HF.
Qed.
Print Assumptions C87_ising_rate.

Lemma rate_limit rho q C (f : nat -> R) L : 0 <= rho < 1 -> (0 < q)%nat -> (forall t, Rabs (f t - L) <= C * rho ^ (t / q)) -> is_lim_seq f L.
Proof.
  intros Hr Hq H. apply is_lim_seq_spec. intros [e He]. cbn [pos].
  assert (G := is_lim_seq_geom rho ltac:(rewrite Rabs_pos_eq; lra)). apply is_lim_seq_spec in G.
  assert (C0 : 0 <= Rabs C) by apply Rabs_pos.
  assert (Hp : 0 < e / (Rabs C + 1)) by (apply Rdiv_lt_0_compat; lra).
  destruct (G (mkposreal _ Hp)) as [N HN]. cbn [pos] in HN. exists (N * q)%nat. intros t Ht.
  assert (Lt : (N <= t / q)%nat) by (apply Nat.div_le_lower_bound; lia). specialize (HN _ Lt). rewrite Rminus_0_r in HN.
  eapply Rle_lt_trans; [apply H|]. assert (P : 0 <= rho ^ (t / q)) by (apply pow_le; lra). rewrite Rabs_pos_eq in HN by assumption.
  apply Rle_lt_trans with (Rabs C * rho ^ (t / q)); [apply Rmult_le_compat_r; [assumption|apply Rle_abs]|].
  apply Rle_lt_trans with (Rabs C * (e / (Rabs C + 1))); [apply Rmult_le_compat_l; lra|].
  replace (Rabs C * (e / (Rabs C + 1))) with (e - e / (Rabs C + 1)) by (field; lra). lra.
Qed.

(** Product of the spins. *)
Definition spin_product (s : list Z) : Z := fold_right Z.mul 1%Z s.

Lemma product_flip s i : (i < length s)%nat -> spin_product (flip s i) = (- spin_product s)%Z.
Proof.
  revert i. induction s as [|a s IH]; intros i Hi; cbn in Hi; [lia|]. destruct i as [|i].
  - unfold flip. cbn. ring.
  - unfold flip. cbn [nth upd]. unfold spin_product. cbn [fold_right]. fold (spin_product (upd s i (nth i s 0 * -1)%Z)). fold (spin_product s).
    assert (Q := IH i ltac:(lia)). unfold flip in Q. rewrite Q. ring.
Qed.

Lemma product_spin s : Forall spin s -> spin_product s = 1%Z \/ spin_product s = (-1)%Z.
Proof.
  intros H. induction H as [|a s Ha _ IH]; [now left|]. unfold spin_product. cbn [fold_right]. fold (spin_product s). unfold spin in Ha. lia.
Qed.

(** For a constant energy every update is accepted, and the sign of the product alternates. *)
Lemma constant_alternates E n : (0 < n)%nat -> ~ nonconstant E (spin_states n) -> forall t s, In s (spin_states n) ->
  iterf t (rs_step E n) (fun x => IZR (spin_product x)) s = (-1) ^ t * IZR (spin_product s).
Proof.
  intros Hn NC. assert (EC : forall s s', In s (spin_states n) -> In s' (spin_states n) -> E s = E s').
  { intros s s' Hs Hs'. destruct (Req_EM_T (E s) (E s')) as [Q|Q]; [assumption|]. exfalso. apply NC. now exists s, s'. }
  induction t as [|t IH]; intros s Hs; [cbn; ring|]. cbn [iterf]. destruct (rs_averaging E n Hn) as (A1 & _). rewrite (A1 _ _ IH s Hs). unfold rs_step.
  rewrite (sumf_ext_in _ _ (fun _ => (-1) ^ S t * IZR (spin_product s))).
  - rewrite sumf_const, seq_length. field. apply not_0_INR. lia.
  - intros i Hi. apply in_seq in Hi. unfold kernel. rewrite (EC (flip s i) s) by (try assumption; now apply flip_in_states).
    assert (Ls : length s = n) by (now apply spin_states_spec in Hs). rewrite product_flip by lia.
    assert (Q : accept_prob (E s - E s) = 1) by (unfold accept_prob; replace (- (E s - E s)) with 0 by ring; rewrite exp_0; apply Rmin_left; lra).
    rewrite Q, opp_IZR. cbn [pow]. ring.
Qed.

(** The random site updates converge from every start for every observable exactly when the
    energy is not constant. *)
Theorem C87_ising_iff : forall (E : list Z -> R) (n : nat), (0 < n)%nat -> let states := all_states [-1; 1]%Z n in
  (forall F s, In s states -> is_lim_seq (fun t => Erun E n (repeat None t) F s (E s)) (expectation (boltzmann E states) states F)) <-> nonconstant E states.
Proof.
  intros E n Hn states. split.
  - intros H. apply NNPP. intros NC.
    assert (I : In (repeat 1%Z n) states).
    { apply spin_states_spec. split; [apply repeat_length|]. apply Forall_forall. intros x Hx. apply repeat_spec in Hx. subst. now right. }
    specialize (H (fun x => IZR (spin_product x)) _ I). set (L := expectation _ _ _) in H. set (s := repeat 1%Z n) in *.
    assert (H1 : is_lim_seq (fun t => (-1) ^ t * IZR (spin_product s)) L).
    { eapply is_lim_seq_ext; [|exact H]. intros t. cbv beta. rewrite Erun_iter. now apply constant_alternates. }
    assert (P : IZR (spin_product s) = 1 \/ IZR (spin_product s) = -1).
    { apply spin_states_spec in I. destruct (product_spin s (proj2 I)) as [->| ->]; [now left|now right]. }
    apply is_lim_seq_spec in H1. destruct (H1 (mkposreal 1 Rlt_0_1)) as [N HN]. cbn [pos] in HN.
    assert (A := HN (2 * N)%nat ltac:(lia)). assert (B := HN (S (2 * N)) ltac:(lia)). rewrite pow_1_even in A. rewrite pow_1_odd in B.
    apply Rabs_def2 in A. apply Rabs_def2 in B. destruct P as [P|P]; rewrite P in A, B; lra.
  - intros NC F s Hs. destruct (C87_ising_rate E n Hn NC) as (rho & Hr & HC).
    assert (HB : exists B, forall x, In x states -> Rabs (F x) <= B).
    { exists (sumf states (fun x => Rabs (F x))). intros x Hx. apply (sumf_in_le states (fun x => Rabs (F x)) x); [intros; apply Rabs_pos|assumption]. }
    destruct HB as [B HB]. apply (rate_limit rho (2 * n) (2 * B)); [assumption|lia|]. intros t. now apply HC.
Qed.
Print Assumptions C87_ising_iff.

Lemma energy_zero_iff n params : length params = (n + n * (n - 1) / 2)%nat ->
  nonconstant (fun s => ising_calc_e_row (map IZR s) params) (spin_states n) <-> exists k, (k < length params)%nat /\ nthR params k <> 0.
Proof.
  intros Hp.
  assert (EE : forall s, In s (spin_states n) -> ising_calc_e_row (map IZR s) params = ising_energy n params (map IZR s)).
  { intros s Hs. apply spin_states_spec in Hs. apply C15_ising_energy; [rewrite map_length; apply Hs|exact Hp]. }
  split.
  - intros (s & s' & Hs & Hs' & NE). apply NNPP. intros C.
    assert (Z : forall k, nthR params k = 0).
    { intros k. destruct (Nat.lt_ge_cases k (length params)) as [L|L]; [|unfold nthR; now apply nth_overflow].
      destruct (Req_EM_T (nthR params k) 0) as [Q|Q]; [assumption|]. exfalso. apply C. now exists k. }
    apply NE. rewrite !EE by assumption. assert (Y : forall x, ising_energy n params x = 0); [|now rewrite !Y].
    intros x. unfold ising_energy. rewrite (sumf_zero (seq 0 n)) by (intros; rewrite Z; ring). rewrite sumf_zero; [ring|]. intros i _. apply sumf_zero. intros j _. unfold coupling. rewrite Z. ring.
  - intros (k & Hk & Hnz). apply NNPP. intros NC.
    assert (EC : forall s s', In s (spin_states n) -> In s' (spin_states n) -> ising_energy n params (map IZR s) = ising_energy n params (map IZR s')).
    { intros s s' Hs Hs'. rewrite <- !EE by assumption. destruct (Req_EM_T (ising_calc_e_row (map IZR s) params) (ising_calc_e_row (map IZR s') params)) as [Q|Q]; [assumption|]. exfalso. apply NC. exists s, s'. auto. }
    assert (LF : forall s r, In s (spin_states n) -> (r < n)%nat -> local_field n params (map IZR s) r = 0).
    { intros s r Hs Hr. assert (Ls : length s = n) by (now apply spin_states_spec in Hs). assert (Hf : In (flip s r) (spin_states n)) by (now apply flip_in_states).
      assert (U := ising_energy_upd n params (map IZR s) r (IZR (nth r s 0 * -1)%Z) Hr ltac:(now rewrite map_length)).
      replace (upd (map IZR s) r (IZR (nth r s 0 * -1)%Z)) with (map IZR (flip s r)) in U by (unfold flip; clear; revert r; induction s as [|a s IH]; intros [|r]; cbn; try reflexivity; now rewrite IH).
      rewrite (EC (flip s r) s Hf Hs) in U.
      assert (Nr : nthR (map IZR s) r = IZR (nth r s 0%Z)) by (unfold nthR; apply (map_nth IZR s 0%Z)).
      rewrite Nr, mult_IZR in U. assert (Sp : spin (nth r s 0%Z)) by (apply Forall_nth_in; [now apply spin_states_spec in Hs|lia]).
      unfold spin in Sp. destruct Sp as [Q|Q]; rewrite Q in U; cbn in U; lra. }
    assert (CZ : forall r j, (r < n)%nat -> (j < n)%nat -> r <> j -> coupling n params r j = 0).
    { intros r j Hr Hj Hrj. set (s := repeat 1%Z n).
      assert (I : In s (spin_states n)). { apply spin_states_spec. split; [apply repeat_length|]. apply Forall_forall. intros x Hx. apply repeat_spec in Hx. subst. now right. }
      assert (L1 := LF s r I Hr). assert (L2 := LF (flip s j) r ltac:(now apply flip_in_states) Hr). unfold local_field in L1, L2.
      assert (D : sumf (others n r) (fun i => coupling n params r i * nthR (map IZR s) i) - sumf (others n r) (fun i => coupling n params r i * nthR (map IZR (flip s j)) i) = 2 * coupling n params r j).
      { rewrite <- sumf_minus. assert (Ij : In j (others n r)) by (apply in_others; split; [assumption|congruence]).
        assert (ND : NoDup (others n r)) by (apply NoDup_filter, seq_NoDup).
        rewrite (sumf_ext_in _ _ (fun i => if Nat.eq_dec i j then 2 * coupling n params r j else 0)).
        - clear - Ij ND. induction (others n r) as [|a l IH]; [destruct Ij|]. inversion ND; subst. rewrite sumf_cons. destruct Ij as [->|Ij].
          + destruct (Nat.eq_dec j j); [|congruence]. rewrite sumf_zero; [ring|]. intros b Hb. destruct (Nat.eq_dec b j); [subst; contradiction|reflexivity].
          + destruct (Nat.eq_dec a j); [subst; contradiction|]. rewrite IH by assumption. ring.
        - intros i Hi. apply in_others in Hi. unfold nthR. rewrite !(map_nth IZR _ 0%Z). destruct (Nat.eq_dec i j) as [->|Nij].
          + unfold flip. rewrite nth_upd_same by (unfold s; rewrite repeat_length; lia). unfold s. rewrite (nth_indep _ 0%Z 1%Z) by (rewrite repeat_length; lia). rewrite nth_repeat. cbn. ring.
          + unfold flip. rewrite nth_upd_other by congruence. ring. }
      lra. }
    apply Hnz. destruct (Nat.lt_ge_cases k n) as [L|L].
    + set (s := repeat 1%Z n). assert (I : In s (spin_states n)). { apply spin_states_spec. split; [apply repeat_length|]. apply Forall_forall. intros x Hx. apply repeat_spec in Hx. subst. now right. }
      assert (L1 := LF s k I L). unfold local_field in L1. rewrite sumf_zero in L1; [lra|]. intros i Hi. apply in_others in Hi. rewrite CZ by lia. ring.
    + destruct (nth_error (pairs (seq 0 n)) (k - n)) as [[i j]|] eqn:Q.
      * assert (Hin := nth_error_In _ _ Q). apply in_pairs_seq in Hin.
        assert (PI := pair_index_spec n i j ltac:(lia) ltac:(lia)).
        assert (ND : NoDup (pairs (seq 0 n))) by apply NoDup_pairs_seq.
        assert (PE : pair_index n i j = (k - n)%nat).
        { apply (proj1 (NoDup_nth_error _) ND); [apply nth_error_Some; congruence|congruence]. }
        assert (Cz := CZ i j ltac:(lia) ltac:(lia) ltac:(lia)). unfold coupling in Cz. destruct (Nat.ltb_spec i j); [|lia]. rewrite PE in Cz. replace (n + (k - n))%nat with k in Cz by lia. exact Cz.
      * exfalso. apply nth_error_None in Q. rewrite pairs_seq_length in Q. lia.
Qed.

(** For the sampler of an Ising model: exactly when some field or coupling is not zero. *)
Theorem C87_ising_parameters : forall (n : nat) (params : list R), (0 < n)%nat -> length params = (n + n * (n - 1) / 2)%nat ->
  let E := fun s => ising_calc_e_row (map IZR s) params in let states := all_states [-1; 1]%Z n in
  (forall F s, In s states -> is_lim_seq (fun t => Erun E n (repeat None t) F s (E s)) (expectation (boltzmann E states) states F)) <->
  exists k, (k < length params)%nat /\ nthR params k <> 0.
Proof.
  intros n params Hn Hp E states. rewrite <- (energy_zero_iff n params Hp). apply (C87_ising_iff E n Hn).
Qed.
Print Assumptions C87_ising_parameters.

(** Three state Potts updates converge for every energy. *)
Theorem C87_potts : forall (E : list nat -> R) (n : nat), (0 < n)%nat -> let states := all_states [0; 1; 2]%nat n in
  exists rho, 0 <= rho < 1 /\ forall (F : list nat -> R) (B : R), (forall s, In s states -> Rabs (F s) <= B) ->
    forall (s : list nat), In s states ->
    (forall t, Rabs (Erun_potts E n (repeat None t) F s (E s) - expectation (boltzmann E states) states F) <= 2 * B * rho ^ (t / (2 * n))) /\
    is_lim_seq (fun t => Erun_potts E n (repeat None t) F s (E s)) (expectation (boltzmann E states) states F).
Proof.
  intros E n Hn states. destruct (rsp_minor E n Hn) as (eps & He & HM). exists (1 - eps). split; [lra|].
  intros F B HF s Hs.
  assert (K : forall t, Rabs (Erun_potts E n (repeat None t) F s (E s) - expectation (boltzmann E states) states F) <= 2 * B * (1 - eps) ^ (t / (2 * n))).
  { intros t. rewrite Erun_potts_iter. unfold expectation. rewrite Rmult_comm. replace (2 * B) with (B - - B) by ring.
    apply (iter_converges (potts_states n) (potts_states_NoDup n) (potts_states_ne n) (rs_potts E n) (2 * n) eps (boltzmann E states)); try assumption; try lra; try lia.
    - now apply rsp_averaging.
    - apply boltzmann_dist, potts_states_ne.
    - now apply rsp_stationary.
    - intros x Hx. apply Rabs_le_between. now apply HF. }
  split; [exact K|]. apply (rate_limit (1 - eps) (2 * n) (2 * B)); [lra|lia|exact K].
Qed.
Print Assumptions C87_potts.

(** ** Constant energies *)
Definition sign_pow (k : nat) : Z := if Nat.even k then 1%Z else (-1)%Z.

Lemma sign_pow_S k : sign_pow (S k) = (- sign_pow k)%Z.
Proof. unfold sign_pow. rewrite Nat.even_succ, <- Nat.negb_even. destruct (Nat.even k); reflexivity. Qed.

Lemma sign_pow_add a b : sign_pow (a + b) = (sign_pow a * sign_pow b)%Z.
Proof. unfold sign_pow. rewrite Nat.even_add. destruct (Nat.even a), (Nat.even b); reflexivity. Qed.

Lemma sign_abs k z : z = 1%Z \/ z = (-1)%Z -> Rabs (IZR (sign_pow k * z)) = 1.
Proof.
  intros H. rewrite <- abs_IZR. f_equal. unfold sign_pow. destruct (Nat.even k); lia.
Qed.

Section Constant.
Context {T : Type} (g : rng T).
Hypothesis Hg : rng_ok g.
Variable n : nat.
Hypothesis Hn : (0 < n)%nat.
Variable E : list Z -> R.
Variable c : R.
Hypothesis HE : forall s, length s = n -> E s = c.

Lemma constant_step f s t : site_in n f -> length s = n ->
  let '(s1, de, _) := sample_metropolis g E f s c t in length s1 = n /\ c + de = c /\ spin_product s1 = (- spin_product s)%Z.
Proof.
  intros Hf Hl. unfold sample_metropolis.
  assert (K : forall i t', (i < n)%nat -> let '(s1, de, _) := (let s1 := flip s i in let E1 := E s1 in let de := E1 - c in
     if Rlt_dec 0 de then let '(u, t) := rand g t' in if Rlt_dec (exp (- de)) u then (flip s1 i, 0, t) else (s1, de, t) else (s1, de, t')) in
     length s1 = n /\ c + de = c /\ spin_product s1 = (- spin_product s)%Z).
  { intros i t' Hi. cbv zeta. rewrite HE by (now rewrite flip_length). destruct (Rlt_dec 0 (c - c)); [lra|]. rewrite flip_length. repeat split; [assumption|ring|]. apply product_flip. lia. }
  destruct f as [i|].
  - apply K. exact Hf.
  - assert (B := proj1 Hg t 0%nat (length s) ltac:(lia)). destruct (randint g t 0 (length s)) as [i t']. cbn [fst] in B. apply K. lia.
Qed.

Lemma constant_run : forall fs, Forall (site_in n) fs -> forall s t, length s = n ->
  let '((s', E', _), _) := run (sample_metropolis g E) fs s c t in length s' = n /\ E' = c /\ spin_product s' = (sign_pow (length fs) * spin_product s)%Z.
Proof.
  induction fs as [|f fs IH]; intros HF s t Hl; cbn [run].
  - repeat split; [assumption|]. cbn [length]. unfold sign_pow. cbn [Nat.even]. lia.
  - apply Forall_cons_iff in HF. destruct HF as [HF1 HF2]. assert (K := constant_step f s t HF1 Hl). destruct (sample_metropolis g E f s c t) as [[s1 de] t1]. destruct K as (K1 & K2 & K3). rewrite K2.
    specialize (IH HF2 s1 t1 K1). destruct (run (sample_metropolis g E) fs s1 c t1) as [[[s' E'] t'] h]. destruct IH as (I1 & I2 & I3). repeat split; try assumption.
    rewrite I3, K3. cbn [length]. rewrite sign_pow_S. ring.
Qed.

Lemma constant_record fs : Forall (site_in n) fs -> Nat.even (length fs) = true -> forall m s t, length s = n ->
  let '((ss, _), _, _) := record (sample_metropolis g E) fs m s c t in Forall (fun r => spin_product r = spin_product s) ss.
Proof.
  intros HF Hev. induction m as [|m IH]; intros s t Hl; cbn [record]; [constructor|].
  assert (K := constant_run fs HF s t Hl). destruct (run (sample_metropolis g E) fs s c t) as [[[s1 E1] t1] h1]. destruct K as (K1 & -> & K3). unfold sign_pow in K3. rewrite Hev in K3.
  specialize (IH s1 t1 K1). destruct (record (sample_metropolis g E) fs m s1 c t1) as [[[ss Es] fin] h2]. constructor; [lia|].
  eapply Forall_impl; [|exact IH]. cbv beta. intros r Hr. lia.
Qed.

Lemma draw_row_length {A} (d : T -> A * T) m : forall t, length (fst (draw_row d m t)) = m.
Proof. induction m as [|m IH]; intros t; cbn [draw_row]; [reflexivity|]. destruct (d t) as [x t1]. specialize (IH t1). destruct (draw_row d m t1) as [xs t2]. cbn in *. now rewrite IH. Qed.
End Constant.

Lemma zero_energy n m s : length s = n -> m = (n + n * (n - 1) / 2)%nat -> ising_calc_e_row (map IZR s) (repeat 0 m) = 0.
Proof.
  intros Hl Hm. transitivity (ising_energy n (repeat 0 m) (map IZR s)); [apply C15_ising_energy; rewrite ?map_length, ?repeat_length; assumption|]. unfold ising_energy.
  assert (Z : forall k, nthR (repeat 0 m) k = 0) by (intros k; unfold nthR; apply nth_repeat).
  rewrite (sumf_zero (seq 0 n)) by (intros; rewrite Z; ring). rewrite sumf_zero; [ring|]. intros i _. apply sumf_zero. intros j _. unfold coupling. rewrite Z. ring.
Qed.

Lemma product_mean_zero n E : (0 < n)%nat -> ~ nonconstant E (spin_states n) ->
  expectation (boltzmann E (spin_states n)) (spin_states n) (fun s => IZR (spin_product s)) = 0.
Proof.
  intros Hn NC. unfold expectation. assert (A := rs_stationary E n Hn (fun s => IZR (spin_product s))).
  rewrite (sumf_ext_in _ (fun x => boltzmann E (spin_states n) x * rs_step E n (fun s => IZR (spin_product s)) x) (fun x => (-1) * (boltzmann E (spin_states n) x * IZR (spin_product x)))) in A.
  - rewrite sumf_scal_l in A. lra.
  - intros x Hx. assert (C := constant_alternates E n Hn NC 1 x Hx). cbn [iterf pow] in C. rewrite C. ring.
Qed.

Lemma same_product_mean (rows : list (list Z)) p : rows <> [] -> Forall (fun r => spin_product r = p) rows -> sumf rows (fun s => IZR (spin_product s)) / INR (length rows) = IZR p.
Proof.
  intros Hne H. rewrite (sumf_ext_in _ _ (fun _ => IZR p)); [|intros r Hr; rewrite Forall_forall in H; now rewrite H]. rewrite sumf_const. field. apply not_0_INR. destruct rows; [congruence|discriminate].
Qed.

(** Expected: drawing many rows from the sampler of a model whose parameters are all zero
    (the start of every solver) gives all spin vectors equally often.  With an even number of
    updates between rows, whether default (1000), systematic or random, all rows of one
    call have the same product of spins, for every generator: the average of the product is
    1 or -1 while its expectation is 0.  For two spins the sampled correlation is 1 or -1. *)
Theorem C87_zero_parameters_refuted : forall (T : Type) (g : rng T) (n sample_size n_iters : nat) (burn_in : option nat) (systematic : bool)
    (samples initial : option (list (list Z))) (t : T) r,
  rng_ok g -> (0 < n)%nat -> (0 < sample_size)%nat -> Nat.even n_iters = true ->
  (forall ss, samples = Some ss -> Forall (fun s => length s = n /\ Forall spin s) ss) -> (forall ss, initial = Some ss -> Forall (Forall spin) ss) ->
  let E := fun s => ising_calc_e_row (map IZR s) (repeat 0 (n + n * (n - 1) / 2)) in let states := all_states [-1; 1]%Z n in
  ising_generate_sample_py g E n sample_size n_iters burn_in systematic samples initial t = Ok r ->
  Rabs (sumf (g_sample r) (fun s => IZR (spin_product s)) / INR sample_size) = 1 /\
  expectation (boltzmann E states) states (fun s => IZR (spin_product s)) = 0.
Proof.
  intros T g n m k b sys samples initial t r Hg Hn Hm Hev HS HI E states H.
  assert (HE : forall s, length s = n -> E s = 0) by (intros s Hl; now apply (zero_energy n)).
  split.
  2: { apply product_mean_zero; [assumption|]. intros (s & s' & Hs & Hs' & NE). apply NE. apply spin_states_spec in Hs, Hs'. now rewrite !HE. }
  unfold ising_generate_sample_py, generate_sample_py in H.
  match type of H with bind ?X _ = _ => destruct X as [[st t0]|e] eqn:Q end; [|discriminate]. cbn [bind] in H.
  assert (V : Forall (fun s => length s = n /\ Forall spin s) st).
  { assert (RR : forall t, length (fst (ising_random_row g n t)) = n /\ Forall spin (fst (ising_random_row g n t))).
    { intros t1. split; [apply draw_row_length|]. unfold ising_random_row. generalize n. clear - Hg. intros n. revert t1. induction n as [|n IH]; intros t1; cbn [draw_row]; [constructor|].
      assert (B := proj1 Hg t1 0%nat 2%nat ltac:(lia)). destruct (randint g t1 0 2) as [x t2]. cbn [fst] in B. specialize (IH t2). destruct (draw_row _ n t2) as [xs t3]. cbn in *. constructor; [|assumption].
      unfold spin. destruct x as [|[|x]]; cbn; lia. }
    destruct initial as [ini|].
    - destruct (Nat.eqb (length ini) 1 && forallb (fun r0 => Nat.eqb (length r0) n) ini) eqn:Q1; [|discriminate]. injection Q as <- <-. apply andb_true_iff in Q1. destruct Q1 as [_ Q1].
      specialize (HI ini eq_refl). rewrite forallb_forall in Q1. rewrite Forall_forall in *. intros x Hx. split; [apply Nat.eqb_eq; now apply Q1|now apply HI].
    - destruct samples as [ss|].
      + destruct (Nat.eqb (length ss) m); [injection Q as <- <-; now apply HS|]. specialize (RR t). destruct (ising_random_row g n t) as [x t1]. injection Q as <- <-. repeat constructor; apply RR.
      + specialize (RR t). destruct (ising_random_row g n t) as [x t1]. injection Q as <- <-. repeat constructor; apply RR. }
  destruct st as [|s0 [|? ?]]; try discriminate. apply Forall_inv in V. destruct V as [V1 V2].
  rewrite (HE s0 V1) in H.
  assert (K := constant_run g Hg n Hn E 0 HE (sites sys n (burn_in_or b k)) (sites_in n sys _ Hn) s0 t0 V1).
  destruct (run (sample_metropolis g E) (sites sys n (burn_in_or b k)) s0 0 t0) as [[[s1 E1] t1] h1]. destruct K as (K1 & -> & K3).
  assert (L := constant_record g Hg n Hn E 0 HE (sites sys n k) (sites_in n sys _ Hn) ltac:(now rewrite sites_length) m s1 t1 K1).
  assert (Len : forall m s e t, let '((ss, _), _, _) := record (sample_metropolis g E) (sites sys n k) m s e t in length ss = m).
  { clear. induction m as [|m IH]; intros s e t; cbn [record]; [reflexivity|]. destruct (run _ _ s e t) as [[[s1 E1] t1] h1]. specialize (IH s1 E1 t1). destruct (record _ _ m s1 E1 t1) as [[[ss Es] fin] h2]. cbn. now rewrite IH. }
  specialize (Len m s1 0 t1). destruct (record (sample_metropolis g E) (sites sys n k) m s1 0 t1) as [[[ss Es] [[s2 E2] t2]] h2]. injection H as <-. cbn [g_sample].
  rewrite <- Len. rewrite (same_product_mean ss (spin_product s1)); [|intros ->; cbn in Len; lia|assumption].
  rewrite K3. apply sign_abs, (product_spin s0 V2).
Qed.
Print Assumptions C87_zero_parameters_refuted.

Lemma cpp_constant_run {T} (g : rng T) n : rng_ok g -> (0 < n)%nat -> forall sys k ctr s t, length s = n -> let ps := repeat 0 (n + n * (n - 1) / 2) in
  let '((s', e', _), _) := cpp_run (cpp_sample_metropolis g n ps (coupling_mat n n ps)) (pick_all g sys n) k ctr s 0 t in
  length s' = n /\ e' = 0 /\ spin_product s' = (sign_pow k * spin_product s)%Z.
Proof.
  intros Hg Hn sys. assert (HE : forall s, length s = n -> cpp_calc_e n (repeat 0 (n + n * (n - 1) / 2)) s = 0).
  { intros s Hl. rewrite cpp_calc_e_eq by assumption. transitivity (ising_calc_e_row (map IZR s) (repeat 0 (n + n * (n - 1) / 2))); [|now apply (zero_energy n)]. symmetry. apply C15_ising_energy; [now rewrite map_length|apply repeat_length]. }
  induction k as [|k IH]; intros ctr s t Hl ps; cbn [cpp_run].
  - repeat split; [assumption|]. unfold sign_pow. cbn [Nat.even]. lia.
  - assert (B : (fst (pick_all g sys n ctr t) < n)%nat).
    { unfold pick_all. destruct sys; cbn [fst]; [apply Nat.mod_upper_bound; lia|]. apply (proj1 Hg t 0%nat n). lia. }
    destruct (pick_all g sys n ctr t) as [i t1]. cbn [fst] in B. unfold ps. rewrite cpp_sample_metropolis_eq by assumption. rewrite (HE s Hl).
    assert (K := constant_step g Hg n Hn (cpp_calc_e n (repeat 0 (n + n * (n - 1) / 2))) 0 HE (Some i) s t1 B Hl).
    destruct (sample_metropolis g _ (Some i) s 0 t1) as [[s1 de] t2]. destruct K as (K1 & K2 & K3). rewrite K2. specialize (IH (ctr + 1)%nat s1 t2 K1). cbv zeta in IH.
    destruct (cpp_run _ (pick_all g sys n) k (ctr + 1) s1 0 t2) as [[[s' e'] t'] c']. destruct IH as (I1 & I2 & I3). repeat split; try assumption. rewrite I3, K3, sign_pow_S. ring.
Qed.

(** The compiled sampler has the same defect. *)
Theorem C87_zero_parameters_boost_refuted : forall (T : Type) (g : rng T) (n sample_size burn_in n_iters : nat) (systematic : bool) (t : T),
  rng_ok g -> (0 < n)%nat -> (0 < sample_size)%nat -> Nat.even n_iters = true ->
  let rows := boost_ising_sample g n (repeat 0 (n + n * (n - 1) / 2)) sample_size burn_in n_iters systematic t in
  length rows = sample_size /\ Rabs (sumf rows (fun s => IZR (spin_product s)) / INR sample_size) = 1.
Proof.
  intros T g n m b k sys t Hg Hn Hm Hev rows. unfold rows, boost_ising_sample. set (ps := repeat 0 (n + n * (n - 1) / 2)).
  assert (RR : length (fst (cpp_ising_init g n t)) = n /\ Forall spin (fst (cpp_ising_init g n t))).
  { split; [apply draw_row_length|]. unfold cpp_ising_init. generalize n. clear. intros n. revert t. induction n as [|n IH]; intros t1; cbn [draw_row]; [constructor|].
    destruct (randint g t1 0 2) as [x t2]. specialize (IH t2). destruct (draw_row _ n t2) as [xs t3]. cbn in *. constructor; [|assumption]. unfold spin. destruct (Nat.eqb x 0); lia. }
  destruct (cpp_ising_init g n t) as [s0 t0]. cbn [fst] in RR. destruct RR as [V1 V2]. unfold cpp_generate_sample.
  assert (Z0 : cpp_calc_e n ps s0 = 0). { rewrite cpp_calc_e_eq by assumption. transitivity (ising_calc_e_row (map IZR s0) ps); [|now apply (zero_energy n)]. symmetry. apply C15_ising_energy; [now rewrite map_length|apply repeat_length]. }
  rewrite Z0. assert (K := cpp_constant_run g n Hg Hn sys b 0 s0 t0 V1). cbv zeta in K. fold ps in K.
  destruct (cpp_run (cpp_sample_metropolis g n ps (coupling_mat n n ps)) (pick_all g sys n) b 0 s0 0 t0) as [[[s1 e1] t1] c1]. destruct K as (K1 & -> & K3).
  assert (L : forall m ctr s t, length s = n -> let '(ss, _) := cpp_record (cpp_sample_metropolis g n ps (coupling_mat n n ps)) (pick_all g sys n) k m ctr s 0 t in length ss = m /\ Forall (fun r => spin_product r = spin_product s) ss).
  { clear - Hg Hn Hev. induction m as [|m IH]; intros ctr s t Hl; cbn [cpp_record]; [split; [reflexivity|constructor]|].
    assert (K := cpp_constant_run g n Hg Hn sys k ctr s t Hl). cbv zeta in K. fold ps in K. destruct (cpp_run _ (pick_all g sys n) k ctr s 0 t) as [[[s1 e1] t1] c1]. destruct K as (K1 & -> & K3).
    unfold sign_pow in K3. rewrite Hev in K3. specialize (IH c1 s1 t1 K1). destruct (cpp_record _ (pick_all g sys n) k m c1 s1 0 t1) as [ss fin]. destruct IH as [I1 I2]. split; [cbn; now rewrite I1|].
    constructor; [lia|]. eapply Forall_impl; [|exact I2]. cbv beta. intros r Hr. lia. }
  specialize (L m c1 s1 t1 K1). destruct (cpp_record _ (pick_all g sys n) k m c1 s1 0 t1) as [ss fin]. cbn [fst]. destruct L as [Len L]. split; [assumption|].
  rewrite <- Len at 1. rewrite (same_product_mean ss (spin_product s1)); [|intros ->; cbn in Len; lia|assumption].
  rewrite K3. apply sign_abs, (product_spin s0 V2).
Qed.
Print Assumptions C87_zero_parameters_boost_refuted.
