(** * Property theorem C116: minimum probability flow fitted to samples. *)
From Coq Require Import Permutation.
From Coquelicot Require Import Coquelicot.
From Verif Require Import Prelude Spec PreludeFacts M_Index M_Sampler M_Corr M_Params M_Energy M_Models M_MCH M_MPF M_Pseudo P_Index P_Unravel P_Params P_Energy P_Energy2 P_Unique P_Corr P_Corr2
  P_Models P_MPF P_MCH P_Convert P_Descent P_Stable P_MaxEnt P_Pseudo P_Pseudo2 P_Pseudo3 P_Sampler P_Metro P_Cpp
  Props_Energy Props_Index Props_Corr Props_Models Props_MCH Props_MCHDescent Props_Stable Props_MPF P_PseudoStable P_MPFStable
  P_Converge P_Converge2 P_Converge3 Props_Converge Props_Converge2 Props_Recover Props_PseudoNoise.
Import ListNotations.
Local Open Scope R_scope.

(** ** Parameters for spins in {0,1} and in {-1,1} *)
(** A parameter is a field or a coupling. *)
Lemma par_cases n k : (k < n + n * (n - 1) / 2)%nat -> (k < n)%nat \/ exists i j, i <> j /\ (i < n)%nat /\ (j < n)%nat /\ forall p, nthR p k = coupling n p i j.
Proof.
  intros Hk. destruct (ising_ix_cover n k Hk) as (r & Hr & Hi). unfold ising_ix in Hi. destruct Hi as [<-|Hi]; [now left|]. right.
  apply in_map_iff in Hi. destruct Hi as (i & <- & Hi). apply in_others in Hi. exists r, i. split; [lia|]. split; [exact Hr|]. split; [lia|].
  intros p. apply pix_coupling. lia.
Qed.

(** When the energies of two models differ by at most N up to a constant, their parameters for spins in
    {0,1} differ by at most 4 N. *)
Lemma par_close n t t' N c : length t = (n + n * (n - 1) / 2)%nat ->
  (forall s, In s (all_states [0; 1] n) -> Rabs (ising_energy n t s - ising_energy n t' s - c) <= N) ->
  forall k, (k < length t)%nat -> Rabs (nthR t k - nthR t' k) <= 4 * N.
Proof.
  intros Lt HE. set (D := fun s => ising_energy n t s - ising_energy n t' s - c).
  assert (Hlen : forall s, In s (all_states [0; 1] n) -> length s = n) by (intros s Hs; now apply all_states_spec in Hs).
  assert (LF : forall s r, In s (all_states [0; 1] n) -> (r < n)%nat -> Rabs (local_field n t s r - local_field n t' s r) <= 2 * N).
  { intros s r Hs Hr.
    assert (Hs' := in_all_states_upd _ _ _ r 0 Hs (or_introl eq_refl)).
    assert (Hs'' := in_all_states_upd _ _ _ r 1 Hs' (or_intror (or_introl eq_refl))).
    pose proof (ising_energy_upd n t (upd s r 0) r 1 Hr (Hlen _ Hs')) as E1.
    pose proof (ising_energy_upd n t' (upd s r 0) r 1 Hr (Hlen _ Hs')) as E2.
    rewrite !local_field_upd, nthR_upd_same in E1, E2 by (rewrite Hlen; assumption).
    pose proof (HE _ Hs') as B1. pose proof (HE _ Hs'') as B2. apply Rabs_le_between in B1, B2. apply Rabs_le_between. lra. }
  set (s0 := repeat 0 n).
  assert (H0 : In s0 (all_states [0; 1] n)).
  { apply all_states_spec. unfold s0. rewrite repeat_length. split; [reflexivity|]. intros x Hx. apply repeat_spec in Hx. left. now symmetry. }
  assert (Z0 : forall j, nthR s0 j = 0) by (intros j; unfold nthR, s0; apply nth_repeat).
  assert (NN : forall r, (r < n)%nat -> 0 <= N) by (intros r Hr; pose proof (LF s0 r H0 Hr); pose proof (Rabs_pos (local_field n t s0 r - local_field n t' s0 r)); lra).
  intros k Hk. rewrite Lt in Hk. destruct (par_cases n k Hk) as [Hf|(i & j & Hij & Hi & Hj & Hc)].
  - pose proof (LF s0 k H0 Hf) as B. pose proof (NN k Hf). unfold local_field in B.
    rewrite !(sumf_zero (others n k)) in B by (intros i _; rewrite Z0; ring).
    replace (nthR t k + 0 - (nthR t' k + 0)) with (nthR t k - nthR t' k) in B by ring. lra.
  - rewrite !Hc. pose proof (LF s0 i H0 Hi) as B1.
    pose proof (LF (upd s0 j 1) i (in_all_states_upd _ _ _ j 1 H0 (or_intror (or_introl eq_refl))) Hi) as B2.
    rewrite !local_field_upd_other in B2 by (try apply Hlen; assumption). rewrite Z0 in B2.
    apply Rabs_le_between in B1, B2. apply Rabs_le_between. lra.
Qed.

(** The probability flow that solve minimises. *)
Section Solve.
Variables (n : nat) (rows : list (list Z)).
Hypothesis Hn : (0 < n)%nat.
Let P := (n + n * (n - 1) / 2)%nat.
Let St := all_states [-1; 1]%Z n.
Hypothesis Hne : rows <> [].
Hypothesis Hrows : forall s, In s rows -> In s St.
Let up := map (fun y : Z => (2 * y - 1)%Z).
Let dn := map (fun x : Z => ((x + 1) / 2)%Z).
Let X := map dn rows.
Let c := fun u => INR (length (filter (row_eqb u) X)).

Lemma up_dn s : In s St -> In (dn s) (all_states [0; 1]%Z n) /\ up (dn s) = s.
Proof.
  intros Hs. apply all_states_spec in Hs. destruct Hs as [Hl Hv]. split.
  - apply all_states_spec. unfold dn. rewrite map_length. split; [assumption|]. intros x Hx. apply in_map_iff in Hx. destruct Hx as (y & <- & Hy).
    specialize (Hv y Hy). cbn in Hv. destruct Hv as [<-|[<-|[]]]; cbn; auto.
  - unfold up, dn. rewrite map_map. rewrite <- (map_id s) at 2. apply map_ext_in. intros y Hy. specialize (Hv y Hy). cbn in Hv.
    destruct Hv as [<-|[<-|[]]]; reflexivity.
Qed.

Lemma dn_up s : In s (all_states [0; 1]%Z n) -> In (up s) St /\ dn (up s) = s.
Proof.
  intros Hs. apply all_states_spec in Hs. destruct Hs as [Hl Hv]. split.
  - apply all_states_spec. unfold up. rewrite map_length. split; [assumption|]. intros x Hx. apply in_map_iff in Hx. destruct Hx as (y & <- & Hy).
    specialize (Hv y Hy). cbn in Hv. destruct Hv as [<-|[<-|[]]]; cbn; auto.
  - unfold up, dn. rewrite map_map. rewrite <- (map_id s) at 2. apply map_ext_in. intros y Hy. specialize (Hv y Hy). cbn in Hv.
    destruct Hv as [<-|[<-|[]]]; reflexivity.
Qed.

Lemma dn_count s : In s St -> c (dn s) = INR (count_occ rows_dec rows s).
Proof using Hrows.
  intros Hs. unfold c, X. f_equal. clear Hne. induction rows as [|r l IH]; [reflexivity|]. cbn [map filter].
  assert (Hr := Hrows r (or_introl eq_refl)). destruct (up_dn r Hr) as [_ Er]. destruct (up_dn s Hs) as [_ Es].
  assert (IH' : length (filter (row_eqb (dn s)) (map dn l)) = count_occ rows_dec l s) by (apply IH; intros q Hq; apply Hrows; now right).
  destruct (row_eqb (dn s) (dn r)) eqn:Eq.
  - apply row_eqb_eq in Eq. rewrite count_occ_cons_eq by congruence. cbn [length]. now rewrite IH'.
  - rewrite count_occ_cons_neq; [exact IH'|]. intros H. rewrite H, row_eqb_refl in Eq. discriminate.
Qed.

Lemma dn_IZR s : In s St -> map IZR (dn s) = map (fun v => / 2 * v + / 2) (map IZR s) /\ map IZR s = map (fun y => 2 * y + -1) (map IZR (dn s)).
Proof.
  intros Hs. apply all_states_spec in Hs. destruct Hs as [_ Hv]. unfold dn. rewrite !map_map. split; apply map_ext_in; intros y Hy; specialize (Hv y Hy); cbn in Hv;
    destruct Hv as [<-|[<-|[]]]; cbn; lra.
Qed.

Lemma dn_flip s r : In s St -> (r < n)%nat -> upd (dn s) r (1 - nth r (dn s) 0)%Z = dn (upd s r (- nth r s 0)%Z).
Proof.
  intros Hs Hr. apply all_states_spec in Hs. destruct Hs as [Hl Hv]. unfold dn. rewrite map_upd_gen. f_equal.
  rewrite (nth_indep _ 0%Z ((0 + 1) / 2)%Z) by (rewrite map_length; lia). rewrite (map_nth (fun x : Z => ((x + 1) / 2)%Z)).
  assert (I : In (nth r s 0%Z) s) by (apply nth_In; lia). specialize (Hv _ I). cbn in Hv. destruct Hv as [<-|[<-|[]]]; reflexivity.
Qed.

Variable us : list (list Z).
Hypothesis Hus : all_binary n us.
Let Xuniq := map (map IZR) us.
Let adjs := map (fun s => fst (adj s)) Xuniq.

Lemma flow_pair z y k : length z = P -> length y = P -> (forall s, In s St -> ising_energy n z (map IZR (dn s)) = ising_energy n y (map IZR s) + k) ->
  flow ising_calc_e_row Xuniq (map c us) adjs z = INR (length rows) * spin_flow n rows y.
Proof using Hn Hne Hrows Hus.
  intros Lz Ly HE. unfold Xuniq, adjs. rewrite (flow_exact n us c Hus). unfold tflow.
  assert (PM : Permutation us (map dn St)).
  { apply NoDup_Permutation; [exact (proj1 Hus)| |].
    - unfold dn, St. rewrite <- all_states_map. apply all_states_NoDup. repeat constructor; cbn; intuition discriminate.
    - intros u. rewrite (proj2 Hus u). unfold dn, St. rewrite <- all_states_map. reflexivity. }
  rewrite (sumf_perm _ _ _ PM), sumf_map. unfold spin_flow. fold St. rewrite <- sumf_scal_l. apply sumf_ext_in. intros s Hs.
  rewrite dn_count by exact Hs. destruct (up_dn s Hs) as [Hd _].
  assert (N0 : INR (length rows) <> 0) by (apply not_0_INR; intros H0; apply length_zero_iff_nil in H0; now apply Hne).
  rewrite <- !sumf_scal_l. apply sumf_ext_in. intros r Hr. apply in_seq in Hr. rewrite dn_flip by (auto; lia).
  assert (Hf : In (upd s r (- nth r s 0)%Z) St).
  { apply in_all_states_upd; [exact Hs|]. apply all_states_spec in Hs. destruct Hs as [Hl Hv].
    assert (I : In (nth r s 0%Z) s) by (apply nth_In; lia). specialize (Hv _ I). cbn in Hv. destruct Hv as [<-|[<-|[]]]; cbn; auto. }
  assert (EZ : forall t, In t St -> ising_calc_e_row (map IZR (dn t)) z = ising_energy n y (map IZR t) + k).
  { intros t Ht. rewrite <- HE by exact Ht. apply C15_ising_energy; [|exact Lz]. destruct (up_dn t Ht) as [H _]. apply all_states_spec in H. rewrite map_length. apply H. }
  rewrite (EZ s Hs), (EZ _ Hf). replace (ising_energy n y (map IZR s) + k - (ising_energy n y (map IZR (upd s r (- nth r s 0)%Z)) + k))
    with (ising_energy n y (map IZR s) - ising_energy n y (map IZR (upd s r (- nth r s 0)%Z))) by ring.
  field. exact N0.
Qed.

(** The objective and its logarithm. *)
Lemma objective_values z : length z = P -> (forall u, In u us -> 0 < c u) ->
  let F := flow ising_calc_e_row Xuniq (map c us) adjs z in let N := sumR (map c us) in
  mpf_K ising_calc_e_row None Xuniq (map c us) adjs z = Ok (F / N, None) /\
  mpf_logK ising_calc_e_row None Xuniq (map c us) adjs z = Ok (ln (F / N), None) /\ 0 < F / N /\ 0 < N.
Proof using Hn Hus.
  intros Lz Hc F N.
  assert (HC : length (map c us) = length Xuniq) by (unfold Xuniq; now rewrite !map_length).
  assert (HA : length adjs = length Xuniq) by (unfold adjs; now rewrite map_length).
  assert (H0 : In (repeat 0%Z n) us).
  { apply (proj2 Hus). apply all_states_spec. rewrite repeat_length. split; [reflexivity|]. intros x Hx. apply repeat_spec in Hx. subst. now left. }
  assert (Hm : (0 < length Xuniq)%nat) by (unfold Xuniq; rewrite map_length; destruct us; [destruct H0|cbn; lia]).
  assert (Hr : forall l, In l adjs -> length l = n).
  { intros l Hl. unfold adjs in Hl. apply in_map_iff in Hl. destruct Hl as (s & <- & Hs).
    unfold Xuniq in Hs. apply in_map_iff in Hs. destruct Hs as (u & <- & Hu). rewrite (adj_row n us Hus u Hu). now rewrite map_length, seq_length. }
  assert (Hpos : forall x, In x (map c us) -> 0 < x).
  { intros x Hx. apply in_map_iff in Hx. destruct Hx as (u & <- & Hu). now apply Hc. }
  destruct (C37_objective_values ising_calc_e_row Xuniq (map c us) adjs z n HC HA Hm Hr Hpos) as [B1 B2].
  rewrite prob_flow_flow in B1, B2. fold F N in B1, B2.
  assert (HN : 0 < N).
  { unfold N, sumR. apply sumf_pos; [|intros x Hx; now apply Hpos]. intros E. apply (f_equal (@length R)) in E. cbn [length] in E. lia. }
  assert (HF : 0 < F).
  { apply flow_pos; auto.
    - intros k Hk. rewrite !Hr; [reflexivity| |]; apply nth_In; lia.
    - intros k Hk. apply Hpos, nth_In. rewrite map_length. unfold Xuniq in Hk. rewrite map_length in Hk. exact Hk.
    - rewrite Hr; [lia|apply nth_In; lia]. }
  split; [exact B1|]. split; [exact B2|]. split; [now apply Rdiv_lt_0_compat|exact HN].
Qed.
End Solve.

(** ** C116 *)
(** solve returns parameters within rho of q, whatever the order of the unique rows, the
    guess and the minimiser, with and without the logarithm, as long as the box of the search is
    4 sqrt(P) rho larger than the parameters theta of the same model for spins in {0,1}. *)
Definition mpf_recovers (n : nat) (q : list R) (rho : R) (rows : list (list Z)) : Prop :=
  let P := (n + n * (n - 1) / 2)%nat in
  forall (lt : list Z -> list Z -> bool) (guess : option (list R)) (limit : R) (uselog : bool) minimize (theta : list R) (c0 : R),
  strict_total lt -> 0 < limit -> (forall g, guess = Some g -> length g = P) ->
  length theta = P -> (forall s, In s (all_states [0; 1] n) -> ising_energy n theta s = ising_energy n q (map (fun y => 2 * y - 1) s) + c0) ->
  (forall v, In v theta -> Rabs v + 4 * (sqrt (INR P) * rho) <= limit) -> exact_minimiser minimize ->
  exists p, mpf_solve ising_calc_e_row ising_calc_observables_row lt (mpf_new None None) n rows guess true limit uselog minimize = Ok p /\
    length p = P /\ dist2 p q < rho.

(** Data whose frequencies are near the probabilities of an Ising model: minimising the
    probability flow returns parameters near those of the model. *)
Theorem C116_near_data : forall (n : nat) (q : list R) (rho : R) (rows : list (list Z)), let P := (n + n * (n - 1) / 2)%nat in
  (0 < n)%nat -> length q = P -> 0 < rho -> rows <> [] -> (forall s, In s rows -> In s (all_states [-1; 1]%Z n)) ->
  2 ^ n * freq_dist n q rows < fit_radius n q rho * fit_radius n q rho -> mpf_recovers n q rho rows.
Proof.
  intros n q rho rows P Hn Hq Hrho Hne Hrows HD lt guess limit uselog minimize theta c0 Hlt Hlim Hguess Lth Hth Hbox Hmin. fold P in Hguess, Lth, Hbox.
  assert (HL := near_l1 n q rows rho Hn Hrho HD).
  set (St := all_states [-1; 1]%Z n) in *.
  set (X := map (map (fun x => ((x + 1) / 2)%Z)) rows). set (us := np_unique lt X). set (Xuniq := map (map IZR) us).
  set (c := fun u => INR (length (filter (row_eqb u) X))). set (dn := map (fun x : Z => ((x + 1) / 2)%Z)).
  assert (CNT : forall s, In s St -> 0 < c (dn s)).
  { intros s Hs. pose proof (dn_count n rows Hrows s Hs) as C1. change (c (dn s) = INR (count_occ rows_dec rows s)) in C1. rewrite C1.
    pose proof (freq_low n q rows Hn Hq rho Hrho HL s Hs) as F. pose proof (om_pos n q) as O.
    assert (F0 : 0 < INR (count_occ rows_dec rows s) / INR (length rows)) by lra.
    destruct (count_occ rows_dec rows s) as [|k] eqn:Ek; [|apply lt_0_INR; lia]. exfalso. cbn [INR] in F0. unfold Rdiv in F0. rewrite Rmult_0_l in F0. lra. }
  assert (Hus : all_binary n us).
  { split; [now apply np_unique_NoDup|]. intros u. unfold us. rewrite np_unique_in. split.
    - intros H. unfold X in H. apply in_map_iff in H. destruct H as (r & <- & Hr). exact (proj1 (up_dn n r (Hrows r Hr))).
    - intros Hu. destruct (dn_up n u Hu) as [HU Eu]. pose proof (CNT _ HU) as C0. change (dn (map (fun y : Z => (2 * y - 1)%Z) u) = u) in Eu. rewrite Eu in C0.
      unfold c in C0. destruct (filter (row_eqb u) X) as [|v l] eqn:Ef; [cbn in C0; lra|].
      assert (I : In v (filter (row_eqb u) X)) by (rewrite Ef; now left). apply filter_In in I. destruct I as [I1 I2]. apply row_eqb_eq in I2. now subst v. }
  assert (Cpos : forall u, In u us -> 0 < c u).
  { intros u Hu. apply (proj2 Hus) in Hu. destruct (dn_up n u Hu) as [HU Eu]. pose proof (CNT _ HU) as C0. change (dn (map (fun y : Z => (2 * y - 1)%Z) u) = u) in Eu. now rewrite Eu in C0. }
  destruct (flow_fit n q rows Hn Hq Hne Hrows rho Hrho HL) as (x & Lx & Dx & Ux). fold P in Lx, Ux.
  destruct (convert_concat_ok n x To01 Hn Lx ltac:(discriminate)) as (ts & c1 & _ & Lts & Hts). rewrite Lx in Lts. cbv beta iota in Hts.
  assert (HEs : forall s, In s St -> ising_energy n ts (map IZR (dn s)) = ising_energy n x (map IZR s) + c1).
  { intros s Hs. destruct (up_dn n s Hs) as [Hd _]. apply all_states_spec in Hd. rewrite Hts by (rewrite map_length; apply Hd). unfold dn. now rewrite <- (proj2 (dn_IZR n s Hs)). }
  (* the new parameters are in the box *)
  assert (Hbs : in_box limit ts).
  { assert (N2 : sumf (seq 0 P) (fun k => Rabs (nthR x k - nthR q k)) <= sqrt (INR P) * rho).
    { apply Rle_trans with (1 := norm1_nrm P (fun k => nthR x k - nthR q k)). apply Rmult_le_compat_l; [apply sqrt_pos|].
      rewrite (dist2_nrm n Hn x q Hq) in Dx. fold P in Dx. lra. }
    assert (CL := par_close n ts theta (sqrt (INR P) * rho) (c1 - c0) Lts). rewrite Lts in CL.
    assert (CK : forall k, (k < P)%nat -> Rabs (nthR ts k - nthR theta k) <= 4 * (sqrt (INR P) * rho)).
    { apply CL. intros s Hs. rewrite Hth by exact Hs. change [0; 1] with (map IZR [0; 1]%Z) in Hs. rewrite all_states_map in Hs. apply in_map_iff in Hs.
      destruct Hs as (u & <- & Hu). destruct (dn_up n u Hu) as [HU Eu]. change (dn (map (fun y : Z => (2 * y - 1)%Z) u) = u) in Eu.
      set (v := map (fun y : Z => (2 * y - 1)%Z) u) in *.
      replace (map (fun y => 2 * y - 1) (map IZR u)) with (map IZR v) by (unfold v; rewrite !map_map; apply map_ext; intros y; rewrite minus_IZR, mult_IZR; reflexivity).
      rewrite <- Eu at 1. rewrite HEs by exact HU. assert (Lv : length (map IZR v) = n) by (apply all_states_spec in HU; rewrite map_length; apply HU).
      rewrite !ising_energy_dot by assumption.
      assert (Lo : length (ising_obs (map IZR v)) = P) by (rewrite ising_obs_length, Lv; reflexivity).
      rewrite (dot_seq _ x P Lo Lx), (dot_seq _ q P Lo Hq).
      apply Rle_trans with (2 := N2).
      match goal with |- Rabs ?e <= _ => replace e with (- sumf (seq 0 P) (fun k => nthR (ising_obs (map IZR v)) k * (nthR x k - nthR q k))) end.
      - rewrite Rabs_Ropp. apply Rle_trans with (1 := sumf_abs_le _ _). apply sumf_le. intros k Hk. apply in_seq in Hk. rewrite Rabs_mult.
        pose proof (o_b n Hn v k HU ltac:(unfold P in Hk; lia)) as Ob. pose proof (Rabs_pos (nthR x k - nthR q k)). cbv beta in Ob. nra.
      - rewrite (sumf_ext (seq 0 P) _ (fun k => nthR (ising_obs (map IZR v)) k * nthR x k - nthR (ising_obs (map IZR v)) k * nthR q k)) by (intros; ring).
        rewrite sumf_minus. ring. }
    intros v Hv. destruct (In_nth ts v 0 Hv) as (k & Hk & <-). rewrite Lts in Hk. specialize (CK k Hk). fold (nthR ts k).
    assert (Hi : In (nthR theta k) theta) by (apply nth_In; congruence). specialize (Hbox _ Hi).
    replace (nthR ts k) with (nthR theta k + (nthR ts k - nthR theta k)) by ring. pose proof (Rabs_triang (nthR theta k) (nthR ts k - nthR theta k)). lra. }
  (* the flow at any parameters *)
  assert (Nr : 0 < INR (length rows)) by (apply len_pos; exact Hne).
  assert (Hex : Xuniq <> []).
  { intros E. assert (I : In (repeat 0%Z n) us).
    { apply (proj2 Hus). apply all_states_spec. rewrite repeat_length. split; [reflexivity|]. intros y Hy. apply repeat_spec in Hy. subst. now left. }
    unfold Xuniq in E. apply map_eq_nil in E. rewrite E in I. destruct I. }
  unfold mpf_solve. unfold Rltb. destruct (Rlt_dec 0 limit) as [_|NL]; [|lra]. cbn [negb]. fold X. cbn [mpf_new mpf_adj mpf_calc_de attr bind].
  fold us. fold Xuniq. change (map (fun u => INR (length (filter (row_eqb u) X))) us) with (map c us).
  match goal with |- exists p, bind ?e ?k = _ /\ _ => assert (G : exists g, e = Ok g /\ length g = P) end.
  { destruct guess as [g|].
    - destruct (convert_concat_ok n g To01 Hn ltac:(now apply Hguess) ltac:(discriminate)) as (y & cc & E & Ly & _).
      exists y. split; [exact E|]. rewrite Ly. now apply Hguess.
    - eexists. split; [reflexivity|]. unfold range. rewrite map_length, seq_length, ising_calc_observables_row_eq, ising_obs_length, repeat_length. reflexivity. }
  destruct G as (g & EG & Lg). rewrite EG. cbn [bind].
  match goal with |- exists p, bind ?e ?k = _ /\ _ => assert (EA : e = Ok (fun s => fst (adj s))) by (destruct Xuniq; [congruence|reflexivity]) end.
  rewrite EA. cbn [bind list_adjacent_states].
  set (adjs := map (fun s => fst (adj s)) Xuniq).
  set (f := fun params => if uselog then mpf_logK ising_calc_e_row None Xuniq (map c us) adjs params else mpf_K ising_calc_e_row None Xuniq (map c us) adjs params).
  assert (MIN : forall z, length z = P -> exists v w, f ts = Ok (v, None) /\ f z = Ok (w, None) /\ v <= w /\ (w <= v -> z = ts)).
  { intros z Lz.
    destruct (objective_values n rows Hn us Hus ts Lts Cpos) as (A1 & A2 & A3 & HN).
    destruct (objective_values n rows Hn us Hus z Lz Cpos) as (B1 & B2 & B3 & _).
    destruct (convert_concat_ok n z To11 Hn Lz ltac:(discriminate)) as (y & cz & _ & Ly & Hy). rewrite Lz in Ly. cbv beta iota in Hy.
    assert (HEz : forall s, In s St -> ising_energy n z (map IZR (dn s)) = ising_energy n y (map IZR s) + - cz).
    { intros s Hs. assert (Ls := Hs). apply all_states_spec in Ls. rewrite Hy by (rewrite map_length; apply Ls). rewrite <- (proj1 (dn_IZR n s Hs)). fold dn. ring. }
    rewrite (flow_pair n rows Hn Hne Hrows us Hus ts x c1 Lts Lx HEs) in A1, A2, A3.
    rewrite (flow_pair n rows Hn Hne Hrows us Hus z y (- cz) Lz Ly HEz) in B1, B2, B3.
    destruct (Ux y Ly) as [U1 U2].
    change (sumR (map (fun u => INR (length (filter (row_eqb u) (map (map (fun x => ((x + 1) / 2)%Z)) rows)))) us)) with (sumR (map c us)) in *.
    set (N := sumR (map c us)) in *.
    assert (LE : INR (length rows) * spin_flow n rows x / N <= INR (length rows) * spin_flow n rows y / N).
    { apply Rmult_le_compat_r; [left; now apply Rinv_0_lt_compat|]. apply Rmult_le_compat_l; lra. }
    assert (EQ : INR (length rows) * spin_flow n rows y / N <= INR (length rows) * spin_flow n rows x / N -> z = ts).
    { intros H. apply Rmult_le_reg_r in H; [|now apply Rinv_0_lt_compat]. apply Rmult_le_reg_l in H; [|exact Nr]. specialize (U2 H). subst y.
      apply (ising_energy_unique 0 1 n z ts (- cz - c1)); [lra|exact Lz|exact Lts|]. intros s Hs. change [0; 1] with (map IZR [0; 1]%Z) in Hs. rewrite all_states_map in Hs.
      apply in_map_iff in Hs. destruct Hs as (u & <- & Hu). destruct (dn_up n u Hu) as [HU Eu]. change (dn (map (fun y : Z => (2 * y - 1)%Z) u) = u) in Eu.
      rewrite <- Eu. rewrite HEz, HEs by exact HU. ring. }
    unfold f. destruct uselog.
    - eexists _, _. split; [exact A2|]. split; [exact B2|]. split.
      + destruct LE as [LE|LE]; [left; now apply ln_increasing|right; now rewrite LE].
      + intros [H|H]; apply EQ; [left; now apply ln_lt_inv|right; now apply ln_inv].
    - eexists _, _. split; [exact A1|]. split; [exact B1|]. split; [exact LE|exact EQ]. }
  assert (IM : is_minimum f (length g) limit ts).
  { split; [congruence|]. split; [assumption|]. destruct (MIN ts Lts) as (v & w & E1 & _). exists v, None. split; [exact E1|].
    intros z Lz _. destruct (MIN z ltac:(congruence)) as (v' & w' & E1' & E2' & Le & _). exists w', None. split; [exact E2'|].
    rewrite E1 in E1'. injection E1' as <-. exact Le. }
  pose proof (Hmin f g limit ts IM) as (Lm & _ & vx & ox & Ex & Hx).
  set (m := minimize f g limit) in *. destruct (MIN m ltac:(congruence)) as (v & w & E1 & E2 & Le & Heq).
  destruct (Hx ts ltac:(congruence) Hbs) as (w' & o' & E3 & Le').
  rewrite E1 in E3. injection E3 as <- <-. rewrite E2 in Ex. injection Ex as <- <-.
  assert (Exx : m = ts) by (apply Heq; lra). rewrite Exx.
  destruct (convert_concat_ok n ts To11 Hn Lts ltac:(discriminate)) as (y & cc & E & Ly & Hy). cbv beta iota in Hy. rewrite E. exists y. split; [reflexivity|]. rewrite Lts in Ly. split; [exact Ly|].
  assert (Eyx : y = x); [|rewrite Eyx; exact Dx].
  apply (ising_energy_unique (-1) 1 n y x (c1 + cc)); [lra|exact Ly|exact Lx|].
  intros s Hs. change [-1; 1] with (map IZR [-1; 1]%Z) in Hs. rewrite all_states_map in Hs. apply in_map_iff in Hs. destruct Hs as (u & <- & Hu).
  assert (Lu := Hu). apply all_states_spec in Lu. rewrite Hy by (rewrite map_length; apply Lu). rewrite <- (proj1 (dn_IZR n u Hu)). fold dn. rewrite HEs by exact Hu. ring.
Qed.
Print Assumptions C116_near_data.

Lemma good_rows_mpf n q rho rows : (0 < n)%nat -> length q = (n + n * (n - 1) / 2)%nat -> 0 < rho -> (0 < length rows)%nat ->
  good_rows n q rho rows = true -> mpf_recovers n q rho rows.
Proof.
  intros Hn Hq Hr Hl Hg. apply andb_true_iff in Hg. destruct Hg as [G1 G2]. rewrite forallb_forall in G1.
  apply C116_near_data; try assumption.
  - intros ->. cbn in Hl. lia.
  - intros s Hs. specialize (G1 s Hs). now destruct (in_dec rows_dec s (all_states [-1; 1]%Z n)).
  - now destruct (Rlt_dec (2 ^ n * freq_dist n q rows) (fit_radius n q rho * fit_radius n q rho)).
Qed.

(** Sample with the compiled Metropolis sampler at parameters q, then minimise the
    probability flow: there is a constant C, depending on q only, such that for every accuracy
    and confidence, every start, burn-in and number of updates between rows, m rows with
    4^n C <= delta r^2 m are enough for the fitted parameters to be within rho of q with
    probability at least 1 - delta. *)
Theorem C116_boost : forall (n : nat) (q : list R), let P := (n + n * (n - 1) / 2)%nat in
  (0 < n)%nat -> length q = P -> (exists k, (k < length q)%nat /\ nthR q k <> 0) ->
  exists C, 0 < C /\ forall (rho delta : R) s0 burn_in n_iters m c,
  let r := fit_radius n q rho in
  0 < rho -> 0 < delta -> In s0 (all_states [-1; 1]%Z n) -> (0 < n_iters)%nat -> 2 ^ n * 2 ^ n * C <= delta * (r * r) * INR m ->
  exists good : list (list Z) -> bool,
    Etape (draw n) (burn_in + m * n_iters) (fun l =>
      if good (fst (cpp_generate_sample tape (cpp_sample_metropolis tape n q (coupling_mat n n q)) (cpp_calc_e n q) n m burn_in n_iters false s0 (l, c)))
      then 0 else 1) <= delta /\
    forall rows, length rows = m -> good rows = true -> mpf_recovers n q rho rows.
Proof.
  intros n q P Hn Hq NZ. destruct (boost_good n q Hn Hq NZ) as (C & Cp & H). exists C. split; [exact Cp|].
  intros rho delta s0 b k m c r Hr Hd Hs Hk Hm. destruct (H rho delta s0 b k m c Hr Hd Hs Hk Hm) as [Mp HE]. exists (good_rows n q rho). split; [exact HE|].
  intros rows Lr Hg. apply good_rows_mpf; try assumption. lia.
Qed.
Print Assumptions C116_boost.

(** The same with the Python sampler, Metropolis.generate_sample_py. *)
Theorem C116_python : forall (n : nat) (q : list R), let P := (n + n * (n - 1) / 2)%nat in
  (0 < n)%nat -> length q = P -> (exists k, (k < length q)%nat /\ nthR q k <> 0) ->
  exists C, 0 < C /\ forall (rho delta : R) samples s0 burn_in n_iters m c,
  let r := fit_radius n q rho in
  0 < rho -> 0 < delta -> In s0 (all_states [-1; 1]%Z n) -> (0 < n_iters)%nat -> 2 ^ n * 2 ^ n * C <= delta * (r * r) * INR m ->
  exists good : list (list Z) -> bool,
    Etape (draw n) (burn_in_or burn_in n_iters + m * n_iters) (fun l =>
      match ising_generate_sample_py tape (fun s => ising_energy n q (map IZR s)) n m n_iters burn_in false samples (Some [s0]) (l, c) with
      | Ok g => if good (g_sample g) then 0 else 1 | Err _ => 1 end) <= delta /\
    forall rows, length rows = m -> good rows = true -> mpf_recovers n q rho rows.
Proof.
  intros n q P Hn Hq NZ. destruct (python_good n q Hn Hq NZ) as (C & Cp & H). exists C. split; [exact Cp|].
  intros rho delta samples s0 b0 k m c r Hr Hd Hs Hk Hm. destruct (H rho delta samples s0 b0 k m c Hr Hd Hs Hk Hm) as [Mp HE]. exists (good_rows n q rho). split; [exact HE|].
  intros rows Lr Hg. apply good_rows_mpf; try assumption. lia.
Qed.
Print Assumptions C116_python.

(** The hypotheses can be met: the six samples of C38_example have exact frequencies, so they
    are near enough for every accuracy, and with limit 6 the parameters are found to within 1/2. *)
Example C116_example :
  let q := [0; 0; ln 2 / 2] in let theta := [- ln 2; - ln 2; 2 * ln 2] in
  let rows := [[1; 1]; [1; 1]; [-1; -1]; [-1; -1]; [1; -1]; [-1; 1]]%Z in
  (forall rho, 0 < rho -> 2 ^ 2 * freq_dist 2 q rows < fit_radius 2 q rho * fit_radius 2 q rho) /\
  (forall v, In v theta -> Rabs v + 4 * (sqrt (INR 3) * / 2) <= 6) /\
  exists minimize, exact_minimiser minimize.
Proof.
  intros q theta rows. destruct C38_example as (A1 & A2 & A3 & A4 & A5). split; [|split; [|exact A5]].
  - intros rho Hr. assert (Rp := radius_pos 2 q rho ltac:(lia) Hr).
    assert (Z : freq_dist 2 q rows = 0); [|rewrite Z, Rmult_0_r; now apply Rmult_lt_0_compat].
    unfold freq_dist. cbv zeta. apply sumf_zero. intros s Hs. rewrite (A2 s Hs : INR (count_occ rows_dec rows s) / INR (length rows) = _).
    assert (EB : boltzmann (ising_energy 2 q) (all_states [-1; 1] 2) (map IZR s) = boltzmann (fun s => ising_energy 2 q (map IZR s)) (all_states [-1; 1]%Z 2) s).
    { unfold boltzmann, partition. change [-1; 1] with (map IZR [-1; 1]%Z). rewrite all_states_map, sumf_map. reflexivity. }
    unfold q in EB. rewrite EB. unfold q. ring.
  - assert (L : 0 < ln 2 < 1).
    { split; [rewrite <- ln_1; apply ln_increasing; lra|]. rewrite <- (ln_exp 1). apply ln_increasing; [lra|]. pose proof (exp_ineq1 1 ltac:(lra)). lra. }
    assert (S3 : sqrt (INR 3) <= 2) by (rewrite <- (sqrt_square 2) by lra; apply sqrt_le_1_alt; cbn; lra).
    intros v H. cbn in H. assert (Rabs v <= 2); [|lra]. repeat (destruct H as [<-|H]; [apply Rabs_le; lra|]). destruct H.
Qed.
