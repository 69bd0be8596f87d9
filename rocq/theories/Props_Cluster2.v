(** * Properties C46, C47, C49 (cluster expansion part), C70, C71. *)
From Coq Require Import Permutation Sorted.
From Verif Require Import Prelude PreludeFacts Spec Spec2 M_Index M_Params M_MeanField M_Cluster P_Index P_Energy P_Params P_Enum P_MaxEnt P_MPF
  P_Unique P_MeanField P_MeanField2 P_Cluster P_Cluster2 P_Cluster3 P_Cluster4 P_Cluster5 P_Cluster6.
Import ListNotations.
Local Open Scope R_scope.

(** ** C46 *)
Lemma chain_nth m T : forall levels s, chain m T s levels ->
  (exists rest, levels = rest ++ [[]]) /\
  forall k, (Datatypes.S k < length levels)%nat ->
    nth k levels [] <> [] /\ NoDup (nth (Datatypes.S k) levels []) /\
    (forall u, candidate (s + k) (nth k levels []) u -> exists v, mem m u = Some v) /\
    forall u, In u (nth (Datatypes.S k) levels []) <-> candidate (s + k) (nth k levels []) u /\ T < Rabs (fst (mval m u)).
Proof.
  induction levels as [|l1 levels IH]; intros s H; [destruct H|]. destruct levels as [|l2 levels].
  - cbn [chain] in H. subst l1. split; [now exists []|]. cbn. lia.
  - cbn [chain] in H. destruct H as (H1 & H2 & H3 & H4 & H5). specialize (IH _ H5). destruct IH as [(rest & E) IH]. split.
    + exists (l1 :: rest). cbn [app]. now rewrite E.
    + intros [|k] Hk.
      * rewrite Nat.add_0_r. cbn [nth]. auto.
      * cbn [nth]. cbn [length] in Hk. specialize (IH k). replace (s + Datatypes.S k)%nat with (Datatypes.S s + k)%nat by lia. apply IH. cbn [length]. lia.
Qed.

(** Any number of spins from 2 on, any data, any threshold, any total fitting routine:
    the expansion terminates.  [lv] lists clusters[1], clusters[2], ...; the first level
    has the single spins, the last one is empty, and a cluster of s+1 spins is selected
    exactly when it is the union of two distinct selected clusters of s spins and its
    contribution exceeds the threshold; no cluster is selected twice.  Entropy and
    couplings are the independent model plus the contributions of the selected clusters,
    the contributions of the subsets of each evaluated cluster adding up to S-S0. *)
Theorem C46_selected_clusters_are_summed : forall fit X n fuel T,
  (forall k C, (1 <= k <= n)%nat -> sq k C -> exists J, fit C = Ok J /\ sq k J /\ symm k J) ->
  (2 <= n)%nat -> X <> [] -> (forall x, In x X -> length x = n) -> (n <= fuel)%nat ->
  exists mult ent lv m J,
    solve fuel fit X T None ([], []) false true = Ok (mult, ent, lv, m) /\
    nth 0 lv [] = map (fun i => [i]) (seq 0 n) /\ (exists rest, lv = rest ++ [[]]) /\ NoDup (concat lv) /\
    (forall u, In u (concat lv) -> StronglySorted lt u /\ incl u (seq 0 n) /\ exists w, mem m u = Some w) /\
    (forall s, (Datatypes.S s < length lv)%nat -> forall u, In u (nth (Datatypes.S s) lv []) <->
       (StronglySorted lt u /\ length u = Datatypes.S (Datatypes.S s) /\
        exists g1 g2, In g1 (nth s lv []) /\ In g2 (nth s lv []) /\ g1 <> g2 /\ (forall x, In x u <-> In x g1 \/ In x g2)) /\
       T < Rabs (fst (mval m u))) /\
    ent = sumf (seq 0 n) (fun i => binary_entropy (entry (cooc X) i i)) + sumf (concat lv) (fun u => fst (mval m u)) /\
    (forall i j, (i < n)%nat -> (j < n)%nat -> entry J i j =
       (if Nat.eqb i j then - ln (entry (cooc X) i i / (1 - entry (cooc X) i i)) else 0) + sumf (concat lv) (fun u => entry (snd (mval m u)) i j)) /\
    (exists c, forall y, length y = n -> ising_energy n mult (map (fun x => 2 * x - 1) y) = energy01 n J y + c) /\
    (forall u w, mem m u = Some w -> exists c a b, Permutation c u /\ S_cluster fit (cooc X) c = Ok a /\ Sindependent (cooc X) c = Ok b /\
       sumf (parts u) (fun t => fst (mval m t)) = fst a - fst b /\
       forall i j, (i < n)%nat -> (j < n)%nat -> sumf (parts u) (fun t => entry (snd (mval m t)) i j) = entry (snd a) i j - entry (snd b) i j).
Proof.
  intros fit X n fuel T Hfit Hn HX Hrow Hfuel.
  destruct (solve_ok fit X n fuel T Hfit Hn HX Hrow Hfuel) as (mult & v & levels & m & J0 & E & E0 & Em & Sv & Sy & Hg & Hfs & Hch & Hlv & Hmem & Hv).
  set (lv := map (fun i => [i]) (seq 0 n) :: levels) in *.
  assert (Nd : NoDup (seq 0 n)) by apply seq_NoDup.
  assert (Hlv1 : forall k l, nth_error lv k = Some l -> level_ok (seq 0 n) (1 + k) l).
  { intros [|k] l Hl; [injection Hl as <-; apply singles_ok; assumption|]. apply Hlv in Hl. replace (1 + Datatypes.S k)%nat with (2 + k)%nat by lia. exact Hl. }
  destruct (concat_NoDup (seq 0 n) (length (seq 0 n)) (le_n _) lv 1 Hlv1) as [ND Hin].
  destruct (chain_nth m T lv 1 Hch) as [Hrest Hk].
  destruct (Sindependent_ok n (cooc X) (seq 0 n) (cooc_sq X n HX Hrow) (seq_in n) Nd ltac:(destruct n; [lia|discriminate])) as (J0' & E0' & _ & F0 & H0).
  assert (J0' = J0) by congruence. subst J0'.
  exists mult, (fst v), lv, m, (snd v). split; [exact E|]. split; [reflexivity|]. split; [exact Hrest|]. split; [exact ND|]. split; [|split; [|split; [|split; [|split]]]].
  - intros u Hu. destruct (Hin u Hu) as (A & B & _). split; [exact A|]. split; [exact B|]. now apply Hmem.
  - intros s Hs u. destruct (Hk s Hs) as (_ & _ & _ & H). rewrite H. reflexivity.
  - rewrite <- F0. exact (Hv None I).
  - intros i j Hi Hj. pose proof (Hv (Some (i, j)) (conj Hi Hj)) as V. cbn [vobs] in V. rewrite V, H0 by assumption. f_equal.
    destruct (Nat.eqb_spec i j); [|reflexivity]. cbn [andb]. replace (memb i (seq 0 n)) with true; [reflexivity|]. symmetry. apply memb_in, in_seq. lia.
  - destruct (to_multipliers_ok n (snd v) ltac:(lia) Sv Sy) as (mult' & Em' & _ & c & Hc). assert (mult' = mult) by congruence. subst mult'. now exists c.
  - intros u w Hu. destruct (good_mem _ _ _ _ _ _ _ Hg Hu) as (_ & _ & _ & _ & c & Pc & a & b & Ea & Eb & Hab).
    exists c, a, b. split; [exact Pc|]. split; [exact Ea|]. split; [exact Eb|]. split; [exact (Hab None I)|].
    intros i j Hi Hj. exact (Hab (Some (i, j)) (conj Hi Hj)).
Qed.
Print Assumptions C46_selected_clusters_are_summed.

(** Threshold below every contribution: all nonempty clusters are accumulated, once each,
    and the entropy and the couplings are those of the fit to the full matrix. *)
Theorem C46_nothing_discarded_is_exact : forall fit X n fuel T,
  (forall k C, (1 <= k <= n)%nat -> sq k C -> exists J, fit C = Ok J /\ sq k J /\ symm k J) ->
  (2 <= n)%nat -> X <> [] -> (forall x, In x X -> length x = n) -> (n <= fuel)%nat ->
  exists mult ent lv m J, fit (cooc X) = Ok J /\
    solve fuel fit X T None ([], []) false true = Ok (mult, ent, lv, m) /\
    ((forall u w, StronglySorted lt u -> (2 <= length u)%nat -> mem m u = Some w -> T < Rabs (fst w)) ->
     NoDup (concat lv) /\ (forall u, In u (concat lv) <-> StronglySorted lt u /\ incl u (seq 0 n) /\ u <> []) /\
     ent = entropy (boltzmann (energy01 n J) (all_states [0; 1] n)) (all_states [0; 1] n) /\
     exists c, forall y, length y = n -> ising_energy n mult (map (fun x => 2 * x - 1) y) = energy01 n J y + c).
Proof.
  intros fit X n fuel T Hfit Hn HX Hrow Hfuel.
  destruct (solve_exact fit X n fuel T Hfit Hn HX Hrow Hfuel) as (mult & ent & levels & m & J & E1 & _ & _ & E2 & H).
  exists mult, ent, (map (fun i => [i]) (seq 0 n) :: levels), m, J. split; [exact E1|]. split; [exact E2|exact H].
Qed.
Print Assumptions C46_nothing_discarded_is_exact.

(** In particular for a negative threshold; if the fit of the full matrix reproduces its
    entries, the multipliers returned reproduce the means and pair correlations of the
    data. *)
Theorem C46_negative_threshold_reproduces_data : forall fit X n fuel T,
  (forall k C, (1 <= k <= n)%nat -> sq k C -> exists J, fit C = Ok J /\ sq k J /\ symm k J) ->
  (2 <= n)%nat -> X <> [] -> (forall x, In x X -> length x = n /\ forall v, In v x -> v = -1 \/ v = 1) -> (n <= fuel)%nat -> T < 0 ->
  (forall J, fit (cooc X) = Ok J -> forall i j, (i <= j)%nat -> (j < n)%nat ->
     expectation (boltzmann (energy01 n J) (all_states [0; 1] n)) (all_states [0; 1] n) (fun y => nthR y i * nthR y j) = entry (cooc X) i j) ->
  exists mult ent lv m, solve fuel fit X T None ([], []) false true = Ok (mult, ent, lv, m) /\
    let E := expectation (boltzmann (ising_energy n mult) (all_states [-1; 1] n)) (all_states [-1; 1] n) in
    (forall i, (i < n)%nat -> E (fun s => nthR s i) = sample_mean X (fun x => nthR x i)) /\
    (forall i j, (i < j)%nat -> (j < n)%nat -> E (fun s => nthR s i * nthR s j) = sample_mean X (fun x => nthR x i * nthR x j)).
Proof.
  intros fit X n fuel T Hfit Hn HX Hrow Hfuel HT Hex.
  destruct (C46_nothing_discarded_is_exact fit X n fuel T Hfit Hn HX (fun x H => proj1 (Hrow x H)) Hfuel) as (mult & ent & lv & m & J & E1 & E2 & H).
  destruct H as (_ & _ & _ & c & Hc). { intros u w _ _ _. pose proof (Rabs_pos (fst w)). lra. }
  exists mult, ent, lv, m. split; [exact E2|]. cbv zeta. apply (match_cooc n X J mult c); [lia|assumption|assumption|assumption|]. now apply Hex.
Qed.
Print Assumptions C46_negative_threshold_reproduces_data.

(** A single spin: the loop never evaluates the contribution of [0], which is then looked
    up. *)
Theorem C46_single_spin_refuted : forall fit X fuel T m0, X <> [] -> (forall x, In x X -> length x = 1%nat) -> (1 <= fuel)%nat ->
  lookup [0%nat] (fst m0) = None ->
  solve fuel fit X T None m0 false true = Err KeyError.
Proof.
  intros fit X fuel T m0 HX Hrow Hfuel Hm. unfold solve. fold (cooc X). cbn [andb].
  assert (Hsq : sq 1 (cooc X)) by now apply cooc_sq. rewrite (proj1 Hsq). cbv iota zeta beta.
  destruct (Sindependent_ok 1 (cooc X) (range 1) Hsq) as (v & E & _); [intros x [<-|[]]; lia|repeat constructor; intros []|discriminate|]. rewrite E.
  unfold solve_core. change (map (fun i => [i]) (range 1)) with [[0%nat]]. destruct fuel as [|fuel]; [lia|].
  assert (E2 : expand (Datatypes.S fuel) (deltaS_flags (Datatypes.S fuel) fit (cooc X) true false) T 1 [[0%nat]] m0 = Ok (m0, [[[0%nat]]; []])).
  { cbn [expand length loop_ij]. change (loop_ij 1) with (@nil (nat * nat)). cbn [foldM bind fst snd]. destruct fuel; reflexivity. }
  rewrite E2. cbn [bind fst snd]. unfold accumulate. cbn [concat app foldM]. unfold clusterID. cbn [nsort fold_right insert].
  unfold memo_get, dget. rewrite Hm. reflexivity.
Qed.
Print Assumptions C46_single_spin_refuted.

(** meanFieldRef=True raises whatever independentRef is: with the default
    independentRef=True by the explicit check, otherwise because SmeanField is not
    imported; turning off both references raises as well. *)
Lemma first_pair n : (2 <= n)%nat -> exists l, loop_ij n = (0, 1)%nat :: l.
Proof.
  intros H. rewrite loop_ij_pairs. destruct n as [|[|n]]; try lia. cbn [seq pairs map app]. eexists. reflexivity.
Qed.

Theorem C46_reference_flags : forall fit X n fuel T m0, (2 <= n)%nat -> X <> [] -> (forall x, In x X -> length x = n) -> (n <= fuel)%nat ->
  (forall C, sq 2 C -> exists J, fit C = Ok J /\ sq 2 J) ->
  solve fuel fit X T None m0 true true = Err GenericException /\
  solve fuel fit X T None m0 false false = Err GenericException /\
  (lookup [0; 1]%nat (fst m0) = None -> solve fuel fit X T None m0 true false = Err NameError).
Proof.
  intros fit X n fuel T m0 Hn HX Hrow Hfuel Hfit. assert (Hsq : sq n (cooc X)) by now apply cooc_sq.
  split; [reflexivity|].
  assert (G : forall dS start, forall e, dS m0 [0; 1]%nat = Err e -> solve_core fuel dS start T (seq 0 n) m0 = Err e).
  { intros dS start e Hd. unfold solve_core. destruct fuel as [|fuel']; [lia|].
    assert (E : exists a b l, map (fun i => [i]) (seq 0 n) = a :: b :: l /\ a = [0%nat] /\ b = [1%nat]).
    { destruct n as [|[|n']]; try lia. cbn [seq map]. eexists _, _, _. repeat split. }
    destruct E as (a & b & l & El & Ea & Eb). rewrite El. cbn [expand]. destruct (first_pair (length (a :: b :: l))) as (q & Eq); [cbn; lia|]. rewrite Eq.
    cbn [foldM fst snd nth]. subst a b. unfold expand_pair at 1. change (length (intersect1d [0%nat] [1%nat]) =? 1 - 1)%nat with true.
    change (nsort (union1d [0%nat] [1%nat])) with [0; 1]%nat. cbn [fst]. cbv iota. rewrite Hd. reflexivity. }
  split.
  - unfold solve. fold (cooc X). cbn [andb]. rewrite (proj1 Hsq). cbv iota zeta beta. unfold range.
    match goal with |- bind ?z _ = _ => assert (E : z = Err GenericException) by (apply G; reflexivity) end. rewrite E. reflexivity.
  - intros Hm. unfold solve. fold (cooc X). cbn [andb]. rewrite (proj1 Hsq). cbv iota zeta beta. unfold range.
    match goal with |- bind ?z _ = _ => assert (E : z = Err NameError); [|rewrite E; reflexivity] end. apply G.
    unfold deltaS_flags. cbn [andb orb negb]. destruct fuel as [|fuel']; [lia|]. cbn [deltaS]. change (clusterID [0; 1]%nat) with [0; 1]%nat. rewrite Hm.
    destruct (S_cluster_ok fit n (cooc X) [0; 1]%nat Hsq) as (J & v & _ & _ & Ev & _).
    + intros x [<-|[<-|[]]]; lia.
    + repeat constructor; cbn; intuition lia.
    + discriminate.
    + exact Hfit.
    + rewrite Ev. reflexivity.
Qed.
Print Assumptions C46_reference_flags.

(** ** C71: the closed forms for one and two spins *)
Lemma entry22 a b c d : forall i j, entry [[a; b]; [c; d]] i j =
  match i, j with 0%nat, 0%nat => a | 0%nat, 1%nat => b | 1%nat, 0%nat => c | 1%nat, 1%nat => d | _, _ => 0 end.
Proof. intros [|[|[|i]]] [|[|[|j]]]; reflexivity. Qed.

Lemma expectation2 a b c (f : list R -> R) : let J := [[a; c / 2]; [c / 2; b]] in
  expectation (boltzmann (energy01 2 J) (all_states [0; 1] 2)) (all_states [0; 1] 2) f =
  (f [0; 0] + exp (- b) * f [0; 1] + exp (- a) * f [1; 0] + exp (- (a + b + c)) * f [1; 1]) / (1 + exp (- b) + exp (- a) + exp (- (a + b + c))).
Proof.
  intros J. unfold expectation, boltzmann, partition. cbn [all_states flat_map map app]. rewrite !sumf_cons, !sumf_nil.
  unfold energy01. cbn [seq]. rewrite !sumf_cons, !sumf_nil. cbn [Nat.eqb]. unfold J. rewrite !entry22. unfold nthR. cbn [nth].
  assert (P0 : 0 < exp (- b)) by apply exp_pos. assert (P1 : 0 < exp (- a)) by apply exp_pos. assert (P2 : 0 < exp (- (a + b + c))) by apply exp_pos.
  repeat match goal with |- context [exp ?x] => lazymatch x with
    | - b => fail | - a => fail | - (a + b + c) => fail
    | _ => first [replace (exp x) with 1 by (rewrite <- exp_0; f_equal; ring)
      | replace (exp x) with (exp (- b)) by (f_equal; ring)
      | replace (exp x) with (exp (- a)) by (f_equal; ring)
      | replace (exp x) with (exp (- (a + b + c))) by (f_equal; field)] end end.
  field. lra.
Qed.

Theorem C71_two_spin_closed_form : forall M c0 c1, let i := Nat.min c0 c1 in let j := Nat.max c0 c1 in
  let pi := entry M i i in let pj := entry M j j in let pij := entry M i j in
  0 < pij -> pij < pi -> pij < pj -> 0 < 1 - pi - pj + pij ->
  let E := expectation (boltzmann (energy01 2 (J_analytic2 M c0 c1)) (all_states [0; 1] 2)) (all_states [0; 1] 2) in
  E (fun y => nthR y 0) = pi /\ E (fun y => nthR y 1) = pj /\ E (fun y => nthR y 0 * nthR y 1) = pij.
Proof.
  intros M c0 c1 i j pi pj pij H1 H2 H3 H4 E. unfold E, J_analytic2. fold i j. fold pi pj pij. cbv zeta.
  set (q := 1 - pi - pj + pij) in *.
  set (a := - ln ((pi - pij) / q)). set (b := - ln ((pj - pij) / q)). set (c := - ln pij + ln (pi - pij) + ln (pj - pij) - ln q).
  replace (/ 2 * c) with (c / 2) by field.
  assert (Ea : exp (- a) = (pi - pij) / q) by (unfold a; rewrite Ropp_involutive; apply exp_ln, Rdiv_lt_0_compat; lra).
  assert (Eb : exp (- b) = (pj - pij) / q) by (unfold b; rewrite Ropp_involutive; apply exp_ln, Rdiv_lt_0_compat; lra).
  assert (Ec : exp (- (a + b + c)) = pij / q).
  { replace (- (a + b + c)) with (ln (pij / q)); [apply exp_ln, Rdiv_lt_0_compat; lra|].
    unfold a, b, c. rewrite !ln_quot by lra. ring. }
  pose proof (expectation2 a b c) as X. cbv zeta in X. rewrite !X, Ea, Eb, Ec. unfold nthR. cbn [nth].
  assert (D : 1 + (pj - pij) / q + (pi - pij) / q + pij / q = / q) by (unfold q; field; fold q; lra).
  rewrite D. repeat split; unfold q; field; fold q; lra.
Qed.
Print Assumptions C71_two_spin_closed_form.

Theorem C71_one_spin_closed_form : forall M i, let p := entry M i i in 0 < p < 1 ->
  expectation (boltzmann (energy01 1 (J_analytic1 M i)) (all_states [0; 1] 1)) (all_states [0; 1] 1) (fun y => nthR y 0) = p.
Proof.
  intros M i p Hp. unfold J_analytic1. fold p. cbv zeta. unfold expectation, boltzmann, partition. cbn [all_states flat_map map app]. rewrite !sumf_cons, !sumf_nil.
  unfold energy01. cbn [seq]. rewrite !sumf_cons, !sumf_nil. cbn [Nat.eqb]. unfold nthR, entry. cbn [nth].
  set (L := ln (p / (1 - p))). replace (exp (- (- L * 0 + 0 + (0 + 0 + 0)))) with 1 by (rewrite <- exp_0; f_equal; ring).
  replace (exp (- (- L * 1 + 0 + (0 + 0 + 0)))) with (p / (1 - p)).
  - field. lra.
  - replace (- (- L * 1 + 0 + (0 + 0 + 0))) with L by ring. symmetry. unfold L. apply exp_ln. apply Rdiv_lt_0_compat; lra.
Qed.
Print Assumptions C71_one_spin_closed_form.

(** But the code never gets there: the logarithm it calls is not defined in its module. *)
Theorem C71_analytic_branch_refuted : forall n M i j, sq n M -> (i < n)%nat -> (j < n)%nat ->
  S_analytic M [i] = Err NameError /\ S_analytic M [i; j] = Err NameError.
Proof.
  intros n M i j [H1 H2] Hi Hj. unfold S_analytic. rewrite !(get_ok M i []) by lia. cbn [bind]. rewrite (get_ok _ i 0) by (rewrite H2; lia). cbn [bind].
  split; [reflexivity|].
  assert (Hm : (Nat.min i j < n)%nat) by (apply Nat.min_case; assumption). assert (HM : (Nat.max i j < n)%nat) by (apply Nat.max_case; assumption).
  rewrite !(get_ok M (Nat.min i j) []) by lia. cbn [bind]. rewrite (get_ok _ (Nat.min i j) 0) by (rewrite H2; lia). cbn [bind].
  rewrite !(get_ok M (Nat.max i j) []) by lia. cbn [bind]. rewrite (get_ok (nth (Nat.max i j) M []) (Nat.max i j) 0) by (rewrite H2; lia). cbn [bind].
  rewrite (get_ok _ (Nat.max i j) 0) by (rewrite H2; lia). reflexivity.
Qed.
Print Assumptions C71_analytic_branch_refuted.

(** And were it reached for an unsorted pair, the two fields would be exchanged: row 0 of
    the two-spin matrix belongs to the smaller index but is written to the first spin of
    the cluster. *)
Theorem C71_unsorted_pair_swaps_fields_refuted : forall n M i j, (i < j)%nat -> (j < n)%nat ->
  exists J, JfullFromCluster (J_analytic2 M j i) [j; i] n = Ok J /\
    entry J j j = entry (J_analytic2 M i j) 0 0 /\ entry J i i = entry (J_analytic2 M i j) 1 1.
Proof.
  intros n M i j Hij Hj. destruct (JfullFromCluster_ok n (J_analytic2 M j i) [j; i]%nat) as (J & E & _ & H & _).
  - repeat constructor; cbn; intuition lia.
  - intros x [<-|[<-|[]]]; lia.
  - split; [reflexivity|]. intros [|[|k]] Hk; cbn in Hk |- *; try lia; reflexivity.
  - exists J. split; [exact E|]. assert (S2 : J_analytic2 M i j = J_analytic2 M j i) by (unfold J_analytic2; now rewrite Nat.min_comm, Nat.max_comm).
    rewrite S2. split; [exact (H 0%nat 0%nat ltac:(cbn; lia) ltac:(cbn; lia))|exact (H 1%nat 1%nat ltac:(cbn; lia) ltac:(cbn; lia))].
Qed.
Print Assumptions C71_unsorted_pair_swaps_fields_refuted.

Example C71_example : let M := [[/ 2; 3 / 8]; [0; 5 / 8]] in
  let E := expectation (boltzmann (energy01 2 (J_analytic2 M 0 1)) (all_states [0; 1] 2)) (all_states [0; 1] 2) in
  E (fun y => nthR y 0) = / 2 /\ E (fun y => nthR y 1) = 5 / 8 /\ E (fun y => nthR y 0 * nthR y 1) = 3 / 8.
Proof.
  intros M. apply (C71_two_spin_closed_form M 0 1); unfold M; rewrite !entry22; cbn; lra.
Qed.

(** ** C46 example: four pairs of correlated spins, fitted by the closed form *)
Definition fit_pair (C : list (list R)) : result (list (list R)) :=
  match C with [[_]] => Ok (J_analytic1 C 0) | _ => Ok (J_analytic2 C 0 1) end.

Example C46_example : let X := [[1; 1]; [-1; -1]; [1; 1]; [1; -1]; [-1; 1]; [-1; -1]; [-1; -1]; [1; 1]] in
  exists mult ent lv m, solve 2 fit_pair X (-1) None ([], []) false true = Ok (mult, ent, lv, m) /\
    expectation (boltzmann (ising_energy 2 mult) (all_states [-1; 1] 2)) (all_states [-1; 1] 2) (fun s => nthR s 0 * nthR s 1) = / 2.
Proof.
  intros X.
  assert (Hc : cooc X = [[/ 2; 3 / 8]; [0; / 2]]).
  { unfold cooc. rewrite (cooccurrence_ok _ true 2).
    - unfold mk_mat, range. cbn [seq map Nat.ltb Nat.leb]. unfold sample_mean, X. cbn [map length]. rewrite !sumf_cons, !sumf_nil. unfold nthR. cbn [nth INR]. repeat f_equal; field.
    - discriminate.
    - intros s Hs. unfold X in Hs. cbn in Hs. intuition; subst; reflexivity. }
  destruct (C46_negative_threshold_reproduces_data fit_pair X 2 2 (-1)) as (mult & ent & lv & m & E & _ & H).
  - intros k C Hk [HC1 HC2]. destruct k as [|[|[|k]]]; try lia.
    + destruct C as [|r [|? ?]]; cbn in HC1; try lia. pose proof (HC2 0%nat ltac:(lia)) as L. cbn in L. destruct r as [|a [|? ?]]; cbn in L; try lia.
      eexists. split; [reflexivity|]. split; [split; [reflexivity|intros [|i] Hi; [reflexivity|lia]]|]. intros [|i] [|j] Hi Hj; try lia; reflexivity.
    + destruct C as [|r [|r2 [|? ?]]]; cbn in HC1; try lia. eexists. split; [destruct r as [|? [|? ?]]; reflexivity|].
      split; [split; [reflexivity|intros [|[|i]] Hi; try lia; reflexivity]|]. intros [|[|i]] [|[|j]] Hi Hj; try lia; reflexivity.
  - lia.
  - discriminate.
  - intros x Hx. unfold X in Hx. cbn in Hx. split; [intuition; subst; reflexivity|]. intros v Hv. intuition; subst; cbn in Hv; intuition.
  - lia.
  - lra.
  - rewrite Hc. cbn [fit_pair]. intros J EJ. injection EJ as <-. set (M := [[/ 2; 3 / 8]; [0; / 2]]).
    destruct (C71_two_spin_closed_form M 0 1) as (A & B & D); try (unfold M; rewrite !entry22; cbn; lra).
    assert (Sq : forall f, (forall y, In y (all_states [0; 1] 2) -> f y * f y = f y) ->
      expectation (boltzmann (energy01 2 (J_analytic2 M 0 1)) (all_states [0; 1] 2)) (all_states [0; 1] 2) (fun y => f y * f y) =
      expectation (boltzmann (energy01 2 (J_analytic2 M 0 1)) (all_states [0; 1] 2)) (all_states [0; 1] 2) f).
    { intros f Hf. unfold expectation. apply sumf_ext_in. intros y Hy. now rewrite Hf. }
    intros [|[|i]] [|[|j]] Hij Hj; try lia.
    + rewrite (Sq (fun y => nthR y 0)); [rewrite A; reflexivity|]. intros y Hy. cbn in Hy. intuition; subst; unfold nthR; cbn; ring.
    + rewrite D. reflexivity.
    + rewrite (Sq (fun y => nthR y 1)); [rewrite B; reflexivity|]. intros y Hy. cbn in Hy. intuition; subst; unfold nthR; cbn; ring.
  - exists mult, ent, lv, m. split; [exact E|]. rewrite (H 0%nat 1%nat) by lia. unfold sample_mean, X. cbn [length]. rewrite !sumf_cons, !sumf_nil. unfold nthR. cbn [nth INR]. field.
Qed.

(** ** C47 *)
Theorem C47_sorted_cluster_reads_the_data : forall X n cl, X <> [] -> (forall x, In x X -> length x = n) ->
  StronglySorted lt cl -> (forall x, In x cl -> (x < n)%nat) ->
  exists C, coocCluster (cooc X) cl = Ok C /\ sq (length cl) C /\
    forall a b, (a <= b)%nat -> (b < length cl)%nat ->
      entry C a b = sample_mean X (fun x => (nthR x (nth a cl 0%nat) + 1) / 2 * ((nthR x (nth b cl 0%nat) + 1) / 2)).
Proof.
  intros X n cl HX Hrow Hs Hcl. rewrite (coocCluster_ok n (cooc X) cl) by (try assumption; now apply cooc_sq). eexists. split; [reflexivity|].
  split; [apply mk_mat_sq|]. intros a b Hab Hb. rewrite entry_mk_mat by lia.
  assert (L : (nth a cl 0 <= nth b cl 0)%nat).
  { destruct (Nat.eq_dec a b) as [->|Ne]; [lia|]. apply Nat.lt_le_incl. assert (Hab' : (a < b)%nat) by lia. clear - Hs Hab' Hb. revert a b Hab' Hb.
    induction Hs as [|x l Hl IH Hf]; intros a b H1 H2; [cbn in H2; lia|]. destruct b as [|b]; [lia|]. cbn in H2. destruct a as [|a]; cbn [nth].
    - rewrite Forall_forall in Hf. apply Hf, nth_In. lia.
    - apply IH; lia. }
  assert (Ha' : (nth a cl 0 < n)%nat) by (apply Hcl, nth_In; lia). assert (Hb' : (nth b cl 0 < n)%nat) by (apply Hcl, nth_In; lia).
  unfold cooc. rewrite (cooccurrence_ok _ true n).
  - rewrite entry_mk_mat by assumption. destruct (Nat.ltb_spec (nth b cl 0%nat) (nth a cl 0%nat)); [lia|]. unfold sample_mean. rewrite map_length, sumf_map. f_equal.
    apply sumf_ext_in. intros x Hx. specialize (Hrow x Hx). unfold nthR.
    rewrite !(nth_indep (map _ x) 0 ((fun x => (x + 1) / 2) 0)) by (rewrite map_length; lia). now rewrite !(map_nth (fun x => (x + 1) / 2)).
  - destruct X; [congruence|discriminate].
  - intros s Hs'. apply in_map_iff in Hs'. destruct Hs' as (x & <- & Hin). rewrite map_length. now apply Hrow.
Qed.
Print Assumptions C47_sorted_cluster_reads_the_data.

(** Asked for the same two spins in decreasing order, the code reads a zero joint
    frequency off the empty lower triangle, whatever the data; no parameters can then make
    the residual vanish. *)
Theorem C47_unsorted_pair_refuted : forall X n i j, X <> [] -> (forall x, In x X -> length x = n) -> (i < j)%nat -> (j < n)%nat ->
  exists C, coocCluster (cooc X) [j; i] = Ok C /\ sq 2 C /\ entry C 0 1 = 0 /\
    forall x, length x = 3%nat -> exists r, deltaCooc C 0 0 x = Ok r /\ ~ (forall a, In a r -> a = 0).
Proof.
  intros X n i j HX Hrow Hij Hj. rewrite (coocCluster_ok n (cooc X) [j; i]%nat); [|now apply cooc_sq|intros x [<-|[<-|[]]]; lia].
  set (C := mk_mat _ _ _). exists C. split; [reflexivity|]. assert (SC : sq 2 C) by apply mk_mat_sq. split; [exact SC|].
  assert (E01 : entry C 0 1 = 0).
  { unfold C. rewrite entry_mk_mat by (cbn; lia). cbn [nth]. unfold cooc. rewrite (cooccurrence_ok _ true n).
    - rewrite entry_mk_mat by lia. now destruct (Nat.ltb_spec i j); [|lia].
    - destruct X; [congruence|discriminate].
    - intros s Hs. apply in_map_iff in Hs. destruct Hs as (x & <- & Hin). rewrite map_length. now apply Hrow. }
  split; [exact E01|]. intros x Hx. assert (LC : length C = 2%nat) by apply SC.
  destruct (deltaCooc_ok C 0 x) as (J & r & _ & _ & Er & Lr & Hr); rewrite ?LC in *; try assumption; try lia.
  { rewrite states01_0. apply all_states01_ne. }
  exists r. split; [exact Er|]. intros H0. specialize (Hr 0%nat 1%nat ltac:(lia) ltac:(lia)). rewrite E01 in Hr.
  rewrite (H0 (nthR r (off 2 (1 - 0) + 0))) in Hr by (apply nth_In; rewrite Lr; cbn; lia).
  rewrite states01_0 in Hr. assert (P : 0 < expectation (boltzmann (energy01 2 J) (all_states [0; 1] 2)) (all_states [0; 1] 2) (fun s => nthR s 0 * nthR s 1)); [|lra].
  unfold expectation. cbn [all_states flat_map map app]. rewrite !sumf_cons, !sumf_nil. unfold nthR. cbn [nth].
  assert (B := boltzmann_pos (energy01 2 J) (all_states [0; 1] 2) (all_states01_ne 2) [1; 1]). cbn [all_states flat_map map app] in B. lra.
Qed.
Print Assumptions C47_unsorted_pair_refuted.

(** A first evaluation of a sorted cluster asks for unsorted sub-clusters: with an entropy
    function that fails on them the evaluation fails, although it is defined on every
    sorted cluster. *)
Definition sorted_only (c : list nat) : result val := if leqb c (nsort c) then Ok (1, []) else Err ValueError.

Theorem C47_unsorted_subclusters_requested_refuted :
  (forall c, StronglySorted lt c -> sorted_only c = Ok (1, [])) /\
  deltaS 3 sorted_only sorted_only ([], []) [0; 1; 2]%nat = Err ValueError.
Proof.
  split; [|reflexivity]. intros c Hc. unfold sorted_only. rewrite (nsort_id c Hc).
  assert (E : leqb c c = true) by apply leqb_refl. now rewrite E.
Qed.
Print Assumptions C47_unsorted_subclusters_requested_refuted.

Example C47_example : let X := [[1; 1]; [-1; -1]] in
  coocCluster (cooc X) [0; 1]%nat = Ok [[/ 2; / 2]; [0; / 2]] /\ coocCluster (cooc X) [1; 0]%nat = Ok [[/ 2; 0]; [/ 2; / 2]].
Proof.
  intros X. assert (Hc : cooc X = [[/ 2; / 2]; [0; / 2]]).
  { unfold cooc. rewrite (cooccurrence_ok _ true 2).
    - unfold mk_mat, range. cbn [seq map Nat.ltb Nat.leb]. unfold sample_mean, X. cbn [map length]. rewrite !sumf_cons, !sumf_nil. unfold nthR. cbn [nth INR]. repeat f_equal; field.
    - discriminate.
    - intros s Hs. unfold X in Hs. cbn in Hs. intuition; subst; reflexivity. }
  rewrite Hc. split; reflexivity.
Qed.

(** ** C49 *)
(** The conversion at the end of ClusterExpansion.solve: the -1,1 model of the returned
    multipliers gives every state 2y-1 the probability that the 0,1 model of the matrix,
    as enumerated by unsummedZ, gives to y. *)
Theorem C49_cluster_output_conversion : forall n J, (1 <= n)%nat -> sq n J -> symm n J ->
  exists mult Z, to_multipliers J = Ok mult /\ length mult = (n + n * (n - 1) / 2)%nat /\ unsummedZ J 0 0 = Ok Z /\ length Z = (2 ^ n)%nat /\
    forall k, (k < 2 ^ n)%nat -> let y := nth k (all_states [0; 1] n) [] in
      boltzmann (ising_energy n mult) (all_states [-1; 1] n) (map (fun x => 2 * x - 1) y) = nthR Z k / sumR Z.
Proof.
  intros n J Hn HJ Hs. destruct (to_multipliers_ok n J Hn HJ Hs) as (mult & E & L & c & Hc).
  assert (LJ : length J = n) by apply HJ.
  pose proof (unsummedZ_ok J 0 0) as UZ. cbv zeta in UZ. rewrite LJ in UZ. specialize (UZ ltac:(lia)). rewrite states01_0 in UZ. specialize (UZ (all_states01_ne n)).
  exists mult. eexists. split; [exact E|]. split; [exact L|]. split; [exact UZ|]. split; [rewrite map_length, all_states_length; reflexivity|].
  intros k Hk y. assert (Hy : In y (all_states [0; 1] n)) by (apply nth_In; rewrite all_states_length; exact Hk).
  replace [-1; 1] with (map (fun x => 2 * x - 1) [0; 1]) by (cbn [map]; f_equal; [ring|f_equal; ring]). rewrite all_states_map.
  rewrite (boltzmann_relabel (energy01 n J) (ising_energy n mult) (map (fun x => 2 * x - 1)) c); [|intros t Ht; apply Hc; now apply all_states_spec in Ht|assumption].
  assert (X : forall t, E01 n J 0 t = energy01 n J t) by (intros; unfold P_MeanField2.E01; ring).
  rewrite sumR_map. unfold boltzmann, partition. f_equal.
  - unfold nthR. rewrite (nth_indep _ 0 ((fun s => exp (- E01 n J 0 s)) [])) by (rewrite map_length, all_states_length; exact Hk).
    rewrite (map_nth (fun s => exp (- E01 n J 0 s))). fold y. now rewrite X.
  - apply sumf_ext. intros t. now rewrite X.
Qed.
Print Assumptions C49_cluster_output_conversion.

Example C49_example : exists mult, to_multipliers [[1; 2]; [2; -3]] = Ok mult /\ length mult = 3%nat /\ nthR mult 2 = -1.
Proof.
  destruct (C49_cluster_output_conversion 2 [[1; 2]; [2; -3]]) as (mult & Z & E & L & _).
  - lia.
  - split; [reflexivity|]. intros [|[|i]] Hi; try lia; reflexivity.
  - intros [|[|i]] [|[|j]] Hi Hj; try lia; reflexivity.
  - exists mult. split; [exact E|]. split; [exact L|]. unfold to_multipliers in E.
    assert (E0 : zero_diag [[1; 2]; [2; -3]] = Ok [[0; 2]; [2; 0]]).
    { unfold zero_diag, replace_diag. cbn [length is_square forallb Nat.eqb andb negb repeat]. unfold mk_mat, range, entry, nthR. cbn [seq map nth Nat.eqb]. repeat f_equal; ring. }
    rewrite E0 in E. cbn [bind] in E. assert (E1 : squareform_mat (map (map Ropp) [[0; 2]; [2; 0]]) = Ok [-2]).
    { replace (map (map Ropp) [[0; 2]; [2; 0]]) with (mk_mat 2 2 (fun i j => if Nat.eqb i j then 0 else -2)).
      - rewrite squareform_mat_ok; [reflexivity| |].
        + intros i j _ _. now rewrite Nat.eqb_sym.
        + intros i _. now rewrite Nat.eqb_refl.
      - unfold mk_mat, range. cbn [seq map Nat.eqb]. repeat f_equal; ring. }
    rewrite E1 in E. cbn [bind map] in E. rewrite convert_params_ok in E by (cbn; lia). cbn [bind fst snd map] in E. injection E as <-.
    unfold nthR. cbn. field.
Qed.

(** ** C70 *)
(** findJmatrixAnalytic_CoocMat without prior: the matrix returned is symmetric, and the
    residual at the point chosen by the least squares routine vanishes exactly when that
    matrix reproduces all frequencies and joint frequencies of the data (over the states
    with at least minSize ones). *)
Theorem C70_fit_is_exact_iff_residual_vanishes : forall leastsq C numSamples k J, let n := length C in
  (0 < n)%nat -> sq n C -> states01 n k <> [] ->
  (forall f x0 x, leastsq f x0 = Ok x -> length x = length x0) ->
  findJmatrixAnalytic_CoocMat leastsq C numSamples 0 k = Ok J ->
  sq n J /\ symm n J /\
  exists x r, deltaCooc C 0 k x = Ok r /\ (exists x0, leastsq (deltaCooc C 0 k) x0 = Ok x) /\
    ((forall a, In a r -> a = 0) <->
     forall i j, (i <= j)%nat -> (j < n)%nat ->
       expectation (boltzmann (energy01 n J) (states01 n k)) (states01 n k) (fun s => nthR s i * nthR s j) = entry C i j).
Proof. exact findJ_exact. Qed.
Print Assumptions C70_fit_is_exact_iff_residual_vanishes.

(** The states with at least k ones. *)
Theorem C70_states : forall n k s, In s (states01 n k) <-> length s = n /\ (forall v, In v s -> v = 0 \/ v = 1) /\ IZR k <= sumR s.
Proof.
  intros n k s. unfold states01. rewrite filter_In, all_states_spec. destruct (Rle_dec (IZR k) (sumR s)) as [H|H]; split.
  - intros [[A B] _]. split; [assumption|]. split; [|assumption]. intros v Hv. destruct (B v Hv) as [<-|[<-|[]]]; auto.
  - intros (A & B & _). split; [|reflexivity]. split; [assumption|]. intros v Hv. destruct (B v Hv) as [->| ->]; cbn; auto.
  - intros [_ K]. discriminate.
  - intros (_ & _ & K). contradiction.
Qed.
Print Assumptions C70_states.

(** One spin with frequency 1/4: the starting point of the solver is already exact. *)
Example C70_example : exists J, findJmatrixAnalytic_CoocMat (fun _ x0 => Ok x0) [[/ 4]] 10 0 0 = Ok J /\
  expectation (boltzmann (energy01 1 J) (states01 1 0)) (states01 1 0) (fun s => nthR s 0 * nthR s 0) = / 4.
Proof.
  set (L := - ln (/ 4 / (1 - / 4))).
  assert (E : findJmatrixAnalytic_CoocMat (fun _ x0 => Ok x0) [[/ 4]] 10 0 0 = Ok [[L]]).
  { unfold findJmatrixAnalytic_CoocMat. cbn [length]. rewrite (aboveDiagFlat_ok 1) by (cbn; reflexivity || lia). cbn [bind].
    replace (flat_map _ (seq 0 1)) with [L] by reflexivity. destruct (unflatten_ok 1 [L] true) as (A & EA & SA & HA); [lia|reflexivity|]. rewrite EA. f_equal.
    apply (sq_ext 1); [assumption|split; [reflexivity|intros [|i] Hi; [reflexivity|lia]]|]. intros [|i] [|j] Hi Hj; try lia. rewrite HA by lia. cbn. unfold nthR. cbn. field. }
  exists [[L]]. split; [exact E|]. rewrite states01_0.
  pose proof (C71_one_spin_closed_form [[/ 4]] 0) as P. cbv zeta in P. change (entry [[/ 4]] 0 0) with (/ 4) in P.
  change (J_analytic1 [[/ 4]] 0) with [[L]] in P. rewrite <- P by lra. unfold expectation. apply sumf_ext_in. intros y Hy.
  cbn in Hy. intuition; subst; unfold nthR; cbn [nth]; ring.
Qed.
