(** * Property C53, continued: [Ising.correlations]. *)
From Coquelicot Require Import Coquelicot.
From Verif Require Import Prelude PreludeFacts Spec M_Index M_Params M_Enum M_Ising P_Index P_Energy P_Params P_Corr P_Ising
  Props_Params Props_Enum Props_Ising.
Import ListNotations.
Local Open Scope R_scope.

Lemma list_obs_ext n (a b : list R) : length a = (n + n * (n - 1) / 2)%nat -> length b = length a ->
  (forall i, (i < n)%nat -> nthR a i = nthR b i) ->
  (forall i j, (i < j)%nat -> (j < n)%nat -> nthR a (n + pair_index n i j) = nthR b (n + pair_index n i j)) -> a = b.
Proof.
  intros La Lb H1 H2. apply (nth_ext _ _ 0 0); [now symmetry|]. intros k Hk. destruct (Nat.lt_ge_cases k n) as [Hn|Hn]; [now apply H1|].
  assert (Hq : (k - n < n * (n - 1) / 2)%nat) by lia.
  destruct (pair_index_nth n (k - n) Hq) as (E & A & B).
  assert (F := H2 _ _ A B). rewrite E in F. replace (n + (k - n))%nat with k in F by lia. exact F.
Qed.

(** [correlations('1')] returns the means and pair correlations of the model over the
    states -1, 1; for every other basis it returns the means and pair correlations of
    the same distribution written in 0, 1 - exactly what the 0,1 equation file returns
    for the parameters that [fields('0')] and [couplings('0')] report. *)
Theorem C53_correlations : forall have n h J self f f01,
  ising_init have n h J = Ok self -> pairwise n true = Ok f -> pairwise n false = Ok f01 ->
  let prob := boltzmann (ising_energy n (vec_value n h ++ vec_value (n * (n - 1) / 2) J)) (all_states [-1; 1] n) in
  exists C C01,
    ising_correlations (run_calc_observables f) self true = Ok C /\
    ising_correlations (run_calc_observables f) self false = Ok C01 /\
    length C = (n + n * (n - 1) / 2)%nat /\ length C01 = (n + n * (n - 1) / 2)%nat /\
    (forall i, (i < n)%nat ->
       nthR C i = expectation prob (all_states [-1; 1] n) (fun s => nthR s i) /\
       nthR C01 i = expectation prob (all_states [-1; 1] n) (fun s => (nthR s i + 1) / 2)) /\
    (forall i j, (i < j)%nat -> (j < n)%nat ->
       nthR C (n + pair_index n i j) = expectation prob (all_states [-1; 1] n) (fun s => nthR s i * nthR s j) /\
       nthR C01 (n + pair_index n i j) =
         expectation prob (all_states [-1; 1] n) (fun s => ((nthR s i + 1) / 2) * ((nthR s j + 1) / 2))) /\
    run_calc_observables f01 (ising_fields self false ++ ising_couplings self false) = Ok C01.
Proof.
  intros have n h J self f f01 E Ef Ef01 prob.
  destruct (C53_parameters _ _ _ _ _ E) as (F1 & F2 & Lh & LJ & Hp).
  destruct (ising_init_ok _ _ _ _ _ E) as [(En & Hn & _ & _ & EhJ & EJ & h' & J' & EC & Lh' & E01) _].
  set (hv := vec_value n h) in *. set (Jv := vec_value (n * (n - 1) / 2) J) in *.
  assert (LP : length (hv ++ Jv) = (n + n * (n - 1) / 2)%nat) by (rewrite app_length; lia).
  assert (ES : map (map IZR) (all_states [-1; 1]%Z n) = all_states [-1; 1] n) by (rewrite <- all_states_map; reflexivity).
  assert (ES0 : map (map IZR) (all_states [0; 1]%Z n) = all_states [0; 1] n) by (rewrite <- all_states_map; reflexivity).
  assert (ET : all_states [0; 1] n = map (map (fun y => (y + 1) / 2)) (all_states [-1; 1] n)).
  { rewrite <- all_states_map. f_equal. cbn [map]. f_equal; [field|f_equal; field]. }
  destruct (C22_pairwise n true (hv ++ Jv) ltac:(lia) LP) as (f' & P & C & Ef' & _ & _ & _ & _ & EO & LC & O1 & O2).
  cbv zeta in O1, O2. rewrite Ef in Ef'. injection Ef' as <-. cbn [map] in O1, O2. rewrite ES in O1, O2. fold prob in O1, O2.
  assert (L01 : length (ising_fields self false ++ ising_couplings self false) = (n + n * (n - 1) / 2)%nat).
  { unfold ising_fields, ising_couplings. rewrite firstn_skipn, E01, app_length.
    rewrite convert_params_ok in EC by (try lia; congruence). injection EC as _ <-. rewrite Lh'.
    rewrite ?map_length, ?seq_length, ?pairs_seq_length. lia. }
  destruct (C22_pairwise n false (ising_fields self false ++ ising_couplings self false) ltac:(lia) L01)
    as (f'' & P0 & C0 & Ef'' & _ & _ & _ & _ & EO0 & LC0 & O10 & O20).
  cbv zeta in O10, O20. rewrite Ef01 in Ef''. injection Ef'' as <-. rewrite ES0 in O10, O20.
  assert (X : forall (g : list R -> R),
     expectation (boltzmann (ising_energy n (ising_fields self false ++ ising_couplings self false)) (all_states [0; 1] n)) (all_states [0; 1] n) g =
     expectation prob (all_states [-1; 1] n) (fun s => g (map (fun y => (y + 1) / 2) s))).
  { intros g. remember (boltzmann (ising_energy n (ising_fields self false ++ ising_couplings self false)) (all_states [0; 1] n)) as pr eqn:Epr.
    unfold expectation. rewrite ET, sumf_map. apply sumf_ext_in. intros s Hs. cbv beta; rewrite (Hp s Hs); reflexivity. }
  assert (NM : forall s i, In s (all_states [-1; 1] n) -> (i < n)%nat -> nthR (map (fun y => (y + 1) / 2) s) i = (nthR s i + 1) / 2).
  { intros s i Hs Hi. apply all_states_spec in Hs. unfold nthR. rewrite (nth_indep _ 0 ((0 + 1) / 2)) by (rewrite map_length; lia).
    rewrite (map_nth (fun y => (y + 1) / 2)). reflexivity. }
  assert (O10' : forall i, (i < n)%nat -> nthR C0 i = expectation prob (all_states [-1; 1] n) (fun s => (nthR s i + 1) / 2)).
  { intros i Hi. rewrite O10 by exact Hi. rewrite X. unfold expectation. apply sumf_ext_in. intros s Hs. now rewrite NM. }
  assert (O20' : forall i j, (i < j)%nat -> (j < n)%nat -> nthR C0 (n + pair_index n i j) =
     expectation prob (all_states [-1; 1] n) (fun s => ((nthR s i + 1) / 2) * ((nthR s j + 1) / 2))).
  { intros i j Hij Hj. rewrite O20 by assumption. rewrite X. unfold expectation. apply sumf_ext_in. intros s Hs. rewrite !NM by (assumption || lia). reflexivity. }
  assert (Sum1 : sumf (all_states [-1; 1] n) prob = 1).
  { apply boltzmann_sum. intros Z. assert (length (all_states [-1; 1] n) = 0%nat) by (rewrite Z; reflexivity).
    rewrite all_states_length in H. cbn in H. assert (2 ^ n <> 0)%nat by (apply Nat.pow_nonzero; lia). lia. }
  assert (EX1 : forall i, expectation prob (all_states [-1; 1] n) (fun s => (nthR s i + 1) / 2) =
                (expectation prob (all_states [-1; 1] n) (fun s => nthR s i) + 1) / 2).
  { intros i. unfold expectation. match goal with |- _ = (?a + 1) / 2 => transitivity ((a + sumf (all_states [-1; 1] n) prob) / 2); [|now rewrite Sum1] end.
    rewrite <- sumf_plus, <- sumf_div. apply sumf_ext_in. intros s _. field. }
  assert (EX2 : forall i j, expectation prob (all_states [-1; 1] n) (fun s => ((nthR s i + 1) / 2) * ((nthR s j + 1) / 2)) =
     (expectation prob (all_states [-1; 1] n) (fun s => nthR s i * nthR s j) + expectation prob (all_states [-1; 1] n) (fun s => nthR s i) +
      expectation prob (all_states [-1; 1] n) (fun s => nthR s j) + 1) / 4).
  { intros i j. unfold expectation. match goal with |- _ = (?a + 1) / 4 => transitivity ((a + sumf (all_states [-1; 1] n) prob) / 4); [|now rewrite Sum1] end.
    rewrite <- !sumf_plus, <- sumf_div. apply sumf_ext_in. intros s _. field. }
  assert (Lf : length (firstn n C) = n) by (rewrite firstn_length; lia).
  assert (Ls : length (skipn n C) = (length (firstn n C) * (length (firstn n C) - 1) / 2)%nat) by (rewrite skipn_length, Lf; lia).
  assert (CC := convert_corr_ok (firstn n C) (skipn n C) To01 Ls). cbv zeta in CC. rewrite Lf in CC.
  set (si' := map (fun x => (x + 1) / 2) (firstn n C)) in CC.
  set (sisj' := map _ (seq 0 (length (loop_ij n)))) in CC.
  assert (Lsi : length si' = n) by (unfold si'; now rewrite map_length).
  assert (Lij : loop_ij n = pairs (seq 0 n)) by apply loop_ij_pairs.
  assert (Lsj : length sisj' = (n * (n - 1) / 2)%nat) by (unfold sisj'; rewrite map_length, seq_length, Lij; apply pairs_seq_length).
  assert (V1 : forall i, (i < n)%nat -> nthR (si' ++ sisj') i = nthR C0 i).
  { intros i Hi. rewrite O10', EX1, <- O1 by exact Hi. unfold nthR at 1. rewrite app_nth1 by lia. unfold si'.
    rewrite (nth_indep _ 0 ((0 + 1) / 2)) by (rewrite map_length; lia). rewrite (map_nth (fun y => (y + 1) / 2)).
    rewrite <- (nthR_firstn n C i) by lia. reflexivity. }
  assert (V2 : forall i j, (i < j)%nat -> (j < n)%nat -> nthR (si' ++ sisj') (n + pair_index n i j) = nthR C0 (n + pair_index n i j)).
  { intros i j Hij Hj. rewrite O20', EX2, <- O2, <- !O1 by (assumption || lia). unfold nthR at 1. rewrite app_nth2 by lia.
    rewrite Lsi. replace (n + pair_index n i j - n)%nat with (pair_index n i j) by lia.
    assert (Hk := pair_index_lt n i j Hij Hj). unfold sisj'.
    rewrite nth_map_seq by (rewrite Lij, pairs_seq_length; exact Hk).
    rewrite Lij. rewrite (nth_error_nth _ _ _ (pair_index_spec n i j Hij Hj)). cbn [fst snd].
    rewrite !nthR_firstn by lia. rewrite nthR_skipn. reflexivity. }
  exists C, (si' ++ sisj'). unfold ising_correlations. rewrite EhJ, EO. cbn [bind]. rewrite En, CC. cbn [bind fst snd].
  split; [reflexivity|]. split; [reflexivity|]. split; [exact LC|].
  split; [rewrite app_length; lia|]. split; [|split].
  - intros i Hi. split; [now apply O1|]. rewrite V1 by exact Hi. now apply O10'.
  - intros i j Hij Hj. split; [now apply O2|]. rewrite V2 by assumption. now apply O20'.
  - rewrite EO0. f_equal. apply (list_obs_ext n); [exact LC0|rewrite app_length; lia| |].
    + intros i Hi. symmetry. now apply V1.
    + intros i j Hij Hj. symmetry. now apply V2.
Qed.
Print Assumptions C53_correlations.

Example C53_correlations_example : exists self f f01,
  ising_init (fun _ => true) 3 (ANumber 1) ANone = Ok self /\ pairwise 3 true = Ok f /\ pairwise 3 false = Ok f01.
Proof.
  destruct (C22_pairwise 3 true (repeat 0 6) ltac:(lia) eq_refl) as (f & _ & _ & Ef & _).
  destruct (C22_pairwise 3 false (repeat 0 6) ltac:(lia) eq_refl) as (f01 & _ & _ & Ef0 & _).
  assert (S : exists self, ising_init (fun _ => true) 3 (ANumber 1) ANone = Ok self).
  { unfold ising_init. cbn [negb Nat.ltb Nat.leb fill_arg bind as_vector]. change (3 * (3 - 1) / 2)%nat with 3%nat.
    rewrite (squareform_vec_ok 3) by (reflexivity || lia). cbn [bind].
    destruct (convert_params _ _ To01) as [p|] eqn:Ec; [eexists; reflexivity|].
    rewrite convert_params_ok in Ec by (cbn; lia). discriminate. }
  destruct S as [self S]. exists self, f, f01. auto.
Qed.
