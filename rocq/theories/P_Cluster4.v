(** * The pieces of the cluster expansion on a matrix of frequencies. *)
From Coq Require Import Permutation Sorted.
From Verif Require Import Prelude PreludeFacts Spec Spec2 M_Index M_Params M_MeanField M_Cluster P_Index P_Energy P_Params P_Enum P_MaxEnt P_MPF
  P_Unique P_MeanField P_MeanField2 P_Cluster P_Cluster2 P_Cluster3 Props_Params.
Import ListNotations.
Local Open Scope R_scope.

Definition symm (n : nat) (A : list (list R)) : Prop := forall i j, (i < n)%nat -> (j < n)%nat -> entry A i j = entry A j i.

(** ** Output conversion *)
Lemma energy01_pairs n J y : symm n J ->
  energy01 n J y = sumf (seq 0 n) (fun i => entry J i i * nthR y i) +
    sumf (pairs (seq 0 n)) (fun p => 2 * entry J (fst p) (snd p) * (nthR y (fst p) * nthR y (snd p))).
Proof.
  intros Hs. unfold energy01. f_equal.
  rewrite <- (sumf_pairs_offdiag n (fun i j => if (i =? j)%nat then 0 else entry J i j * (nthR y i * nthR y j))) by (intros; now rewrite Nat.eqb_refl).
  apply sumf_ext_in. intros [i j] Hin. apply in_pairs_seq in Hin. cbn [fst snd].
  destruct (Nat.eqb_spec i j); [lia|]. destruct (Nat.eqb_spec j i); [lia|]. rewrite (Hs j i) by lia. ring.
Qed.

Lemma map_neg_mk n f : map (map Ropp) (mk_mat n n f) = mk_mat n n (fun i j => - f i j).
Proof. unfold mk_mat. rewrite map_map. apply map_ext. intros i. now rewrite map_map. Qed.

Lemma to_multipliers_ok n J : (1 <= n)%nat -> sq n J -> symm n J ->
  exists mult, to_multipliers J = Ok mult /\ length mult = (n + n * (n - 1) / 2)%nat /\
    exists c, forall y, length y = n -> ising_energy n mult (map (fun x => 2 * x - 1) y) = energy01 n J y + c.
Proof.
  intros Hn HJ Hs. unfold to_multipliers.
  assert (LJ : length J = n) by apply HJ.
  assert (E0 : zero_diag J = Ok (mk_mat n n (fun i j => if Nat.eqb i j then 0 else entry J i j))).
  { unfold zero_diag. rewrite LJ. rewrite (sq_mk_mat n J HJ) at 1. rewrite replace_diag_ok by apply repeat_length. f_equal. apply mk_mat_ext.
    intros i j _ _. destruct (i =? j)%nat; [|reflexivity]. unfold nthR. destruct (nth_in_or_default i (repeat 0 n) 0) as [H|H]; [now apply repeat_spec in H|assumption]. }
  rewrite E0. cbn [bind]. rewrite map_neg_mk. rewrite squareform_mat_ok.
  2:{ intros i j Hi Hj. rewrite (Nat.eqb_sym j i). destruct (i =? j)%nat; [reflexivity|]. now rewrite (Hs i j). }
  2:{ intros i _. rewrite Nat.eqb_refl. ring. }
  cbn [bind]. rewrite map_map. set (h := map (fun i => - entry J i i) (range (length J))).
  set (v := map _ (pairs (seq 0 n))).
  assert (Lh : length h = n) by (unfold h, range; now rewrite map_length, seq_length).
  assert (Lv : length v = (n * (n - 1) / 2)%nat) by (unfold v; now rewrite map_length, pairs_seq_length).
  destruct (C09_to_11 h v) as (h' & J' & E & L1 & L2 & c & Hc); rewrite ?Lh; try assumption.
  rewrite E. cbn [bind fst snd]. exists (h' ++ J'). split; [reflexivity|]. split; [rewrite app_length; lia|]. exists c. intros y Hy.
  rewrite Lh in Hc. rewrite Hc by assumption. f_equal. rewrite energy_symmat by assumption. rewrite energy01_pairs by assumption.
  assert (X : forall p, In p (pairs (seq 0 n)) -> symmat n v (fst p) (snd p) = -2 * entry J (fst p) (snd p)).
  { intros [i j] Hin. apply in_pairs_seq in Hin. cbn [fst snd]. unfold symmat. destruct (Nat.ltb_spec i j); [|lia]. unfold v, nthR.
    erewrite nth_error_nth; [|rewrite nth_error_map, pair_index_spec by lia; reflexivity]. cbn [fst snd]. destruct (Nat.eqb_spec i j); [lia|]. ring. }
  rewrite (sumf_ext_in (pairs (seq 0 n)) _ (fun p => - (2 * entry J (fst p) (snd p) * (nthR y (fst p) * nthR y (snd p))))) by (intros p Hp; rewrite X by assumption; ring).
  rewrite sumf_opp. rewrite (sumf_ext_in (seq 0 n) (fun i => nthR h i * nthR y i) (fun i => - (entry J i i * nthR y i))).
  2:{ intros i Hi. apply in_seq in Hi. unfold h, range. rewrite LJ. rewrite nthR_map_seq by lia. ring. }
  rewrite sumf_opp. ring.
Qed.

(** Means and correlations of the -1,1 model whose states are 2y-1. *)
Lemma expect_relabel n mult J c (f : list R -> R) :
  (forall y, length y = n -> ising_energy n mult (map (fun x => 2 * x - 1) y) = energy01 n J y + c) ->
  expectation (boltzmann (ising_energy n mult) (all_states [-1; 1] n)) (all_states [-1; 1] n) f =
  expectation (boltzmann (energy01 n J) (all_states [0; 1] n)) (all_states [0; 1] n) (fun y => f (map (fun x => 2 * x - 1) y)).
Proof.
  intros H. replace [-1; 1] with (map (fun x => 2 * x - 1) [0; 1]) by (cbn [map]; f_equal; [ring|f_equal; ring]).
  rewrite all_states_map. unfold expectation. rewrite sumf_map. apply sumf_ext_in. intros y Hy. f_equal.
  apply (boltzmann_relabel (energy01 n J) (ising_energy n mult) (map (fun x => 2 * x - 1)) c); [|assumption].
  intros t Ht. apply H. now apply all_states_spec in Ht.
Qed.

Lemma expectation_lin {A} (p : A -> R) l (a b d e : R) (f g h : A -> R) : sumf l p = 1 ->
  expectation p l (fun s => a * f s + b * g s + d * h s + e) = a * expectation p l f + b * expectation p l g + d * expectation p l h + e.
Proof.
  intros H. unfold expectation.
  rewrite (sumf_ext l _ (fun s => a * (p s * f s) + b * (p s * g s) + d * (p s * h s) + p s * e)) by (intros; ring).
  rewrite !sumf_plus, !sumf_scal_l, sumf_scal_r, H. ring.
Qed.

Lemma sample_mean_lin {A} (X : list A) (a b d e : R) (f g h : A -> R) : X <> [] ->
  sample_mean X (fun s => a * f s + b * g s + d * h s + e) = a * sample_mean X f + b * sample_mean X g + d * sample_mean X h + e.
Proof.
  intros H. assert (HN : 0 < INR (length X)) by (apply lt_0_INR; destruct X; [congruence|cbn; lia]). unfold sample_mean.
  rewrite !sumf_plus, !sumf_scal_l, sumf_const. field. lra.
Qed.

Lemma sample_mean_ext {A} (X : list A) f g : (forall x, In x X -> f x = g x) -> sample_mean X f = sample_mean X g.
Proof. intros H. unfold sample_mean. f_equal. now apply sumf_ext_in. Qed.

(** A matrix matching the co-occurrences of the sample gives multipliers matching its
    means and pair correlations. *)
Lemma match_cooc n X J mult c : (1 <= n)%nat -> X <> [] -> (forall x, In x X -> length x = n /\ forall v, In v x -> v = -1 \/ v = 1) ->
  (forall y, length y = n -> ising_energy n mult (map (fun x => 2 * x - 1) y) = energy01 n J y + c) ->
  (forall i j, (i <= j)%nat -> (j < n)%nat ->
     expectation (boltzmann (energy01 n J) (all_states [0; 1] n)) (all_states [0; 1] n) (fun y => nthR y i * nthR y j) =
     entry (cooccurrence_matrix (map (map (fun x => (x + 1) / 2)) X) true) i j) ->
  (forall i, (i < n)%nat -> expectation (boltzmann (ising_energy n mult) (all_states [-1; 1] n)) (all_states [-1; 1] n) (fun s => nthR s i) =
     sample_mean X (fun x => nthR x i)) /\
  (forall i j, (i < j)%nat -> (j < n)%nat -> expectation (boltzmann (ising_energy n mult) (all_states [-1; 1] n)) (all_states [-1; 1] n) (fun s => nthR s i * nthR s j) =
     sample_mean X (fun x => nthR x i * nthR x j)).
Proof.
  intros Hn HX Hx He Hc. set (st := all_states [0; 1] n) in *. set (p := boltzmann (energy01 n J) st) in *.
  assert (Hp : sumf st p = 1) by (apply boltzmann_sum, all_states01_ne).
  assert (Hst : forall y, In y st -> length y = n /\ forall i, (i < n)%nat -> nthR y i * nthR y i = nthR y i).
  { intros y Hy. apply all_states_spec in Hy. destruct Hy as [L Hy]. split; [assumption|]. intros i Hi.
    destruct (Hy (nthR y i)) as [E|[E|[]]]; [apply nth_In; lia| |]; rewrite <- E; ring. }
  assert (C : forall i j, (i <= j)%nat -> (j < n)%nat -> expectation p st (fun y => nthR y i * nthR y j) =
    sample_mean X (fun x => ((nthR x i + 1) / 2) * ((nthR x j + 1) / 2))).
  { intros i j Hij Hj. rewrite Hc by assumption. rewrite (cooccurrence_ok _ true n).
    - rewrite entry_mk_mat by lia. destruct (Nat.ltb_spec j i); [lia|]. unfold sample_mean. rewrite map_length, sumf_map. f_equal.
      apply sumf_ext_in. intros x Hin. destruct (Hx x Hin) as [L _]. unfold nthR.
      rewrite !(nth_indep (map _ x) 0 ((fun x => (x + 1) / 2) 0)) by (rewrite map_length; lia). now rewrite !(map_nth (fun x => (x + 1) / 2)).
    - destruct X; [congruence|discriminate].
    - intros s Hs. apply in_map_iff in Hs. destruct Hs as (x & <- & Hin). rewrite map_length. now apply Hx. }
  assert (D : forall i, (i < n)%nat -> expectation p st (fun y => nthR y i) = sample_mean X (fun x => (nthR x i + 1) / 2)).
  { intros i Hi. transitivity (expectation p st (fun y => nthR y i * nthR y i)).
    - unfold expectation. apply sumf_ext_in. intros y Hy. destruct (Hst y Hy) as [_ H]. now rewrite H.
    - rewrite C by lia. apply sample_mean_ext. intros x Hin. destruct (Hx x Hin) as [L Hv].
      destruct (Hv (nthR x i)) as [E|E]; [apply nth_In; lia| |]; rewrite E; field. }
  assert (M : forall y i, In y st -> (i < n)%nat -> nthR (map (fun x => 2 * x - 1) y) i = 2 * nthR y i - 1).
  { intros y i Hy Hi. destruct (Hst y Hy) as [L _]. unfold nthR. rewrite (nth_indep _ 0 ((fun x => 2 * x - 1) 0)) by (rewrite map_length; lia).
    now rewrite (map_nth (fun x => 2 * x - 1)). }
  split.
  - intros i Hi. rewrite (expect_relabel n mult J c _ He). fold st p.
    transitivity (expectation p st (fun y => 2 * nthR y i + 0 * nthR y i + 0 * nthR y i + - (1))).
    { unfold expectation. apply sumf_ext_in. intros y Hy. rewrite M by assumption. ring. }
    rewrite expectation_lin by assumption. rewrite D by assumption.
    transitivity (sample_mean X (fun x => 1 * nthR x i + 0 * nthR x i + 0 * nthR x i + 0)); [|apply sample_mean_ext; intros; ring].
    rewrite (sample_mean_ext X (fun x => (nthR x i + 1) / 2) (fun x => / 2 * nthR x i + 0 * nthR x i + 0 * nthR x i + / 2)) by (intros; field).
    rewrite !sample_mean_lin by assumption. field.
  - intros i j Hij Hj. rewrite (expect_relabel n mult J c _ He). fold st p.
    transitivity (expectation p st (fun y => 4 * (nthR y i * nthR y j) + - (2) * nthR y i + - (2) * nthR y j + 1)).
    { unfold expectation. apply sumf_ext_in. intros y Hy. rewrite !M by (assumption || lia). ring. }
    rewrite expectation_lin by assumption. rewrite !D, C by lia.
    transitivity (sample_mean X (fun x => 1 * (nthR x i * nthR x j) + 0 * nthR x i + 0 * nthR x j + 0)); [|apply sample_mean_ext; intros; ring].
    rewrite (sample_mean_ext X (fun x => (nthR x i + 1) / 2 * ((nthR x j + 1) / 2)) (fun x => / 4 * (nthR x i * nthR x j) + / 4 * nthR x i + / 4 * nthR x j + / 4)) by (intros; field).
    rewrite (sample_mean_ext X (fun x => (nthR x i + 1) / 2) (fun x => / 2 * nthR x i + 0 * nthR x i + 0 * nthR x i + / 2)) by (intros; field).
    rewrite (sample_mean_ext X (fun x => (nthR x j + 1) / 2) (fun x => / 2 * nthR x j + 0 * nthR x j + 0 * nthR x j + / 2)) by (intros; field).
    rewrite !sample_mean_lin by assumption. field.
Qed.

(** ** Sindependent and S on sorted clusters *)
Lemma Sindependent_ok N M cl : sq N M -> (forall x, In x cl -> (x < N)%nat) -> NoDup cl -> cl <> [] ->
  exists v, Sindependent M cl = Ok v /\ sq N (snd v) /\ fst v = sumf cl (fun x => binary_entropy (entry M x x)) /\
    forall i j, (i < N)%nat -> (j < N)%nat ->
      entry (snd v) i j = if (Nat.eqb i j && memb i cl)%bool then - ln (entry M i i / (1 - entry M i i)) else 0.
Proof.
  intros HM Hcl Hn Hne. set (k := length cl). assert (Hk : (1 <= k)%nat) by (unfold k; destruct cl; [congruence|cbn; lia]).
  unfold Sindependent. rewrite (coocCluster_ok N M cl HM Hcl). cbn [bind]. fold k.
  rewrite (symmetrizeUsingUpper_ok k) by (try assumption; apply mk_mat_sq). cbn [bind]. rewrite mk_mat_length.
  set (freqs := map _ (range k)).
  assert (Ef : freqs = map (fun x => entry M x x) cl).
  { rewrite (map_as_seq _ cl 0%nat). unfold freqs, range. fold k. apply map_ext_in. intros i Hi. apply in_seq in Hi. rewrite entry_mk_mat by lia.
    rewrite Nat.min_id, Nat.max_id. now rewrite entry_mk_mat by lia. }
  rewrite Ef. rewrite !map_map. rewrite map_length. fold k.
  set (Jind := mk_mat k k _).
  destruct (JfullFromCluster_ok N Jind cl Hn Hcl) as (J & EJ & SJ & HJ1 & HJ2); [apply mk_mat_sq|].
  assert (LM : length M = N) by apply HM. rewrite LM, EJ. cbn [bind]. eexists. split; [reflexivity|]. cbn [fst snd]. split; [exact SJ|]. split.
  - rewrite sumR_map. apply sumf_ext. intros x. unfold binary_entropy. ring.
  - intros i j Hi Hj. destruct (memb i cl) eqn:Mi; rewrite ?andb_false_r, ?andb_true_r.
    + apply memb_in in Mi. destruct (nth_pos_of cl i Mi) as [Ei Li]. destruct (in_dec Nat.eq_dec j cl) as [Mj|Mj].
      * destruct (nth_pos_of cl j Mj) as [Ej Lj]. rewrite <- Ei at 1. rewrite <- Ej at 1. rewrite HJ1 by assumption. unfold Jind. rewrite entry_mk_mat by assumption.
        destruct (Nat.eqb_spec (pos_of i cl) (pos_of j cl)) as [E|E].
        -- assert (i = j) by congruence. subst j. rewrite Nat.eqb_refl. unfold nthR.
           rewrite (nth_indep _ 0 ((fun x => - ln (entry M x x / (1 - entry M x x))) 0%nat)) by now rewrite map_length.
           rewrite (map_nth (fun x => - ln (entry M x x / (1 - entry M x x)))). now rewrite Ei.
        -- destruct (Nat.eqb_spec i j) as [->|]; [congruence|reflexivity].
      * destruct (Nat.eqb_spec i j) as [->|]; [contradiction|]. apply HJ2; auto.
    + apply HJ2; auto. left. intros H. apply memb_in in H. congruence.
Qed.

Lemma S_cluster_ok fit N M cl : sq N M -> (forall x, In x cl -> (x < N)%nat) -> NoDup cl -> cl <> [] ->
  (forall C, sq (length cl) C -> exists J, fit C = Ok J /\ sq (length cl) J) ->
  let C := mk_mat (length cl) (length cl) (fun a b => entry M (nth a cl 0%nat) (nth b cl 0%nat)) in
  exists J v, fit C = Ok J /\ sq (length cl) J /\ S_cluster fit M cl = Ok v /\ sq N (snd v) /\
    fst v = entropy (boltzmann (energy01 (length cl) J) (all_states [0; 1] (length cl))) (all_states [0; 1] (length cl)) /\
    (forall a b, (a < length cl)%nat -> (b < length cl)%nat -> entry (snd v) (nth a cl 0%nat) (nth b cl 0%nat) = entry J a b) /\
    (forall i j, (i < N)%nat -> (j < N)%nat -> ~ In i cl \/ ~ In j cl -> entry (snd v) i j = 0).
Proof.
  intros HM Hcl Hn Hne Hfit C. set (k := length cl) in *. assert (Hk : (0 < k)%nat) by (unfold k; destruct cl; [congruence|cbn; lia]).
  destruct (Hfit C) as (J & EJ & SJ); [apply mk_mat_sq|]. destruct (JfullFromCluster_ok N J cl Hn Hcl SJ) as (Jf & Ef & Sf & H1 & H2).
  assert (LM : length M = N) by apply HM.
  exists J. eexists. split; [exact EJ|]. split; [exact SJ|]. unfold S_cluster. destruct (Nat.eqb_spec (length cl) 0) as [|_]; [lia|].
  rewrite (coocCluster_ok N M cl HM Hcl). fold k. cbn [bind]. fold C. rewrite EJ. cbn [bind]. rewrite LM, Ef. cbn [bind].
  assert (LJ : length J = k) by apply SJ. rewrite analyticEntropy_ok by (rewrite LJ; assumption). cbn [bind]. rewrite LJ. split; [reflexivity|]. cbn [fst snd].
  split; [exact Sf|]. split; [reflexivity|]. split; [exact H1|exact H2].
Qed.
