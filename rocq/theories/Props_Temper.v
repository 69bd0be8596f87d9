(** * Property theorems C24, C32, C33: coarse graining and replica exchange. *)
From Coq Require Import Permutation.
From Coquelicot Require Import Coquelicot.
From Verif Require Import Prelude Spec PreludeFacts M_Index M_Energy M_Params M_Sampler M_Temper P_Energy P_Sampler P_Metro P_Params P_Temper P_Coarse Props_Energy Props_Sampler.
Import ListNotations.
Local Open Scope R_scope.

Lemma nat_iter_succ_r {A} (f : A -> A) k x : Nat.iter (S k) f x = Nat.iter k f (f x).
Proof. induction k as [|k IH]; [reflexivity|]. change (Nat.iter (S (S k)) f x) with (f (Nat.iter (S k) f x)). rewrite IH. reflexivity. Qed.

(** ** C24 *)
(** With positive similarities every column ends up in exactly one bin, there is one bin
    per coarse column, the number of columns halves (rounding up) in each pass, no bin
    has more than 2^n_times columns, and all have exactly that many if the number of
    columns is a multiple of it. *)
Theorem C24_bins_partition : forall (C : Type) (sim_func : list C -> list R) (coarse_func : list C -> C)
  (X : list C) (n_times : nat),
  (forall cols, length (sim_func cols) = (length cols * (length cols - 1) / 2)%nat) ->
  (forall cols r, In r (sim_func cols) -> 0 < r) ->
  (2 ^ n_times < length X)%nat ->
  exists coarseX bins, coarse_grain_with_func sim_func coarse_func X n_times = Ok (coarseX, bins) /\
    Permutation (concat bins) (seq 0 (length X)) /\
    length bins = length coarseX /\ length coarseX = Nat.iter n_times (fun n => (n + 1) / 2)%nat (length X) /\
    Forall (fun b => 1 <= length b <= 2 ^ n_times)%nat bins /\
    (Nat.divide (2 ^ n_times) (length X) -> Forall (fun b => length b = 2 ^ n_times)%nat bins).
Proof.
  intros C sim_func coarse_func X n_times Hl Hp Hlt. unfold coarse_grain_with_func.
  replace (Nat.ltb (2 ^ n_times) (length X)) with true by (symmetry; now apply Nat.ltb_lt). cbn [negb].
  assert (Hpow : (1 <= 2 ^ n_times)%nat) by (clear; induction n_times; cbn; lia).
  destruct (coarse_passes_ok sim_func coarse_func Hl Hp n_times 0 X (map (fun i => [i]) (range (length X))))
    as [cX [bins [E [H1 [H2 [H3 [H4 H5]]]]]]].
  - lia.
  - unfold range. now rewrite map_length, seq_length.
  - apply Forall_forall. intros b Hb. apply in_map_iff in Hb. destruct Hb as [i [<- _]]. unfold size_ok. cbn. lia.
  - exists cX, bins. split; [exact E|]. split; [|split; [exact H2|split; [|split; [exact H4|]]]].
    + rewrite <- H3. rewrite <- flat_map_concat_map. unfold range. clear. induction (seq 0 (length X)) as [|a l IH]; cbn; [reflexivity|]. now constructor.
    + rewrite H1. clear. revert X. intros X. generalize (length X). induction n_times as [|k IH]; intros m; [reflexivity|].
      cbn [halve]. rewrite IH. symmetry. apply (nat_iter_succ_r (fun n => (n + 1) / 2)%nat).
    + intros [m Hm]. apply (H5 m); [lia|]. apply Forall_forall. intros b Hb. apply in_map_iff in Hb. destruct Hb as [i [<- _]]. reflexivity.
Qed.
Print Assumptions C24_bins_partition.

(** In one pass the pairs are chosen greedily: each pair has the largest similarity
    among all pairs of columns not yet taken; nothing is lost. *)
Theorem C24_greedy_pairs : forall (n : nat) (sims : list R),
  (1 <= n)%nat -> length sims = (n * (n - 1) / 2)%nat -> (forall r, In r sims -> 0 < r) ->
  let sim := fun u v => nthR sims (pair_index n (Nat.min u v) (Nat.max u v)) in
  exists cl rest, one_pass_clusters n sims = Ok (map (fun p => [fst p; snd p]) cl ++ map (fun x => [x]) rest) /\
    Permutation (flat_map (fun p => [fst p; snd p]) cl ++ rest) (seq 0 n) /\ length rest = (n mod 2)%nat /\
    forall pre x y post, cl = pre ++ (x, y) :: post ->
      let left := x :: y :: flat_map (fun p => [fst p; snd p]) post ++ rest in
      forall u v, In u left -> In v left -> u <> v -> sim u v <= sim x y.
Proof.
  intros n sims Hn Hl Hp sim. destruct (one_pass_ok n sims Hn Hl Hp) as [cl [rest [E [L1 [L2 [P G]]]]]].
  exists cl, rest. split; [exact E|]. split; [now symmetry|]. split; [exact L2|].
  intros pre x y post Ecl left u v Hu Hv Huv.
  assert (S : forall a b, a <> b -> symmat n sims a b = sim a b).
  { intros a b Hab. unfold symmat, sim. destruct (Nat.ltb_spec a b).
    - now rewrite Nat.min_l, Nat.max_r by lia.
    - destruct (Nat.ltb_spec b a); [now rewrite Nat.min_r, Nat.max_l by lia|lia]. }
  assert (Hxy : x <> y).
  { assert (Hnd : NoDup (flat_map (fun p => [fst p; snd p]) cl ++ rest)) by (eapply Permutation_NoDup; [exact P|apply seq_NoDup]).
    rewrite Ecl in Hnd. rewrite flat_map_app in Hnd. cbn in Hnd. rewrite <- app_assoc in Hnd. cbn in Hnd.
    intros ->. apply NoDup_remove_2 in Hnd. apply Hnd. apply in_app_iff. right. now left. }
  rewrite <- !S by assumption. exact (G pre x y post Ecl u v Hu Hv Huv).
Qed.
Print Assumptions C24_greedy_pairs.

(** With no positive similarity the first column is paired with itself and the last
    column disappears: three columns, all similarities -1 (or 0). *)
Theorem C24_nonpositive_refuted : forall (c : R), c <= 0 ->
  coarse_grain_with_func (fun cols : list nat => repeat c (length cols * (length cols - 1) / 2)) (fun l => nth 0 l 0%nat) [10; 11; 12]%nat 1
  = Ok ([10; 11]%nat, [[0; 0]; [1]]%nat).
Proof.
  intros c Hc. unfold coarse_grain_with_func. cbn [length Nat.ltb Nat.leb Nat.pow Nat.mul Nat.add negb coarse_passes].
  assert (E : one_pass_clusters 3 [c; c; c] = Ok [[0; 0]; [1]]%nat).
  { unfold one_pass_clusters.
    rewrite (squareform_vec_ok 3) by (cbn; lia). cbn [bind]. rewrite mk_mat_length. cbn [Nat.eqb negb].
    change (3 / 2)%nat with 1%nat. cbn [greedy_loop]. unfold greedy_step.
    set (M := mk_mat 3 3 (symmat 3 [c; c; c])).
    assert (EM : concat M = [0; c; c; c; 0; c; c; c; 0]) by reflexivity.
    rewrite EM. unfold argmax. cbn [argmax_from].
    destruct (Rlt_dec 0 c); [lra|]. destruct (Rlt_dec 0 0); [lra|]. reflexivity. }
  change (repeat c ((3 - 1 + (3 - 1 + (3 - 1 + 0))) / 2)) with [c; c; c]. rewrite E. reflexivity.
Qed.
Print Assumptions C24_nonpositive_refuted.

Lemma argmax_up b ib i x l : b < x -> argmax_from b ib i (x :: l) = argmax_from x i (S i) l.
Proof. intros H. cbn [argmax_from]. destruct (Rlt_dec b x); [reflexivity|contradiction]. Qed.
Lemma argmax_keep b ib i x l : x <= b -> argmax_from b ib i (x :: l) = argmax_from b ib (S i) l.
Proof. intros H. cbn [argmax_from]. destruct (Rlt_dec b x); [lra|reflexivity]. Qed.

Example C24_example :
  (* four columns; the similarity of columns 1 and 3 is largest, 0 and 2 are left *)
  one_pass_clusters 4 [1; 2; 3; 4; 9; 5] = Ok [[1; 3]; [0; 2]]%nat.
Proof.
  unfold one_pass_clusters. rewrite (squareform_vec_ok 4) by (cbn; lia). cbn [bind]. rewrite mk_mat_length. cbn [Nat.eqb negb].
  change (4 / 2)%nat with 2%nat. cbn [greedy_loop].
  set (M := mk_mat 4 4 (symmat 4 [1; 2; 3; 4; 9; 5])).
  assert (S1 : greedy_step 4 (M, range 4, []) = Ok ([[0; 2]; [2; 0]], [0; 2]%nat, [(1, 3)%nat])).
  { unfold greedy_step.
    assert (EM : concat M = [0; 1; 2; 3; 1; 0; 4; 9; 2; 4; 0; 5; 3; 9; 5; 0]) by reflexivity.
    rewrite EM. unfold argmax. repeat first [rewrite argmax_up by lra|rewrite argmax_keep by lra]. reflexivity. }
  rewrite S1. cbn [bind]. unfold greedy_step. cbn [concat app]. unfold argmax.
  repeat first [rewrite argmax_up by lra|rewrite argmax_keep by lra]. reflexivity.
Qed.

(** ** C32 *)
(** The bookkeeping of a set of replicas. *)
Definition consistent {T} (calc_e : list Z -> list R -> R) (n : nat) (theta beta : list R) (reps : list (replica T)) : Prop :=
  length reps = length beta /\ Permutation (map r_index reps) (seq 0 (length beta)) /\
  forall i rep, nth_error reps i = Some rep ->
    r_theta rep = map (fun x => x * nthR beta i) theta /\
    exists s, r_sample rep = [s] /\ r_samples rep = Some [s] /\ length s = n /\
      Forall (fun z => z = (-1)%Z \/ z = 1%Z) s /\
      r_E rep = [calc_e s (map (fun x => x * nthR beta i) theta)].

Lemma consistent_mk {T} calc_e n theta beta (reps : list (replica T)) : consistent calc_e n theta beta reps ->
  exists ss ts, length ss = length beta /\ length ts = length beta /\ Forall (fun s => length s = n /\ Forall spin s) ss /\
    reps = mk_reps calc_e theta beta ss (map r_index reps) ts.
Proof.
  intros [Hl [_ H]]. clear -Hl H. revert beta Hl H. induction reps as [|r reps IH]; intros [|b beta] Hl H; cbn in Hl; try discriminate.
  - exists [], []. repeat split; auto.
  - destruct (IH beta) as [ss [ts [L1 [L2 [V E]]]]]; [lia| |].
    { intros i rep Hi. exact (H (S i) rep Hi). }
    destruct (H 0%nat r eq_refl) as [Hth [s [Hs1 [Hs2 [Hs3 [Hs4 HE]]]]]].
    exists (s :: ss), (r_rng r :: ts). cbn [length map mk_reps]. rewrite <- E. repeat split; auto; try lia.
    f_equal. destruct r as [th sm smp EE idx t]. cbn in *. subst. reflexivity.
Qed.

Lemma mk_consistent {T} calc_e n theta beta ss idx (ts : list T) : length ss = length beta -> length idx = length beta -> length ts = length beta ->
  Forall (fun s => length s = n /\ Forall spin s) ss -> Permutation idx (seq 0 (length beta)) ->
  consistent calc_e n theta beta (mk_reps calc_e theta beta ss idx ts).
Proof.
  intros H1 H2 H3 HF HP. split; [now apply mk_reps_length|]. split.
  - destruct (mk_reps_index calc_e theta beta ss idx ts H1 H2 H3) as [-> _]. exact HP.
  - intros i rep Hi.
    assert (Hlt : (i < length ss)%nat). { rewrite H1, <- (mk_reps_length calc_e theta beta ss idx ts H1 H2 H3). apply nth_error_Some. congruence. }
    destruct (mk_reps_nth calc_e theta beta ss idx ts i (nth i ss []) H1 H2 H3 (nth_error_nth' ss [] Hlt)) as [k [t [_ [_ E]]]].
    rewrite E in Hi. injection Hi as <-. split; [reflexivity|]. exists (nth i ss []). rewrite Forall_forall in HF.
    destruct (HF (nth i ss []) (nth_In _ _ Hlt)). unfold mk. cbn. auto.
Qed.

(** Each round of burn in and exchange leaves consistent replicas: replica i has the
    parameters theta*beta_i, holds one state and its energy at beta_i; the indices are
    a permutation; the exchanges only permute the (state, index) pairs of the burned
    in replicas. *)
Theorem C32_burn_and_exchange : forall (T : Type) (g : rng T) (calc_e : list Z -> list R -> R) (n repExBurnin default : nat)
  (theta beta : list R) (reps : list (replica T)) (t : T),
  rng_ok g -> (0 < n)%nat ->
  (forall s b, calc_e s (map (fun x => x * b) theta) = b * calc_e s theta) ->
  (forall b, In b beta -> b <> 0) ->
  consistent calc_e n theta beta reps ->
  exists burned reps' t',
    burn_in_replicas g calc_e n repExBurnin default reps = Ok burned /\
    burn_and_exchange g calc_e n repExBurnin default beta reps t = Ok (reps', t') /\
    consistent calc_e n theta beta burned /\ consistent calc_e n theta beta reps' /\
    map r_index burned = map r_index reps /\
    Permutation (map (fun r => (r_sample r, r_index r)) reps') (map (fun r => (r_sample r, r_index r)) burned).
Proof.
  intros T g calc_e n k default theta beta reps t Hg Hn Hlin Hb Hc.
  destruct (consistent_mk _ _ _ _ _ Hc) as [ss0 [ts0 [L1 [L2 [V E0]]]]].
  assert (Li : length (map r_index reps) = length beta) by (rewrite map_length; apply Hc).
  assert (Hpre : Forall2 (pre_ok theta n) beta reps) by (rewrite E0; now apply mk_reps_pre).
  destruct (burn_all_ok g calc_e theta n Hg Hn k default beta reps Hpre) as [ss [ts [M1 [M2 [V2 Eb]]]]].
  assert (HP : Permutation (map r_index reps) (seq 0 (length beta))) by apply Hc.
  unfold burn_and_exchange. rewrite Eb. cbn [bind].
  rewrite (exchange_eq calc_e theta Hlin); auto.
  2: { intros i Hi. apply in_seq in Hi. lia. }
  assert (X := exch_perm calc_e theta g beta (range (length beta - 1)) ss (map r_index reps) t ltac:(lia)).
  destruct (exch calc_e theta g beta (range (length beta - 1)) (ss, map r_index reps) t) as [[ss' idx'] t'].
  cbn [fst snd] in *. destruct X as [X1 [X2 X3]].
  destruct (combine_perm_fst ss ss' (map r_index reps) idx' ltac:(lia) ltac:(lia) X3) as [Ps Pi].
  eexists _, _, t'. split; [reflexivity|]. split; [reflexivity|].
  assert (V3 : Forall (fun s => length s = n /\ Forall spin s) ss').
  { apply Forall_forall. intros s Hs. rewrite Forall_forall in V2. apply V2. eapply Permutation_in; eauto. }
  split; [now apply mk_consistent|]. split; [apply mk_consistent; try lia; auto; now rewrite Pi|].
  destruct (mk_reps_index calc_e theta beta ss (map r_index reps) ts M1 Li M2) as [I1 I2].
  destruct (mk_reps_index calc_e theta beta ss' idx' ts ltac:(lia) ltac:(lia) M2) as [J1 J2].
  split; [exact I1|].
  assert (G : forall l : list (replica T), map (fun r => (r_sample r, r_index r)) l = combine (map (@r_sample T) l) (map r_index l)).
  { induction l as [|r l IH]; cbn; [reflexivity|]. now rewrite IH. }
  rewrite !G, I1, I2, J1, J2.
  assert (Gm : forall (a : list (list Z)) (b : list nat), combine (map (fun s => [s]) a) b = map (fun p => ([fst p], snd p)) (combine a b)).
  { clear. induction a as [|x a IH]; intros [|y b]; cbn; try reflexivity. now rewrite IH. }
  rewrite !Gm. now apply Permutation_map.
Qed.
Print Assumptions C32_burn_and_exchange.

(** Any number of rounds: the recorded rows are valid states and every row of the
    recorded index history is a permutation. *)
Theorem C32_history : forall (T : Type) (g : rng T) (calc_e : list Z -> list R -> R) (n repExBurnin default sample_size : nat)
  (theta beta : list R) (reps : list (replica T)) (t : T),
  rng_ok g -> (0 < n)%nat ->
  (forall s b, calc_e s (map (fun x => x * b) theta) = b * calc_e s theta) ->
  (forall b, In b beta -> b <> 0) ->
  consistent calc_e n theta beta reps ->
  exists rows history reps' t',
    tempering_sample g calc_e n sample_size repExBurnin default beta reps t = Ok (rows, history, (reps', t')) /\
    length rows = sample_size /\ length history = sample_size /\ consistent calc_e n theta beta reps' /\
    Forall (fun row => length row = length beta /\ Forall (fun s => length s = n /\ Forall (fun z => z = (-1)%Z \/ z = 1%Z) s) row) rows /\
    Forall (fun h => Permutation h (seq 0 (length beta))) history.
Proof.
  intros T g calc_e n k default m theta beta reps t Hg Hn Hlin Hb. revert reps t.
  induction m as [|m IH]; intros reps t Hc.
  - exists [], [], reps, t. cbn. auto 10.
  - cbn [tempering_sample]. destruct (C32_burn_and_exchange T g calc_e n k default theta beta reps t Hg Hn Hlin Hb Hc)
      as [burned [reps1 [t1 [_ [E1 [_ [C1 _]]]]]]].
    rewrite E1. cbn [bind fst snd].
    destruct (consistent_mk _ _ _ _ _ C1) as [ss [ts [L1 [L2 [V E]]]]].
    assert (Er : mapM (fun r => get (r_sample r) 0) reps1 = Ok ss).
    { assert (Li : length (map r_index reps1) = length beta) by (rewrite map_length; apply C1).
      destruct (mk_reps_index calc_e theta beta ss (map r_index reps1) ts L1 Li L2) as [_ I2]. rewrite <- E in I2.
      clear -I2. revert ss I2. induction reps1 as [|r l IH]; intros [|s ss] I2; cbn in I2; try discriminate; [reflexivity|].
      injection I2 as H1 H2. cbn [mapM]. replace (get (r_sample r) 0) with (Ok s) by (rewrite H1; reflexivity). cbn [bind]. rewrite (IH ss H2). reflexivity. }
    rewrite Er. cbn [bind]. destruct (IH reps1 t1 C1) as [rows [hist [reps' [t' [E2 [R1 [R2 [R3 [R4 R5]]]]]]]]].
    rewrite E2. cbn [bind fst snd]. exists (ss :: rows), (map r_index reps1 :: hist), reps', t'.
    split; [reflexivity|]. split; [cbn; lia|]. split; [cbn; lia|]. split; [exact R3|]. split; constructor; auto. apply C1.
Qed.
Print Assumptions C32_history.

(** Swap probability: detailed balance for the product of the Boltzmann weights. *)
Theorem C32_exchange_detailed_balance : forall (T : Type) (calc_e : list Z -> list R -> R) (theta : list R) (b0 b1 : R)
  (s0 s1 : list Z) (i0 i1 : nat) (t0 t1 : T),
  b0 <> 0 -> b1 <> 0 -> (forall s b, calc_e s (map (fun x => x * b) theta) = b * calc_e s theta) ->
  let rep := fun b s i t => Rep (map (fun x => x * b) theta) (Some [s]) [s] [calc_e s (map (fun x => x * b) theta)] i t in
  exists p p', pair_ratio [b0; b1] [rep b0 s0 i0 t0; rep b1 s1 i1 t1] (0%nat, 1%nat) = Ok p /\
               pair_ratio [b0; b1] [rep b0 s1 i0 t0; rep b1 s0 i1 t1] (0%nat, 1%nat) = Ok p' /\
    0 < p <= 1 /\
    exp (- (b0 * calc_e s0 theta + b1 * calc_e s1 theta)) * p = exp (- (b0 * calc_e s1 theta + b1 * calc_e s0 theta)) * p'.
Proof.
  intros T calc_e theta b0 b1 s0 s1 i0 i1 t0 t1 H0 H1 Hlin rep.
  assert (Hb : forall b, In b [b0; b1] -> b <> 0) by (intros b [<-|[<-|[]]]; assumption).
  assert (P := pair_ratio_mk calc_e theta Hlin [b0; b1] [s0; s1] [i0; i1] [t0; t1] 0 eq_refl eq_refl eq_refl ltac:(cbn; lia) Hb).
  assert (P' := pair_ratio_mk calc_e theta Hlin [b0; b1] [s1; s0] [i0; i1] [t0; t1] 0 eq_refl eq_refl eq_refl ltac:(cbn; lia) Hb).
  eexists _, _. split; [exact P|]. split; [exact P'|]. cbn [swap_at].
  split; [split; [apply accept_prob_pos|apply accept_prob_le]|].
  cbn [Etot]. unfold eb, scale. rewrite !Hlin.
  replace (b0 * calc_e s0 theta + b1 * calc_e s1 theta) with (b0 * calc_e s0 theta + (b1 * calc_e s1 theta + 0)) by ring.
  replace (b0 * calc_e s1 theta + b1 * calc_e s0 theta) with (b0 * calc_e s1 theta + (b1 * calc_e s0 theta + 0)) by ring.
  rewrite !accept_balance. apply Rmin_comm.
Qed.
Print Assumptions C32_exchange_detailed_balance.

(** One whole round (systematic Metropolis updates [fs] of all replicas, then the
    exchanges of neighbours, uniform numbers averaged) leaves the product of the
    Boltzmann distributions at beta_0,...,beta_{m-1} invariant. *)
Theorem C32_round_stationary : forall (calc_e : list Z -> list R -> R) (n : nat) (theta beta : list R)
  (fs : list (option nat)) (F : list (list Z) -> R),
  (0 < n)%nat -> (forall s b, calc_e s (map (fun x => x * b) theta) = b * calc_e s theta) ->
  (forall b, In b beta -> b <> 0) ->
  let m := length beta in
  let states := all_states (all_states [-1; 1]%Z n) m in
  let Etot := fun ss => sumf (combine beta ss) (fun bs => fst bs * calc_e (snd bs) theta) in
  let round := Eburn calc_e theta n fs beta (fun ss =>
      Eexch calc_e n beta (range (m - 1)) (fun reps => F (map (fun r => nth 0 (r_sample r) []) reps))
        (mk_reps calc_e theta beta ss (range m) (repeat tt m))) in
  expectation (boltzmann Etot states) states round = expectation (boltzmann Etot states) states F.
Proof.
  intros calc_e n theta beta fs F Hn Hlin Hb m states Etot' round.
  assert (EE : forall bs ss, sumf (combine bs ss) (fun bs => fst bs * calc_e (snd bs) theta) = Etot calc_e theta bs ss).
  { induction bs as [|b bs IH]; intros [|s ss]; try reflexivity. cbn [combine Etot]. rewrite sumf_cons, IH. cbn [fst snd].
    unfold eb, scale. now rewrite Hlin. }
  unfold expectation, boltzmann.
  rewrite (sumf_ext _ (fun s => exp (- Etot' s) / partition Etot' states * round s) (fun s => exp (- Etot calc_e theta beta s) * round s / partition Etot' states)).
  2: { intros s. unfold Etot'. rewrite EE. unfold Rdiv. ring. }
  rewrite (sumf_ext _ (fun s => exp (- Etot' s) / partition Etot' states * F s) (fun s => exp (- Etot calc_e theta beta s) * F s / partition Etot' states)).
  2: { intros s. unfold Etot'. rewrite EE. unfold Rdiv. ring. }
  rewrite !sumf_div. f_equal. unfold round, states, m. fold (spin_states n). fold (tuples n (length beta)).
  rewrite (Eburn_stationary calc_e theta n fs Hn beta). apply (Eexch_stationary calc_e theta n Hlin beta (range (length beta - 1)) F); auto.
  - intros i Hi. apply in_seq in Hi. lia.
  - apply repeat_length.
  - unfold range. apply seq_length.
Qed.
Print Assumptions C32_round_stationary.

(** The hypotheses are met by Ising energies. *)
Lemma ising_linear n theta s b : ising_energy n (map (fun x => x * b) theta) s = b * ising_energy n theta s.
Proof.
  unfold ising_energy, coupling.
  assert (N : forall i, nthR (map (fun x => x * b) theta) i = b * nthR theta i).
  { intros i. rewrite nthR_map by ring. ring. }
  rewrite (sumf_ext (seq 0 n) _ (fun i => b * (nthR theta i * nthR s i))) by (intros i; rewrite N; ring).
  rewrite sumf_scal_l.
  etransitivity; [apply f_equal, sumf_ext; intros i; etransitivity; [apply sumf_ext; intros j; rewrite N, Rmult_assoc; reflexivity | apply sumf_scal_l]|].
  rewrite sumf_scal_l. ring.
Qed.

Example C32_example : forall t : nat,
  let theta := [1; 2; 3] in
  let calc_e := fun (s : list Z) th => ising_energy 2 th (map IZR s) in
  consistent calc_e 2 theta [/ 2; 1]
    [Rep [1 * / 2; 2 * / 2; 3 * / 2] (Some [[1; -1]%Z]) [[1; -1]%Z] [calc_e [1; -1]%Z [1 * / 2; 2 * / 2; 3 * / 2]] 0 t;
     Rep [1 * 1; 2 * 1; 3 * 1] (Some [[-1; -1]%Z]) [[-1; -1]%Z] [calc_e [-1; -1]%Z [1 * 1; 2 * 1; 3 * 1]] 1 t].
Proof.
  intros t theta calc_e. split; [reflexivity|]. split; [reflexivity|].
  intros [|[|[|i]]] rep H; cbn in H; try discriminate; injection H as <-; (split; [reflexivity|]).
  all: eexists; split; [reflexivity|]; split; [reflexivity|]; split; [reflexivity|]; split; [|reflexivity].
  all: repeat (apply Forall_cons; [auto|]); apply Forall_nil.
Qed.

(** The constructor delivers a consistent, strictly increasing ladder of replicas whose
    largest inverse temperature is 1/Tbds[0]; its final assertion never fires. *)
Theorem C33_constructor : forall (T : Type) (g : rng T) (calc_e : list Z -> list R -> R) (n : nat) (theta : list R)
  (n_replicas : nat) (T0 T1 : R) (replica_burnin : nat) (seeds : nat -> T),
  rng_ok g -> (0 < n)%nat -> 0 < T0 < T1 -> (1 < n_replicas)%nat ->
  exists beta reps, tempering_new g calc_e n theta n_replicas T0 T1 replica_burnin seeds = Ok (beta, reps) /\
    length beta = n_replicas /\ nthR beta (n_replicas - 1) = / T0 /\
    (forall i, (S i < n_replicas)%nat -> nthR beta i < nthR beta (S i)) /\
    consistent calc_e n theta beta reps.
Proof.
  intros T g calc_e n theta m T0 T1 rb seeds Hg Hn HT Hm. unfold tempering_new.
  destruct (Rlt_dec T0 T1) as [_|]; [|lra]. destruct (Rlt_dec 0 T0) as [_|]; [|lra]. cbn [negb].
  replace (Nat.ltb 1 m) with true by (symmetry; now apply Nat.ltb_lt). cbn [negb].
  set (default := match rb with O => (n * 50)%nat | _ => rb end).
  assert (Hinv : 1 / T1 < 1 / T0).
  { unfold Rdiv. rewrite !Rmult_1_l. apply Rinv_lt_contravar; [apply Rmult_lt_0_compat; lra | lra]. }
  destruct (initialize_beta_facts (1 / T1) (1 / T0) m Hinv Hm) as [Lb [Ib [_ Hlast]]].
  set (beta := initialize_beta (1 / T1) (1 / T0) m) in *.
  set (reps := map (fun i => Rep (map (fun x => x * nthR beta i) theta) None [] [] i (seeds i)) (range m)).
  assert (Hpre : Forall2 (pre_ok theta n) beta reps).
  { assert (G : forall bs k, Forall2 (pre_ok theta n) bs (map (fun i => Rep (T := T) (map (fun x => x * nthR bs (i - k)) theta) None [] [] i (seeds i)) (seq k (length bs)))).
    { clear. induction bs as [|b bs IH]; intros k; cbn [length seq map]; constructor.
      - split; [cbn; rewrite Nat.sub_diag; reflexivity|now left].
      - rewrite (map_ext_in _ (fun i => Rep (T := T) (map (fun x => x * nthR bs (i - S k)) theta) None [] [] i (seeds i))); [apply IH|].
        intros i Hi. apply in_seq in Hi. replace (i - k)%nat with (S (i - S k)) by lia. reflexivity. }
    specialize (G beta 0%nat). unfold reps, range. rewrite Lb in G.
    rewrite (map_ext _ (fun i => Rep (T := T) (map (fun x => x * nthR beta (i - 0)) theta) None [] [] i (seeds i))); [exact G|].
    intros i. now rewrite Nat.sub_0_r. }
  destruct (burn_all_ok g calc_e theta n Hg Hn 0 default beta reps Hpre) as [ss [ts [M1 [M2 [V2 Eb]]]]].
  rewrite Eb. cbn [bind].
  assert (Ri : map r_index reps = seq 0 m).
  { unfold reps. rewrite map_map. cbn. apply map_id. }
  assert (Li : length (map r_index reps) = length beta) by (rewrite Ri, seq_length; lia).
  destruct (optimize_ok g calc_e theta n Hg Hn 10 10 (n * 10) default (1 / 100) ltac:(lia) ltac:(lia) None beta
              (mk_reps calc_e theta beta ss (map r_index reps) ts)) as [beta2 [reps2 [E2 [O1 [O2 [O3 [O4 [O5 O6]]]]]]]].
  - lia.
  - exact Ib.
  - now apply mk_reps_pre.
  - assert (F := mk_reps_forallb calc_e theta beta ss (map r_index reps) ts). rewrite forallb_forall in F.
    apply Forall_forall. intros q Hq. apply Nat.eqb_eq. now apply F.
  - rewrite E2. cbn [bind fst snd].
    destruct (burn_all_ok g calc_e theta n Hg Hn 0 default beta2 reps2 O4) as [ss2 [ts2 [N1 [N2 [V3 Eb2]]]]].
    rewrite Eb2. cbn [bind].
    replace (forallb (fun i => if Rlt_dec (nthR beta2 i) (nthR beta2 (S i)) then true else false) (range (length beta2 - 1))) with true.
    2: { symmetry. apply forallb_forall. intros i Hi. apply in_seq in Hi. destruct (Rlt_dec (nthR beta2 i) (nthR beta2 (S i))) as [|Hc]; [reflexivity|].
         exfalso. apply Hc. apply O2. lia. }
    eexists _, _. split; [reflexivity|]. split; [lia|]. rewrite Lb in O3. split; [rewrite O3, Hlast; unfold Rdiv; ring|].
    split; [intros i Hi; apply O2; lia|].
    assert (Lx : length beta2 = m) by lia.
    destruct (mk_reps_index calc_e theta beta ss (map r_index reps) ts M1 Li M2) as [I1 _]. rewrite I1 in O6.
    apply mk_consistent; auto; rewrite O6, Ri; [rewrite seq_length; lia | rewrite Lx; reflexivity].
Qed.
Print Assumptions C33_constructor.

(** ** C33 *)
(** iterate_beta keeps the last entry, rescales every gap by its acceptance ratio over
    the mean ratio, so it keeps the ladder strictly increasing for positive ratios and
    is the identity for equal ones. *)
Theorem C33_iterate_beta : forall (beta ratio : list R),
  length beta = S (length ratio) -> ratio <> [] -> (forall r, In r ratio -> 0 < r <= 1) ->
  exists beta', iterate_beta beta ratio = Ok beta' /\ length beta' = length beta /\
    nthR beta' (length ratio) = nthR beta (length ratio) /\
    (forall i, (i < length ratio)%nat ->
       nthR beta' (S i) - nthR beta' i =
       (nthR beta (S i) - nthR beta i) * (nthR ratio i / (sumR ratio / INR (length ratio)))) /\
    ((forall i, (i < length ratio)%nat -> nthR beta i < nthR beta (S i)) ->
     forall i, (i < length ratio)%nat -> nthR beta' i < nthR beta' (S i)) /\
    ((forall i, (i < length ratio)%nat -> nthR ratio i = nthR ratio 0) -> beta' = beta).
Proof.
  intros beta ratio Hl Hne Hr. destruct (iterate_beta_ok beta ratio Hl Hr Hne) as [nb [E [L [Hlast D]]]].
  replace (length beta - 1)%nat with (length ratio) in Hlast by lia.
  exists nb. split; [exact E|]. split; [exact L|]. split; [exact Hlast|].
  assert (D' : forall i, (i < length ratio)%nat -> nthR nb (S i) - nthR nb i =
       (nthR beta (S i) - nthR beta i) * (nthR ratio i / (sumR ratio / INR (length ratio)))) by (intros i Hi; apply D; lia).
  split; [exact D'|]. split.
  - intros Hinc. destruct (iterate_beta_increasing beta ratio nb Hl Hr Hne) as [I _].
    + intros i Hi. apply Hinc. lia.
    + exact E.
    + intros i Hi. apply I. lia.
  - intros Heq. assert (Pos : 0 < nthR ratio 0). { apply Hr, nth_In. destruct ratio; [congruence|cbn; lia]. }
    assert (Hmean : sumR ratio / INR (length ratio) = nthR ratio 0).
    { unfold sumR. rewrite (sumf_ext_in _ _ (fun _ => nthR ratio 0)).
      - rewrite sumf_const. field. apply not_0_INR. destruct ratio; [congruence|cbn; lia].
      - intros x Hx. destruct (In_nth _ _ 0 Hx) as [i [Hi <-]]. now apply Heq. }
    assert (Back : forall k, (k <= length ratio)%nat -> nthR nb (length ratio - k) = nthR beta (length ratio - k)).
    { induction k as [|k IH]; intros Hk; [rewrite Nat.sub_0_r; exact Hlast|].
      specialize (IH ltac:(lia)). specialize (D' (length ratio - S k)%nat ltac:(lia)).
      replace (S (length ratio - S k)) with (length ratio - k)%nat in D' by lia.
      rewrite Hmean, Heq in D' by lia. replace (nthR ratio 0 / nthR ratio 0) with 1 in D' by (field; lra). lra. }
    apply (nth_ext _ _ 0 0 L). intros i Hi. rewrite L, Hl in Hi.
    specialize (Back (length ratio - i)%nat ltac:(lia)). now replace (length ratio - (length ratio - i))%nat with i in Back by lia.
Qed.
Print Assumptions C33_iterate_beta.

Theorem C33_iterate_beta_rejects : forall (beta ratio : list R),
  length beta <> S (length ratio) \/ (exists r, In r ratio /\ 1 < r) -> iterate_beta beta ratio = Err AssertionError.
Proof.
  intros beta ratio H. unfold iterate_beta. destruct (Nat.eqb_spec (length ratio + 1) (length beta)) as [He|He]; [|reflexivity].
  cbn [negb]. destruct H as [H|[r [Hin Hr]]]; [lia|].
  replace (forallb (fun r => if Rle_dec r 1 then true else false) ratio) with false; [reflexivity|].
  symmetry. apply not_true_is_false. intros F. rewrite forallb_forall in F. specialize (F r Hin). destruct (Rle_dec r 1); [lra|discriminate].
Qed.
Print Assumptions C33_iterate_beta_rejects.

(** It does not keep the inverse temperatures positive. *)
Theorem C33_positive_refuted : exists beta ratio beta',
  iterate_beta beta ratio = Ok beta' /\ (forall b, In b beta -> 0 < b) /\
  (forall i, (S i < length beta)%nat -> nthR beta i < nthR beta (S i)) /\
  (forall r, In r ratio -> 0 < r <= 1) /\ nthR beta' 0 < 0 /\ nthR beta' 1 < 0.
Proof.
  exists [/ 10; 2 / 10; 1], [/ 10; 1].
  destruct (iterate_beta_ok [/ 10; 2 / 10; 1] [/ 10; 1]) as [nb [E [L [Hlast D]]]].
  - reflexivity.
  - intros r [<-|[<-|[]]]; lra.
  - discriminate.
  - exists nb. split; [exact E|].
    assert (D0 := D 0%nat ltac:(cbn; lia)). assert (D1 := D 1%nat ltac:(cbn; lia)). cbn [length Nat.sub] in Hlast.
    unfold meanR, sumR in D0, D1. rewrite !sumf_cons, sumf_nil in D0, D1. unfold nthR in *. cbn in D0, D1, Hlast.
    split; [intros b [<-|[<-|[<-|[]]]]; lra|].
    split; [intros [|[|i]] Hi; cbn in *; try lra; lia|].
    split; [intros r [<-|[<-|[]]]; lra|].
    assert (X1 : nth 1 nb 0 = 1 - (1 - 2 / 10) * (1 / ((/ 10 + (1 + 0)) / (1 + 1)))) by lra.
    assert (X0 : nth 0 nb 0 = nth 1 nb 0 - (2 / 10 - / 10) * (/ 10 / ((/ 10 + (1 + 0)) / (1 + 1)))) by lra.
    assert (Y1 : nth 1 nb 0 < 0).
    { rewrite X1. replace ((1 - 2 / 10) * (1 / ((/ 10 + (1 + 0)) / (1 + 1)))) with (16 / 11) by field. lra. }
    split; [|exact Y1]. rewrite X0. replace ((2 / 10 - / 10) * (/ 10 / ((/ 10 + (1 + 0)) / (1 + 1)))) with (2 / 110) by field. lra.
Qed.
Print Assumptions C33_positive_refuted.

(** The initial ladder. *)
Theorem C33_initial_ladder : forall (b0 b1 : R) (m : nat), b0 < b1 -> (1 < m)%nat ->
  let beta := initialize_beta b0 b1 m in
  length beta = m /\ nthR beta 0 = b0 /\ nthR beta (m - 1) = b1 /\
  (forall i, (S i < m)%nat -> nthR beta (S i) - nthR beta i = (b1 - b0) / INR (m - 1)).
Proof.
  intros b0 b1 m Hb Hm beta. destruct (initialize_beta_facts b0 b1 m Hb Hm) as [H1 [_ [H3 H4]]].
  split; [exact H1|]. split; [exact H3|]. split; [exact H4|].
  intros i Hi. unfold beta, initialize_beta, range. rewrite !nthR_map_seq by lia. rewrite S_INR. ring.
Qed.
Print Assumptions C33_initial_ladder.

Example C33_example : exists b, iterate_beta [1; 2; 3] [/ 2; / 2] = Ok b /\ b = [1; 2; 3].
Proof.
  destruct (C33_iterate_beta [1; 2; 3] [/ 2; / 2]) as [b [E [_ [_ [_ [_ H]]]]]]; try reflexivity; try discriminate.
  - intros r [<-|[<-|[]]]; lra.
  - exists b. split; [exact E|]. apply H. intros [|[|i]] Hi; cbn in *; try reflexivity. lia.
Qed.
