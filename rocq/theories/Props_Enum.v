(** * Property theorems C21-C23: log-sum-exp and the generated equation files. *)
From Coq Require Import Ascii String.
From Verif Require Import Prelude Spec PreludeFacts M_Index M_Energy M_Params M_Corr M_Enum P_Index P_Energy P_Params P_Unique P_Corr P_Corr2 P_Enum P_EnumPotts.
Import ListNotations.
Local Open Scope R_scope.

(** ** C21 *)
(** With coefficients: logarithm of the absolute value of sum_i c_i exp(x_i) and its
    sign; -inf and sign 1 when the sum is zero. *)
Theorem C21_weighted : forall (X c : list R), X <> [] -> length c = length X ->
  let y := sumf (seq 0 (length X)) (fun i => nthR c i * exp (nthR X i)) in
  (0 < y -> fast_logsumexp X (Some c) = Ok (Fin (ln y), 1)) /\
  (y < 0 -> fast_logsumexp X (Some c) = Ok (Fin (ln (- y)), - 1)) /\
  (y = 0 -> fast_logsumexp X (Some c) = Ok (NegInf, 1)).
Proof.
  intros X c HX Hc.
  assert (E : sumf (seq 0 (length X)) (fun i => nthR c i * exp (nthR X i)) = wexp X c).
  { unfold wexp. revert c Hc. clear HX. induction X as [|x X IH]; intros [|b c] Hc; try discriminate; [reflexivity|].
    cbn [combine length]. rewrite sumf_seq_S, sumf_cons. cbn [fst snd]. f_equal. apply IH. cbn in Hc. lia. }
  intros y. unfold y. rewrite E. clear y E. rewrite (fast_logsumexp_some X c HX Hc). set (y := wexp X c).
  unfold np_log. repeat split; intros Hy.
  - rewrite Rabs_right by lra. destruct (Req_EM_T y 0), (Rlt_dec y 0); try lra. reflexivity.
  - rewrite Rabs_left by lra. destruct (Req_EM_T (- y) 0), (Rlt_dec y 0); try lra. reflexivity.
  - rewrite Hy, Rabs_R0. destruct (Req_EM_T 0 0), (Rlt_dec 0 0); try lra. reflexivity.
Qed.
Print Assumptions C21_weighted.

Theorem C21_unweighted : forall X : list R, X <> [] ->
  fast_logsumexp X None = Ok (Fin (ln (sumf X exp)), 1).
Proof. exact fast_logsumexp_none. Qed.
Print Assumptions C21_unweighted.

(** Adding a constant to every entry adds it to the returned logarithm. *)
Theorem C21_shift : forall (X : list R) (c : option (list R)) (a l sg : R),
  fast_logsumexp X c = Ok (Fin l, sg) ->
  fast_logsumexp (map (fun x => x + a) X) c = Ok (Fin (l + a), sg).
Proof.
  intros X c a l sg H. assert (HX : X <> []) by (intros ->; discriminate).
  assert (HX' : map (fun x => x + a) X <> []) by (destruct X; [congruence|discriminate]).
  destruct c as [c|].
  - destruct (Nat.eq_dec (length c) (length X)) as [Hc|Hc].
    + rewrite fast_logsumexp_some in H by assumption. rewrite fast_logsumexp_some by (rewrite ?map_length; assumption).
      assert (E : wexp (map (fun x => x + a) X) c = exp a * wexp X c).
      { unfold wexp. clear. revert c. induction X as [|x X IH]; intros [|b c]; cbn [map combine]; rewrite ?sumf_cons, ?sumf_nil; try ring.
        cbn [fst snd]. rewrite IH, exp_plus. ring. }
      rewrite E. pose proof (exp_pos a) as Ha. set (y := wexp X c) in *. unfold np_log in *.
      rewrite Rabs_mult, (Rabs_right (exp a)) by lra.
      destruct (Req_EM_T (Rabs y) 0) as [|Hy]; [discriminate|]. injection H as <- <-.
      assert (Hpos : 0 < Rabs y) by (pose proof (Rabs_pos y); lra).
      destruct (Req_EM_T (exp a * Rabs y) 0) as [H0|_].
      { pose proof (Rmult_lt_0_compat _ _ Ha Hpos). lra. }
      f_equal. f_equal.
      * f_equal. rewrite ln_mult, ln_exp by assumption. ring.
      * destruct (Rlt_dec (exp a * y) 0) as [H1|H1], (Rlt_dec y 0) as [H2|H2]; try reflexivity; exfalso.
        -- assert (0 <= exp a * y) by (apply Rmult_le_pos; lra). lra.
        -- apply H1. apply (Rmult_lt_compat_l (exp a)) in H2; lra.
    + exfalso. destruct X as [|x X]; [congruence|]. unfold fast_logsumexp in H.
      destruct (Nat.eqb_spec (length c) (length (x :: X))); [contradiction|]. discriminate.
  - rewrite fast_logsumexp_none in H by assumption. injection H as <- <-. rewrite fast_logsumexp_none by assumption.
    f_equal. f_equal. f_equal. rewrite sumf_map.
    rewrite (sumf_ext _ (fun x => exp (x + a)) (fun x => exp x * exp a)) by (intros; apply exp_plus).
    rewrite sumf_scal_r, ln_mult, ln_exp by (apply sumf_exp_pos || apply exp_pos; assumption). reflexivity.
Qed.
Print Assumptions C21_shift.

(** No exponential can overflow: all arguments of exp are <= 0 and one of them is 0,
    so the unweighted sum is at least 1 and at most the number of terms. *)
Theorem C21_no_overflow : forall (x0 : R) (X : list R),
  let args := lse_args (x0 :: X) (max_from x0 X) in
  (forall a, In a args -> a <= 0) /\ In 0 args /\ 1 <= sumf args exp <= INR (length (x0 :: X)).
Proof.
  intros x0 X args. destruct (max_from_ge X x0) as [H0 H1].
  assert (A1 : forall a, In a args -> a <= 0).
  { intros a Ha. apply in_map_iff in Ha. destruct Ha as (x & <- & [<-|Hx]); [lra|]. specialize (H1 x Hx). lra. }
  assert (A2 : In 0 args).
  { apply in_map_iff. exists (max_from x0 X). split; [ring|apply max_from_in]. }
  split; [exact A1|]. split; [exact A2|]. split.
  - rewrite <- exp_0. apply (sumf_in_le args exp 0); [|exact A2]. intros b _. pose proof (exp_pos b). lra.
  - replace (length (x0 :: X)) with (length args) by apply map_length.
    apply Rle_trans with (sumf args (fun _ => 1)).
    + apply sumf_le. intros a Ha. rewrite <- exp_0. destruct (Req_dec a 0) as [->|]; [lra|].
      left. apply exp_increasing. specialize (A1 a Ha). lra.
    + rewrite sumf_const. lra.
Qed.
Print Assumptions C21_no_overflow.

Theorem C21_bad_input_raises : forall (X c : list R),
  fast_logsumexp [] None = Err ValueError /\ fast_logsumexp [] (Some c) = Err ValueError /\
  (length c <> length X -> fast_logsumexp X (Some c) = Err ValueError).
Proof.
  intros X c. split; [reflexivity|]. split; [reflexivity|]. intros H. destruct X as [|x X]; [reflexivity|].
  unfold fast_logsumexp. destruct (Nat.eqb_spec (length c) (length (x :: X))); [contradiction|reflexivity].
Qed.
Print Assumptions C21_bad_input_raises.

(** The quotient the equation files form from the two results is always a number: the
    line that replaces NaN by zero in them never acts. *)
Theorem C21_no_nan : forall (X c : list R) num sg z sz,
  fast_logsumexp X (Some c) = Ok (num, sg) -> fast_logsumexp X None = Ok (z, sz) ->
  exists v, exp_diff num z = Some v /\ nan_to_0 (exp_diff num z) = v.
Proof.
  intros X c num sg z sz Hn Hz. assert (HX : X <> []) by (intros ->; discriminate). rewrite fast_logsumexp_none in Hz by assumption.
  injection Hz as <- _. destruct num; cbn; eexists; split; reflexivity.
Qed.
Print Assumptions C21_no_nan.

Example C21_example :
  fast_logsumexp [0; 0; 0] (Some [1; 1; -3]) = Ok (Fin (ln (- - 1)), - 1) /\
  fast_logsumexp [5; 5] (Some [1; -1]) = Ok (NegInf, 1) /\
  fast_logsumexp [0; 0] None = Ok (Fin (ln 2), 1).
Proof.
  split; [|split].
  - destruct (C21_weighted [0; 0; 0] [1; 1; -3]) as (_ & H & _); [discriminate|reflexivity|].
    rewrite H.
    + f_equal. f_equal. f_equal. f_equal. cbn. unfold nthR. cbn. rewrite exp_0. lra.
    + cbn. unfold nthR. cbn. rewrite exp_0. lra.
  - destruct (C21_weighted [5; 5] [1; -1]) as (_ & _ & H); [discriminate|reflexivity|].
    apply H. cbn. unfold nthR. cbn. lra.
  - rewrite C21_unweighted by discriminate. f_equal. f_equal. f_equal. f_equal. cbn. rewrite exp_0. lra.
Qed.

(** ** C22 *)
Lemma filter_ltb_seq i a m : filter (fun j => Nat.ltb i j) (seq a m) = seq (Nat.max a (S i)) (a + m - Nat.max a (S i)).
Proof.
  revert a. induction m as [|m IH]; intros a.
  - cbn. replace (a + 0 - Nat.max a (S i))%nat with 0%nat by lia. reflexivity.
  - cbn [seq filter]. rewrite IH. destruct (Nat.ltb_spec i a).
    + replace (Nat.max (S a) (S i)) with (S a) by lia. replace (Nat.max a (S i)) with a by lia.
      replace (a + S m - a)%nat with (S (S a + m - S a)) by lia. reflexivity.
    + replace (Nat.max (S a) (S i)) with (S i) by lia. replace (Nat.max a (S i)) with (S i) by lia. f_equal. lia.
Qed.

Lemma where_triu_pairs n : where_triu n = pairs (seq 0 n).
Proof.
  unfold where_triu, range.
  assert (G : forall m a, (a + m <= n)%nat -> filter (fun p => Nat.ltb (fst p) (snd p)) (list_prod (seq a m) (seq 0 n))
     = flat_map (fun i => map (fun j => (i, j)) (seq (S i) (n - S i))) (seq a m)).
  { induction m as [|m IH]; intros a Ha; [reflexivity|]. cbn [seq list_prod flat_map]. rewrite filter_app, IH by lia. f_equal.
    pose proof (filter_ltb_seq a 0 n) as F. cbn [Nat.add] in F. change (Nat.max 0 (S a)) with (S a) in F. rewrite <- F. generalize (seq 0 n). intros l. induction l as [|x l IHl]; [reflexivity|].
    cbn [map filter fst snd]. destruct (Nat.ltb a x); cbn [map]; rewrite IHl; reflexivity. }
  rewrite G by lia. rewrite <- loop_full_pairs. unfold range, range2. apply flat_map_ext. intros i. rewrite Nat.add_1_r. reflexivity.
Qed.

Lemma real_states_Z (sym : bool) n : real_states sym n = map (map IZR) (all_states (if sym then [-1; 1]%Z else [0; 1]%Z) n).
Proof. unfold real_states. rewrite <- all_states_map. destruct sym; reflexivity. Qed.

Lemma boltzmann_sum {A} (E : A -> R) states : states <> [] -> sumf states (boltzmann E states) = 1.
Proof.
  intros H. unfold boltzmann. rewrite sumf_div. unfold Rdiv. apply Rinv_r.
  assert (0 < partition E states) by (apply sumf_pos; [assumption|intros; apply exp_pos]). fold (partition E states). lra.
Qed.

Lemma boltzmann_pos {A} (E : A -> R) states s : states <> [] -> 0 < boltzmann E states s.
Proof.
  intros H. unfold boltzmann. apply Rdiv_lt_0_compat; [apply exp_pos|]. apply sumf_pos; [assumption|intros; apply exp_pos].
Qed.

Lemma real_states_ne sym n : real_states sym n <> [].
Proof.
  intros H. apply (f_equal (@length _)) in H. unfold real_states in H. rewrite all_states_length in H.
  destruct sym; cbn [length] in H; pose proof (Nat.pow_nonzero 2 n); lia.
Qed.

Lemma subset_energy_dot cs params s : length params = length cs ->
  subset_energy cs params s = - dot (map (fun t => prodR (map (nthR s) t)) cs) params.
Proof.
  intros H. unfold subset_energy. rewrite (dot_seq _ _ (length cs)) by (rewrite ?map_length; auto). f_equal.
  apply sumf_ext_in. intros j Hj. apply in_seq in Hj. rewrite Rmult_comm. f_equal. unfold nthR at 2.
  rewrite (nth_indep _ 0 (prodR (map (nthR s) []))) by (rewrite map_length; lia).
  symmetry. apply (map_nth (fun t => prodR (map (nthR s) t))).
Qed.

Lemma boltzmann_ext {A} (E1 E2 : A -> R) states : (forall s, In s states -> E1 s = E2 s) ->
  forall s, In s states -> boltzmann E1 states s = boltzmann E2 states s.
Proof.
  intros H s Hs. unfold boltzmann, partition. rewrite (H s Hs). f_equal. apply sumf_ext_in. intros t Ht. rewrite (H t Ht). reflexivity.
Qed.

Lemma expectation_ext {A} (E1 E2 : A -> R) states f g : (forall s, In s states -> E1 s = E2 s) ->
  (forall s, In s states -> f s = g s) ->
  expectation (boltzmann E1 states) states f = expectation (boltzmann E2 states) states g.
Proof.
  intros H1 H2. unfold expectation. apply sumf_ext_in. intros s Hs. rewrite (boltzmann_ext E1 E2 states H1 s Hs), (H2 s Hs). reflexivity.
Qed.

(** Any list of index arrays (at most 23 orders): coefficient number j multiplies the
    product of the spins of constraint number j; the written file gives the exact
    probabilities, in binary counting order, and the exact averages. *)
Theorem C22_write_eqns : forall (n : nat) (sym : bool) (cts : list (list (list nat))) (params : list R),
  (0 < n)%nat -> (length cts <= 23)%nat ->
  (forall subix, In subix cts -> subix <> [] /\
     forall j k, (j < length (hd [] subix))%nat -> In k subix -> (nth j k 0 < n)%nat) ->
  let cs := flat_map (fun subix => map (fun j => map (fun k => nth j k 0%nat) subix) (seq 0 (length (hd [] subix)))) cts in
  length params = length cs ->
  let states := map (map IZR) (all_states (if sym then [-1; 1]%Z else [0; 1]%Z) n) in
  let prob := boltzmann (subset_energy cs params) states in
  exists f P C, write_eqns n sym cts = Ok f /\
    run_p f params = Ok (map Some P) /\ P = map prob states /\ (forall p, In p P -> 0 < p) /\ sumR P = 1 /\
    run_calc_observables f params = Ok C /\
    C = map (fun t => expectation prob states (fun s => prodR (map (nthR s) t))) cs.
Proof.
  intros n sym cts params Hn Hlen Hok cs Hp states prob.
  assert (Hok' : forall subix, In subix cts -> subix_ok n subix).
  { intros subix Hs. destruct (Hok subix Hs) as [H1 H2]. split; [exact H1|]. intros t Ht i Hi.
    unfold tuples in Ht. apply in_map_iff in Ht. destruct Ht as (j & <- & Hj). apply in_seq in Hj.
    unfold tuple in Hi. apply in_map_iff in Hi. destruct Hi as (k & <- & Hk). apply H2; [unfold nterms in Hj; lia|assumption]. }
  assert (Hst : states = real_states sym n) by (symmetry; apply real_states_Z).
  eexists _, (map prob states), _. split; [apply write_eqns_ok; [exact Hlen|intros subix Hs; apply (Hok subix Hs)]|].
  split.
  { rewrite (file_p n sym cts params Hn Hlen Hok') by (change (all_tuples cts) with cs; lia).
    rewrite map_map. unfold prob. rewrite Hst. reflexivity. }
  split; [reflexivity|]. split.
  { intros p Hp'. apply in_map_iff in Hp'. destruct Hp' as (s & <- & _). apply boltzmann_pos. rewrite Hst. apply real_states_ne. }
  split.
  { rewrite sumR_map. apply boltzmann_sum. rewrite Hst. apply real_states_ne. }
  split; [|reflexivity].
  rewrite (file_obs n sym cts params Hn Hlen Hok') by (change (all_tuples cts) with cs; lia).
  change (all_tuples cts) with cs. unfold prob. rewrite Hst. reflexivity.
Qed.
Print Assumptions C22_write_eqns.

Lemma pairwise_tuples n : all_tuples [[range n]; [map fst (where_triu n); map snd (where_triu n)]] =
  map (fun i => [i]) (seq 0 n) ++ map (fun p => [fst p; snd p]) (pairs (seq 0 n)).
Proof.
  unfold all_tuples. cbn [flat_map]. rewrite app_nil_r. f_equal.
  - unfold tuples, nterms, tuple. cbn [hd map]. unfold range. rewrite seq_length. apply map_ext_in. intros j Hj. apply in_seq in Hj.
    f_equal. rewrite seq_nth by lia. lia.
  - unfold tuples, nterms, tuple. cbn [hd map]. rewrite where_triu_pairs, map_length.
    generalize (pairs (seq 0 n)). intros l. apply (list_eq_nth []); [rewrite !map_length, seq_length; reflexivity|].
    intros j Hj. rewrite map_length, seq_length in Hj. rewrite nth_map_seq by exact Hj.
    rewrite (nth_indep _ [] [fst (0%nat, 0%nat); snd (0%nat, 0%nat)]) by (rewrite map_length; exact Hj).
    rewrite (map_nth (fun p => [fst p; snd p])). f_equal; [apply (map_nth fst l (0%nat, 0%nat))|f_equal; apply (map_nth snd l (0%nat, 0%nat))].
Qed.

Lemma pairwise_obs n s : length s = n ->
  map (fun t => prodR (map (nthR s) t)) (map (fun i => [i]) (seq 0 n) ++ map (fun p => [fst p; snd p]) (pairs (seq 0 n))) = ising_obs s.
Proof.
  intros Hs. rewrite map_app, !map_map. unfold ising_obs. f_equal.
  - transitivity (map (fun i => nth i s 0) (seq 0 (length s))); [|symmetry; apply list_as_map]. rewrite Hs. apply map_ext. intros i. unfold prodR. cbn. unfold nthR. ring.
  - rewrite (pairs_as_map 0 s), map_map, Hs. apply map_ext. intros [i j]. unfold prodR. cbn. unfold nthR. ring.
Qed.

(** The pairwise files: exact Boltzmann probabilities in binary counting order (the
    order of bin_states, see C02), exact means and pair correlations. *)
Theorem C22_pairwise : forall (n : nat) (sym : bool) (params : list R),
  (0 < n)%nat -> length params = (n + n * (n - 1) / 2)%nat ->
  let states := map (map IZR) (all_states (if sym then [-1; 1]%Z else [0; 1]%Z) n) in
  let prob := boltzmann (ising_energy n params) states in
  exists f P C, pairwise n sym = Ok f /\
    run_p f params = Ok (map Some P) /\ P = map prob states /\ (forall p, In p P -> 0 < p) /\ sumR P = 1 /\
    run_calc_observables f params = Ok C /\ length C = (n + n * (n - 1) / 2)%nat /\
    (forall i, (i < n)%nat -> nthR C i = expectation prob states (fun s => nthR s i)) /\
    (forall i j, (i < j)%nat -> (j < n)%nat ->
       nthR C (n + pair_index n i j) = expectation prob states (fun s => nthR s i * nthR s j)).
Proof.
  intros n sym params Hn Hp states prob. unfold pairwise.
  set (cts := [[range n]; [map fst (where_triu n); map snd (where_triu n)]]).
  assert (Hcs : all_tuples cts = map (fun i => [i]) (seq 0 n) ++ map (fun p => [fst p; snd p]) (pairs (seq 0 n))) by apply pairwise_tuples.
  assert (Hl : length (all_tuples cts) = (n + n * (n - 1) / 2)%nat).
  { rewrite Hcs, app_length, !map_length, seq_length, pairs_seq_length. reflexivity. }
  destruct (C22_write_eqns n sym cts params Hn) as (f & P & C & E1 & E2 & E3 & E4 & E5 & E6 & E7).
  - cbn. lia.
  - intros subix [<-|[<-|[]]]; (split; [discriminate|]); cbn [hd]; intros j k Hj Hk.
    + destruct Hk as [<-|[]]. unfold range in *. rewrite seq_length in Hj. rewrite seq_nth by lia. lia.
    + rewrite where_triu_pairs in Hj, Hk. rewrite map_length in Hj.
      pose proof (nth_In _ (0%nat,0%nat) Hj) as Hin. destruct (nth j (pairs (seq 0 n)) (0%nat,0%nat)) as [a b] eqn:Eab.
      apply in_pairs_seq in Hin. destruct Hk as [<-|[<-|[]]].
      * pose proof (map_nth fst (pairs (seq 0 n)) (0%nat,0%nat) j) as M. rewrite Eab in M. cbn [fst] in M. rewrite M. lia.
      * pose proof (map_nth snd (pairs (seq 0 n)) (0%nat,0%nat) j) as M. rewrite Eab in M. cbn [snd] in M. rewrite M. lia.
  - change (length params = length (all_tuples cts)). lia.
  - change (flat_map _ cts) with (all_tuples cts) in E3, E7. fold states in E3, E7.
    assert (HE : forall s, In s states -> subset_energy (all_tuples cts) params s = ising_energy n params s).
    { intros s Hs. unfold states in Hs. apply in_map_iff in Hs. destruct Hs as (r & <- & Hr). apply all_states_spec in Hr. destruct Hr as [Hr _].
      rewrite subset_energy_dot by lia. rewrite Hcs, pairwise_obs by (rewrite map_length; exact Hr).
      rewrite ising_energy_dot by (rewrite ?map_length; assumption). reflexivity. }
    exists f, P, C. split; [exact E1|]. split; [exact E2|]. split.
    { rewrite E3. apply map_ext_in. intros s Hs. apply (boltzmann_ext _ _ _ HE s Hs). }
    split; [exact E4|]. split; [exact E5|]. split; [exact E6|].
    split; [rewrite E7, map_length; exact Hl|].
    assert (HC : forall c, (c < n + n * (n - 1) / 2)%nat -> nthR C c = expectation prob states (fun s => prodR (map (nthR s) (nth c (all_tuples cts) [])))).
    { intros c Hc. rewrite E7. unfold nthR at 1.
      rewrite (nth_indep _ 0 (expectation (boltzmann (subset_energy (all_tuples cts) params) states) states (fun s => prodR (map (nthR s) [])))) by (rewrite map_length; lia).
      rewrite (map_nth (fun t => expectation (boltzmann (subset_energy (all_tuples cts) params) states) states (fun s => prodR (map (nthR s) t)))).
      apply expectation_ext; [exact HE|reflexivity]. }
    split.
    + intros i Hi. rewrite HC by lia. unfold expectation. apply sumf_ext. intros s. f_equal.
      rewrite Hcs, app_nth1 by (rewrite map_length, seq_length; lia).
      rewrite nth_map_seq by lia. unfold prodR. cbn. ring.
    + intros i j Hij Hj. pose proof (pair_index_lt n i j Hij Hj) as Hlt. rewrite HC by lia. unfold expectation. apply sumf_ext. intros s. f_equal.
      rewrite Hcs, app_nth2 by (rewrite map_length, seq_length; lia). rewrite map_length, seq_length.
      replace (n + pair_index n i j - n)%nat with (pair_index n i j) by lia.
      assert (Hn' : nth (pair_index n i j) (map (fun p : nat * nat => [fst p; snd p]) (pairs (seq 0 n))) [] = [i; j]).
      { apply nth_error_nth. rewrite nth_error_map, pair_index_spec by assumption. reflexivity. }
      rewrite Hn'. unfold prodR. cbn. ring.
Qed.
Print Assumptions C22_pairwise.

(** The entries refer to the rows of bin_states, and calc_observables is pair_corr of
    these rows weighted by p. *)
Theorem C22_agrees_with_pair_corr : forall (n : nat) (sym : bool) (params : list R) rows,
  (0 < n)%nat -> length params = (n + n * (n - 1) / 2)%nat ->
  bin_states (Z.of_nat n) sym = Ok rows ->
  exists f P si sisj, pairwise n sym = Ok f /\ run_p f params = Ok (map Some P) /\ length P = length rows /\
    (forall k, (k < length rows)%nat ->
       nthR P k = boltzmann (ising_energy n params) (map (map IZR) rows) (map IZR (nth k rows []))) /\
    pair_corr rows n (WArray P) false false false = Ok (si, sisj) /\
    run_calc_observables f params = Ok (si ++ sisj).
Proof.
  intros n sym params rows Hn Hp Hr.
  assert (Hrows : rows = all_states (if sym then [-1; 1]%Z else [0; 1]%Z) n).
  { destruct (Z.leb_spec (Z.of_nat n) 30).
    - rewrite bin_states_eq in Hr by lia. injection Hr as <-. rewrite Nat2Z.id. reflexivity.
    - unfold bin_states in Hr. destruct (Z.ltb_spec (Z.of_nat n) 0); [discriminate|]. destruct (Z.ltb_spec 30 (Z.of_nat n)); [discriminate|lia]. }
  destruct (C22_pairwise n sym params Hn Hp) as (f & P & C & E1 & E2 & E3 & E4 & E5 & E6 & E7 & E8 & E9).
  rewrite <- Hrows in E3, E8, E9. set (states := map (map IZR) rows) in *.
  assert (HlP : length P = length rows) by (rewrite E3, map_length; apply map_length).
  assert (HPk : forall k, (k < length rows)%nat -> nthR P k = boltzmann (ising_energy n params) states (map IZR (nth k rows []))).
  { intros k Hk. rewrite E3. unfold nthR. rewrite (nth_indep _ 0 (boltzmann (ising_energy n params) states (map IZR []))) by (unfold states; rewrite !map_length; exact Hk).
    rewrite (map_nth (boltzmann (ising_energy n params) states)). f_equal. unfold states. apply (map_nth (map IZR)). }
  assert (Hspin : spin_data rows).
  { intros r Hin x Hx. rewrite Hrows in Hin. apply all_states_spec in Hin. destruct Hin as [_ Hv]. specialize (Hv x Hx).
    destruct sym; cbn in Hv; intuition auto. }
  exists f, P, (means_of n (wsum rows P)), (corrs_of n (wsum rows P)).
  split; [exact E1|]. split; [exact E2|]. split; [exact HlP|]. split; [exact HPk|].
  split; [apply pair_corr_array; assumption|]. rewrite E6. f_equal.
  assert (HW : forall F, wsum rows P (fun r => F (map IZR r)) = expectation (boltzmann (ising_energy n params) states) states F).
  { intros F. unfold wsum, expectation. rewrite E3.
    assert (G : forall L (b : list R -> R), sumf (combine L (map b (map (map IZR) L))) (fun rw => snd rw * F (map IZR (fst rw))) = sumf (map (map IZR) L) (fun s => b s * F s)).
    { intros L b. induction L as [|r L IH]; [reflexivity|]. cbn [map combine]. rewrite !sumf_cons, IH. reflexivity. }
    apply (G rows). }
  apply (list_eq_nth 0); [rewrite app_length, means_length, corrs_length; exact E7|]. intros c Hc. rewrite E7 in Hc.
  destruct (Nat.lt_ge_cases c n) as [Hcn|Hcn].
  - rewrite app_nth1 by (rewrite means_length; exact Hcn). change (nthR C c = nthR (means_of n (wsum rows P)) c).
    rewrite means_nth by exact Hcn. rewrite E8 by exact Hcn. rewrite <- HW. unfold wsum. apply sumf_ext_in. intros [r q] _. cbn [fst snd].
    rewrite map_IZR_nth. reflexivity.
  - rewrite app_nth2 by (rewrite means_length; exact Hcn). rewrite means_length.
    destruct (pair_index_nth n (c - n)) as (Hpi & H1 & H2); [lia|]. set (p := nth (c - n) (pairs (seq 0 n)) (0%nat, 0%nat)) in *.
    change (nthR C c = nthR (corrs_of n (wsum rows P)) (c - n)). rewrite <- Hpi.
    transitivity (nthR C (n + pair_index n (fst p) (snd p))); [f_equal; lia|].
    rewrite E9 by assumption. rewrite corrs_nth by assumption. rewrite <- (HW (fun s => nthR s (fst p) * nthR s (snd p))).
    unfold wsum. apply sumf_ext_in. intros [r q] _. cbn [fst snd]. rewrite !map_IZR_nth. reflexivity.
Qed.
Print Assumptions C22_agrees_with_pair_corr.

Lemma zip_star_tuples k L : L <> [] -> (0 < k)%nat -> (forall t, In t L -> length t = k) -> tuples (zip_star k L) = L.
Proof.
  intros HL Hk Ht. unfold zip_star. destruct L as [|t0 L']; [congruence|]. set (L := t0 :: L') in *.
  assert (Hnt : nterms (map (fun d => map (fun t => nth d t 0%nat) L) (range k)) = length L).
  { unfold nterms, range. destruct k as [|k]; [lia|]. cbn [seq map hd]. apply map_length. }
  unfold tuples. rewrite Hnt. apply (list_eq_nth []); [rewrite map_length, seq_length; reflexivity|].
  intros j Hj. rewrite map_length, seq_length in Hj. rewrite nth_map_seq by exact Hj. unfold tuple, range. rewrite map_map.
  assert (Hlen : length (nth j L []) = k) by (apply Ht, nth_In, Hj).
  rewrite (list_as_map 0%nat (nth j L [])), Hlen. apply map_ext. intros d.
  rewrite (nth_indep _ 0%nat (nth d [] 0%nat)) by (rewrite map_length; exact Hj). apply (map_nth (fun t => nth d t 0%nat)).
Qed.

(** Triplet files, for at least three spins. *)
Theorem C22_triplet : forall (n : nat) (sym : bool) (h J K : list R),
  (3 <= n)%nat -> length h = n -> length J = binom n 2 -> length K = binom n 3 ->
  let states := map (map IZR) (all_states (if sym then [-1; 1]%Z else [0; 1]%Z) n) in
  let prob := boltzmann (multi_energy [h; J; K]) states in
  exists f P C, triplet n sym = Ok f /\
    run_p f (h ++ J ++ K) = Ok (map Some P) /\ P = map prob states /\ sumR P = 1 /\
    run_calc_observables f (h ++ J ++ K) = Ok C /\ length C = (n + binom n 2 + binom n 3)%nat /\
    (forall c, (c < length C)%nat ->
       nthR C c = expectation prob states (fun s => nthR (corr_obs 1 s ++ corr_obs 2 s ++ corr_obs 3 s) c)).
Proof.
  intros n sym h J K Hn Hh HJ HK states prob. unfold triplet.
  set (cts := [[range n]; zip_star 2 (combinations (range n) 2); zip_star 3 (combinations (range n) 3)]).
  assert (Hne : forall k, (0 < k <= 3)%nat -> combinations (range n) k <> []).
  { intros k Hk E. apply (f_equal (@length _)) in E. rewrite combinations_length in E. unfold range in E. rewrite seq_length in E.
    assert (G : forall n' k', (k' <= n')%nat -> (0 < binom n' k')%nat).
    { clear. induction n' as [|n' IH]; intros [|k'] Hk; cbn; try lia. specialize (IH k'). lia. }
    specialize (G n k). cbn [length] in E. lia. }
  assert (Hcs : all_tuples cts = map (fun i => [i]) (seq 0 n) ++ combinations (seq 0 n) 2 ++ combinations (seq 0 n) 3).
  { unfold all_tuples, cts. cbn [flat_map]. rewrite app_nil_r.
    rewrite !zip_star_tuples; try lia; try (apply Hne; lia); try (intros t Ht; apply combinations_elt_length in Ht; exact Ht).
    f_equal. unfold tuples, nterms, tuple. cbn [hd map]. unfold range. rewrite seq_length. apply map_ext_in. intros j Hj. apply in_seq in Hj.
    f_equal. rewrite seq_nth by lia. lia. }
  assert (Hobs : forall s, length s = n -> map (fun t => prodR (map (nthR s) t)) (all_tuples cts) = corr_obs 1 s ++ corr_obs 2 s ++ corr_obs 3 s).
  { intros s Hs. rewrite Hcs, !map_app, !map_map. rewrite corr_obs_1. f_equal; [|f_equal].
    - transitivity (map (fun i => nth i s 0) (seq 0 (length s))); [|symmetry; apply list_as_map]. rewrite Hs. apply map_ext. intros i. unfold prodR. cbn. unfold nthR. ring.
    - unfold corr_obs. transitivity (map prodR (combinations (map (fun i => nth i s 0) (seq 0 (length s))) 2)); [|rewrite <- list_as_map; reflexivity].
      rewrite Hs, combinations_map, map_map. reflexivity.
    - unfold corr_obs. transitivity (map prodR (combinations (map (fun i => nth i s 0) (seq 0 (length s))) 3)); [|rewrite <- list_as_map; reflexivity].
      rewrite Hs, combinations_map, map_map. reflexivity. }
  assert (Hl : length (all_tuples cts) = (n + binom n 2 + binom n 3)%nat).
  { rewrite Hcs, !app_length, map_length, !combinations_length, seq_length. lia. }
  destruct (C22_write_eqns n sym cts (h ++ J ++ K) ltac:(lia)) as (f & P & C & E1 & E2 & E3 & E4 & E5 & E6 & E7).
  - cbn. lia.
  - intros subix Hin.
    assert (Hok : forall k, (0 < k <= 3)%nat -> zip_star k (combinations (range n) k) <> [] /\
      forall j x, (j < length (hd [] (zip_star k (combinations (range n) k))))%nat -> In x (zip_star k (combinations (range n) k)) -> (nth j x 0 < n)%nat).
    { intros k Hk. pose proof (Hne k Hk) as Hc. unfold zip_star.
      assert (Hin' : forall t i, In t (combinations (range n) k) -> In i t -> (i < n)%nat).
      { assert (G : forall (l : list nat) m t i, In t (combinations l m) -> In i t -> In i l).
        { induction l as [|x l IHl]; intros [|m] t i Ht Hi; cbn in Ht; try tauto.
          - destruct Ht as [<-|[]]. destruct Hi.
          - destruct Ht as [<-|[]]. destruct Hi.
          - apply in_app_or in Ht. destruct Ht as [Ht|Ht].
            + apply in_map_iff in Ht. destruct Ht as (u & <- & Hu). destruct Hi as [<-|Hi]; [left; reflexivity|right; eapply IHl; eauto].
            + right. eapply IHl; eauto. }
        intros t i Ht Hi. apply (G _ _ _ _ Ht) in Hi. unfold range in Hi. apply in_seq in Hi. lia. }
      set (L := combinations (range n) k) in *.
      assert (HLk : forall t, In t L -> length t = k) by (intros t Ht; apply combinations_elt_length in Ht; exact Ht). clearbody L.
      destruct L as [|t0 L']; [congruence|]. set (L := t0 :: L') in *.
      destruct k as [|k]; [lia|]. split; [discriminate|]. intros j x Hj Hx.
      unfold range in Hj. cbn [seq map hd] in Hj. rewrite map_length in Hj.
      apply in_map_iff in Hx. destruct Hx as (d & <- & Hd). unfold range in Hd. apply in_seq in Hd.
      rewrite (nth_indep _ 0%nat (nth d [] 0%nat)) by (rewrite map_length; exact Hj). rewrite (map_nth (fun t => nth d t 0%nat)).
      apply (Hin' (nth j L [])); [apply nth_In; exact Hj|]. apply nth_In. rewrite (HLk (nth j L [])) by (apply nth_In; exact Hj). lia. }
    destruct Hin as [<-|[<-|[<-|[]]]]; [|apply Hok; lia|apply Hok; lia].
    split; [discriminate|]. cbn [hd]. intros j k Hj Hk. destruct Hk as [<-|[]]. unfold range in *. rewrite seq_length in Hj. rewrite seq_nth by lia. lia.
  - change (length (h ++ J ++ K) = length (all_tuples cts)). rewrite !app_length. lia.
  - change (flat_map _ cts) with (all_tuples cts) in E3, E7. fold states in E3, E7.
    assert (Hlen : forall s, In s states -> length s = n).
    { intros s Hs. unfold states in Hs. apply in_map_iff in Hs. destruct Hs as (r & <- & Hr). apply all_states_spec in Hr. rewrite map_length. tauto. }
    assert (HE : forall s, In s states -> subset_energy (all_tuples cts) (h ++ J ++ K) s = multi_energy [h; J; K] s).
    { intros s Hs. specialize (Hlen s Hs). rewrite subset_energy_dot by (rewrite !app_length; lia). rewrite Hobs by exact Hlen.
      assert (L1 : length (corr_obs 1 s) = n) by (rewrite corr_obs_1; exact Hlen).
      assert (L2 : length (corr_obs 2 s) = binom n 2) by (unfold corr_obs; rewrite map_length, combinations_length, Hlen; reflexivity).
      rewrite !dot_app by lia. unfold multi_energy. cbn [length seq]. rewrite !sumf_cons, sumf_nil. cbn [nth]. ring. }
    exists f, P, C. split; [exact E1|]. split; [exact E2|]. split.
    { rewrite E3. apply map_ext_in. intros s Hs. apply (boltzmann_ext _ _ _ HE s Hs). }
    split; [exact E5|]. split; [exact E6|].
    assert (HlC : length C = (n + binom n 2 + binom n 3)%nat) by (rewrite E7, map_length; exact Hl).
    split; [exact HlC|]. intros c Hc. rewrite E7. unfold nthR at 1.
    rewrite (nth_indep _ 0 (expectation (boltzmann (subset_energy (all_tuples cts) (h ++ J ++ K)) states) states (fun s => prodR (map (nthR s) [])))) by (rewrite map_length; lia).
    rewrite (map_nth (fun t => expectation (boltzmann (subset_energy (all_tuples cts) (h ++ J ++ K)) states) states (fun s => prodR (map (nthR s) t)))).
    apply expectation_ext; [exact HE|]. intros s Hs. rewrite <- (Hobs s (Hlen s Hs)). unfold nthR at 2.
    rewrite (nth_indep _ 0 (prodR (map (nthR s) []))) by (rewrite map_length; lia). symmetry. apply (map_nth (fun t => prodR (map (nthR s) t))).
Qed.
Print Assumptions C22_triplet.

(** With fewer than three spins [triplet] fails (the index lists are empty and
    _compute_signs returns None). *)
Theorem C22_triplet_small_raises : forall (n : nat) (sym : bool), (n < 3)%nat -> triplet n sym = Err AttributeError.
Proof. intros n sym Hn. destruct n as [|[|[|n]]]; [| | |lia]; destruct sym; reflexivity. Qed.
Print Assumptions C22_triplet_small_raises.

Example C22_example :
  (exists f, pairwise 3 true = Ok f /\ ef_coeffs f = [[1;1;1;1;-1;-1;-1;-1]; [1;1;-1;-1;1;1;-1;-1]; [1;-1;1;-1;1;-1;1;-1];
     [1;1;-1;-1;-1;-1;1;1]; [1;-1;1;-1;-1;1;-1;1]; [1;-1;-1;1;1;-1;-1;1]]%Z /\
     nth 1 (ef_terms f) [] = [(false, AVar "H" 0); (false, AVar "H" 1); (true, AVar "H" 2); (false, AVar "J" 0); (true, AVar "J" 1); (true, AVar "J" 2)]%char) /\
  (exists f, pairwise 3 false = Ok f /\ nth 1 (ef_terms f) [] = [(false, AVar "H" 2); (false, AZero)]%char /\
     nth 0 (ef_terms f) [] = [(false, AZero)]) /\
  length (all_states [0;1]%Z 3) = 8%nat /\ length [0.1; 0.2; 0.3; -1; 0; 1]%R = (3 + 3 * (3 - 1) / 2)%nat.
Proof. repeat split; eexists; repeat split; reflexivity. Qed.

(** ** C23 *)
(** For 3 or more spins and 2 to 10 states (and a float logarithm that is exact or one
    too small next to a power, as in C05) the written Potts file gives the exact
    probabilities of all states in base-k counting order and the exact averages of
    all indicators and agreements. *)
Theorem C23_potts_file : forall (logest : nat -> nat -> nat) (n k : nat) (params : list R),
  (2 < n)%nat -> (2 <= k <= 10)%nat ->
  (forall i e, (0 < i < k ^ n)%nat -> is_floor_log k i e ->
     logest i k = e \/ (logest i k + 1 = e /\ i < k ^ e + k ^ (logest i k))%nat) ->
  length params = (n * k + n * (n - 1) / 2)%nat ->
  let states := all_states (seq 0 k) n in
  let prob := boltzmann (potts_energy n k params) states in
  exists f P C, write_potts logest n k = Ok f /\
    run_potts_p f params = Ok (map Some P) /\ P = map prob states /\ (forall p, In p P -> 0 < p) /\ sumR P = 1 /\
    run_potts_observables f params = Ok (map Some C) /\ length C = length params /\
    (forall c, (c < length C)%nat -> nthR C c = expectation prob states (fun s => nthR (potts_obs k s) c)) /\
    (forall i v, (i < n)%nat -> (v < k)%nat ->
       nthR C (v * n + i) = sumf (filter (fun s => Nat.eqb (nth i s 0%nat) v) states) prob).
Proof.
  intros logest n k params Hn Hk He Hp states prob.
  destruct (write_potts_ok logest n k Hn Hk He) as (cf & E1 & Hcf). fold states in E1, Hcf.
  assert (Hne : states <> []).
  { intros H. apply (f_equal (@length _)) in H. unfold states in H. rewrite all_states_length, seq_length in H. cbn in H. pose proof (Nat.pow_nonzero k n). lia. }
  exists {| pf_n := n; pf_k := k; pf_energies := map (potts_atoms n) states; pf_coeffs := cf |}, (map prob states),
    (map (fun g => expectation prob states (fun s => b2R (g s))) (potts_obs_fns n k)).
  split; [exact E1|]. split; [rewrite map_map; apply potts_file_p; [lia|exact Hp]|]. split; [reflexivity|].
  split; [intros p H; apply in_map_iff in H; destruct H as (s & <- & _); apply boltzmann_pos; exact Hne|].
  split; [rewrite sumR_map; apply boltzmann_sum; exact Hne|].
  split; [rewrite map_map; apply (potts_file_obs n k params cf ltac:(lia) Hp Hcf)|].
  assert (Hl : length (map (fun g => expectation prob states (fun s => b2R (g s))) (potts_obs_fns n k)) = length params) by (rewrite map_length, potts_obs_fns_length; lia).
  split; [exact Hl|].
  assert (HC : forall c, (c < length (potts_obs_fns n k))%nat -> nthR (map (fun g => expectation prob states (fun s => b2R (g s))) (potts_obs_fns n k)) c
     = expectation prob states (fun s => nthR (potts_obs k s) c)).
  { intros c Hc. unfold nthR at 1. rewrite (nth_indep _ 0 (expectation prob states (fun s => b2R ((fun _ => false) s)))) by (rewrite map_length; exact Hc).
    rewrite (map_nth (fun g => expectation prob states (fun s => b2R (g s)))). unfold expectation. apply sumf_ext_in. intros s Hs. f_equal.
    apply all_states_potts in Hs. destruct Hs as [Hs _]. rewrite (potts_obs_as_fns n k s Hs). unfold nthR.
    rewrite (nth_indep _ 0 (b2R ((fun _ => false) s))) by (rewrite map_length; exact Hc).
    symmetry. apply (map_nth (fun g : list nat -> bool => b2R (g s)) (potts_obs_fns n k) (fun _ => false)). }
  split; [intros c Hc; rewrite map_length in Hc; apply HC; exact Hc|].
  intros i v Hi Hv. rewrite HC by (rewrite potts_obs_fns_length; nia). unfold expectation. rewrite sumf_filter. apply sumf_ext_in. intros s Hs.
  apply all_states_potts in Hs. destruct Hs as [Hs _]. unfold potts_obs, nthR.
  assert (G : forall m a, nth (v * n + i) (flat_map (fun c => map (fun x => b2R (Nat.eqb x c)) s) (seq a (S v + m))) 0 = b2R (Nat.eqb (nth i s 0%nat) (a + v))).
  { clear -Hi Hs. induction v as [|v IH]; intros m a.
    - cbn [Nat.add seq flat_map Nat.mul]. rewrite app_nth1 by (rewrite map_length; lia).
      rewrite (nth_indep _ 0 (b2R (Nat.eqb 0 a))) by (rewrite map_length; lia). rewrite (map_nth (fun x => b2R (Nat.eqb x a))), Nat.add_0_r. reflexivity.
    - change (seq a (S (S v) + m)) with (a :: seq (S a) (S v + m)). cbn [flat_map]. rewrite app_nth2 by (rewrite map_length; nia). rewrite map_length.
      replace (S v * n + i - length s)%nat with (v * n + i)%nat by nia. rewrite IH. f_equal. f_equal. lia. }
  rewrite app_nth1.
  - replace k with (S v + (k - S v))%nat at 1 by lia. rewrite G. cbn [Nat.add]. destruct (Nat.eqb (nth i s 0%nat) v); cbn; ring.
  - rewrite (length_flat_map_const _ _ n); [rewrite seq_length; nia|]. intros c _. rewrite map_length. exact Hs.
Qed.
Print Assumptions C23_potts_file.

(** The constructor accepts more states, but writing fails: a digit above 9 is a letter
    and int() of a letter raises; above 36 states base_repr raises. *)
Theorem C23_many_states_refuted : forall (logest : nat -> nat -> nat) (n k : nat),
  (2 < n)%nat ->
  ((10 < k <= 36)%nat ->
   (forall i e, (0 < i < k ^ n)%nat -> is_floor_log k i e ->
     logest i k = e \/ (logest i k + 1 = e /\ i < k ^ e + k ^ (logest i k))%nat) ->
   write_potts logest n k = Err ValueError) /\
  ((36 < k)%nat -> write_potts logest n k = Err AssertionError).
Proof.
  intros logest n k Hn. split; [intros Hk He; apply write_potts_letters; assumption|intros Hk; apply write_potts_huge; assumption].
Qed.
Print Assumptions C23_many_states_refuted.

Theorem C23_bad_arguments_raise : forall (logest : nat -> nat -> nat) (n k : nat),
  ((n <= 2)%nat \/ (k < 2)%nat) -> write_potts logest n k = Err AssertionError.
Proof.
  intros logest n k H. unfold write_potts. destruct (Nat.ltb_spec 2 n); [|reflexivity]. destruct (Nat.leb_spec 2 k); [lia|reflexivity].
Qed.
Print Assumptions C23_bad_arguments_raise.

Theorem C23_wrong_size_raises : forall (logest : nat -> nat -> nat) (n k : nat) f (params : list R),
  write_potts logest n k = Ok f -> length params <> (n * k + n * (n - 1) / 2)%nat ->
  run_potts_p f params = Err AssertionError /\ run_potts_observables f params = Err AssertionError.
Proof.
  intros logest n k f params Hf Hp.
  assert (Hnk : pf_n f = n /\ pf_k f = k).
  { unfold write_potts in Hf. destruct (negb _); [discriminate|]. destruct (negb _); [discriminate|].
    destruct (energy_terms_generator logest n k); [|discriminate]. cbn [bind] in Hf.
    destruct (mapM _ _); [|discriminate]. cbn [bind] in Hf. destruct (mapM _ _); [|discriminate]. injection Hf as <-. split; reflexivity. }
  destruct Hnk as [E1 E2]. unfold run_potts_p, run_potts_observables, potts_energies, potts_nparams. rewrite E1, E2.
  destruct (Nat.eqb_spec (length params) (n * k + n * (n - 1) / 2)); [contradiction|]. split; reflexivity.
Qed.
Print Assumptions C23_wrong_size_raises.

Definition example_logest (i k : nat) : nat := Nat.log2 i / Nat.log2 k.

Example C23_example :
  (forall i e, (0 < i < 2 ^ 3)%nat -> is_floor_log 2 i e -> example_logest i 2 = e) /\
  match write_potts example_logest 3 2 with
  | Ok f => nth 5 (pf_energies f) [] = [Ph 3; Ph 1; Ph 5; PJ 1] /\ length (pf_energies f) = 8%nat /\
            read_list (nth 0 (pf_coeffs f) []) = Ok [true; true; true; true; false; false; false; false]
  | Err _ => False
  end.
Proof.
  split.
  - intros i e Hi He. unfold example_logest. replace (Nat.log2 2) with 1%nat by reflexivity. rewrite Nat.div_1_r.
    apply Nat.log2_unique; [lia|]. unfold is_floor_log in He. rewrite Nat.add_1_r in He. exact He.
  - vm_compute. repeat split.
Qed.
