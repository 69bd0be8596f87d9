(** * C86: Monte Carlo histogram solver for incomplete data. *)
From Coq Require Import Permutation.
From Coquelicot Require Import Coquelicot.
From Verif Require Import Prelude PreludeFacts Spec M_Corr M_Params M_Models M_MCH M_Incomplete P_Params P_Corr2 P_Energy2 P_MCH P_MPF Props_Corr Props_MCH.
Import ListNotations.
Local Open Scope R_scope.

(** ** The prediction *)
Lemma nthR_map_scal c l k : nthR (map (fun x => c * x) l) k = c * nthR l k.
Proof. apply (nthR_map (fun x => c * x)). ring. Qed.
Lemma map_nth_seq {A} (d : A) l : map (fun i => nth i l d) (seq 0 (length l)) = l.
Proof. apply (list_eq_nth d); rewrite map_length, seq_length; [reflexivity|]. intros i Hi. now rewrite nth_map_seq. Qed.

Lemma sumf_count {A} (dec : forall a b : A, {a = b} + {a <> b}) (U X : list A) (f : A -> R) : NoDup U -> (forall x, In x X -> In x U) ->
  sumf U (fun u => INR (count_occ dec X u) * f u) = sumf X f.
Proof.
  intros HU HX. induction X as [|x X IH].
  - apply sumf_zero. intros u _. cbn. ring.
  - rewrite sumf_cons, <- IH by (intros; apply HX; now right).
    rewrite <- (sumf_indic dec U x f) by (auto; apply HX; now left).
    rewrite <- sumf_plus. apply sumf_ext. intros u. cbn [count_occ]. destruct (dec x u) as [->|Hn].
    + rewrite S_INR. destruct (dec u u); [ring|congruence].
    + destruct (dec u x); [congruence|]. ring.
Qed.

Lemma inc_states_unique lt X : inc_states lt X = np_unique lt (inc_rows X).
Proof. unfold inc_states. apply unique_rows_states. Qed.

Lemma inc_counts_spec lt X : strict_total lt -> inc_counts lt X = map (count_occ rows_dec (inc_rows X)) (inc_states lt X).
Proof.
  intros Hlt. rewrite inc_states_unique. unfold inc_counts. destruct (inc_rows X) as [|r Xi] eqn:E; [reflexivity|]. apply bincount_inverse; [assumption|discriminate].
Qed.

Section Est.
Context {Smp : Type} (approx : Smp -> list R -> result (list R)) (F : Smp -> list R) (d : list R).
Variable good : Smp -> Prop.
Hypothesis HF : forall s, good s -> approx s d = Ok (F s) /\ length (F s) = length d.

Lemma est_fold counts f l : (forall a, In a l -> (fst a < length counts)%nat /\ good (snd a)) -> forall est, length est = length d ->
  exists est', foldM (fun est (is : nat * Smp) =>
      bind (get counts (fst is)) (fun ci =>
      bind (approx (snd is) d) (fun e =>
      viadd est (map (fun x => (1 - f) * (INR ci / INR (sumN counts)) * x) e)))) l est = Ok est' /\ length est' = length d /\
    forall k, nthR est' k = nthR est k + sumf l (fun a => (1 - f) * (INR (nth (fst a) counts 0%nat) / INR (sumN counts)) * nthR (F (snd a)) k).
Proof.
  induction l as [|a l IH]; intros Hl est He; cbn [foldM].
  - exists est. split; [reflexivity|]. split; [assumption|]. intros k. rewrite sumf_nil. ring.
  - unfold get at 1. rewrite (nth_error_nth' counts 0%nat) by (apply Hl; now left). cbn [bind].
    destruct (HF (snd a)) as [-> HL]; [apply Hl; now left|]. cbn [bind]. unfold viadd at 1. rewrite map_length, He, HL, Nat.eqb_refl. cbn [bind].
    set (est1 := map _ (combine _ _)).
    assert (L1 : length est1 = length d) by (unfold est1; rewrite map_length, combine_length, map_length, He, HL; apply Nat.min_id).
    destruct (IH ltac:(intros; apply Hl; now right) est1 L1) as [est' [E [L H]]]. exists est'. split; [exact E|]. split; [assumption|].
    intros k. rewrite H, sumf_cons.
    assert (V := viadd_ok est (map (fun x => (1 - f) * (INR (nth (fst a) counts 0%nat) / INR (sumN counts)) * x) (F (snd a))) est1).
    unfold viadd in V. rewrite map_length, He, HL, Nat.eqb_refl in V. destruct (V eq_refl) as [_ [_ V2]]. rewrite (V2 k).
    rewrite (nthR_map_scal _ (F (snd a)) k). ring.
Qed.

(** The prediction used for learning is the average over the data rows of one prediction
    each: from the sample of the model for a complete row, from the conditional sample of its
    pattern for an incomplete one. *)
Theorem C86_estimate lt (X : list (list Z)) samples (cond : list Z -> Smp) : strict_total lt -> X <> [] ->
  good samples -> (forall row, In row X -> existsb (Z.eqb 0) row = true -> good (cond row)) ->
  exists est, inc_estimate approx (full_fraction X) (inc_counts lt X) samples (map cond (inc_states lt X)) d = Ok est /\ length est = length d /\
    forall k, (k < length d)%nat ->
      nthR est k = sumf X (fun row => if existsb (Z.eqb 0) row then nthR (F (cond row)) k else nthR (F samples) k) / INR (length X).
Proof.
  intros Hlt HX Gs Gc. assert (Np : 0 < INR (length X)) by (apply lt_0_INR; destruct X; [congruence|cbn; lia]).
  set (f := full_fraction X). set (Xi := inc_rows X). set (U := inc_states lt X).
  assert (HU : NoDup U) by (unfold U; rewrite inc_states_unique; now apply np_unique_NoDup).
  assert (HUin : forall x, In x Xi -> In x U) by (intros x Hx; unfold U; rewrite inc_states_unique; now apply np_unique_in).
  assert (Hc : inc_counts lt X = map (count_occ rows_dec Xi) U) by now apply inc_counts_spec. rewrite Hc.
  assert (HS : INR (sumN (map (count_occ rows_dec Xi) U)) = INR (length Xi)).
  { transitivity (sumf Xi (fun _ => 1)); [|rewrite sumf_const; ring]. rewrite <- (sumf_count rows_dec U Xi (fun _ => 1) HU HUin).
    clear. induction U as [|u U IH]; [reflexivity|]. cbn [map sumN fold_right]. change (fold_right Nat.add 0%nat ?l) with (sumN l). rewrite plus_INR, IH, sumf_cons. ring. }
  assert (Hf1 : (1 - f) = INR (length Xi) / INR (length X)) by (unfold f, full_fraction; fold Xi; field; lra).
  assert (Hlen : length X = (length Xi + length (filter (fun r => negb (incomplete r)) X))%nat).
  { unfold Xi, inc_rows. clear. induction X as [|r X IH]; [reflexivity|]. cbn [filter length]. destruct (incomplete r); cbn [negb length]; lia. }
  set (Xc := filter (fun r => negb (incomplete r)) X) in *.
  assert (Hf : f = INR (length Xc) / INR (length X)). { unfold f, full_fraction. fold Xi. rewrite Hlen at 1. rewrite plus_INR. field. lra. }
  set (est0 := map (fun x => x * f) (F samples)).
  assert (E0 : exists e0, (if Rltb 0 f then bind (approx samples d) (fun e => Ok (map (fun x => x * f) e)) else Ok (repeat 0 (length d))) = Ok e0 /\
    length e0 = length d /\ forall k, nthR e0 k = f * nthR (F samples) k).
  { unfold Rltb. destruct (Rlt_dec 0 f) as [H0|H0].
    - destruct (HF samples Gs) as [-> HL]. cbn [bind]. exists est0. split; [reflexivity|]. unfold est0. split; [now rewrite map_length|]. intros k.
      rewrite <- (nthR_map_scal f). f_equal. apply map_ext. intros; ring.
    - exists (repeat 0 (length d)). split; [reflexivity|]. split; [apply repeat_length|]. intros k.
      assert (f = 0). { apply Rle_antisym; [lra|]. rewrite Hf. apply Rmult_le_pos; [apply pos_INR|]. left. now apply Rinv_0_lt_compat. }
      rewrite H. unfold nthR at 1. rewrite nth_repeat. ring. }
  destruct E0 as [e0 [E0 [L0 K0]]]. unfold inc_estimate. fold f. rewrite E0. cbn [bind].
  destruct (est_fold (map (count_occ rows_dec Xi) U) f (combine (range (length (map cond U))) (map cond U))) with (est := e0) as [est [E [L K]]]; [|assumption|].
  { intros [i s] Ha. assert (Hb := in_combine_r _ _ _ _ Ha). apply in_combine_l in Ha. unfold range in Ha. apply in_seq in Ha. cbn [fst snd]. rewrite !map_length in *. split; [lia|].
    apply in_map_iff in Hb. destruct Hb as [row [<- Hr]]. unfold U in Hr. rewrite inc_states_unique in Hr. apply np_unique_in in Hr. apply filter_In in Hr. now apply Gc. }
  exists est. split; [exact E|]. split; [exact L|]. intros k Hk. rewrite K, K0, HS.
  assert (Ec : combine (range (length (map cond U))) (map cond U) = map (fun i => (i, cond (nth i U []))) (seq 0 (length U))).
  { unfold range. rewrite map_length. clear. rewrite <- (map_nth_seq [] U) at 2. rewrite map_map. generalize (seq 0 (length U)). intros l.
    induction l as [|i l IH]; [reflexivity|]. cbn [map combine]. now rewrite IH. }
  rewrite Ec, sumf_map. cbn [fst snd].
  assert (Es : sumf (seq 0 (length U)) (fun i => (1 - f) * (INR (nth i (map (count_occ rows_dec Xi) U) 0%nat) / INR (length Xi)) * nthR (F (cond (nth i U []))) k)
    = sumf Xi (fun row => nthR (F (cond row)) k) / INR (length X)).
  { rewrite <- (sumf_count rows_dec U Xi (fun row => nthR (F (cond row)) k) HU HUin).
    rewrite <- (sumf_seq_nth [] U (fun u => INR (count_occ rows_dec Xi u) * nthR (F (cond u)) k)).
    rewrite <- sumf_div. apply sumf_ext_in. intros i Hi. apply in_seq in Hi.
    rewrite (nth_indep _ 0%nat (count_occ rows_dec Xi [])) by (rewrite map_length; lia). rewrite (map_nth (count_occ rows_dec Xi)).
    assert (Xi <> []). { intros C. assert (In (nth i U []) U) by (apply nth_In; lia). unfold U in H. rewrite inc_states_unique in H. apply np_unique_in in H. fold Xi in H. rewrite C in H. destruct H. }
    assert (0 < INR (length Xi)) by (apply lt_0_INR; destruct Xi; [congruence|cbn; lia]).
    rewrite Hf1. field. lra. }
  rewrite Es, Hf.
  assert (Ef : sumf X (fun row => if existsb (Z.eqb 0) row then nthR (F (cond row)) k else nthR (F samples) k)
    = sumf Xi (fun row => nthR (F (cond row)) k) + INR (length Xc) * nthR (F samples) k).
  { unfold Xi, Xc, inc_rows. clear. induction X as [|r X IH]; [cbn; ring|]. rewrite sumf_cons, IH. cbn [filter]. change (existsb (Z.eqb 0) r) with (incomplete r).
    destruct (incomplete r); cbn [negb length]; [rewrite sumf_cons; ring|]. rewrite S_INR. ring. }
  rewrite Ef. field. lra.
Qed.
End Est.
Print Assumptions C86_estimate.

(** ** Likelihood of incomplete data *)
Definition spin_rows3 (n : nat) (X : list (list Z)) : Prop :=
  forall row, In row X -> length row = n /\ forall x, In x row -> x = (-1)%Z \/ x = 0%Z \/ x = 1%Z.
Definition fits (row s : list Z) : bool := forallb (fun p => Z.eqb (fst p) 0 || Z.eqb (fst p) (snd p)) (combine row s).
Definition weight (theta : list R) (s : list Z) : R := exp (dot (ising_obs (map IZR s)) theta).
(** Logarithm of the probability of the visible spins, summed over the data. *)
Definition loglik (n : nat) (X : list (list Z)) (theta : list R) : R :=
  sumf X (fun row => ln (sumf (filter (fits row) (all_states [-1; 1]%Z n)) (weight theta) / sumf (all_states [-1; 1]%Z n) (weight theta))).
(** Mean of the k-th observable over the states in l. *)
Definition mean_over (l : list (list Z)) (theta : list R) (k : nat) : R :=
  sumf l (fun s => weight theta s * nthR (ising_obs (map IZR s)) k) / sumf l (weight theta).

Lemma fits_exists : forall n row, length row = n -> (forall x, In x row -> x = (-1)%Z \/ x = 0%Z \/ x = 1%Z) -> filter (fits row) (all_states [-1; 1]%Z n) <> [].
Proof.
  intros n row Hl Hx.
  set (s := map (fun x => if Z.eqb x 0 then 1%Z else x) row).
  assert (In s (filter (fits row) (all_states [-1; 1]%Z n))).
  { apply filter_In. split.
    - apply all_states_spec. split; [unfold s; now rewrite map_length|]. intros y Hy. unfold s in Hy. apply in_map_iff in Hy. destruct Hy as [x [<- Hin]].
      destruct (Hx x Hin) as [E|[E|E]]; subst x; cbn; auto.
    - unfold fits, s. clear. induction row as [|x row IH]; [reflexivity|]. cbn [map combine forallb fst snd]. rewrite IH, andb_true_r.
      destruct (Z.eqb_spec x 0); [reflexivity|]. cbn. apply Z.eqb_refl. }
  intros C. rewrite C in H. destruct H.
Qed.

Lemma log_weight_derive n (l : list (list Z)) theta k : l <> [] -> (forall s, In s l -> length s = n) -> length theta = (n + n * (n - 1) / 2)%nat ->
  (k < length theta)%nat -> is_derive (fun t => ln (sumf l (weight (upd theta k t)))) (nthR theta k) (mean_over l theta k).
Proof.
  intros Hl Hn Ht Hk. set (o := fun s => ising_obs (map IZR s)). set (x := nthR theta k).
  apply (is_derive_ext (fun t => ln (sumf l (fun s => exp (dot (o s) theta + nthR (o s) k * (t - x)))))).
  { intros t. f_equal. apply sumf_ext_in. intros s Hs. unfold weight, o. rewrite dot_upd by (rewrite ?ising_obs_length, ?map_length, ?(Hn s Hs); auto). reflexivity. }
  assert (D : is_derive (fun t => sumf l (fun s => exp (dot (o s) theta + nthR (o s) k * (t - x)))) x (sumf l (fun s => exp (dot (o s) theta) * nthR (o s) k))).
  { apply (is_derive_sumf l (fun t s => exp (dot (o s) theta + nthR (o s) k * (t - x)))). intros s _.
    auto_derive; [exact I|]. replace (dot (o s) theta + nthR (o s) k * (x + - x)) with (dot (o s) theta) by ring. ring. }
  set (F := fun t => sumf l (fun s => exp (dot (o s) theta + nthR (o s) k * (t - x)))) in *.
  assert (E0 : F x = sumf l (weight theta)). { unfold F. apply sumf_ext. intros s. unfold weight. f_equal. unfold o. ring. }
  change (is_derive (fun t => ln (F t)) x (sumf l (fun s => exp (dot (o s) theta) * nthR (o s) k) / sumf l (weight theta))). rewrite <- E0.
  assert (Fp : 0 < F x) by (rewrite E0; apply sumf_pos; [assumption|intros; apply exp_pos]).
  set (dF := sumf l (fun s => exp (dot (o s) theta) * nthR (o s) k)) in *. change (is_derive F x dF) in D. clearbody F dF.
  auto_derive.
  - split; [exists dF; exact D|]. split; [assumption|exact I].
  - change (Derive (fun t => F t) x) with (Derive F x). rewrite (is_derive_unique F _ _ D). field. lra.
Qed.

(** The derivative of the log-likelihood of the visible spins in the k-th parameter is the
    sum over the data rows of the mean of the k-th observable given the visible spins minus
    its mean (what an update by likelihood maximisation would have to follow). *)
Theorem C86_likelihood_gradient n (X : list (list Z)) theta k : spin_rows3 n X -> length theta = (n + n * (n - 1) / 2)%nat -> (k < length theta)%nat ->
  is_derive (fun t => loglik n X (upd theta k t)) (nthR theta k)
    (sumf X (fun row => mean_over (filter (fits row) (all_states [-1; 1]%Z n)) theta k - mean_over (all_states [-1; 1]%Z n) theta k)).
Proof.
  intros HX Ht Hk. unfold loglik. apply is_derive_sumf. intros row Hr. destruct (HX row Hr) as [Hl Hv].
  assert (N1 := fits_exists n row Hl Hv).
  assert (N2 : all_states [-1; 1]%Z n <> []). { intros C. rewrite C in N1. now apply N1. }
  assert (L2 : forall s, In s (all_states [-1; 1]%Z n) -> length s = n) by (intros s Hs; now apply all_states_spec in Hs).
  assert (L1 : forall s, In s (filter (fits row) (all_states [-1; 1]%Z n)) -> length s = n) by (intros s Hs; apply filter_In in Hs; now apply L2).
  apply (is_derive_ext (fun t => ln (sumf (filter (fits row) (all_states [-1; 1]%Z n)) (weight (upd theta k t))) - ln (sumf (all_states [-1; 1]%Z n) (weight (upd theta k t))))).
  { intros t. symmetry. apply ln_div; apply sumf_pos; auto; intros; apply exp_pos. }
  apply @is_derive_minus; apply (log_weight_derive n); assumption.
Qed.
Print Assumptions C86_likelihood_gradient.

(** ** Fixed points of learning *)
Lemma learn_loop_fixed approx c maxd maxn maxs eta : approx (repeat 0 (length c)) = Ok c -> 0 <= maxd -> 0 <= maxn ->
  forall fuel dist steps, (maxs < steps + fuel)%nat -> (steps <= maxs)%nat ->
  learn_loop approx fuel c maxd maxn maxs eta (repeat 0 (length c)) c dist steps = Ok (repeat 0 (length c), c).
Proof.
  intros HA Hd Hn. set (p := length c).
  assert (V0 : vsub c c = Ok (repeat 0 p)).
  { unfold vsub. rewrite Nat.eqb_refl. f_equal. unfold p. clear. induction c as [|x c IH]; [reflexivity|]. cbn. rewrite IH. f_equal. ring. }
  assert (V1 : forall m, viadd (repeat 0 p) (map (fun e => - e * m * eta) (repeat 0 p)) = Ok (repeat 0 p)).
  { intros m. unfold viadd. rewrite map_length, repeat_length, Nat.eqb_refl. f_equal. clear. induction p as [|p IH]; [reflexivity|]. cbn. rewrite IH. f_equal. ring. }
  assert (Hz : vnorm (repeat 0 p) = 0).
  { unfold vnorm. rewrite sumf_zero; [apply sqrt_0|]. intros v Hv. apply repeat_spec in Hv. subst. ring. }
  induction fuel as [|fuel IH]; intros dist steps Hf Hs; [lia|]. cbn [learn_loop]. rewrite V0. cbn [bind]. rewrite V1. cbn [bind]. unfold p. rewrite HA. cbn [bind]. rewrite V0. cbn [bind].
  fold p. rewrite Hz. replace (Rltb maxn 0) with false by (unfold Rltb; destruct (Rlt_dec maxn 0); [lra|reflexivity]).
  replace (existsb (fun d => Rltb maxd (Rabs d)) (repeat 0 p)) with false.
  2: { symmetry. apply Bool.not_true_is_false. intros C. apply existsb_exists in C. destruct C as [v [Hv C]]. apply repeat_spec in Hv. subst v.
       unfold Rltb in C. destruct (Rlt_dec maxd (Rabs 0)) as [C'|]; [rewrite Rabs_R0 in C'; lra|discriminate]. }
  cbn [orb]. destruct (Nat.ltb maxs (steps + 1)) eqn:El; [reflexivity|]. apply Nat.ltb_ge in El. apply IH; lia.
Qed.

(** Data that are complete are treated as in MCH; and parameters whose prediction equals the
    constraints are left alone by learn_parameters_mch, whatever the keyword arguments. *)
Theorem C86_learning {Smp} (approx : Smp -> list R -> result (list R)) f counts samples conds m c kw :
  (forall d, f = 1 -> conds = [] -> inc_estimate approx f counts samples conds d = approx samples d) /\
  (length m = length c -> 0 <= dflt (kw_maxdlamda kw) 1 -> 0 <= dflt (kw_maxdlamdaNorm kw) 1 ->
   inc_estimate approx f counts samples conds (repeat 0 (length c)) = Ok c ->
   inc_learn approx f counts samples conds m c c kw = Ok (m, c)).
Proof.
  split.
  - intros d -> ->. unfold inc_estimate. unfold Rltb. destruct (Rlt_dec 0 1) as [_|C]; [|lra]. destruct (approx samples d) as [e|x]; cbn; [|reflexivity].
    f_equal. rewrite <- (map_id e) at 2. apply map_ext. intros; ring.
  - intros Hm Hd Hn HA. unfold inc_learn, learn_parameters_mch. rewrite learn_loop_fixed by (auto; lia). cbn [bind fst snd].
    unfold viadd. rewrite repeat_length, Hm, Nat.eqb_refl. cbn [bind]. repeat f_equal. rewrite <- Hm. clear. induction m as [|x m IH]; [reflexivity|]. cbn. rewrite IH. f_equal. ring.
Qed.
Print Assumptions C86_learning.

(** ** What learning aims at *)
Definition kw_steps (k : nat) : learn_kw :=
  {| kw_maxdlamda := None; kw_maxdlamdaNorm := None; kw_maxLearningSteps := Some k; kw_eta := None |}.
(** The constraints are the means of each observable over the rows that show it
    ([obs] is 0 for a row that hides one of its spins, and else has square 1). *)
Definition visible_means (p : nat) (X : list (list Z)) (c : list R) : Prop :=
  length c = p /\ forall k, (k < p)%nat -> sumf X (fun row => nthR (ising_obs (map IZR row)) k - nthR c k * nthR (ising_obs (map IZR row)) k ^ 2) = 0.
(** Every state of l appears in the sample as often as the weights say, and no other. *)
Definition exact_sample (l : list (list Z)) (theta : list R) (smp : list (list Z)) : Prop :=
  smp <> [] /\ (forall s, In s smp -> In s l) /\
  forall s, In s l -> frequency rows_dec smp s = weight theta s / sumf l (weight theta).

Definition ex_X : list (list Z) := [[1;1];[1;-1];[1;1];[1;-1];[-1;0];[-1;0];[-1;0];[-1;0]]%Z.
Definition ex_cond (row : list Z) : list (list Z) := filter (fits row) (all_states [-1; 1]%Z 2).

Lemma ex_good row : In row ex_X -> incomplete row = true -> row = [-1; 0]%Z.
Proof. cbn. intros H E. repeat (destruct H as [H|H]; [subst row; cbn in E; try discriminate; reflexivity|]). destruct H. Qed.

Lemma weight_zero s : weight [0; 0; 0] s = 1.
Proof.
  unfold weight. replace (dot _ _) with 0; [apply exp_0|]. symmetry. change [0;0;0] with (repeat 0 3).
  generalize (ising_obs (map IZR s)) as x. generalize 3%nat as m. clear. intros m x. revert m. induction x as [|a x IH]; intros [|m]; try reflexivity. cbn [repeat]. rewrite dot_cons, IH. ring.
Qed.

Definition ok_sample (N : nat) (smp : list (list Z)) : Prop :=
  smp <> [] /\ forall r, In r smp -> length r = N /\ forall x, In x r -> x = (-1)%Z \/ x = 0%Z \/ x = 1%Z.
Definition mch_value (N : nat) (d : list R) (smp : list (list Z)) : list R :=
  match mch_approximation smp N d with Ok e => e | Err _ => [] end.
Lemma mch_value_ok N d smp : length d = (N + N * (N - 1) / 2)%nat -> ok_sample N smp ->
  mch_approximation smp N d = Ok (mch_value N d smp) /\ length (mch_value N d smp) = length d.
Proof.
  intros Hd [H1 H2]. destruct (C19_mch_reweights smp N d H1 H2 Hd) as (p & E & L & _). unfold mch_value. rewrite E. split; [reflexivity|]. now rewrite L, Hd.
Qed.

Lemma ex_states_ok : ok_sample 2 (all_states [-1; 1]%Z 2).
Proof. split; [discriminate|]. intros r Hr. apply all_states_spec in Hr. destruct Hr as [L Hr]. split; [exact L|]. intros x Hx. specialize (Hr x Hx). cbn in Hr. destruct Hr as [E|[E|[]]]; auto. Qed.
Lemma ex_cond_ok row : In row ex_X -> existsb (Z.eqb 0) row = true -> ok_sample 2 (ex_cond row).
Proof.
  intros H E. rewrite (ex_good row H E). destruct ex_states_ok as [_ H2]. split; [cbn; discriminate|]. intros r Hr. apply H2. unfold ex_cond in Hr. now apply filter_In in Hr.
Qed.

Lemma ex_estimate lt d : strict_total lt -> length d = 3%nat ->
  exists est, inc_estimate (fun s d => mch_approximation s 2 d) (full_fraction ex_X) (inc_counts lt ex_X) (all_states [-1; 1]%Z 2) (map ex_cond (inc_states lt ex_X)) d = Ok est /\
    length est = 3%nat /\ forall k, (k < 3)%nat -> nthR est k = (nthR (mch_value 2 d (all_states [-1; 1]%Z 2)) k + nthR (mch_value 2 d (ex_cond [-1; 0]%Z)) k) / 2.
Proof.
  intros Hlt Hd.
  destruct (C86_estimate (fun s d => mch_approximation s 2 d) (mch_value 2 d) d (ok_sample 2)) with (lt := lt) (X := ex_X) (samples := all_states [-1; 1]%Z 2) (cond := ex_cond)
    as (est & E & L & K); auto using ex_states_ok, ex_cond_ok; [intros s Hs; apply mch_value_ok; assumption|discriminate|].
  exists est. split; [exact E|]. split; [congruence|]. intros k Hk. rewrite K by lia. unfold ex_X. rewrite !sumf_cons, sumf_nil. cbn [existsb Z.eqb Pos.eqb orb length]. cbn [INR]. field.
Qed.

Lemma ex_estimate0 lt : strict_total lt ->
  inc_estimate (fun s d => mch_approximation s 2 d) (full_fraction ex_X) (inc_counts lt ex_X) (all_states [-1; 1]%Z 2) (map ex_cond (inc_states lt ex_X)) [0; 0; 0] = Ok [- (1/2); 0; 0].
Proof.
  intros Hlt. destruct (ex_estimate lt [0; 0; 0] Hlt eq_refl) as (est & E & L & K). rewrite E. f_equal.
  assert (Z1 : forall smp, ok_sample 2 smp -> forall k, (k < 3)%nat -> nthR (mch_value 2 [0;0;0] smp) k = sumf smp (fun s => nthR (ising_obs (map IZR s)) k) / INR (length smp)).
  { intros smp [H1 H2] k Hk. destruct (C19_zero_step smp 2 H1 H2) as (p & Ep & Hp). unfold mch_value. change [0;0;0] with (repeat 0 (2 + 2 * (2 - 1) / 2)). rewrite Ep. now apply Hp. }
  apply (list_eq_nth 0); [exact L|]. intros k Hk. rewrite L in Hk. change (nthR est k = nthR [- (1/2); 0; 0] k). rewrite K, !Z1 by (try exact Hk; try apply ex_states_ok; apply ex_cond_ok; cbn; auto 8).
  destruct k as [|[|[|k]]]; [| | |lia]; cbn; field.
Qed.

(** The docstring derives the update from likelihood maximisation.  It is not: at parameters
    where the derivative of the log-likelihood of the visible spins vanishes, with the
    constraints documented and samples that represent the model and every conditional
    distribution exactly, learning moves on (the prediction averages conditional means, which
    belong with the data, and compares them with constraints taken from the data alone). *)
Theorem C86_maximum_likelihood_refuted :
  ~ (forall n X theta c samples cond kw lt, strict_total lt -> X <> [] -> spin_rows3 n X -> length theta = (n + n * (n - 1) / 2)%nat ->
     visible_means (length theta) X c ->
     exact_sample (all_states [-1; 1]%Z n) theta samples ->
     (forall row, In row X -> exact_sample (filter (fits row) (all_states [-1; 1]%Z n)) theta (cond row)) ->
     (forall k, (k < length theta)%nat -> is_derive (fun t => loglik n X (upd theta k t)) (nthR theta k) 0) ->
     exists e, inc_learn (fun s d => mch_approximation s n d) (full_fraction X) (inc_counts lt X) samples (map cond (inc_states lt X))
       theta (map (mean_over (all_states [-1; 1]%Z n) theta) (seq 0 (length theta))) c kw = Ok (theta, e)).
Proof.
  intros H. assert (Hlt := C14_example).
  assert (HX : spin_rows3 2 ex_X). { intros row Hr. cbn in Hr. repeat (destruct Hr as [Hr|Hr]; [subst row; split; [reflexivity|]; intros x Hx; cbn in Hx; intuition lia|]). destruct Hr. }
  assert (EX : forall l, l <> [] -> NoDup l -> exact_sample l [0;0;0] l).
  { intros l Hl Hnd. split; [assumption|]. split; [auto|]. intros s Hs. unfold frequency. rewrite weight_zero.
    rewrite (sumf_ext l (weight [0;0;0]) (fun _ => 1)) by (intros; apply weight_zero). rewrite sumf_const, Rmult_1_r. f_equal.
    rewrite (proj1 (NoDup_count_occ' rows_dec l) Hnd s Hs). reflexivity. }
  assert (N2 : NoDup (all_states [-1; 1]%Z 2)). { cbn. repeat constructor; cbn; intuition congruence. }
  assert (M0 : forall l k, mean_over l [0;0;0] k = sumf l (fun s => nthR (ising_obs (map IZR s)) k) / INR (length l)).
  { intros l k. unfold mean_over. f_equal; [apply sumf_ext; intros; rewrite weight_zero; ring|].
    rewrite (sumf_ext l (weight [0;0;0]) (fun _ => 1)) by (intros; apply weight_zero). rewrite sumf_const. ring. }
  specialize (H 2%nat ex_X [0;0;0] [0;0;0] (all_states [-1; 1]%Z 2) ex_cond (kw_steps 1) lexb Hlt ltac:(discriminate) HX eq_refl).
  destruct H as [e H].
  - split; [reflexivity|]. intros k Hk. unfold ex_X. rewrite !sumf_cons, sumf_nil. cbn in Hk. destruct k as [|[|[|k]]]; [| | |lia]; cbn; ring.
  - apply EX; [discriminate|assumption].
  - intros row Hr. destruct (HX row Hr) as [L V]. apply EX; [now apply fits_exists|]. now apply NoDup_filter.
  - intros k Hk. assert (D := C86_likelihood_gradient 2 ex_X [0;0;0] k HX eq_refl Hk).
    match type of D with is_derive _ _ ?v => assert (E : v = 0); [|rewrite E in D; exact D] end. clear D.
    + unfold ex_X. rewrite !sumf_cons, sumf_nil, !M0. cbn in Hk. destruct k as [|[|[|k]]]; [| | |lia]; cbn; field.
  - replace (map (mean_over (all_states [-1; 1]%Z 2) [0;0;0]) (seq 0 (length [0;0;0]))) with [0;0;0] in H.
    2: { cbn [length seq map]. rewrite !M0. repeat f_equal; cbn; field. }
    destruct (ex_estimate lexb [1/4; 0; 0] Hlt eq_refl) as (e1 & E1 & L1 & _).
    unfold inc_learn, learn_parameters_mch, kw_steps in H. cbn [kw_maxLearningSteps kw_maxdlamda kw_maxdlamdaNorm kw_eta dflt length repeat] in H. cbn [learn_loop] in H.
    assert (S0 : vsub [0;0;0] [0;0;0] = Ok [0;0;0]) by (cbn; repeat f_equal; ring).
    rewrite S0 in H. cbn [bind] in H.
    assert (A0 : viadd [0;0;0] (map (fun e => - e * Rmin 1 1 * 1) [0;0;0]) = Ok [0;0;0]) by (cbn; repeat f_equal; ring).
    rewrite A0 in H. cbn [bind] in H. rewrite ex_estimate0 in H by assumption. cbn [bind] in H.
    assert (S1 : vsub [- (1/2);0;0] [0;0;0] = Ok [- (1/2);0;0]) by (cbn; repeat f_equal; ring).
    rewrite S1 in H. cbn [bind] in H.
    assert (V0 : vnorm [0;0;0] = 0). { unfold vnorm, sumf, sumR. cbn [map fold_right]. match goal with |- sqrt ?a = _ => replace a with 0 by ring end. apply sqrt_0. }
    assert (V1 : vnorm [- (1/2);0;0] = 1/2). { unfold vnorm. unfold sumf, sumR. cbn [map fold_right]. match goal with |- sqrt ?a = _ => replace a with ((1/2) * (1/2)) by field end. apply sqrt_square. lra. }
    rewrite V0, V1 in H.
    replace (Rltb 1 0 || existsb (fun d => Rltb 1 (Rabs d)) [0;0;0]) with false in H.
    2: { cbn [existsb]. rewrite Rabs_R0. unfold Rltb. destruct (Rlt_dec 1 0); [lra|reflexivity]. }
    cbn [Nat.ltb Nat.leb Nat.add] in H. 
    assert (A1 : viadd [0;0;0] (map (fun e => - e * Rmin (1/2) 1 * 1) [- (1/2);0;0]) = Ok [1/4;0;0]).
    { rewrite Rmin_left by lra. unfold viadd. cbn [map combine length Nat.eqb fst snd]. f_equal. apply (list_eq_nth 0); [reflexivity|]. intros [|[|[|k]]] Hk; cbn [nth]; try field; cbn in Hk; lia. }
    rewrite A1 in H. cbn [bind] in H. rewrite E1 in H. cbn [bind] in H.
    assert (S2 : exists v, vsub e1 [0;0;0] = Ok v) by (unfold vsub; rewrite L1; cbn [length Nat.eqb]; eexists; reflexivity). destruct S2 as [v S2].
    rewrite S2 in H. cbn [bind] in H.
    match type of H with context [if ?b then Ok ?x else Ok ?x] => replace (if b then Ok x else Ok x) with (@Ok (list R * list R) x) in H by (now destruct b) end.
    cbn [bind fst snd] in H. cbn in H. injection H as H _. lra.
Qed.
Print Assumptions C86_maximum_likelihood_refuted.

(** The public method never returns a solution: solve calls generate_sample, which reads an
    attribute [sampler] that no solver object has. *)
Theorem C86_solve_refuted : forall X c g s i, exists e, inc_solve X c g s i = Err e /\
  (e = AttributeError <-> X <> None /\ c <> None /\ (forall x y, g = Some x -> c = Some y -> length x = length y) /\ s <> SomethingElse /\ i <> SomethingElse).
Proof.
  intros [X|] [c|] g s i; cbn [inc_solve]; try (exists AssertionError; split; [reflexivity|]; split; [discriminate|intros (A & B & _); congruence]).
  destruct g as [g|].
  - destruct (Nat.eqb_spec (length g) (length c)) as [E|E]; cbn [bind].
    + destruct s, i; cbn; eexists; (split; [reflexivity|]); (split; [try discriminate; intros _; repeat split; try discriminate; intros ? ? [= <-] [= <-]; exact E|intros (_ & _ & _ & A & B); congruence]).
    + exists AssertionError. split; [reflexivity|]. split; [discriminate|]. intros (_ & _ & A & _). elim E. now apply A.
  - cbn [bind]. destruct s, i; cbn; eexists; (split; [reflexivity|]); (split; [try discriminate; intros _; repeat split; try discriminate|intros (_ & _ & _ & A & B); congruence]).
Qed.
Print Assumptions C86_solve_refuted.

(** The hypotheses are met: two spins, four complete rows and four rows without the second
    spin.  The prediction without a change of parameters is (-1/2, 0, 0), the likelihood has
    derivative 0 in the first field, and complete data leave parameters that fit alone. *)
Example C86_example :
  inc_estimate (fun s d => mch_approximation s 2 d) (full_fraction ex_X) (inc_counts lexb ex_X) (all_states [-1; 1]%Z 2) (map ex_cond (inc_states lexb ex_X)) [0; 0; 0] = Ok [- (1/2); 0; 0] /\
  full_fraction ex_X = 1/2 /\ inc_states lexb ex_X = [[-1; 0]]%Z /\ inc_counts lexb ex_X = [4%nat] /\
  inc_learn (fun s d => mch_approximation s 2 d) 1 [] (all_states [-1; 1]%Z 2) [] [1; 2; 3] [0;0;0] [0;0;0] (kw_steps 9) = Ok ([1; 2; 3], [0;0;0]).
Proof.
  split; [apply ex_estimate0; exact C14_example|]. split; [unfold full_fraction; cbn; field|]. split; [reflexivity|]. split; [reflexivity|].
  apply C86_learning; try reflexivity; cbn [kw_steps kw_maxdlamda kw_maxdlamdaNorm dflt]; try lra.
  rewrite (proj1 (C86_learning _ 1 [] _ [] [] [] (kw_steps 9)) _ eq_refl eq_refl). cbn [length].
  destruct ex_states_ok as [H1 H2]. destruct (C19_zero_step (all_states [-1; 1]%Z 2) 2 H1 H2) as (p & Ep & Hp).
  destruct (C19_mch_reweights (all_states [-1; 1]%Z 2) 2 [0;0;0] H1 H2 eq_refl) as (p' & Ep' & L & _).
  change (mch_approximation (all_states [-1; 1]%Z 2) 2 [0;0;0] = Ok p) in Ep. rewrite Ep' in Ep. injection Ep as <-.
  change (repeat 0 3) with [0;0;0]. rewrite Ep'. f_equal. apply (list_eq_nth 0); [exact L|]. intros k Hk. rewrite L in Hk. change (k < 3)%nat in Hk. change (nthR p' k = nthR [0;0;0] k). rewrite Hp by exact Hk.
  destruct k as [|[|[|k]]]; [| | |lia]; cbn; field.
Qed.
