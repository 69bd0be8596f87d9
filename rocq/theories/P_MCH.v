(** * Proofs about M_MCH. *)
From Verif Require Import Prelude Spec PreludeFacts M_Corr M_Params M_Models M_MCH P_Params P_Models.
Import ListNotations.
Local Open Scope R_scope.

Lemma combine_nth_sub (x y : list R) (f : R * R -> R) k : length x = length y -> f (0, 0) = 0 ->
  nthR (map f (combine x y)) k = f (nthR x k, nthR y k).
Proof.
  intros Hl H0. unfold nthR. rewrite <- (combine_nth x y k 0 0 Hl). rewrite <- H0 at 1. apply (map_nth f).
Qed.

Lemma vsub_ok x y d : vsub x y = Ok d -> length x = length y /\ length d = length y /\ forall k, nthR d k = nthR x k - nthR y k.
Proof.
  unfold vsub. destruct (Nat.eqb_spec (length x) (length y)) as [E|]; [|discriminate]. intros H. injection H as <-.
  split; [assumption|]. split; [rewrite map_length, combine_length; lia|]. intros k.
  rewrite combine_nth_sub by (cbn; auto; ring). reflexivity.
Qed.

Lemma vsub_total x y : length x = length y -> exists d, vsub x y = Ok d /\ length d = length y.
Proof.
  intros H. unfold vsub. rewrite H, Nat.eqb_refl. eexists. split; [reflexivity|]. rewrite map_length, combine_length. lia.
Qed.

Lemma viadd_ok x y d : viadd x y = Ok d -> length x = length y /\ length d = length x /\ forall k, nthR d k = nthR x k + nthR y k.
Proof.
  unfold viadd. destruct (Nat.eqb_spec (length x) (length y)) as [E|]; [|discriminate]. intros H. injection H as <-.
  split; [assumption|]. split; [rewrite map_length, combine_length; lia|]. intros k.
  rewrite combine_nth_sub by (cbn; auto; ring). reflexivity.
Qed.

Lemma viadd_total x y : length x = length y -> exists d, viadd x y = Ok d /\ length d = length x.
Proof.
  intros H. unfold viadd. rewrite H, Nat.eqb_refl. eexists. split; [reflexivity|]. rewrite map_length, combine_length. lia.
Qed.

(** Distance of two vectors of the same length. *)
Definition dist2 (x y : list R) : R := sqrt (sumf (seq 0 (length y)) (fun k => (nthR x k - nthR y k) * (nthR x k - nthR y k))).

Lemma vnorm_vsub x y d : vsub x y = Ok d -> vnorm d = dist2 x y.
Proof.
  intros H. apply vsub_ok in H. destruct H as (_ & L & H). unfold vnorm, dist2. f_equal.
  rewrite <- (sumf_seq_nth 0 d (fun v => v * v)), L. apply sumf_ext. intros k. fold (nthR d k). now rewrite H.
Qed.

(** The limits on a parameter step. *)
Definition limits_ok (maxd maxn : R) (d : list R) : Prop := vnorm d <= maxn /\ forall v, In v d -> Rabs v <= maxd.

Lemma Rltb_spec x y : Rltb x y = true <-> x < y.
Proof. unfold Rltb. destruct (Rlt_dec x y); split; intros; congruence || lra || auto. Qed.

Lemma limits_dec maxd maxn d :
  Rltb maxn (vnorm d) || existsb (fun d => Rltb maxd (Rabs d)) d = false <-> limits_ok maxd maxn d.
Proof.
  rewrite orb_false_iff. unfold limits_ok. split.
  - intros [H1 H2]. split.
    + apply Rnot_lt_le. intros H. apply Rltb_spec in H. congruence.
    + intros v Hv. apply Rnot_lt_le. intros H. apply Rltb_spec in H.
      assert (existsb (fun d => Rltb maxd (Rabs d)) d = true) by (apply existsb_exists; eauto). congruence.
  - intros [H1 H2]. split.
    + destruct (Rltb maxn (vnorm d)) eqn:E; [apply Rltb_spec in E; lra|reflexivity].
    + destruct (existsb _ d) eqn:E; [|reflexivity]. apply existsb_exists in E. destruct E as (v & Hv & E). apply Rltb_spec in E.
      specialize (H2 v Hv). lra.
Qed.

Section Learn.
Variable approx : list R -> result (list R).
Variables (c : list R) (eta : R).

(** One update: a step against the deviation from the constraints, scaled by eta and by
    the current distance (at most 1), followed by a new prediction. *)
Definition learn_step (d e : list R) (dist : R) (d' e' : list R) : Prop :=
  length d' = length c /\ length e' = length c /\ approx d' = Ok e' /\
  forall k, (k < length c)%nat -> nthR d' k = nthR d k - eta * Rmin dist 1 * (nthR e k - nthR c k).

Fixpoint learn_trace (d e : list R) (dist : R) (tr : list (list R * list R)) : Prop :=
  match tr with
  | [] => True
  | (d', e') :: tr' => learn_step d e dist d' e' /\ learn_trace d' e' (dist2 e' c) tr'
  end.

Variables (maxd maxn : R) (maxs : nat).

Lemma learn_loop_spec fuel : forall d e dist steps r, (steps <= maxs)%nat ->
  learn_loop approx fuel c maxd maxn maxs eta d e dist steps = Ok r ->
  exists tr, tr <> [] /\ (steps + length tr <= S maxs)%nat /\ learn_trace d e dist tr /\
    (forall j, (S j < length tr)%nat -> limits_ok maxd maxn (fst (nth j tr ([], [])))) /\
    last tr ([], []) = r /\ (~ limits_ok maxd maxn (fst r) \/ (steps + length tr = S maxs)%nat).
Proof.
  induction fuel as [|fuel IH]; intros d e dist steps r Hs H; [discriminate|]. cbn [learn_loop] in H.
  destruct (vsub e c) as [diff|] eqn:E1; [|discriminate]. cbn [bind] in H.
  destruct (viadd d _) as [d'|] eqn:E2; [|discriminate]. cbn [bind] in H.
  destruct (approx d') as [e'|] eqn:E3; [|discriminate]. cbn [bind] in H.
  destruct (vsub e' c) as [diff'|] eqn:E4; [|discriminate]. cbn [bind] in H.
  assert (St : learn_step d e dist d' e').
  { destruct (vsub_ok _ _ _ E1) as (A1 & A2 & A3). destruct (viadd_ok _ _ _ E2) as (B1 & B2 & B3). rewrite map_length in B1.
    destruct (vsub_ok _ _ _ E4) as (C1 & C2 & C3). split; [lia|]. split; [lia|]. split; [assumption|]. intros k Hk. rewrite B3.
    replace (nthR (map (fun e => - e * Rmin dist 1 * eta) diff) k) with (- nthR diff k * Rmin dist 1 * eta); [rewrite A3; ring|].
    unfold nthR. rewrite (nth_indep (map _ diff) 0 ((fun e => - e * Rmin dist 1 * eta) 0)) by (rewrite map_length; lia).
    now rewrite (map_nth (fun e => - e * Rmin dist 1 * eta)). }
  rewrite (vnorm_vsub _ _ _ E4) in H.
  destruct (Rltb maxn (vnorm d') || existsb (fun d => Rltb maxd (Rabs d)) d') eqn:E5.
  - injection H as <-. exists [(d', e')]. cbn [learn_trace length last nth]. split; [discriminate|]. split; [lia|]. split; [tauto|].
    split; [intros j Hj; lia|]. split; [reflexivity|]. left. cbn [fst]. rewrite <- limits_dec. congruence.
  - apply limits_dec in E5. destruct (Nat.ltb_spec maxs (steps + 1)) as [L|L].
    + injection H as <-. exists [(d', e')]. cbn [learn_trace length last nth]. split; [discriminate|]. split; [lia|]. split; [tauto|].
      split; [intros j Hj; lia|]. split; [reflexivity|]. right. lia.
    + destruct (IH _ _ _ _ _ L H) as (tr & T1 & T2 & T3 & T4 & T5 & T6). exists ((d', e') :: tr). cbn [learn_trace length].
      split; [discriminate|]. split; [lia|]. split; [tauto|]. split.
      * intros [|j] Hj; [exact E5|]. cbn [nth]. apply T4. lia.
      * split; [destruct tr; [congruence|exact T5]|]. destruct T6; [now left|right; lia].
Qed.

Lemma learn_loop_total fuel : (forall d, length d = length c -> exists e, approx d = Ok e /\ length e = length c) ->
  forall d e dist steps, (maxs < steps + fuel)%nat -> (steps <= maxs)%nat -> length d = length c -> length e = length c ->
  exists d' e', learn_loop approx fuel c maxd maxn maxs eta d e dist steps = Ok (d', e') /\ length d' = length c /\ length e' = length c.
Proof.
  intros Ha. induction fuel as [|fuel IH]; intros d e dist steps Hf Hs Hd He; [lia|]. cbn [learn_loop].
  destruct (vsub_total e c He) as (diff & -> & L1). cbn [bind].
  destruct (viadd_total d (map (fun x => - x * Rmin dist 1 * eta) diff)) as (d' & -> & L2); [rewrite map_length; lia|]. cbn [bind].
  destruct (Ha d' ltac:(lia)) as (e' & -> & L3). cbn [bind]. destruct (vsub_total e' c L3) as (diff' & -> & L4). cbn [bind].
  destruct (_ || _); [exists d', e'; repeat split; lia|]. destruct (Nat.ltb_spec maxs (steps + 1)); [exists d', e'; repeat split; lia|].
  apply IH; lia.
Qed.
End Learn.

Section Solve.
Context {Smp W : Type}.
Variable gen : W -> list R -> nat -> result (Smp * W).
Variable mean_obs : Smp -> result (list R).
Variable approx : Smp -> list R -> result (list R).
Variable embed : list R -> result (list R).
Variables (cv : conv) (kw : learn_kw) (c : list R) (tolNorm tol : R) (maxiter size0 : nat).

(** Settings and sample size of round i. *)
Definition size_at (i : nat) : nat := match cv with ConvTuple f => snd (f i) | _ => size0 end.
Definition kw_at (i : nat) : learn_kw := match cv with ConvNone => kw | ConvDict f => f i | ConvTuple f => fst (f i) end.

Definition mch_round (i : nat) (m : list R) (s : Smp) (w : W) (m' : list R) (s' : Smp) (w' : W) : Prop :=
  exists e est, mean_obs s = Ok e /\ learn_parameters_mch (approx s) embed m e c (kw_at i) = Ok (m', est) /\
    gen w m' (size_at i) = Ok (s', w').

Fixpoint mch_trace (i : nat) (m : list R) (s : Smp) (w : W) (tr : list (list R * Smp * W)) : Prop :=
  match tr with
  | [] => True
  | (m', s', w') :: tr' => mch_round i m s w m' s' w' /\ mch_trace (S i) m' s' w' tr'
  end.

(** Error of a sample: mean observables minus constraints. *)
Definition is_error (s : Smp) (err : list R) : Prop :=
  exists e, mean_obs s = Ok e /\ length e = length c /\ length err = length c /\ forall k, nthR err k = nthR e k - nthR c k.
Definition converged (err : list R) : Prop := vnorm err < tolNorm /\ forall v, In v err -> Rabs v < tol.

Lemma within_spec err : within tolNorm tol err = true <-> converged err.
Proof.
  unfold within, converged. rewrite andb_true_iff, Rltb_spec, forallb_forall. split; intros [H1 H2]; split; auto; intros v Hv; apply Rltb_spec; auto.
Qed.

Lemma conv_at_spec size i : (match cv with ConvTuple _ => True | _ => size = size0 end) -> conv_at cv kw size i = (kw_at i, size_at i).
Proof. unfold conv_at, kw_at, size_at. destruct cv; intros H; subst; try reflexivity. now destruct (f i). Qed.

Lemma is_error_intro s e err : mean_obs s = Ok e -> vsub e c = Ok err -> is_error s err.
Proof. intros H1 H2. apply vsub_ok in H2. destruct H2 as (A & B & C). exists e. repeat split; try assumption; congruence. Qed.

Lemma mch_loop_spec fuel : forall i m s e errors w m' flag errors' size' w', (i <= maxiter)%nat -> mean_obs s = Ok e ->
  mch_loop gen mean_obs approx embed fuel cv kw c tolNorm tol maxiter i (size_at i) (kw_at i) m s e errors w = Ok (m', flag, errors', size', w') ->
  exists tr es, tr <> [] /\ (i + length tr <= S maxiter)%nat /\ mch_trace i m s w tr /\ errors' = errors ++ es /\
    Forall2 (fun t err => is_error (snd (fst t)) err) tr es /\
    (forall j, (S j < length es)%nat -> ~ converged (nth j es [])) /\
    m' = fst (fst (last tr (m, s, w))) /\
    ((flag = 0%nat /\ converged (last es [])) \/ (flag = 1%nat /\ ~ converged (last es []) /\ (i + length tr = S maxiter)%nat)).
Proof.
  induction fuel as [|fuel IH]; intros i m s e errors w m' flag errors' size' w' Hi He H; [discriminate|]. cbn [mch_loop] in H.
  destruct (learn_parameters_mch (approx s) embed m e c (kw_at i)) as [[m1 est]|] eqn:E1; [|discriminate]. cbn [bind fst] in H.
  destruct (gen w m1 (size_at i)) as [[s1 w1]|] eqn:E2; [|discriminate]. cbn [bind fst snd] in H.
  destruct (mean_obs s1) as [e1|] eqn:E3; [|discriminate]. cbn [bind] in H.
  destruct (vsub e1 c) as [err|] eqn:E4; [|discriminate]. cbn [bind] in H.
  assert (Rd : mch_round i m s w m1 s1 w1) by (exists e, est; auto).
  assert (Er : is_error s1 err) by (eapply is_error_intro; eauto).
  destruct (within tolNorm tol err) eqn:E5.
  - apply within_spec in E5. injection H as <- <- <- <- <-. exists [(m1, s1, w1)], [err]. cbn [mch_trace length last nth fst snd].
    split; [discriminate|]. split; [lia|]. split; [auto|]. split; [reflexivity|]. split; [constructor; auto|]. split; [intros j Hj; lia|].
    split; [reflexivity|]. left. auto.
  - assert (NC : ~ converged err) by (rewrite <- within_spec; congruence). destruct (Nat.ltb_spec maxiter (i + 1)) as [L|L].
    + injection H as <- <- <- <- <-. exists [(m1, s1, w1)], [err]. cbn [mch_trace length last nth fst snd].
      split; [discriminate|]. split; [lia|]. split; [auto|]. split; [reflexivity|]. split; [constructor; auto|]. split; [intros j Hj; lia|].
      split; [reflexivity|]. right. repeat split; auto; lia.
    + replace (i + 1)%nat with (S i) in H by lia. rewrite conv_at_spec in H by (unfold size_at; destruct cv; auto).
      cbn [fst snd] in H.
      destruct (IH (S i) m1 s1 e1 _ w1 _ _ _ _ _ ltac:(lia) E3 H) as (tr & es & T1 & T2 & T3 & T4 & T5 & T6 & T7 & T8).
      exists ((m1, s1, w1) :: tr), (err :: es). cbn [mch_trace length]. split; [discriminate|]. split; [lia|]. split; [auto|].
      split; [rewrite T4, <- app_assoc; reflexivity|]. split; [constructor; auto|].
      assert (Hes : es <> []) by (inversion T5; subst; congruence).
      split; [intros [|j] Hj; [exact NC|cbn [nth]; apply T6; lia]|].
      split; [rewrite T7; destruct tr as [|t tr]; [congruence|]; cbn [last]; clear; revert t; induction tr as [|t' tr IH]; intros t; [reflexivity|]; cbn [last]; apply IH|].
      replace (last (err :: es) []) with (last es []) by (destruct es; [congruence|reflexivity]).
      destruct T8 as [T8|(T8 & T9 & T10)]; [now left|right]. repeat split; auto. lia.
Qed.
End Solve.
