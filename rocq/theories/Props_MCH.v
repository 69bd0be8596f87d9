(** * Property theorems C39, C67, C68: Monte Carlo histogram solvers. *)
From Coquelicot Require Import Coquelicot.
From Verif Require Import Prelude Spec PreludeFacts M_Corr M_Params M_Energy M_Models M_MCH P_Params P_Energy P_Energy2 P_Corr P_Corr2
  P_Models P_MPF P_MCH Props_Corr Props_Models.
Import ListNotations.
Local Open Scope R_scope.

(** ** C39 *)
(** learn_parameters_mch: the loop makes between 1 and maxLearningSteps+1 updates, every
    step before the last respects both limits, the last one violates a limit or is the
    one numbered maxLearningSteps+1, and the multipliers change by exactly the last
    step. *)
Theorem C39_learning : forall (approx embed : list R -> result (list R)) (multipliers est c : list R) (kw : learn_kw) (m' est' : list R),
  let maxs := dflt (kw_maxLearningSteps kw) 50%nat in
  let ok := limits_ok (dflt (kw_maxdlamda kw) 1) (dflt (kw_maxdlamdaNorm kw) 1) in
  learn_parameters_mch approx embed multipliers est c kw = Ok (m', est') ->
  exists tr, (1 <= length tr <= maxs + 1)%nat /\
    learn_trace approx c (dflt (kw_eta kw) 1) (repeat 0 (length c)) est 1 tr /\
    (forall j, (S j < length tr)%nat -> ok (fst (nth j tr ([], [])))) /\
    (~ ok (fst (last tr ([], []))) \/ length tr = (maxs + 1)%nat) /\
    est' = snd (last tr ([], [])) /\
    exists d, embed (fst (last tr ([], []))) = Ok d /\ length d = length multipliers /\ length m' = length multipliers /\
      forall k, nthR m' k = nthR multipliers k + nthR d k.
Proof.
  intros approx embed m est c kw m' est' maxs ok H. unfold learn_parameters_mch in H. fold maxs in H.
  destruct (learn_loop _ _ _ _ _ _ _ _ _ _ _) as [[d e]|] eqn:E; [|discriminate]. cbn [bind fst snd] in H.
  destruct (embed d) as [d'|] eqn:E1; [|discriminate]. cbn [bind] in H. destruct (viadd m d') as [m1|] eqn:E2; [|discriminate]. cbn [bind] in H.
  injection H as <- <-. destruct (learn_loop_spec approx c _ _ _ _ _ _ _ _ 0%nat _ ltac:(lia) E) as (tr & T1 & T2 & T3 & T4 & T5 & T6).
  exists tr. split; [destruct tr; [congruence|cbn [length] in *; lia]|]. split; [exact T3|]. split; [exact T4|]. rewrite T5. cbn [fst snd] in *.
  split; [destruct T6; [now left|right; lia]|]. split; [reflexivity|]. exists d'.
  destruct (viadd_ok _ _ _ E2) as (A & B & C). repeat split; auto.
Qed.
Print Assumptions C39_learning.

(** It terminates for every prediction function, whatever it returns. *)
Theorem C39_learning_terminates : forall (approx : list R -> result (list R)) (multipliers est c : list R) (kw : learn_kw),
  (forall d, length d = length c -> exists e, approx d = Ok e /\ length e = length c) ->
  length multipliers = length c -> length est = length c ->
  exists m' est', learn_parameters_mch approx Ok multipliers est c kw = Ok (m', est') /\ length m' = length c /\ length est' = length c.
Proof.
  intros approx m est c kw Ha Hm He. unfold learn_parameters_mch.
  destruct (learn_loop_total approx c (dflt (kw_eta kw) 1) (dflt (kw_maxdlamda kw) 1) (dflt (kw_maxdlamdaNorm kw) 1) (dflt (kw_maxLearningSteps kw) 50%nat)
    (S (dflt (kw_maxLearningSteps kw) 50%nat)) Ha (repeat 0 (length c)) est 1 0%nat) as (d & e & E & L1 & L2); try lia; [apply repeat_length|].
  rewrite E. cbn [bind fst snd]. destruct (viadd_total m d ltac:(lia)) as (m' & E2 & L3). rewrite E2. cbn [bind]. exists m', e. repeat split; lia.
Qed.
Print Assumptions C39_learning_terminates.

(** MCH.solve: between 1 and maxiter+1 rounds of learning and sampling; round i uses the
    settings for i; the error log has one row per sample drawn in the rounds and before
    them; errflag is 0 exactly when the last error is within both tolerances, and no
    earlier round was; otherwise errflag is 1 and exactly maxiter+1 rounds were made. *)
Theorem C39_solve : forall {Smp W : Type} (gen : W -> list R -> nat -> result (Smp * W)) (mean_obs : Smp -> list R)
  (approx : Smp -> list R -> result (list R)) self_c guess constraints tol tolNorm maxiter cv kw size w m errflag errors,
  mch_solve gen mean_obs approx self_c guess constraints tol tolNorm maxiter cv kw size w = Ok (m, errflag, errors) ->
  exists c g s0 w0 tr err0 es,
    (match constraints with Some x => Some x | None => self_c end) = Some c /\
    g = match guess with Some g => g | None => repeat 0 (length c) end /\
    let conv := converged (or_default tolNorm (sqrt (1 / INR size) * INR (length g))) (or_default tol (1 / sqrt (INR size))) in
    gen w g size = Ok (s0, w0) /\
    (1 <= length tr <= maxiter + 1)%nat /\
    mch_trace gen (fun s => Ok (mean_obs s)) approx Ok cv kw c size 0 g s0 w0 tr /\
    errors = err0 :: es /\ is_error (fun s => Ok (mean_obs s)) c s0 err0 /\
    Forall2 (fun t err => is_error (fun s => Ok (mean_obs s)) c (snd (fst t)) err) tr es /\
    (forall j, (S j < length es)%nat -> ~ conv (nth j es [])) /\
    m = fst (fst (last tr (g, s0, w0))) /\
    (errflag = 0%nat <-> conv (last es [])) /\ (errflag <> 0%nat -> errflag = 1%nat /\ length tr = (maxiter + 1)%nat).
Proof.
  intros Smp W gen mean_obs approx self_c guess constraints tol tolNorm maxiter cv kw size w m errflag errors H. unfold mch_solve in H.
  destruct (match constraints with Some x => Some x | None => self_c end) as [c|] eqn:Ec; [|discriminate].
  set (g := match guess with Some g => g | None => repeat 0 (length c) end).
  assert (H' : mch_run gen (fun s => Ok (mean_obs s)) approx Ok true g c tol tolNorm maxiter cv kw size w = Ok (m, errflag, errors)).
  { destruct guess as [g0|]; [|exact H]. destruct (Nat.eqb (length g0) (length c)); [exact H|discriminate]. }
  clear H. unfold mch_run in H'. destruct (kw_eta _); [|discriminate].
  destruct (gen w g size) as [[s0 w0]|] eqn:E1; [|discriminate]. cbn [bind fst snd] in H'.
  destruct (vsub (mean_obs s0) c) as [err0|] eqn:E2; [|discriminate]. cbn [bind] in H'.
  rewrite (conv_at_spec cv kw size) in H' by (destruct cv; auto). cbn [fst snd] in H'.
  destruct (mch_loop _ _ _ _ _ _ _ _ _ _ _ _ _ _ _ _ _ _ _) as [[[[[m1 f1] er1] sz1] w1]|] eqn:E3; [|discriminate]. cbn [bind] in H'.
  destruct (gen w1 m1 sz1) as [sw|] eqn:E4; [|discriminate]. cbn [bind] in H'. injection H' as <- <- <-.
  destruct (mch_loop_spec gen (fun s => Ok (mean_obs s)) approx Ok cv kw c _ _ maxiter size (S maxiter) 0 g s0 (mean_obs s0) [err0] w0 m1 f1 er1 sz1 w1
    ltac:(lia) eq_refl E3) as (tr & es & T1 & T2 & T3 & T4 & T5 & T6 & T7 & T8).
  exists c, g, s0, w0, tr, err0, es. split; [reflexivity|]. split; [reflexivity|]. cbn zeta. split; [exact E1|].
  split; [destruct tr; [congruence|cbn [length] in *; lia]|]. split; [exact T3|]. split; [exact T4|].
  split; [eapply is_error_intro; eauto; reflexivity|]. split; [exact T5|]. split; [exact T6|]. split; [exact T7|].
  destruct T8 as [(-> & T8)|(-> & T8 & T9)].
  - split; [tauto|congruence].
  - split; [split; [discriminate|tauto]|]. intros _. split; [reflexivity|lia].
Qed.
Print Assumptions C39_solve.

Lemma learn_trace_last approx c eta ltr : forall d0 e0 r0, (1 <= length ltr)%nat -> learn_trace approx c eta d0 e0 r0 ltr ->
  length (fst (last ltr ([], []))) = length c.
Proof.
  induction ltr as [|[d1 e1] ltr IH]; intros d0 e0 r0 LL LT; [cbn in LL; lia|]. destruct ltr as [|p ltr]; [exact (proj1 (proj1 LT))|].
  destruct LT as [_ LT]. apply (IH d1 e1 (dist2 e1 c)); [cbn [length]; lia|exact LT].
Qed.

(** SparseMCH: parameters that are not fitted stay zero. *)
Theorem C39_sparse_keeps_zeros : forall {Smp W : Type} (gen : W -> list R -> nat -> result (Smp * W)) (mean_obs : Smp -> result (list R))
  (approx : Smp -> list R -> result (list R)) (N : nat) (ix : list nat) (i1 i2 : nat) pix ins,
  In i1 ix -> In i2 ix -> i1 <> i2 -> (forall p, In p ix -> (p < N)%nat) -> sparse_setup N ix = Ok (pix, ins) ->
  forall x guess c tol tolNorm maxiter cv kw size w post m errflag errors, length x = length pix -> length c = length pix -> fill_in ins 0 x = Ok guess ->
  mch_run gen mean_obs approx (fill_in ins 0) post guess c tol tolNorm maxiter cv kw size w = Ok (m, errflag, errors) ->
  length m = N /\ forall j, (j < N)%nat -> ~ In j ix -> nthR m j = 0.
Proof.
  intros Smp W gen mean_obs approx N ix i1 i2 pix ins H1 H2 Hne Hb Hs x guess c tol tolNorm maxiter cv kw size w post m errflag errors Hx Hc Hg H.
  destruct (C35_setup R 0 0 N ix i1 i2 H1 H2 Hne Hb) as (pix' & ins' & Hs' & _ & _ & Hfill). rewrite Hs in Hs'. injection Hs' as <- <-.
  set (Z := fun y : list R => length y = N /\ forall j, (j < N)%nat -> ~ In j ix -> nthR y j = 0).
  assert (HZ : forall y z, length y = length pix -> fill_in ins 0 y = Ok z -> Z z).
  { intros y z Hy Ez. destruct (Hfill y Hy) as (z' & Ez' & Lz & _ & O). rewrite Ez in Ez'. injection Ez' as <-. split; [exact Lz|exact O]. }
  assert (Gz : Z guess) by (now apply (HZ x)).
  change (Z m). unfold mch_run in H. destruct (kw_eta _); [|discriminate].
  destruct (gen w guess size) as [[s0 w0]|]; [|discriminate]. cbn [bind fst snd] in H.
  destruct (mean_obs s0) as [e0|] eqn:Em; [|discriminate]. cbn [bind] in H.
  destruct (vsub e0 c) as [err0|]; [|discriminate]. cbn [bind] in H.
  rewrite (conv_at_spec cv kw size) in H by (destruct cv; auto). cbn [fst snd] in H.
  destruct (mch_loop _ _ _ _ _ _ _ _ _ _ _ _ _ _ _ _ _ _ _) as [[[[[m1 f1] er1] sz1] w1]|] eqn:E3; [|discriminate]. cbn [bind] in H.
  assert (Em1 : m1 = m). { destruct post; [destruct (gen w1 m1 sz1); [|discriminate]; cbn [bind] in H|]; congruence. }
  subst m1. destruct (mch_loop_spec gen mean_obs approx (fill_in ins 0) cv kw c _ _ maxiter size (S maxiter) 0 guess s0 e0 [err0] w0 _ _ _ _ _
    ltac:(lia) Em E3) as (tr & es & _ & _ & T3 & _ & _ & _ & T7 & _).
  rewrite T7. clear - T3 Gz HZ Hc. revert T3 Gz. generalize 0%nat as i. revert guess s0 w0. induction tr as [|[[m1 s1] w1] tr IH]; intros guess s0 w0 i T Gz; [exact Gz|].
  cbn [mch_trace] in T. destruct T as [(e & est & _ & L & _) T].
  assert (G1 : Z m1).
  { destruct (C39_learning _ _ _ _ _ _ _ _ L) as (ltr & LL & LT & _ & _ & _ & d & Ed & Ld & Lm & Hd).
    assert (Zd : Z d).
    { apply (HZ (fst (last ltr ([], [])))); [|exact Ed]. rewrite <- Hc. exact (learn_trace_last _ _ _ _ _ _ _ (proj1 LL) LT). }
    split; [rewrite Lm; apply Gz|]. intros j Hj Hn. rewrite Hd. rewrite (proj2 Gz), (proj2 Zd) by assumption. ring. }
  specialize (IH m1 s1 w1 (S i) T G1). destruct tr as [|t tr]; [exact IH|]. cbn [last] in *. 
  replace (match tr with [] => t | _ :: _ => last tr (guess, s0, w0) end) with (match tr with [] => t | _ :: _ => last tr (m1, s1, w1) end); [exact IH|].
  destruct tr as [|t2 tr]; [reflexivity|]. clear. revert t2. induction tr as [|t3 tr IH]; intros t2; [reflexivity|]. cbn [last]. apply IH.
Qed.
Print Assumptions C39_sparse_keeps_zeros.

(** SparseMCH.solve returns one multiplier per fitted parameter, in increasing order of
    the parameter: the fitted entries of the vector the sampler was run with, whose other
    entries are zero. *)
Theorem C39_sparse_solve : forall {Smp W : Type} (gen : W -> list R -> nat -> result (Smp * W)) (mean_obs : Smp -> list R)
  (approx : Smp -> list R -> result (list R)) (N : nat) (ix : list nat) (i1 i2 : nat) pix ins,
  In i1 ix -> In i2 ix -> i1 <> i2 -> (forall p, In p ix -> (p < N)%nat) -> sparse_setup N ix = Ok (pix, ins) ->
  forall sv guess constraints tol tolNorm maxiter cv kw size w m errflag errors,
  sparse_mch_solve gen mean_obs approx pix ins sv guess constraints tol tolNorm maxiter cv kw size w = Ok (m, errflag, errors) ->
  length m = length pix /\
  exists start full c,
    mch_run gen (fun s => take pix (mean_obs s)) (fun s d => bind (fill_in ins 0 d) (fun d => bind (approx s d) (take pix)))
      (fill_in ins 0) false start c tol tolNorm maxiter cv kw size w = Ok (full, errflag, errors) /\
    length start = N /\ length full = N /\
    (forall k, (k < length pix)%nat -> nthR start (nth k pix 0%nat) = match guess with Some g => nthR g k | None => 0 end) /\
    (forall k, (k < length pix)%nat -> nthR m k = nthR full (nth k pix 0%nat)) /\
    (forall j, (j < N)%nat -> ~ In j ix -> nthR start j = 0 /\ nthR full j = 0).
Proof.
  intros Smp W gen mean_obs approx N ix i1 i2 pix ins H1 H2 Hne Hb Hs sv guess constraints tol tolNorm maxiter cv kw size w m errflag errors H.
  destruct (C35_setup R 0 0 N ix i1 i2 H1 H2 Hne Hb) as (pix' & ins' & Hs' & _ & Hin & Hfill). rewrite Hs in Hs'. injection Hs' as <- <-.
  unfold sparse_mch_solve in H. destruct (sparse_start sv pix guess constraints) as [[g c]|] eqn:Est; [|discriminate]. cbn [bind] in H.
  destruct (Nat.eqb_spec (length g) (length c)) as [Lgc|]; [|discriminate]. cbn [negb] in H.
  assert (Lg : length g = length pix /\ forall k, nthR g k = match guess with Some g => nthR g k | None => 0 end).
  { unfold sparse_start in Est. destruct guess as [g0|].
    - destruct (Nat.eqb_spec (length g0) (length pix)); [|discriminate]. cbn [bind] in Est.
      destruct constraints as [c0|]; [|destruct (sv_constraints sv) as [c0|]; [|discriminate]; destruct (Nat.eqb _ _); [|discriminate]];
        cbn [bind] in Est; injection Est as <- <-; auto.
    - cbn [bind] in Est.
      destruct constraints as [c0|]; [|destruct (sv_constraints sv) as [c0|]; [|discriminate]; destruct (Nat.eqb _ _); [|discriminate]];
        cbn [bind] in Est; injection Est as <- <-; (split; [apply repeat_length|intros k; unfold nthR; apply nth_repeat]). }
  destruct Lg as [Lg Vg]. destruct (Hfill g Lg) as (start & Es & Ls & Vs & Os). rewrite Es in H. cbn [bind] in H.
  destruct (mch_run _ _ _ _ _ _ _ _ _ _ _ _ _ _) as [[[full f1] er1]|] eqn:Er; [|discriminate]. cbn [bind] in H.
  destruct (take pix full) as [m'|] eqn:Et; [|discriminate]. cbn [bind] in H. injection H as -> -> ->.
  pose proof (C39_sparse_keeps_zeros gen (fun s => take pix (mean_obs s)) _ N ix i1 i2 pix ins H1 H2 Hne Hb Hs g start c tol tolNorm maxiter cv kw size w false
    full errflag errors Lg ltac:(congruence) Es Er) as [Lf Of].
  unfold take in Et. assert (Em : m = map (fun k => nthR full k) pix).
  { assert (E : mapM (get full) pix = Ok (map (fun k => nthR full k) pix)); [|congruence].
    clear - Hin Hb Lf. assert (Hp : forall p, In p pix -> (p < length full)%nat) by (intros p Hp; rewrite Lf; apply Hb, Hin, Hp). clear - Hp.
    induction pix as [|p pix IH]; [reflexivity|]. cbn [mapM map]. unfold get at 1.
    rewrite (nth_error_nth' full 0) by (apply Hp; now left). cbn [bind]. rewrite IH; [reflexivity|]. intros q Hq. apply Hp. now right. }
  split; [rewrite Em; apply map_length|]. exists start, full, c. split; [exact Er|]. split; [exact Ls|]. split; [exact Lf|]. split; [|split].
  - intros k Hk. rewrite <- Vg. apply Vs, Hk.
  - intros k Hk. rewrite Em. unfold nthR at 1. rewrite (nth_indep _ 0 (nthR full 0%nat)) by (rewrite map_length; exact Hk). now rewrite map_nth.
  - intros j Hj Hn. split; [now apply Os|now apply Of].
Qed.
Print Assumptions C39_sparse_solve.

(** solve returns for every sampler and every prediction function that return vectors of
    the right size. *)
Theorem C39_solve_terminates : forall {Smp W : Type} (gen : W -> list R -> nat -> result (Smp * W)) (mean_obs : Smp -> list R)
  (approx : Smp -> list R -> result (list R)) c guess tol tolNorm maxiter cv kw size w,
  (forall w m size, length m = length c -> exists sw, gen w m size = Ok sw) -> (forall s, length (mean_obs s) = length c) ->
  (forall s d, length d = length c -> exists e, approx s d = Ok e /\ length e = length c) ->
  (forall g, guess = Some g -> length g = length c) -> kw_eta (fst (conv_at cv kw size 0)) <> None ->
  exists r, mch_solve gen mean_obs approx (Some c) guess None tol tolNorm maxiter cv kw size w = Ok r.
Proof.
  intros Smp W gen mean_obs approx c guess tol tolNorm maxiter cv kw size w Hg Hm Ha Hl He. unfold mch_solve.
  set (g := match guess with Some g => g | None => repeat 0 (length c) end).
  assert (Lg : length g = length c) by (unfold g; destruct guess; [now apply Hl|apply repeat_length]).
  assert (Eg : (match guess with Some g => if Nat.eqb (length g) (length c) then Ok g else Err AssertionError | None => Ok (repeat 0 (length c)) end) = Ok g).
  { unfold g. destruct guess as [g0|]; [|reflexivity]. rewrite (Hl g0 eq_refl), Nat.eqb_refl. reflexivity. }
  rewrite Eg. cbn [bind]. unfold mch_run. destruct (kw_eta _); [|congruence].
  destruct (Hg w g size Lg) as ([s0 w0] & E0). rewrite E0. cbn [bind fst snd].
  destruct (vsub_total (mean_obs s0) c (Hm s0)) as (err & Ee & _). rewrite Ee. cbn [bind].
  set (tn := or_default tolNorm _). set (t := or_default tol _).
  assert (L : forall fuel i sz st m s es w, (maxiter < i + fuel)%nat -> (i <= maxiter)%nat -> length m = length c ->
    exists m' f es' sz' w', mch_loop gen (fun s => Ok (mean_obs s)) approx Ok fuel cv kw c tn t maxiter i sz st m s (mean_obs s) es w = Ok (m', f, es', sz', w') /\ length m' = length c).
  { induction fuel as [|fuel IH]; intros i sz st m s es w1 Hf Hi Lm; [lia|]. cbn [mch_loop].
    destruct (C39_learning_terminates (approx s) m (mean_obs s) c st (Ha s) Lm (Hm s)) as (m' & e' & E & Lm' & _). rewrite E. cbn [bind fst].
    destruct (Hg w1 m' sz Lm') as ([s1 w2] & E1). rewrite E1. cbn [bind fst snd].
    destruct (vsub_total (mean_obs s1) c (Hm s1)) as (err1 & Ee1 & _). rewrite Ee1. cbn [bind].
    destruct (within tn t err1); [do 5 eexists; split; [reflexivity|exact Lm']|].
    destruct (Nat.ltb_spec maxiter (i + 1)); [do 5 eexists; split; [reflexivity|exact Lm']|]. apply IH; lia. }
  destruct (L (S maxiter) 0%nat (snd (conv_at cv kw size 0)) (fst (conv_at cv kw size 0)) g s0 [err] w0 ltac:(lia) ltac:(lia) Lg) as (m' & f & es' & sz' & w' & E & Lm').
  rewrite E. cbn [bind]. destruct (Hg w' m' sz' Lm') as (sw & Es). rewrite Es. cbn [bind]. eexists. reflexivity.
Qed.
Print Assumptions C39_solve_terminates.

(** A one-parameter run in which learning stops by the limit on dlamda. *)
Example C39_example : let kw := {| kw_maxdlamda := Some 1; kw_maxdlamdaNorm := None; kw_maxLearningSteps := Some 3%nat; kw_eta := Some 1 |} in
  learn_parameters_mch (fun d => Ok [0]) Ok [5] [-2] [0] kw = Ok ([7], [0]).
Proof.
  cbn zeta. unfold learn_parameters_mch. cbn [dflt kw_maxdlamda kw_maxdlamdaNorm kw_maxLearningSteps kw_eta length repeat learn_loop].
  unfold vsub, viadd. cbn [length Nat.eqb combine map bind fst snd]. rewrite Rmin_left by lra.
  replace (0 + - (-2 - 0) * 1 * 1) with 2 by ring.
  assert (E : Rltb 1 (vnorm [2]) = true).
  { apply Rltb_spec. unfold vnorm. rewrite sumf_cons, sumf_nil. replace (2 * 2 + 0) with (2 * 2) by ring. rewrite sqrt_square; lra. }
  rewrite E. cbn [orb bind fst snd length Nat.eqb combine map]. do 3 f_equal. ring.
Qed.

(** ** C67 *)
(** Specification: negative log-likelihood (up to a constant) of the constraints c in the
    family of distributions obtained by reweighting the sample X with parameters dl. *)
Definition reweighted_nll (X : list (list Z)) (N : nat) (c dl : list R) : R :=
  ln (sumf X (fun s => exp (dot (ising_obs (map IZR s)) dl)) / INR (length X)) - dot c dl.

Definition spin_rows (X : list (list Z)) (N : nat) : Prop :=
  forall r, In r X -> length r = N /\ forall x, In x r -> x = (-1)%Z \/ x = 0%Z \/ x = 1%Z.

Lemma obs_len (N : nat) (X : list (list Z)) s : spin_rows X N -> In s X -> length (ising_obs (map IZR s)) = (N + N * (N - 1) / 2)%nat.
Proof. intros H Hs. rewrite ising_obs_length, map_length, (proj1 (H s Hs)). reflexivity. Qed.

Lemma mch_est X N dl : X <> [] -> spin_rows X N -> length dl = (N + N * (N - 1) / 2)%nat ->
  exists est, mch_approximation X N dl = Ok est /\ length est = length dl /\
    forall k, (k < length dl)%nat -> nthR est k =
      sumf X (fun s => exp (dot (ising_obs (map IZR s)) dl) * nthR (ising_obs (map IZR s)) k) / sumf X (fun s => exp (dot (ising_obs (map IZR s)) dl)).
Proof.
  intros HX HS Hl. destruct (C19_mch_reweights X N dl HX HS Hl) as (p & E & L & H). exists p. split; [exact E|]. split; [congruence|].
  intros k Hk. destruct (H k ltac:(lia)) as [-> _]. unfold reweighted.
  assert (EE : forall s, In s X -> exp (- ising_energy N dl (map IZR s)) = exp (dot (ising_obs (map IZR s)) dl)).
  { intros s Hs. f_equal. rewrite (ising_energy_dot N) by (rewrite ?map_length; auto; now apply HS). ring. }
  f_equal; apply sumf_ext_in; intros s Hs; now rewrite EE.
Qed.

(** The learning step of learn_parameters_mch moves against est - c; this is the gradient
    of the negative log-likelihood. *)
Theorem C67_update_is_gradient : forall (X : list (list Z)) (N : nat) (c dl : list R),
  X <> [] -> spin_rows X N -> length dl = (N + N * (N - 1) / 2)%nat -> length c = length dl ->
  exists est, mch_approximation X N dl = Ok est /\
    forall k, (k < length dl)%nat -> is_derive (fun t => reweighted_nll X N c (upd dl k t)) (nthR dl k) (nthR est k - nthR c k).
Proof.
  intros X N c dl HX HS Hl Hc. destruct (mch_est X N dl HX HS Hl) as (est & E & L & H). exists est. split; [exact E|]. intros k Hk.
  rewrite (H k Hk). unfold reweighted_nll. set (o := fun s => ising_obs (map IZR s)) in *.
  set (x := nthR dl k).
  apply (is_derive_ext_loc (fun t => ln (sumf X (fun s => exp (dot (o s) dl + nthR (o s) k * (t - x))) / INR (length X)) - (dot c dl + nthR c k * (t - x)))).
  { apply filter_forall. intros t. f_equal; [|rewrite dot_upd by (rewrite ?Hc; auto); reflexivity]. do 2 f_equal. apply sumf_ext_in. intros s Hs. f_equal.
    unfold o. rewrite dot_upd by (rewrite ?(obs_len N X); auto; congruence). reflexivity. }
  assert (D : is_derive (fun t => sumf X (fun s => exp (dot (o s) dl + nthR (o s) k * (t - x)))) x (sumf X (fun s => exp (dot (o s) dl) * nthR (o s) k))).
  { apply (is_derive_sumf X (fun t s => exp (dot (o s) dl + nthR (o s) k * (t - x)))). intros s _.
    auto_derive; [exact I|]. replace (dot (o s) dl + nthR (o s) k * (x + - x)) with (dot (o s) dl) by ring. ring. }
  set (F := fun t => sumf X (fun s => exp (dot (o s) dl + nthR (o s) k * (t - x)))) in *.
  assert (E0 : F x = sumf X (fun s => exp (dot (o s) dl))).
  { unfold F. apply sumf_ext. intros s. f_equal. ring. }
  change (is_derive (fun t => ln (F t / INR (length X)) - (dot c dl + nthR c k * (t - x))) x
    (sumf X (fun s => exp (dot (o s) dl) * nthR (o s) k) / sumf X (fun s => exp (dot (o s) dl)) - nthR c k)).
  rewrite <- E0. assert (Fp : 0 < F x) by (rewrite E0; apply sumf_pos; [assumption|intros; apply exp_pos]).
  assert (Np : 0 < INR (length X)) by (apply lt_0_INR; destruct X; [congruence|cbn; lia]).
  set (dF := sumf X (fun s => exp (dot (o s) dl) * nthR (o s) k)) in *. change (is_derive F x dF) in D. clearbody F dF.
  auto_derive.
  - split; [exists dF; exact D|]. split; [apply Rmult_lt_0_compat; [assumption|now apply Rinv_0_lt_compat]|exact I].
  - change (Derive (fun t => F t) x) with (Derive F x). rewrite (is_derive_unique F _ _ D). field. split; lra.
Qed.
Print Assumptions C67_update_is_gradient.

(** This function is convex (it lies above its tangents): predictions that match the
    constraints exactly identify a global optimum of the reweighted likelihood. *)
Theorem C67_convex : forall (X : list (list Z)) (N : nat) (c dl dl' : list R),
  X <> [] -> spin_rows X N -> length dl = (N + N * (N - 1) / 2)%nat -> length c = length dl -> length dl' = length dl ->
  exists est, mch_approximation X N dl = Ok est /\
    reweighted_nll X N c dl + sumf (seq 0 (length dl)) (fun k => (nthR est k - nthR c k) * (nthR dl' k - nthR dl k)) <= reweighted_nll X N c dl'.
Proof.
  intros X N c x y HX HS Hl Hc Hy. destruct (mch_est X N x HX HS Hl) as (est & E & L & H). exists est. split; [exact E|].
  unfold reweighted_nll. set (o := fun s => ising_obs (map IZR s)) in *.
  assert (Ho : forall s, In s X -> length (o s) = length x) by (intros s Hs; unfold o; rewrite (obs_len N X) by auto; congruence).
  assert (Zp : 0 < sumf X (fun s => exp (dot (o s) x))) by (apply sumf_pos; [assumption|intros; apply exp_pos]).
  assert (Zy : 0 < sumf X (fun s => exp (dot (o s) y))) by (apply sumf_pos; [assumption|intros; apply exp_pos]).
  set (Z := sumf X (fun s => exp (dot (o s) x))) in *.
  assert (Np : 0 < INR (length X)) by (apply lt_0_INR; destruct X; [congruence|cbn; lia]).
  set (A := sumf (seq 0 (length x)) (fun k => nthR est k * (nthR y k - nthR x k))).
  assert (DD : forall v, length v = length x -> dot v y - dot v x = sumf (seq 0 (length x)) (fun k => nthR v k * (nthR y k - nthR x k))).
  { intros v Hv. unfold dot. rewrite !(sumf_combine_seq v _ (fun a b => a * b) (length x)) by auto. rewrite <- sumf_minus. apply sumf_ext. intros; ring. }
  assert (EA : A = sumf X (fun s => exp (dot (o s) x) / Z * (dot (o s) y - dot (o s) x))).
  { unfold A. transitivity (sumf (seq 0 (length x)) (fun k => sumf X (fun s => exp (dot (o s) x) / Z * (nthR (o s) k * (nthR y k - nthR x k))))).
    - apply sumf_ext_in. intros k Hk. apply in_seq in Hk. rewrite H by lia. unfold Rdiv at 1. rewrite Rmult_assoc, <- sumf_scal_r. apply sumf_ext. intros s.
      change (exp (dot (o s) x) * nthR (o s) k * (/ Z * (nthR y k - nthR x k)) = exp (dot (o s) x) * / Z * (nthR (o s) k * (nthR y k - nthR x k))). ring.
    - rewrite sumf_swap. apply sumf_ext_in. intros s Hs. rewrite DD by auto. now rewrite sumf_scal_l. }
  assert (J : Z * exp A <= sumf X (fun s => exp (dot (o s) y))).
  { replace (Z * exp A) with (sumf X (fun s => exp (dot (o s) x) * (exp A * (1 + (dot (o s) y - dot (o s) x - A))))).
    - apply sumf_le. intros s Hs. replace (dot (o s) y) with (dot (o s) x + (A + (dot (o s) y - dot (o s) x - A))) at 2 by ring.
      rewrite !exp_plus. apply Rmult_le_compat_l; [left; apply exp_pos|]. apply Rmult_le_compat_l; [left; apply exp_pos|].
      pose proof (exp_ineq1_le (dot (o s) y - dot (o s) x - A)). lra.
    - transitivity (exp A * (sumf X (fun s => exp (dot (o s) x)) * (1 - A) + sumf X (fun s => exp (dot (o s) x) * (dot (o s) y - dot (o s) x)))).
      + rewrite <- sumf_scal_r, <- sumf_plus, <- sumf_scal_l. apply sumf_ext. intros; ring.
      + fold Z. replace (sumf X (fun s => exp (dot (o s) x) * (dot (o s) y - dot (o s) x))) with (Z * A); [ring|].
        rewrite EA, <- sumf_scal_l. apply sumf_ext. intros s. field. lra. }
  assert (LN : ln (Z / INR (length X)) + A <= ln (sumf X (fun s => exp (dot (o s) y)) / INR (length X))).
  { assert (Qp : 0 < Z / INR (length X)) by (apply Rmult_lt_0_compat; [assumption|now apply Rinv_0_lt_compat]).
    rewrite <- (ln_exp A) at 1. rewrite <- ln_mult by (try assumption; apply exp_pos).
    assert (Q : Z / INR (length X) * exp A <= sumf X (fun s => exp (dot (o s) y)) / INR (length X)).
    { unfold Rdiv. rewrite Rmult_assoc, (Rmult_comm (/ _)), <- Rmult_assoc. apply Rmult_le_compat_r; [left; now apply Rinv_0_lt_compat|exact J]. }
    destruct Q as [Q|Q]; [left; apply ln_increasing; [|exact Q]|right; now rewrite Q].
    apply Rmult_lt_0_compat; [|apply exp_pos]. apply Rmult_lt_0_compat; [assumption|now apply Rinv_0_lt_compat]. }
  replace (sumf (seq 0 (length x)) (fun k => (nthR est k - nthR c k) * (nthR y k - nthR x k))) with (A - (dot c y - dot c x)).
  { change (ln (Z / INR (length X)) - dot c x + (A - (dot c y - dot c x)) <= ln (sumf X (fun s => exp (dot (o s) y)) / INR (length X)) - dot c y). lra. }
  rewrite DD by auto. unfold A. rewrite <- sumf_minus. apply sumf_ext. intros; ring.
Qed.
Print Assumptions C67_convex.

(** The learning loop stays where it is exactly when the prediction matches the
    constraints, and then the parameters are optimal. *)
Theorem C67_fixed_points : forall (X : list (list Z)) (N : nat) (c d d' e e' : list R) (eta dist : R),
  X <> [] -> spin_rows X N -> length d = (N + N * (N - 1) / 2)%nat -> length c = length d -> 0 < eta -> 0 < dist ->
  mch_approximation X N d = Ok e -> length e = length c ->
  learn_step (mch_approximation X N) c eta d e dist d' e' ->
  (d' = d <-> e = c) /\
  (d' = d -> forall d2, length d2 = length d -> reweighted_nll X N c d <= reweighted_nll X N c d2).
Proof.
  intros X N c d d' e e' eta dist HX HS Hl Hc He Hd Ee Le (L1 & L2 & _ & St).
  assert (Hm : 0 < eta * Rmin dist 1) by (apply Rmult_lt_0_compat; [assumption|]; apply Rmin_glb_lt; lra).
  assert (I : d' = d <-> e = c).
  { split.
    - intros ->. apply (nth_ext _ _ 0 0); [assumption|]. intros k Hk. specialize (St k ltac:(lia)). fold (nthR e k) (nthR c k).
      apply Rminus_diag_uniq. apply (Rmult_eq_reg_l (eta * Rmin dist 1)); [lra|lra].
    - intros ->. apply (nth_ext _ _ 0 0); [congruence|]. intros k Hk. specialize (St k ltac:(lia)). fold (nthR d' k) (nthR d k). rewrite St. ring. }
  split; [exact I|]. intros Hdd d2 Hd2. destruct (C67_convex X N c d d2 HX HS Hl Hc Hd2) as (est & E & Hle). rewrite Ee in E. injection E as <-.
  apply I in Hdd. rewrite (sumf_zero (seq 0 (length d))) in Hle; [lra|]. intros k _. rewrite Hdd. ring.
Qed.
Print Assumptions C67_fixed_points.

(** estimate_jac: row i is the central difference of the prediction around zero. *)
Theorem C67_estimate_jac : forall (approx : list R -> result (list R)) (F : list R -> list R) (p q : nat) (eps : R),
  (forall d, length d = p -> approx d = Ok (F d) /\ length (F d) = q) ->
  exists jac, estimate_jac approx p eps = Ok jac /\ length jac = p /\
    forall i k, (i < p)%nat -> nthR (nth i jac []) k =
      (nthR (F (upd (repeat 0 p) i eps)) k - nthR (F (upd (repeat 0 p) i (- eps))) k) / (2 * eps).
Proof.
  intros approx F p q eps HF. unfold estimate_jac.
  set (row := fun i => map (fun x => x / (2 * eps)) (map (fun t => fst t - snd t) (combine (F (upd (repeat 0 p) i eps)) (F (upd (repeat 0 p) i (- eps)))))).
  set (st := fun i => (repeat 0 p, map row (seq 0 i))).
  change (repeat 0 p, @nil (list R)) with (st 0%nat). unfold range. rewrite (foldM_seq _ st).
  - cbn [bind st snd plus]. eexists. split; [reflexivity|]. split; [now rewrite map_length, seq_length|]. intros i k Hi.
    rewrite (nth_map_seq row) by assumption. unfold row.
    set (g := fun x => x / (2 * eps)).
    assert (G : forall l, nthR (map g l) k = g (nthR l k)).
    { intros l. unfold nthR. rewrite <- (map_nth g l 0 k). f_equal. unfold g, Rdiv. ring. }
    rewrite G. unfold g. f_equal. rewrite combine_nth_sub; [reflexivity| |cbn; ring].
    rewrite !(proj2 (HF _ ltac:(rewrite upd_length, repeat_length; reflexivity))). reflexivity.
  - intros i Hi. cbn [st].
    assert (N0 : nthR (repeat 0 p) i = 0) by (unfold nthR; apply nth_repeat).
    assert (L : forall v, length (upd (repeat 0 p) i v) = p) by (intros; rewrite upd_length; apply repeat_length).
    rewrite N0, Rplus_0_l. rewrite (proj1 (HF _ (L eps))). cbn [bind].
    rewrite nthR_upd_same by (rewrite repeat_length; lia). rewrite upd_upd. replace (eps - 2 * eps) with (- eps) by ring.
    rewrite (proj1 (HF _ (L (- eps)))). cbn [bind]. unfold vsub. rewrite !(proj2 (HF _ (L _))), Nat.eqb_refl. cbn [bind].
    rewrite nthR_upd_same by (rewrite repeat_length; lia). rewrite upd_upd. replace (- eps + eps) with 0 by ring.
    unfold st. rewrite seq_S, map_app. cbn [map plus]. replace (upd (repeat 0 p) i 0) with (repeat 0 p); [reflexivity|].
    transitivity (upd (repeat 0 p) i (nth i (repeat 0 p) 0)); [symmetry; apply upd_same|]. now rewrite nth_repeat.
Qed.
Print Assumptions C67_estimate_jac.

Example C67_example : [[1; -1]; [1; 1]; [-1; -1]]%Z <> [] /\ spin_rows [[1; -1]; [1; 1]; [-1; -1]]%Z 2 /\ length [0; 0; 0] = (2 + 2 * (2 - 1) / 2)%nat.
Proof.
  split; [discriminate|]. split; [|reflexivity]. intros r Hr. cbn in Hr.
  repeat (destruct Hr as [<-|Hr]; [split; [reflexivity|]; intros x Hx; cbn in Hx; intuition subst; auto|]). destruct Hr.
Qed.

(** ** C68 *)
(** SparseMCH.solve() and SparseEnumerate.solve() without explicit constraints: the
    constraints of the data are for all parameters, so a proper subset always fails. *)
Theorem C68_sparse_default_constraints_refuted : forall {Smp W : Type} (gen : W -> list R -> nat -> result (Smp * W)) mean_obs approx
  obs nobs (ncols : nat) rows sv pix ins guess tol tolNorm maxiter cv kw size w,
  basic_setup obs nobs (SData ncols rows) = Ok sv -> (length pix < nobs)%nat -> (forall g, guess = Some g -> length g = length pix) ->
  sparse_mch_solve gen mean_obs approx pix ins sv guess None tol tolNorm maxiter cv kw size w = Err AssertionError.
Proof.
  intros Smp W gen mean_obs approx obs nobs ncols rows sv pix ins guess tol tolNorm maxiter cv kw size w Hs Hp Hg.
  injection Hs as <-. unfold sparse_mch_solve, sparse_start. cbn [sv_constraints].
  destruct guess as [g|]; [rewrite (Hg g eq_refl), Nat.eqb_refl|]; cbn [bind]; unfold range; rewrite map_length, seq_length;
    (destruct (Nat.eqb_spec nobs (length pix)); [lia|reflexivity]).
Qed.
Print Assumptions C68_sparse_default_constraints_refuted.

(** A tolerance of exactly zero is ignored: it selects the default tolerance. *)
Theorem C68_zero_tolerance_refuted : forall {Smp W : Type} (gen : W -> list R -> nat -> result (Smp * W)) mean_obs approx
  self_c guess constraints maxiter cv kw size w,
  mch_solve gen mean_obs approx self_c guess constraints (Some 0) (Some 0) maxiter cv kw size w =
  mch_solve gen mean_obs approx self_c guess constraints None None maxiter cv kw size w.
Proof.
  intros. unfold mch_solve. destruct (match constraints with Some x => Some x | None => self_c end) as [c|]; [|reflexivity].
  destruct (match guess with Some g => _ | None => _ end) as [g|]; [|reflexivity]. cbn [bind]. unfold mch_run, or_default.
  destruct (Req_EM_T 0 0); [reflexivity|lra].
Qed.
Print Assumptions C68_zero_tolerance_refuted.

(** learn_params_kwargs without eta is rejected although eta has a default; a missing
    maxdlamda is not noticed by the same assertion. *)
Theorem C68_missing_eta_refuted : forall {Smp W : Type} (gen : W -> list R -> nat -> result (Smp * W)) mean_obs approx
  c tol tolNorm maxiter kw size w, kw_eta kw = None ->
  mch_solve gen mean_obs approx (Some c) None None tol tolNorm maxiter ConvNone kw size w = Err AssertionError.
Proof. intros. unfold mch_solve, mch_run. cbn [conv_at fst bind]. rewrite H. reflexivity. Qed.
Print Assumptions C68_missing_eta_refuted.

Example C68_example : exists sv, basic_setup (fun r => map IZR r) 3 (SData 2 [[1; 1]; [1; -1]]%Z) = Ok sv /\ (length [0%nat; 2%nat] < 3)%nat.
Proof. eexists. split; [reflexivity|cbn; lia]. Qed.
