(** * Property theorems C123: a replica exchange sampler over a history of calls. *)
From Coq Require Import Permutation.
From Verif Require Import Prelude Spec PreludeFacts M_Index M_Energy M_Params M_Sampler M_Temper M_TemperObj P_Energy P_Sampler P_Metro P_Params P_Temper Props_Energy Props_Sampler Props_Temper.
Import ListNotations.
Local Open Scope R_scope.

(** ** Specification, over the list of calls only *)
(** The parameters that the replicas run with after the calls: those of the last
    update_replica_parameters, which takes the value of theta at that time. *)
Fixpoint running_theta (cur running : list R) (cs : list tcall) : list R :=
  match cs with
  | [] => running
  | TSetTheta x :: cs' => running_theta x running cs'
  | TUpdateReplicas :: cs' => running_theta cur cur cs'
  | _ :: cs' => running_theta cur running cs'
  end.

(** The number of sweeps in the stored sample: that of the last generate_sample. *)
Fixpoint stored_sweeps (k : option nat) (cs : list tcall) : option nat :=
  match cs with
  | [] => k
  | TGenerate m :: cs' => stored_sweeps (Some m) cs'
  | _ :: cs' => stored_sweeps k cs'
  end.

(** All parameter vectors that are assigned have the length of the original one. *)
Definition sizes_ok (L : nat) (cs : list tcall) : Prop := forall x, In (TSetTheta x) cs -> length x = L.

Definition valid_rows (n m : nat) (rows : list (list (list Z))) : Prop :=
  Forall (fun row => length row = m /\ Forall (fun s => length s = n /\ Forall (fun z => z = (-1)%Z \/ z = 1%Z) s) row) rows.

(** ** Rounds from replicas whose energies are out of date *)
Section Inv.
Context {T : Type}.
Variable g : rng T.
Variable calc_e : list Z -> list R -> R.
Variable n : nat.
Hypothesis Hg : rng_ok g.
Hypothesis Hn : (0 < n)%nat.

Definition ready (theta beta : list R) (reps : list (replica T)) : Prop :=
  Forall2 (pre_ok theta n) beta reps /\ Permutation (map r_index reps) (seq 0 (length beta)).

Lemma consistent_ready theta beta reps : consistent calc_e n theta beta reps -> ready theta beta reps.
Proof using.
  clear. intros Hc. split; [|apply Hc].
  destruct (consistent_mk _ _ _ _ _ Hc) as [ss0 [ts0 [L1 [L2 [V E0]]]]].
  assert (Li : length (map r_index reps) = length beta) by (rewrite map_length; apply Hc).
  rewrite E0. now apply mk_reps_pre.
Qed.

Lemma ready_update theta theta' beta reps : ready theta beta reps -> ready theta' beta (update_replica_parameters theta' beta reps).
Proof using.
  clear. intros [H P]. split.
  - clear P. unfold update_replica_parameters. induction H as [|b r bs rs [_ Hs] _ IH]; cbn; constructor; auto. split; [reflexivity|exact Hs].
  - replace (map r_index (update_replica_parameters theta' beta reps)) with (map r_index reps); [exact P|].
    clear P. unfold update_replica_parameters. induction H as [|b r bs rs _ _ IH]; cbn; [reflexivity|]. now rewrite <- IH.
Qed.

Lemma round_ready k default theta beta reps t :
  (forall s b, calc_e s (map (fun x => x * b) theta) = b * calc_e s theta) -> (forall b, In b beta -> b <> 0) ->
  ready theta beta reps ->
  exists reps' t', burn_and_exchange g calc_e n k default beta reps t = Ok (reps', t') /\ consistent calc_e n theta beta reps'.
Proof using Hg Hn.
  intros Hlin Hb [Hpre HP].
  assert (Li : length (map r_index reps) = length beta) by (rewrite (Permutation_length HP); apply seq_length).
  destruct (burn_all_ok g calc_e theta n Hg Hn k default beta reps Hpre) as [ss [ts [M1 [M2 [V2 Eb]]]]].
  unfold burn_and_exchange. rewrite Eb. cbn [bind].
  rewrite (exchange_eq calc_e theta Hlin); auto.
  2: { intros i Hi. apply in_seq in Hi. lia. }
  assert (X := exch_perm calc_e theta g beta (range (length beta - 1)) ss (map r_index reps) t ltac:(lia)).
  destruct (exch calc_e theta g beta (range (length beta - 1)) (ss, map r_index reps) t) as [[ss' idx'] t'].
  cbn [fst snd] in *. destruct X as [X1 [X2 X3]].
  destruct (combine_perm_fst ss ss' (map r_index reps) idx' ltac:(lia) ltac:(lia) X3) as [Ps Pi].
  eexists _, t'. split; [reflexivity|].
  assert (V3 : Forall (fun s => length s = n /\ Forall spin s) ss').
  { apply Forall_forall. intros s Hs. rewrite Forall_forall in V2. apply V2. eapply Permutation_in; eauto. }
  apply mk_consistent; try lia; auto. now rewrite Pi.
Qed.

Lemma sample_ready k default theta beta m reps t :
  (forall s b, calc_e s (map (fun x => x * b) theta) = b * calc_e s theta) -> (forall b, In b beta -> b <> 0) ->
  ready theta beta reps ->
  exists rows hist reps' t', tempering_sample g calc_e n m k default beta reps t = Ok (rows, hist, (reps', t')) /\
    length rows = m /\ valid_rows n (length beta) rows /\ ready theta beta reps' /\
    ((0 < m)%nat -> consistent calc_e n theta beta reps').
Proof using Hg Hn.
  intros Hlin Hb Hr. destruct m as [|m].
  - exists [], [], reps, t. cbn. split; [reflexivity|]. split; [reflexivity|]. split; [constructor|]. split; [exact Hr|lia].
  - cbn [tempering_sample]. destruct (round_ready k default theta beta reps t Hlin Hb Hr) as [reps1 [t1 [E1 C1]]].
    rewrite E1. cbn [bind fst snd].
    destruct (consistent_mk _ _ _ _ _ C1) as [ss [ts [L1 [L2 [V E]]]]].
    assert (Er : mapM (fun r => get (r_sample r) 0) reps1 = Ok ss).
    { assert (Li : length (map r_index reps1) = length beta) by (rewrite map_length; apply C1).
      destruct (mk_reps_index calc_e theta beta ss (map r_index reps1) ts L1 Li L2) as [_ I2]. rewrite <- E in I2.
      clear -I2. revert ss I2. induction reps1 as [|r l IH]; intros [|s ss] I2; cbn in I2; try discriminate; [reflexivity|].
      injection I2 as H1 H2. cbn [mapM]. replace (get (r_sample r) 0) with (Ok s) by (rewrite H1; reflexivity). cbn [bind]. rewrite (IH ss H2). reflexivity. }
    rewrite Er. cbn [bind].
    destruct (C32_history T g calc_e n k default m theta beta reps1 t1 Hg Hn Hlin Hb C1) as [rows [hist [reps' [t' [E2 [R1 [R2 [R3 [R4 R5]]]]]]]]].
    rewrite E2. cbn [bind fst snd]. exists (ss :: rows), (map r_index reps1 :: hist), reps', t'.
    split; [reflexivity|]. split; [cbn; lia|]. split; [constructor; auto|]. split; [now apply consistent_ready|auto].
Qed.

Variables (L k rb : nat).
Hypothesis Hlin : forall theta, length theta = L -> forall s b, calc_e s (map (fun x => x * b) theta) = b * calc_e s theta.

Lemma run_ready cs : forall p run sw,
  (forall b, In b (to_beta p) -> b <> 0) -> length (to_theta p) = L -> length run = L -> sizes_ok L cs ->
  ready run (to_beta p) (to_reps p) ->
  (match to_sample p, sw with Some rows, Some q => length rows = q /\ valid_rows n (length (to_beta p)) rows | None, None => True | _, _ => False end) ->
  exists p', trun g calc_e n k rb cs p = Ok p' /\ to_beta p' = to_beta p /\ length (to_theta p') = L /\
    length (running_theta (to_theta p) run cs) = L /\
    ready (running_theta (to_theta p) run cs) (to_beta p) (to_reps p') /\
    (match to_sample p', stored_sweeps sw cs with Some rows, Some q => length rows = q /\ valid_rows n (length (to_beta p)) rows | None, None => True | _, _ => False end).
Proof using Hg Hn Hlin.
  induction cs as [|c cs IH]; intros p run sw Hb Hth Hrun Hsz Hr Hs.
  - exists p. cbn. auto 10.
  - assert (Hsz' : sizes_ok L cs) by (intros x Hx; apply Hsz; now right).
    unfold trun. cbn [foldM]. destruct c as [x|x| |m|m]; cbn [tdo bind running_theta stored_sweeps].
    + apply (IH p run sw); auto.
    + destruct (IH (set_theta p x) run sw) as [p' H]; auto; [apply Hsz; now left|]. exists p'. exact H.
    + destruct (IH (object_update_replicas p) (to_theta p) sw) as [p' H]; auto; [|exists p'; exact H].
      cbn. now apply ready_update with run.
    + destruct (sample_ready (repExBurnin n k) (replicaBurnin n rb) run (to_beta p) m (to_reps p) (to_rng p) (Hlin run Hrun) Hb Hr) as [rows [hist [reps' [t' [E [R1 [R2 [R3 _]]]]]]]].
      unfold object_generate. rewrite E. cbn [bind fst snd].
      destruct (IH (Tempering (to_theta p) (to_beta p) reps' t' (Some rows)) run (Some m)) as [p' H]; cbn; auto.
      exists p'. exact H.
    + apply (IH p run sw); auto.
Qed.
End Inv.

(** ** C123 *)
(** From a constructed sampler every history of calls succeeds.  Afterwards the
    inverse temperatures are the original ones, the stored sample has the size of the last
    generate_sample and valid states only, and one more generate_sample of at least one
    sweep leaves replica i at beta_i times the parameters of the last
    update_replica_parameters, with one valid state and its energy at these parameters. *)
Theorem C123_history : forall (T : Type) (g : rng T) (calc_e : list Z -> list R -> R) (n rep_ex_burnin replica_burnin : nat)
  (theta : list R) (n_replicas : nat) (T0 T1 : R) (seeds : nat -> T) (t : T),
  rng_ok g -> (0 < n)%nat -> 0 < T0 < T1 -> (1 < n_replicas)%nat ->
  (forall theta', length theta' = length theta -> forall s b, calc_e s (map (fun x => x * b) theta') = b * calc_e s theta') ->
  exists p0, tempering_object g calc_e n replica_burnin theta n_replicas T0 T1 seeds t = Ok p0 /\
    length (to_beta p0) = n_replicas /\
    ((forall b, In b (to_beta p0) -> b <> 0) ->
     forall cs, sizes_ok (length theta) cs ->
     exists p, trun g calc_e n rep_ex_burnin replica_burnin cs p0 = Ok p /\ to_beta p = to_beta p0 /\
       option_map (@length _) (to_sample p) = stored_sweeps None cs /\
       (forall rows, to_sample p = Some rows -> valid_rows n n_replicas rows) /\
       (forall i rep, nth_error (to_reps p) i = Some rep ->
          r_theta rep = map (fun x => x * nthR (to_beta p0) i) (running_theta theta theta cs)) /\
       forall m, (0 < m)%nat -> exists p', trun g calc_e n rep_ex_burnin replica_burnin (cs ++ [TGenerate m]) p0 = Ok p' /\
         consistent calc_e n (running_theta theta theta cs) (to_beta p0) (to_reps p')).
Proof.
  intros T g calc_e n k rb theta nr T0 T1 seeds t Hg Hn HT Hnr Hlin.
  destruct (C33_constructor T g calc_e n theta nr T0 T1 rb seeds Hg Hn HT Hnr) as [beta [reps [E [Lb [_ [_ Hc]]]]]].
  unfold tempering_object. rewrite E. cbn [bind fst snd]. eexists. split; [reflexivity|]. cbn [to_beta].
  split; [exact Lb|]. intros Hb cs Hsz.
  destruct (run_ready g calc_e n Hg Hn (length theta) k rb Hlin cs (Tempering theta beta reps t None) theta None) as [p [Ep [Hbe [Hth [Hrun [Hr Hs]]]]]]; cbn; auto.
  { eapply consistent_ready; eauto. }
  exists p. cbn in *. split; [exact Ep|]. split; [exact Hbe|]. rewrite Lb in Hs.
  split; [destruct (to_sample p), (stored_sweeps None cs); cbn; try tauto; destruct Hs as [-> _]; reflexivity|].
  split; [intros rows Er; rewrite Er in Hs; destruct (stored_sweeps None cs); tauto|].
  split.
  - destruct Hr as [Hr _]. clear -Hr. set (th := running_theta theta theta cs) in *. clearbody th.
    induction Hr as [|b r bs rs [H _] _ IH]; intros [|i] rep Hi; cbn in Hi; try discriminate.
    + injection Hi as <-. exact H.
    + apply (IH i rep Hi).
  - intros m Hm. unfold trun in *.
    assert (Fapp : forall a b (q : tempering T), foldM (tdo g calc_e n k rb) (a ++ b) q = bind (foldM (tdo g calc_e n k rb) a q) (foldM (tdo g calc_e n k rb) b)).
    { clear. induction a as [|c a IH]; intros b q; cbn [app foldM]; [reflexivity|]. destruct (tdo g calc_e n k rb q c); cbn [bind]; [apply IH|reflexivity]. }
    rewrite Fapp, Ep. cbn [bind foldM tdo]. unfold object_generate. rewrite Hbe.
    destruct (sample_ready g calc_e n Hg Hn (repExBurnin n k) (replicaBurnin n rb) (running_theta theta theta cs) beta m (to_reps p) (to_rng p) (Hlin _ Hrun) Hb Hr) as [rows [hist [reps' [t' [E2 [_ [_ [_ C2]]]]]]]].
    rewrite E2. cbn [bind fst snd]. eexists. split; [reflexivity|]. cbn. now apply C2.
Qed.
Print Assumptions C123_history.

(** A user who follows the protocol of the other samplers, update_parameters(x) and then
    generate_sample(m), does not sample x: for every x other than the original parameters
    the replicas still run with the original ones, replica i at theta*beta_i and not at
    x*beta_i, and the object is the one that would have resulted without the call. *)
Theorem C123_update_parameters_refuted : forall (T : Type) (g : rng T) (calc_e : list Z -> list R -> R) (n rep_ex_burnin replica_burnin : nat)
  (theta x : list R) (n_replicas : nat) (T0 T1 : R) (seeds : nat -> T) (t : T) (m : nat),
  rng_ok g -> (0 < n)%nat -> 0 < T0 < T1 -> (1 < n_replicas)%nat ->
  (forall theta', length theta' = length theta -> forall s b, calc_e s (map (fun x => x * b) theta') = b * calc_e s theta') ->
  length x = length theta -> x <> theta -> (0 < m)%nat ->
  exists p0, tempering_object g calc_e n replica_burnin theta n_replicas T0 T1 seeds t = Ok p0 /\
    ((forall b, In b (to_beta p0) -> b <> 0) ->
     exists p, trun g calc_e n rep_ex_burnin replica_burnin [TUpdateParameters x; TGenerate m] p0 = Ok p /\
       trun g calc_e n rep_ex_burnin replica_burnin [TGenerate m] p0 = Ok p /\
       forall i rep, nth_error (to_reps p) i = Some rep ->
         r_theta rep = map (fun y => y * nthR (to_beta p0) i) theta /\
         r_theta rep <> map (fun y => y * nthR (to_beta p0) i) x).
Proof.
  intros T g calc_e n k rb theta x nr T0 T1 seeds t m Hg Hn HT Hnr Hlin Lx Hx Hm.
  destruct (C123_history T g calc_e n k rb theta nr T0 T1 seeds t Hg Hn HT Hnr Hlin) as [p0 [E0 [Lb H]]].
  exists p0. split; [exact E0|]. intros Hb.
  destruct (H Hb [TUpdateParameters x; TGenerate m]) as [p [Ep [Hbe [_ [_ [Hth _]]]]]].
  { intros y [Hy|[Hy|[]]]; discriminate. }
  exists p. split; [exact Ep|]. split; [exact Ep|]. intros i rep Hi. cbn in Hth. split; [now apply Hth|].
  rewrite (Hth i rep Hi). intros Eq. apply Hx.
  destruct (H Hb [TUpdateParameters x]) as [q [Eq0 [_ [_ [_ [_ Hq]]]]]]; [intros y [Hy|[]]; discriminate|].
  destruct (Hq m Hm) as [p' [Ep' C']]. cbn [app] in Ep'. rewrite Ep in Ep'. injection Ep' as <-.
  assert (Hi' : (i < length (to_beta p0))%nat).
  { destruct C' as [Lr _]. rewrite <- Lr. apply nth_error_Some. congruence. }
  assert (Hbi : nthR (to_beta p0) i <> 0) by (apply Hb, nth_In, Hi').
  set (b := nthR (to_beta p0) i) in *. clearbody b. clear -Eq Hbi Lx. revert x Lx Eq.
  induction theta as [|a l IH]; intros [|y x] Lx Eq; cbn in *; try discriminate; [reflexivity|].
  injection Eq as E1 E2. f_equal; [|apply IH; auto]. apply Rmult_eq_reg_r with b; auto.
Qed.
Print Assumptions C123_update_parameters_refuted.

(** What does work: assign theta and call update_replica_parameters.  Then the next
    generate_sample leaves replicas that are consistent with the new parameters. *)
Theorem C123_reparameterise : forall (T : Type) (g : rng T) (calc_e : list Z -> list R -> R) (n rep_ex_burnin replica_burnin : nat)
  (theta x : list R) (n_replicas : nat) (T0 T1 : R) (seeds : nat -> T) (t : T) (m : nat) (cs : list tcall),
  rng_ok g -> (0 < n)%nat -> 0 < T0 < T1 -> (1 < n_replicas)%nat ->
  (forall theta', length theta' = length theta -> forall s b, calc_e s (map (fun x => x * b) theta') = b * calc_e s theta') ->
  length x = length theta -> sizes_ok (length theta) cs -> (0 < m)%nat ->
  exists p0, tempering_object g calc_e n replica_burnin theta n_replicas T0 T1 seeds t = Ok p0 /\
    ((forall b, In b (to_beta p0) -> b <> 0) ->
     exists p rows, trun g calc_e n rep_ex_burnin replica_burnin (cs ++ [TSetTheta x; TUpdateReplicas; TGenerate m]) p0 = Ok p /\
       consistent calc_e n x (to_beta p0) (to_reps p) /\
       to_sample p = Some rows /\ length rows = m /\ valid_rows n n_replicas rows).
Proof.
  intros T g calc_e n k rb theta x nr T0 T1 seeds t m cs Hg Hn HT Hnr Hlin Lx Hsz Hm.
  destruct (C123_history T g calc_e n k rb theta nr T0 T1 seeds t Hg Hn HT Hnr Hlin) as [p0 [E0 [Lb H]]].
  exists p0. split; [exact E0|]. intros Hb.
  assert (R : forall cur run l, running_theta cur run (l ++ [TSetTheta x; TUpdateReplicas]) = x).
  { clear. intros cur run l. revert cur run. induction l as [|[]]; intros; cbn; auto. }
  assert (S : forall sw l, stored_sweeps sw (l ++ [TSetTheta x; TUpdateReplicas; TGenerate m]) = Some m).
  { clear. intros sw l. revert sw. induction l as [|[]]; intros; cbn; auto. }
  assert (Z : sizes_ok (length theta) (cs ++ [TSetTheta x; TUpdateReplicas])).
  { intros y Hy. apply in_app_or in Hy. destruct Hy as [Hy|[Hy|[Hy|[]]]]; [now apply Hsz|injection Hy as <-; exact Lx|discriminate]. }
  destruct (H Hb _ Z) as [q [_ [_ [_ [_ [_ Hq]]]]]].
  destruct (Hq m Hm) as [p [Ep C]]. rewrite R in C. rewrite <- app_assoc in Ep. cbn [app] in Ep.
  assert (Z' : sizes_ok (length theta) (cs ++ [TSetTheta x; TUpdateReplicas; TGenerate m])).
  { intros y Hy. apply in_app_or in Hy. destruct Hy as [Hy|[Hy|[Hy|[Hy|[]]]]]; [now apply Hsz|injection Hy as <-; exact Lx|discriminate|discriminate]. }
  destruct (H Hb _ Z') as [p' [Ep' [_ [Hs [Hv _]]]]]. rewrite Ep in Ep'. injection Ep' as <-. rewrite S in Hs.
  destruct (to_sample p) as [rows|] eqn:Es; cbn in Hs; [|discriminate]. injection Hs as Hs.
  exists p, rows. split; [exact Ep|]. split; [exact C|]. split; [exact Es|]. split; [exact Hs|]. now apply Hv.
Qed.
Print Assumptions C123_reparameterise.

(** ** Two replicas *)
Lemma iterate_two b0 b1 r : 0 < r <= 1 -> iterate_beta [b0; b1] [r] = Ok [b0; b1].
Proof.
  intros [H0 H1]. unfold iterate_beta. cbn [length Nat.add Nat.eqb negb forallb].
  destruct (Rle_dec r 1); [|lra]. cbn [andb negb Nat.sub iterate_beta_loop upd]. unfold meanR, nthR. cbn.
  do 2 f_equal. field. lra.
Qed.

Lemma optimize_two {T} (g : rng T) calc_e theta n : rng_ok g -> (0 < n)%nat ->
  forall max_iter m k default tol, (0 < m)%nat -> (0 < k)%nat -> forall old b0 b1 reps,
  Forall2 (pre_ok theta n) [b0; b1] reps -> Forall (fun r => length (r_sample r) = 1%nat) reps ->
  exists reps', optimize_beta g calc_e n max_iter theta m k default tol old [b0; b1] reps = Ok ([b0; b1], reps').
Proof.
  intros Hg Hn max_iter m k default tol Hm Hk. induction max_iter as [|mi IH]; intros old b0 b1 reps Hp Hs; [eexists; reflexivity|].
  cbn [optimize_beta].
  destruct (acceptance_all_ok g calc_e theta n Hg Hn m k default [b0; b1] reps Hm Hk Hp Hs) as [ars [ss [ts [L1 [L2 [V [E [La Fa]]]]]]]].
  assert (Li : length (map r_index reps) = length [b0; b1]) by (rewrite map_length; symmetry; eapply Forall2_len; exact Hp).
  assert (Go : exists reps',
      bind (acceptance_ratio g calc_e n m k default [b0; b1] (all_pairs (length [b0; b1])) reps) (fun ar =>
      bind (iterate_beta [b0; b1] (fst ar)) (fun beta1 =>
      optimize_beta g calc_e n mi theta m k default tol (Some [b0; b1]) beta1
        (update_replica_parameters theta beta1 (snd ar)))) = Ok ([b0; b1], reps')).
  { rewrite E. cbn [bind fst snd]. destruct ars as [|r [|? ?]]; cbn in La; try discriminate. apply Forall_inv in Fa.
    rewrite (iterate_two b0 b1 r Fa). cbn [bind].
    destruct (update_params_pre calc_e theta n Hn [b0; b1] [b0; b1] ss (map r_index reps) ts eq_refl L1 Li L2 V) as [U1 [U2 U3]].
    now apply IH. }
  destruct old as [o|]; [destruct (Rlt_dec tol _); [exact Go|eexists; reflexivity]|exact Go].
Qed.

(** With two replicas the optimisation of the inverse temperatures never moves them,
    whatever the energies and the random numbers: they are 1/Tbds[1] and 1/Tbds[0], both
    positive.  So for two replicas the theorems above hold without their hypothesis on the
    inverse temperatures. *)
Theorem C123_two_replicas : forall (T : Type) (g : rng T) (calc_e : list Z -> list R -> R) (n replica_burnin : nat)
  (theta : list R) (T0 T1 : R) (seeds : nat -> T) (t : T),
  rng_ok g -> (0 < n)%nat -> 0 < T0 < T1 ->
  exists p0, tempering_object g calc_e n replica_burnin theta 2 T0 T1 seeds t = Ok p0 /\ to_beta p0 = [/ T1; / T0] /\
    forall b, In b (to_beta p0) -> 0 < b.
Proof.
  intros T g calc_e n rb theta T0 T1 seeds t Hg Hn HT.
  destruct (C33_constructor T g calc_e n theta 2 T0 T1 rb seeds Hg Hn HT ltac:(lia)) as [beta [reps [E _]]].
  unfold tempering_object. rewrite E. cbn [bind fst snd]. eexists. split; [reflexivity|]. cbn [to_beta].
  assert (B : beta = [/ T1; / T0]).
  { unfold tempering_new in E. destruct (Rlt_dec T0 T1); [|lra]. destruct (Rlt_dec 0 T0); [|lra]. cbn [negb Nat.ltb Nat.leb] in E.
    assert (B0 : initialize_beta (1 / T1) (1 / T0) 2 = [/ T1; / T0]).
    { unfold initialize_beta, range. cbn. f_equal; [field; lra|]. f_equal. field. lra. }
    rewrite B0 in E.
    set (default := match rb with O => (n * 50)%nat | _ => rb end) in E.
    set (reps0 := map _ (range 2)) in E.
    assert (Hp : Forall2 (pre_ok theta n) [/ T1; / T0] reps0).
    { unfold reps0, range. cbn. repeat constructor. }
    destruct (burn_all_ok g calc_e theta n Hg Hn 0 default _ reps0 Hp) as [ss [ts [M1 [M2 [V2 Eb]]]]].
    rewrite Eb in E. cbn [bind] in E.
    destruct (optimize_two g calc_e theta n Hg Hn 10 10 (n * 10) default (1 / 100) ltac:(lia) ltac:(lia) None (/ T1) (/ T0)
                (mk_reps calc_e theta [/ T1; / T0] ss (map r_index reps0) ts)) as [reps2 E2].
    - now apply mk_reps_pre.
    - assert (F := mk_reps_forallb calc_e theta [/ T1; / T0] ss (map r_index reps0) ts). rewrite forallb_forall in F.
      apply Forall_forall. intros q Hq. apply Nat.eqb_eq. now apply F.
    - rewrite E2 in E. cbn [bind fst snd] in E.
      destruct (burn_in_replicas g calc_e n 0 default reps2) as [r2|]; cbn [bind] in E; [|discriminate].
      destruct (forallb _ _) in E; [|discriminate]. injection E as <- _. reflexivity. }
  split; [exact B|]. rewrite B. intros b [<-|[<-|[]]]; apply Rinv_0_lt_compat; lra.
Qed.
Print Assumptions C123_two_replicas.

(** The hypotheses are met by an Ising energy and two replicas at temperatures 1 and 3; a
    history with an ineffective and an effective change of the parameters succeeds. *)
Example C123_example : forall (T : Type) (g : rng T) (seeds : nat -> T) (t : T), rng_ok g ->
  let calc_e := fun (s : list Z) th => ising_energy 2 th (map IZR s) in
  exists p0 p rows, tempering_object g calc_e 2 0 [1; 2; 3] 2 1 3 seeds t = Ok p0 /\ to_beta p0 = [/ 3; / 1] /\
    trun g calc_e 2 20 0 [TGenerate 5; TUpdateParameters [7; 7; 7]; TGenerateParallel 9; TSetTheta [0; 1; 4]; TUpdateReplicas; TGenerate 4] p0 = Ok p /\
    consistent calc_e 2 [0; 1; 4] [/ 3; / 1] (to_reps p) /\ to_sample p = Some rows /\ length rows = 4%nat.
Proof.
  intros T g seeds t Hg calc_e.
  destruct (C123_two_replicas T g calc_e 2 0 [1; 2; 3] 1 3 seeds t Hg ltac:(lia) ltac:(lra)) as [p0 [E0 [B Hb]]].
  destruct (C123_history T g calc_e 2 20 0 [1; 2; 3] 2 1 3 seeds t Hg ltac:(lia) ltac:(lra) ltac:(lia)) as [p1 [E1 [_ H]]];
    [intros; apply ising_linear|].
  rewrite E0 in E1. injection E1 as <-.
  assert (Hne : forall b, In b (to_beta p0) -> b <> 0) by (intros b Hi; apply Rgt_not_eq, Hb, Hi).
  set (cs := [TGenerate 5; TUpdateParameters [7; 7; 7]; TGenerateParallel 9; TSetTheta [0; 1; 4]; TUpdateReplicas]).
  assert (Z : sizes_ok 3 cs).
  { intros x Hx. cbn in Hx. repeat (destruct Hx as [Hx|Hx]; [try discriminate|]); [injection Hx as <-; reflexivity|destruct Hx]. }
  destruct (H Hne cs Z) as [_ [_ [_ [_ [_ [_ Hq]]]]]]. destruct (Hq 4%nat ltac:(lia)) as [p [Ep C]].
  assert (Z' : sizes_ok 3 (cs ++ [TGenerate 4])).
  { intros x Hx. apply in_app_or in Hx. destruct Hx as [Hx|[Hx|[]]]; [now apply Z|discriminate]. }
  destruct (H Hne _ Z') as [p' [Ep' [_ [Hs _]]]]. rewrite Ep in Ep'. injection Ep' as <-. cbn in Hs.
  destruct (to_sample p) as [rows|] eqn:Es; [|discriminate]. injection Hs as Hs.
  rewrite B in C. exists p0, p, rows. auto 10.
Qed.
