(** * Property theorem C100: parameters fitted to many independent samples are close to
    the true ones. *)
From Coquelicot Require Import Coquelicot.
From Verif Require Import Prelude Spec PreludeFacts M_Corr M_Params M_Energy M_Models M_MCH P_Params P_Energy P_Energy2 P_Corr P_Corr2
  P_Models P_MPF P_MCH P_Convert P_Descent P_Stable Props_Corr Props_Models Props_MCH Props_MCHDescent Props_Stable.
Import ListNotations.
Local Open Scope R_scope.

(** ** Sums over all samples of a given size *)
Section Iid.
Context {A : Type}.
Variables (st : list A) (p : A -> R).
Hypothesis Hp : forall s, In s st -> 0 <= p s.
Hypothesis P1 : sumf st p = 1.

(** Probability of a list of independent draws. *)
Definition iid (rows : list A) : R := prodR (map p rows).

Lemma iid_cons s rows : iid (s :: rows) = p s * iid rows.
Proof. reflexivity. Qed.

Lemma iid_sum m (f : list A -> R) : sumf (all_states st (S m)) f = sumf st (fun s => sumf (all_states st m) (fun rows => f (s :: rows))).
Proof. cbn [all_states]. rewrite sumf_flat_map. apply sumf_ext. intros s. now rewrite sumf_map. Qed.

Lemma iid_nonneg m : forall rows, In rows (all_states st m) -> 0 <= iid rows.
Proof using Hp.
  intros rows H. apply all_states_spec in H. destruct H as [_ H]. induction rows as [|s rows IH]; [unfold iid; cbn; lra|].
  rewrite iid_cons. apply Rmult_le_pos; [apply Hp, H; now left|apply IH; intros; apply H; now right].
Qed.

Lemma iid_total m : sumf (all_states st m) iid = 1.
Proof using P1.
  induction m as [|m IH]; [unfold sumf, iid; cbn; ring|]. rewrite iid_sum.
  rewrite (sumf_ext st _ (fun s => p s)); [exact P1|]. intros s. rewrite (sumf_ext _ _ (fun rows => p s * iid rows)) by (intros; apply iid_cons). rewrite sumf_scal_l, IH. ring.
Qed.

Variable f : A -> R.
Hypothesis F0 : sumf st (fun s => p s * f s) = 0.

Lemma iid_mean m : sumf (all_states st m) (fun rows => iid rows * sumf rows f) = 0.
Proof using P1 F0.
  induction m as [|m IH]; [unfold sumf, iid; cbn; ring|]. rewrite iid_sum.
  rewrite (sumf_ext st _ (fun s => p s * f s)); [exact F0|]. intros s.
  rewrite (sumf_ext _ _ (fun rows => (p s * f s) * iid rows + p s * (iid rows * sumf rows f))) by (intros; rewrite iid_cons, sumf_cons; ring).
  rewrite sumf_plus, !sumf_scal_l, IH, iid_total. ring.
Qed.

Lemma iid_square m : sumf (all_states st m) (fun rows => iid rows * (sumf rows f * sumf rows f)) = INR m * sumf st (fun s => p s * (f s * f s)).
Proof using P1 F0.
  induction m as [|m IH]; [unfold sumf at 1, iid; cbn; ring|]. rewrite iid_sum.
  rewrite (sumf_ext st _ (fun s => p s * (f s * f s) + p s * (INR m * sumf st (fun s => p s * (f s * f s))))).
  - rewrite sumf_plus, sumf_scal_r, P1, S_INR. ring.
  - intros s. rewrite (sumf_ext _ _ (fun rows => (p s * (f s * f s)) * iid rows + (2 * p s * f s) * (iid rows * sumf rows f) + p s * (iid rows * (sumf rows f * sumf rows f))))
      by (intros; rewrite iid_cons, sumf_cons; ring).
    rewrite !sumf_plus, !sumf_scal_l, IH, iid_mean, iid_total. ring.
Qed.
End Iid.

(** Markov's inequality for weighted lists. *)
Lemma markov {A} (l : list A) (w D : A -> R) (t : R) : (forall a, In a l -> 0 <= w a) -> (forall a, In a l -> 0 <= D a) -> 0 < t ->
  sumf l (fun a => if Rlt_dec (D a) t then 0 else w a) * t <= sumf l (fun a => w a * D a).
Proof.
  intros Hw HD Ht. rewrite <- sumf_scal_r. apply sumf_le. intros a Ha. pose proof (Hw a Ha). pose proof (HD a Ha). destruct (Rlt_dec _ _); nra.
Qed.

(** Draw m states independently from the Boltzmann distribution of the parameters q.  If
    m is at least P / (delta r^2), with r = rho exp(-2 (|q|_1 + sqrt P rho)), then with
    probability at least 1 - delta the means and correlations of the sample, the default
    constraints of the solver, have exactly one solution, and it differs from q by less than
    rho. *)
Theorem C100_consistent : forall (n m : nat) (q : list R) (rho delta : R), let P := (n + n * (n - 1) / 2)%nat in
  let states := all_states [-1; 1]%Z n in
  let prob := boltzmann (fun s => ising_energy n q (map IZR s)) states in
  let r := rho * exp (- 2 * (sumf q Rabs + sqrt (INR P) * rho)) in
  (0 < n)%nat -> length q = P -> 0 < rho -> 0 < delta -> INR P <= delta * (r * r) * INR m ->
  exists good : list (list Z) -> bool,
    1 - delta <= sumf (all_states states m) (fun rows => if good rows then iid prob rows else 0) /\
    forall rows c, In rows (all_states states m) -> good rows = true -> length c = P ->
      (forall k, (k < P)%nat -> nthR c k = sumf rows (fun s => nthR (ising_obs (map IZR s)) k) / INR (length rows)) ->
      exists params, length params = P /\ dist2 params q < rho /\
        forall p, length p = P -> (enumerate_root_f (file_observables n true) None c p = Ok (map (fun _ => 0) c) <-> p = params).
Proof.
  intros n m q rho delta P states prob r Hn Hq Hr Hd Hm.
  assert (PP : 0 < INR P) by (apply lt_0_INR; unfold P; lia).
  assert (Rp : 0 < r) by (apply Rmult_lt_0_compat; [exact Hr|apply exp_pos]).
  assert (Mp : 0 < INR m).
  { destruct m as [|m]; [change (INR 0) with 0 in Hm; rewrite Rmult_0_r in Hm; lra|apply lt_0_INR; lia]. }
  assert (NE : states <> []) by exact (st_ne n Hn).
  assert (Zp : 0 < partition (fun s => ising_energy n q (map IZR s)) states) by (apply sumf_pos; [exact NE|intros; apply exp_pos]).
  assert (Pn : forall s, In s states -> 0 <= prob s) by (intros s _; left; apply Rdiv_lt_0_compat; [apply exp_pos|exact Zp]).
  assert (P1 : sumf states prob = 1) by (unfold prob, boltzmann; rewrite sumf_div; apply Rinv_r, Rgt_not_eq, Zp).
  set (o := fun (k : nat) (s : list Z) => nthR (ising_obs (map IZR s)) k).
  destruct (file_observables_ok n true q Hn Hq) as [Lo Ho]. fold P in Lo, Ho. set (mu := file_observables n true q) in *.
  assert (Mu : forall k, (k < P)%nat -> nthR mu k = sumf states (fun s => prob s * o k s)).
  { intros k Hk. rewrite Ho by exact Hk. unfold expectation. rewrite <- (st_sum n Hn). apply sumf_ext. intros s. unfold prob, boltzmann, o. do 2 f_equal.
    unfold partition. now rewrite <- (st_sum n Hn (fun s => exp (- ising_energy n q s))). }
  assert (Bd : forall s k, In s states -> (k < P)%nat -> Rabs (o k s) <= 1) by (intros s k Hs Hk; exact (o_b n Hn s k Hs Hk)).
  set (D := fun rows : list (list Z) => sumf (seq 0 P) (fun k => (sumf rows (o k) / INR m - nthR mu k) * (sumf rows (o k) / INR m - nthR mu k))).
  set (good := fun rows => if Rlt_dec (D rows) (r * r) then true else false).
  assert (R2 : 0 < r * r) by now apply Rmult_lt_0_compat.
  assert (Dn : forall rows, 0 <= D rows) by (intros rows; apply sumf_nonneg; intros; apply Rle_0_sqr).
  assert (In_ := iid_nonneg states prob Pn m).
  (* mean square error *)
  assert (MS : sumf (all_states states m) (fun rows => iid prob rows * D rows) <= INR P / INR m).
  { unfold D. rewrite (sumf_ext _ _ (fun rows => sumf (seq 0 P) (fun k => iid prob rows * ((sumf rows (o k) / INR m - nthR mu k) * (sumf rows (o k) / INR m - nthR mu k))))) by (intros; now rewrite sumf_scal_l).
    rewrite sumf_swap. replace (INR P / INR m) with (sumf (seq 0 P) (fun _ => / INR m)) by (rewrite sumf_const, seq_length; reflexivity).
    apply sumf_le. intros k Hk. apply in_seq in Hk. set (f := fun s => o k s - nthR mu k).
    assert (F0 : sumf states (fun s => prob s * f s) = 0).
    { unfold f. rewrite (sumf_ext _ _ (fun s => prob s * o k s - prob s * nthR mu k)) by (intros; ring). rewrite sumf_minus, sumf_scal_r, P1, <- Mu by lia. ring. }
    rewrite (sumf_ext_in _ _ (fun rows => (iid prob rows * (sumf rows f * sumf rows f)) * (/ INR m * / INR m))).
    - rewrite sumf_scal_r, (iid_square states prob P1 f F0 m).
      assert (V : sumf states (fun s => prob s * (f s * f s)) <= 1).
      { assert (EV : sumf states (fun s => prob s * (f s * f s)) = sumf states (fun s => prob s * (o k s * o k s)) - nthR mu k * nthR mu k).
        { rewrite (sumf_ext _ _ (fun s => prob s * (o k s * o k s) - (2 * nthR mu k) * (prob s * o k s) + prob s * (nthR mu k * nthR mu k))) by (intros; unfold f; ring).
          rewrite sumf_plus, sumf_minus, sumf_scal_l, sumf_scal_r, P1, <- Mu by lia. ring. }
        rewrite EV. assert (sumf states (fun s => prob s * (o k s * o k s)) <= sumf states prob).
        { apply sumf_le. intros s Hs. rewrite <- (Rmult_1_r (prob s)) at 2. apply Rmult_le_compat_l; [now apply Pn|]. pose proof (Bd s k Hs ltac:(lia)) as B. apply Rabs_le_between in B. nra. }
        rewrite P1 in H. pose proof (Rle_0_sqr (nthR mu k)) as Q. unfold Rsqr in Q. lra. }
      assert (Im : 0 < / INR m) by now apply Rinv_0_lt_compat.
      replace (INR m * sumf states (fun s => prob s * (f s * f s)) * (/ INR m * / INR m)) with (sumf states (fun s => prob s * (f s * f s)) * / INR m) by (field; lra).
      rewrite <- (Rmult_1_l (/ INR m)) at 2. apply Rmult_le_compat_r; lra.
    - intros rows Hrows. apply all_states_spec in Hrows. destruct Hrows as [Lr _].
      assert (Ef : sumf rows f = sumf rows (o k) - INR m * nthR mu k) by (unfold f; rewrite sumf_minus, sumf_const, Lr; reflexivity).
      rewrite Ef. field. lra. }
  exists good. split.
  - pose proof (markov (all_states states m) (iid prob) D (r * r) In_ (fun a _ => Dn a) R2) as M.
    assert (T : sumf (all_states states m) (fun rows => if good rows then iid prob rows else 0)
      = 1 - sumf (all_states states m) (fun rows => if Rlt_dec (D rows) (r * r) then 0 else iid prob rows)).
    { rewrite <- (iid_total states prob P1 m), <- sumf_minus. apply sumf_ext. intros rows. unfold good. destruct (Rlt_dec _ _); ring. }
    rewrite T. assert (sumf (all_states states m) (fun rows => if Rlt_dec (D rows) (r * r) then 0 else iid prob rows) <= delta); [|lra].
    apply (Rmult_le_reg_r (r * r)); [exact R2|]. apply Rle_trans with (1 := M). apply Rle_trans with (1 := MS).
    apply (Rmult_le_reg_r (INR m)); [exact Mp|]. replace (INR P / INR m * INR m) with (INR P) by (field; lra). exact Hm.
  - intros rows c Hrows Hg Hc Hck. apply all_states_spec in Hrows. destruct Hrows as [Lr _]. rewrite Lr in Hck.
    unfold good in Hg. destruct (Rlt_dec (D rows) (r * r)) as [Hlt|]; [|discriminate].
    assert (Dist : dist2 mu c < r).
    { unfold dist2. rewrite Hc. rewrite <- (sqrt_square r) by lra. apply sqrt_lt_1; [apply sumf_nonneg; intros; apply Rle_0_sqr|lra|].
      apply Rle_lt_trans with (2 := Hlt). right. apply sumf_ext_in. intros k Hk. apply in_seq in Hk. rewrite Hck by lia. unfold o. ring. }
    destruct (C98_certificate n c q rho Hn Hq Hc Hr) as (params & Lp & Ep & Dp & Up).
    { fold mu P. set (B := sumf q Rabs + sqrt (INR P) * rho) in *. unfold r in Dist.
      pose proof (exp_pos (2 * B)) as Ep. apply (Rmult_lt_compat_r (exp (2 * B))) in Dist; [|exact Ep].
      rewrite Rmult_assoc, <- exp_plus in Dist. replace (- 2 * B + 2 * B) with 0 in Dist by ring. rewrite exp_0, Rmult_1_r in Dist. exact Dist. }
    fold P in Lp, Up. exists params. split; [exact Lp|]. split.
    + unfold dist2 in *. rewrite Hq. rewrite Lp in Dp. apply Rle_lt_trans with (2 := Dp). right. f_equal. apply sumf_ext. intros; ring.
    + intros p Lp'. destruct (file_observables_ok n true p Hn Lp') as [Lo' _]. fold P in Lo'. unfold enumerate_root_f. cbn [exceeds]. split.
      * intros H. apply vsub_zero in H; [|lia]. now apply Up.
      * intros ->. apply vsub_zero; [lia|exact Ep].
Qed.
Print Assumptions C100_consistent.

(** For every accuracy and confidence some sample size suffices: the hypothesis on m can
    be met. *)
Example C100_example : forall (n : nat) (q : list R) (rho delta : R), let P := (n + n * (n - 1) / 2)%nat in
  0 < rho -> 0 < delta -> exists m : nat, let r := rho * exp (- 2 * (sumf q Rabs + sqrt (INR P) * rho)) in INR P <= delta * (r * r) * INR m.
Proof.
  intros n q rho delta P Hr Hd. set (r := rho * exp (- 2 * (sumf q Rabs + sqrt (INR P) * rho))).
  assert (Rp : 0 < r) by (apply Rmult_lt_0_compat; [exact Hr|apply exp_pos]). assert (D2 : 0 < delta * (r * r)) by (apply Rmult_lt_0_compat; [exact Hd|now apply Rmult_lt_0_compat]).
  set (x := INR P / (delta * (r * r))). assert (Hm : exists m, x < INR m).
  { exists (Z.to_nat (up x)). destruct (archimed x) as [Ha _]. apply Rlt_le_trans with (1 := Ha). rewrite INR_IZR_INZ. apply IZR_le. lia. }
  destruct Hm as [m Hm]. exists m. cbv zeta. fold r. unfold x in Hm.
  apply (Rmult_lt_compat_l (delta * (r * r))) in Hm; [|exact D2]. replace (delta * (r * r) * (INR P / (delta * (r * r)))) with (INR P) in Hm by (field; lra). lra.
Qed.
