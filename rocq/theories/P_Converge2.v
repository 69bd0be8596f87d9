(** * Random site Metropolis updates as averaging operators; runs on scripted random numbers *)
From Coq Require Import Permutation Classical.
From Coquelicot Require Import Coquelicot.
From Verif Require Import Prelude Spec PreludeFacts M_Index M_Sampler P_Energy P_Energy2 P_Sampler P_Metro P_Converge.
Import ListNotations.
Local Open Scope R_scope.

(** ** Ising: one update of a random site *)
Definition rs_step (E : list Z -> R) (n : nat) (G : list Z -> R) (s : list Z) : R :=
  sumf (seq 0 n) (fun i => kernel E i G s) / INR n.

Lemma Erun_iter E n F : forall t s, Erun E n (repeat None t) F s (E s) = iterf t (rs_step E n) F s.
Proof.
  induction t as [|t IH]; intros s; [reflexivity|]. cbn [repeat iterf]. rewrite Erun_none. unfold rs_step at 1. f_equal. apply sumf_ext. intros i.
  unfold kernel. now rewrite !IH.
Qed.

Lemma spin_states_ne n : spin_states n <> [].
Proof.
  intros H. assert (I : In (repeat 1%Z n) (spin_states n)); [|rewrite H in I; destruct I].
  apply spin_states_spec. split; [apply repeat_length|]. apply Forall_forall. intros x Hx. apply repeat_spec in Hx. subst. now right.
Qed.

Lemma rs_averaging E n : (0 < n)%nat -> averaging (spin_states n) (rs_step E n).
Proof.
  intros Hn. assert (P : 0 < INR n) by (now apply lt_0_INR). repeat split.
  - intros F G H s Hs. unfold rs_step. f_equal. apply sumf_ext. intros i. unfold kernel. rewrite (H s Hs), (H (flip s i)); [reflexivity|]. now apply flip_in_states.
  - intros a b F G s Hs. unfold rs_step. rewrite (sumf_ext _ _ (fun i => a * kernel E i F s + b * kernel E i G s)) by (intros i; unfold kernel; ring).
    rewrite sumf_plus, !sumf_scal_l. unfold Rdiv. ring.
  - intros c s Hs. unfold rs_step. rewrite (sumf_ext _ _ (fun _ => c)) by (intros i; unfold kernel; ring). rewrite sumf_const, seq_length. field. lra.
  - intros F H s Hs. unfold rs_step. apply Rmult_le_pos; [|left; now apply Rinv_0_lt_compat]. apply sumf_nonneg. intros i _. unfold kernel.
    assert (A := accept_prob_pos (E (flip s i) - E s)). assert (B := accept_prob_le (E (flip s i) - E s)).
    assert (H1 := H s Hs). assert (H2 := H (flip s i) ltac:(now apply flip_in_states)). nra.
Qed.

Lemma rs_flip_pos E n s i : (i < n)%nat -> 0 < rs_step E n (ind state_eq_dec (flip s i)) s.
Proof.
  intros Hi. unfold rs_step. assert (NN : forall y x : list Z, 0 <= ind state_eq_dec y x) by (intros y x; unfold ind; destruct (state_eq_dec x y); lra).
  apply Rdiv_lt_0_compat; [|apply lt_0_INR; lia]. eapply Rlt_le_trans; [|apply (sumf_in_le _ _ i); [|apply in_seq; lia]].
  - apply kernel_ge; [apply NN|]. unfold ind. destruct (state_eq_dec (flip s i) (flip s i)); [lra|congruence].
  - intros k _. apply kernel_nonneg, NN.
Qed.

Lemma rs_loop_pos E n a i : (i < n)%nat -> E a < E (flip a i) -> 0 < rs_step E n (ind state_eq_dec a) a.
Proof.
  intros Hi HE. unfold rs_step. assert (NN : forall y x : list Z, 0 <= ind state_eq_dec y x) by (intros y x; unfold ind; destruct (state_eq_dec x y); lra).
  apply Rdiv_lt_0_compat; [|apply lt_0_INR; lia]. eapply Rlt_le_trans; [|apply (sumf_in_le _ _ i); [|apply in_seq; lia]].
  - unfold kernel. assert (A : accept_prob (E (flip a i) - E a) < 1).
    { unfold accept_prob. apply Rle_lt_trans with (exp (- (E (flip a i) - E a))); [apply Rmin_r|]. rewrite <- exp_0. apply exp_increasing. lra. }
    assert (P := accept_prob_pos (E (flip a i) - E a)). assert (N1 := NN a (flip a i)). unfold ind at 2. destruct (state_eq_dec a a); [|congruence]. nra.
  - intros k _. apply kernel_nonneg, NN.
Qed.

Lemma rs_flip_path E n : (0 < n)%nat -> forall is s, In s (spin_states n) -> Forall (fun i => (i < n)%nat) is ->
  path state_eq_dec (spin_states n) (rs_step E n) (length is) s (fold_left flip is s).
Proof.
  intros Hn. induction is as [|i is IH]; intros s Hs H; [now constructor|]. inversion H; subst. cbn [length fold_left].
  assert (Hf : In (flip s i) (spin_states n)) by (now apply flip_in_states). econstructor; [assumption|exact Hf| |now apply IH]. now apply rs_flip_pos.
Qed.

Lemma climb E n : (exists s s', In s (spin_states n) /\ In s' (spin_states n) /\ E s <> E s') ->
  exists a i, In a (spin_states n) /\ (i < n)%nat /\ E a < E (flip a i).
Proof.
  intros (s & s' & Hs & Hs' & NE). apply NNPP. intros H. apply NE.
  assert (F : forall a i, In a (spin_states n) -> (i < n)%nat -> E (flip a i) <= E a).
  { intros a i Ha Hi. apply Rnot_lt_le. intros C. apply H. now exists a, i. }
  assert (G : forall is a, In a (spin_states n) -> Forall (fun i => (i < n)%nat) is -> E (fold_left flip is a) = E a).
  { induction is as [|i is IH]; intros a Ha Hi; [reflexivity|]. inversion Hi; subst. cbn [fold_left].
    assert (Hf : In (flip a i) (spin_states n)) by (now apply flip_in_states). rewrite IH by assumption.
    apply Rle_antisym; [now apply F|]. rewrite <- (flip_flip a i) at 1. now apply F. }
  rewrite <- (flip_to n s s' Hs Hs'). symmetry. apply G; [assumption|]. apply diff_sites_lt. now apply spin_states_spec in Hs.
Qed.

Lemma rs_minor E n : (0 < n)%nat -> (exists s s', In s (spin_states n) /\ In s' (spin_states n) /\ E s <> E s') ->
  exists eps, 0 < eps <= 1 /\ minor (spin_states n) eps (fun F => iterf (2 * n) (rs_step E n) F).
Proof.
  intros Hn NE. destruct (climb E n NE) as (a & i & Ha & Hi & HE).
  apply (positive_minor state_eq_dec (spin_states n) (spin_states_NoDup n)); [now apply avg_iter, rs_averaging|].
  intros s s' Hs Hs'. apply (path_pos state_eq_dec (spin_states n) (spin_states_NoDup n)); [now apply rs_averaging|].
  assert (L1 := diff_sites_length s a). assert (L2 := diff_sites_length a s').
  assert (E1 : length s = n) by (now apply spin_states_spec in Hs). assert (E2 : length a = n) by (now apply spin_states_spec in Ha).
  assert (P1 := rs_flip_path E n Hn (diff_sites s a) s Hs (diff_sites_lt n s a E1)). rewrite (flip_to n s a Hs Ha) in P1.
  assert (P2 := rs_flip_path E n Hn (diff_sites a s') a Ha (diff_sites_lt n a s' E2)). rewrite (flip_to n a s' Ha Hs') in P2.
  assert (P3 := path_loop state_eq_dec (spin_states n) (rs_step E n) a Ha (rs_loop_pos E n a i Hi HE) (2 * n - length (diff_sites s a) - length (diff_sites a s'))).
  replace (2 * n)%nat with (length (diff_sites s a) + ((2 * n - length (diff_sites s a) - length (diff_sites a s')) + length (diff_sites a s')))%nat by lia.
  eapply path_app; [exact P1|]. eapply path_app; [exact P3|exact P2].
Qed.

Lemma boltzmann_dist {A} (E : A -> R) (St : list A) : St <> [] -> dist St (boltzmann E St).
Proof.
  intros H. assert (Z : 0 < partition E St) by (apply sumf_pos; [assumption|intros; apply exp_pos]). split.
  - intros x _. unfold boltzmann. left. apply Rdiv_lt_0_compat; [apply exp_pos|assumption].
  - unfold boltzmann. rewrite sumf_div. fold (partition E St). field. lra.
Qed.

Lemma boltzmann_stationary {A} (E : A -> R) (St : list A) (P : (A -> R) -> A -> R) :
  (forall F, sumf St (fun s => exp (- E s) * P F s) = sumf St (fun s => exp (- E s) * F s)) ->
  forall F, sumf St (fun x => boltzmann E St x * P F x) = sumf St (fun x => boltzmann E St x * F x).
Proof.
  intros H F. unfold boltzmann.
  rewrite (sumf_ext _ _ (fun s => exp (- E s) * P F s / partition E St)) by (intros; unfold Rdiv; ring).
  rewrite (sumf_ext _ (fun x => exp (- E x) / partition E St * F x) (fun s => exp (- E s) * F s / partition E St)) by (intros; unfold Rdiv; ring).
  rewrite !sumf_div. now rewrite H.
Qed.

Lemma rs_stationary E n : (0 < n)%nat -> forall F, sumf (spin_states n) (fun x => boltzmann E (spin_states n) x * rs_step E n F x) = sumf (spin_states n) (fun x => boltzmann E (spin_states n) x * F x).
Proof.
  intros Hn. apply boltzmann_stationary. intros F. rewrite <- (run_stationary E n [None] F Hn). apply sumf_ext. intros s. f_equal. rewrite (Erun_none E n [] F s). reflexivity.
Qed.

(** ** Potts: one update of a random site *)
Definition rs_potts (E : list nat -> R) (n : nat) (G : list nat -> R) (s : list nat) : R :=
  sumf (seq 0 n) (fun i => sumf [1; 2]%nat (fun r => pkernel E i r G s) / 2) / INR n.

Lemma Erun_potts_iter E n F : forall t s, Erun_potts E n (repeat None t) F s (E s) = iterf t (rs_potts E n) F s.
Proof.
  induction t as [|t IH]; intros s; [reflexivity|]. cbn [repeat iterf]. rewrite Erun_potts_none. unfold rs_potts at 1. f_equal. apply sumf_ext. intros i. f_equal. apply sumf_ext. intros r.
  unfold pkernel. now rewrite !IH.
Qed.

Lemma potts_states_ne n : potts_states n <> [].
Proof.
  intros H. assert (I : In (repeat 0%nat n) (potts_states n)); [|rewrite H in I; destruct I].
  apply potts_states_spec. split; [apply repeat_length|]. apply Forall_forall. intros x Hx. apply repeat_spec in Hx. subst. unfold potts3. lia.
Qed.

Definition pstate_eq_dec : forall a b : list nat, {a = b} + {a <> b} := list_eq_dec Nat.eq_dec.

Lemma in_12 r : In r [1; 2]%nat -> (1 <= r <= 2)%nat.
Proof. cbn. lia. Qed.

Lemma rsp_averaging E n : (0 < n)%nat -> averaging (potts_states n) (rs_potts E n).
Proof.
  intros Hn. assert (P : 0 < INR n) by (now apply lt_0_INR). repeat split.
  - intros F G H s Hs. unfold rs_potts. f_equal. apply sumf_ext. intros i. f_equal. apply sumf_ext_in. intros r Hr. unfold pkernel. rewrite (H s Hs), (H (shift3 s i r)); [reflexivity|].
    apply shift3_back; [now apply in_12|assumption].
  - intros a b F G s Hs. unfold rs_potts.
    rewrite (sumf_ext _ _ (fun i => a * (sumf [1; 2]%nat (fun r => pkernel E i r F s) / 2) + b * (sumf [1; 2]%nat (fun r => pkernel E i r G s) / 2))).
    + rewrite sumf_plus, !sumf_scal_l. unfold Rdiv. ring.
    + intros i. rewrite (sumf_ext _ _ (fun r => a * pkernel E i r F s + b * pkernel E i r G s)) by (intros r; unfold pkernel; ring). rewrite sumf_plus, !sumf_scal_l. unfold Rdiv. ring.
  - intros c s Hs. unfold rs_potts. rewrite (sumf_ext _ _ (fun _ => c)).
    + rewrite sumf_const, seq_length. field. lra.
    + intros i. rewrite (sumf_ext _ _ (fun _ => c)) by (intros r; unfold pkernel; ring). rewrite sumf_const. cbn. field.
  - intros F H s Hs. unfold rs_potts. apply Rmult_le_pos; [|left; now apply Rinv_0_lt_compat]. apply sumf_nonneg. intros i _. apply Rmult_le_pos; [|lra]. apply sumf_nonneg. intros r Hr. unfold pkernel.
    assert (A := accept_prob_pos (E (shift3 s i r) - E s)). assert (B := accept_prob_le (E (shift3 s i r) - E s)).
    assert (H1 := H s Hs). assert (H2 := H (shift3 s i r) ltac:(apply shift3_back; [now apply in_12|assumption])). nra.
Qed.

Lemma pkernel_nonneg E i r G s : (forall s, 0 <= G s) -> 0 <= pkernel E i r G s.
Proof.
  intros H. unfold pkernel. assert (P := accept_prob_pos (E (shift3 s i r) - E s)).
  assert (L := accept_prob_le (E (shift3 s i r) - E s)). assert (H1 := H s). assert (H2 := H (shift3 s i r)). nra.
Qed.

Lemma rsp_shift_pos E n s i r : (i < n)%nat -> In r [1; 2]%nat -> 0 < rs_potts E n (ind pstate_eq_dec (shift3 s i r)) s.
Proof.
  intros Hi Hr. unfold rs_potts. assert (NN : forall y x : list nat, 0 <= ind pstate_eq_dec y x) by (intros y x; unfold ind; destruct (pstate_eq_dec x y); lra).
  apply Rdiv_lt_0_compat; [|apply lt_0_INR; lia].
  assert (In1 : forall k, 0 <= sumf [1; 2]%nat (fun r0 => pkernel E k r0 (ind pstate_eq_dec (shift3 s i r)) s)) by (intros k; apply sumf_nonneg; intros; apply pkernel_nonneg, NN).
  eapply Rlt_le_trans; [|apply (sumf_in_le _ _ i); [|apply in_seq; lia]].
  - apply Rdiv_lt_0_compat; [|lra]. eapply Rlt_le_trans; [|apply (sumf_in_le _ _ r); [|assumption]].
    + unfold pkernel. assert (P := accept_prob_pos (E (shift3 s i r) - E s)). assert (L := accept_prob_le (E (shift3 s i r) - E s)). assert (H1 := NN (shift3 s i r) s).
      unfold ind at 1. destruct (pstate_eq_dec (shift3 s i r) (shift3 s i r)); [nra|congruence].
    + intros k _. apply pkernel_nonneg, NN.
  - intros k _. specialize (In1 k). cbv beta. lra.
Qed.

(** Two moves at site i turn its value into any other. *)
Lemma two_moves E n s i v : (0 < n)%nat -> In s (potts_states n) -> (i < n)%nat -> (v < 3)%nat ->
  path pstate_eq_dec (potts_states n) (rs_potts E n) 2 s (upd s i v) /\ In (upd s i v) (potts_states n).
Proof.
  intros Hn Hs Hi Hv. assert (L : length s = n) by (now apply potts_states_spec in Hs).
  assert (V : (nth i s 0 < 3)%nat). { apply potts_states_spec in Hs. apply (Forall_nth_in potts3); [apply Hs|lia]. }
  assert (K : exists r1 r2, In r1 [1; 2]%nat /\ In r2 [1; 2]%nat /\ (((nth i s 0 + r1) mod 3 + r2) mod 3 = v)%nat).
  { destruct (nth i s 0%nat) as [|[|[|x]]]; try lia; destruct v as [|[|[|v]]]; try lia.
    all: first [exists 1%nat, 1%nat; cbn; repeat split; auto; fail | exists 2%nat, 2%nat; cbn; repeat split; auto; fail | exists 1%nat, 2%nat; cbn; repeat split; auto; fail]. }
  destruct K as (r1 & r2 & H1 & H2 & K).
  assert (I1 : In (shift3 s i r1) (potts_states n)) by (apply shift3_back; [now apply in_12|assumption]).
  assert (I2 : In (shift3 (shift3 s i r1) i r2) (potts_states n)) by (apply shift3_back; [now apply in_12|assumption]).
  assert (Q : shift3 (shift3 s i r1) i r2 = upd s i v).
  { unfold shift3. rewrite upd_upd, nth_upd_same by lia. now rewrite K. }
  rewrite <- Q. split; [|assumption].
  econstructor; [assumption|exact I1|now apply rsp_shift_pos|]. econstructor; [assumption|exact I2|now apply rsp_shift_pos|]. now constructor.
Qed.

Lemma potts_path E n s s' : (0 < n)%nat -> In s (potts_states n) -> In s' (potts_states n) ->
  path pstate_eq_dec (potts_states n) (rs_potts E n) (2 * n) s s'.
Proof.
  intros Hn Hs Hs'. assert (L' : length s' = n) by (now apply potts_states_spec in Hs').
  set (go := fun k => fold_left (fun s i => upd s i (nth i s' 0%nat)) (seq 0 k) s).
  assert (P : forall k, (k <= n)%nat -> path pstate_eq_dec (potts_states n) (rs_potts E n) (2 * k) s (go k) /\ In (go k) (potts_states n)).
  { induction k as [|k IH]; intros Hk; [split; [now constructor|assumption]|]. destruct (IH ltac:(lia)) as [P1 I1].
    assert (V : (nth k s' 0 < 3)%nat). { apply potts_states_spec in Hs'. apply (Forall_nth_in potts3); [apply Hs'|lia]. }
    destruct (two_moves E n (go k) k (nth k s' 0%nat) Hn I1 ltac:(lia) V) as [P2 I2].
    assert (Q : go (S k) = upd (go k) k (nth k s' 0%nat)). { unfold go. rewrite seq_S, fold_left_app. reflexivity. }
    rewrite Q. split; [|assumption]. replace (2 * S k)%nat with (2 * k + 2)%nat by lia. eapply path_app; [exact P1|exact P2]. }
  destruct (P n ltac:(lia)) as [P1 I1].
  assert (Q : go n = s'); [|now rewrite Q in P1].
  assert (Ls : length s = n) by (now apply potts_states_spec in Hs).
  assert (G : forall l s, NoDup l -> length s = length s' -> forall k, (k < length s)%nat -> nth k (fold_left (fun s i => upd s i (nth i s' 0%nat)) l s) 0%nat = if in_dec Nat.eq_dec k l then nth k s' 0%nat else nth k s 0%nat).
  { clear. induction l as [|i l IH]; intros s ND HL k Hk; [reflexivity|]. inversion ND; subst. cbn [fold_left]. rewrite IH by (try assumption; rewrite upd_length; assumption).
    destruct (in_dec Nat.eq_dec k l) as [H|H]; destruct (in_dec Nat.eq_dec k (i :: l)) as [H'|H']; try reflexivity.
    - exfalso. apply H'. now right.
    - destruct H' as [->|H']; [|contradiction]. now rewrite nth_upd_same.
    - rewrite nth_upd_other; [reflexivity|]. intros ->. apply H'. now left. }
  assert (Lg : length (go n) = n) by (apply potts_states_spec in I1; apply I1).
  apply (list_eq_nth 0%nat); [congruence|]. intros k Hk. unfold go. rewrite G; [|apply seq_NoDup|lia|lia].
  destruct (in_dec Nat.eq_dec k (seq 0 n)) as [_|N]; [reflexivity|]. exfalso. apply N, in_seq. lia.
Qed.

Lemma rsp_minor E n : (0 < n)%nat -> exists eps, 0 < eps <= 1 /\ minor (potts_states n) eps (fun F => iterf (2 * n) (rs_potts E n) F).
Proof.
  intros Hn. apply (positive_minor pstate_eq_dec (potts_states n) (potts_states_NoDup n)); [now apply avg_iter, rsp_averaging|].
  intros s s' Hs Hs'. apply (path_pos pstate_eq_dec (potts_states n) (potts_states_NoDup n)); [now apply rsp_averaging|]. now apply potts_path.
Qed.

Lemma rsp_stationary E n : (0 < n)%nat -> forall F, sumf (potts_states n) (fun x => boltzmann E (potts_states n) x * rs_potts E n F x) = sumf (potts_states n) (fun x => boltzmann E (potts_states n) x * F x).
Proof.
  intros Hn. apply boltzmann_stationary. intros F. rewrite <- (potts_run_stationary E n [None] F Hn). apply sumf_ext. intros s. f_equal. rewrite (Erun_potts_none E n [] F s). reflexivity.
Qed.
