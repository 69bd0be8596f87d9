(** * Property C63: overlaps between states. *)
From Verif Require Import Prelude Spec PreludeFacts M_Params M_Corr.
Import ListNotations.
Local Open Scope R_scope.

Definition unit_or_zero (z : Z) : Prop := z = (-1)%Z \/ z = 0%Z \/ z = 1%Z.

(** Number of non-zero entries; number of positions where two states differ. *)
Definition recorded (r : list Z) : nat := length (filter (fun z => negb (Z.eqb z 0)) r).
Definition hamming (ra rb : list Z) : nat := length (filter (fun p => negb (Z.eqb (fst p) (snd p))) (combine ra rb)).

Lemma zeros_recorded r : (length (filter (Z.eqb 0) r) + recorded r = length r)%nat.
Proof.
  unfold recorded. induction r as [|z r IH]; [reflexivity|]. cbn [filter].
  rewrite (Z.eqb_sym z 0). destruct (Z.eqb 0 z); cbn [negb length]; lia.
Qed.

Definition prod_sum (ra rb : list Z) : R := sumf (combine ra rb) (fun p => IZR (fst p) * IZR (snd p)).

Lemma overlap_sum ra : forall rb, length ra = length rb ->
  sumf (range (length ra)) (fun i => IZR (xat ra i) * IZR (xat rb i)) = prod_sum ra rb.
Proof.
  unfold prod_sum, range, xat. induction ra as [|a ra IH]; intros [|b rb] H; cbn in H; try discriminate; [reflexivity|].
  cbn [length seq combine]. rewrite !sumf_cons. cbn [nth fst snd]. f_equal.
  rewrite <- IH by lia. rewrite sumf_seq_shift. reflexivity.
Qed.

Lemma prod_sum_bound ra : forall rb, length ra = length rb -> Forall unit_or_zero ra -> Forall unit_or_zero rb ->
  Rabs (prod_sum ra rb) <= INR (recorded ra).
Proof.
  unfold prod_sum. induction ra as [|a ra IH]; intros [|b rb] H Ha Hb; cbn in H; try discriminate.
  - cbn. rewrite Rabs_R0. lra.
  - inversion Ha as [|? ? Ua Ha']; inversion Hb as [|? ? Ub Hb']; subst. cbn [combine]. rewrite sumf_cons. cbn [fst snd].
    specialize (IH rb ltac:(lia) Ha' Hb'). unfold recorded in *. cbn [filter].
    eapply Rle_trans; [apply Rabs_triang|].
    destruct Ua as [->|[->| ->]]; cbn [Z.eqb negb length]; rewrite ?S_INR.
    + assert (Rabs (IZR (-1) * IZR b) <= 1) by (destruct Ub as [->|[->| ->]]; unfold Rabs; destruct Rcase_abs; lra). lra.
    + rewrite Rmult_0_l, Rabs_R0. lra.
    + assert (Rabs (1 * IZR b) <= 1) by (destruct Ub as [->|[->| ->]]; unfold Rabs; destruct Rcase_abs; lra). lra.
Qed.

Lemma prod_sum_sym ra : forall rb, prod_sum ra rb = prod_sum rb ra.
Proof.
  unfold prod_sum. induction ra as [|a ra IH]; intros [|b rb]; try reflexivity.
  cbn [combine]. rewrite !sumf_cons, IH. cbn [fst snd]. ring.
Qed.

Lemma prod_sum_self ra : Forall unit_or_zero ra -> prod_sum ra ra = INR (recorded ra).
Proof.
  unfold prod_sum, recorded. induction 1 as [|a ra Ua H IH]; [reflexivity|]. cbn [combine filter]. rewrite sumf_cons, IH. cbn [fst snd].
  destruct Ua as [->|[->| ->]]; cbn [Z.eqb negb length]; rewrite ?S_INR; lra.
Qed.

Lemma prod_sum_hamming ra : forall rb, length ra = length rb ->
  Forall (fun z => z = (-1)%Z \/ z = 1%Z) ra -> Forall (fun z => z = (-1)%Z \/ z = 1%Z) rb ->
  prod_sum ra rb = INR (length ra) - 2 * INR (hamming ra rb).
Proof.
  unfold prod_sum, hamming. induction ra as [|a ra IH]; intros [|b rb] H Ha Hb; cbn in H; try discriminate.
  - cbn. lra.
  - inversion Ha as [|? ? Ua Ha']; inversion Hb as [|? ? Ub Hb']; subst. cbn [combine length filter]. rewrite sumf_cons, S_INR.
    rewrite (IH rb) by (auto; lia). cbn [fst snd].
    destruct Ua as [->| ->], Ub as [->| ->]; cbn [Z.eqb Pos.eqb negb length]; rewrite ?S_INR; lra.
Qed.

(** ** C63 *)
(** For samples with entries -1, 0, 1: the overlap matrix is the matrix of scalar
    products over the number of spins, or over the smaller number of recorded spins;
    it is symmetric, its entries are in [-1,1], and with ignore_zeros its diagonal is 1. *)
Theorem C63_overlap : forall (sample : list (list Z)) (N a b : nat) (ra rb : list Z),
  (0 < N)%nat -> nth_error sample a = Some ra -> nth_error sample b = Some rb ->
  length ra = N -> length rb = N -> Forall unit_or_zero ra -> Forall unit_or_zero rb ->
  (forall z, calc_overlap sample N a b z = calc_overlap sample N b a z) /\
  calc_overlap sample N a b false = sumf (combine ra rb) (fun p => IZR (fst p) * IZR (snd p)) / INR N /\
  -1 <= calc_overlap sample N a b false <= 1 /\
  ((0 < recorded ra)%nat -> (0 < recorded rb)%nat ->
   calc_overlap sample N a b true = sumf (combine ra rb) (fun p => IZR (fst p) * IZR (snd p)) / INR (Nat.min (recorded ra) (recorded rb)) /\
   -1 <= calc_overlap sample N a b true <= 1 /\
   calc_overlap sample N a a true = 1).
Proof.
  intros sample N a b ra rb HN Ea Eb La Lb Ua Ub.
  assert (Na := nth_error_nth sample a [] Ea). assert (Nb := nth_error_nth sample b [] Eb).
  assert (Sab : sumf (range N) (fun i => IZR (xat ra i) * IZR (xat rb i)) = prod_sum ra rb) by (rewrite <- La; apply overlap_sum; lia).
  assert (Sba : sumf (range N) (fun i => IZR (xat rb i) * IZR (xat ra i)) = prod_sum rb ra) by (rewrite <- Lb; apply overlap_sum; lia).
  assert (Saa : sumf (range N) (fun i => IZR (xat ra i) * IZR (xat ra i)) = prod_sum ra ra) by (rewrite <- La; apply overlap_sum; lia).
  unfold calc_overlap. rewrite Na, Nb, Sab, Sba, Saa.
  assert (Za := zeros_recorded ra). assert (Zb := zeros_recorded rb).
  assert (HNR : 0 < INR N) by now apply lt_0_INR.
  assert (Ba := prod_sum_bound ra rb ltac:(lia) Ua Ub). assert (Bb := prod_sum_bound rb ra ltac:(lia) Ub Ua). rewrite prod_sum_sym in Bb.
  assert (Hra : INR (recorded ra) <= INR N) by (apply le_INR; lia).
  split.
  { intros z. rewrite (prod_sum_sym rb ra). destruct z; [|reflexivity]. now rewrite Nat.max_comm. }
  split; [reflexivity|]. 
  assert (Div : forall x m, 0 < m -> Rabs x <= m -> -1 <= x / m <= 1).
  { intros x m Hm Hx. assert (-m <= x <= m) by (unfold Rabs in Hx; destruct (Rcase_abs x); lra). split.
    - apply (Rmult_le_reg_r m); [assumption|]. unfold Rdiv. rewrite Rmult_assoc, Rinv_l by lra. lra.
    - apply (Rmult_le_reg_r m); [assumption|]. unfold Rdiv. rewrite Rmult_assoc, Rinv_l by lra. lra. }
  split; [apply Div; [assumption|lra]|].
  intros Pa Pb.
  replace (N - Nat.max (length (filter (Z.eqb 0) ra)) (length (filter (Z.eqb 0) rb)))%nat with (Nat.min (recorded ra) (recorded rb)) by lia.
  replace (N - Nat.max (length (filter (Z.eqb 0) ra)) (length (filter (Z.eqb 0) ra)))%nat with (recorded ra) by lia.
  split; [reflexivity|]. split.
  - apply Div; [apply lt_0_INR; lia|]. destruct (Nat.min_spec (recorded ra) (recorded rb)) as [[_ ->]|[_ ->]]; assumption.
  - rewrite prod_sum_self by assumption. field. apply not_0_INR. lia.
Qed.
Print Assumptions C63_overlap.

(** For spin states the overlap is 1 - 2 d/N with d the Hamming distance; it is 1 only
    for equal states. *)
Theorem C63_hamming : forall (sample : list (list Z)) (N a b : nat) (ra rb : list Z) (ignore_zeros : bool),
  (0 < N)%nat -> nth_error sample a = Some ra -> nth_error sample b = Some rb -> length ra = N -> length rb = N ->
  Forall (fun z => z = (-1)%Z \/ z = 1%Z) ra -> Forall (fun z => z = (-1)%Z \/ z = 1%Z) rb ->
  calc_overlap sample N a b ignore_zeros = 1 - 2 * INR (hamming ra rb) / INR N /\
  (calc_overlap sample N a b ignore_zeros = 1 <-> ra = rb).
Proof.
  intros sample N a b ra rb z HN Ea Eb La Lb Ua Ub.
  assert (HNR : 0 < INR N) by now apply lt_0_INR.
  assert (E : calc_overlap sample N a b z = 1 - 2 * INR (hamming ra rb) / INR N).
  { assert (Sab : sumf (range N) (fun i => IZR (xat ra i) * IZR (xat rb i)) = prod_sum ra rb) by (rewrite <- La; apply overlap_sum; lia).
    unfold calc_overlap. rewrite (nth_error_nth sample a [] Ea), (nth_error_nth sample b [] Eb), Sab.
    assert (Z0 : forall r : list Z, Forall (fun z => z = (-1)%Z \/ z = 1%Z) r -> length (filter (Z.eqb 0) r) = 0%nat).
    { clear. induction 1 as [|x r [->| ->] _ IH]; [reflexivity| |]; exact IH. }
    rewrite !Z0 by assumption. rewrite Nat.max_id, Nat.sub_0_r. rewrite prod_sum_hamming by (auto; lia).
    rewrite La. destruct z; field; lra. }
  split; [exact E|]. rewrite E.
  assert (H0 : hamming ra rb = 0%nat <-> ra = rb).
  { clear -La Lb. assert (L : length ra = length rb) by lia. clear La Lb. unfold hamming. revert rb L. induction ra as [|x ra IH]; intros [|y rb] L; cbn in L; try discriminate; [tauto|].
    cbn [combine filter fst snd]. destruct (Z.eqb_spec x y) as [->|Hxy]; cbn [negb].
    - rewrite (IH rb) by lia. split; [now intros ->|now intros [= ->]].
    - cbn [length]. split; [discriminate|congruence]. }
  rewrite <- H0. split; intros H.
  - apply INR_eq. cbn [INR]. apply (Rmult_eq_reg_r (2 / INR N)).
    + lra.
    + apply Rgt_not_eq, Rdiv_lt_0_compat; lra.
  - rewrite H. cbn [INR]. field. lra.
Qed.
Print Assumptions C63_hamming.

Example C63_example : calc_overlap [[1; 0; -1]; [1; 1; 1]]%Z 3 0 0 true = 1 /\ Forall unit_or_zero [1; 0; -1]%Z /\ recorded [1; 0; -1]%Z = 2%nat.
Proof.
  assert (U : Forall unit_or_zero [1; 0; -1]%Z) by (unfold unit_or_zero; repeat (apply Forall_cons; [lia|]); apply Forall_nil).
  split; [|split; [exact U|reflexivity]].
  destruct (C63_overlap [[1; 0; -1]; [1; 1; 1]]%Z 3 0 0 [1; 0; -1]%Z [1; 0; -1]%Z) as [_ [_ [_ H]]]; auto; try lia.
  apply H; cbn; lia.
Qed.
