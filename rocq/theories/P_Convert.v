(** * Proofs: conversion of interactions of every order. *)
From Coq Require Import Sorted.
From Verif Require Import Prelude Spec PreludeFacts M_Index M_Energy M_Params P_Index P_Unravel P_Energy P_Energy2 P_Params.
Import ListNotations.
Local Open Scope R_scope.

Lemma sumf_seq_rev m (f : nat -> R) : sumf (seq 0 m) (fun c => f (m - 1 - c)%nat) = sumf (seq 0 m) f.
Proof.
  induction m as [|m IH]; [reflexivity|].
  rewrite (sumf_seq_last m f), sumf_seq_S, <- IH.
  replace (S m - 1 - 0)%nat with m by lia. rewrite Rplus_comm. f_equal.
  apply sumf_ext. intros c. f_equal. lia.
Qed.

Lemma foldM_sum {A S} (f : S -> A -> result S) (Inv : S -> Prop) (V : S -> R) (d : A -> R) l :
  (forall st a, In a l -> Inv st -> exists st', f st a = Ok st' /\ Inv st' /\ V st' = V st + d a) ->
  forall st, Inv st -> exists st', foldM f l st = Ok st' /\ Inv st' /\ V st' = V st + sumf l d.
Proof.
  induction l as [|a l IH]; intros H st Hi.
  - exists st. cbn. repeat split; [assumption|ring].
  - destruct (H st a (or_introl eq_refl) Hi) as (st1 & E1 & I1 & V1).
    destruct (IH (fun st b Hb => H st b (or_intror Hb)) st1 I1) as (st2 & E2 & I2 & V2).
    exists st2. cbn [foldM]. rewrite E1. cbn [bind]. repeat split; [assumption|assumption|].
    rewrite V2, V1, sumf_cons. ring.
Qed.

Lemma sumf_combine_index {A} (d : A) (l : list A) (f : nat * A -> R) :
  sumf (combine (seq 0 (length l)) l) f = sumf (seq 0 (length l)) (fun k => f (k, nth k l d)).
Proof.
  assert (G : forall l a, sumf (combine (seq a (length l)) l) f = sumf (seq 0 (length l)) (fun k => f ((a + k)%nat, nth k l d))).
  { clear l. induction l as [|x l IH]; intros a; [reflexivity|].
    cbn [length]. rewrite sumf_seq_S. cbn [seq combine]. rewrite sumf_cons, IH. cbn [nth].
    replace (a + 0)%nat with a by lia. f_equal. apply sumf_ext. intros k. do 2 f_equal. lia. }
  apply (G l 0%nat).
Qed.

Lemma in_combine_index {A} (l : list A) k a : In (k, a) (combine (seq 0 (length l)) l) -> nth_error l k = Some a.
Proof.
  assert (G : forall l b, In (k, a) (combine (seq b (length l)) l) -> nth_error l (k - b) = Some a /\ (b <= k)%nat).
  { clear l. induction l as [|x l IH]; intros b H; cbn in H; [destruct H|].
    destruct H as [E|H].
    - injection E as <- <-. rewrite Nat.sub_diag. split; [reflexivity|lia].
    - destruct (IH (S b) H) as [E Hb]. replace (k - b)%nat with (S (k - S b)) by lia. split; [exact E|lia]. }
  intros H. destruct (G l 0%nat H) as [E _]. now rewrite Nat.sub_0_r in E.
Qed.

(** ** Expansion of products *)
Definition Psum (x : list R) (T : list nat) (k : nat) : R := sumf (combinations T k) (fun U => prodR (map (nthR x) U)).

Lemma Psum_0 x T : Psum x T 0 = 1.
Proof. unfold Psum. destruct T; cbn; ring. Qed.

Lemma Psum_gt x T k : (length T < k)%nat -> Psum x T k = 0.
Proof.
  intros H. unfold Psum. replace (combinations T k) with (@nil (list nat)); [reflexivity|].
  symmetry. apply length_zero_iff_nil. rewrite combinations_length. now apply binom_gt.
Qed.

Lemma Psum_cons x i T k : Psum x (i :: T) (S k) = nthR x i * Psum x T k + Psum x T (S k).
Proof.
  unfold Psum. cbn [combinations]. rewrite sumf_app, sumf_map. f_equal.
  rewrite <- sumf_scal_l. reflexivity.
Qed.

Lemma Psum_full x T : Psum x T (length T) = prodR (map (nthR x) T).
Proof.
  induction T as [|i T IH]; [apply Psum_0|].
  cbn [length]. rewrite Psum_cons, IH, Psum_gt by lia. unfold prodR. cbn [map fold_right]. ring.
Qed.

Lemma prod_expand a b x T :
  prodR (map (fun i => a * nthR x i + b) T) =
  sumf (seq 0 (S (length T))) (fun k => a ^ k * b ^ (length T - k) * Psum x T k).
Proof.
  induction T as [|i T IH].
  - cbn [length seq]. rewrite sumf_cons, sumf_nil, Psum_0. cbn. ring.
  - unfold prodR at 1. cbn [map fold_right]. fold (prodR (map (fun i => a * nthR x i + b) T)). rewrite IH. clear IH.
    cbn [length]. set (m := length T).
    rewrite (sumf_seq_S (S m)).
    rewrite (sumf_ext_in (seq 0 (S m)) (fun i0 => a ^ S i0 * b ^ (S m - S i0) * Psum x (i :: T) (S i0))
       (fun k => a * nthR x i * (a ^ k * b ^ (m - k) * Psum x T k) + a ^ S k * b ^ (m - k) * Psum x T (S k))).
    2:{ intros k Hk. rewrite Psum_cons. replace (S m - S k)%nat with (m - k)%nat by lia. cbn [pow]. ring. }
    rewrite sumf_plus, sumf_scal_l, !Psum_0.
    rewrite Rmult_plus_distr_r. rewrite <- (sumf_scal_l b).
    rewrite (sumf_seq_S m (fun a0 => b * _)). rewrite Psum_0.
    rewrite (sumf_seq_last m (fun a0 => a ^ S a0 * b ^ (m - a0) * Psum x T (S a0))).
    rewrite (Psum_gt x T (S m)) by (unfold m; lia).
    rewrite (sumf_ext_in (seq 0 m) (fun i0 => b * (a ^ S i0 * b ^ (m - S i0) * Psum x T (S i0)))
       (fun k => a ^ S k * b ^ (m - k) * Psum x T (S k))).
    2:{ intros k Hk. apply in_seq in Hk. replace (m - k)%nat with (S (m - S k)) by lia. cbn [pow]. ring. }
    rewrite !Nat.sub_0_r. cbn [pow]. ring.
Qed.

(** ** Tuples *)
Lemma combinations_sorted (T : list nat) : forall k U, StronglySorted lt T -> In U (combinations T k) ->
  StronglySorted lt U /\ incl U T.
Proof.
  induction T as [|i T IH]; intros [|k] U Hs HU; cbn [combinations] in HU.
  - destruct HU as [<-|[]]. split; [constructor|intros z []].
  - destruct HU.
  - destruct HU as [<-|[]]. split; [constructor|intros z []].
  - apply in_app_iff in HU. inversion Hs as [|? ? Hs' Hf]; subst. destruct HU as [HU|HU].
    + apply in_map_iff in HU. destruct HU as (U' & <- & HU'). destruct (IH k U' Hs' HU') as [H1 H2]. split.
      * constructor; [assumption|]. rewrite Forall_forall in *. intros z Hz. apply Hf, H2, Hz.
      * intros z [->|Hz]; [now left|right; now apply H2].
    + destruct (IH (S k) U Hs' HU) as [H1 H2]. split; [assumption|]. intros z Hz. right. now apply H2.
Qed.

Lemma incr_below_sorted n t : incr_below n t <-> StronglySorted lt t /\ Forall (fun x => x < n)%nat t.
Proof.
  unfold incr_below. rewrite (StronglySorted_nth t), Forall_forall. reflexivity.
Qed.

Lemma sub_tuple_unravel n T k U order : In T (combinations (seq 0 n) order) -> (1 <= k)%nat -> In U (combinations T k) ->
  exists ix, unravel_index U n = Ok ix /\ nth_error (combinations (seq 0 n) k) ix = Some U.
Proof.
  intros HT Hk HU. apply in_combinations_incr in HT. destruct HT as [HlT HT]. apply incr_below_sorted in HT.
  destruct HT as [HsT HfT]. destruct (combinations_sorted T k U HsT HU) as [H1 H2].
  pose proof (combinations_elt_length _ _ _ HU) as HlU.
  destruct (unravel_index_position n U) as (ix & E & En); [lia| |].
  - apply incr_below_sorted. split; [assumption|]. rewrite Forall_forall in *. intros z Hz. apply HfT, H2, Hz.
  - exists ix. rewrite HlU in En. auto.
Qed.

Lemma corr_obs_nth n x k ix T : length x = n -> nth_error (combinations (seq 0 n) k) ix = Some T ->
  nthR (corr_obs k x) ix = prodR (map (nthR x) T).
Proof.
  intros Hx E. unfold corr_obs. rewrite (list_as_map 0 x) at 1. rewrite Hx, combinations_map, map_map.
  unfold nthR at 1. apply nth_error_nth. rewrite nth_error_map, E. reflexivity.
Qed.

Lemma corr_obs_length k x : length (corr_obs k x) = binom (length x) k.
Proof. unfold corr_obs. now rewrite map_length, combinations_length. Qed.

(** ** The loop *)
Section Loop.
  Context (n m : nat) (x : list R).
  Context (Hx : length x = n).

  Definition Shape (ps : list (list R)) : Prop :=
    length ps = m /\ forall c, (c < m)%nat -> length (nth c ps []) = binom n (m - c).

  Definition Val (ps : list (list R)) : R :=
    sumf (seq 0 m) (fun c => dot (corr_obs (m - c) x) (nth c ps [])).

  Lemma add_at_ok ps c ix v T : Shape ps -> (c < m)%nat ->
    nth_error (combinations (seq 0 n) (m - c)) ix = Some T ->
    Shape (add_at ps c ix v) /\ Val (add_at ps c ix v) = Val ps + v * prodR (map (nthR x) T).
  Proof.
    intros [H1 H2] Hc E.
    assert (Hix : (ix < binom n (m - c))%nat).
    { assert (ix < length (combinations (seq 0 n) (m - c)))%nat by (apply nth_error_Some; congruence).
      rewrite combinations_length, seq_length in *. assumption. }
    split.
    - unfold add_at. split; [now rewrite upd_length|]. intros c' Hc'.
      destruct (Nat.eq_dec c c') as [<-|Hne].
      + rewrite nth_upd_same by lia. rewrite upd_length. auto.
      + rewrite nth_upd_other by assumption. auto.
    - unfold Val. rewrite (sumf_others m c _ Hc), (sumf_others m c (fun c0 => dot _ (nth c0 ps [])) Hc).
      unfold add_at at 1. rewrite nth_upd_same by lia.
      rewrite dot_upd.
      2:{ rewrite corr_obs_length, Hx, H2; auto. }
      2:{ rewrite H2; auto. }
      rewrite (corr_obs_nth n x (m - c) ix T Hx E).
      rewrite (sumf_ext_in (others m c) (fun i => dot (corr_obs (m - i) x) (nth i (add_at ps c ix v) []))
        (fun i => dot (corr_obs (m - i) x) (nth i ps []))).
      2:{ intros i Hi. apply in_others in Hi. unfold add_at. rewrite nth_upd_other by lia. reflexivity. }
      ring.
  Qed.

  Definition bracket (w : nat -> R) (sub : nat -> nat -> R) (order : nat) (T : list nat) : R :=
    w order * prodR (map (nthR x) T) +
    sumf (seq 1 (order - 1)) (fun k => sub order k * Psum x T k).

  Lemma convert_term_ok w sub c coeff ijkc T ps : Shape ps -> (c < m)%nat ->
    nth_error (combinations (seq 0 n) (m - c)) ijkc = Some T ->
    exists ps', convert_term n w sub c (m - c) coeff ijkc T ps = Ok ps' /\ Shape ps' /\
      Val ps' = Val ps + coeff * bracket w sub (m - c) T.
  Proof.
    intros HS Hc E. unfold convert_term.
    set (order := (m - c)%nat) in *.
    destruct (add_at_ok ps c ijkc (w order * coeff) T HS Hc E) as [HS1 HV1].
    set (ps1 := add_at ps c ijkc (w order * coeff)) in *. cbv zeta.
    assert (HT : In T (combinations (seq 0 n) order)) by (eapply nth_error_In; eassumption).
    destruct (foldM_sum (fun params so => let '(subcounter, suborder) := so in
      foldM (fun params subijk =>
          bind (unravel_index subijk n) (fun ix =>
          Ok (add_at params (subcounter + c + 1) ix (coeff * sub order suborder))))
        (combinations T suborder) params) Shape Val
      (fun so => coeff * (sub order (snd so) * Psum x T (snd so)))
      (combine (range (order - 1)) (map (fun t => (order - 1 - t)%nat) (range (order - 1))))) with (st := ps1)
      as (ps2 & E2 & HS2 & HV2); [|assumption|].
    - intros st [sc so] Hin HSt.
      assert (Hso : (so = order - 1 - sc /\ sc < order - 1)%nat).
      { clear -Hin. unfold range in Hin.
        assert (G : forall k, In (sc, so) (combine k (map (fun t => (order - 1 - t)%nat) k)) -> so = (order - 1 - sc)%nat /\ In sc k).
        { induction k as [|a k IH]; cbn; [intros []|]. intros [E|H]; [injection E as <- <-; auto|].
          destruct (IH H). auto. }
        destruct (G _ Hin) as [E Hi]. apply in_seq in Hi. lia. }
      cbn [snd].
      assert (Em : (m - (sc + c + 1) = so)%nat) by (unfold order in Hso; lia).
      destruct (foldM_sum (fun params subijk =>
          bind (unravel_index subijk n) (fun ix =>
          Ok (add_at params (sc + c + 1) ix (coeff * sub order so)))) Shape Val
          (fun U => coeff * sub order so * prodR (map (nthR x) U)) (combinations T so)) with (st := st)
        as (st' & Es & HSs & HVs); [|assumption|].
      + intros st0 U HU HS0.
        destruct (sub_tuple_unravel n T so U order HT ltac:(lia) HU) as (ix & Eix & Enx).
        rewrite Eix. cbn [bind]. eexists. split; [reflexivity|].
        apply add_at_ok; [assumption|unfold order in Hso; lia|]. now rewrite Em.
      + exists st'. split; [exact Es|]. split; [exact HSs|]. rewrite HVs, sumf_scal_l. unfold Psum. ring.
    - exists ps2. split; [exact E2|]. split; [exact HS2|]. rewrite HV2, HV1. unfold bracket.
      rewrite sumf_scal_l.
      assert (G : sumf (combine (range (order - 1)) (map (fun t => (order - 1 - t)%nat) (range (order - 1))))
         (fun a => sub order (snd a) * Psum x T (snd a)) = sumf (seq 1 (order - 1)) (fun k => sub order k * Psum x T k)).
      { unfold range. set (q := (order - 1)%nat).
        assert (G1 : forall k (f : nat -> R), sumf (combine k (map (fun t => (q - t)%nat) k)) (fun a => f (snd a)) = sumf k (fun t => f (q - t)%nat)).
        { induction k as [|a k IH]; intros f; [reflexivity|]. cbn [map combine]. rewrite !sumf_cons, IH. reflexivity. }
        rewrite (G1 (seq 0 q) (fun k => sub order k * Psum x T k)).
        rewrite sumf_seq_shift. rewrite <- (sumf_seq_rev q (fun i => sub order (S i) * Psum x T (S i))).
        apply sumf_ext_in. intros t Ht. apply in_seq in Ht. replace (S (q - 1 - t)) with (q - t)%nat by lia. reflexivity. }
      rewrite G. ring.
  Qed.

  Lemma convert_run_ok w sub (o : list (list R)) ps : Shape ps ->
    (forall c, (c < m)%nat -> length (nth c o []) = binom n (m - c)) ->
    exists ps',
      foldM (fun params co =>
          let '(counter, order) := co in
          foldM (fun params ct =>
              let '(ijkcounter, ijk) := ct in
              bind (get (nth counter o []) ijkcounter) (fun coeff =>
              convert_term n w sub counter order coeff ijkcounter ijk params))
            (combine (range (binom n order)) (combinations (range n) order)) params)
        (combine (range m) (map (fun t => (m - t)%nat) (range m))) ps = Ok ps' /\
      Shape ps' /\
      Val ps' = Val ps + sumf (seq 0 m) (fun c => sumf (seq 0 (binom n (m - c))) (fun k =>
          nthR (nth c o []) k * bracket w sub (m - c) (nth k (combinations (seq 0 n) (m - c)) []))).
  Proof.
    intros HS Ho.
    assert (Hrange : forall l : list nat, combine l (map (fun t => (m - t)%nat) l) = map (fun t => (t, (m - t)%nat)) l).
    { induction l as [|a l IH]; [reflexivity|]. cbn [map combine]. now rewrite IH. }
    unfold range at 3 4. rewrite Hrange.
    set (d := fun c : nat => sumf (seq 0 (binom n (m - c))) (fun k =>
          nthR (nth c o []) k * bracket w sub (m - c) (nth k (combinations (seq 0 n) (m - c)) []))).
    match goal with |- exists ps', foldM ?F _ _ = _ /\ _ => pose (f := F) end.
    destruct (foldM_sum f Shape Val (fun co => d (fst co)) (map (fun t => (t, (m - t)%nat)) (seq 0 m))) with (st := ps)
      as (ps' & E & HS' & HV'); [|assumption|].
    - intros st [c order] Hin HSt. apply in_map_iff in Hin. destruct Hin as (t & Et & Ht). injection Et as <- <-.
      apply in_seq in Ht. cbn [fst]. unfold f.
      assert (Lc : length (combinations (seq 0 n) (m - t)) = binom n (m - t)) by (now rewrite combinations_length, seq_length).
      destruct (foldM_sum (fun params ct =>
              let '(ijkcounter, ijk) := ct in
              bind (get (nth t o []) ijkcounter) (fun coeff =>
              convert_term n w sub t (m - t) coeff ijkcounter ijk params)) Shape Val
          (fun ct => nthR (nth t o []) (fst ct) * bracket w sub (m - t) (snd ct))
          (combine (range (binom n (m - t))) (combinations (range n) (m - t)))) with (st := st)
        as (st' & Es & HSs & HVs); [|assumption|].
      + intros st0 [k T] Hk HS0. unfold range in Hk. rewrite <- Lc in Hk. apply in_combine_index in Hk.
        assert (Hlt : (k < binom n (m - t))%nat) by (rewrite <- Lc; apply nth_error_Some; congruence).
        unfold get. rewrite (nth_error_nth' _ 0) by (rewrite Ho by lia; assumption). cbn [bind fst snd].
        apply (convert_term_ok w sub t (nth k (nth t o []) 0) k T st0 HS0 ltac:(lia) Hk).
      + exists st'. split; [exact Es|]. split; [exact HSs|]. rewrite HVs. f_equal.
        unfold range, d. rewrite <- Lc at 1. rewrite (sumf_combine_index []). rewrite Lc. reflexivity.
    - exists ps'. split; [exact E|]. split; [exact HS'|]. rewrite HV', sumf_map. reflexivity.
  Qed.
End Loop.

Lemma Shape_zero n m : Shape n m (map (fun i => repeat 0 (binom n i)) (map (fun t => (m - t)%nat) (range m))).
Proof.
  split; [rewrite !map_length; unfold range; now rewrite seq_length|].
  intros c Hc. rewrite map_map. unfold range. rewrite nth_map_seq by assumption. apply repeat_length.
Qed.

Lemma dot_repeat0 x k : dot x (repeat 0 k) = 0.
Proof. revert k. induction x as [|a x IH]; intros [|k]; try reflexivity. cbn [repeat]. rewrite dot_cons, IH. ring. Qed.

Lemma Val_zero n m x : Val m x (map (fun i => repeat 0 (binom n i)) (map (fun t => (m - t)%nat) (range m))) = 0.
Proof.
  unfold Val. apply sumf_zero. intros c Hc. apply in_seq in Hc. rewrite map_map. unfold range.
  rewrite nth_map_seq by lia. apply dot_repeat0.
Qed.

(** ** Brackets *)
Lemma sumf_seq_ends m (f : nat -> R) : (1 <= m)%nat ->
  sumf (seq 0 (S m)) f = f 0%nat + sumf (seq 1 (m - 1)) f + f m.
Proof.
  intros H. destruct m as [|m]; [lia|]. rewrite sumf_seq_S, sumf_seq_last, <- sumf_seq_shift.
  replace (S m - 1)%nat with m by lia. ring.
Qed.

Lemma bracket01 x order T : (1 <= order)%nat -> length T = order ->
  bracket x (fun o => 2 ^ o) (fun o so => 2 ^ so * (-1) ^ (o - so)) order T =
  prodR (map (fun i => 2 * nthR x i + -1) T) - (-1) ^ order.
Proof.
  intros Ho HT. rewrite (prod_expand 2 (-1) x T), HT, sumf_seq_ends by assumption.
  unfold bracket. rewrite Psum_0, Nat.sub_0_r, Nat.sub_diag. assert (HP : Psum x T order = prodR (map (nthR x) T)) by (rewrite <- HT; apply Psum_full). rewrite HP. cbn [pow]. ring.
Qed.

Lemma pow_half o : / 2 ^ o = (/ 2) ^ o.
Proof. induction o as [|o IH]; cbn [pow]; [apply Rinv_1|]. rewrite Rinv_mult, IH. reflexivity. Qed.

Lemma bracket11 x order T : (1 <= order)%nat -> length T = order ->
  bracket x (fun o => / 2 ^ o) (fun o _ => / 2 ^ o) order T =
  prodR (map (fun i => / 2 * nthR x i + / 2) T) - (/ 2) ^ order.
Proof.
  intros Ho HT. rewrite (prod_expand (/ 2) (/ 2) x T), HT, sumf_seq_ends by assumption.
  unfold bracket. rewrite Psum_0, Nat.sub_0_r, Nat.sub_diag, pow_half.
  rewrite (sumf_ext_in (seq 1 (order - 1)) (fun k => (/ 2) ^ k * (/ 2) ^ (order - k) * Psum x T k) (fun k => (/ 2) ^ order * Psum x T k)).
  2:{ intros k Hk. apply in_seq in Hk. rewrite <- pow_add. do 2 f_equal. lia. }
  assert (HP : Psum x T order = prodR (map (nthR x) T)) by (rewrite <- HT; apply Psum_full). rewrite HP. cbn [pow]. ring.
Qed.

(** ** Result *)
Lemma multi_energy_rev m ps x : length ps = m ->
  multi_energy (rev ps) x = - sumf (seq 0 m) (fun c => dot (corr_obs (m - c) x) (nth c ps [])).
Proof.
  intros Hp. unfold multi_energy. rewrite rev_length, Hp. f_equal.
  rewrite <- (sumf_seq_rev m (fun c => dot (corr_obs (m - c) x) (nth c ps []))).
  apply sumf_ext_in. intros k Hk. apply in_seq in Hk. f_equal.
  - f_equal. lia.
  - rewrite rev_nth by lia. f_equal. lia.
Qed.

Lemma corr_obs_affine a b n x k j : length x = n -> (j < binom n k)%nat ->
  prodR (map (fun i => a * nthR x i + b) (nth j (combinations (seq 0 n) k) [])) =
  nthR (corr_obs k (map (fun y => a * y + b) x)) j.
Proof.
  intros Hx Hj.
  assert (Hj' : (j < length (combinations (seq 0 n) k))%nat) by (rewrite combinations_length, seq_length; assumption).
  rewrite (corr_obs_nth n _ k j (nth j (combinations (seq 0 n) k) [])); [|now rewrite map_length|now apply nth_error_nth'].
  f_equal. apply map_ext_in. intros i Hi.
  assert (Hin : In (nth j (combinations (seq 0 n) k) []) (combinations (seq 0 n) k)) by now apply nth_In.
  apply in_combinations_incr in Hin. destruct Hin as [_ [_ Hin]]. specialize (Hin i Hi).
  unfold nthR. rewrite (nth_indep (map _ x) 0 ((fun y => a * y + b) 0)) by (rewrite map_length; lia).
  symmetry. apply (map_nth (fun y => a * y + b)).
Qed.

Lemma convert_result n (oparams ps : list (list R)) m x a b w sub : length x = n -> length oparams = m ->
  (forall k, (k < m)%nat -> length (nth k oparams []) = binom n (S k)) -> length ps = m ->
  (forall order T, (1 <= order)%nat -> length T = order ->
     bracket x w sub order T = prodR (map (fun i => a * nthR x i + b) T) - b ^ order) ->
  Val m x ps = sumf (seq 0 m) (fun c => sumf (seq 0 (binom n (m - c))) (fun k =>
          nthR (nth c (rev oparams) []) k * bracket x w sub (m - c) (nth k (combinations (seq 0 n) (m - c)) []))) ->
  multi_energy (rev ps) x = multi_energy oparams (map (fun y => a * y + b) x) +
    sumf (seq 0 m) (fun c => b ^ (m - c) * sumR (nth c (rev oparams) [])).
Proof.
  intros Hx Ho Hl Hp HB HV. rewrite (multi_energy_rev m) by assumption.
  change (sumf (seq 0 m) (fun c => dot (corr_obs (m - c) x) (nth c ps []))) with (Val m x ps). rewrite HV.
  replace (multi_energy oparams) with (multi_energy (rev (rev oparams))) by (now rewrite rev_involutive). rewrite (multi_energy_rev m) by (now rewrite rev_length).
  rewrite <- !sumf_opp, <- sumf_plus. apply sumf_ext_in. intros c Hc. apply in_seq in Hc.
  assert (Lc : length (nth c (rev oparams) []) = binom n (m - c)).
  { rewrite rev_nth by lia. rewrite Ho, Hl by lia. f_equal. lia. }
  rewrite (dot_seq _ _ (binom n (m - c))) by (rewrite ?corr_obs_length, ?map_length; congruence).
  rewrite <- sumf_opp.
  unfold sumR. rewrite <- (sumf_seq_nth 0 (nth c (rev oparams) []) (fun y => y)), Lc.
  rewrite <- sumf_scal_l, <- sumf_opp, <- sumf_plus. apply sumf_ext_in. intros k Hk. apply in_seq in Hk.
  rewrite HB; [|lia|].
  2:{ apply (combinations_elt_length (seq 0 n)), nth_In. rewrite combinations_length, seq_length. lia. }
  rewrite (corr_obs_affine a b n x (m - c) k Hx) by lia. unfold nthR. ring.
Qed.

Definition good_params (n : nat) (ps : list (list R)) : Prop :=
  ps <> [] /\ forall k, (k < length ps)%nat -> length (nth k ps []) = binom n (S k).

Lemma good_head n ps : good_params n ps -> length (nth 0 ps []) = n.
Proof. intros [H1 H2]. rewrite H2 by (destruct ps; [congruence|cbn; lia]). apply binom_n_1. Qed.

Lemma convert_any n oparams b : good_params n oparams -> b <> ToOther ->
  exists ps, ising_convert_params oparams b = Ok ps /\ length ps = length oparams /\
    (forall k, (k < length ps)%nat -> length (nth k ps []) = binom n (S k)) /\
    exists c, forall x, length x = n ->
      multi_energy ps x = multi_energy oparams
        (map (fun y => match b with To01 => 2 * y + -1 | _ => / 2 * y + / 2 end) x) + c.
Proof.
  intros Hg Hb. pose proof (good_head n oparams Hg) as Hh. destruct Hg as [H0 Hl].
  destruct oparams as [|h rest]; [congruence|]. cbn [nth] in Hh.
  set (op := h :: rest) in *. set (m := length op).
  assert (Ho : forall c, (c < m)%nat -> length (nth c (rev op) []) = binom n (m - c)).
  { intros c Hc. rewrite rev_nth by assumption. rewrite Hl by (fold m; lia). f_equal. fold m. lia. }
  assert (Main : forall (w : nat -> R) sub a bb, 
     (forall x order T, (1 <= order)%nat -> length T = order ->
       bracket x w sub order T = prodR (map (fun i => a * nthR x i + bb) T) - bb ^ order) ->
     exists p, foldM (fun params co =>
          let '(counter, order) := co in
          foldM (fun params ct =>
              let '(ijkcounter, ijk) := ct in
              bind (get (nth counter (rev op) []) ijkcounter) (fun coeff =>
              convert_term n w sub counter order coeff ijkcounter ijk params))
            (combine (range (binom n order)) (combinations (range n) order)) params)
        (combine (range m) (map (fun t => (m - t)%nat) (range m)))
        (map (fun i => repeat 0 (binom n i)) (map (fun t => (m - t)%nat) (range m))) = Ok p /\
      length (rev p) = m /\ (forall k, (k < length (rev p))%nat -> length (nth k (rev p) []) = binom n (S k)) /\
      exists c, forall x, length x = n -> multi_energy (rev p) x = multi_energy op (map (fun y => a * y + bb) x) + c).
  { intros w sub a bb HB.
    destruct (convert_run_ok n m (repeat 0 n) (repeat_length 0 n) w sub (rev op) _ (Shape_zero n m) Ho) as (p & E & [HS1 HS2] & _).
    exists p. split; [exact E|]. rewrite rev_length. split; [exact HS1|]. split.
    - intros k Hk. rewrite rev_nth by assumption. rewrite HS1 in *. rewrite HS2 by lia. f_equal. lia.
    - eexists. intros x Hx.
      destruct (convert_run_ok n m x Hx w sub (rev op) _ (Shape_zero n m) Ho) as (p' & E' & _ & HV).
      rewrite E in E'. injection E' as <-. rewrite Val_zero, Rplus_0_l in HV.
      apply (convert_result n op p m x a bb w sub Hx eq_refl Hl HS1 (HB x) HV). }
  unfold ising_convert_params. fold op. rewrite rev_length. fold m. unfold op at 1. cbv zeta. rewrite Hh.
  destruct b; [| |congruence].
  - destruct (Main (fun o => / 2 ^ o) (fun o _ => / 2 ^ o) (/ 2) (/ 2) (fun x o T => bracket11 x o T)) as (p & E & L1 & L2 & c & Hc).
    exists (rev p). rewrite E. cbn [bind]. split; [reflexivity|]. split; [exact L1|]. split; [exact L2|]. exists c. exact Hc.
  - destruct (Main (fun o => 2 ^ o) (fun o so => 2 ^ so * (-1) ^ (o - so)) 2 (-1) (fun x o T => bracket01 x o T)) as (p & E & L1 & L2 & c & Hc).
    exists (rev p). rewrite E. cbn [bind]. split; [reflexivity|]. split; [exact L1|]. split; [exact L2|]. exists c. exact Hc.
Qed.
