(** * Proofs: correlations, counting and histogram reweighting. *)
From Verif Require Import Prelude Spec PreludeFacts M_Index M_Energy M_Params M_Corr P_Index P_Unravel P_Energy P_Energy2 P_Params P_Unique.
Import ListNotations.
Local Open Scope R_scope.

Definition spin_data (X : list (list Z)) : Prop :=
  forall r, In r X -> forall x, In x r -> x = (-1)%Z \/ x = 0%Z \/ x = 1%Z.

Lemma spins_ok_spec X : spins_ok X = true <-> spin_data X.
Proof.
  unfold spins_ok, spin_data. rewrite forallb_forall. split; intros H r Hr.
  - intros x Hx. specialize (H r Hr). rewrite forallb_forall in H. specialize (H x Hx).
    rewrite !orb_true_iff, !Z.eqb_eq in H. tauto.
  - apply forallb_forall. intros x Hx. specialize (H r Hr x Hx). rewrite !orb_true_iff, !Z.eqb_eq. tauto.
Qed.

Lemma spin_data_bad X : ~ spin_data X -> spins_ok X = false.
Proof. intros H. destruct (spins_ok X) eqn:E; [|reflexivity]. apply spins_ok_spec in E. contradiction. Qed.

Lemma xat_range X r i : spin_data X -> In r X -> -1 <= IZR (xat r i) <= 1.
Proof.
  intros H Hr. unfold xat. destruct (nth_in_or_default i r 0%Z) as [Hin|E].
  - destruct (H r Hr _ Hin) as [-> | [-> | ->]]; lra.
  - rewrite E. lra.
Qed.

Lemma prod_range a b : -1 <= a <= 1 -> -1 <= b <= 1 -> -1 <= a * b <= 1.
Proof. intros Ha Hb. split; nra. Qed.

(** ** Reading entries by position *)
Lemma nthR_map_pairs N (f : nat * nat -> R) i j : (i < j)%nat -> (j < N)%nat ->
  nthR (map f (loop_ij N)) (pair_index N i j) = f (i, j).
Proof.
  intros Hij Hj. rewrite loop_ij_pairs. unfold nthR. apply nth_error_nth. rewrite nth_error_map.
  rewrite pair_index_spec by assumption. reflexivity.
Qed.

Lemma map_combine_index {A B} (l : list A) (f : nat -> A -> B) (g : nat -> B) (d : A) :
  (forall k, (k < length l)%nat -> f k (nth k l d) = g k) ->
  map (fun kp => let '(k, p) := kp in f k p) (combine (range (length l)) l) = map g (seq 0 (length l)).
Proof.
  intros H. unfold range.
  assert (G : forall l a, (forall k, (k < length l)%nat -> f (a + k)%nat (nth k l d) = g (a + k)%nat) ->
    map (fun kp => let '(k, p) := kp in f k p) (combine (seq a (length l)) l) = map g (seq a (length l))).
  { clear. induction l as [|x l IH]; intros a H; [reflexivity|]. cbn [length seq combine map]. f_equal.
    - specialize (H 0%nat). rewrite Nat.add_0_r in H. apply H. cbn. lia.
    - apply IH. intros k Hk. specialize (H (S k)). rewrite Nat.add_succ_r in H. cbn [Nat.add]. apply H. cbn. lia. }
  apply (G l 0%nat). exact H.
Qed.

(** ** Resolved weights: values of pair_corr *)
Definition wsum (X : list (list Z)) (w : list R) (f : list Z -> R) : R :=
  sumf (combine X w) (fun rw => snd rw * f (fst rw)).

Definition means_of (N : nat) (M : (list Z -> R) -> R) : list R :=
  map (fun i => M (fun r => IZR (xat r i))) (seq 0 N).
Definition corrs_of (N : nat) (M : (list Z -> R) -> R) : list R :=
  map (fun p => M (fun r => IZR (xat r (fst p)) * IZR (xat r (snd p)))) (pairs (seq 0 N)).

Lemma pair_corr_array X N w : spin_data X -> length w = length X ->
  pair_corr X N (WArray w) false false false = Ok (means_of N (wsum X w), corrs_of N (wsum X w)).
Proof.
  intros HX Hw. unfold pair_corr. apply spins_ok_spec in HX. rewrite HX. cbn [negb].
  unfold resolve_weights. cbn [andb negb]. rewrite Hw, Nat.eqb_refl. cbn [negb bind].
  f_equal. f_equal.
  - apply map_ext. intros i. apply sumf_ext. intros [r q]. cbn. ring.
  - unfold corrs_of. rewrite <- loop_ij_pairs. apply map_ext. intros [i j]. apply sumf_ext. intros [r q]. cbn. ring.
Qed.

Lemma wsum_uniform X f : wsum X (map (fun _ => 1 / INR (length X)) X) f = sumf X f / INR (length X).
Proof.
  unfold wsum. generalize (INR (length X)) as c. intros c.
  induction X as [|r X IH]; [cbn; unfold Rdiv; ring|].
  cbn [map combine]. rewrite !sumf_cons, IH. cbn [fst snd]. unfold Rdiv. ring.
Qed.

Lemma means_length N M : length (means_of N M) = N.
Proof. unfold means_of. now rewrite map_length, seq_length. Qed.
Lemma corrs_length N M : length (corrs_of N M) = (N * (N - 1) / 2)%nat.
Proof. unfold corrs_of. now rewrite map_length, pairs_seq_length. Qed.
Lemma means_nth N M i : (i < N)%nat -> nthR (means_of N M) i = M (fun r => IZR (xat r i)).
Proof. intros H. unfold means_of. now rewrite nthR_map_seq. Qed.
Lemma corrs_nth N M i j : (i < j)%nat -> (j < N)%nat ->
  nthR (corrs_of N M) (pair_index N i j) = M (fun r => IZR (xat r i) * IZR (xat r j)).
Proof. intros H1 H2. unfold corrs_of. rewrite <- loop_ij_pairs, nthR_map_pairs by assumption. reflexivity. Qed.

Lemma subtract_ok N si sisj : 
  map (fun kp => let '(k, p) := kp in nthR sisj k - nthR si (fst p) * nthR si (snd p))
          (combine (range (length (loop_ij N))) (loop_ij N)) =
  map (fun k => nthR sisj k - nthR si (fst (nth k (loop_ij N) (0, 0)%nat)) * nthR si (snd (nth k (loop_ij N) (0, 0)%nat)))
     (seq 0 (length (loop_ij N))).
Proof.
  apply (map_combine_index (loop_ij N) (fun k p => nthR sisj k - nthR si (fst p) * nthR si (snd p)) _ (0, 0)%nat).
  intros; reflexivity.
Qed.

Lemma loop_nth N i j : (i < j)%nat -> (j < N)%nat -> nth (pair_index N i j) (loop_ij N) (0, 0)%nat = (i, j).
Proof. intros H1 H2. apply nth_error_nth. rewrite loop_ij_pairs. now apply pair_index_spec. Qed.

Lemma pair_index_loop N i j : (i < j)%nat -> (j < N)%nat -> (pair_index N i j < length (loop_ij N))%nat.
Proof. intros H1 H2. rewrite loop_ij_pairs. apply nth_error_Some. rewrite pair_index_spec by assumption. discriminate. Qed.

Lemma wsum_scal X w c f : wsum X w (fun r => c * f r) = c * wsum X w f.
Proof. unfold wsum. rewrite <- sumf_scal_l. apply sumf_ext. intros; ring. Qed.
Lemma wsum_plus X w f g : wsum X w (fun r => f r + g r) = wsum X w f + wsum X w g.
Proof. unfold wsum. rewrite <- sumf_plus. apply sumf_ext. intros; ring. Qed.
Lemma wsum_ext X w f g : (forall r, In r X -> f r = g r) -> wsum X w f = wsum X w g.
Proof. intros H. unfold wsum. apply sumf_ext_in. intros [r q] Hin. cbn. rewrite H; [reflexivity|]. eapply in_combine_l; eassumption. Qed.
Lemma wsum_const X w c : length w = length X -> wsum X w (fun _ => c) = c * sumR w.
Proof.
  intros H. unfold wsum, sumR. revert w H. induction X as [|r X IH]; intros [|q w] H; try discriminate; cbn [combine].
  - cbn. ring.
  - rewrite !sumf_cons, IH by (cbn in H; lia). cbn. ring.
Qed.

Lemma wsum_bounds X w f : length w = length X -> (forall q, In q w -> 0 <= q) -> sumR w = 1 ->
  (forall r, In r X -> -1 <= f r <= 1) -> -1 <= wsum X w f <= 1.
Proof.
  intros Hl Hw H1 Hf. split.
  - apply Rle_trans with (wsum X w (fun _ => -1)); [rewrite wsum_const, H1 by assumption; lra|].
    apply sumf_le. intros [r q] Hin. cbn. pose proof (Hf r (in_combine_l _ _ _ _ Hin)). pose proof (Hw q (in_combine_r _ _ _ _ Hin)). nra.
  - apply Rle_trans with (wsum X w (fun _ => 1)); [|rewrite wsum_const, H1 by assumption; lra].
    apply sumf_le. intros [r q] Hin. cbn. pose proof (Hf r (in_combine_l _ _ _ _ Hin)). pose proof (Hw q (in_combine_r _ _ _ _ Hin)). nra.
Qed.

Lemma wsum_map X w (g : list Z -> list Z) f : wsum (map g X) w f = wsum X w (fun r => f (g r)).
Proof.
  unfold wsum. revert w. induction X as [|r X IH]; intros [|q w]; try reflexivity. cbn [map combine].
  rewrite !sumf_cons, IH. reflexivity.
Qed.

(** ** convert_corr *)
Lemma write_seq_ix {A B} (val : nat -> A -> B) L : forall pre rest,
  (length L <= length rest)%nat ->
  fold_left (fun st a => let '(y, c) := st in (upd y c (val c a), (c + 1)%nat)) L (pre ++ rest, length pre) =
  (pre ++ map (fun kp => let '(k, p) := kp in val k p) (combine (seq (length pre) (length L)) L) ++ skipn (length L) rest, (length pre + length L)%nat).
Proof.
  induction L as [|a L IH]; intros pre rest H.
  - cbn. now rewrite Nat.add_0_r.
  - destruct rest as [|b rest]; [cbn in H; lia|]. cbn [fold_left].
    rewrite upd_app2. cbn [upd]. change (val (length pre) a :: rest) with ([val (length pre) a] ++ rest).
    rewrite app_assoc. replace (length pre + 1)%nat with (length (pre ++ [val (length pre) a])) by (rewrite app_length; cbn; lia).
    rewrite IH by (cbn in H; lia). rewrite app_length. cbn [length seq combine map skipn].
    replace (length pre + 1)%nat with (S (length pre)) by lia. f_equal; [|lia].
    rewrite <- !app_assoc. reflexivity.
Qed.

Lemma convert_corr_ok si sisj b : let n := length si in length sisj = (n * (n - 1) / 2)%nat ->
  convert_corr si sisj b =
  let new f := map (fun k => f (nthR sisj k) (nthR si (fst (nth k (loop_ij n) (0, 0)%nat))) (nthR si (snd (nth k (loop_ij n) (0, 0)%nat))))
     (seq 0 (length (loop_ij n))) in
  match b with
  | To11 => Ok (map (fun x => x * 2 - 1) si, new (fun q a b => 4 * q - 2 * a - 2 * b + 1))
  | To01 => Ok (map (fun x => (x + 1) / 2) si, new (fun q a b => (q + a + b + 1) / 4))
  | ToOther => Err GenericException
  end.
Proof.
  intros n H. unfold convert_corr. fold n. rewrite H, Nat.ltb_irrefl.
  assert (G : forall f : R -> R -> R -> R, fst (fold_left (fun st (p : nat * nat) => let '(new, k) := st in
             (upd new k (f (nthR sisj k) (nthR si (fst p)) (nthR si (snd p))), (k + 1)%nat))
           (loop_ij n) (repeat 0 (n * (n - 1) / 2), 0%nat)) =
     map (fun k => f (nthR sisj k) (nthR si (fst (nth k (loop_ij n) (0, 0)%nat))) (nthR si (snd (nth k (loop_ij n) (0, 0)%nat))))
     (seq 0 (length (loop_ij n)))).
  { intros f. pose proof (write_seq_ix (fun k (p : nat * nat) => f (nthR sisj k) (nthR si (fst p)) (nthR si (snd p))) (loop_ij n) []
       (repeat 0 (n * (n - 1) / 2))) as W. cbn [app length] in W. rewrite W.
    2:{ rewrite repeat_length, loop_ij_pairs, pairs_seq_length. lia. }
    cbn [fst]. rewrite skipn_all2 by (rewrite repeat_length, loop_ij_pairs, pairs_seq_length; lia). rewrite app_nil_r.
    apply (map_combine_index (loop_ij n) (fun k p => f (nthR sisj k) (nthR si (fst p)) (nthR si (snd p))) _ (0, 0)%nat).
    intros; reflexivity. }
  destruct b; cbv zeta; cbn [bind]; [| |reflexivity]; do 2 f_equal.
  - apply (G (fun q a b => 4 * q - 2 * a - 2 * b + 1)).
  - apply (G (fun q a b => (q + a + b + 1) / 4)).
Qed.

(** A list of couplings indexed by pairs is determined by its entries. *)
Lemma pair_list_ext N u v : length u = (N * (N - 1) / 2)%nat -> length v = (N * (N - 1) / 2)%nat ->
  (forall i j, (i < j)%nat -> (j < N)%nat -> nthR u (pair_index N i j) = nthR v (pair_index N i j)) -> u = v.
Proof.
  intros Hu Hv H. apply (list_eq_nth 0); [congruence|]. intros k Hk. rewrite Hu in Hk.
  assert (Hk' : (k < length (loop_ij N))%nat) by (rewrite loop_ij_pairs, pairs_seq_length; assumption).
  destruct (nth k (loop_ij N) (0, 0)%nat) as [i j] eqn:E.
  assert (Hin : In (i, j) (loop_ij N)) by (rewrite <- E; apply nth_In; assumption).
  rewrite loop_ij_pairs in Hin. apply in_pairs_seq in Hin.
  assert (Ek : k = pair_index N i j).
  { apply (proj1 (NoDup_nth (loop_ij N) (0, 0)%nat)); [rewrite loop_ij_pairs; apply NoDup_pairs_seq|assumption|apply pair_index_loop; lia|].
    rewrite E, loop_nth by lia. reflexivity. }
  rewrite Ek. apply H; lia.
Qed.
