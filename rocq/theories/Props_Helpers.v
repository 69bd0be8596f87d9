(** * C85: combinatorial helpers, third-order indices, spectral clusters and the C++ Potts
    sampler. *)
From Coq Require Import Relations Permutation Classical.
From Verif Require Import Prelude PreludeFacts Spec M_Params M_Sampler M_Helpers P_Params P_Sampler P_MPF Props_Sampler.
Import ListNotations.

(** ** Products of binomials *)
Lemma binom_0_r n : binom n 0 = 1%nat. Proof. now destruct n. Qed.
Lemma binom_big n : forall k, (n < k)%nat -> binom n k = 0%nat.
Proof. induction n as [|n IH]; intros [|k] H; cbn [binom]; try lia. rewrite !IH by lia. reflexivity. Qed.
Lemma binom_diag n : binom n n = 1%nat.
Proof. induction n as [|n IH]; cbn [binom]; [reflexivity|]. rewrite IH, binom_big by lia. reflexivity. Qed.

Lemma binom_fact : forall s k j, (k + j)%nat = s -> (binom (k + j) k * (fact k * fact j))%nat = fact (k + j).
Proof.
  induction s as [|s IH]; intros k j E.
  - assert (k = 0%nat) by lia. assert (j = 0%nat) by lia. subst. reflexivity.
  - destruct k as [|k]; [rewrite binom_0_r; cbn [fact Nat.add]; lia|].
    destruct j as [|j]; [rewrite Nat.add_0_r, binom_diag; cbn [fact]; lia|].
    replace (S k + S j)%nat with (S (k + S j)) by lia. cbn [binom].
    assert (H1 := IH k (S j) ltac:(lia)). assert (H2 := IH (S k) j ltac:(lia)). replace (S k + j)%nat with (k + S j)%nat in H2 by lia.
    change (fact (S (k + S j))) with ((S (k + S j)) * fact (k + S j))%nat.
    rewrite Nat.mul_add_distr_r.
    replace (binom (k + S j) k * (fact (S k) * fact (S j)))%nat with (S k * fact (k + S j))%nat.
    2: { rewrite <- H1. change (fact (S k)) with (S k * fact k)%nat. ring. }
    replace (binom (k + S j) (S k) * (fact (S k) * fact (S j)))%nat with (S j * fact (k + S j))%nat.
    2: { rewrite <- H2. change (fact (S j)) with (S j * fact j)%nat. ring. }
    replace (S (k + S j)) with (S k + S j)%nat by lia. ring.
Qed.

Lemma binom_sym n i : (i <= n)%nat -> binom n (n - i) = binom n i.
Proof.
  intros H. assert (H1 := binom_fact n i (n - i) ltac:(lia)). assert (H2 := binom_fact n (n - i) i ltac:(lia)).
  replace (i + (n - i))%nat with n in H1 by lia. replace (n - i + i)%nat with n in H2 by lia.
  assert (P1 := fact_neq_0 i). assert (P2 := fact_neq_0 (n - i)).
  apply (Nat.mul_cancel_r _ _ (fact i * fact (n - i))); [nia|]. rewrite H1, <- H2. ring.
Qed.

Local Open Scope R_scope.

Definition elem_sym (k : nat) (x : list R) : R := sumR (map prodR (combinations x k)).

Lemma sumR_app u v : sumR (u ++ v) = sumR u + sumR v.
Proof. unfold sumR. apply sumf_app. Qed.

Lemma elem_sym_0 x : elem_sym 0 x = 1.
Proof. unfold elem_sym. destruct x; cbn; lra. Qed.
Lemma elem_sym_cons k y x : elem_sym (S k) (y :: x) = y * elem_sym k x + elem_sym (S k) x.
Proof.
  unfold elem_sym. cbn [combinations]. rewrite map_app, sumR_app, map_map. f_equal.
  rewrite sumR_map, (sumR_map prodR). rewrite <- sumf_scal_l. apply sumf_ext. intros t. reflexivity.
Qed.
Lemma elem_sym_big k x : (length x < k)%nat -> elem_sym k x = 0.
Proof.
  intros H. unfold elem_sym. assert (L := combinations_length x k). rewrite binom_big in L by assumption.
  destruct (combinations x k); [reflexivity|discriminate].
Qed.

Lemma product_expand a b x :
  prodR (map (fun y => a * y + b) x) = sumf (seq 0 (S (length x))) (fun k => a ^ k * b ^ (length x - k) * elem_sym k x).
Proof.
  induction x as [|y x IH]; [cbn [map length seq]; rewrite sumf_cons, sumf_nil, elem_sym_0; cbn; ring|].
  cbn [map]. change (prodR (?u :: ?v)) with (u * prodR v). rewrite IH. set (n := length x) in *.
  change (length (y :: x)) with (S n).
  rewrite (sumf_seq_S (S n)). rewrite elem_sym_0.
  transitivity (a * b ^ n * 0 + (sumf (seq 0 (S n)) (fun k => a * y * (a ^ k * b ^ (n - k) * elem_sym k x)) + b * sumf (seq 0 (S n)) (fun k => a ^ k * b ^ (n - k) * elem_sym k x))).
  { rewrite sumf_scal_l. ring. }
  rewrite (sumf_seq_S n (fun k => a ^ k * b ^ (n - k) * elem_sym k x)), elem_sym_0.
  transitivity (b ^ S n + (sumf (seq 0 (S n)) (fun k => a * y * (a ^ k * b ^ (n - k) * elem_sym k x)) + sumf (seq 0 (S n)) (fun k => a ^ S k * b ^ (n - k) * elem_sym (S k) x))).
  2: { rewrite <- sumf_plus. f_equal; [rewrite Nat.sub_0_r; cbn; ring|]. apply sumf_ext. intros k. rewrite elem_sym_cons. cbn [pow Nat.sub]. ring. }
  rewrite (sumf_seq_last n (fun k => a ^ S k * b ^ (n - k) * elem_sym (S k) x)), (elem_sym_big (S n) x) by (fold n; lia).
  rewrite Rmult_plus_distr_l. rewrite <- (sumf_scal_l b).
  rewrite (sumf_ext_in (seq 0 n) (fun k => b * (a ^ S k * b ^ (n - S k) * elem_sym (S k) x)) (fun k => a ^ S k * b ^ (n - k) * elem_sym (S k) x)).
  2: { intros k Hk. apply in_seq in Hk. replace (n - k)%nat with (S (n - S k)) by lia. cbn [pow]. ring. }
  rewrite Nat.sub_0_r. cbn [pow]. ring.
Qed.

Lemma dot_flat_map {A} (f g : A -> list R) l : (forall i, In i l -> length (f i) = length (g i)) ->
  dot (flat_map f l) (flat_map g l) = sumf l (fun i => dot (f i) (g i)).
Proof.
  induction l as [|i l IH]; intros H; cbn [flat_map]; [reflexivity|]. rewrite dot_app by (apply H; now left).
  rewrite sumf_cons, IH; [reflexivity|]. intros j Hj. apply H. now right.
Qed.

Lemma dot_repeat c y : dot (repeat c (length y)) y = c * sumR y.
Proof. induction y as [|v y IH]; cbn [length repeat]; [cbn; ring|]. rewrite dot_cons, IH. unfold sumR. rewrite sumf_cons. ring. Qed.

Lemma sumf_seq_reverse n f : sumf (seq 0 n) (fun i => f (n - 1 - i)%nat) = sumf (seq 0 n) f.
Proof.
  induction n as [|n IH]; [reflexivity|].
  rewrite sumf_seq_S, (sumf_seq_last n f). rewrite <- IH. replace (S n - 1 - 0)%nat with n by lia. rewrite Rplus_comm. f_equal.
  apply sumf_ext. intros i. f_equal. lia.
Qed.

(** The products of the coefficients with the monomials of x, those with most factors
    first and those of equal size in the order of itertools.combinations, sum to the
    product of the binomials; there are 2^n coefficients and they sum to (a+b)^n. *)
Theorem C85_expand_binomial a b (x : list R) :
  let n := length x in
  prodR (map (fun y => a * y + b) x) =
    dot (expand_binomial a b n) (flat_map (fun i => map prodR (combinations x (n - i))) (seq 0 (n + 1))) /\
  length (expand_binomial a b n) = (2 ^ n)%nat /\ sumR (expand_binomial a b n) = (a + b) ^ n.
Proof.
  intros n.
  assert (G : forall x : list R, length x = n -> prodR (map (fun y => a * y + b) x) =
    dot (expand_binomial a b n) (flat_map (fun i => map prodR (combinations x (n - i))) (seq 0 (n + 1)))).
  { intros x0 Hx. unfold expand_binomial, range. rewrite dot_flat_map.
    2: { intros i Hi. apply in_seq in Hi. rewrite repeat_length, map_length, combinations_length, Hx, binom_sym by lia. reflexivity. }
    rewrite product_expand, Hx. rewrite <- (sumf_seq_reverse (S n)). replace (n + 1)%nat with (S n) by lia.
    apply sumf_ext_in. intros i Hi. apply in_seq in Hi. replace (S n - 1 - i)%nat with (n - i)%nat by lia. replace (n - (n - i))%nat with i by lia.
    replace (binom n i) with (length (map prodR (combinations x0 (n - i)))) by (rewrite map_length, combinations_length, Hx, binom_sym by lia; reflexivity).
    now rewrite dot_repeat. }
  split; [now apply G|]. 
  assert (E : forall l, sumf l (fun _ : nat => 0) = 0) by (intros l; apply sumf_zero; auto).
  assert (Hp : forall m (l : list R) , Forall (fun v => v = 1) l -> length l = m -> prodR l = 1).
  { intros m l Hl _. induction Hl as [|v l -> _ IH]; cbn; [reflexivity|]. change (fold_right Rmult 1 l) with (prodR l). rewrite IH. ring. }
  assert (Hs : forall a b, sumR (expand_binomial a b n) = (a + b) ^ n).
  { clear. intros a b. revert n. intros n.
    assert (Q := product_expand a b (repeat 1 n)). rewrite repeat_length in Q.
    assert (P : prodR (map (fun y => a * y + b) (repeat 1 n)) = (a + b) ^ n).
    { clear Q. induction n as [|n IH]; [reflexivity|]. cbn [repeat map pow]. change (prodR (?u :: ?v)) with (u * prodR v). rewrite IH. ring. }
    rewrite <- P, Q. unfold expand_binomial, range, sumR. rewrite sumf_flat_map. rewrite <- (sumf_seq_reverse (S n)). replace (n + 1)%nat with (S n) by lia.
    apply sumf_ext_in. intros i Hi. apply in_seq in Hi. replace (S n - 1 - i)%nat with (n - i)%nat by lia. replace (n - (n - i))%nat with i by lia.
    assert (R1 : forall c m, sumf (repeat c m) (fun v => v) = INR m * c).
    { intros c m. induction m as [|m IH]; [cbn; ring|]. cbn [repeat]. rewrite sumf_cons, IH, S_INR. ring. }
    rewrite R1. unfold elem_sym. rewrite sumR_map.
    rewrite (sumf_ext_in _ prodR (fun _ => 1)). { rewrite sumf_const, combinations_length, repeat_length, binom_sym by lia. ring. }
    intros t Ht. assert (forall v, In v t -> v = 1).
    { intros v Hv. assert (I : incl t (repeat 1 n)).
      { clear - Ht. revert t Ht. generalize (n - i)%nat. intros k. revert k. generalize (repeat 1 n). induction l as [|y l IH]; intros [|k] t Ht; cbn [combinations] in Ht.
        - destruct Ht as [<-|[]]. intros ? [].
        - destruct Ht.
        - destruct Ht as [<-|[]]. intros ? [].
        - apply in_app_or in Ht. destruct Ht as [Ht|Ht].
          + apply in_map_iff in Ht. destruct Ht as [u [<- Hu]]. intros v [<-|Hv]; [now left|right; now apply (IH k u Hu)].
          + intros v Hv. right. now apply (IH (S k) t Ht). }
      apply I in Hv. now apply repeat_spec in Hv. }
    clear Ht. induction t as [|v t IH]; [reflexivity|]. cbn. change (fold_right Rmult 1 t) with (prodR t). rewrite IH by (intros; apply H; now right).
    rewrite (H v) by now left. ring. }
  split; [|apply Hs].
  apply INR_eq. rewrite pow_INR. replace (INR 2) with (1 + 1) by (cbn; ring). rewrite <- (Hs 1 1).
  assert (Hall : Forall (fun v => v = 1) (expand_binomial 1 1 n)).
  { apply Forall_forall. intros v Hv. unfold expand_binomial in Hv. apply in_flat_map in Hv. destruct Hv as [i [_ Hv]]. apply repeat_spec in Hv. subst v. rewrite !pow1. ring. }
  assert (L : length (expand_binomial a b n) = length (expand_binomial 1 1 n)).
  { unfold expand_binomial. induction (range (n + 1)) as [|i l IH]; cbn [flat_map]; [reflexivity|]. rewrite !app_length, !repeat_length, IH. reflexivity. }
  rewrite L. clear - Hall. induction Hall as [|v l -> _ IH]; [reflexivity|]. cbn [length]. rewrite S_INR, IH. unfold sumR. rewrite sumf_cons. ring.
Qed.
Print Assumptions C85_expand_binomial.

(** ** Multinomial coefficients *)
Lemma multinomial_exists ks : exists m, (m * fold_right Nat.mul 1%nat (map fact ks))%nat = fact (sumN ks) /\ (0 < m)%nat.
Proof.
  induction ks as [|k ks [m [E H]]]; [exists 1%nat; split; [reflexivity|lia]|].
  exists (binom (k + sumN ks) k * m)%nat. cbn [map fold_right sumN]. change (fold_right Nat.add 0%nat ks) with (sumN ks).
  assert (B := binom_fact (k + sumN ks) k (sumN ks) eq_refl). split.
  - rewrite <- B, <- E. ring.
  - assert (F := fact_neq_0 (k + sumN ks)). rewrite <- B in F. nia.
Qed.

Lemma exp_log_fact ks : exp (sumf ks (fun a => ln (INR (fact a)))) = INR (fold_right Nat.mul 1%nat (map fact ks)).
Proof.
  induction ks as [|k ks IH]; [apply exp_0|]. rewrite sumf_cons, exp_plus, IH, exp_ln by apply INR_fact_lt_0. cbn [map fold_right]. now rewrite mult_INR.
Qed.

(** multinomial(n,k1,..,kr): the number m with m * k1! * .. * kr! = n! if the floating point
    value is the exact one or exceeds it by less than one; one less than that if the value is
    rounded to below the integer, by however little. *)
Theorem C85_multinomial (rnd : R -> R) (ks : list nat) :
  (forall n, sumN ks <> n -> multinomial rnd (n :: ks) = Err AssertionError) /\
  exists m, (m * fold_right Nat.mul 1%nat (map fact ks))%nat = fact (sumN ks) /\ (0 < m)%nat /\
    (INR m <= rnd (INR m) < INR m + 1 -> multinomial rnd (sumN ks :: ks) = Ok (Z.of_nat m)) /\
    (INR m - 1 <= rnd (INR m) < INR m -> multinomial rnd (sumN ks :: ks) = Ok (Z.of_nat m - 1)%Z).
Proof.
  split; [intros n H; unfold multinomial; apply Nat.eqb_neq in H; rewrite H; reflexivity|].
  destruct (multinomial_exists ks) as [m [E Hm]]. exists m. split; [assumption|]. split; [assumption|].
  assert (V : exp (ln (INR (fact (sumN ks))) - sumf ks (fun a => ln (INR (fact a)))) = INR m).
  { unfold Rminus. rewrite exp_plus, exp_Ropp, exp_log_fact, exp_ln by apply INR_fact_lt_0. rewrite <- E, mult_INR.
    field. apply not_0_INR. assert (F := fact_neq_0 (sumN ks)). rewrite <- E in F. nia. }
  unfold multinomial. rewrite Nat.eqb_refl, V. cbn [negb]. assert (1 <= INR m) by (apply (le_INR 1); lia).
  assert (T : forall z, IZR z <= rnd (INR m) < IZR z + 1 -> 0 <= rnd (INR m) -> truncR (rnd (INR m)) = z).
  { intros z Hz H0. unfold truncR. destruct (Rle_dec 0 (rnd (INR m))) as [_|C]; [|lra]. unfold Int_part. rewrite <- (tech_up _ (z + 1)); rewrite ?plus_IZR; [lia|lra|lra]. }
  split; intros Hr; f_equal; apply T; rewrite ?minus_IZR, <- ?INR_IZR_INZ; lra.
Qed.
Print Assumptions C85_multinomial.

(** For every relative error eps>0, however small, there is a rounding within it for which
    the result of multinomial is wrong for all arguments (whose value is at most 1/eps). *)
Theorem C85_multinomial_rounding_refuted (eps : R) (ks : list nat) m : 0 < eps < 1 -> INR m * eps <= 1 ->
  (m * fold_right Nat.mul 1%nat (map fact ks))%nat = fact (sumN ks) ->
  exists rnd, (forall x, Rabs (rnd x - x) <= eps * Rabs x) /\ multinomial rnd (sumN ks :: ks) <> Ok (Z.of_nat m).
Proof.
  intros He Hm E. exists (fun x => x * (1 - eps)). split.
  { intros x. replace (x * (1 - eps) - x) with (- (eps * x)) by ring. rewrite Rabs_Ropp, Rabs_mult, (Rabs_pos_eq eps) by lra. lra. }
  destruct (C85_multinomial (fun x => x * (1 - eps)) ks) as [_ [m' [E' [Hm' [_ L]]]]].
  assert (m' = m). { rewrite <- E in E'. assert (F := fact_neq_0 (sumN ks)). rewrite <- E in F. nia. } subst m'.
  assert (1 <= INR m) by (apply (le_INR 1); lia).
  rewrite L; [|nra]. intros C. injection C. lia.
Qed.
Print Assumptions C85_multinomial_rounding_refuted.

(** ** Third order indices *)
Lemma firstn_seq_min k a n : firstn k (seq a n) = seq a (Nat.min k n).
Proof. revert k a. induction n as [|n IH]; intros [|k] a; cbn; try reflexivity. now rewrite IH. Qed.

Lemma firstn_map_seq {A} (f : nat -> A) k n : (k <= n)%nat -> firstn k (map f (seq 0 n)) = map f (seq 0 k).
Proof. intros H. rewrite firstn_map, firstn_seq_min, Nat.min_l by assumption. reflexivity. Qed.

Lemma drop_last_mk i m f : drop_last i (mk_mat m m f) = mk_mat (m - i) (m - i) f.
Proof.
  unfold drop_last, mk_mat, range. rewrite map_length, seq_length, firstn_map_seq by lia. rewrite map_map. apply map_ext. intros a.
  rewrite map_length, seq_length. apply firstn_map_seq. lia.
Qed.

Definition plane3 (n i : nat) : list (list R) := mk_mat n n (fun j k => b2R (Nat.ltb i j && Nat.ltb j k)).

Lemma skipn_repeat {A} (x : A) k n : skipn k (repeat x n) = repeat x (n - k).
Proof. revert n. induction k as [|k IH]; intros [|n]; cbn; try reflexivity. apply IH. Qed.
Lemma firstn_repeat {A} (x : A) k n : (k <= n)%nat -> firstn k (repeat x n) = repeat x k.
Proof. revert n. induction k as [|k IH]; intros [|n] H; cbn; try reflexivity; [lia|]. rewrite IH by lia. reflexivity. Qed.
Lemma combine_repeat {A B} (x : A) (l : list B) : combine (repeat x (length l)) l = map (fun y => (x, y)) l.
Proof. induction l as [|y l IH]; cbn; [reflexivity|]. now rewrite IH. Qed.

Lemma seq_split a b : seq 0 (a + b) = seq 0 a ++ map (fun i => (a + i)%nat) (seq 0 b).
Proof.
  rewrite seq_app. f_equal. cbn. clear. revert a. induction b as [|b IH]; intros a; [reflexivity|]. cbn. rewrite Nat.add_0_r. f_equal.
  rewrite IH. rewrite <- seq_shift, map_map. apply map_ext. intros; lia.
Qed.

Lemma assign_plane n i : (i < n)%nat ->
  assign_block (repeat (repeat 0 n) n) (1 + i) (mk_mat (n - 1 - i) (n - 1 - i) (fun j k => b2R (Nat.ltb j k))) = Ok (plane3 n i).
Proof.
  intros Hi. unfold assign_block. rewrite repeat_length. unfold mk_mat, range. rewrite map_length, seq_length.
  replace (n - (1 + i))%nat with (n - 1 - i)%nat by lia. rewrite Nat.eqb_refl. cbn [negb orb].
  set (q := (n - 1 - i)%nat).
  replace (forallb _ _) with true.
  2: { symmetry. apply forallb_forall. intros r Hr. apply in_map_iff in Hr. destruct Hr as [a [<- _]]. rewrite map_length, seq_length. apply Nat.eqb_refl. }
  cbn [negb]. rewrite firstn_repeat, skipn_repeat by lia.
  set (c := map (fun i0 => map (fun j => b2R (Nat.ltb i0 j)) (seq 0 q)) (seq 0 q)).
  replace (n - (1 + i))%nat with (length c) by (unfold c; rewrite map_length, seq_length; unfold q; lia).
  rewrite combine_repeat, map_map. cbn [fst snd]. rewrite firstn_repeat by lia. f_equal.
  unfold plane3, mk_mat, range. assert (En : n = (1 + i + q)%nat) by (unfold q; lia). rewrite En. rewrite (seq_split (1 + i) q), map_app. f_equal.
  - rewrite <- En. apply (list_eq_nth []); rewrite ?repeat_length, ?map_length, ?seq_length; [reflexivity|].
    intros a Ha. rewrite nth_map_seq by assumption. rewrite (nth_indep _ _ (repeat 0 n)) by (rewrite repeat_length; assumption). rewrite nth_repeat.
    rewrite <- seq_split, <- En. replace (Nat.ltb i a) with false by (symmetry; apply Nat.ltb_ge; lia). cbn [andb b2R].
    clear. rewrite <- (seq_length n 0) at 1. generalize (seq 0 n). induction l as [|y l IH]; cbn; [reflexivity|]. now rewrite IH.
  - unfold c. rewrite !map_map. apply map_ext. intros a. rewrite map_app, map_map. f_equal.
    + apply (list_eq_nth 0); rewrite ?repeat_length, ?map_length, ?seq_length; [reflexivity|]. intros k Hk. rewrite nth_map_seq, nth_repeat by assumption.
      replace (Nat.ltb (1 + i + a) k) with false by (symmetry; apply Nat.ltb_ge; lia). now rewrite andb_false_r.
    + apply map_ext. intros k. replace (Nat.ltb i (1 + i + a)) with true by (symmetry; apply Nat.ltb_lt; lia). cbn [andb]. f_equal.
      destruct (Nat.ltb a k) eqn:E; symmetry; [apply Nat.ltb_lt; apply Nat.ltb_lt in E|apply Nat.ltb_ge; apply Nat.ltb_ge in E]; lia.
Qed.

(** get_3idx(n) for n>0 is an n x n x n array whose entry (i,j,k) is 1 if i<j<k and 0
    otherwise; for n=0 it raises. *)
Theorem C85_third_order (n : nat) :
  match get_3idx n with
  | Ok b => (0 < n)%nat /\ length b = n /\ Forall (fun p => length p = n /\ Forall (fun r => length r = n) p) b /\
            forall i j k, (i < n)%nat -> (j < n)%nat -> (k < n)%nat ->
              entry (nth i b []) j k = (if (Nat.ltb i j && Nat.ltb j k)%bool then 1 else 0)
  | Err e => n = 0%nat /\ e = ValueError
  end.
Proof.
  destruct n as [|m]; [cbn; auto|].
  assert (G : get_3idx (S m) = Ok (map (plane3 (S m)) (seq 0 (S m)))).
  { unfold get_3idx, range.
    assert (Q : forall i, (i <= m)%nat -> fold_left (fun acc i => bind acc (fun b =>
        bind (assign_block (nth i b []) (1 + i) (if Nat.eqb i 0 then triu1 m else drop_last i (triu1 m))) (fun p => Ok (upd b i p))))
      (seq 0 i) (Ok (repeat (repeat (repeat 0 (S m)) (S m)) (S m))) = Ok (map (plane3 (S m)) (seq 0 i) ++ repeat (repeat (repeat 0 (S m)) (S m)) (S m - i))).
    { induction i as [|i IH]; intros Hi; [reflexivity|].
      rewrite seq_S, fold_left_app, IH by lia. cbn [fold_left bind Nat.add].
      rewrite app_nth2 by (rewrite map_length, seq_length; lia). rewrite map_length, seq_length, Nat.sub_diag.
      replace (S m - i)%nat with (S (m - i)) by lia. cbn [repeat nth].
      change (repeat 0 (S m) :: repeat (repeat 0 (S m)) m) with (repeat (repeat 0 (S m)) (S m)).
      change (repeat (0 :: repeat 0 m) m) with (repeat (repeat 0 (S m)) m).
      change ((0 :: repeat 0 m) :: repeat (repeat 0 (S m)) m) with (repeat (repeat 0 (S m)) (S m)).
      assert (A := assign_plane (S m) i ltac:(lia)). replace (S m - 1 - i)%nat with (m - i)%nat in A by lia. change (1 + i)%nat with (S i) in A.
      replace (if Nat.eqb i 0 then triu1 m else drop_last i (triu1 m)) with (mk_mat (m - i) (m - i) (fun j k => b2R (Nat.ltb j k))).
      2: { destruct i as [|i]; [cbn [Nat.eqb]; now rewrite Nat.sub_0_r|]. cbn [Nat.eqb]. unfold triu1. now rewrite drop_last_mk. }
      rewrite A. cbn [bind]. f_equal. replace (S m - S i)%nat with (m - i)%nat by lia.
      assert (U : forall (l : list (list (list R))) v w r, upd (l ++ w :: r) (length l) v = (l ++ [v]) ++ r).
      { clear. induction l as [|y l IH]; intros v w r; cbn; [reflexivity|]. now rewrite IH. }
      rewrite map_app. cbn [map]. rewrite <- (U _ _ (repeat (repeat 0 (S m)) (S m))). rewrite map_length, seq_length. reflexivity. }
    rewrite (Q m (le_n m)). f_equal. rewrite seq_S, map_app. f_equal. replace (S m - m)%nat with 1%nat by lia. cbn [map repeat Nat.add]. f_equal.
    unfold plane3, mk_mat, range. change ((0 :: repeat 0 m) :: repeat (0 :: repeat 0 m) m) with (repeat (repeat 0 (S m)) (S m)).
    apply (list_eq_nth []); rewrite ?repeat_length, ?map_length, ?seq_length; [reflexivity|]. intros a Ha. rewrite nth_map_seq by assumption.
    rewrite (nth_indep _ _ (repeat 0 (S m))) by (rewrite repeat_length; assumption). rewrite nth_repeat.
    apply (list_eq_nth 0); rewrite ?repeat_length, ?map_length, ?seq_length; [reflexivity|]. intros k Hk. rewrite nth_map_seq, nth_repeat by assumption.
    replace (Nat.ltb m a) with false by (symmetry; apply Nat.ltb_ge; lia). reflexivity. }
  rewrite G. split; [lia|]. split; [now rewrite map_length, seq_length|]. split.
  - apply Forall_forall. intros p Hp. apply in_map_iff in Hp. destruct Hp as [i [<- _]]. unfold plane3, mk_mat, range. split; [now rewrite map_length, seq_length|].
    apply Forall_forall. intros r Hr. apply in_map_iff in Hr. destruct Hr as [j [<- _]]. now rewrite map_length, seq_length.
  - intros i j k Hi Hj Hk. rewrite nth_map_seq by assumption. unfold plane3. rewrite entry_mk_mat by assumption. reflexivity.
Qed.
Print Assumptions C85_third_order.

(** get_nidx does not return the indices where get_3idx is non-zero: for every n>3 it raises
    instead (and for n<3 it returns None). *)
Theorem C85_nidx_refuted (n : nat) : (3 < n)%nat -> get_nidx 3 n = Err NameError /\ is_ok (get_3idx n).
Proof.
  intros H. split.
  - unfold get_nidx. replace (Nat.eqb 3 n) with false by (symmetry; apply Nat.eqb_neq; lia). replace (Nat.ltb 3 n) with true by (symmetry; apply Nat.ltb_lt; lia). reflexivity.
  - assert (Q := C85_third_order n). destruct (get_3idx n) as [b|e]; [now exists b|]. lia.
Qed.
Print Assumptions C85_nidx_refuted.

(** The test objective _K of the MPF solver never returns, whatever the data and parameters. *)
Theorem C85_K_refuted X J : ~ is_ok (mpf_K X J).
Proof. unfold mpf_K. cbv zeta. intros [x E]. destruct (existsb _ _) in E; discriminate. Qed.
Print Assumptions C85_K_refuted.

(** ** Spectral clusters *)
(** The Laplacian of a graph of n vertices with weights w. *)
Definition laplacian (n : nat) (w : nat -> nat -> R) (L : list (list R)) : Prop :=
  forall i j, (i < n)%nat -> (j < n)%nat ->
    entry L i j = if Nat.eqb i j then sumf (seq 0 n) (fun k => if Nat.eqb i k then 0 else w i k) else - w i j.
Definition weights (n : nat) (w : nat -> nat -> R) : Prop := forall i j, (i < n)%nat -> (j < n)%nat -> 0 <= w i j /\ w i j = w j i.
Definition joined (n : nat) (w : nat -> nat -> R) : nat -> nat -> Prop :=
  clos_refl_trans nat (fun i j => (i < n)%nat /\ (j < n)%nat /\ 0 < w i j).
(** What scipy.linalg.eig promises: eigenvectors of length one for their eigenvalues. *)
Definition eigenpair (n : nat) (L : list (list R)) (ev : R * list R) : Prop :=
  length (snd ev) = n /\ sumR (map (fun x => x * x) (snd ev)) = 1 /\
  forall i, (i < n)%nat -> sumf (seq 0 n) (fun j => entry L i j * nthR (snd ev) j) = fst ev * nthR (snd ev) i.

Lemma laplacian_row n w L v i : laplacian n w L -> (i < n)%nat ->
  sumf (seq 0 n) (fun j => entry L i j * v j) = sumf (seq 0 n) (fun j => w i j * (v i - v j)).
Proof.
  intros HL Hi.
  rewrite (sumf_ext_in _ (fun j => entry L i j * v j)
    (fun j => (if Nat.eqb i j then (sumf (seq 0 n) (fun k => if Nat.eqb i k then 0 else w i k)) * v i else 0) - (if Nat.eqb i j then 0 else w i j) * v j)).
  2: { intros j Hj. apply in_seq in Hj. rewrite HL by lia. destruct (Nat.eqb_spec i j) as [<-|]; ring. }
  rewrite sumf_minus.
  assert (I : sumf (seq 0 n) (fun j => if Nat.eqb i j then sumf (seq 0 n) (fun k => if Nat.eqb i k then 0 else w i k) * v i else 0)
    = sumf (seq 0 n) (fun k => if Nat.eqb i k then 0 else w i k) * v i).
  { generalize (sumf (seq 0 n) (fun k => if Nat.eqb i k then 0 else w i k) * v i). intros c.
    assert (Q : forall m a, (a <= i < a + m)%nat -> sumf (seq a m) (fun j => if Nat.eqb i j then c else 0) = c).
    { induction m as [|m IH]; intros a Ha; [lia|]. cbn [seq]. rewrite sumf_cons. destruct (Nat.eqb_spec i a) as [->|Hne].
      - rewrite sumf_zero; [ring|]. intros j Hj. apply in_seq in Hj. destruct (Nat.eqb_spec a j); [lia|reflexivity].
      - rewrite IH by lia. ring. }
    apply Q. lia. }
  rewrite I, <- sumf_scal_r, <- sumf_minus. apply sumf_ext. intros j. destruct (Nat.eqb_spec i j) as [<-|]; ring.
Qed.

Lemma null_vector_constant n w L v : weights n w -> laplacian n w L ->
  (forall i, (i < n)%nat -> sumf (seq 0 n) (fun j => entry L i j * v j) = 0) -> forall i j, joined n w i j -> v i = v j.
Proof.
  intros Hw HL H0.
  assert (Q : sumf (seq 0 n) (fun i => sumf (seq 0 n) (fun j => w i j * (v i - v j) * (v i - v j))) = 0).
  { assert (A : sumf (seq 0 n) (fun i => v i * sumf (seq 0 n) (fun j => w i j * (v i - v j))) = 0).
    { apply sumf_zero. intros i Hi. apply in_seq in Hi. rewrite <- (laplacian_row n w L) by (auto; lia). rewrite H0 by lia. ring. }
    assert (B : sumf (seq 0 n) (fun i => sumf (seq 0 n) (fun j => w i j * (v i - v j) * v i)) = 0).
    { rewrite <- A. apply sumf_ext. intros i. rewrite <- sumf_scal_l. apply sumf_ext. intros j. ring. }
    assert (D : sumf (seq 0 n) (fun i => sumf (seq 0 n) (fun j => w i j * (v i - v j) * v j)) = 0).
    { rewrite sumf_swap. transitivity (- sumf (seq 0 n) (fun i => sumf (seq 0 n) (fun j => w i j * (v i - v j) * v i))); [|rewrite B; ring].
      rewrite <- sumf_opp. apply sumf_ext_in. intros i Hi. apply in_seq in Hi. rewrite <- sumf_opp. apply sumf_ext_in. intros j Hj. apply in_seq in Hj.
      destruct (Hw i j ltac:(lia) ltac:(lia)) as [_ E]. rewrite E. ring. }
    transitivity (sumf (seq 0 n) (fun i => sumf (seq 0 n) (fun j => w i j * (v i - v j) * v i)) - sumf (seq 0 n) (fun i => sumf (seq 0 n) (fun j => w i j * (v i - v j) * v j))); [|rewrite B, D; ring].
    rewrite <- sumf_minus. apply sumf_ext. intros i. rewrite <- sumf_minus. apply sumf_ext. intros j. ring. }
  assert (P : forall i j, (i < n)%nat -> (j < n)%nat -> 0 <= w i j * (v i - v j) * (v i - v j)).
  { intros i j Hi Hj. destruct (Hw i j Hi Hj) as [Hp _]. assert (S := Rle_0_sqr (v i - v j)). unfold Rsqr in S. rewrite Rmult_assoc. now apply Rmult_le_pos. }
  assert (Z : forall i j, (i < n)%nat -> (j < n)%nat -> w i j * (v i - v j) * (v i - v j) = 0).
  { intros i j Hi Hj. apply Rle_antisym; [|now apply P]. rewrite <- Q.
    apply Rle_trans with (sumf (seq 0 n) (fun j => w i j * (v i - v j) * (v i - v j))).
    - apply (sumf_in_le (seq 0 n) (fun j => w i j * (v i - v j) * (v i - v j)) j); [|apply in_seq; lia]. intros b Hb. apply in_seq in Hb. apply P; lia.
    - apply (sumf_in_le (seq 0 n) (fun i => sumf (seq 0 n) (fun j => w i j * (v i - v j) * (v i - v j))) i); [|apply in_seq; lia].
      intros b Hb. apply in_seq in Hb. apply sumf_nonneg. intros c Hc. apply in_seq in Hc. apply P; lia. }
  intros i j Hj. induction Hj as [i j [Hi [Hj Hp]]|i|i j k _ IH1 _ IH2]; [|reflexivity|now rewrite IH1].
  specialize (Z i j Hi Hj). apply Rmult_integral in Z. destruct Z as [Z|Z]; [apply Rmult_integral in Z; destruct Z; lra|lra].
Qed.

Lemma in_spec_cluster eig L c : In c (spec_cluster eig L true) ->
  exists ev, In ev (eig L) /\ fst ev = 0 /\ forall i, In i c <-> (i < length (snd ev))%nat /\ / 10 ^ 8 < Rabs (nthR (snd ev) i).
Proof.
  unfold spec_cluster. rewrite in_map_iff. intros [ev [<- He]]. apply filter_In in He. destruct He as [He E].
  destruct (Req_EM_T (fst ev) 0) as [E0|]; [|discriminate]. exists ev. split; [assumption|]. split; [assumption|]. intros i.
  rewrite filter_In. unfold range. rewrite in_seq. unfold isclose0. destruct (Rle_dec _ _) as [H|H]; cbn [negb]; intuition; try discriminate; try lia; try lra.
Qed.

(** Each list returned by spec_cluster for the Laplacian of a graph is a union of connected
    components, provided eig is exact: with a vertex it contains all vertices joined to it.
    For a connected graph of fewer than 10^16 vertices it is the whole graph. *)
Theorem C85_spectral_clusters n w L eig : weights n w -> laplacian n w L -> (forall ev, In ev (eig L) -> eigenpair n L ev) ->
  forall c, In c (spec_cluster eig L true) ->
    (forall i j, In i c -> (j < n)%nat -> joined n w i j -> In j c) /\
    ((forall i j, (i < n)%nat -> (j < n)%nat -> joined n w i j) -> INR n < 10 ^ 16 -> forall i, (i < n)%nat -> In i c).
Proof.
  intros Hw HL He c Hc. destruct (in_spec_cluster _ _ _ Hc) as [[lam v] [Hin [E0 Hm]]]. cbn [fst snd] in *. subst lam.
  destruct (He _ Hin) as [Hl [Hn Hv]]. cbn [fst snd] in *.
  assert (K := null_vector_constant n w L (nthR v) Hw HL ltac:(intros i Hi; rewrite Hv by assumption; ring)).
  rewrite Hl in Hm. split.
  - intros i j Hi Hj Hij. apply Hm. apply Hm in Hi. split; [assumption|]. rewrite <- (K i j Hij). apply Hi.
  - intros Hcon Hbig i Hi. apply Hm. split; [assumption|].
    assert (S : INR n * (nthR v i * nthR v i) = 1).
    { rewrite <- Hn. rewrite sumR_map, <- (sumf_seq_nth 0 v (fun x => x * x)), Hl. rewrite <- (seq_length n 0) at 1. rewrite <- sumf_const.
      apply sumf_ext_in. intros j Hj. apply in_seq in Hj. change (nth j v 0) with (nthR v j). rewrite (K i j) by (apply Hcon; lia). reflexivity. }
    apply Rnot_le_lt. intros C. assert (P := Rabs_pos (nthR v i)).
    assert (C2 : nthR v i * nthR v i <= / 10 ^ 16).
    { replace (nthR v i * nthR v i) with (Rabs (nthR v i) * Rabs (nthR v i)) by (rewrite <- Rabs_mult; apply Rabs_pos_eq; apply Rle_0_sqr).
      replace (/ 10 ^ 16) with (/ 10 ^ 8 * / 10 ^ 8) by (field; lra). apply Rmult_le_compat; lra. }
    assert (0 <= INR n) by apply pos_INR. assert (0 <= nthR v i * nthR v i) by apply Rle_0_sqr.
    assert (INR n * (nthR v i * nthR v i) <= INR n * / 10 ^ 16) by (apply Rmult_le_compat_l; assumption).
    assert (INR n * / 10 ^ 16 < 10 ^ 16 * / 10 ^ 16) by (apply Rmult_lt_compat_r; [apply Rinv_0_lt_compat; lra|assumption]).
    rewrite Rinv_r in * by lra. lra.
Qed.
Print Assumptions C85_spectral_clusters.

(** They need not be the components themselves: for two vertices without an edge an exact
    eig may return the vectors (1,1) and (1,-1) over the square root of 2, and spec_cluster
    returns the pair twice although the vertices are not joined. *)
Theorem C85_spectral_clusters_refuted : exists n w L eig,
  weights n w /\ laplacian n w L /\ (forall ev, In ev (eig L) -> eigenpair n L ev) /\ length (eig L) = n /\
  spec_cluster eig L true = [[0; 1]; [0; 1]]%nat /\ ~ joined n w 0 1.
Proof.
  set (s := / sqrt 2).
  assert (Hs2 : s * s = / 2). { unfold s. rewrite <- Rinv_mult_distr by (apply Rgt_not_eq, sqrt_lt_R0; lra). rewrite sqrt_sqrt by lra. reflexivity. }
  assert (Hs : / 2 < s). { assert (0 < s) by (apply Rinv_0_lt_compat, sqrt_lt_R0; lra). nra. }
  exists 2%nat, (fun _ _ => 0), [[0; 0]; [0; 0]], (fun _ => [(0, [s; s]); (0, [s; - s])]).
  repeat split; try lra.
  - intros i j Hi Hj. destruct i as [|[|i]]; [| |lia]; (destruct j as [|[|j]]; [| |lia]); cbn; lra.
  - destruct H as [<-|[<-|[]]]; reflexivity.
  - destruct H as [<-|[<-|[]]]; cbn [snd map]; unfold sumR, sumf; cbn [fold_right map]; lra.
  - intros i Hi. destruct H as [<-|[<-|[]]]; cbn [fst snd]; (destruct i as [|[|i]]; [| |lia]); unfold sumf, entry, nthR; cbn; lra.
  - unfold spec_cluster. cbn [filter fst snd]. destruct (Req_EM_T 0 0) as [_|C]; [|lra]. cbn [map snd length range seq filter].
    assert (A : forall x, Rabs x = s -> isclose0 x = false).
    { intros x Hx. unfold isclose0. rewrite Hx. destruct (Rle_dec s (/ 10 ^ 8)) as [C|_]; [|reflexivity]. exfalso.
      assert (/ 10 ^ 8 < / 2) by (apply Rinv_lt_contravar; lra). lra. }
    unfold nthR. cbn [nth]. rewrite !A; [reflexivity| |]; [rewrite Rabs_Ropp|]; apply Rabs_pos_eq; lra.
  - intros C. assert (Q : forall i j, joined 2 (fun _ _ => 0) i j -> i = j).
    { intros i j Hj. induction Hj as [i j [_ [_ H]]|i|i j k _ IH1 _ IH2]; [lra|reflexivity|congruence]. }
    apply Q in C. discriminate.
Qed.
Print Assumptions C85_spectral_clusters_refuted.

(** A sum over all vertices splits into sums over components; a vertex has positive weights
    to its own component only. *)
Lemma component_sum n w comps C f : Permutation (concat comps) (seq 0 n) ->
  (forall C i j, In C comps -> In i C -> In j C <-> (j < n)%nat /\ joined n w i j) -> In C comps ->
  (forall j, (j < n)%nat -> ~ In j C -> f j = 0) -> sumf (seq 0 n) f = sumf C f.
Proof.
  intros HP HC HI Hf. rewrite <- (sumf_perm _ _ f HP). apply in_split in HI. destruct HI as (l1 & l2 & ->). rewrite concat_app in *. cbn [concat] in *.
  rewrite !sumf_app. assert (NDp : NoDup (concat l1 ++ C ++ concat l2)) by (apply (Permutation_NoDup (Permutation_sym HP)), seq_NoDup).
  assert (Z : forall l, (forall j, In j l -> In j (concat l1) \/ In j (concat l2)) -> sumf l f = 0).
  { intros l Hl. apply sumf_zero. intros j Hj. apply Hf.
    - assert (In j (seq 0 n)) by (apply (Permutation_in _ HP); rewrite !in_app_iff; destruct (Hl j Hj); auto). now apply in_seq in H.
    - intros HjC. apply Permutation_NoDup with (l' := C ++ concat l1 ++ concat l2) in NDp; [|now rewrite Permutation_app_swap_app].
      apply in_split in HjC. destruct HjC as (a & b & ->). rewrite <- app_assoc in NDp. cbn [app] in NDp. apply NoDup_remove_2 in NDp. apply NDp. rewrite !in_app_iff. destruct (Hl j Hj); auto. }
  rewrite (Z (concat l1)), (Z (concat l2)) by auto. ring.
Qed.

(** When eig returns an orthogonal matrix of eigenvectors, the number of lists is the number
    of connected components, and (for fewer than 10^8 vertices) no vertex is left out. *)
Theorem C85_spectral_count n w L eig comps : weights n w -> laplacian n w L -> (forall ev, In ev (eig L) -> eigenpair n L ev) ->
  (forall i j, (i < n)%nat -> (j < n)%nat -> sumf (eig L) (fun ev => nthR (snd ev) i * nthR (snd ev) j) = if Nat.eqb i j then 1 else 0) ->
  Permutation (concat comps) (seq 0 n) -> ~ In [] comps -> (forall C i j, In C comps -> In i C -> In j C <-> (j < n)%nat /\ joined n w i j) ->
  length (spec_cluster eig L true) = length comps /\
  (INR n < 10 ^ 8 -> forall i, (i < n)%nat -> exists c, In c (spec_cluster eig L true) /\ In i c).
Proof.
  intros Hw HL He Ho HP Hne HC.
  set (nulls := filter (fun ev : R * list R => if Req_EM_T (fst ev) 0 then true else false) (eig L)).
  assert (Hnull : forall ev, In ev nulls -> In ev (eig L) /\ fst ev = 0).
  { intros ev H. apply filter_In in H. destruct H as [H1 H2]. split; [assumption|]. destruct (Req_EM_T (fst ev) 0); [assumption|discriminate]. }
  assert (Lt : forall C i, In C comps -> In i C -> (i < n)%nat).
  { intros C i H1 H2. assert (In i (seq 0 n)) by (apply (Permutation_in _ HP), in_concat; now exists C). now apply in_seq in H. }
  assert (Hc : forall ev, In ev nulls -> forall C i j, In C comps -> In i C -> In j C -> nthR (snd ev) i = nthR (snd ev) j).
  { intros ev H C i j H1 H2 H3. destruct (Hnull ev H) as [H4 H5]. destruct (He ev H4) as [_ [_ H6]].
    apply (null_vector_constant n w L (nthR (snd ev)) Hw HL); [intros k Hk; rewrite H6, H5 by assumption; ring|]. now apply (HC C i j). }
  (* eigenvectors for other eigenvalues sum to zero over every component *)
  assert (Hz : forall ev, In ev (eig L) -> fst ev <> 0 -> forall C, In C comps -> sumf C (nthR (snd ev)) = 0).
  { intros ev H N C HI. destruct (He ev H) as [_ [_ Hev]]. set (v := nthR (snd ev)) in *.
    assert (A : fst ev * sumf C v = sumf C (fun i => sumf C (fun j => w i j * (v i - v j)))).
    { rewrite <- sumf_scal_l. apply sumf_ext_in. intros i Hi. rewrite <- Hev by (now apply (Lt C)). rewrite (laplacian_row n w L) by (try assumption; now apply (Lt C)).
      apply (component_sum n w comps C); try assumption. intros j Hj Hn. assert (W : w i j = 0).
      { assert (In i C) by assumption. destruct (Hw i j (Lt C i HI Hi) Hj) as [W _]. apply Rle_antisym; [|assumption]. apply Rnot_lt_le. intros P. apply Hn. apply (HC C i j HI Hi). split; [assumption|].
        apply rt_step. split; [now apply (Lt C)|]. now split. } rewrite W. ring. }
    assert (B : sumf C (fun i => sumf C (fun j => w i j * (v i - v j))) = - sumf C (fun i => sumf C (fun j => w i j * (v i - v j)))).
    { rewrite sumf_swap at 1. rewrite <- sumf_opp. apply sumf_ext_in. intros i Hi. rewrite <- sumf_opp. apply sumf_ext_in. intros j Hj.
      rewrite (proj2 (Hw j i (Lt C j HI Hj) (Lt C i HI Hi))). ring. }
    apply Rmult_eq_reg_l with (fst ev); [|assumption]. rewrite A, Rmult_0_r. lra. }
  assert (NDC : forall C, In C comps -> NoDup C).
  { intros C HI. assert (ND : NoDup (concat comps)) by (apply (Permutation_NoDup (Permutation_sym HP)), seq_NoDup). apply in_split in HI. destruct HI as (l1 & l2 & ->).
    rewrite concat_app in ND. cbn [concat] in ND. revert ND. clear. intros ND. induction (concat l1) as [|a l IH]; [|inversion ND; auto]. cbn [app] in ND. induction C as [|a C IH]; [constructor|]. inversion ND as [|? ? H1 H2]; subst. constructor; [intros H; apply H1, in_app_iff; now left|now apply IH]. }
  (* the squares at a vertex *)
  assert (Sq : forall C i, In C comps -> In i C -> INR (length C) * sumf nulls (fun ev => nthR (snd ev) i * nthR (snd ev) i) = 1).
  { intros C i HI Hi. transitivity (sumf C (fun j => sumf (eig L) (fun ev => nthR (snd ev) i * nthR (snd ev) j))).
    - rewrite sumf_swap. unfold nulls. rewrite sumf_filter, <- sumf_scal_l. apply sumf_ext_in. intros ev Hev. rewrite sumf_scal_l. destruct (Req_EM_T (fst ev) 0) as [Z|Z].
      + assert (In ev nulls) by (apply filter_In; split; [assumption|]; destruct (Req_EM_T (fst ev) 0); [reflexivity|contradiction]).
        rewrite (sumf_ext_in C (nthR (snd ev)) (fun _ => nthR (snd ev) i)) by (intros j Hj; now apply (Hc ev H C)). rewrite sumf_const. ring.
      + rewrite (Hz ev Hev Z C HI). ring.
    - rewrite (sumf_ext_in C _ (fun j => if Nat.eqb i j then 1 else 0)) by (intros j Hj; apply Ho; now apply (Lt C)).
      rewrite (sumf_ext C _ (fun j => if Nat.eq_dec i j then 1 else 0)) by (intros j; destruct (Nat.eqb_spec i j), (Nat.eq_dec i j); congruence).
      rewrite (sumf_indic Nat.eq_dec C i (fun _ => 1) (NDC C HI) Hi). reflexivity. }
  assert (LenP : forall C, In C comps -> 0 < INR (length C)).
  { intros C HI. apply lt_0_INR. destruct C as [|a C]; [contradiction|]. cbn. lia. }
  assert (SqN : forall ev, In ev nulls -> sumf (seq 0 n) (fun i => nthR (snd ev) i * nthR (snd ev) i) = 1).
  { intros ev H. destruct (He ev (proj1 (Hnull ev H))) as [H1 [H2 _]]. rewrite <- H2, sumR_map, <- (sumf_seq_nth 0 (snd ev) (fun x => x * x)), H1. reflexivity. }
  assert (Cnt : length nulls = length comps).
  { apply INR_eq. rewrite <- (Rmult_1_r (INR (length nulls))), <- (Rmult_1_r (INR (length comps))), <- !sumf_const.
    rewrite (sumf_ext_in nulls _ (fun ev => sumf (seq 0 n) (fun i => nthR (snd ev) i * nthR (snd ev) i))) by (intros ev H; now rewrite SqN).
    rewrite sumf_swap, <- (sumf_perm _ _ _ HP), P_MPF.sumf_concat. apply sumf_ext_in. intros C HI.
    assert (P := LenP C HI). rewrite (sumf_ext_in C _ (fun _ => / INR (length C))).
    - rewrite sumf_const. field. lra.
    - intros i Hi. apply Rmult_eq_reg_l with (INR (length C)); [|lra]. rewrite (Sq C i HI Hi). field. lra. }
  split; [unfold spec_cluster; rewrite map_length; exact Cnt|].
  intros Hbig i Hi. assert (Hin : In i (concat comps)) by (apply (Permutation_in _ (Permutation_sym HP)), in_seq; lia).
  apply in_concat in Hin. destruct Hin as (C & HI & HiC). apply NNPP. intros No.
  assert (Small : forall ev, In ev nulls -> nthR (snd ev) i * nthR (snd ev) i <= / 10 ^ 16).
  { intros ev H. assert (S8 : Rabs (nthR (snd ev) i) <= / 10 ^ 8).
    { apply Rnot_lt_le. intros Big. apply No. exists (filter (fun i => negb (isclose0 (nthR (snd ev) i))) (range (length (snd ev)))). split.
      - unfold spec_cluster. apply in_map_iff. exists ev. now split.
      - apply filter_In. split; [unfold range; apply in_seq; rewrite (proj1 (He ev (proj1 (Hnull ev H)))); lia|]. unfold isclose0. destruct (Rle_dec _ _); [lra|reflexivity]. }
    assert (P := Rabs_pos (nthR (snd ev) i)). replace (nthR (snd ev) i * nthR (snd ev) i) with (Rabs (nthR (snd ev) i) * Rabs (nthR (snd ev) i)) by (rewrite <- Rabs_mult; apply Rabs_pos_eq; apply Rle_0_sqr).
    replace (/ 10 ^ 16) with (/ 10 ^ 8 * / 10 ^ 8) by (field; lra). apply Rmult_le_compat; lra. }
  assert (S1 := Sq C i HI HiC). assert (S2 : sumf nulls (fun ev => nthR (snd ev) i * nthR (snd ev) i) <= INR (length comps) * / 10 ^ 16).
  { rewrite <- Cnt, <- sumf_const. now apply sumf_le. }
  assert (Ln : n = length (concat comps)) by (rewrite (Permutation_length HP), seq_length; reflexivity).
  assert (L1 : INR (length C) <= INR n).
  { apply le_INR. rewrite Ln. apply in_split in HI. destruct HI as (l1 & l2 & ->). rewrite concat_app. cbn [concat]. rewrite !app_length. lia. }
  assert (L2 : INR (length comps) <= INR n).
  { apply le_INR. rewrite Ln. clear - Hne. induction comps as [|D l IH]; [cbn; lia|]. cbn [length concat]. rewrite app_length. destruct D as [|a D]; [exfalso; apply Hne; now left|].
    assert (length l <= length (concat l))%nat by (apply IH; intros H; apply Hne; now right). cbn [length]. lia. }
  assert (P0 := LenP C HI). assert (0 <= INR (length comps)) by apply pos_INR.
  assert (INR (length C) * sumf nulls (fun ev => nthR (snd ev) i * nthR (snd ev) i) <= INR n * (INR n * / 10 ^ 16)).
  { apply Rle_trans with (INR (length C) * (INR (length comps) * / 10 ^ 16)); [apply Rmult_le_compat_l; lra|].
    apply Rmult_le_compat; [lra| |assumption|apply Rmult_le_compat_r; [lra|assumption]]. apply Rmult_le_pos; lra. }
  assert (INR n * (INR n * / 10 ^ 16) < 10 ^ 8 * (10 ^ 8 * / 10 ^ 16)).
  { assert (0 <= INR n) by apply pos_INR. apply Rmult_le_0_lt_compat; [assumption|apply Rmult_le_pos; lra|assumption|]. apply Rmult_lt_compat_r; [|assumption]. lra. }
  lra.
Qed.
Print Assumptions C85_spectral_count.

(** With exact=False the result is the same unless some eigenvalue is tiny but not zero. *)
Theorem C85_spectral_tolerance eig L : (forall ev, In ev (eig L) -> Rabs (fst ev) <= / 10 ^ 8 -> fst ev = 0) ->
  spec_cluster eig L false = spec_cluster eig L true.
Proof.
  intros H. unfold spec_cluster. f_equal. apply filter_ext_in. intros ev Hev. unfold isclose0. destruct (Req_EM_T (fst ev) 0) as [E|E].
  - rewrite E, Rabs_R0. destruct (Rle_dec 0 (/ 10 ^ 8)); [reflexivity|lra].
  - destruct (Rle_dec _ _) as [C|_]; [|reflexivity]. exfalso. now apply E, H.
Qed.
Print Assumptions C85_spectral_tolerance.

(** ** The C++ three-state Potts sampler *)
(** A sample drawn with BoostPotts3 has the requested number of rows, all of them lists of n
    states 0, 1 or 2, for every generator, parameter vector and number of iterations. *)
Theorem C85_potts_sampler (T : Type) (g : rng T) n params m burn_in n_iters sys (t : T) : rng_ok g -> (0 < n)%nat ->
  length params = (3 * n + n * (n - 1) / 2)%nat ->
  length (boost_potts_sample g n params m burn_in n_iters sys t) = m /\
  Forall (fun row => length row = n /\ Forall (fun x => x < 3)%nat row) (boost_potts_sample g n params m burn_in n_iters sys t).
Proof.
  intros Hg Hn Hp. unfold boost_potts_sample.
  assert (Hrow : forall t, length (fst (cpp_potts_init g n t)) = n /\ Forall (fun x => x < 3)%nat (fst (cpp_potts_init g n t))).
  { apply draw_row_spec. intros t0. destruct Hg as [Hg _]. apply (Hg t0 0%nat 3%nat). lia. }
  specialize (Hrow t). destruct (cpp_potts_init g n t) as [s0 t0]. cbn [fst] in Hrow. destruct Hrow as [Hl0 Hs0].
  assert (Q := C27_running_energy_potts T g n params m burn_in n_iters sys s0 t0 Hg Hn Hl0 Hs0 Hp).
  destruct (cpp_generate_sample _ _ _ n m burn_in n_iters sys s0 t0) as [rows [[s e] t1]]. cbn [fst]. destruct Q as [_ Q]. exact Q.
Qed.
Print Assumptions C85_potts_sampler.

(** (2x+3)(2y+3) for x=5, y=7; the multinomial coefficient of 2+1+1; the path 0-1-2 is
    connected and its Laplacian has a constant null vector. *)
Example C85_example :
  expand_binomial 2 3 2 = [4; 6; 6; 9] /\ dot (expand_binomial 2 3 2) [35; 5; 7; 1] = (2 * 5 + 3) * (2 * 7 + 3) /\
  multinomial (fun x => x) [4; 2; 1; 1]%nat = Ok 12%Z /\ multinomial (fun x => x) [4; 2; 1]%nat = Err AssertionError /\
  (exists b, get_3idx 4 = Ok b /\ entry (nth 0 b []) 1 3 = 1 /\ entry (nth 1 b []) 0 3 = 0) /\
  get_nidx 3 4 = Err NameError /\ get_nidx 3 3 = Ok (Some [[0]; [1]; [2]]%nat) /\
  (let w := fun i j => if Nat.eqb (i + 1) j || Nat.eqb (j + 1) i then 1 else 0 in
   weights 3 w /\ laplacian 3 w [[1; -1; 0]; [-1; 2; -1]; [0; -1; 1]] /\ joined 3 w 0 2 /\
   eigenpair 3 [[1; -1; 0]; [-1; 2; -1]; [0; -1; 1]] (0, repeat (/ sqrt 3) 3)).
Proof.
  split; [cbn; repeat f_equal; lra|]. split; [cbn; unfold dot, sumf; cbn; lra|]. split.
  { destruct (C85_multinomial (fun x => x) [2; 1; 1]%nat) as [_ [m [E [_ [H _]]]]]. cbn in E. assert (m = 12%nat) by lia. subst m.
    change (sumN [2; 1; 1]%nat) with 4%nat in H. rewrite H by lra. reflexivity. }
  split; [reflexivity|]. split.
  { assert (Q := C85_third_order 4). destruct (get_3idx 4) as [b|e]; [|lia]. exists b. destruct Q as [_ [_ [_ Q]]]. split; [reflexivity|].
    rewrite !Q by lia. cbn. lra. }
  split; [reflexivity|]. split; [reflexivity|]. cbv zeta. split; [|split; [|split]].
  - intros i j Hi Hj. rewrite orb_comm. destruct (_ || _)%bool; lra.
  - intros i j Hi Hj. destruct i as [|[|[|i]]]; try lia; destruct j as [|[|[|j]]]; try lia; unfold entry, sumf; cbn; lra.
  - apply rt_trans with 1%nat; apply rt_step; cbn; repeat split; try lia; lra.
  - assert (/ sqrt 3 * / sqrt 3 = / 3). { rewrite <- Rinv_mult_distr by (apply Rgt_not_eq, sqrt_lt_R0; lra). rewrite sqrt_sqrt by lra. reflexivity. }
    split; [reflexivity|]. cbn [fst snd repeat map]. split; [unfold sumR, sumf; cbn; lra|]. intros i Hi. destruct i as [|[|[|i]]]; try lia; unfold sumf, entry, nthR; cbn; lra.
Qed.
Print Assumptions C85_example.

(** The edge 0-1 beside the vertex 2, with eigenvectors (1,1,0) and (1,-1,0) over the square
    root of 2 and (0,0,1): two lists that cover the three vertices. *)
Example C85_spectral_example : let s := / sqrt 2 in let L := [[1; -1; 0]; [-1; 1; 0]; [0; 0; 0]] in
  let eig := fun _ : list (list R) => [(0, [s; s; 0]); (2, [s; - s; 0]); (0, [0; 0; 1])] in
  length (spec_cluster eig L true) = 2%nat /\ (forall i, (i < 3)%nat -> exists c, In c (spec_cluster eig L true) /\ In i c) /\
  spec_cluster eig L false = spec_cluster eig L true.
Proof.
  intros s L eig. set (w := fun i j => if (Nat.eqb i 0 && Nat.eqb j 1) || (Nat.eqb i 1 && Nat.eqb j 0) then 1 else 0).
  assert (Hs2 : s * s = / 2). { unfold s. rewrite <- Rinv_mult_distr by (apply Rgt_not_eq, sqrt_lt_R0; lra). rewrite sqrt_sqrt by lra. reflexivity. }
  assert (J : forall i j, joined 3 w i j -> i = j \/ ((i < 2)%nat /\ (j < 2)%nat)).
  { intros i j Hj. induction Hj as [i j [_ [_ H]]|i|i j k _ IH1 _ IH2]; [|now left|].
    - right. unfold w in H. destruct (Nat.eqb_spec i 0), (Nat.eqb_spec j 1), (Nat.eqb_spec i 1), (Nat.eqb_spec j 0); cbn in H; try lra; lia.
    - destruct IH1 as [->|IH1]; [assumption|]. destruct IH2 as [<-|IH2]; right; lia. }
  assert (J01 : joined 3 w 0 1) by (apply rt_step; unfold w; cbn; repeat split; try lia; lra).
  assert (J10 : joined 3 w 1 0) by (apply rt_step; unfold w; cbn; repeat split; try lia; lra).
  destruct (C85_spectral_count 3 w L eig [[0; 1]; [2]]%nat) as [A B].
  - intros i j Hi Hj. destruct i as [|[|[|i]]]; try lia; (destruct j as [|[|[|j]]]; try lia); unfold w; cbn; lra.
  - intros i j Hi Hj. destruct i as [|[|[|i]]]; try lia; (destruct j as [|[|[|j]]]; try lia); unfold w, entry, sumf; cbn; lra.
  - intros ev He. unfold eigenpair. destruct He as [<-|[<-|[<-|[]]]]; (split; [reflexivity|]); (split; [unfold sumR, sumf; cbn; lra|]); intros i Hi; (destruct i as [|[|[|i]]]; [| | |lia]); unfold sumf, entry, nthR; cbn; lra.
  - intros i j Hi Hj. destruct i as [|[|[|i]]]; try lia; (destruct j as [|[|[|j]]]; try lia); unfold sumf, nthR; cbn; lra.
  - apply Permutation_refl.
  - intros [H|[H|[]]]; discriminate.
  - intros C i j [<-|[<-|[]]] Hi; cbn in Hi.
    + destruct Hi as [<-|[<-|[]]]; cbn; (split; [intros [<-|[<-|[]]]; split; try lia; try assumption; apply rt_refl|intros [H1 H2]; apply J in H2; lia]).
    + destruct Hi as [<-|[]]; cbn. split; [intros [<-|[]]; split; [lia|apply rt_refl]|intros [H1 H2]; apply J in H2; lia].
  - split; [exact A|]. split; [intros i Hi; apply B; [cbn; lra|assumption]|]. apply C85_spectral_tolerance. intros ev [<-|[<-|[<-|[]]]]; cbn [fst]; intros H; try reflexivity.
    rewrite Rabs_pos_eq in H by lra. exfalso. assert (/ 10 ^ 8 < / 1) by (apply Rinv_lt_contravar; lra). lra.
Qed.
