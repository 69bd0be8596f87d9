(** * Proofs about the indexing functions. *)
From Coq Require Import Ascii String Sorted.
From Verif Require Import Prelude Spec PreludeFacts M_Index.
Import ListNotations.

(** ** Zrange *)
Lemma Zrange_empty lo hi : (hi <= lo)%Z -> Zrange lo hi = [].
Proof. intros H. unfold Zrange. replace (Z.to_nat (hi - lo)) with 0 by lia. reflexivity. Qed.

Lemma Zrange_cons lo hi : (lo < hi)%Z -> Zrange lo hi = lo :: Zrange (lo + 1) hi.
Proof.
  intros H. unfold Zrange.
  replace (Z.to_nat (hi - lo)) with (S (Z.to_nat (hi - (lo + 1)))) by lia.
  cbn [seq map]. f_equal; [lia|]. rewrite <- seq_shift, map_map.
  apply map_ext. intros a. lia.
Qed.

Lemma Zrange_of_nat n : Zrange 0 (Z.of_nat n) = map Z.of_nat (seq 0 n).
Proof.
  unfold Zrange. rewrite Z.sub_0_r, Nat2Z.id. apply map_ext. intros; lia.
Qed.

Lemma in_Zrange lo hi x : In x (Zrange lo hi) <-> (lo <= x < hi)%Z.
Proof.
  unfold Zrange. rewrite in_map_iff. split.
  - intros (t & <- & Ht). apply in_seq in Ht. lia.
  - intros H. exists (Z.to_nat (x - lo)). split; [lia|]. apply in_seq. lia.
Qed.

(** ** sub_to_ind *)
Lemma sumZ_tri n i : (0 <= i)%Z ->
  (2 * sumZ (map (fun l => n - l) (Zrange 1 (i + 2))) = (i + 1) * (2 * n - i - 2))%Z.
Proof.
  intros Hi.
  assert (G : forall m lo, (2 * sumZ (map (fun l => n - l) (Zrange lo (lo + Z.of_nat m)))
     = Z.of_nat m * (2 * n - 2 * lo - Z.of_nat m + 1))%Z).
  { induction m as [|m IH]; intros lo.
    - rewrite Zrange_empty by lia. cbn. lia.
    - rewrite Zrange_cons by lia. cbn [map sumZ fold_right].
      specialize (IH (lo + 1)%Z). replace (lo + Z.of_nat (S m))%Z with (lo + 1 + Z.of_nat m)%Z by lia.
      unfold sumZ in IH. lia. }
  specialize (G (Z.to_nat (i + 1)) 1%Z).
  replace (1 + Z.of_nat (Z.to_nat (i + 1)))%Z with (i + 2)%Z in G by lia.
  rewrite G. rewrite Z2Nat.id by lia. ring.
Qed.

Lemma sub_to_ind_value n i j : (0 <= i < j)%Z -> (j < n)%Z ->
  exists k, sub_to_ind n i j = Ok k /\ (2 * k = i * (2 * n - i - 3) + 2 * j - 2)%Z.
Proof.
  intros H1 H2. unfold sub_to_ind.
  replace (i <? j)%Z with true by (symmetry; apply Z.ltb_lt; lia).
  pose proof (sumZ_tri n i ltac:(lia)) as T.
  destruct (Z.ltb_spec (sumZ (map (fun l => n - l)%Z (Zrange 1 (i + 2)))) 0) as [Hneg|Hpos]; [nia|].
  eexists. split; [reflexivity|]. nia.
Qed.

Lemma nth_error_pairs_seq n : forall a i j k, i < j -> j < n ->
  2 * k + i * (i + 1) + 2 * i + 2 = 2 * i * n + 2 * j ->
  nth_error (pairs (seq a n)) k = Some (a + i, a + j).
Proof.
  induction n as [|n IH]; intros a i j k Hij Hj Hk; [lia|].
  cbn [seq pairs]. destruct i as [|i].
  - rewrite nth_error_app1 by (rewrite map_length, seq_length; lia).
    rewrite nth_error_map. assert (k = j - 1) by lia. subst k.
    rewrite (nth_error_nth' _ 0) by (rewrite seq_length; lia).
    rewrite seq_nth by lia. cbn. do 2 f_equal; lia.
  - rewrite nth_error_app2 by (rewrite map_length, seq_length; nia).
    rewrite map_length, seq_length.
    rewrite (IH (S a) i (j - 1)) by nia. do 2 f_equal; lia.
Qed.

Lemma pairs_Zrange n : pairs (Zrange 0 (Z.of_nat n)) =
  map (fun p => (Z.of_nat (fst p), Z.of_nat (snd p))) (pairs (seq 0 n)).
Proof. rewrite Zrange_of_nat, pairs_map. reflexivity. Qed.

Lemma sub_to_ind_position n i j : (0 <= i < j)%Z -> (j < n)%Z ->
  exists k, sub_to_ind n i j = Ok (Z.of_nat k) /\
            nth_error (pairs (Zrange 0 n)) k = Some (i, j).
Proof.
  intros H1 H2. destruct (sub_to_ind_value n i j H1 H2) as (k & Hk & E).
  exists (Z.to_nat k). assert (0 <= k)%Z by nia. rewrite Z2Nat.id by lia. split; [assumption|].
  replace n with (Z.of_nat (Z.to_nat n)) by lia. rewrite pairs_Zrange, nth_error_map.
  rewrite (nth_error_pairs_seq (Z.to_nat n) 0 (Z.to_nat i) (Z.to_nat j)).
  - cbn. do 2 f_equal; lia.
  - lia.
  - lia.
  - apply Nat2Z.inj. rewrite !Nat2Z.inj_add, !Nat2Z.inj_mul, !Nat2Z.inj_add, !Z2Nat.id by lia. nia.
Qed.

Lemma sub_to_ind_sym n i j : sub_to_ind n i j = sub_to_ind n j i.
Proof.
  unfold sub_to_ind. destruct (Z.ltb_spec i j), (Z.ltb_spec j i); try lia; reflexivity.
Qed.

Lemma sub_to_ind_diag n i : sub_to_ind n i i = Err GenericException.
Proof. unfold sub_to_ind. rewrite Z.ltb_irrefl. reflexivity. Qed.

Lemma ind_to_sub_order_eq n : ind_to_sub_order n = pairs (Zrange 0 n).
Proof.
  unfold ind_to_sub_order.
  assert (G : forall m a, Z.to_nat (n - a) = m ->
     flat_map (fun i => map (fun j => (i, j)) (Zrange (i + 1) n)) (Zrange a (n - 1)) = pairs (Zrange a n)).
  { induction m as [|m IH]; intros a Hm.
    - rewrite !Zrange_empty by lia. reflexivity.
    - rewrite (Zrange_cons a n) by lia. cbn [pairs].
      destruct (Z.eq_dec a (n - 1)) as [->|Hne].
      + rewrite !Zrange_empty by lia. reflexivity.
      + rewrite Zrange_cons by lia. cbn [flat_map]. rewrite IH by lia. reflexivity. }
  eapply G. reflexivity.
Qed.

Lemma ind_to_sub_scan_eq ix k l :
  ind_to_sub_scan ix k l = if (ix <? k)%Z then None else nth_error l (Z.to_nat (ix - k)).
Proof.
  revert k. induction l as [|p l IH]; intros k; cbn [ind_to_sub_scan].
  - destruct (ix <? k)%Z; [reflexivity|]. now destruct (Z.to_nat (ix - k)).
  - rewrite IH. destruct (Z.eqb_spec k ix) as [->|Hne].
    + rewrite Z.ltb_irrefl, Z.sub_diag. reflexivity.
    + destruct (Z.ltb_spec ix k), (Z.ltb_spec ix (k + 1)); try lia; try reflexivity.
      replace (Z.to_nat (ix - k)) with (S (Z.to_nat (ix - (k + 1)))) by lia. reflexivity.
Qed.

Lemma ind_to_sub_eq n ix :
  ind_to_sub n ix = if (ix <? 0)%Z then None else nth_error (pairs (Zrange 0 n)) (Z.to_nat ix).
Proof.
  unfold ind_to_sub. rewrite ind_to_sub_order_eq, ind_to_sub_scan_eq, Z.sub_0_r. reflexivity.
Qed.

Lemma ind_to_sub_sub_to_ind n i j : (0 <= i < j)%Z -> (j < n)%Z ->
  exists k, sub_to_ind n i j = Ok k /\ ind_to_sub n k = Some (i, j).
Proof.
  intros H1 H2. destruct (sub_to_ind_position n i j H1 H2) as (k & Hk & E).
  exists (Z.of_nat k). split; [assumption|].
  rewrite ind_to_sub_eq, Nat2Z.id, E.
  destruct (Z.ltb_spec (Z.of_nat k) 0); [lia|reflexivity].
Qed.

Lemma pairs_Zrange_length n : (0 <= n)%Z ->
  Z.of_nat (length (pairs (Zrange 0 n))) = (n * (n - 1) / 2)%Z.
Proof.
  intros H. replace n with (Z.of_nat (Z.to_nat n)) at 1 by lia.
  rewrite pairs_Zrange, map_length, pairs_length, seq_length.
  rewrite Nat2Z.inj_div, Nat2Z.inj_mul. destruct (Z.to_nat n) as [|m] eqn:E.
  - assert (n = 0)%Z by lia. subst. reflexivity.
  - rewrite Nat2Z.inj_sub by lia. replace (Z.of_nat (S m)) with n by lia. reflexivity.
Qed.

Lemma in_pairs_Zrange n i j : In (i, j) (pairs (Zrange 0 n)) <-> (0 <= i < j /\ j < n)%Z.
Proof.
  destruct (Z.le_gt_cases n 0) as [Hn|Hn].
  - rewrite Zrange_empty by lia. cbn. lia.
  - replace n with (Z.of_nat (Z.to_nat n)) at 1 by lia. rewrite pairs_Zrange, in_map_iff. split.
    + intros ([a b] & E & Hin). cbn in E. injection E; intros; subst.
      apply in_pairs_seq in Hin. lia.
    + intros H. exists (Z.to_nat i, Z.to_nat j). cbn. rewrite !Z2Nat.id by lia. split; [reflexivity|].
      apply in_pairs_seq. lia.
Qed.

Lemma sub_to_ind_ind_to_sub n ix : (0 <= n)%Z -> (0 <= ix < n * (n - 1) / 2)%Z ->
  exists i j, ind_to_sub n ix = Some (i, j) /\ (0 <= i < j)%Z /\ (j < n)%Z /\
              sub_to_ind n i j = Ok ix.
Proof.
  intros Hn H. rewrite ind_to_sub_eq. destruct (Z.ltb_spec ix 0); [lia|].
  destruct (nth_error (pairs (Zrange 0 n)) (Z.to_nat ix)) as [[i j]|] eqn:E.
  - exists i, j. split; [reflexivity|].
    pose proof (nth_error_In _ _ E) as Hin. apply in_pairs_Zrange in Hin.
    split; [lia|]. split; [lia|].
    destruct (sub_to_ind_position n i j ltac:(lia) ltac:(lia)) as (k & Hk & E2).
    rewrite Hk. f_equal.
    assert (k = Z.to_nat ix); [|lia].
    assert (ND : NoDup (pairs (Zrange 0 n))).
    { replace n with (Z.of_nat (Z.to_nat n)) by lia. rewrite pairs_Zrange.
      apply FinFun.Injective_map_NoDup; [|apply NoDup_pairs_seq].
      intros [a b] [c d] Ecd. cbn in Ecd. injection Ecd; intros. f_equal; lia. }
    rewrite NoDup_nth_error in ND. apply ND; [apply nth_error_Some; congruence|congruence].
  - apply nth_error_None in E. pose proof (pairs_Zrange_length n Hn). lia.
Qed.

Lemma ind_to_sub_none n ix : (0 <= n)%Z ->
  (ind_to_sub n ix = None <-> (ix < 0 \/ n * (n - 1) / 2 <= ix)%Z).
Proof.
  intros Hn. rewrite ind_to_sub_eq. pose proof (pairs_Zrange_length n Hn) as L.
  destruct (Z.ltb_spec ix 0).
  - split; auto.
  - rewrite nth_error_None. lia.
Qed.

(** ** Fixed width digits *)
Fixpoint digits (b n i : nat) : list nat :=
  match n with
  | 0 => []
  | S m => i / b ^ m :: digits b m (i mod b ^ m)
  end.

Lemma digits_length b n i : length (digits b n i) = n.
Proof. revert i; induction n as [|n IH]; intros i; cbn; auto. Qed.

Lemma digits_all_states b n : 0 < b ->
  map (digits b n) (seq 0 (b ^ n)) = all_states (seq 0 b) n.
Proof.
  intros Hb. induction n as [|n IH]; [reflexivity|].
  cbn [all_states]. rewrite <- IH.
  assert (Hp : 0 < b ^ n) by (apply Nat.neq_0_lt_0, Nat.pow_nonzero; lia).
  assert (G : forall c v, map (digits b (S n)) (seq (v * b ^ n) (c * b ^ n)) =
     flat_map (fun w => map (cons w) (map (digits b n) (seq 0 (b ^ n)))) (seq v c)).
  { induction c as [|c IHc]; intros v; [reflexivity|].
    cbn [seq flat_map]. rewrite <- IHc.
    replace (S c * b ^ n) with (b ^ n + c * b ^ n) by lia.
    rewrite seq_app, map_app. f_equal.
    - rewrite map_map.
      assert (S1 : forall m a, seq a m = map (fun t => a + t) (seq 0 m)).
      { clear. induction m as [|m IHm]; intros a; [reflexivity|].
        cbn [seq map]. f_equal; [lia|]. rewrite (IHm (S a)), (IHm 1), map_map. apply map_ext; intros; lia. }
      rewrite (S1 (b ^ n) (v * b ^ n)), map_map. apply map_ext_in. intros t Ht. apply in_seq in Ht.
      cbn [digits]. rewrite Nat.add_comm, Nat.div_add, Nat.mod_add, Nat.div_small, Nat.mod_small by lia. reflexivity.
    - f_equal. f_equal; lia. }
  specialize (G b 0). cbn [Nat.mul] in G. rewrite <- G. reflexivity.
Qed.

Lemma horner_app b l acc : fold_left (fun a d => a * b + d) l acc = acc * b ^ length l + horner b l.
Proof.
  unfold horner. revert acc. induction l as [|x l IH]; intros acc; cbn [fold_left length].
  - cbn. lia.
  - rewrite IH, (IH (0 * b + x)). cbn. nia.
Qed.

Lemma horner_cons b x l : horner b (x :: l) = x * b ^ length l + horner b l.
Proof. unfold horner at 1. cbn [fold_left]. rewrite horner_app. cbn. lia. Qed.

Lemma horner_digits b n i : 0 < b -> i < b ^ n -> horner b (digits b n i) = i.
Proof.
  intros Hb. revert i. induction n as [|n IH]; intros i Hi.
  - cbn in *. lia.
  - assert (Hp : b ^ n <> 0) by (apply Nat.pow_nonzero; lia).
    cbn [digits]. rewrite horner_cons, digits_length, IH.
    + pose proof (Nat.div_mod i (b ^ n) Hp). lia.
    + apply Nat.mod_upper_bound. assumption.
Qed.

Lemma digits_lt b n i : 0 < b -> i < b ^ n -> forall d, In d (digits b n i) -> d < b.
Proof.
  intros Hb. revert i. induction n as [|n IH]; intros i Hi d Hd; [destruct Hd|].
  assert (Hp : b ^ n <> 0) by (apply Nat.pow_nonzero; lia).
  cbn [digits] in Hd. destruct Hd as [<-|Hd].
  - apply Nat.div_lt_upper_bound; [assumption|]. cbn in Hi. lia.
  - eapply IH; [|exact Hd]. apply Nat.mod_upper_bound. assumption.
Qed.

Lemma digits_snoc b n i : 0 < b -> i < b ^ S n -> digits b (S n) i = digits b n (i / b) ++ [i mod b].
Proof.
  intros Hb. revert i. induction n as [|n IH]; intros i Hi.
  - cbn [digits app Nat.pow]. cbn in Hi. rewrite Nat.div_1_r, Nat.mod_small by lia. reflexivity.
  - assert (Hp : b ^ n <> 0) by (apply Nat.pow_nonzero; lia).
    assert (Hp' : b ^ S n <> 0) by (apply Nat.pow_nonzero; lia).
    change (digits b (S (S n)) i) with (i / b ^ S n :: digits b (S n) (i mod b ^ S n)).
    change (digits b (S n) (i / b)) with (i / b / b ^ n :: digits b n ((i / b) mod b ^ n)).
    rewrite IH by (apply Nat.mod_upper_bound; assumption).
    cbn [app]. f_equal; [|f_equal; [f_equal|f_equal]].
    + rewrite Nat.div_div by lia. f_equal.
    + assert (E : i mod b ^ S n = i mod b + b * ((i / b) mod b ^ n)).
      { change (b ^ S n) with (b * b ^ n). rewrite Nat.mod_mul_r by lia. reflexivity. }
      rewrite E, Nat.mul_comm, Nat.div_add, Nat.div_small by (try apply Nat.mod_upper_bound; lia). reflexivity.
    + assert (E : i mod b ^ S n = i mod b + b * ((i / b) mod b ^ n)).
      { change (b ^ S n) with (b * b ^ n). rewrite Nat.mod_mul_r by lia. reflexivity. }
      rewrite E, Nat.mul_comm, Nat.mod_add, Nat.mod_mod by lia. reflexivity.
Qed.

(** ** Binary states *)
Lemma pos_bits_app p acc : pos_bits p acc = pos_bits p [] ++ acc.
Proof.
  revert acc. induction p as [p IH|p IH|]; intros acc; cbn [pos_bits].
  - rewrite IH, (IH [1%Z]), <- app_assoc. reflexivity.
  - rewrite IH, (IH [0%Z]), <- app_assoc. reflexivity.
  - reflexivity.
Qed.

Definition repr0 (i : N) (width : nat) : list Z :=
  match i with
  | N0 => repeat 0%Z width
  | Npos p => repeat 0%Z (width - length (pos_bits p [])) ++ pos_bits p []
  end.

Lemma repr0_digits n i : i < 2 ^ n -> repr0 (N.of_nat i) n = map Z.of_nat (digits 2 n i).
Proof.
  revert i. induction n as [|n IH]; intros i Hi.
  - cbn in Hi. assert (i = 0) by lia. subst. reflexivity.
  - rewrite digits_snoc by (cbn in *; lia). rewrite map_app, <- IH by (apply Nat.div_lt_upper_bound; cbn in *; lia).
    assert (R : forall m, repeat 0%Z (S m) = repeat 0%Z m ++ [0%Z]).
    { clear. induction m as [|m IHm]; [reflexivity|]. cbn [repeat app]. f_equal. exact IHm. }
    destruct (N.of_nat i) as [|p] eqn:E.
    + assert (i = 0) by lia. subst i. cbn [Nat.div Nat.modulo]. cbn [repr0]. rewrite R. reflexivity.
    + destruct p as [p|p|].
      * assert (E2 : i = 2 * Pos.to_nat p + 1) by lia.
        assert (i / 2 = Pos.to_nat p) by (symmetry; apply (Nat.div_unique _ _ _ 1); lia).
        assert (i mod 2 = 1) by (symmetry; apply (Nat.mod_unique _ _ (Pos.to_nat p)); lia).
        rewrite H, H0. replace (N.of_nat (Pos.to_nat p)) with (N.pos p) by lia.
        cbn [repr0 pos_bits]. rewrite pos_bits_app, app_length, app_assoc. cbn [length map].
        do 2 f_equal. f_equal. lia.
      * assert (E2 : i = 2 * Pos.to_nat p) by lia.
        assert (i / 2 = Pos.to_nat p) by (symmetry; apply (Nat.div_unique _ _ _ 0); lia).
        assert (i mod 2 = 0) by (symmetry; apply (Nat.mod_unique _ _ (Pos.to_nat p)); lia).
        rewrite H, H0. replace (N.of_nat (Pos.to_nat p)) with (N.pos p) by lia.
        cbn [repr0 pos_bits]. rewrite pos_bits_app, app_length, app_assoc. cbn [length map].
        do 2 f_equal. f_equal. lia.
      * assert (i = 1) by lia. subst i. cbn [repr0 pos_bits length].
        change (1 / 2) with 0. change (1 mod 2) with 1. cbn [N.of_nat repr0 map].
        replace (S n - 1) with n by lia. reflexivity.
Qed.

Lemma binary_rows_all_states n : 0 < n -> binary_rows n = all_states [0%Z; 1%Z] n.
Proof.
  intros Hn. unfold binary_rows.
  change [0%Z; 1%Z] with (map Z.of_nat (seq 0 2)). rewrite all_states_map, <- digits_all_states, map_map by lia.
  apply map_ext_in. intros i Hi. apply in_seq in Hi. rewrite <- repr0_digits by lia.
  unfold binary_repr, repr0. destruct (N.of_nat i); [|reflexivity].
  destruct n; [lia|]. reflexivity.
Qed.

Lemma to_sym_all_states n : map to_sym (all_states [0%Z; 1%Z] n) = all_states [-1; 1]%Z n.
Proof.
  change [-1; 1]%Z with (map (fun v => v * 2 - 1)%Z [0; 1]%Z). rewrite all_states_map. reflexivity.
Qed.

Lemma bin_states_eq n sym : (0 < n <= 30)%Z ->
  bin_states n sym = Ok (all_states (if sym then [-1; 1]%Z else [0; 1]%Z) (Z.to_nat n)).
Proof.
  intros H. unfold bin_states. destruct (Z.ltb_spec n 0); [lia|]. destruct (Z.ltb_spec 30 n); [lia|].
  rewrite binary_rows_all_states by lia. destruct sym; [rewrite to_sym_all_states|]; reflexivity.
Qed.

Lemma xbin_states_eq n sym : (0 < n)%Z ->
  xbin_states n sym = Ok (all_states (if sym then [-1; 1]%Z else [0; 1]%Z) (Z.to_nat n)).
Proof.
  intros H. unfold xbin_states. destruct (Z.leb_spec n 0); [lia|]. f_equal.
  pose proof (binary_rows_all_states (Z.to_nat n) ltac:(lia)) as B. unfold binary_rows in B.
  destruct sym.
  - rewrite <- to_sym_all_states, <- B, map_map. reflexivity.
  - rewrite <- B. reflexivity.
Qed.

(** Row [i] is the binary expansion of [i]. *)
Lemma all_states_nth b n i : 0 < b -> i < b ^ n ->
  exists ds, nth_error (all_states (seq 0 b) n) i = Some ds /\ horner b ds = i.
Proof.
  intros Hb Hi. exists (digits b n i). split; [|apply horner_digits; assumption].
  rewrite <- digits_all_states by assumption. apply nth_error_map_seq. assumption.
Qed.

(** ** base_repr *)
Definition good_alphabet (al : list ascii) (base : nat) : Prop :=
  base <= length al /\ nth 0 al "0"%char = "0"%char.

Lemma base_loop_eq al base e i : good_alphabet al base -> 0 < base -> i < base ^ e ->
  base_loop al base e i = Ok (map (fun d => nth d al "0"%char) (digits base e i)).
Proof.
  intros [Hl H0] Hb. revert i. induction e as [|e IH]; intros i Hi; [reflexivity|].
  assert (Hp : base ^ e <> 0) by (apply Nat.pow_nonzero; lia).
  cbn [base_loop digits map]. destruct (Nat.ltb_spec i (base ^ e)) as [Hlt|Hge].
  - rewrite IH by assumption. cbn [bind]. rewrite Nat.div_small, Nat.mod_small, H0 by assumption. reflexivity.
  - assert (Ht : i / base ^ e < base).
    { apply Nat.div_lt_upper_bound; [assumption|]. cbn in Hi. lia. }
    unfold get. rewrite (nth_error_nth' _ "0"%char) by lia. cbn [bind].
    replace (i - i / base ^ e * base ^ e) with (i mod base ^ e).
    2:{ rewrite Nat.mod_eq by assumption. lia. }
    rewrite IH by (apply Nat.mod_upper_bound; assumption). reflexivity.
Qed.

(** Admissible outcomes of the float estimate of the logarithm: exact, or one
    too small in the situation the source calls "problematically rounded". *)
Definition log_estimate_ok (est i base e : nat) : Prop :=
  base ^ e <= i < base ^ (e + 1) /\
  (est = e \/ (est + 1 = e /\ i < base ^ e + base ^ est)).

Lemma generic_base_eq al est i base e : good_alphabet al base -> 2 <= base ->
  log_estimate_ok est i base e ->
  generic_base al est i base = Ok (map (fun d => nth d al "0"%char) (digits base (e + 1) i)).
Proof.
  intros Hal Hb [Hi Hest]. unfold generic_base.
  assert (Hp : base ^ e <> 0) by (apply Nat.pow_nonzero; lia).
  assert (Hlt : i / base ^ e < base).
  { apply Nat.div_lt_upper_bound; [assumption|]. rewrite Nat.add_1_r in Hi. cbn in Hi. lia. }
  assert (Hfin : forall t, t = i / base ^ e ->
      bind (get al t) (fun c => bind (base_loop al base e (i - t * base ^ e)) (fun r => Ok (c :: r)))
      = Ok (map (fun d => nth d al "0"%char) (digits base (e + 1) i))).
  { intros t ->. destruct Hal as [Hl H0]. unfold get. rewrite (nth_error_nth' _ "0"%char) by lia. cbn [bind].
    replace (i - i / base ^ e * base ^ e) with (i mod base ^ e) by (rewrite Nat.mod_eq by assumption; lia).
    rewrite base_loop_eq by (try split; try lia; auto; apply Nat.mod_upper_bound; assumption).
    cbn [bind]. rewrite Nat.add_1_r. reflexivity. }
  destruct Hest as [->|[He Hsmall]].
  - destruct (Nat.eqb_spec (i / base ^ e) base); [lia|]. apply Hfin. reflexivity.
  - assert (Hpe : base ^ est <> 0) by (apply Nat.pow_nonzero; lia).
    assert (Epow : base ^ e = base * base ^ est) by (rewrite <- He, Nat.add_1_r; reflexivity).
    assert (i / base ^ est = base).
    { symmetry. apply (Nat.div_unique _ _ _ (i - base * base ^ est)); lia. }
    rewrite H, Nat.eqb_refl, He. apply Hfin.
    apply (Nat.div_unique _ _ _ (i - base ^ e)); nia.
Qed.

(** One too large: an extra leading zero. *)
Lemma generic_base_large_eq al i base e : good_alphabet al base -> 2 <= base ->
  base ^ e <= i < base ^ (e + 1) ->
  generic_base al (e + 1) i base = Ok ("0"%char :: map (fun d => nth d al "0"%char) (digits base (e + 1) i)).
Proof.
  intros Hal Hb Hi. unfold generic_base.
  assert (Hp : base ^ (e + 1) <> 0) by (apply Nat.pow_nonzero; lia).
  rewrite Nat.div_small by lia. destruct (Nat.eqb_spec 0 base); [lia|].
  destruct Hal as [Hl H0]. unfold get. rewrite (nth_error_nth' _ "0"%char) by lia. cbn [bind].
  rewrite Nat.mul_0_l, Nat.sub_0_r, base_loop_eq by (try split; lia || auto). cbn [bind]. rewrite H0. reflexivity.
Qed.

Lemma good_NUMERALS base : base <= 10 -> good_alphabet NUMERALS base.
Proof. split; [cbn; lia|reflexivity]. Qed.

Lemma good_ALPHANUM base : base <= 36 -> good_alphabet ALPHANUM base.
Proof. split; [cbn; lia|reflexivity]. Qed.

Lemma digits_hd b n i : 0 < b -> b ^ n <= i -> i < b ^ (n + 1) -> hd 0 (digits b (n + 1) i) <> 0.
Proof.
  intros Hb H1 H2. rewrite Nat.add_1_r. cbn [digits hd].
  assert (Hp : b ^ n <> 0) by (apply Nat.pow_nonzero; lia).
  assert (1 <= i / b ^ n); [|lia]. apply Nat.div_le_lower_bound; lia.
Qed.

(** ** xpotts_states *)
Lemma mapM_eq {A B} (f : A -> result B) g l : (forall a, In a l -> f a = Ok (g a)) -> mapM f l = Ok (map g l).
Proof.
  induction l as [|a l IH]; intros H; [reflexivity|].
  cbn [mapM map]. rewrite H by (now left). cbn [bind]. rewrite IH by (intros; apply H; now right). reflexivity.
Qed.

Lemma map_repeat' {A B} (f : A -> B) a n : map f (repeat a n) = repeat (f a) n.
Proof. induction n as [|n IH]; cbn; congruence. Qed.

Definition alpha_of (k : nat) : list ascii := if Nat.leb k 10 then NUMERALS else ALPHANUM.

Lemma exponent_exists b n i : 2 <= b -> 0 < i -> i < b ^ n ->
  exists e, b ^ e <= i < b ^ (e + 1) /\ e < n.
Proof.
  intros Hb Hi. induction n as [|n IH]; intros H; [cbn in H; lia|].
  destruct (Nat.lt_ge_cases i (b ^ n)) as [Hlt|Hge].
  - destruct (IH Hlt) as (e & He & Hn). exists e. split; [assumption|lia].
  - exists n. rewrite Nat.add_1_r. split; [split; assumption|lia].
Qed.

Lemma digits_pad b e n i : 0 < b -> i < b ^ e -> e <= n ->
  digits b n i = repeat 0 (n - e) ++ digits b e i.
Proof.
  intros Hb Hi. induction n as [|n IH]; intros Hn.
  - assert (e = 0) by lia. subst. reflexivity.
  - destruct (Nat.eq_dec e (S n)) as [->|Hne].
    + rewrite Nat.sub_diag. reflexivity.
    + assert (Hle : b ^ e <= b ^ n) by (apply Nat.pow_le_mono_r; lia).
      cbn [digits]. rewrite Nat.div_small, Nat.mod_small, IH by lia.
      replace (S n - e) with (S (n - e)) by lia. reflexivity.
Qed.

Lemma base_repr_eq logest i k e : 2 <= k <= 36 -> 0 < i ->
  log_estimate_ok (logest i k) i k e ->
  base_repr logest i k = Ok (map (fun d => nth d (alpha_of k) "0"%char) (digits k (e + 1) i)).
Proof.
  intros Hk Hi Hest. unfold base_repr, alpha_of.
  destruct (Nat.ltb_spec k 2); [lia|]. destruct (Nat.eqb_spec i 0); [lia|].
  destruct (Nat.leb_spec k 10).
  - apply generic_base_eq; [apply good_NUMERALS; lia|lia|assumption].
  - destruct (Nat.leb_spec k 36); [|lia].
    apply generic_base_eq; [apply good_ALPHANUM; lia|lia|assumption].
Qed.

Lemma nth0_alpha k : nth 0 (alpha_of k) "0"%char = "0"%char.
Proof. unfold alpha_of. destruct (Nat.leb k 10); reflexivity. Qed.

Lemma xpotts_states_eq logest n k : 0 < n -> 2 <= k <= 36 ->
  (forall i, 0 < i < k ^ n -> exists e, log_estimate_ok (logest i k) i k e) ->
  xpotts_states logest n k =
  Ok (map (map (fun d => nth d (alpha_of k) "0"%char)) (all_states (seq 0 k) n)).
Proof.
  intros Hn Hk Hest. unfold xpotts_states.
  destruct (Nat.leb_spec n 0); [lia|]. destruct (Nat.ltb_spec k 2); [lia|].
  rewrite <- digits_all_states, map_map by lia. apply mapM_eq.
  intros i Hi. apply in_seq in Hi. destruct (Nat.eq_dec i 0) as [->|Hi0].
  - unfold base_repr. destruct (Nat.ltb_spec k 2); [lia|]. cbn [Nat.eqb bind length].
    f_equal. rewrite (digits_pad k 0 n 0) by (cbn; lia). cbn [digits]. rewrite app_nil_r, Nat.sub_0_r.
    rewrite map_repeat', nth0_alpha. destruct n as [|n]; [lia|]. replace (S n - 1) with n by lia.
    rewrite <- (repeat_cons n "0"%char). reflexivity.
  - destruct (Hest i ltac:(lia)) as (e & He). rewrite (base_repr_eq _ _ _ e) by (assumption || lia).
    cbn [bind]. f_equal. rewrite map_length, digits_length.
    assert (He' : e + 1 <= n).
    { destruct He as [[He _] _]. assert (k ^ e < k ^ n) by lia.
      apply Nat.pow_lt_mono_r_iff in H1; lia. }
    destruct He as [[_ He] _].
    rewrite (digits_pad k (e + 1) n i) by lia. rewrite map_app, map_repeat', nth0_alpha. reflexivity.
Qed.
