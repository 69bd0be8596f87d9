(** * Proofs: combinations, unravel_index, split_concat_params. *)
From Coq Require Import Sorted.
From Verif Require Import Prelude Spec PreludeFacts M_Index.
Import ListNotations.

(** ** combinations lists exactly the increasing tuples, in lexicographic order *)
Lemma in_combinations_seq m : forall a k t,
  In t (combinations (seq a m) k) <->
  length t = k /\ StronglySorted lt t /\ Forall (fun x => a <= x < a + m) t.
Proof.
  induction m as [|m IH]; intros a k t.
  - destruct k as [|k]; cbn [seq combinations].
    + split.
      * intros [<-|[]]. repeat constructor.
      * intros [H _]. destruct t; [now left|discriminate].
    + split; [intros []|]. intros (Hl & _ & Hf). destruct t as [|x t]; [discriminate|].
      inversion Hf; subst. lia.
  - destruct k as [|k].
    + cbn [seq combinations]. split.
      * intros [<-|[]]. repeat constructor.
      * intros [H _]. destruct t; [now left|discriminate].
    + change (combinations (seq a (S m)) (S k)) with
        (map (cons a) (combinations (seq (S a) m) k) ++ combinations (seq (S a) m) (S k)).
      rewrite in_app_iff, in_map_iff, IH. split.
      * intros [(u & <- & Hu)|(Hl & Hs & Hf)].
        -- apply IH in Hu. destruct Hu as (Hl & Hs & Hf). split; [cbn; lia|]. split.
           ++ constructor; [assumption|]. eapply Forall_impl; [|exact Hf]. cbn; lia.
           ++ constructor; [lia|]. eapply Forall_impl; [|exact Hf]. cbn; lia.
        -- split; [assumption|]. split; [assumption|]. eapply Forall_impl; [|exact Hf]. cbn; lia.
      * intros (Hl & Hs & Hf). destruct t as [|x t]; [discriminate|].
        inversion Hs; subst. inversion Hf; subst.
        destruct (Nat.eq_dec x a) as [->|Hne].
        -- left. exists t. split; [reflexivity|]. apply IH. split; [now injection Hl|]. split; [assumption|].
           rewrite Forall_forall in *. intros y Hy. specialize (H2 y Hy). specialize (H4 y Hy). cbn in *; lia.
        -- right. split; [assumption|]. split; [assumption|].
           constructor; [lia|]. rewrite Forall_forall in *. intros y Hy. specialize (H2 y Hy). specialize (H4 y Hy). cbn in *; lia.
Qed.

Lemma StronglySorted_nth t : StronglySorted lt t <->
  (forall a b, a < b -> b < length t -> nth a t 0 < nth b t 0).
Proof.
  induction t as [|x t IH]; split.
  - intros _ a b H1 H2. cbn in H2. lia.
  - intros _. constructor.
  - intros Hs a b Hab Hb. inversion Hs as [|? ? Hs' Hf]; subst. destruct b as [|b]; [lia|]. cbn in Hb.
    destruct a as [|a]; cbn [nth].
    + rewrite Forall_forall in Hf. apply Hf. apply nth_In. lia.
    + apply IH; [assumption|lia|lia].
  - intros H. constructor.
    + apply IH. intros a b Hab Hb. apply (H (S a) (S b)); cbn; lia.
    + rewrite Forall_forall. intros y Hy. destruct (In_nth _ _ 0 Hy) as (i & Hi & <-).
      apply (H 0 (S i)); cbn; lia.
Qed.

Lemma in_combinations_incr n k t :
  In t (combinations (seq 0 n) k) <-> length t = k /\ incr_below n t.
Proof.
  rewrite in_combinations_seq, StronglySorted_nth, Forall_forall. unfold incr_below.
  split.
  - intros (Hl & Hs & Hf). repeat split; auto. intros x Hx. specialize (Hf x Hx). cbn in Hf. lia.
  - intros (Hl & Hs & Hf). split; [assumption|]. split; [assumption|]. intros x Hx. specialize (Hf x Hx). cbn. lia.
Qed.

Lemma combinations_NoDup {A} (l : list A) k : NoDup l -> NoDup (combinations l k).
Proof.
  intros Hl. revert k. induction Hl as [|x l Hni Hnd IH]; intros [|k];
    try (constructor; [intros []|constructor]); [constructor|].
  change (combinations (x :: l) (S k)) with (map (cons x) (combinations l k) ++ combinations l (S k)).
  apply NoDup_app_intro.
  - apply FinFun.Injective_map_NoDup; [|apply IH]. intros u v E. now injection E.
  - apply IH.
  - intros t Ht Hin. apply in_map_iff in Ht. destruct Ht as (u & <- & Hu).
    assert (G : forall l' k' (t : list A), In t (combinations l' k') -> forall y, In y t -> In y l').
    { clear. induction l' as [|z l' IH']; intros [|k'] t; cbn [combinations].
      - intros [<-|[]] y [].
      - intros [].
      - intros [<-|[]] y [].
      - rewrite in_app_iff, in_map_iff. intros [(u & <- & Hu)|H] y Hy.
        + destruct Hy as [->|Hy]; [now left|right; eauto].
        + right. eapply IH'; eauto. }
    apply Hni. eapply G; [exact Hin|]. now left.
Qed.

Lemma combinations_lex m : forall a k p q t u, p < q ->
  nth_error (combinations (seq a m) k) p = Some t ->
  nth_error (combinations (seq a m) k) q = Some u -> lex_lt t u.
Proof.
  induction m as [|m IH]; intros a k p q t u Hpq Hp Hq.
  - destruct k; cbn [seq combinations] in *.
    + destruct q as [|q]; [lia|]. cbn in Hq. destruct q; discriminate.
    + destruct p; discriminate.
  - destruct k as [|k].
    + cbn [seq combinations] in *. destruct q as [|q]; [lia|]. cbn in Hq. destruct q; discriminate.
    + change (combinations (seq a (S m)) (S k)) with
        (map (cons a) (combinations (seq (S a) m) k) ++ combinations (seq (S a) m) (S k)) in Hp, Hq.
      set (L := length (map (cons a) (combinations (seq (S a) m) k))) in *.
      destruct (Nat.lt_ge_cases p L) as [HpL|HpL].
      * rewrite nth_error_app1 in Hp by assumption. rewrite nth_error_map in Hp.
        destruct (nth_error (combinations (seq (S a) m) k) p) as [t'|] eqn:Et; [|discriminate].
        injection Hp as <-.
        destruct (Nat.lt_ge_cases q L) as [HqL|HqL].
        -- rewrite nth_error_app1 in Hq by assumption. rewrite nth_error_map in Hq.
           destruct (nth_error (combinations (seq (S a) m) k) q) as [u'|] eqn:Eu; [|discriminate].
           injection Hq as <-. cbn. right. split; [reflexivity|]. eapply (IH (S a) k p q); eassumption.
        -- rewrite nth_error_app2 in Hq by assumption. apply nth_error_In in Hq.
           apply in_combinations_seq in Hq. destruct Hq as (Hl & _ & Hf). destruct u as [|y u]; [discriminate|].
           inversion Hf; subst. cbn. left. lia.
      * destruct (Nat.lt_ge_cases q L) as [HqL|HqL]; [lia|].
        rewrite nth_error_app2 in Hp, Hq by assumption. fold L in Hp, Hq.
        eapply (IH (S a) (S k) (p - L) (q - L)); [lia|eassumption|eassumption].
Qed.

(** ** unravel_index *)
Fixpoint rank (n a : nat) (t : list nat) : nat :=
  match t with
  | [] => 0
  | x :: t' => sumN (map (fun i => binom (n - 1 - i) (length t')) (seq a (x - a))) + rank n (S x) t'
  end.

Lemma rank_ok n t : forall a, a <= n -> StronglySorted lt t -> Forall (fun x => a <= x < n) t ->
  nth_error (combinations (seq a (n - a)) (length t)) (rank n a t) = Some t.
Proof.
  induction t as [|x t IH]; intros a Ha Hs Hf; [destruct (seq a (n - a)); reflexivity|].
  inversion Hs as [|? ? Hs' Hlt]; subst. inversion Hf as [|? ? Hx Hf']; subst.
  cbn [length rank].
  remember (x - a) as d eqn:Ed. revert a Ha Hx Ed Hf Hf'. induction d as [|d IHd]; intros a Ha Hx Ed Hf Hf'.
  - assert (x = a) by lia. subst x. cbn [seq map sumN fold_right Nat.add].
    replace (n - a) with (S (n - S a)) by lia.
    change (combinations (seq a (S (n - S a))) (S (length t))) with
      (map (cons a) (combinations (seq (S a) (n - S a)) (length t)) ++ combinations (seq (S a) (n - S a)) (S (length t))).
    assert (E : nth_error (combinations (seq (S a) (n - S a)) (length t)) (rank n (S a) t) = Some t).
    { apply IH; [lia|assumption|]. rewrite Forall_forall in *. intros y Hy. specialize (Hlt y Hy). specialize (Hf' y Hy). cbn in *; lia. }
    rewrite nth_error_app1.
    + rewrite nth_error_map, E. reflexivity.
    + rewrite map_length. apply nth_error_Some. congruence.
  - cbn [seq map sumN fold_right].
    replace (n - a) with (S (n - S a)) by lia.
    change (combinations (seq a (S (n - S a))) (S (length t))) with
      (map (cons a) (combinations (seq (S a) (n - S a)) (length t)) ++ combinations (seq (S a) (n - S a)) (S (length t))).
    assert (EL : length (map (cons a) (combinations (seq (S a) (n - S a)) (length t))) = binom (n - 1 - a) (length t)).
    { rewrite map_length, combinations_length, seq_length. f_equal. lia. }
    rewrite nth_error_app2 by (rewrite EL; lia). rewrite EL.
    replace (_ - binom (n - 1 - a) (length t)) with
      (sumN (map (fun i => binom (n - 1 - i) (length t)) (seq (S a) d)) + rank n (S x) t) by (unfold sumN; lia).
    apply IHd; try lia.
    + constructor; [lia|]. rewrite Forall_forall in *. intros y Hy. specialize (Hlt y Hy). specialize (Hf' y Hy). cbn in *; lia.
    + rewrite Forall_forall in *. intros y Hy. specialize (Hlt y Hy). specialize (Hf' y Hy). cbn in *; lia.
Qed.

Lemma strictly_increasing_spec l : strictly_increasing l = true <-> StronglySorted lt l.
Proof.
  induction l as [|x l IH]; [split; [constructor|reflexivity]|].
  destruct l as [|y l]; [split; [intros; repeat constructor|reflexivity]|].
  change (strictly_increasing (x :: y :: l)) with (Nat.ltb x y && strictly_increasing (y :: l)).
  rewrite andb_true_iff, IH, Nat.ltb_lt. split.
  - intros [Hxy Hs]. constructor; [assumption|]. inversion Hs; subst. constructor; [assumption|].
    eapply Forall_impl; [|eassumption]. cbn; lia.
  - intros Hs. inversion Hs as [|? ? Hs' Hf]; subst. inversion Hf; subst. split; assumption.
Qed.

Lemma fold_rank n t : 2 <= length t ->
  forall r d acc, d + r = length t - 1 -> 1 <= d ->
  fold_left (fun ix d =>
      if Nat.ltb 1 (nth d t 0 - nth (d - 1) t 0) then
        ix + sumN (map (fun i => binom (n - i - 1) (length t - d - 1))
                       (range2 (nth (d - 1) t 0 + 1) (nth d t 0)))
      else ix) (seq d r) acc + (nth (length t - 1) t 0 - nth (length t - 2) t 0 - 1)
  = acc + rank n (S (nth (d - 1) t 0)) (skipn d t).
Proof.
  intros Hlen. induction r as [|r IH]; intros d acc Hd H1.
  - cbn [seq fold_left]. assert (Ed : d = length t - 1) by lia. subst d.
    assert (Esk : skipn (length t - 1) t = [nth (length t - 1) t 0]).
    { clear -Hlen. assert (G : forall (l : list nat), 1 <= length l -> skipn (length l - 1) l = [nth (length l - 1) l 0]).
      { induction l as [|x l IHl]; intros Hl; cbn in Hl; [lia|]. destruct l as [|y l]; [reflexivity|].
        cbn [length]. replace (S (S (length l)) - 1) with (S (length l)) by lia. cbn [skipn nth].
        specialize (IHl ltac:(cbn; lia)). cbn [length] in IHl. replace (S (length l) - 1) with (length l) in IHl by lia. exact IHl. }
      apply G. lia. }
    rewrite Esk. cbn [rank length]. replace (length t - 1 - 1) with (length t - 2) by lia.
    assert (Hones : forall a m, sumN (map (fun i => binom (n - 1 - i) 0) (seq a m)) = m).
    { clear. intros a m. revert a. induction m as [|m IHm]; intros a; [reflexivity|]. cbn [seq map sumN fold_right].
      specialize (IHm (S a)). unfold sumN in IHm. rewrite IHm. destruct (n - 1 - a); reflexivity. }
    rewrite Hones. lia.
  - cbn [seq fold_left]. rewrite IH by lia.
    assert (Esk : skipn d t = nth d t 0 :: skipn (S d) t).
    { assert (Hdl : d < length t) by lia. revert Hdl. clear. revert d. induction t as [|x t IHt]; intros [|d] Hd; cbn in Hd; try lia; [reflexivity|].
      cbn [skipn nth]. apply IHt. lia. }
    rewrite Esk. cbn [rank]. replace (S d - 1) with d by lia.
    rewrite skipn_length. replace (length t - S d) with (length t - d - 1) by lia.
    unfold range2. rewrite Nat.add_1_r.
    rewrite (map_ext (fun i => binom (n - i - 1) (length t - d - 1)) (fun i => binom (n - 1 - i) (length t - d - 1))).
    2:{ intros i. f_equal. lia. }
    destruct (Nat.ltb_spec 1 (nth d t 0 - nth (d - 1) t 0)) as [Hgt|Hle]; [lia|].
    replace (nth d t 0 - S (nth (d - 1) t 0)) with 0 by lia. cbn [seq map sumN fold_right]. lia.
Qed.

Lemma unravel_index_eq n t : 2 <= length t -> StronglySorted lt t -> Forall (fun x => x < n) t ->
  unravel_index t n = Ok (rank n 0 t).
Proof.
  intros Hl Hs Hf. unfold unravel_index.
  destruct t as [|x0 [|x1 t]]; cbn [length] in Hl; try lia.
  set (T := x0 :: x1 :: t) in *.
  apply strictly_increasing_spec in Hs. rewrite Hs. cbn [negb].
  assert (Hfb : forallb (fun i => Nat.ltb i n) T = true).
  { apply forallb_forall. rewrite Forall_forall in Hf. intros y Hy. apply Nat.ltb_lt. auto. }
  rewrite Hfb. cbn [negb]. f_equal.
  unfold range2 at 1.
  pose proof (fold_rank n T ltac:(cbn; lia) (length T - 1 - 1) 1) as G.
  rewrite G by (cbn; lia). clear G.
  cbn [Nat.sub nth skipn]. unfold T at 2. cbn [nth].
  subst T. cbn [rank length]. unfold range. rewrite Nat.sub_0_r. cbn [skipn].
  replace (S (S (length t)) - 1) with (S (length t)) by lia. reflexivity.
Qed.

Lemma unravel_index_position n t : 1 <= length t -> incr_below n t ->
  exists k, unravel_index t n = Ok k /\ nth_error (combinations (seq 0 n) (length t)) k = Some t.
Proof.
  intros Hl [Hs Hf]. apply StronglySorted_nth in Hs.
  assert (Hf' : Forall (fun x => 0 <= x < n) t).
  { rewrite Forall_forall. intros x Hx. specialize (Hf x Hx). cbn. lia. }
  exists (rank n 0 t). split.
  - destruct t as [|x [|y t]]; [cbn in Hl; lia| |].
    + cbn [unravel_index rank length map]. f_equal.
      assert (Hones : forall a m, sumN (map (fun i => binom (n - 1 - i) 0) (seq a m)) = m).
      { clear. intros a m. revert a. induction m as [|m IHm]; intros a; [reflexivity|]. cbn [seq map sumN fold_right].
        specialize (IHm (S a)). unfold sumN in IHm. rewrite IHm. destruct (n - 1 - a); reflexivity. }
      rewrite Hones. lia.
    + apply unravel_index_eq; [cbn; lia|assumption|]. eapply Forall_impl; [|exact Hf']. cbn; lia.
  - pose proof (rank_ok n t 0 ltac:(lia) Hs Hf') as G. rewrite Nat.sub_0_r in G. exact G.
Qed.

Lemma unravel_index_raises n t : length t <> 1 -> ~ incr_below n t ->
  unravel_index t n = Err AssertionError.
Proof.
  intros Hl Hn. unfold unravel_index.
  assert (G : forall r, (if negb (strictly_increasing t) then Err AssertionError
     else if negb (forallb (fun i => Nat.ltb i n) t) then Err AssertionError else r) = @Err nat AssertionError).
  { intros r. destruct (strictly_increasing t) eqn:E1; [|reflexivity].
    destruct (forallb (fun i => Nat.ltb i n) t) eqn:E2; [|reflexivity].
    exfalso. apply Hn. apply strictly_increasing_spec in E1. split.
    - apply StronglySorted_nth. assumption.
    - rewrite forallb_forall in E2. intros x Hx. apply Nat.ltb_lt. auto. }
  destruct t as [|x [|y t]]; [exact (G _)|cbn in Hl; lia|exact (G _)].
Qed.

(** ** split_concat_params *)
Lemma skipn_concat_prefix {A} (pre : list (list A)) v rest :
  slice (concat pre ++ v ++ rest) (length (concat pre)) (length (concat pre) + length v) = v.
Proof.
  unfold slice. rewrite skipn_app, skipn_all, Nat.sub_diag. cbn [skipn app].
  replace (length (concat pre) + length v - length (concat pre)) with (length v) by lia.
  rewrite firstn_app, firstn_all, Nat.sub_diag. cbn [firstn]. apply app_nil_r.
Qed.

Lemma binom_pos n k : k <= n -> 0 < binom n k.
Proof.
  revert k. induction n as [|n IH]; intros [|k] H; cbn; try lia.
  specialize (IH k). lia.
Qed.

Lemma binom_gt n k : n < k -> binom n k = 0.
Proof.
  revert k. induction n as [|n IH]; intros [|k] H; cbn; try lia.
  rewrite !IH by lia. reflexivity.
Qed.

Lemma split_loop_ok {A} n (vs : list (list A)) : forall fuel pre,
  (forall k, k < length (pre ++ vs) -> length (nth k (pre ++ vs) []) = binom n (k + 1)) ->
  length (pre ++ vs) <= n -> length vs < fuel ->
  split_loop fuel (concat (pre ++ vs)) n (length (concat pre)) (length pre + 1) pre = Ok (pre ++ vs).
Proof.
  induction vs as [|v vs IH]; intros fuel pre Hlen Hn Hf; (destruct fuel as [|fuel]; [cbn in Hf; lia|]); cbn [split_loop].
  - rewrite app_nil_r, Nat.ltb_irrefl. reflexivity.
  - assert (Hv : length v = binom n (length pre + 1)).
    { specialize (Hlen (length pre)). rewrite app_nth2, Nat.sub_diag in Hlen by lia. cbn [nth] in Hlen.
      apply Hlen. rewrite app_length. cbn. lia. }
    assert (Hpos : 0 < length v).
    { rewrite Hv. apply binom_pos. rewrite app_length in Hn. cbn in Hn. lia. }
    rewrite concat_app. cbn [concat].
    destruct (Nat.ltb_spec (length (concat pre)) (length (concat pre ++ v ++ concat vs))) as [_|Hge].
    2:{ rewrite !app_length in Hge. lia. }
    rewrite <- Hv, skipn_concat_prefix.
    specialize (IH fuel (pre ++ [v])). rewrite <- app_assoc in IH. cbn [app] in IH.
    rewrite !concat_app, !app_length in IH. cbn [concat length] in IH. rewrite app_nil_r in IH.
    apply IH; [intros k Hk; apply Hlen; rewrite app_length; cbn; lia| |cbn in Hf; lia]. rewrite app_length in Hn. cbn in *. lia.
Qed.

Lemma split_concat_params_ok {A} n (vs : list (list A)) fuel :
  (forall k, k < length vs -> length (nth k vs []) = binom n (k + 1)) ->
  length vs <= n -> length vs < fuel ->
  split_concat_params fuel (concat vs) n = Ok vs.
Proof. intros. apply (split_loop_ok n vs fuel []); assumption. Qed.

Lemma sum_binom n : sumN (map (binom n) (seq 0 (S n))) = 2 ^ n.
Proof.
  assert (S1 : forall f m, sumN (map f (seq 0 (S m))) = f 0 + sumN (map (fun i => f (S i)) (seq 0 m))).
  { intros f m. cbn [seq map sumN fold_right]. rewrite <- seq_shift, map_map. reflexivity. }
  assert (SL : forall f m, sumN (map f (seq 0 (S m))) = sumN (map f (seq 0 m)) + f m).
  { intros f m. rewrite seq_S, map_app. unfold sumN. rewrite fold_right_app. cbn.
    generalize (map f (seq 0 m)). induction l as [|x l IHl]; cbn; lia. }
  assert (SP : forall f g m, sumN (map (fun i => f i + g i) (seq 0 m)) = sumN (map f (seq 0 m)) + sumN (map g (seq 0 m))).
  { intros f g m. induction (seq 0 m) as [|x l IHl]; [reflexivity|]. cbn [map sumN fold_right]. unfold sumN in IHl. lia. }
  induction n as [|n IH]; [reflexivity|].
  rewrite S1.
  rewrite (map_ext (fun i => binom (S n) (S i)) (fun i => binom n i + binom n (S i))) by reflexivity.
  rewrite SP, IH. cbn [binom].
  assert (E : 1 + sumN (map (fun i => binom n (S i)) (seq 0 (S n))) = 2 ^ n).
  { rewrite SL, (binom_gt n (S n)) by lia. rewrite <- IH, (S1 (binom n) n). cbn [binom].
    destruct n; cbn [binom]; lia. }
  cbn [Nat.pow]. lia.
Qed.

Lemma split_loop_diverges {A} fuel n (p : list A) : forall counter i acc,
  counter + 1 <= sumN (map (binom n) (seq 0 (S i))) -> 2 ^ n <= length p -> 
  split_loop fuel p n counter (i + 1) acc = Err OutOfFuel.
Proof.
  induction fuel as [|fuel IH]; intros counter i acc Hc Hp; [reflexivity|].
  cbn [split_loop].
  assert (Hb : forall j, sumN (map (binom n) (seq 0 j)) <= 2 ^ n).
  { intros j. destruct (Nat.le_gt_cases j (S n)) as [Hj|Hj].
    - rewrite <- (sum_binom n). replace (S n) with (j + (S n - j)) by lia. rewrite seq_app, map_app.
      unfold sumN. rewrite fold_right_app. generalize (fold_right Nat.add 0 (map (binom n) (seq (0 + j) (S n - j)))).
      generalize (map (binom n) (seq 0 j)). clear. induction l as [|x l IHl]; intros m; cbn; [lia|]. specialize (IHl m). lia.
    - replace j with (S n + (j - S n)) by lia. rewrite seq_app, map_app. unfold sumN. rewrite fold_right_app.
      assert (Z0 : fold_right Nat.add 0 (map (binom n) (seq (0 + S n) (j - S n))) = 0).
      { assert (G : forall m a, n < a -> fold_right Nat.add 0 (map (binom n) (seq a m)) = 0).
        { clear. induction m as [|m IHm]; intros a Ha; [reflexivity|]. cbn [seq map fold_right].
          rewrite (binom_gt n a) by lia. rewrite IHm by lia. reflexivity. }
        apply G. lia. }
      rewrite Z0. change (fold_right Nat.add 0 (map (binom n) (seq 0 (S n)))) with (sumN (map (binom n) (seq 0 (S n)))).
      rewrite sum_binom. lia. }
  destruct (Nat.ltb_spec counter (length p)) as [_|Hge].
  - replace (i + 1 + 1) with (S i + 1) by lia. apply IH; [|assumption].
    rewrite seq_S, map_app. unfold sumN in *. rewrite fold_right_app. cbn [map fold_right Nat.add].
    replace (i + 1) with (S i) by lia.
    assert (G : forall l m, fold_right Nat.add m l = fold_right Nat.add 0 l + m).
    { clear. induction l as [|x l IHl]; intros m; cbn; [lia|]. rewrite IHl. lia. }
    rewrite G. lia.
  - exfalso. specialize (Hb (S i)). lia.
Qed.
