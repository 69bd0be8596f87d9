(** * Proofs about energies and observables. *)
From Verif Require Import Prelude Spec PreludeFacts M_Index M_Energy P_Index P_Unravel.
Import ListNotations.

(** ** Loop orders *)
Lemma loop_full_pairs n :
  flat_map (fun i => map (fun j => (i, j)) (range2 (i + 1) n)) (range n) = pairs (seq 0 n).
Proof.
  assert (G : forall m a, a + m = n ->
    flat_map (fun i => map (fun j => (i, j)) (range2 (i + 1) n)) (seq a m) = pairs (seq a m)).
  { induction m as [|m IH]; intros a H; [reflexivity|].
    cbn [seq flat_map pairs]. rewrite IH by lia. unfold range2. rewrite Nat.add_1_r.
    replace (n - S a) with m by lia. reflexivity. }
  apply (G n 0). reflexivity.
Qed.

Lemma loop_ij_pairs n : loop_ij n = pairs (seq 0 n).
Proof.
  rewrite <- loop_full_pairs. unfold loop_ij. destruct n as [|n]; [reflexivity|].
  replace (S n - 1) with n by lia. unfold range. rewrite (seq_S n 0), flat_map_app. cbn [flat_map].
  unfold range2 at 3. replace (S n - (0 + n + 1)) with 0 by lia. cbn. rewrite app_nil_r. reflexivity.
Qed.

Lemma flat_map_map {A B C} (f : A -> list B) (g : B -> C) l :
  map g (flat_map f l) = flat_map (fun a => map g (f a)) l.
Proof. induction l as [|a l IH]; [reflexivity|]. cbn [flat_map]. rewrite map_app, IH. reflexivity. Qed.

Lemma flat_map_ext_in {A B} (f g : A -> list B) l :
  (forall a, In a l -> f a = g a) -> flat_map f l = flat_map g l.
Proof.
  induction l as [|a l IH]; intros H; [reflexivity|]. cbn [flat_map].
  rewrite H by now left. rewrite IH; [reflexivity|]. intros; apply H; now right.
Qed.

Lemma combinations_cons_seq a m k :
  combinations (seq a (S m)) (S k) = map (cons a) (combinations (seq (S a) m) k) ++ combinations (seq (S a) m) (S k).
Proof. reflexivity. Qed.

Lemma combinations_flat k : forall m a,
  combinations (seq a m) (S k) = flat_map (fun i => map (cons i) (combinations (seq (S i) (a + m - S i)) k)) (seq a m).
Proof.
  induction m as [|m IH]; intros a; [reflexivity|].
  rewrite combinations_cons_seq, IH. cbn [seq flat_map].
  replace (a + S m - S a) with m by lia. f_equal. apply flat_map_ext_in. intros i _.
  replace (a + S m) with (S a + m) by lia. reflexivity.
Qed.

Lemma loop_ijk_combinations n :
  map (fun t => [fst (fst t); snd (fst t); snd t]) (loop_ijk n) = combinations (seq 0 n) 3.
Proof.
  rewrite combinations_flat. unfold loop_ijk. rewrite flat_map_map.
  assert (E : forall i, i < n -> map (fun t => [fst (fst t); snd (fst t); snd t])
      (flat_map (fun j => map (fun k => (i, j, k)) (range2 (j + 1) n)) (range2 (i + 1) (n - 1)))
      = map (cons i) (combinations (seq (S i) (n - S i)) 2)).
  { intros i Hi. rewrite combinations_2_pairs, flat_map_map, map_map.
    assert (G : forall m a, a + m = n - 1 -> a < n ->
       flat_map (fun j => map (fun t => [fst (fst t); snd (fst t); snd t]) (map (fun k => (i, j, k)) (range2 (j + 1) n))) (seq a m)
       = map (fun x => [i; fst x; snd x]) (pairs (seq a (S m)))).
    { induction m as [|m IH]; intros a Ha Ha2; [reflexivity|].
      cbn [seq flat_map]. rewrite IH by lia.
      change (pairs (a :: S a :: seq (S (S a)) m)) with (map (fun y => (a, y)) (seq (S a) (S m)) ++ pairs (seq (S a) (S m))).
      rewrite map_app, !map_map. unfold range2. rewrite Nat.add_1_r. replace (n - S a) with (S m) by lia. reflexivity. }
    unfold range2 at 2. rewrite Nat.add_1_r.
    destruct (Nat.eq_dec (S i) n) as [E1|E1].
    - replace (n - 1 - S i) with 0 by lia. replace (n - S i) with 0 by lia. reflexivity.
    - rewrite G by lia. replace (S (n - 1 - S i)) with (n - S i) by lia. reflexivity. }
  unfold range. destruct (Nat.le_gt_cases n 2) as [Hn|Hn].
  - replace (n - 2) with 0 by lia. destruct n as [|[|[|n]]]; try reflexivity. lia.
  - replace (seq 0 n) with (seq 0 (n - 2) ++ [n - 2; n - 1]).
    2:{ replace n with ((n - 2) + 2) at 4 by lia. rewrite seq_app. cbn. do 3 f_equal. lia. }
    rewrite flat_map_app. cbn [flat_map]. replace (0 + n - S (n - 1)) with 0 by lia.
    replace (0 + n - S (n - 2)) with 1 by lia. cbn [seq combinations map app]. rewrite !app_nil_r.
    apply flat_map_ext_in. intros i Hi. apply in_seq in Hi. rewrite E by lia. reflexivity.
Qed.

(** ** Consecutive writes *)
Lemma upd_app2 {A} (l1 l2 : list A) v : upd (l1 ++ l2) (length l1) v = l1 ++ upd l2 0 v.
Proof. induction l1 as [|x l1 IH]; [reflexivity|]. cbn. now rewrite IH. Qed.

Lemma write_seq_eq {A B} (val : A -> B) L : forall pre rest,
  length L <= length rest ->
  write_seq val L (pre ++ rest, length pre) =
  (pre ++ map val L ++ skipn (length L) rest, length pre + length L).
Proof.
  induction L as [|a L IH]; intros pre rest H.
  - cbn. now rewrite Nat.add_0_r.
  - destruct rest as [|x rest]; [cbn in H; lia|].
    unfold write_seq. cbn [fold_left]. rewrite upd_app2. cbn [upd].
    fold (write_seq val L (pre ++ val a :: rest, length pre + 1)).
    replace (pre ++ val a :: rest) with ((pre ++ [val a]) ++ rest) by (now rewrite <- app_assoc).
    replace (length pre + 1) with (length (pre ++ [val a])) by (rewrite app_length; reflexivity).
    rewrite IH by (cbn in H; lia). rewrite <- app_assoc, app_length. cbn [length app map skipn]. f_equal. lia.
Qed.

Lemma write_seq_exact {A B} (val : A -> B) L pre rest c :
  c = length pre -> length L <= length rest ->
  write_seq val L (pre ++ rest, c) =
  ((pre ++ map val L) ++ skipn (length L) rest, length (pre ++ map val L)).
Proof.
  intros -> H. rewrite write_seq_eq, <- app_assoc, app_length, map_length by assumption. reflexivity.
Qed.

Lemma write_seq_start {A B} (val : A -> B) L rest :
  length L <= length rest ->
  write_seq val L (rest, 0) = (map val L ++ skipn (length L) rest, length (map val L)).
Proof. intros H. exact (write_seq_exact val L [] rest 0 eq_refl H). Qed.

(** ** pairs of a vector *)
Lemma list_as_map {A} (d : A) (s : list A) : s = map (fun i => nth i s d) (seq 0 (length s)).
Proof.
  apply (list_eq_nth d); [now rewrite map_length, seq_length|].
  intros i Hi. rewrite nth_map_seq by assumption. reflexivity.
Qed.

Lemma pairs_as_map {A} (d : A) (s : list A) :
  pairs s = map (fun p => (nth (fst p) s d, nth (snd p) s d)) (pairs (seq 0 (length s))).
Proof. rewrite (list_as_map d s) at 1. rewrite pairs_map. reflexivity. Qed.

Lemma pairs_prod_as_map (s : list R) :
  map (fun p => (fst p * snd p)%R) (pairs s) =
  map (fun p => (nthR s (fst p) * nthR s (snd p))%R) (pairs (seq 0 (length s))).
Proof. rewrite (pairs_as_map 0%R s), map_map. reflexivity. Qed.

Lemma pairs_seq_length n : length (pairs (seq 0 n)) = n * (n - 1) / 2.
Proof. now rewrite pairs_length, seq_length. Qed.

(** ** fast_sum *)
Lemma fold_counter_dot {A} (g h : A -> R) L : forall pre J e,
  length J = length L ->
  fold_left (fun st p => let '(e, k) := st in
      ((e + nthR (pre ++ J) k * g p * h p)%R, k + 1)) L (e, length pre)
  = ((e + dot J (map (fun p => (g p * h p)%R) L))%R, length pre + length L).
Proof.
  induction L as [|p L IH]; intros pre J e H; destruct J as [|x J]; try discriminate.
  - cbn [fold_left map]. rewrite dot_nil_l, Rplus_0_r. cbn. now rewrite Nat.add_0_r.
  - cbn [fold_left map]. rewrite dot_cons.
    assert (E : nthR (pre ++ x :: J) (length pre) = x).
    { unfold nthR. rewrite app_nth2, Nat.sub_diag by lia. reflexivity. }
    rewrite E.
    replace (length pre + 1) with (length (pre ++ [x])) by (rewrite app_length; reflexivity).
    replace (pre ++ x :: J) with ((pre ++ [x]) ++ J) by (now rewrite <- app_assoc).
    rewrite IH by (now injection H). rewrite app_length. cbn [length]. f_equal; [ring|lia].
Qed.

Lemma fast_sum_row_eq J s : length J = length s * (length s - 1) / 2 ->
  fast_sum_row J s = dot J (map (fun p => (fst p * snd p)%R) (pairs s)).
Proof.
  intros H. unfold fast_sum_row. rewrite loop_ij_pairs, pairs_prod_as_map.
  pose proof (fold_counter_dot (fun p : nat * nat => nthR s (fst p)) (fun p => nthR s (snd p))
     (pairs (seq 0 (length s))) [] J 0%R) as G. cbn [app length] in G.
  rewrite G by (now rewrite pairs_seq_length). cbn [fst]. ring.
Qed.

Lemma sum_combine_dot x y : sumR (map (fun p => (fst p * snd p)%R) (combine x y)) = dot x y.
Proof. rewrite sumR_map. reflexivity. Qed.

Lemma ising_calc_e_row_eq s params :
  length params = length s + length s * (length s - 1) / 2 ->
  ising_calc_e_row s params = (- dot (ising_obs s) params)%R.
Proof.
  intros H. unfold ising_calc_e_row, ising_obs.
  rewrite sum_combine_dot, fast_sum_row_eq by (rewrite skipn_length; lia).
  rewrite <- (firstn_skipn (length s) params) at 3.
  rewrite dot_app by (rewrite firstn_length; lia).
  rewrite (dot_comm (skipn _ _)). ring.
Qed.

(** ** ising observables *)
Lemma upd_zero_middle (pre : list R) z rest v i : length pre = i ->
  upd (pre ++ z :: rest) i v = pre ++ v :: rest.
Proof. intros <-. rewrite upd_app2. reflexivity. Qed.

Lemma inner_writes {B} (val : nat -> B) n L : forall pre rest k,
  length pre = n + k -> length L <= length rest ->
  fold_left (fun st j => let '(obs, k) := st in (upd obs (n + k) (val j), k + 1)) L (pre ++ rest, k)
  = (pre ++ map val L ++ skipn (length L) rest, k + length L).
Proof.
  induction L as [|a L IH]; intros pre rest k Hp Hr.
  - cbn. now rewrite Nat.add_0_r.
  - destruct rest as [|x rest]; [cbn in Hr; lia|].
    cbn [fold_left]. rewrite <- Hp, upd_app2. cbn [upd].
    replace (pre ++ val a :: rest) with ((pre ++ [val a]) ++ rest) by (now rewrite <- app_assoc).
    rewrite IH; [|rewrite app_length; cbn; lia|cbn in Hr; lia].
    rewrite <- app_assoc. cbn [app map length skipn]. f_equal. lia.
Qed.

Lemma pairs_seq_split n i : i <= n ->
  pairs (seq 0 n) = flat_map (fun a => map (fun b => (a, b)) (range2 (a + 1) n)) (seq 0 i) ++ pairs (seq i (n - i)).
Proof.
  intros H. rewrite <- loop_full_pairs. unfold range.
  assert (E : seq 0 n = seq 0 i ++ seq i (n - i)) by (change (seq i (n - i)) with (seq (0 + i) (n - i)); rewrite <- seq_app; f_equal; lia).
  rewrite E, flat_map_app. f_equal.
  assert (G : forall m a, a + m = n ->
    flat_map (fun i => map (fun j => (i, j)) (range2 (i + 1) n)) (seq a m) = pairs (seq a m)).
  { induction m as [|m IH]; intros a Ha; [reflexivity|].
    cbn [seq flat_map pairs]. rewrite IH by lia. unfold range2. rewrite Nat.add_1_r.
    replace (n - S a) with m by lia. reflexivity. }
  apply G. lia.
Qed.

Lemma ising_calc_observables_row_eq s : ising_calc_observables_row s = ising_obs s.
Proof.
  unfold ising_calc_observables_row. set (n := length s).
  set (P := fun i => flat_map (fun a => map (fun b => (nthR s a * nthR s b)%R) (range2 (a + 1) n)) (seq 0 i)).
  assert (HP : forall i, i <= n -> length (P i) <= n * (n - 1) / 2).
  { intros i Hi. rewrite <- pairs_seq_length, (pairs_seq_split n i Hi), app_length.
    unfold P. clear. assert (G : length (flat_map (fun a => map (fun b => (nthR s a * nthR s b)%R) (range2 (a + 1) n)) (seq 0 i))
       = length (flat_map (fun a => map (fun b => (a, b)) (range2 (a + 1) n)) (seq 0 i))).
    { induction (seq 0 i) as [|a l IH]; [reflexivity|]. cbn [flat_map]. rewrite !app_length, !map_length, IH. reflexivity. }
    lia. }
  assert (G : forall i, i <= n ->
    fold_left (fun st i =>
         let '(obs, k) := st in
         let obs := upd obs i (nthR s i) in
         fold_left (fun st j => let '(obs, k) := st in
             (upd obs (n + k) (nthR s i * nthR s j)%R, k + 1))
           (range2 (i + 1) n) (obs, k)) (seq 0 i) (repeat 0%R (n + n * (n - 1) / 2), 0)
    = (firstn i s ++ repeat 0%R (n - i) ++ P i ++ repeat 0%R (n * (n - 1) / 2 - length (P i)), length (P i))).
  { induction i as [|i IH]; intros Hi.
    - cbn [seq fold_left firstn app P flat_map length]. rewrite !Nat.sub_0_r, repeat_app. reflexivity.
    - rewrite seq_S, fold_left_app. change (0 + i) with i. rewrite IH by lia. cbn [fold_left].
      assert (Ef : firstn (S i) s = firstn i s ++ [nthR s i]).
      { assert (G : forall (l : list R) i, i < length l -> firstn (S i) l = firstn i l ++ [nthR l i]).
        { clear. induction l as [|x l IHl]; intros i Hi; cbn in Hi; [lia|]. destruct i as [|i]; [reflexivity|].
          cbn [firstn app]. f_equal. rewrite <- IHl by lia. reflexivity. }
        apply G. fold n. lia. }
      replace (n - i) with (S (n - S i)) by lia. cbn [repeat app].
      assert (El : length (firstn i s) = i) by (rewrite firstn_length; fold n; lia).
      rewrite (upd_zero_middle _ _ _ _ i El).
      assert (EP : P (S i) = P i ++ map (fun b => (nthR s i * nthR s b)%R) (range2 (i + 1) n)).
      { unfold P. rewrite seq_S, flat_map_app. cbn [flat_map Nat.add]. now rewrite app_nil_r. }
      replace (firstn i s ++ nthR s i :: repeat 0%R (n - S i) ++ P i ++ repeat 0%R (n * (n - 1) / 2 - length (P i)))
        with ((firstn (S i) s ++ repeat 0%R (n - S i) ++ P i) ++ repeat 0%R (n * (n - 1) / 2 - length (P i))).
      2:{ rewrite Ef, <- !app_assoc. reflexivity. }
      rewrite inner_writes.
      + rewrite EP, app_length, map_length. f_equal. rewrite <- !app_assoc. do 4 f_equal.
        assert (Hsk : forall c m, skipn c (repeat 0%R m) = repeat 0%R (m - c)).
        { clear. induction c as [|c IHc]; intros [|m]; cbn; auto. }
        rewrite Hsk. f_equal. lia.
      + rewrite !app_length, repeat_length, firstn_length. fold n. lia.
      + rewrite repeat_length. specialize (HP (S i) ltac:(lia)). rewrite EP, app_length, map_length in HP. lia. }
  specialize (G n (le_n n)). etransitivity; [exact (f_equal fst G)|]. cbn [fst]. rewrite Nat.sub_diag. cbn [repeat app].
  assert (EPn : P n = map (fun p => (fst p * snd p)%R) (pairs s)).
  { rewrite pairs_prod_as_map. fold n. rewrite <- (loop_full_pairs n), flat_map_map. unfold P, range.
    apply flat_map_ext_in. intros a _. rewrite map_map. reflexivity. }
  rewrite EPn at 1. unfold ising_obs. unfold n at 1. rewrite firstn_all. f_equal.
  rewrite EPn, map_length, pairs_length. fold n. rewrite Nat.sub_diag. apply app_nil_r.
Qed.

Lemma ising_sym_obs_eq s : ising_sym_calc_observables_row s = map (fun p => (fst p * snd p)%R) (pairs s).
Proof.
  unfold ising_sym_calc_observables_row. rewrite loop_full_pairs, pairs_prod_as_map.
  rewrite write_seq_start by (rewrite repeat_length, pairs_seq_length; lia).
  cbn [fst app]. rewrite pairs_seq_length.
  rewrite skipn_all2 by (rewrite repeat_length; lia). apply app_nil_r.
Qed.

Lemma binom_n_0 n : binom n 0 = 1.
Proof. destruct n; reflexivity. Qed.

Lemma binom_SS n k : binom (S n) (S k) = binom n k + binom n (S k).
Proof. reflexivity. Qed.

Lemma binom_n_1 n : binom n 1 = n.
Proof. induction n as [|n IH]; [reflexivity|]. rewrite binom_SS, IH, binom_n_0. lia. Qed.

Lemma tri_number n : n * (n - 1) * (n - 2) / 6 = binom n 3.
Proof.
  assert (B2 : forall m, 2 * binom m 2 = m * (m - 1)).
  { induction m as [|m IH]; [reflexivity|]. rewrite binom_SS, binom_n_1.
    destruct m; [reflexivity|]. replace (S (S m) - 1) with (S m) by lia. replace (S m - 1) with m in IH by lia. nia. }
  assert (B3 : forall m, 6 * binom m 3 = m * (m - 1) * (m - 2)).
  { induction m as [|m IH]; [reflexivity|]. rewrite binom_SS.
    specialize (B2 m). destruct m as [|[|m]]; [reflexivity|reflexivity|].
    replace (S (S (S m)) - 1) with (S (S m)) by lia. replace (S (S (S m)) - 2) with (S m) by lia.
    replace (S (S m) - 1) with (S m) in * by lia. replace (S (S m) - 2) with m in * by lia. nia. }
  rewrite <- B3, Nat.mul_comm, Nat.div_mul by lia. reflexivity.
Qed.

Lemma prodR_2 a b : prodR [a; b] = (a * b)%R.
Proof. cbn. ring. Qed.
Lemma prodR_3 a b c : prodR [a; b; c] = (a * b * c)%R.
Proof. cbn. ring. Qed.

Lemma corr_obs_2 s : corr_obs 2 s = map (fun p => (fst p * snd p)%R) (pairs s).
Proof. unfold corr_obs. rewrite combinations_2_pairs, map_map. apply map_ext. intros p. apply prodR_2. Qed.

Lemma triplet_obs_eq s : triplet_calc_observables_row s = s ++ corr_obs 2 s ++ corr_obs 3 s.
Proof.
  unfold triplet_calc_observables_row. set (n := length s).
  assert (E1 : map (fun i => nthR s i) (range n) = s) by (symmetry; apply (list_as_map 0%R s)).
  assert (E2 : map (fun p => (nthR s (fst p) * nthR s (snd p))%R) (loop_ij n) = corr_obs 2 s).
  { rewrite corr_obs_2, pairs_prod_as_map, loop_ij_pairs. reflexivity. }
  assert (E3 : map (fun t => (nthR s (fst (fst t)) * nthR s (snd (fst t)) * nthR s (snd t))%R) (loop_ijk n) = corr_obs 3 s).
  { unfold corr_obs. transitivity (map prodR (combinations (map (fun i => nth i s 0%R) (seq 0 n)) 3)).
    2:{ unfold n. rewrite <- (list_as_map 0%R s). reflexivity. }
    rewrite combinations_map, <- loop_ijk_combinations, !map_map. apply map_ext. intros t. cbn [map].
    rewrite prodR_3. reflexivity. }
  assert (L1 : length (range n) = n) by apply seq_length.
  assert (L2 : length (loop_ij n) = n * (n - 1) / 2) by (rewrite loop_ij_pairs; apply pairs_seq_length).
  assert (L3 : length (loop_ijk n) = n * (n - 1) * (n - 2) / 6).
  { rewrite tri_number. transitivity (length (combinations (seq 0 n) 3)).
    - rewrite <- loop_ijk_combinations, map_length. reflexivity.
    - now rewrite combinations_length, seq_length. }
  assert (Hsk : forall c m, skipn c (repeat 0%R m) = repeat 0%R (m - c)).
  { clear. induction c as [|c IHc]; intros [|m]; cbn; auto. }
  rewrite (write_seq_start _ (range n)) by (rewrite repeat_length; lia).
  rewrite E1, Hsk, L1. cbn [app].
  rewrite (write_seq_exact _ (loop_ij n) s (repeat 0%R _) (length s) eq_refl) by (rewrite repeat_length; lia).
  rewrite E2, Hsk, L2.
  rewrite (write_seq_exact _ (loop_ijk n) (s ++ corr_obs 2 s) (repeat 0%R _) _ eq_refl) by (rewrite repeat_length; lia).
  rewrite E3, Hsk, L3. cbn [fst].
  replace (n + n * (n - 1) / 2 + n * (n - 1) * (n - 2) / 6 - n - n * (n - 1) / 2 - n * (n - 1) * (n - 2) / 6) with 0 by lia.
  cbn [repeat]. rewrite app_nil_r, <- app_assoc. reflexivity.
Qed.

(** ** Potts observables *)
Lemma potts_obs_eq k s : potts_calc_observables_row k s = potts_obs k s.
Proof.
  unfold potts_calc_observables_row. set (n := length s).
  assert (Hsk : forall c m, skipn c (repeat 0%R m) = repeat 0%R (m - c)).
  { clear. induction c as [|c IHc]; intros [|m]; cbn; auto. }
  set (F := fun c => flat_map (fun c => map (fun x => b2R (Nat.eqb x c)) s) (seq 0 c)).
  assert (EF : forall i, map (fun j => b2R (Nat.eqb (nth j s 0) i)) (range n) = map (fun x => b2R (Nat.eqb x i)) s).
  { intros i. transitivity (map (fun x => b2R (Nat.eqb x i)) (map (fun j => nth j s 0) (seq 0 n))).
    - rewrite map_map. reflexivity.
    - unfold n. rewrite <- (list_as_map 0 s). reflexivity. }
  assert (LF : forall c, length (F c) = n * c).
  { intros c. unfold F. rewrite (length_flat_map_const _ _ n); [now rewrite seq_length|].
    intros a _. apply map_length. }
  assert (G : forall m c, c <= k -> fold_left (fun st i => write_seq (fun j => b2R (Nat.eqb (nth j s 0) i)) (range n) st)
       (seq 0 c) (repeat 0%R (n * k + m), 0) = (F c ++ repeat 0%R (n * k + m - n * c), n * c)).
  { intros m. induction c as [|c IH]; intros Hc.
    - cbn [seq fold_left]. rewrite Nat.mul_0_r, Nat.sub_0_r. reflexivity.
    - rewrite seq_S, fold_left_app. cbn [Nat.add fold_left]. rewrite IH by lia.
      rewrite (write_seq_exact _ (range n) (F c) (repeat 0%R _) (n * c)) by (rewrite ?LF, ?repeat_length; unfold range; rewrite ?seq_length; nia).
      rewrite EF, Hsk. unfold range. rewrite seq_length.
      assert (E : F (S c) = F c ++ map (fun x => b2R (Nat.eqb x c)) s).
      { unfold F. rewrite seq_S, flat_map_app. cbn [flat_map Nat.add]. now rewrite app_nil_r. }
      rewrite <- E, LF. f_equal. f_equal. f_equal. nia. }
  unfold range at 2. rewrite G by lia.
  rewrite (write_seq_exact _ (loop_ij n) (F k) (repeat 0%R _) (n * k)).
  2:{ now rewrite LF. }
  2:{ rewrite repeat_length, loop_ij_pairs, pairs_seq_length. nia. }
  rewrite Hsk, loop_ij_pairs, pairs_seq_length. cbn [fst].
  replace (n * k + n * (n - 1) / 2 - n * k - n * (n - 1) / 2) with 0 by lia. cbn [repeat].
  rewrite app_nil_r. unfold potts_obs. fold (F k). f_equal.
  rewrite (pairs_as_map 0 s), map_map. reflexivity.
Qed.

(** ** Indexed sums *)
Lemma pair_index_spec n i j : i < j -> j < n ->
  nth_error (pairs (seq 0 n)) (pair_index n i j) = Some (i, j).
Proof.
  intros H1 H2. apply (nth_error_pairs_seq n 0 i j); [assumption|assumption|].
  unfold pair_index.
  assert (Hev : 2 * (i * (2 * n - i - 1) / 2) = i * (2 * n - i - 1)).
  { assert (exists q, i * (2 * n - i - 1) = q * 2) as [q Hq].
    { destruct (Nat.Even_or_Odd i) as [[q Hq]|[q Hq]].
      - exists (q * (2 * n - i - 1)). subst i. nia.
      - exists (i * (n - q - 1)). nia. }
    rewrite Hq, Nat.div_mul by lia. lia. }
  nia.
Qed.

Lemma pair_index_lt n i j : i < j -> j < n -> pair_index n i j < n * (n - 1) / 2.
Proof.
  intros H1 H2. rewrite <- pairs_seq_length. apply nth_error_Some. rewrite pair_index_spec by assumption. discriminate.
Qed.

Lemma pair_index_sub_to_ind n i j : i < j -> j < n ->
  sub_to_ind (Z.of_nat n) (Z.of_nat i) (Z.of_nat j) = Ok (Z.of_nat (pair_index n i j)).
Proof.
  intros H1 H2. destruct (sub_to_ind_position (Z.of_nat n) (Z.of_nat i) (Z.of_nat j)) as (k & Hk & E); [lia|lia|].
  rewrite Hk. f_equal. f_equal. rewrite pairs_Zrange, nth_error_map in E.
  destruct (nth_error (pairs (seq 0 n)) k) as [[a b]|] eqn:E2; [|discriminate]. cbn in E. injection E as Ea Eb.
  apply Nat2Z.inj in Ea, Eb. subst a b.
  pose proof (NoDup_pairs_seq 0 n) as ND. rewrite NoDup_nth_error in ND. apply ND.
  - apply nth_error_Some. congruence.
  - now rewrite pair_index_spec.
Qed.

Lemma pair_index_nth n k : k < n * (n - 1) / 2 ->
  let p := nth k (pairs (seq 0 n)) (0, 0) in
  pair_index n (fst p) (snd p) = k /\ fst p < snd p /\ snd p < n.
Proof.
  intros H p. assert (Hk : k < length (pairs (seq 0 n))) by (now rewrite pairs_seq_length).
  pose proof (nth_In _ (0, 0) Hk) as Hin. fold p in Hin. destruct p as [i j] eqn:Ep. cbn [fst snd].
  apply in_pairs_seq in Hin. split; [|lia].
  pose proof (NoDup_pairs_seq 0 n) as ND. rewrite NoDup_nth_error in ND. apply ND.
  - apply nth_error_Some. rewrite pair_index_spec by lia. discriminate.
  - rewrite pair_index_spec by lia. symmetry. rewrite (nth_error_nth' _ (0, 0)) by assumption. f_equal. exact Ep.
Qed.

Lemma dot_pairs_index n (J : list R) (g : nat * nat -> R) : length J = n * (n - 1) / 2 ->
  dot J (map g (pairs (seq 0 n))) =
  sumf (pairs (seq 0 n)) (fun p => (nthR J (pair_index n (fst p) (snd p)) * g p)%R).
Proof.
  intros H. rewrite (dot_seq _ _ (n * (n - 1) / 2)) by (rewrite ?map_length, ?pairs_seq_length; auto).
  rewrite <- (sumf_seq_nth (0, 0) (pairs (seq 0 n))), pairs_seq_length.
  apply sumf_ext_in. intros k Hk. apply in_seq in Hk.
  destruct (pair_index_nth n k ltac:(lia)) as (E & _). rewrite E. f_equal.
  unfold nthR. rewrite (nth_indep _ 0%R (g (0, 0))) by (rewrite map_length, pairs_seq_length; lia).
  apply map_nth.
Qed.

Lemma nthR_skipn n l i : nthR (skipn n l) i = nthR l (n + i).
Proof. unfold nthR. revert l. induction n as [|n IH]; intros [|x l]; cbn; auto. destruct i; reflexivity. Qed.

Lemma nthR_firstn n l i : i < n -> nthR (firstn n l) i = nthR l i.
Proof. unfold nthR. revert l i. induction n as [|n IH]; intros [|x l] [|i] H; cbn; auto; try lia. apply IH. lia. Qed.

Lemma ising_energy_dot n params s : length s = n -> length params = n + n * (n - 1) / 2 ->
  ising_energy n params s = (- dot (ising_obs s) params)%R.
Proof.
  intros Hs Hp. unfold ising_energy, ising_obs.
  pose proof (dot_app s (map (fun p => (fst p * snd p)%R) (pairs s)) (firstn n params) (skipn n params)) as Ed.
  rewrite firstn_skipn in Ed. rewrite Ed by (rewrite firstn_length; lia). clear Ed.
  rewrite pairs_prod_as_map, Hs, (dot_comm _ (skipn n params)), dot_pairs_index by (rewrite skipn_length; lia).
  rewrite (dot_seq _ _ n) by (rewrite ?firstn_length; lia).
  rewrite <- (sumf_pairs_seq n (fun i j => (coupling n params i j * (nthR s i * nthR s j))%R)).
  rewrite (sumf_ext_in (seq 0 n) (fun i => (nthR s i * nthR (firstn n params) i)%R) (fun i => (nthR params i * nthR s i)%R)).
  2:{ intros i Hi. apply in_seq in Hi. rewrite nthR_firstn by lia. ring. }
  rewrite (sumf_ext_in (pairs (seq 0 n)) (fun p => (nthR (skipn n params) (pair_index n (fst p) (snd p)) * (nthR s (fst p) * nthR s (snd p)))%R)
     (fun p => (coupling n params (fst p) (snd p) * (nthR s (fst p) * nthR s (snd p)))%R)).
  2:{ intros [i j] Hin. apply in_pairs_seq in Hin. cbn [fst snd]. rewrite nthR_skipn. unfold coupling.
      destruct (Nat.ltb_spec i j); [reflexivity|lia]. }
  ring.
Qed.
