(** * Proofs: matrix/vector forms and pairwise conversions. *)
From Verif Require Import Prelude Spec PreludeFacts M_Index M_Energy M_Params P_Index P_Unravel P_Energy P_Energy2.
Import ListNotations.

(** ** Integer square roots and triangular numbers *)
Lemma two_tri n : 2 * (n * (n - 1) / 2) = n * (n - 1).
Proof.
  assert (H : exists k, n * (n - 1) = 2 * k).
  { destruct n as [|n]; [now exists 0|]. replace (S n - 1) with n by lia.
    induction n as [|n [k IH]]; [now exists 0|]. exists (k + S n). lia. }
  destruct H as [k Hk]. rewrite Hk. rewrite (Nat.mul_comm 2 k), Nat.div_mul by lia. lia.
Qed.

Lemma sqrt_between m r : r * r <= m < (r + 1) * (r + 1) -> Nat.sqrt m = r.
Proof. intros H. apply Nat.sqrt_unique. lia. Qed.

Lemma ceil_sqrt_tri n : 2 <= n -> ceil_sqrt (n * (n - 1)) = n.
Proof.
  intros Hn. unfold ceil_sqrt. rewrite (sqrt_between (n * (n - 1)) (n - 1)) by nia.
  destruct (Nat.eqb_spec ((n - 1) * (n - 1)) (n * (n - 1))); [nia|lia].
Qed.

Lemma vec2mat_size_ok n : vec2mat_size (n + n * (n - 1) / 2) = n.
Proof.
  unfold vec2mat_size. pose proof (two_tri n) as H.
  rewrite (sqrt_between _ (2 * n + 1)) by nia.
  replace (2 * n + 1 - 1) with (n * 2) by lia. apply Nat.div_mul. lia.
Qed.

Lemma tri_pos_pair_index n i j : i < j -> j < n -> tri_pos n i j = pair_index n i j.
Proof.
  intros H1 H2. unfold tri_pos, pair_index.
  remember (n - i - 1) as m eqn:Hm. assert (En : n = i + S m) by lia. subst n. clear Hm.
  replace (i + S m - i) with (S m) by lia.
  replace (i + S m - 1) with (i + m) by lia. replace (2 * (i + S m) - i - 1) with (i + 2 * m + 1) by lia.
  pose proof (two_tri (i + S m)) as T1. replace (i + S m - 1) with (i + m) in T1 by lia.
  pose proof (two_tri (S m)) as T2. replace (S m - 1) with m in T2 by lia.
  set (a := (i + S m) * (i + m) / 2) in *. set (b := S m * m / 2) in *.
  assert (E : i * (i + 2 * m + 1) = (a - b) * 2).
  { assert (i * (i + 2 * m + 1) + S m * m = (i + S m) * (i + m)) by ring. lia. }
  rewrite E, Nat.div_mul by lia. reflexivity.
Qed.

(** ** Matrices *)
Local Open Scope R_scope.

Lemma entry_mk_mat n p f i j : (i < n)%nat -> (j < p)%nat -> entry (mk_mat n p f) i j = f i j.
Proof.
  intros Hi Hj. unfold entry, mk_mat. rewrite nth_map_seq by assumption. now rewrite nth_map_seq.
Qed.

Lemma mk_mat_length n p f : length (mk_mat n p f) = n.
Proof. unfold mk_mat. now rewrite map_length, seq_length. Qed.

Lemma mk_mat_row n p f i : (i < n)%nat -> nth i (mk_mat n p f) [] = map (f i) (seq 0 p).
Proof. intros H. unfold mk_mat. now rewrite nth_map_seq. Qed.

Lemma is_square_mk_mat n f : is_square (mk_mat n n f) = true.
Proof.
  unfold is_square. apply forallb_forall. intros r Hr. rewrite mk_mat_length.
  unfold mk_mat in Hr. apply in_map_iff in Hr. destruct Hr as (i & <- & _).
  rewrite map_length, seq_length. apply Nat.eqb_refl.
Qed.

Lemma mk_mat_ext n p f g : (forall i j, (i < n)%nat -> (j < p)%nat -> f i j = g i j) -> mk_mat n p f = mk_mat n p g.
Proof.
  intros H. unfold mk_mat. apply map_ext_in. intros i Hi. apply in_seq in Hi.
  apply map_ext_in. intros j Hj. apply in_seq in Hj. apply H; lia.
Qed.

Lemma is_square_spec A : is_square A = true <-> forall i, (i < length A)%nat -> length (nth i A []) = length A.
Proof.
  unfold is_square. rewrite forallb_forall. split.
  - intros H i Hi. apply Nat.eqb_eq, H, nth_In, Hi.
  - intros H r Hr. destruct (In_nth _ _ [] Hr) as (i & Hi & <-). apply Nat.eqb_eq, H, Hi.
Qed.

Lemma square_as_mk_mat A : is_square A = true -> A = mk_mat (length A) (length A) (entry A).
Proof.
  intros H. rewrite is_square_spec in H. apply (list_eq_nth []); [now rewrite mk_mat_length|].
  intros i Hi. rewrite mk_mat_row by assumption. apply (list_eq_nth 0).
  - rewrite map_length, seq_length. auto.
  - intros j Hj. rewrite H in Hj by assumption. rewrite nth_map_seq by assumption. reflexivity.
Qed.

Lemma Reqb_eq x y : Reqb x y = true <-> x = y.
Proof. unfold Reqb. destruct (Req_EM_T x y); split; congruence. Qed.

(** ** squareform *)
Definition symmat (n : nat) (v : list R) (i j : nat) : R :=
  if Nat.ltb i j then nthR v (pair_index n i j)
  else if Nat.ltb j i then nthR v (pair_index n j i) else 0.

Lemma symmat_sym n v i j : symmat n v i j = symmat n v j i.
Proof. unfold symmat. destruct (Nat.ltb_spec i j), (Nat.ltb_spec j i); try lia; reflexivity. Qed.

Lemma symmat_diag n v i : symmat n v i i = 0.
Proof. unfold symmat. now rewrite Nat.ltb_irrefl. Qed.

Lemma squareform_vec_ok n v : (1 <= n)%nat -> length v = (n * (n - 1) / 2)%nat ->
  squareform_vec v = Ok (mk_mat n n (symmat n v)).
Proof.
  intros Hn Hv. unfold squareform_vec. destruct (Nat.eqb_spec (length v) 0) as [H0|H0].
  - assert (n = 1)%nat as ->.
    { pose proof (two_tri n). nia. }
    reflexivity.
  - assert (2 <= n)%nat. { destruct (Nat.eq_dec n 1) as [->|]; [cbn in Hv; lia|lia]. }
    rewrite Hv, two_tri, ceil_sqrt_tri, Nat.eqb_refl by assumption. cbn [negb]. f_equal.
    apply mk_mat_ext. intros i j Hi Hj. unfold symmat.
    destruct (Nat.ltb_spec i j); [now rewrite tri_pos_pair_index|].
    destruct (Nat.ltb_spec j i); [now rewrite tri_pos_pair_index|reflexivity].
Qed.

Lemma squareform_vec_err v : v <> [] -> (forall n, length v <> (n * (n - 1) / 2)%nat) ->
  squareform_vec v = Err ValueError.
Proof.
  intros H0 H. unfold squareform_vec. destruct (Nat.eqb_spec (length v) 0) as [H1|H1].
  - destruct v; [congruence|discriminate].
  - destruct (Nat.eqb_spec (ceil_sqrt (2 * length v) * (ceil_sqrt (2 * length v) - 1)) (2 * length v)) as [E|E]; [|reflexivity].
    exfalso. apply (H (ceil_sqrt (2 * length v))). pose proof (two_tri (ceil_sqrt (2 * length v))). lia.
Qed.

Lemma squareform_mat_ok n f : (forall i j, (i < n)%nat -> (j < n)%nat -> f i j = f j i) ->
  (forall i, (i < n)%nat -> f i i = 0) ->
  squareform_mat (mk_mat n n f) = Ok (map (fun p => f (fst p) (snd p)) (pairs (seq 0 n))).
Proof.
  intros Hs Hd. unfold squareform_mat. rewrite is_square_mk_mat, mk_mat_length. cbn [negb].
  assert (E1 : forallb (fun i => forallb (fun j => Reqb (entry (mk_mat n n f) i j) (entry (mk_mat n n f) j i)) (range n)) (range n) = true).
  { apply forallb_forall. intros i Hi. apply forallb_forall. intros j Hj. apply in_seq in Hi, Hj.
    rewrite !entry_mk_mat by lia. apply Reqb_eq, Hs; lia. }
  assert (E2 : forallb (fun i => Reqb (entry (mk_mat n n f) i i) 0) (range n) = true).
  { apply forallb_forall. intros i Hi. apply in_seq in Hi. rewrite entry_mk_mat by lia. apply Reqb_eq, Hd; lia. }
  rewrite E1, E2. cbn [negb]. f_equal. rewrite loop_ij_pairs. apply map_ext_in. intros [i j] Hin.
  apply in_pairs_seq in Hin. cbn [fst snd]. apply entry_mk_mat; lia.
Qed.

Lemma symmat_pairs n v : length v = (n * (n - 1) / 2)%nat ->
  map (fun p => symmat n v (fst p) (snd p)) (pairs (seq 0 n)) = v.
Proof.
  intros Hv. apply (list_eq_nth 0); [now rewrite map_length, pairs_seq_length|].
  intros k Hk. rewrite map_length, pairs_seq_length in Hk.
  destruct (pair_index_nth n k Hk) as (Ek & Hij & Hj).
  rewrite (nth_indep _ 0 ((fun p => symmat n v (fst p) (snd p)) (0%nat, 0%nat))) by (now rewrite map_length, pairs_seq_length).
  rewrite (map_nth (fun p => symmat n v (fst p) (snd p))).
  cbv zeta in *. unfold symmat, nthR.
  destruct (Nat.ltb_spec (fst (nth k (pairs (seq 0 n)) (0%nat, 0%nat))) (snd (nth k (pairs (seq 0 n)) (0%nat, 0%nat)))); [|lia]. now rewrite Ek.
Qed.

Lemma mk_mat_length_eqb n f : Nat.eqb (length (mk_mat n n f)) n = true.
Proof. rewrite mk_mat_length. apply Nat.eqb_refl. Qed.

Lemma replace_diag_ok n f d : length d = n ->
  replace_diag (mk_mat n n f) d = Ok (mk_mat n n (fun i j => if Nat.eqb i j then nthR d i else f i j)).
Proof.
  intros Hd. unfold replace_diag. rewrite is_square_mk_mat, mk_mat_length, Hd, Nat.eqb_refl. cbn [andb negb]. f_equal.
  apply mk_mat_ext. intros i j Hi Hj. rewrite !entry_mk_mat by assumption.
  destruct (Nat.eqb_spec i j) as [->|]; ring.
Qed.

(** Matrix with given fields on the diagonal and couplings off the diagonal. *)
Definition hJmat (n : nat) (x : list R) (i j : nat) : R :=
  if Nat.eqb i j then nthR x i else coupling n x i j.

Lemma symmat_coupling n x i j : i <> j -> symmat n (skipn n x) i j = coupling n x i j.
Proof.
  intros H. unfold symmat, coupling. rewrite !nthR_skipn.
  destruct (Nat.ltb_spec i j), (Nat.ltb_spec j i); try lia; reflexivity.
Qed.

Lemma vec2mat_ok n x : (1 <= n)%nat -> length x = (n + n * (n - 1) / 2)%nat ->
  vec2mat x = Ok (mk_mat n n (hJmat n x)).
Proof.
  intros Hn Hx. unfold vec2mat. rewrite Hx, vec2mat_size_ok.
  rewrite (squareform_vec_ok n) by (rewrite ?skipn_length; lia). cbn [bind].
  rewrite replace_diag_ok by (rewrite firstn_length; lia). f_equal. apply mk_mat_ext. intros i j Hi Hj.
  unfold hJmat. destruct (Nat.eqb_spec i j) as [->|Hne]; [now apply nthR_firstn|now apply symmat_coupling].
Qed.

Lemma vec2mat_separate_ok n x : (1 <= n)%nat -> length x = (n + n * (n - 1) / 2)%nat ->
  vec2mat_separate x = Ok (firstn n x, mk_mat n n (fun i j => if Nat.eqb i j then 0 else coupling n x i j)).
Proof.
  intros Hn Hx. unfold vec2mat_separate. rewrite Hx, vec2mat_size_ok.
  rewrite (squareform_vec_ok n) by (rewrite ?skipn_length; lia). cbn [bind]. do 2 f_equal.
  apply mk_mat_ext. intros i j Hi Hj. destruct (Nat.eqb_spec i j) as [->|Hne]; [apply symmat_diag|now apply symmat_coupling].
Qed.

Lemma mat2vec_ok n f : (forall i j, (i < n)%nat -> (j < n)%nat -> f i j = f j i) ->
  mat2vec (mk_mat n n f) = Ok (map (fun i => f i i) (seq 0 n) ++ map (fun p => f (fst p) (snd p)) (pairs (seq 0 n))).
Proof.
  intros Hs. unfold mat2vec, zero_diag. rewrite mk_mat_length, replace_diag_ok by apply repeat_length. cbn [bind].
  rewrite squareform_mat_ok.
  - cbn [bind]. f_equal. f_equal.
    + apply map_ext_in. intros i Hi. apply in_seq in Hi. apply entry_mk_mat; lia.
    + apply map_ext_in. intros [i j] Hin. apply in_pairs_seq in Hin. cbn [fst snd]. destruct (Nat.eqb_spec i j); [lia|reflexivity].
  - intros i j Hi Hj. rewrite (Nat.eqb_sym j i). destruct (Nat.eqb_spec i j) as [->|]; auto.
  - intros i Hi. rewrite Nat.eqb_refl. unfold nthR. apply nth_repeat.
Qed.

Lemma mat2vec_asymmetric n f i j : (i < n)%nat -> (j < n)%nat -> f i j <> f j i ->
  mat2vec (mk_mat n n f) = Err ValueError.
Proof.
  intros Hi Hj Hne. unfold mat2vec, zero_diag. rewrite mk_mat_length, replace_diag_ok by apply repeat_length. cbn [bind].
  unfold squareform_mat. rewrite is_square_mk_mat. cbn [negb].
  match goal with |- bind (if negb ?b then _ else _) _ = _ => destruct b eqn:E end; [|reflexivity].
  exfalso. rewrite forallb_forall in E. rewrite mk_mat_length in E.
  specialize (E i ltac:(apply in_seq; lia)). rewrite forallb_forall in E.
  specialize (E j ltac:(apply in_seq; lia)). apply Reqb_eq in E. rewrite !entry_mk_mat in E by assumption.
  rewrite (Nat.eqb_sym j i) in E. destruct (Nat.eqb_spec i j) as [->|]; congruence.
Qed.

Lemma coupling_pairs n x : length x = (n + n * (n - 1) / 2)%nat ->
  map (fun p => hJmat n x (fst p) (snd p)) (pairs (seq 0 n)) = skipn n x.
Proof.
  intros Hx. rewrite <- (symmat_pairs n (skipn n x)) by (rewrite skipn_length; lia).
  apply map_ext_in. intros [i j] Hin. apply in_pairs_seq in Hin. cbn [fst snd].
  unfold hJmat. destruct (Nat.eqb_spec i j); [lia|]. symmetry. apply symmat_coupling. lia.
Qed.

Lemma fields_firstn n x : (n <= length x)%nat -> map (fun i => nthR x i) (seq 0 n) = firstn n x.
Proof.
  intros Hx. rewrite (list_as_map 0 (firstn n x)), firstn_length, Nat.min_l by assumption.
  apply map_ext_in. intros i Hi. apply in_seq in Hi. symmetry. apply nthR_firstn. lia.
Qed.

Lemma hJmat_sym n x i j : hJmat n x i j = hJmat n x j i.
Proof.
  unfold hJmat. rewrite (Nat.eqb_sym j i). destruct (Nat.eqb_spec i j) as [->|]; [reflexivity|]. now apply coupling_sym.
Qed.

Lemma mat2vec_vec2mat n x : (1 <= n)%nat -> length x = (n + n * (n - 1) / 2)%nat ->
  mat2vec (mk_mat n n (hJmat n x)) = Ok x.
Proof.
  intros Hn Hx. rewrite mat2vec_ok by (intros; apply hJmat_sym). f_equal.
  rewrite coupling_pairs by assumption.
  rewrite (map_ext (fun i => hJmat n x i i) (fun i => nthR x i)) by (intros; unfold hJmat; now rewrite Nat.eqb_refl).
  rewrite fields_firstn by lia. apply firstn_skipn.
Qed.

Lemma vec2mat_mat2vec n f : (1 <= n)%nat -> (forall i j, (i < n)%nat -> (j < n)%nat -> f i j = f j i) ->
  vec2mat (map (fun i => f i i) (seq 0 n) ++ map (fun p => f (fst p) (snd p)) (pairs (seq 0 n))) = Ok (mk_mat n n f).
Proof.
  intros Hn Hs. rewrite (vec2mat_ok n) by (rewrite ?app_length, ?map_length, ?seq_length, ?pairs_seq_length; lia).
  f_equal. apply mk_mat_ext. intros i j Hi Hj. unfold hJmat.
  assert (G : forall i j, (i < j)%nat -> (j < n)%nat ->
     nthR (map (fun i => f i i) (seq 0 n) ++ map (fun p => f (fst p) (snd p)) (pairs (seq 0 n))) (n + pair_index n i j) = f i j).
  { intros a b Hab Hb. unfold nthR. rewrite app_nth2 by (rewrite map_length, seq_length; lia).
    rewrite map_length, seq_length. replace (n + pair_index n a b - n)%nat with (pair_index n a b) by lia.
    apply nth_error_nth. rewrite nth_error_map, pair_index_spec by assumption. reflexivity. }
  destruct (Nat.eqb_spec i j) as [->|Hne].
  - unfold nthR. rewrite app_nth1 by (rewrite map_length, seq_length; lia). now rewrite nth_map_seq.
  - unfold coupling. destruct (Nat.ltb_spec i j); [now apply G|]. rewrite G by lia. apply Hs; lia.
Qed.

(** A length which is not n + n(n-1)/2 for any n>=1 is rejected. *)
Lemma vec2mat_size_spec m : let n := vec2mat_size m in (n * (n + 1) / 2 <= m < (n + 1) * (n + 2) / 2)%nat.
Proof.
  cbv zeta. unfold vec2mat_size.
  pose proof (Nat.sqrt_spec (1 + 8 * m) ltac:(lia)) as [H1 H2].
  set (r := Nat.sqrt (1 + 8 * m)) in *.
  assert (Hr : (1 <= r)%nat). { destruct r; [cbn in H2; lia|lia]. }
  pose proof (Nat.div_mod (r - 1) 2 ltac:(lia)) as D. pose proof (Nat.mod_upper_bound (r - 1) 2 ltac:(lia)).
  set (n := ((r - 1) / 2)%nat) in *.
  pose proof (two_tri (n + 1)) as T1. replace (n + 1 - 1)%nat with n in T1 by lia.
  pose proof (two_tri (n + 2)) as T2. replace (n + 2 - 1)%nat with (n + 1)%nat in T2 by lia.
  rewrite (Nat.mul_comm n (n + 1)), (Nat.mul_comm (n + 1) (n + 2)).
  assert (2 * n + 1 <= r <= 2 * n + 2)%nat by lia.
  assert ((2 * n + 1) * (2 * n + 1) <= r * r)%nat by nia.
  assert (S r * S r <= (2 * n + 3) * (2 * n + 3))%nat by nia.
  nia.
Qed.

Lemma vec2mat_bad_length x : (forall n, (1 <= n)%nat -> length x <> (n + n * (n - 1) / 2)%nat) ->
  exists e, vec2mat x = Err e.
Proof.
  intros H. unfold vec2mat.
  pose proof (vec2mat_size_spec (length x)) as Hs. cbv zeta in Hs.
  set (n := vec2mat_size (length x)) in *.
  destruct (squareform_vec (skipn n x)) as [A|e] eqn:E; cbn [bind]; [|now exists e].
  unfold replace_diag. destruct (is_square A && Nat.eqb (length A) (length (firstn n x)))%bool eqn:E2; cbn [negb]; [|now eexists].
  exfalso. apply andb_true_iff in E2. destruct E2 as [_ E2]. apply Nat.eqb_eq in E2.
  unfold squareform_vec in E. rewrite skipn_length in E. rewrite firstn_length in E2.
  destruct (Nat.eqb_spec (length x - n) 0) as [E3|E3].
  - injection E as <-. cbn [length] in E2. apply (H 1%nat); [lia|]. cbn.
    destruct n as [|n]; [lia|]. destruct n as [|n]; [lia|].
    pose proof (two_tri (S (S n) + 1)) as T. nia.
  - set (d := ceil_sqrt (2 * (length x - n))) in *.
    destruct (Nat.eqb_spec (d * (d - 1)) (2 * (length x - n))) as [E4|E4]; cbn [negb] in E; [|discriminate].
    assert (EA : length A = d) by (injection E as <-; apply mk_mat_length).
    rewrite EA, Nat.min_l in E2 by lia. rewrite E2 in E4.
    apply (H n); [nia|]. pose proof (two_tri n). lia.
Qed.

(** With separate_fields=True a vector of length n + n(n+1)/2 is accepted and split
    into n fields and the couplings of n+1 spins. *)
Lemma vec2mat_separate_bad n x : (1 <= n)%nat -> length x = (n + n * (n + 1) / 2)%nat ->
  exists h A, vec2mat_separate x = Ok (h, A) /\ length h = n /\ length A = (n + 1)%nat.
Proof.
  intros Hn Hx. unfold vec2mat_separate.
  assert (E : vec2mat_size (length x) = n).
  { pose proof (vec2mat_size_spec (length x)) as Hs. cbv zeta in Hs.
    set (m := vec2mat_size (length x)) in *.
    pose proof (two_tri (n + 1)) as T1. replace (n + 1 - 1)%nat with n in T1 by lia.
    pose proof (two_tri (m + 1)) as T2. replace (m + 1 - 1)%nat with m in T2 by lia.
    pose proof (two_tri (m + 2)) as T3. replace (m + 2 - 1)%nat with (m + 1)%nat in T3 by lia.
    rewrite (Nat.mul_comm (m + 1) (m + 2)), (Nat.mul_comm m (m + 1)) in Hs. rewrite (Nat.mul_comm n (n + 1)) in Hx.
    assert (n <= m)%nat by nia. assert (m <= n)%nat by nia. lia. }
  rewrite E. rewrite (squareform_vec_ok (n + 1)).
  - cbn [bind]. eexists _, _. split; [reflexivity|]. rewrite firstn_length, mk_mat_length. lia.
  - lia.
  - rewrite skipn_length, Hx. replace (n + 1 - 1)%nat with n by lia. rewrite (Nat.mul_comm n). lia.
Qed.

(** ** convert_params *)
Lemma sumf_pairs_offdiag n (g : nat -> nat -> R) : (forall i, g i i = 0) ->
  sumf (pairs (seq 0 n)) (fun p => g (fst p) (snd p) + g (snd p) (fst p)) =
  sumf (seq 0 n) (fun i => sumf (seq 0 n) (fun j => g i j)).
Proof.
  intros H0.
  pose proof (sumf_double_pairs (seq 0 n) (fun i j => g i j + g j i) ltac:(intros; cbv beta; ring)) as D. cbv beta in D.
  rewrite (sumf_zero (seq 0 n) (fun a => g a a + g a a)) in D by (intros; rewrite H0; ring).
  rewrite (sumf_ext (seq 0 n) (fun a => sumf (seq 0 n) (fun b => g a b + g b a))
     (fun a => sumf (seq 0 n) (fun b => g a b) + sumf (seq 0 n) (fun b => g b a))) in D by (intros; apply sumf_plus).
  rewrite sumf_plus in D.
  pose proof (sumf_swap (seq 0 n) (seq 0 n) (fun a b => g b a)) as SW. cbv beta in SW.
  change (sumf (seq 0 n) (fun a => sumf (seq 0 n) (fun b => g b a)) = sumf (seq 0 n) (fun b => sumf (seq 0 n) (fun a => g b a))) in SW.
  rewrite SW in D. cbv beta in D. cbn [fst snd] in D. lra.
Qed.

Definition rowsum (n : nat) (J : list R) (i : nat) : R := sumf (seq 0 n) (fun j => symmat n J i j).

Lemma energy_symmat n h J s : length h = n -> length J = (n * (n - 1) / 2)%nat ->
  ising_energy n (h ++ J) s =
  - sumf (seq 0 n) (fun i => nthR h i * nthR s i)
  - sumf (pairs (seq 0 n)) (fun p => symmat n J (fst p) (snd p) * (nthR s (fst p) * nthR s (snd p))).
Proof.
  intros Hh HJ. unfold ising_energy.
  rewrite <- (sumf_pairs_seq n (fun i j => coupling n (h ++ J) i j * (nthR s i * nthR s j))).
  f_equal; [f_equal|].
  - apply sumf_ext_in. intros i Hi. apply in_seq in Hi. unfold nthR at 1. rewrite app_nth1 by lia. reflexivity.
  - apply sumf_ext_in. intros [i j] Hin. apply in_pairs_seq in Hin. cbn [fst snd]. f_equal.
    rewrite <- symmat_coupling by lia. rewrite skipn_app, <- Hh, skipn_all, Nat.sub_diag. reflexivity.
Qed.

Lemma convert_params_ok h J b : let n := length h in (1 <= n)%nat -> length J = (n * (n - 1) / 2)%nat ->
  convert_params h J b =
  match b with
  | To11 => Ok (map (fun i => nthR h i / 2 + rowsum n J i / 4) (seq 0 n), map (fun x => x / 4) J)
  | To01 => Ok (map (fun i => 2 * (nthR h i - rowsum n J i)) (seq 0 n), map (fun x => x * 4) J)
  | ToOther => Err GenericException
  end.
Proof.
  intros n Hn HJ. unfold convert_params. rewrite (squareform_vec_ok n) by assumption. cbn [bind].
  unfold convert_params_core. rewrite mk_mat_length. fold n. rewrite Nat.eqb_refl. cbn [negb].
  assert (G : forall i, (i < n)%nat -> sumR (nth i (mk_mat n n (symmat n J)) []) = rowsum n J i).
  { intros i Hi. rewrite mk_mat_row by assumption. apply sumR_map. }
  destruct b; [| |reflexivity]; do 2 f_equal; apply map_ext_in; intros i Hi; apply in_seq in Hi; rewrite G by lia; reflexivity.
Qed.

Lemma nthR_map (f : R -> R) l i : f 0 = 0 -> nthR (map f l) i = f (nthR l i).
Proof. intros H. unfold nthR. rewrite <- H at 1. apply map_nth. Qed.

Lemma symmat_map n (f : R -> R) J i j : f 0 = 0 -> symmat n (map f J) i j = f (symmat n J i j).
Proof.
  intros H. unfold symmat. rewrite !nthR_map by assumption.
  destruct (Nat.ltb i j); [reflexivity|]. destruct (Nat.ltb j i); [reflexivity|]. now symmetry.
Qed.

Lemma nthR_map_seq (f : nat -> R) n i : (i < n)%nat -> nthR (map f (seq 0 n)) i = f i.
Proof. intros H. unfold nthR. now apply nth_map_seq. Qed.

(** Master identity: substituting s = a*x + b. *)
Lemma energy_affine n h J a b x s : length h = n -> length J = (n * (n - 1) / 2)%nat ->
  (forall i, (i < n)%nat -> nthR s i = a * nthR x i + b) ->
  ising_energy n (map (fun i => a * nthR h i + a * b * rowsum n J i) (seq 0 n) ++ map (fun y => a * a * y) J) x
  = ising_energy n (h ++ J) s + (b * sumf (seq 0 n) (fun i => nthR h i)
      + b * b * sumf (pairs (seq 0 n)) (fun p => symmat n J (fst p) (snd p))).
Proof.
  intros Hh HJ Hs. rewrite !energy_symmat by (rewrite ?map_length, ?seq_length; auto).
  rewrite (sumf_ext_in (seq 0 n) (fun i => nthR (map _ (seq 0 n)) i * nthR x i)
     (fun i => a * (nthR h i * nthR x i) + a * b * (rowsum n J i * nthR x i))).
  2:{ intros i Hi. apply in_seq in Hi. rewrite nthR_map_seq by lia. ring. }
  rewrite sumf_plus, !sumf_scal_l.
  rewrite (sumf_ext_in (seq 0 n) (fun i => nthR h i * nthR s i) (fun i => a * (nthR h i * nthR x i) + b * nthR h i)).
  2:{ intros i Hi. apply in_seq in Hi. rewrite Hs by lia. ring. }
  rewrite sumf_plus, !sumf_scal_l.
  rewrite (sumf_ext (pairs (seq 0 n)) (fun p => symmat n (map _ J) (fst p) (snd p) * _)
     (fun p => a * a * (symmat n J (fst p) (snd p) * (nthR x (fst p) * nthR x (snd p))))).
  2:{ intros p. rewrite symmat_map by ring. ring. }
  rewrite (sumf_ext_in (pairs (seq 0 n)) (fun p => symmat n J (fst p) (snd p) * (nthR s (fst p) * nthR s (snd p)))
     (fun p => a * a * (symmat n J (fst p) (snd p) * (nthR x (fst p) * nthR x (snd p)))
        + (a * b * (symmat n J (fst p) (snd p) * nthR x (fst p) + symmat n J (snd p) (fst p) * nthR x (snd p))
        + b * b * symmat n J (fst p) (snd p)))).
  2:{ intros [i j] Hin. apply in_pairs_seq in Hin. cbn [fst snd]. rewrite !Hs by lia.
      rewrite (symmat_sym n J j i). ring. }
  rewrite !sumf_plus, !sumf_scal_l.
  rewrite (sumf_pairs_offdiag n (fun i j => symmat n J i j * nthR x i)) by (intros; rewrite symmat_diag; ring).
  rewrite (sumf_ext (seq 0 n) (fun i => sumf (seq 0 n) (fun j => symmat n J i j * nthR x i)) (fun i => rowsum n J i * nthR x i)).
  2:{ intros i. rewrite sumf_scal_r. reflexivity. }
  change (sumf (seq 0 n) (nthR h)) with (sumf (seq 0 n) (fun i => nthR h i)). ring.
Qed.
