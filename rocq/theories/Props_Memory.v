(** * C110: the arrays that cross the border to C++. *)
From Flocq Require Import Core IEEE754.Binary IEEE754.Bits.
From Coq Require Import Lra Lia.
From Verif Require Import Prelude M_Index M_Sampler M_Memory.
Import ListNotations.

Lemma denormal_bits : forall z, (0 <= z < 2 ^ 52)%Z -> B2R 53 1024 (b64_of_bits z) = (IZR z * bpow radix2 (-1074))%R.
Proof.
  intros z Hz. unfold b64_of_bits, binary_float_of_bits. rewrite B2R_FF2B.
  unfold binary_float_of_bits_aux, split_bits.
  rewrite (Z.mod_small z) by exact Hz. rewrite (Z.div_small z) by exact Hz.
  rewrite Zmod_0_l.
  replace (Zeq_bool 0 0) with true by reflexivity.
  rewrite Zle_bool_false by (destruct Hz as [_ Hz]; eapply Z.lt_le_trans; [exact Hz|]; vm_compute; discriminate).
  destruct z as [|p|p].
  - simpl. ring.
  - simpl FF2R. reflexivity.
  - destruct Hz as [Hz _]. exfalso. apply Hz. reflexivity.
Qed.

Lemma mapM_map_ok {A B} (f : A -> result B) (h : A -> B) l : (forall a, In a l -> f a = Ok (h a)) -> mapM f l = Ok (map h l).
Proof.
  induction l as [|a l IH]; intros H; [reflexivity|]. cbn [mapM map]. rewrite H by (left; reflexivity). cbn [bind].
  rewrite IH by (intros; apply H; right; assumption). reflexivity.
Qed.

Lemma mapM_ext_in {A B} (f h : A -> result B) l : (forall a, In a l -> f a = h a) -> mapM f l = mapM h l.
Proof.
  induction l as [|a l IH]; intros H; [reflexivity|]. cbn [mapM]. rewrite H by (left; reflexivity).
  rewrite IH by (intros; apply H; right; assumption). reflexivity.
Qed.

Lemma mapM_post {A B C} (f : A -> result B) (h : B -> C) l :
  mapM (fun a => bind (f a) (fun b => Ok (h b))) l = bind (mapM f l) (fun bs => Ok (map h bs)).
Proof.
  induction l as [|a l IH]; [reflexivity|]. cbn [mapM]. destruct (f a) as [b|e]; [|reflexivity]. cbn [bind]. rewrite IH.
  destruct (mapM f l); reflexivity.
Qed.

Lemma mapM_len {A B} (f : A -> result B) l : forall r, mapM f l = Ok r -> length r = length l.
Proof.
  induction l as [|a l IH]; intros r H; cbn [mapM] in H; [injection H as <-; reflexivity|].
  destruct (f a); [|discriminate]. cbn [bind] in H. destruct (mapM f l); [|discriminate]. cbn [bind] in H. injection H as <-.
  cbn. rewrite (IH _ eq_refl). reflexivity.
Qed.

Definition contiguous (v : view) : Prop := v_stride v = 1%Z \/ (v_len v <= 1)%nat.

Lemma contiguous_read h v : v_type v = F64 -> contiguous v -> cpp_read h v = np_values h v.
Proof.
  intros Ht Hc. unfold cpp_read, np_values, np_words. rewrite Ht, mapM_post. f_equal.
  apply mapM_ext_in. intros i Hi. unfold range in Hi. apply in_seq in Hi. f_equal.
  destruct Hc as [->|Hc]; [lia|]. replace i with 0%nat by lia. lia.
Qed.

Lemma get_len {A} (l : list A) x : get (l ++ [x]) (length l) = Ok x.
Proof. unfold get. rewrite nth_error_app2 by lia. replace (length l - length l)%nat with 0%nat by lia. reflexivity. Qed.

Lemma mapM_get_all {A} (l : list A) : mapM (get l) (seq 0 (length l)) = Ok l.
Proof.
  destruct l as [|d l0]; [reflexivity|]. set (l := d :: l0).
  rewrite (mapM_map_ok _ (fun i => nth i l d)).
  - f_equal. apply nth_ext with (d := d) (d' := d); rewrite map_length, seq_length; [reflexivity|].
    intros i Hi. rewrite (nth_indep _ _ (nth 0 l d)) by (rewrite map_length, seq_length; exact Hi).
    rewrite (map_nth (fun i => nth i l d)). rewrite seq_nth by exact Hi. reflexivity.
  - intros i Hi. apply in_seq in Hi. unfold get. rewrite (nth_error_nth' l d) by lia. reflexivity.
Qed.

Lemma copy_values h v ws : np_words h v = Ok ws ->
  np_words (h ++ [ws]) (View (length h) 0 1 (v_len v) (v_type v)) = Ok ws.
Proof.
  intros Hw. assert (Hl : length ws = v_len v) by (unfold np_words in Hw; apply mapM_len in Hw; unfold range in Hw; rewrite seq_length in Hw; exact Hw).
  unfold np_words, range. cbn [v_buf v_off v_stride v_len]. rewrite <- Hl. transitivity (mapM (get ws) (seq 0 (length ws))); [|apply mapM_get_all].
  apply mapM_ext_in. intros i Hi. unfold word_at.
  destruct (Z.ltb_spec (0 + Z.of_nat i * 1) 0) as [H|H]; [lia|]. rewrite get_len. cbn [bind]. f_equal. lia.
Qed.

Lemma cpp_read_words h v ws : mapM (fun i => word_at h (v_buf v) (v_off v + Z.of_nat i)) (range (v_len v)) = Ok ws ->
  cpp_read h v = Ok (map (decode F64) ws).
Proof. intros H. unfold cpp_read. rewrite mapM_post, H. reflexivity. Qed.

(** A float64 array without gaps between its entries: the C++ sampler runs with exactly the
    parameters that numpy shows. *)
Theorem C110_contiguous : forall T (g : rng T) h n v theta n_samples burn_in n_iters systematic t,
  v_type v = F64 -> v_stride v = 1%Z -> np_values h v = Ok theta ->
  mo_sample g h (mo_new n v) n_samples burn_in n_iters systematic t = Ok (boost_ising_sample g n theta n_samples burn_in n_iters systematic t).
Proof.
  intros T g h n v theta ns bi ni sy t Ht Hs Hv. unfold mo_sample, mo_new. cbn [mo_theta mo_n].
  rewrite contiguous_read by (try exact Ht; left; exact Hs). rewrite Hv. reflexivity.
Qed.
Print Assumptions C110_contiguous.

(** After update_parameters the layout of the given array does not matter, and no later
    assignment to any array that existed before changes the samples.  (Model.generate_sample
    calls update_parameters every time.) *)
Theorem C110_update : forall T (g : rng T) h o v theta, v_type v = F64 -> v_len (mo_theta o) = v_len v -> np_values h v = Ok theta ->
  exists h' o', mo_update h o v = Ok (h', o') /\
    (forall n_samples burn_in n_iters systematic t,
      mo_sample g h' o' n_samples burn_in n_iters systematic t = Ok (boost_ising_sample g (mo_n o) theta n_samples burn_in n_iters systematic t)) /\
    (forall buf a w n_samples burn_in n_iters systematic t, (buf < length h)%nat ->
      mo_sample g (store h' buf a w) o' n_samples burn_in n_iters systematic t = Ok (boost_ising_sample g (mo_n o) theta n_samples burn_in n_iters systematic t)).
Proof.
  intros T g h o v theta Ht Hl Hv. unfold mo_update, np_copy. rewrite Hl, Nat.eqb_refl. unfold np_values in Hv.
  destruct (np_words h v) as [ws|e] eqn:Hw; [|discriminate]. cbn [bind] in Hv. injection Hv as Hv. cbn [bind fst snd].
  do 2 eexists. split; [reflexivity|].
  assert (Hread : forall h2, nth_error h2 (length h) = Some ws -> cpp_read h2 (View (length h) 0 1 (v_len v) (v_type v)) = Ok theta).
  { intros h2 H2. rewrite contiguous_read by (first [exact Ht|left; reflexivity]). unfold np_values. cbn [v_type].
    replace (np_words h2 _) with (np_words (h ++ [ws]) (View (length h) 0 1 (v_len v) (v_type v))).
    - rewrite (copy_values _ _ _ Hw). cbn [bind]. rewrite Hv. reflexivity.
    - unfold np_words. apply mapM_ext_in. intros i _. unfold word_at, get. cbn [v_buf v_off v_stride]. rewrite H2.
      rewrite nth_error_app2 by lia. replace (length h - length h)%nat with 0%nat by lia. reflexivity. }
  split.
  - intros. unfold mo_sample. cbn [mo_theta mo_n]. rewrite Hread; [reflexivity|].
    rewrite nth_error_app2 by lia. replace (length h - length h)%nat with 0%nat by lia. reflexivity.
  - intros. unfold mo_sample. cbn [mo_theta mo_n]. rewrite Hread; [reflexivity|]. unfold store.
    assert (Hup : forall A (l : list A) i j (x : A), i <> j -> nth_error (upd l i x) j = nth_error l j).
    { intros A l. induction l as [|y l IH]; intros [|i] [|j] x Hij; cbn; try reflexivity; [congruence|]. apply IH. congruence. }
    rewrite Hup by lia. rewrite nth_error_app2 by lia. replace (length h - length h)%nat with 0%nat by lia. reflexivity.
Qed.
Print Assumptions C110_update.

(** The parallel routine copies the array, so gaps do not matter there. *)
Theorem C110_parallel : forall T (g : rng T) mkrng h n v theta sample_size n_iters burn_in systematic seeds,
  v_type v = F64 -> np_values h v = Ok theta ->
  mo_sample_parallel g mkrng h (mo_new n v) sample_size n_iters burn_in systematic seeds =
  Ok (generate_sample_parallel_boost g mkrng n theta sample_size n_iters burn_in systematic seeds).
Proof.
  intros T g mkrng h n v theta m ni bi sy seeds Ht Hv. unfold mo_sample_parallel, np_copy, mo_new. cbn [mo_theta mo_n]. unfold np_values in Hv.
  destruct (np_words h v) as [ws|e] eqn:Hw; [|discriminate]. cbn [bind] in Hv. injection Hv as Hv. cbn [bind fst snd].
  rewrite contiguous_read by (first [exact Ht|left; reflexivity]). unfold np_values. rewrite (copy_values _ _ _ Hw). cbn [bind v_type].
  rewrite Hv. reflexivity.
Qed.
Print Assumptions C110_parallel.

(** fetch_sample returns the rows that were stored. *)
Theorem C110_fetch : forall n sample, Forall (fun s => length s = n) sample -> fetch_sample n sample = Ok sample.
Proof.
  intros n sample Hs. unfold fetch_sample. set (flat := concat sample).
  assert (Hrow : forall i row, nth_error sample i = Some row -> mapM (fun j => get flat (i * n + j * 1)) (range n) = Ok row).
  { intros i row Hi. assert (Hr : length row = n) by (rewrite Forall_forall in Hs; apply Hs; eapply nth_error_In; exact Hi).
    transitivity (mapM (get row) (seq 0 (length row))); [|apply mapM_get_all]. rewrite Hr. unfold range. apply mapM_ext_in.
    intros j Hj. apply in_seq in Hj. unfold get, flat. replace (j * 1)%nat with j by lia. replace (nth_error (concat sample) (i * n + j)) with (nth_error row j); [reflexivity|].
    clear flat. revert i Hi. induction Hs as [|s sample Hl Hs IH]; intros [|i] Hi; cbn in Hi; try discriminate.
    - injection Hi as ->. cbn [concat Nat.mul Nat.add]. rewrite nth_error_app1 by lia. reflexivity.
    - cbn [concat]. rewrite nth_error_app2 by (rewrite Hl; nia). rewrite Hl. rewrite (IH i Hi). f_equal. nia. }
  rewrite (mapM_ext_in _ (get sample)).
  - unfold range. apply mapM_get_all.
  - intros i Hi. unfold range in Hi. apply in_seq in Hi. unfold get. destruct (nth_error sample i) as [row|] eqn:E.
    + exact (Hrow i row E).
    + apply nth_error_None in E. lia.
Qed.
Print Assumptions C110_fetch.

Local Open Scope R_scope.

(** An int64 array is read as if its bits were doubles: nonnegative entries below 2^52 become
    multiples of the smallest positive double, so the run uses almost zero parameters. *)
Theorem C110_integers : forall T (g : rng T) h n v ks n_samples burn_in n_iters systematic t,
  v_type v = I64 -> v_stride v = 1%Z -> np_words h v = Ok ks -> Forall (fun k => 0 <= k < 2 ^ 52)%Z ks ->
  np_values h v = Ok (map IZR ks) /\
  mo_sample g h (mo_new n v) n_samples burn_in n_iters systematic t =
    Ok (boost_ising_sample g n (map (fun k => IZR k * bpow radix2 (-1074)) ks) n_samples burn_in n_iters systematic t) /\
  Forall (fun k => 0 <= IZR k * bpow radix2 (-1074) < bpow radix2 (-1022)) ks.
Proof.
  intros T g h n v ks ns bi ni sy t Ht Hs Hw Hk. split; [|split].
  - unfold np_values. rewrite Hw, Ht. cbn [bind]. f_equal. apply map_ext_in. intros k Hi. rewrite Forall_forall in Hk. specialize (Hk _ Hi). unfold decode.
    replace (k <? 2 ^ 63)%Z with true; [reflexivity|]. symmetry. apply Z.ltb_lt. eapply Z.lt_trans; [exact (proj2 Hk)|]. reflexivity.
  - unfold mo_sample, mo_new. cbn [mo_theta mo_n].
    assert (Hr : cpp_read h v = Ok (map (decode F64) ks)).
    { change (cpp_read h v) with (cpp_read h (View (v_buf v) (v_off v) (v_stride v) (v_len v) F64)).
      rewrite contiguous_read; [|reflexivity|left; exact Hs].
      change (np_values h (View (v_buf v) (v_off v) (v_stride v) (v_len v) F64)) with (bind (np_words h v) (fun ws => Ok (map (decode F64) ws))).
      rewrite Hw. reflexivity. }
    rewrite Hr. cbn [bind]. f_equal. f_equal.
    apply map_ext_in. intros k Hi. rewrite Forall_forall in Hk. unfold decode. apply denormal_bits. apply Hk. exact Hi.
  - eapply Forall_impl; [|exact Hk]. intros k [H1 H2]. cbv beta. split.
    + apply Rmult_le_pos; [apply IZR_le; exact H1|apply bpow_ge_0].
    + replace (-1022)%Z with (52 + -1074)%Z by reflexivity. rewrite bpow_plus. apply Rmult_lt_compat_r; [apply bpow_gt_0|].
      replace (bpow radix2 52) with (IZR (2 ^ 52)) by (apply (IZR_Zpower radix2); lia). apply IZR_lt. exact H2.
Qed.
Print Assumptions C110_integers.

(** The sampler at work: a generator whose numbers are always 0 and 1/2. *)
Definition half_rng : rng unit := Rng unit (fun t lo _ => (lo, t)) (fun t => (/ 2, t)).

Lemma half_rng_ok : rng_ok half_rng.
Proof. split; [intros t lo hi H; cbn; lia|intros t; cbn; lra]. Qed.

(** One update of spin 0 of two spins up. *)
Lemma one_update a b c : boost_ising_sample half_rng 2 [a; b; c] 1 0 1 false tt =
  [if Rlt_dec 0 (2 * a + 2 * c) then if Rlt_dec (exp (- (2 * a + 2 * c))) (/ 2) then [1; 1]%Z else [-1; 1]%Z else [-1; 1]%Z].
Proof.
  unfold boost_ising_sample, cpp_ising_init, half_rng, cpp_generate_sample, cpp_sample_metropolis, pick_all. cbn -[Rlt_dec exp].
  unfold entry, nthR. cbn -[Rlt_dec exp].
  match goal with |- context [Rlt_dec 0 ?d] => replace d with (2 * a + 2 * c) by ring end.
  repeat match goal with |- context [if ?b then _ else _] => destruct b end; reflexivity.
Qed.

Lemma one_bits : decode F64 4607182418800017408 = 1.
Proof.
  unfold decode, b64_of_bits, binary_float_of_bits. rewrite B2R_FF2B.
  replace (binary_float_of_bits_aux 52 11 4607182418800017408) with (F754_finite false 4503599627370496 (-52)) by (vm_compute; reflexivity).
  unfold FF2R, F2R. cbn -[bpow IZR]. replace (bpow radix2 (-52)) with (/ IZR (2 ^ 52)) by (rewrite (IZR_Zpower radix2) by lia; rewrite <- bpow_opp; reflexivity).
  replace (2 ^ 52)%Z with 4503599627370496%Z by reflexivity. apply Rinv_r. apply not_0_IZR. discriminate.
Qed.

Lemma zero_bits : decode F64 0 = 0.
Proof. unfold decode. rewrite denormal_bits by (split; [discriminate|reflexivity]). ring. Qed.

Lemma exp_m2 : exp (-2) < / 2.
Proof.
  replace (-2) with (- (1 + 1)) by ring. rewrite exp_Ropp, exp_plus. apply Rinv_lt_contravar.
  - pose proof (exp_pos 1). nra.
  - pose proof (exp_ineq1 1 ltac:(lra)). nra.
Qed.

Lemma rejected a b c : 2 * a + 2 * c = 2 -> boost_ising_sample half_rng 2 [a; b; c] 1 0 1 false tt = [[1; 1]]%Z.
Proof.
  intros H. rewrite one_update, H. destruct (Rlt_dec 0 2) as [_|N]; [|exfalso; lra].
  destruct (Rlt_dec (exp (- (2))) (/ 2)) as [_|N]; [reflexivity|]. exfalso. apply N. exact exp_m2.
Qed.

Lemma accepted a b c : 2 * a + 2 * c <= / 4 -> boost_ising_sample half_rng 2 [a; b; c] 1 0 1 false tt = [[-1; 1]]%Z.
Proof.
  intros H. rewrite one_update. destruct (Rlt_dec 0 _) as [P|_]; [|reflexivity].
  destruct (Rlt_dec _ (/ 2)) as [N|_]; [|reflexivity]. exfalso.
  pose proof (exp_ineq1 (- (2 * a + 2 * c)) ltac:(intros E; lra)). lra.
Qed.

(** Three parameter vectors stored as the columns of a matrix: the sampler built for one column
    reads the rows of the matrix instead.  The column (0, 1, 0) has no coupling, but the run uses
    the coupling 1; with the same random numbers the samples differ. *)
Theorem C110_strided_refuted : exists h v theta, v_type v = F64 /\ v_len v = 3%nat /\ np_values h v = Ok theta /\
  rng_ok half_rng /\
  mo_sample half_rng h (mo_new 2 v) 1 0 1 false tt <> Ok (boost_ising_sample half_rng 2 theta 1 0 1 false tt) /\
  (exists o, mo_update h (mo_new 2 v) v = Ok o /\
     mo_sample half_rng (fst o) (snd o) 1 0 1 false tt = Ok (boost_ising_sample half_rng 2 theta 1 0 1 false tt)).
Proof.
  exists [[0; 0; 4607182418800017408; 0; 0; 0]%Z], (View 0 0 2 3 F64), [0; 1; 0].
  assert (Hv : np_values [[0; 0; 4607182418800017408; 0; 0; 0]%Z] (View 0 0 2 3 F64) = Ok [0; 1; 0]).
  { unfold np_values. replace (np_words _ _) with (Ok [0; 4607182418800017408; 0]%Z) by reflexivity. cbn [bind map v_type]. rewrite zero_bits, one_bits. reflexivity. }
  split; [reflexivity|]. split; [reflexivity|]. split; [exact Hv|]. split; [apply half_rng_ok|]. split.
  - unfold mo_sample, mo_new. cbn [mo_theta mo_n].
    replace (cpp_read _ _) with (Ok [0; 0; 1]) by (rewrite (cpp_read_words [[0; 0; 4607182418800017408; 0; 0; 0]%Z] (View 0 0 2 3 F64) [0; 0; 4607182418800017408]%Z eq_refl); cbn [map]; rewrite zero_bits, one_bits; reflexivity).
    cbn [bind]. rewrite rejected by lra. rewrite accepted by lra. discriminate.
  - destruct (C110_update unit half_rng [[0; 0; 4607182418800017408; 0; 0; 0]%Z] (mo_new 2 (View 0 0 2 3 F64)) (View 0 0 2 3 F64) [0; 1; 0] eq_refl eq_refl Hv) as (h' & o' & Hu & Hs & _).
    exists (h', o'). split; [exact Hu|]. cbn [fst snd]. rewrite Hs. reflexivity.
Qed.
Print Assumptions C110_strided_refuted.

(** A reversed array (theta[::-1]) is read beyond the end of its buffer, for every size above 1. *)
Theorem C110_reversed_refuted : forall T (g : rng T) n (ws : list Z) n_samples burn_in n_iters systematic t, (2 <= length ws)%nat ->
  let v := View 0 (Z.of_nat (length ws) - 1) (-1) (length ws) F64 in
  np_values [ws] v = Ok (map (decode F64) (rev ws)) /\
  mo_sample g [ws] (mo_new n v) n_samples burn_in n_iters systematic t = Err IndexError.
Proof.
  intros T g n ws ns bi ni sy t Hl v. split.
  - unfold np_values. replace (np_words [ws] v) with (Ok (rev ws)); [reflexivity|]. symmetry. unfold np_words, range, v. cbn [v_buf v_off v_stride v_len].
    rewrite <- (rev_length ws). transitivity (mapM (get (rev ws)) (seq 0 (length (rev ws)))); [|apply mapM_get_all].
    apply mapM_ext_in. intros i Hi. apply in_seq in Hi. rewrite rev_length in *. unfold word_at.
    destruct (Z.ltb_spec (Z.of_nat (length ws) - 1 + Z.of_nat i * -1) 0) as [H|H]; [lia|].
    cbn [get nth_error bind]. unfold get at 1. cbn [nth_error]. cbn [bind]. unfold get.
    destruct ws as [|w0 ws0] eqn:E; [cbn in Hl; lia|]. rewrite <- E in *.
    rewrite (nth_error_nth' ws w0) by lia. rewrite (nth_error_nth' (rev ws) w0) by (rewrite rev_length; lia). rewrite rev_nth by lia.
    f_equal. f_equal. lia.
  - unfold mo_sample, mo_new, cpp_read, v. cbn [mo_theta mo_n v_buf v_off v_len]. destruct ws as [|w0 [|w1 ws]]; cbn [length] in *; try lia.
    unfold range. cbn [seq mapM].
    assert (H1 : exists w, word_at [w0 :: w1 :: ws] 0 (Z.of_nat (S (S (length ws))) - 1 + Z.of_nat 0) = Ok w).
    { unfold word_at. destruct (Z.ltb_spec (Z.of_nat (S (S (length ws))) - 1 + Z.of_nat 0) 0) as [H|H]; [lia|]. cbn [get nth_error bind]. unfold get at 1. cbn [nth_error bind].
      unfold get. destruct (nth_error _ _) as [w|] eqn:E; [eexists; reflexivity|]. exfalso. apply nth_error_None in E. cbn [length] in E. lia. }
    assert (H2 : word_at [w0 :: w1 :: ws] 0 (Z.of_nat (S (S (length ws))) - 1 + Z.of_nat 1) = Err IndexError).
    { unfold word_at. destruct (Z.ltb_spec (Z.of_nat (S (S (length ws))) - 1 + Z.of_nat 1) 0) as [H|H]; [lia|]. unfold get at 1. cbn [nth_error bind].
      unfold get. replace (nth_error _ _) with (@None Z); [reflexivity|]. symmetry. apply nth_error_None. cbn [length]. lia. }
    destruct H1 as [w H1]. rewrite H1. cbn [bind]. rewrite H2. reflexivity.
Qed.
Print Assumptions C110_reversed_refuted.

(** Integer parameters: h = (0, 0), J = 1 as an int64 array.  The energy in Python sees J = 1; the
    C++ run behaves as without a coupling. *)
Theorem C110_integers_refuted : exists h v theta, v_type v = I64 /\ v_stride v = 1%Z /\ v_len v = 3%nat /\ np_values h v = Ok theta /\
  rng_ok half_rng /\
  mo_sample half_rng h (mo_new 2 v) 1 0 1 false tt <> Ok (boost_ising_sample half_rng 2 theta 1 0 1 false tt).
Proof.
  exists [[0; 0; 1]%Z], (View 0 0 1 3 I64), (map IZR [0; 0; 1]%Z).
  destruct (C110_integers unit half_rng [[0; 0; 1]%Z] 2 (View 0 0 1 3 I64) [0; 0; 1]%Z 1 0 1 false tt eq_refl eq_refl eq_refl) as (Hv & Hs & Hb).
  { repeat constructor; try discriminate. }
  split; [reflexivity|]. split; [reflexivity|]. split; [reflexivity|]. split; [exact Hv|]. split; [apply half_rng_ok|].
  rewrite Hs. cbn [map]. rewrite (rejected (IZR 0)) by lra. rewrite accepted; [discriminate|].
  rewrite Forall_forall in Hb. pose proof (Hb 1%Z ltac:(cbn; auto)) as [_ Hlt].
  assert (bpow radix2 (-1022) <= bpow radix2 (-4)) by (apply bpow_le; lia).
  assert (bpow radix2 (-4) = / 16) by reflexivity. lra.
Qed.
Print Assumptions C110_integers_refuted.

(** The constructor keeps the caller's array itself: an assignment to it afterwards changes the
    samples, without any call on the sampler. *)
Theorem C110_alias_refuted : exists h v a w, v_type v = F64 /\ v_stride v = 1%Z /\ v_len v = 3%nat /\ is_ok (np_values h v) /\ rng_ok half_rng /\
  mo_sample half_rng (store h (v_buf v) a w) (mo_new 2 v) 1 0 1 false tt <> mo_sample half_rng h (mo_new 2 v) 1 0 1 false tt.
Proof.
  exists [[0; 0; 0]%Z], (View 0 0 1 3 F64), 2%nat, 4607182418800017408%Z.
  split; [reflexivity|]. split; [reflexivity|]. split; [reflexivity|]. split; [|split; [apply half_rng_ok|]].
  - eexists. reflexivity.
  - assert (H0 : np_values [[0; 0; 0]%Z] (View 0 0 1 3 F64) = Ok [0; 0; 0]).
    { unfold np_values. replace (np_words _ _) with (Ok [0; 0; 0]%Z) by reflexivity. cbn [bind map v_type]. rewrite zero_bits. reflexivity. }
    assert (H1 : np_values (store [[0; 0; 0]%Z] 0 2 4607182418800017408) (View 0 0 1 3 F64) = Ok [0; 0; 1]).
    { unfold np_values. replace (np_words _ _) with (Ok [0; 0; 4607182418800017408]%Z) by reflexivity. cbn [bind map v_type]. rewrite zero_bits, one_bits. reflexivity. }
    cbn [v_buf]. rewrite (C110_contiguous unit half_rng _ 2 (View 0 0 1 3 F64) [0; 0; 0] 1 0 1 false tt eq_refl eq_refl H0).
    rewrite (C110_contiguous unit half_rng _ 2 (View 0 0 1 3 F64) [0; 0; 1] 1 0 1 false tt eq_refl eq_refl H1).
    rewrite rejected by lra. rewrite accepted by lra. discriminate.
Qed.
Print Assumptions C110_alias_refuted.

(** A parameter vector 1, 0, 1 in a buffer of its own, and a sample of two rows. *)
Example C110_example : np_values [[4607182418800017408; 0; 4607182418800017408]%Z] (View 0 0 1 3 F64) = Ok [1; 0; 1] /\
  fetch_sample 2 [[1; -1]; [-1; -1]]%Z = Ok [[1; -1]; [-1; -1]]%Z.
Proof. split; [unfold np_values; replace (np_words _ _) with (Ok [4607182418800017408; 0; 4607182418800017408]%Z) by reflexivity; cbn [bind map v_type]; rewrite zero_bits, one_bits; reflexivity|reflexivity]. Qed.
Print Assumptions C110_example.
