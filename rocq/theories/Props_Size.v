(** * C114: sizes read from parameter vectors with float square roots. *)
From Flocq Require Import Core Mult_error.
From Coq Require Import Lra Lia.
From Verif Require Import Prelude Spec PreludeFacts M_Params M_Models M_Front M_Float M_Size P_Float.
Import ListNotations.
Local Open Scope R_scope.

Lemma int_float (z : Z) : (Z.abs z < 2 ^ 53)%Z -> float64 (IZR z).
Proof.
  intros H. apply generic_format_FLT. exists (Float radix2 z 0); [unfold F2R; cbn; ring|exact H|cbn; lia].
Qed.

(** Subtracting a smaller natural number is exact. *)
Lemma sub_exact s (c : Z) : float64 s -> (0 <= c)%Z -> IZR c <= s -> s < IZR (2 ^ 53) -> float64 (s - IZR c).
Proof.
  intros Hs Hc Hle Hlt. apply FLT_format_generic in Hs; [|reflexivity]. destruct Hs as [[m e] Es Hm He]. cbn [Fnum Fexp] in *.
  destruct (Z.le_gt_cases 0 e) as [E|E].
  - assert (Ei : s = IZR (m * 2 ^ e)) by (rewrite Es; unfold F2R; cbn [Fnum Fexp]; rewrite mult_IZR, (IZR_Zpower radix2) by exact E; reflexivity).
    rewrite Ei, <- minus_IZR. apply int_float. rewrite Ei in Hle, Hlt. apply le_IZR in Hle. apply lt_IZR in Hlt. lia.
  - assert (Ec : IZR c = F2R (Float radix2 (c * 2 ^ (- e)) e)).
    { unfold F2R. cbn [Fnum Fexp]. rewrite mult_IZR, (IZR_Zpower radix2) by lia. rewrite Rmult_assoc, <- bpow_plus. replace (- e + e)%Z with 0%Z by lia. cbn. ring. }
    assert (Ed : s - IZR c = F2R (Float radix2 (m - c * 2 ^ (- e)) e)).
    { rewrite Ec, Es. unfold F2R. cbn [Fnum Fexp]. rewrite minus_IZR. ring. }
    assert (P0 : 0 <= F2R (Float radix2 (m - c * 2 ^ (- e)) e)) by (rewrite <- Ed; lra).
    apply Fnum_ge_0 in P0. cbn [Fnum] in P0. assert (0 <= c * 2 ^ (- e))%Z by (apply Z.mul_nonneg_nonneg; [lia|apply Z.pow_nonneg; lia]).
    apply generic_format_FLT. exists (Float radix2 (m - c * 2 ^ (- e)) e); [exact Ed| |exact He]. cbn [Fnum]. change (Zpower radix2 53) with (2 ^ 53)%Z in *. lia.
Qed.

Lemma half_exact x : float64 x -> x = 0 \/ bpow radix2 (-1000) <= Rabs x -> float64 (x / 2).
Proof.
  intros Hx [-> |Hb]; [replace (0 / 2) with 0 by lra; apply generic_format_0|].
  replace (x / 2) with (x * bpow radix2 (-1)) by (cbn; lra). apply mult_bpow_exact_FLT; [exact Hx|].
  assert (M : (-1000 < mag radix2 x)%Z) by (apply mag_gt_bpow; exact Hb). lia.
Qed.

Lemma rnd_id x : float64 x -> rnd x = x.
Proof. intros H. unfold rnd. apply round_generic; [apply valid_rnd_N|exact H]. Qed.

Lemma rnd_float x : float64 (rnd x).
Proof. unfold rnd, float64. apply generic_format_round; [apply FLT_exp_valid; reflexivity|apply valid_rnd_N]. Qed.

Lemma bpow_m27 : bpow radix2 (-27) = / IZR (2 ^ 27).
Proof. reflexivity. Qed.

(** The float square root lies where the exact one does. *)
Lemma fl_sqrt_spec N : (Z.of_nat N <= 2 ^ 52)%Z ->
  ((Nat.sqrt N * Nat.sqrt N)%nat = N -> fl_sqrt N = INR (Nat.sqrt N)) /\
  ((Nat.sqrt N * Nat.sqrt N)%nat <> N -> INR (Nat.sqrt N) + / IZR (2 ^ 28) < fl_sqrt N < INR (Nat.sqrt N) + 1).
Proof.
  intros HN. pose proof (Nat.sqrt_spec N ltac:(lia)) as [S1 S2]. set (k := Nat.sqrt N) in *. split.
  - intros E. unfold fl_sqrt. rewrite <- E, mult_INR, sqrt_square by apply pos_INR. apply rnd_id. rewrite INR_IZR_INZ. apply int_float. rewrite Z.abs_eq by lia. change (2 ^ 52)%Z with (2 ^ 26 * 2 ^ 26)%Z in HN. change (2 ^ 53)%Z with (2 ^ 26 * 2 ^ 27)%Z. assert (Z.of_nat k * Z.of_nat k = Z.of_nat N)%Z by lia. clear -H HN. nia.
  - intros E. assert (Kz : (Z.of_nat k + 1 <= 2 ^ 26)%Z).
    { apply Z.nlt_ge. intros C. assert (C1 : (2 ^ 26 <= Z.of_nat k)%Z) by lia. apply E. apply Nat2Z.inj. rewrite Nat2Z.inj_mul.
      assert (Z.of_nat k * Z.of_nat k <= Z.of_nat N)%Z by lia. change (2 ^ 52)%Z with (2 ^ 26 * 2 ^ 26)%Z in HN. clear -H HN C1. nia. }
    assert (Kr : INR k + 1 <= IZR (2 ^ 26)) by (rewrite INR_IZR_INZ, <- plus_IZR; now apply IZR_le).
    set (x := sqrt (INR N)). assert (Hx0 : 0 <= INR N) by apply pos_INR.
    assert (Hxx : x * x = INR N) by (apply sqrt_sqrt; exact Hx0). assert (Hxp : 0 <= x) by apply sqrt_pos.
    assert (L1 : INR k * INR k + 1 <= INR N) by (rewrite <- mult_INR, <- S_INR; apply le_INR; lia).
    assert (L2 : INR N + 1 <= (INR k + 1) * (INR k + 1)) by (rewrite <- !S_INR, <- mult_INR; apply le_INR; lia).
    pose proof (pos_INR k) as Hk0.
    assert (X1 : INR k < x) by (apply Rsqr_incrst_0; unfold Rsqr; lra). assert (X2 : x < INR k + 1) by (apply Rsqr_incrst_0; unfold Rsqr; lra).
    assert (B : IZR (2 ^ 26) + IZR (2 ^ 26) = IZR (2 ^ 27)) by (rewrite <- plus_IZR; reflexivity).
    assert (P27 : 0 < IZR (2 ^ 27)) by (apply IZR_lt; reflexivity).
    set (d := / IZR (2 ^ 27)). assert (Hd : d * IZR (2 ^ 27) = 1) by (unfold d; field; lra). assert (Pd : 0 < d) by (now apply Rinv_0_lt_compat).
    assert (D1 : INR k + d < x).
    { apply Rnot_le_lt. intros C. assert (x * x - INR k * INR k >= 1) by lra. assert ((x - INR k) * (x + INR k) >= 1) by lra.
      assert ((x - INR k) * (x + INR k) < d * IZR (2 ^ 27)); [|lra].
      apply Rle_lt_trans with (d * (x + INR k)); [apply Rmult_le_compat_r; lra|apply Rmult_lt_compat_l; lra]. }
    assert (D2 : x + d <= INR k + 1).
    { apply Rnot_lt_le. intros C. assert ((INR k + 1 - x) * (INR k + 1 + x) >= 1) by lra.
      assert ((INR k + 1 - x) * (INR k + 1 + x) < d * IZR (2 ^ 27)); [|lra].
      apply Rlt_le_trans with (d * (INR k + 1 + x)); [apply Rmult_lt_compat_r; lra|apply Rmult_le_compat_l; lra]. }
    assert (V : Valid_exp fexp64) by (apply FLT_exp_valid; reflexivity).
    assert (U : ulp radix2 fexp64 x <= d).
    { unfold d. rewrite <- bpow_m27. rewrite ulp_neq_0 by lra. apply bpow_le. unfold cexp, fexp64, FLT_exp.
      assert (mag radix2 x <= 26)%Z; [|lia]. apply mag_le_bpow; [lra|]. rewrite Rabs_pos_eq by exact Hxp.
      replace (bpow radix2 26) with (IZR (2 ^ 26)) by reflexivity. lra. }
    pose proof (@error_le_half_ulp radix2 fexp64 V (fun z => negb (Z.even z)) x) as He. change (round radix2 fexp64 (Znearest (fun z => negb (Z.even z))) x) with (fl_sqrt N) in He.
    apply Rabs_le_inv in He. assert (H28 : / IZR (2 ^ 28) = d / 2) by (unfold d; replace (2 ^ 28)%Z with (2 ^ 27 * 2)%Z by reflexivity; rewrite mult_IZR; field; lra).
    rewrite H28. lra.
Qed.

Lemma fl_sqrt_bounds N : (Z.of_nat N <= 2 ^ 52)%Z -> INR (Nat.sqrt N) <= fl_sqrt N < INR (Nat.sqrt N) + 1.
Proof.
  intros H. destruct (fl_sqrt_spec N H) as [A B]. destruct (Nat.eq_dec (Nat.sqrt N * Nat.sqrt N) N) as [E|E]; [rewrite (A E); lra|].
  destruct (B E) as [B1 B2]. assert (0 < / IZR (2 ^ 28)) by (apply Rinv_0_lt_compat, IZR_lt; reflexivity). lra.
Qed.

Lemma sqrt_le_26 N : (Z.of_nat N <= 2 ^ 52)%Z -> (Z.of_nat (Nat.sqrt N) <= 2 ^ 26)%Z.
Proof. intros H. pose proof (Nat.sqrt_spec N ltac:(lia)) as [S1 _]. change (2 ^ 52)%Z with (2 ^ 26 * 2 ^ 26)%Z in H. nia. Qed.

Lemma fl_sub N (c : Z) : (Z.of_nat N <= 2 ^ 52)%Z -> (0 <= c <= Z.of_nat (Nat.sqrt N))%Z -> float64 (fl_sqrt N - IZR c).
Proof.
  intros H Hc. destruct (fl_sqrt_bounds N H) as [B1 B2]. pose proof (sqrt_le_26 N H) as K. rewrite INR_IZR_INZ in *. apply sub_exact; [apply rnd_float|lia| |].
  - apply Rle_trans with (IZR (Z.of_nat (Nat.sqrt N))); [apply IZR_le; lia|exact B1].
  - apply Rlt_le_trans with (1 := B2). rewrite <- plus_IZR. apply IZR_le. change (2 ^ 53)%Z with (2 ^ 26 * 2 ^ 27)%Z. lia.
Qed.

(** vec2mat and Ising find the size that exact arithmetic finds, for all vectors of up to 2^49-1
    entries. *)
Theorem C114_vector_size : forall size : nat, (1 + 8 * Z.of_nat size <= 2 ^ 52)%Z -> fl_size size = Z.of_nat (vec2mat_size size).
Proof.
  intros m H. assert (HN : (Z.of_nat (1 + 8 * m) <= 2 ^ 52)%Z) by lia. unfold fl_size, fsub.
  assert (K1 : (1 <= Nat.sqrt (1 + 8 * m))%nat) by (apply (Nat.sqrt_le_mono 1); lia).
  rewrite rnd_id by (apply (fl_sub _ 1); [exact HN|lia]). destruct (fl_sqrt_bounds _ HN) as [B1 B2]. unfold vec2mat_size.
  set (k := Nat.sqrt (1 + 8 * m)) in *. apply Zfloor_imp. rewrite plus_IZR, <- INR_IZR_INZ.
  pose proof (Nat.div_mod (k - 1) 2 ltac:(lia)) as D. pose proof (Nat.mod_upper_bound (k - 1) 2 ltac:(lia)) as M.
  set (q := ((k - 1) / 2)%nat) in *.
  assert (Q1 : 2 * INR q + 1 <= INR k) by (replace (2 * INR q + 1) with (INR (2 * q + 1)) by (rewrite plus_INR, mult_INR; reflexivity); apply le_INR; lia).
  assert (Q2 : INR k <= 2 * INR q + 2) by (replace (2 * INR q + 2) with (INR (2 * q + 2)) by (rewrite plus_INR, mult_INR; reflexivity); apply le_INR; lia).
  lra.
Qed.
Print Assumptions C114_vector_size.

(** So the size of every Ising parameter vector is found: n spins have n(n+1)/2 parameters. *)
Theorem C114_triangular : forall n : nat, (1 + 8 * Z.of_nat (n + n * (n - 1) / 2) <= 2 ^ 52)%Z -> fl_size (n + n * (n - 1) / 2) = Z.of_nat n.
Proof.
  intros n H. rewrite C114_vector_size by exact H. f_equal. unfold vec2mat_size.
  assert (E : (2 * (n * (n - 1) / 2) = n * (n - 1))%nat).
  { destruct n as [|n]; [reflexivity|]. replace (S n - 1)%nat with n by lia. destruct (Nat.Even_or_Odd n) as [[q ->]|[q ->]].
    - replace (S (2 * q) * (2 * q))%nat with ((S (2 * q) * q) * 2)%nat by ring. rewrite Nat.div_mul by lia. ring.
    - replace (S (2 * q + 1) * (2 * q + 1))%nat with (((q + 1) * (2 * q + 1)) * 2)%nat by ring. rewrite Nat.div_mul by lia. ring. }
  replace (1 + 8 * (n + n * (n - 1) / 2))%nat with ((2 * n + 1) * (2 * n + 1))%nat by (destruct n; [reflexivity|]; nia).
  rewrite Nat.sqrt_square. replace (2 * n + 1 - 1)%nat with (n * 2)%nat by lia. now rewrite Nat.div_mul by lia.
Qed.
Print Assumptions C114_triangular.

Lemma INR_odd_half k c q : (k = 2 * q + c)%nat -> (INR k - INR c) / 2 = IZR (Z.of_nat q).
Proof. intros ->. rewrite plus_INR, mult_INR, <- INR_IZR_INZ. cbn [INR]. lra. Qed.

(** An integer value of (s - c) / 2 needs an integer s. *)
Lemma not_integer k c s (z : Z) : IZR k < s < IZR k + 1 -> (s - IZR c) / 2 <> IZR z.
Proof.
  intros H E. assert (Es : s = IZR (2 * z + c)) by (rewrite plus_IZR, mult_IZR; lra). rewrite Es in H. rewrite <- plus_IZR in H.
  destruct H as [H1 H2]. apply lt_IZR in H1. apply lt_IZR in H2. lia.
Qed.

(** The shared part of the two checks [n == int(n)]. *)
Lemma size_check N c (e : exn) n : (Z.of_nat N <= 2 ^ 52)%Z -> (c <= Nat.sqrt N)%nat -> Nat.odd N = true -> Nat.odd c = true -> n = (fl_sqrt N - INR c) / 2 ->
  (if Req_EM_T n (IZR (Ztrunc n)) then Ok (Ztrunc n) else Err e) =
  (if Nat.eqb (Nat.sqrt N * Nat.sqrt N) N then Ok (Z.of_nat ((Nat.sqrt N - c) / 2)) else Err e) /\ (Nat.sqrt N * Nat.sqrt N = N -> Nat.odd (Nat.sqrt N) = true)%nat.
Proof.
  intros HN Hc Ho Hco ->. destruct (fl_sqrt_spec N HN) as [A B]. set (k := Nat.sqrt N) in *.
  assert (Hodd : (k * k = N -> Nat.odd k = true)%nat).
  { intros E. rewrite <- E, Nat.odd_mul in Ho. now apply Bool.andb_true_iff in Ho. }
  split; [|exact Hodd]. destruct (Nat.eqb_spec (k * k) N) as [E|E].
  - rewrite (A E). apply Nat.odd_spec in Hco. destruct Hco as [c' Hc']. specialize (Hodd E). apply Nat.odd_spec in Hodd. destruct Hodd as [k' Hk'].
    rewrite (INR_odd_half k c (k' - c')) by lia. rewrite Ztrunc_IZR. destruct (Req_EM_T _ _) as [_|C]; [|now destruct C].
    f_equal. f_equal. replace (k - c)%nat with ((k' - c') * 2)%nat by lia. now rewrite Nat.div_mul by lia.
  - destruct (B E) as [B1 B2]. assert (0 < / IZR (2 ^ 28)) by (apply Rinv_0_lt_compat, IZR_lt; reflexivity).
    destruct (Req_EM_T _ _) as [C|_]; [|reflexivity]. exfalso. rewrite (INR_IZR_INZ c) in C at 1.
    apply (not_integer (Z.of_nat k) (Z.of_nat c) (fl_sqrt N) _ ltac:(rewrite <- INR_IZR_INZ; lra) C).
Qed.

Lemma big_enough x : / IZR (2 ^ 28) < x -> bpow radix2 (-1000) <= Rabs x.
Proof.
  intros H. assert (P : 0 < / IZR (2 ^ 28)) by (apply Rinv_0_lt_compat, IZR_lt; reflexivity). rewrite Rabs_pos_eq by lra.
  replace (/ IZR (2 ^ 28)) with (bpow radix2 (-28)) in H by reflexivity. assert (bpow radix2 (-1000) <= bpow radix2 (-28)) by (apply bpow_le; lia). lra.
Qed.

Lemma half_sqrt N (c : nat) : (Z.of_nat N <= 2 ^ 52)%Z -> (c <= Nat.sqrt N)%nat -> float64 ((fl_sqrt N - INR c) / 2).
Proof.
  intros HN Hc. apply half_exact.
  - rewrite INR_IZR_INZ. apply fl_sub; [exact HN|lia].
  - destruct (fl_sqrt_spec N HN) as [A B]. destruct (Nat.eq_dec (Nat.sqrt N * Nat.sqrt N) N) as [E|E].
    + rewrite (A E). destruct (Nat.eq_dec c (Nat.sqrt N)) as [Ec|Ec]; [left; rewrite Ec; ring|right]. apply big_enough.
      assert (INR c + 1 <= INR (Nat.sqrt N)) by (rewrite <- S_INR; apply le_INR; lia).
      assert (/ IZR (2 ^ 28) < 1) by (rewrite <- Rinv_1; apply Rinv_lt_contravar; [rewrite Rmult_1_l; apply IZR_lt; reflexivity|apply IZR_lt; reflexivity]). lra.
    + right. apply big_enough. destruct (B E) as [B1 _]. apply le_INR in Hc. lra.
Qed.

Lemma odd_1_8 m c : Nat.odd c = true -> Nat.odd (c + 8 * m) = true.
Proof. intros H. rewrite Nat.odd_add, H, Nat.odd_mul. reflexivity. Qed.

(** sample_ising accepts exactly the lengths of Ising parameter vectors, and reads the right
    size from them. *)
Theorem C114_sample_ising_size : forall L : nat, (1 + 8 * Z.of_nat L <= 2 ^ 52)%Z ->
  fl_ising_size L = match ising_size L with Ok n => Ok (Z.of_nat n) | Err e => Err e end.
Proof.
  intros L H. assert (HN : (Z.of_nat (1 + 8 * L) <= 2 ^ 52)%Z) by lia. assert (K1 : (1 <= Nat.sqrt (1 + 8 * L))%nat) by (apply (Nat.sqrt_le_mono 1); lia).
  unfold fl_ising_size, ising_size. cbv zeta.
  assert (En : fmul (/ 2) (fadd (-1) (fl_sqrt (1 + 8 * L))) = (fl_sqrt (1 + 8 * L) - INR 1) / 2).
  { unfold fadd. replace (-1 + fl_sqrt (1 + 8 * L)) with (fl_sqrt (1 + 8 * L) - IZR 1) by lra.
    rewrite (rnd_id (_ - IZR 1)) by (apply fl_sub; [exact HN|lia]). unfold fmul.
    replace (/ 2 * (fl_sqrt (1 + 8 * L) - IZR 1)) with ((fl_sqrt (1 + 8 * L) - INR 1) / 2) by (cbn [INR]; lra). apply rnd_id. now apply half_sqrt. }
  rewrite En. destruct (size_check (1 + 8 * L) 1 AssertionError _ HN K1 (odd_1_8 L 1 eq_refl) eq_refl eq_refl) as [E _]. rewrite E.
  destruct (Nat.eqb _ _); reflexivity.
Qed.
Print Assumptions C114_sample_ising_size.

(** Potts3 accepts the vectors that exact arithmetic accepts, with the same size. *)
Theorem C114_potts3_size : forall have (v : list R), (25 + 8 * Z.of_nat (length v) <= 2 ^ 52)%Z ->
  match fl_potts3_size (length v) with
  | Ok n => exists o, potts3_new have (MVec v) = Ok o /\ Z.of_nat (m_n o) = n
  | Err e => potts3_new have (MVec v) = Err e
  end.
Proof.
  intros have v H. set (L := length v) in *. assert (HN : (Z.of_nat (25 + 8 * L) <= 2 ^ 52)%Z) by lia.
  assert (K1 : (5 <= Nat.sqrt (25 + 8 * L))%nat) by (apply (Nat.sqrt_le_mono 25); lia). unfold fl_potts3_size. cbv zeta.
  assert (En : rnd (fsub (fl_sqrt (25 + 8 * L)) 5 / 2) = (fl_sqrt (25 + 8 * L) - INR 5) / 2).
  { unfold fsub. rewrite (rnd_id (_ - 5)) by (apply (fl_sub _ 5); [exact HN|lia]).
    replace (fl_sqrt (25 + 8 * L) - 5) with (fl_sqrt (25 + 8 * L) - INR 5) by (cbn [INR]; lra). apply rnd_id. now apply half_sqrt. }
  rewrite En. destruct (size_check (25 + 8 * L) 5 AssertionError _ HN K1 (odd_1_8 L 25 eq_refl) eq_refl eq_refl) as [E Ho]. rewrite E.
  unfold potts3_new. fold L. cbv zeta. destruct (Nat.eqb_spec (Nat.sqrt (25 + 8 * L) * Nat.sqrt (25 + 8 * L)) (25 + 8 * L)) as [Eq|]; [|reflexivity].
  specialize (Ho Eq). apply Nat.odd_spec in Ho. destruct Ho as [q Hq].
  replace (Nat.eqb ((Nat.sqrt (25 + 8 * L) - 5) mod 2) 0) with true.
  - cbn [andb bind fst snd]. eexists. split; [reflexivity|]. unfold set_multipliers. cbn. reflexivity.
  - symmetry. apply Nat.eqb_eq. replace (Nat.sqrt (25 + 8 * L) - 5)%nat with ((q - 2) * 2)%nat by lia. apply Nat.mod_mul. lia.
Qed.
Print Assumptions C114_potts3_size.

(** scipy's squareform finds the size that exact arithmetic finds. *)
Theorem C114_squareform_size : forall L : nat, (2 * Z.of_nat L <= 2 ^ 52)%Z -> fl_squareform_size L = Z.of_nat (ceil_sqrt (2 * L)).
Proof.
  intros L H. assert (HN : (Z.of_nat (2 * L) <= 2 ^ 52)%Z) by lia. unfold fl_squareform_size, ceil_sqrt.
  destruct (fl_sqrt_spec _ HN) as [A B]. set (k := Nat.sqrt (2 * L)) in *. destruct (Nat.eqb_spec (k * k) (2 * L)) as [E|E].
  - rewrite (A E), INR_IZR_INZ. apply Zceil_IZR.
  - destruct (B E) as [B1 B2]. assert (0 < / IZR (2 ^ 28)) by (apply Rinv_0_lt_compat, IZR_lt; reflexivity). apply Zceil_imp.
    replace (Z.of_nat (k + 1) - 1)%Z with (Z.of_nat k) by lia. rewrite Nat2Z.inj_add, plus_IZR, <- INR_IZR_INZ. cbn [Z.of_nat Pos.of_succ_nat]. lra.
Qed.
Print Assumptions C114_squareform_size.

(** 55 parameters belong to 10 spins; 56 are refused by sample_ising; ten million spins are
    within the bound. *)
Example C114_example : fl_size 55 = 10%Z /\ fl_ising_size 55 = Ok 10%Z /\ fl_ising_size 56 = Err AssertionError /\
  (1 + 8 * (10 ^ 7 + 10 ^ 7 * (10 ^ 7 - 1) / 2) <= 2 ^ 52)%Z.
Proof.
  split; [rewrite C114_vector_size by lia; reflexivity|]. split; [rewrite C114_sample_ising_size by lia; reflexivity|].
  split; [rewrite C114_sample_ising_size by lia; reflexivity|]. vm_compute. discriminate.
Qed.
Print Assumptions C114_example.
