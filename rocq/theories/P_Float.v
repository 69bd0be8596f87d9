(** * Rounding errors of sums, of the Ising energy and of energy differences *)
From Coq Require Import Permutation.
From Flocq Require Import Core Plus_error Relative.
From Verif Require Import Prelude Spec PreludeFacts M_Index M_Energy M_Sampler P_Index P_Energy P_Energy2 P_Cpp M_Float.
Import ListNotations.
Local Open Scope R_scope.

(** Half the distance of 1 to the next float. *)
Definition u64 : R := / 2 ^ 53.

Lemma u64_pos : 0 < u64. Proof. unfold u64. apply Rinv_0_lt_compat, pow_lt. lra. Qed.
Lemma u64_small : u64 <= / 64.
Proof. unfold u64. apply Rinv_le_contravar; [lra|]. replace 64 with (2 ^ 6) by ring. apply Rle_pow; [lra|lia]. Qed.

Lemma u64_ro : u_ro radix2 53 = u64.
Proof.
  unfold u_ro, u64. replace (-(53) + 1)%Z with (- (52))%Z by reflexivity. rewrite bpow_opp. replace (bpow radix2 52) with (2 ^ 52).
  - replace (2 ^ 53) with (2 * 2 ^ 52) by ring. field.
  - rewrite (pow_IZR 2 52), <- IZR_Zpower by lia. reflexivity.
Qed.

Lemma rnd_float x : float64 (rnd x).
Proof. apply generic_format_round; [apply FLT_exp_valid; reflexivity|apply valid_rnd_N]. Qed.
Lemma rnd_id x : float64 x -> rnd x = x.
Proof. intros H. apply round_generic; [apply valid_rnd_N|exact H]. Qed.
Lemma float_0 : float64 0. Proof. apply generic_format_0. Qed.
Lemma float_opp x : float64 x -> float64 (- x). Proof. apply generic_format_opp. Qed.
Lemma rnd_opp x : rnd (- x) = - rnd x. Proof. apply round_NE_opp. Qed.

Lemma float_double x : float64 x -> float64 (2 * x).
Proof.
  intros H. apply FLT_format_generic in H; [|reflexivity]. destruct H as [f H1 H2 H3]. apply generic_format_FLT.
  exists (Float radix2 (Fnum f) (Fexp f + 1)); cbn [Fnum Fexp]; [|assumption|lia].
  rewrite H1. unfold F2R. cbn [Fnum Fexp]. rewrite bpow_plus. replace (bpow radix2 1) with 2 by reflexivity. ring.
Qed.

(** Numbers with at most 53 binary digits above 2^e are floats. *)
Lemma float_grid (e m : Z) : (-1074 <= e)%Z -> (Z.abs m <= 2 ^ 53)%Z -> float64 (IZR m * bpow radix2 e).
Proof.
  intros He Hm. destruct (Z.eq_dec (Z.abs m) (2 ^ 53)) as [E|E].
  - apply generic_format_FLT. exists (Float radix2 (Z.sgn m) (e + 53)); cbn [Fnum Fexp]; [|cbn; destruct m; reflexivity|lia].
    unfold F2R. cbn [Fnum Fexp]. rewrite bpow_plus. replace (IZR m) with (IZR (Z.sgn m) * bpow radix2 53); [ring|].
    rewrite <- IZR_Zpower by lia. rewrite <- mult_IZR. f_equal. change (radix2 ^ 53)%Z with (2 ^ 53)%Z. rewrite <- E, Z.mul_comm. apply Z.abs_sgn.
  - apply generic_format_FLT. exists (Float radix2 m e); cbn [Fnum Fexp]; [reflexivity| |assumption]. change (radix2 ^ 53)%Z with (2 ^ 53)%Z. lia.
Qed.

Lemma prec53 : Prec_gt_0 53. Proof. unfold Prec_gt_0. lia. Qed.

Lemma fadd_error x y : float64 x -> float64 y -> Rabs (fadd x y - (x + y)) <= u64 * Rabs (x + y).
Proof.
  intros Hx Hy. destruct (@FLT_plus_error_N_ex radix2 (-1074) 53 prec53 (fun x => negb (Z.even x)) x y Hx Hy) as (eps & He & E).
  unfold fadd, rnd, fexp64. rewrite E. replace ((x + y) * (1 + eps) - (x + y)) with (eps * (x + y)) by ring. rewrite Rabs_mult.
  apply Rmult_le_compat_r; [apply Rabs_pos|]. eapply Rle_trans; [exact He|]. rewrite u64_ro. assert (P := u64_pos).
  apply (Rmult_le_reg_r (1 + u64)); [lra|]. unfold Rdiv. rewrite Rmult_assoc, Rinv_l by lra. nra.
Qed.

Lemma fsub_fadd x y : fsub x y = fadd x (- y). Proof. reflexivity. Qed.

Lemma fsub_error x y : float64 x -> float64 y -> Rabs (fsub x y - (x - y)) <= u64 * Rabs (x - y).
Proof. intros Hx Hy. apply (fadd_error x (- y)); [assumption|now apply float_opp]. Qed.

(** Products with -1, 0 and 1 are not rounded. *)
Lemma fmul_unit x s : float64 x -> s = -1 \/ s = 0 \/ s = 1 -> fmul x s = x * s /\ float64 (x * s).
Proof.
  intros Hx Hs. assert (F : float64 (x * s)).
  { destruct Hs as [-> |[-> | ->]].
    - replace (x * -1) with (- x) by ring. now apply float_opp.
    - rewrite Rmult_0_r. apply float_0.
    - now rewrite Rmult_1_r. }
  split; [|assumption]. now apply rnd_id.
Qed.

Lemma fmul_comm x y : fmul x y = fmul y x. Proof. unfold fmul. now rewrite Rmult_comm. Qed.

(** ** Summation trees *)
Fixpoint depth (t : sum_tree) : nat := match t with Leaf _ => 0 | Node l r => S (Nat.max (depth l) (depth r)) end.

Lemma leaves_pos t : (0 < length (leaves t))%nat.
Proof. induction t as [x|l IHl r IHr]; cbn [leaves length]; [lia|]. rewrite app_length. lia. Qed.

Lemma depth_leaves t : (depth t < length (leaves t))%nat.
Proof. induction t as [x|l IHl r IHr]; cbn [leaves depth length]; [lia|]. rewrite app_length. assert (A := leaves_pos l). assert (B := leaves_pos r). lia. Qed.

Lemma tree_float t : Forall float64 (leaves t) -> float64 (tree_sum t).
Proof. destruct t as [x|l r]; cbn [leaves tree_sum]; intros H; [now apply Forall_inv in H|apply rnd_float]. Qed.

Lemma sumR_app a b : sumR (a ++ b) = sumR a + sumR b. Proof. apply sumf_app. Qed.

Lemma grow_le a b : (a <= b)%nat -> (1 + u64) ^ a <= (1 + u64) ^ b.
Proof. intros H. apply Rle_pow; [|assumption]. assert (P := u64_pos). lra. Qed.

Lemma tree_error t : Forall float64 (leaves t) ->
  Rabs (tree_sum t - sumR (leaves t)) <= ((1 + u64) ^ depth t - 1) * sumf (leaves t) Rabs.
Proof.
  induction t as [x|l IHl r IHr]; intros H.
  - cbn. replace (x - (x + 0)) with 0 by ring. rewrite Rabs_R0. lra.
  - cbn [leaves tree_sum depth]. cbn [leaves] in H. apply Forall_app in H. destruct H as [Hl Hr].
    assert (A := fadd_error _ _ (tree_float l Hl) (tree_float r Hr)). specialize (IHl Hl). specialize (IHr Hr).
    rewrite sumR_app, sumf_app. set (a := tree_sum l) in *. set (b := tree_sum r) in *.
    set (sa := sumR (leaves l)) in *. set (sb := sumR (leaves r)) in *. set (ma := sumf (leaves l) Rabs) in *. set (mb := sumf (leaves r) Rabs) in *.
    set (d := Nat.max (depth l) (depth r)). assert (U := u64_pos).
    assert (Qa : Rabs sa <= ma) by (apply sumf_abs_le). assert (Qb : Rabs sb <= mb) by (apply sumf_abs_le).
    assert (Ka := grow_le (depth l) d ltac:(unfold d; lia)). assert (Kb := grow_le (depth r) d ltac:(unfold d; lia)).
    assert (Pa : 0 <= ma) by (apply sumf_nonneg; intros; apply Rabs_pos). assert (Pb : 0 <= mb) by (apply sumf_nonneg; intros; apply Rabs_pos).
    cbn [pow]. set (g := (1 + u64) ^ d) in *.
    assert (Ia : Rabs (a - sa) <= (g - 1) * ma) by (eapply Rle_trans; [exact IHl|]; apply Rmult_le_compat_r; lra).
    assert (Ib : Rabs (b - sb) <= (g - 1) * mb) by (eapply Rle_trans; [exact IHr|]; apply Rmult_le_compat_r; lra).
    assert (S1 : Rabs (a + b) <= g * (ma + mb)).
    { replace (a + b) with ((a - sa) + (b - sb) + (sa + sb)) by ring. eapply Rle_trans; [apply Rabs_triang|].
      assert (T1 := Rabs_triang (a - sa) (b - sb)). assert (T2 := Rabs_triang sa sb). lra. }
    replace (fadd a b - (sa + sb)) with ((fadd a b - (a + b)) + ((a - sa) + (b - sb))) by ring.
    eapply Rle_trans; [apply Rabs_triang|]. assert (T1 := Rabs_triang (a - sa) (b - sb)).
    assert (u64 * Rabs (a + b) <= u64 * (g * (ma + mb))) by (apply Rmult_le_compat_l; lra). lra.
Qed.

(** Sums of few enough multiples of a power of two are not rounded at all. *)
Definition on_grid (e : Z) (x : R) : Prop := exists m, x = IZR m * bpow radix2 e.

Lemma grid_float e x : (-1074 <= e)%Z -> on_grid e x -> Rabs x <= bpow radix2 (53 + e) -> float64 x.
Proof.
  intros He [m ->] Hx. apply float_grid; [assumption|]. rewrite Rabs_mult, (Rabs_pos_eq (bpow _ _)), bpow_plus in Hx by apply bpow_ge_0.
  apply Rmult_le_reg_r in Hx; [|apply bpow_gt_0]. rewrite <- abs_IZR, <- IZR_Zpower in Hx by lia. now apply le_IZR in Hx.
Qed.

Lemma grid_plus e x y : on_grid e x -> on_grid e y -> on_grid e (x + y).
Proof. intros [a ->] [b ->]. exists (a + b)%Z. rewrite plus_IZR. ring. Qed.
Lemma grid_opp e x : on_grid e x -> on_grid e (- x).
Proof. intros [a ->]. exists (- a)%Z. rewrite opp_IZR. ring. Qed.
Lemma grid_0 e : on_grid e 0. Proof. exists 0%Z. ring. Qed.

Lemma tree_exact e t : (-1074 <= e)%Z -> Forall (on_grid e) (leaves t) -> sumf (leaves t) Rabs <= bpow radix2 (53 + e) ->
  tree_sum t = sumR (leaves t) /\ on_grid e (sumR (leaves t)).
Proof.
  intros He. induction t as [x|l IHl r IHr]; intros H Hs.
  - cbn. rewrite Rplus_0_r. split; [reflexivity|]. now apply Forall_inv in H.
  - cbn [leaves tree_sum] in *. apply Forall_app in H. destruct H as [Hl Hr]. rewrite sumf_app in Hs.
    assert (Pa : 0 <= sumf (leaves l) Rabs) by (apply sumf_nonneg; intros; apply Rabs_pos). assert (Pb : 0 <= sumf (leaves r) Rabs) by (apply sumf_nonneg; intros; apply Rabs_pos).
    destruct (IHl Hl ltac:(lra)) as [-> Gl]. destruct (IHr Hr ltac:(lra)) as [-> Gr]. rewrite sumR_app.
    assert (G := grid_plus _ _ _ Gl Gr). split; [|assumption]. unfold fadd. apply rnd_id. apply (grid_float e); [assumption|assumption|].
    eapply Rle_trans; [apply Rabs_triang|]. assert (A : Rabs (sumR (leaves l)) <= sumf (leaves l) Rabs) by (apply sumf_abs_le). assert (B : Rabs (sumR (leaves r)) <= sumf (leaves r) Rabs) by (apply sumf_abs_le). lra.
Qed.

(** ** Sequential sums *)
Definition comb (t : sum_tree) (xs : list R) : sum_tree := fold_left (fun t x => Node t (Leaf x)) xs t.

Lemma comb_sum xs : forall t, tree_sum (comb t xs) = fold_left fadd xs (tree_sum t).
Proof. induction xs as [|x xs IH]; intros t; [reflexivity|]. unfold comb in *. cbn [fold_left]. now rewrite IH. Qed.
Lemma comb_leaves xs : forall t, leaves (comb t xs) = leaves t ++ xs.
Proof. induction xs as [|x xs IH]; intros t; [now rewrite app_nil_r|]. unfold comb in *. cbn [fold_left]. rewrite IH. cbn [leaves]. now rewrite <- app_assoc. Qed.
Lemma comb_depth xs : forall t, depth (comb t xs) = (depth t + length xs)%nat.
Proof. induction xs as [|x xs IH]; intros t; [cbn; lia|]. unfold comb in *. cbn [fold_left]. rewrite IH. cbn [depth length]. lia. Qed.

Fixpoint neg (t : sum_tree) : sum_tree := match t with Leaf x => Leaf (- x) | Node l r => Node (neg l) (neg r) end.
Lemma neg_sum t : tree_sum (neg t) = - tree_sum t.
Proof. induction t as [x|l IHl r IHr]; cbn [neg tree_sum]; [reflexivity|]. rewrite IHl, IHr. unfold fadd. rewrite <- rnd_opp. f_equal. ring. Qed.
Lemma neg_leaves t : leaves (neg t) = map Ropp (leaves t).
Proof. induction t as [x|l IHl r IHr]; cbn [neg leaves map]; [reflexivity|]. now rewrite IHl, IHr, map_app. Qed.
Lemma neg_depth t : depth (neg t) = depth t.
Proof. induction t as [x|l IHl r IHr]; cbn [neg depth]; congruence. Qed.

Lemma fold_counter {A} (f : R -> R -> R) (g : nat -> A -> R) l : forall e k,
  fold_left (fun st p => let '(e, k) := st in (f e (g k p), (k + 1)%nat)) l (e, k) =
  (fold_left f (map (fun q => g (fst q) (snd q)) (combine (seq k (length l)) l)) e, (k + length l)%nat).
Proof.
  induction l as [|a l IH]; intros e k; [cbn; f_equal; lia|]. cbn [fold_left length seq combine map fst snd]. rewrite IH.
  replace (k + 1)%nat with (S k) by lia. f_equal. lia.
Qed.

Lemma fold_plus xs : forall e, fold_left Rplus xs e = e + sumR xs.
Proof. induction xs as [|x xs IH]; intros e; cbn [fold_left]; [unfold sumR; cbn; ring|]. rewrite IH. unfold sumR. rewrite sumf_cons. ring. Qed.

(** ** The energy *)
Definition unit_spins (s : list R) : Prop := Forall (fun x => x = -1 \/ x = 0 \/ x = 1) s.

Lemma unit_nth s i : unit_spins s -> nthR s i = -1 \/ nthR s i = 0 \/ nthR s i = 1.
Proof.
  intros H. unfold nthR. destruct (Nat.lt_ge_cases i (length s)) as [L|L].
  - unfold unit_spins in H. rewrite Forall_forall in H. apply H. now apply nth_In.
  - rewrite nth_overflow by assumption. tauto.
Qed.
Lemma unit_abs x : x = -1 \/ x = 0 \/ x = 1 -> Rabs x <= 1.
Proof. intros [-> |[-> | ->]]; apply Rabs_le; lra. Qed.

Definition j_terms (J s : list R) : list R :=
  map (fun q => nthR J (fst q) * nthR s (fst (snd q)) * nthR s (snd (snd q))) (combine (seq 0 (length (loop_ij (length s)))) (loop_ij (length s))).
Definition h_terms (h s : list R) : list R := map (fun p => fst p * snd p) (combine s h).

Lemma nth_float l i : Forall float64 l -> float64 (nthR l i).
Proof.
  intros H. unfold nthR. destruct (Nat.lt_ge_cases i (length l)) as [L|L].
  - rewrite Forall_forall in H. apply H. now apply nth_In.
  - rewrite nth_overflow by assumption. apply float_0.
Qed.

Lemma fl_fast_sum_tree J s : Forall float64 J -> unit_spins s -> fl_fast_sum J s = tree_sum (comb (Leaf 0) (j_terms J s)).
Proof.
  intros HJ Hs. unfold fl_fast_sum.
  rewrite (fold_counter fadd (fun k p => fmul (fmul (nthR J k) (nthR s (fst p))) (nthR s (snd p)))). cbn [fst]. rewrite comb_sum. cbn [tree_sum].
  f_equal. unfold j_terms. apply map_ext. intros [k [i j]]. cbn [fst snd].
  destruct (fmul_unit (nthR J k) (nthR s i) (nth_float J k HJ) (unit_nth s i Hs)) as [-> F]. now apply fmul_unit; [|apply unit_nth].
Qed.

Lemma j_terms_sum J s : sumR (j_terms J s) = fast_sum_row J s.
Proof.
  unfold fast_sum_row. rewrite (fold_counter Rplus (fun k p => nthR J k * nthR s (fst p) * nthR s (snd p))). cbn [fst]. rewrite fold_plus. unfold j_terms. ring.
Qed.

Lemma loop_length n : length (loop_ij n) = (n * (n - 1) / 2)%nat.
Proof. rewrite loop_ij_pairs. apply pairs_seq_length. Qed.

Lemma combine_seq_fst {A} (l : list A) (f : nat -> R) : forall k, sumf (combine (seq k (length l)) l) (fun q => f (fst q)) = sumf (seq k (length l)) f.
Proof. induction l as [|a l IH]; intros k; [reflexivity|]. cbn [length seq combine]. rewrite !sumf_cons. cbn [fst]. now rewrite IH. Qed.

Lemma j_terms_abs J s : unit_spins s -> length J = (length s * (length s - 1) / 2)%nat -> sumf (j_terms J s) Rabs <= sumf J Rabs.
Proof.
  intros Hs HJ. unfold j_terms. rewrite sumf_map.
  apply Rle_trans with (sumf (combine (seq 0 (length (loop_ij (length s)))) (loop_ij (length s))) (fun q => Rabs (nthR J (fst q)))).
  - apply sumf_le. intros [k [i j]] _. cbn [fst snd]. rewrite !Rabs_mult. assert (A := Rabs_pos (nthR J k)). assert (B := Rabs_pos (nthR s i)). assert (C := Rabs_pos (nthR s j)).
    assert (B1 := unit_abs _ (unit_nth s i Hs)). assert (C1 := unit_abs _ (unit_nth s j Hs)). rewrite Rmult_assoc. rewrite <- (Rmult_1_r (Rabs (nthR J k))) at 2. apply Rmult_le_compat_l; [assumption|]. nra.
  - rewrite (combine_seq_fst (loop_ij (length s)) (fun k => Rabs (nthR J k)) 0). rewrite loop_length, <- HJ. unfold nthR. rewrite (sumf_seq_nth 0 J Rabs). lra.
Qed.

Lemma j_terms_Forall (P : R -> Prop) J s : (forall x y, P x -> y = -1 \/ y = 0 \/ y = 1 -> P (x * y)) -> P 0 -> Forall P J -> unit_spins s -> Forall P (j_terms J s).
Proof.
  intros HP P0 HJ Hs. unfold j_terms. apply Forall_forall. intros x Hx. apply in_map_iff in Hx. destruct Hx as ([k [i j]] & <- & _). cbn [fst snd].
  apply HP; [apply HP|]; try now apply unit_nth. unfold nthR. destruct (Nat.lt_ge_cases k (length J)) as [L|L]; [|now rewrite nth_overflow].
  rewrite Forall_forall in HJ. apply HJ. now apply nth_In.
Qed.

Lemma h_terms_Forall (P : R -> Prop) h s : (forall x y, P x -> y = -1 \/ y = 0 \/ y = 1 -> P (y * x)) -> Forall P h -> unit_spins s -> Forall P (h_terms h s).
Proof.
  intros HP Hh Hs. unfold h_terms. apply Forall_forall. intros x Hx. apply in_map_iff in Hx. destruct Hx as ([a b] & <- & Hin). cbn [fst snd].
  unfold unit_spins in Hs. rewrite Forall_forall in Hh, Hs. apply HP; [apply Hh; now apply in_combine_r in Hin|apply Hs; now apply in_combine_l in Hin].
Qed.

Lemma h_terms_abs h : forall s, unit_spins s -> sumf (h_terms h s) Rabs <= sumf h Rabs.
Proof.
  induction h as [|a h IH]; intros [|x s] Hs; unfold h_terms in *; cbn [combine map].
  - cbn. lra.
  - cbn. lra.
  - apply sumf_nonneg. intros; apply Rabs_pos.
  - apply Forall_cons_iff in Hs. destruct Hs as [Hx Hs]. rewrite !sumf_cons. cbn [fst snd]. specialize (IH s Hs). rewrite Rabs_mult.
    assert (A := unit_abs _ Hx). assert (B := Rabs_pos a). nra.
Qed.

(** An order of np.sum. *)
Definition sum_order (order : list R -> sum_tree) : Prop := forall l, l <> [] -> Permutation (leaves (order l)) l.

Definition e_tree (order : list R -> sum_tree) (s params : list R) : sum_tree :=
  let n := length s in Node (neg (comb (Leaf 0) (j_terms (skipn n params) s))) (neg (order (h_terms (firstn n params) s))).

Lemma fl_calc_e_tree order s params : Forall float64 params -> unit_spins s -> fl_calc_e order s params = tree_sum (e_tree order s params).
Proof.
  intros Hp Hs. unfold fl_calc_e, e_tree. cbn [tree_sum]. rewrite !neg_sum.
  rewrite fl_fast_sum_tree; [|rewrite <- (firstn_skipn (length s) params) in Hp; now apply Forall_app in Hp|assumption]. unfold fsub, fadd. f_equal. unfold Rminus. f_equal. f_equal. f_equal. f_equal.
  unfold h_terms. apply map_ext_in. intros [x p] Hin. cbn [fst snd]. rewrite fmul_comm, Rmult_comm. apply fmul_unit.
  - apply in_combine_r in Hin. assert (In p params) by (rewrite <- (firstn_skipn (length s) params); apply in_or_app; now left). rewrite Forall_forall in Hp. now apply Hp.
  - apply in_combine_l in Hin. unfold unit_spins in Hs. rewrite Forall_forall in Hs. now apply Hs.
Qed.

Lemma sumf_map_opp l : sumf (map Ropp l) Rabs = sumf l Rabs.
Proof. rewrite sumf_map. apply sumf_ext. intros a. apply Rabs_Ropp. Qed.
Lemma sumR_map_opp l : sumR (map Ropp l) = - sumR l.
Proof. unfold sumR. rewrite sumf_map. apply sumf_opp. Qed.

Lemma h_terms_ne h s : length h = length s -> s <> [] -> h_terms h s <> [].
Proof. destruct s, h; cbn; intros; congruence || discriminate. Qed.

Lemma e_tree_leaves order s params : sum_order order -> s <> [] -> length params = (length s + length s * (length s - 1) / 2)%nat ->
  Permutation (leaves (e_tree order s params)) (map Ropp (0 :: j_terms (skipn (length s) params) s ++ h_terms (firstn (length s) params) s)).
Proof.
  intros Ho Hs Hp. unfold e_tree. cbn [leaves]. rewrite !neg_leaves, comb_leaves. cbn [leaves app]. rewrite <- map_app. apply Permutation_map. cbn [app].
  apply perm_skip. apply Permutation_app_head. apply Ho. apply h_terms_ne; [rewrite firstn_length; lia|assumption].
Qed.

Lemma e_tree_sum order s params : sum_order order -> s <> [] -> length params = (length s + length s * (length s - 1) / 2)%nat ->
  sumR (leaves (e_tree order s params)) = ising_calc_e_row s params.
Proof.
  intros Ho Hs Hp. unfold sumR. rewrite (sumf_perm _ _ _ (e_tree_leaves order s params Ho Hs Hp)). fold (sumR (map Ropp (0 :: j_terms (skipn (length s) params) s ++ h_terms (firstn (length s) params) s))).
  rewrite sumR_map_opp. unfold sumR at 1. rewrite sumf_cons, sumf_app. fold (sumR (j_terms (skipn (length s) params) s)). rewrite j_terms_sum.
  unfold ising_calc_e_row, h_terms, sumR. ring.
Qed.

Lemma sumf_abs_split n (params : list R) : sumf params Rabs = sumf (firstn n params) Rabs + sumf (skipn n params) Rabs.
Proof. rewrite <- sumf_app. now rewrite firstn_skipn. Qed.

Lemma e_tree_abs order s params : sum_order order -> s <> [] -> unit_spins s -> length params = (length s + length s * (length s - 1) / 2)%nat ->
  sumf (leaves (e_tree order s params)) Rabs <= sumf params Rabs.
Proof.
  intros Ho Hs Hu Hp. rewrite (sumf_perm _ _ _ (e_tree_leaves order s params Ho Hs Hp)), sumf_map_opp, sumf_cons, sumf_app, Rabs_R0, (sumf_abs_split (length s) params).
  assert (A := j_terms_abs (skipn (length s) params) s Hu ltac:(rewrite skipn_length; lia)). assert (B := h_terms_abs (firstn (length s) params) s Hu). lra.
Qed.

Lemma e_tree_Forall (P : R -> Prop) order s params : P 0 -> (forall x, P x -> P (- x)) -> Forall P params ->
  sum_order order -> s <> [] -> unit_spins s -> length params = (length s + length s * (length s - 1) / 2)%nat ->
  Forall P (leaves (e_tree order s params)).
Proof.
  intros P0 PO HP Ho Hs Hu Hp.
  assert (U : forall x y, P x -> y = -1 \/ y = 0 \/ y = 1 -> P (x * y)).
  { intros x y Hx [-> |[-> | ->]]; [replace (x * -1) with (- x) by ring; auto|now rewrite Rmult_0_r|now rewrite Rmult_1_r]. }
  apply (Permutation_Forall (Permutation_sym (e_tree_leaves order s params Ho Hs Hp))). apply Forall_map. constructor; [auto|]. 
  apply Forall_impl with (P := P); [auto|]. apply Forall_app. split.
  - apply j_terms_Forall; try assumption. rewrite <- (firstn_skipn (length s) params) in HP. now apply Forall_app in HP.
  - apply h_terms_Forall; try assumption; [intros x y Hx Hy; rewrite Rmult_comm; auto|]. rewrite <- (firstn_skipn (length s) params) in HP. now apply Forall_app in HP.
Qed.

Lemma e_tree_depth order s params : sum_order order -> s <> [] -> length params = (length s + length s * (length s - 1) / 2)%nat ->
  (depth (e_tree order s params) <= length params)%nat.
Proof.
  intros Ho Hs Hp. unfold e_tree. cbn [depth]. rewrite !neg_depth, comb_depth. cbn [depth].
  assert (L : (0 < length s)%nat) by (destruct s; [easy|cbn; lia]).
  assert (D := depth_leaves (order (h_terms (firstn (length s) params) s))).
  rewrite (Permutation_length (Ho _ (h_terms_ne (firstn (length s) params) s ltac:(rewrite firstn_length; lia) Hs))) in D.
  unfold h_terms in D at 2. rewrite map_length, combine_length, firstn_length in D. unfold j_terms. rewrite map_length, combine_length, seq_length, loop_length. lia.
Qed.

Lemma fl_energy_error order s params : sum_order order -> s <> [] -> unit_spins s -> Forall float64 params -> length params = (length s + length s * (length s - 1) / 2)%nat ->
  Rabs (fl_calc_e order s params - ising_calc_e_row s params) <= ((1 + u64) ^ length params - 1) * sumf params Rabs.
Proof.
  intros Ho Hs Hu Hf Hp. rewrite fl_calc_e_tree by assumption. rewrite <- (e_tree_sum order s params Ho Hs Hp).
  eapply Rle_trans; [apply tree_error|].
  - apply e_tree_Forall; try assumption; [apply float_0|apply float_opp].
  - apply Rmult_le_compat.
    + assert (K := grow_le 0 (depth (e_tree order s params)) ltac:(lia)). cbn in K. cbn. lra.
    + apply sumf_nonneg. intros; apply Rabs_pos.
    + assert (K := grow_le _ _ (e_tree_depth order s params Ho Hs Hp)). lra.
    + now apply e_tree_abs.
Qed.

Lemma fl_energy_exact e order s params : (-1074 <= e)%Z -> sum_order order -> s <> [] -> unit_spins s -> length params = (length s + length s * (length s - 1) / 2)%nat ->
  Forall (on_grid e) params -> sumf params Rabs <= bpow radix2 (53 + e) ->
  fl_calc_e order s params = ising_calc_e_row s params /\ on_grid e (ising_calc_e_row s params).
Proof.
  intros He Ho Hs Hu Hp Hg HS. assert (Hf : Forall float64 params).
  { rewrite Forall_forall in *. intros x Hx. apply (grid_float e); auto. eapply Rle_trans; [|exact HS]. apply (sumf_in_le params Rabs x); [intros; apply Rabs_pos|assumption]. }
  rewrite fl_calc_e_tree by assumption. rewrite <- (e_tree_sum order s params Ho Hs Hp). apply tree_exact; [assumption| |].
  - apply e_tree_Forall; try assumption; [apply grid_0|apply grid_opp].
  - eapply Rle_trans; [now apply e_tree_abs|assumption].
Qed.

(** (1+u)^m - 1 is at most 2 m u for up to 2^53 terms. *)
Lemma grow_linear m : INR m * u64 <= 1 -> (1 + u64) ^ m - 1 <= 2 * INR m * u64.
Proof.
  induction m as [|m IH]; intros H; [cbn; lra|]. rewrite S_INR in *. assert (U := u64_pos).
  assert (P := pos_INR m). specialize (IH ltac:(lra)). cbn [pow].
  (* (1+u)^m <= e^{mu} <= 3; use the sharper x <= 1 bound *)
  assert (B : (1 + u64) ^ m <= 1 + INR m * u64 + (INR m * u64) ^ 2).
  { clear IH. assert (H' : INR m * u64 <= 1) by lra. clear H. induction m as [|m IHm]; [cbn; lra|]. rewrite S_INR in *. assert (P' := pos_INR m).
    specialize (IHm P' ltac:(lra)). cbn [pow] in *. set (x := INR m * u64) in *. replace ((INR m + 1) * u64) with (x + u64) in * by (unfold x; ring).
    assert (X0 : 0 <= x) by (unfold x; nra). assert (X1 : x <= 1) by lra. assert (X2 : u64 * (x * x) <= u64 * x) by (apply Rmult_le_compat_l; [lra|]; nra).
    assert (X3 : (1 + u64) * (1 + u64) ^ m <= (1 + u64) * (1 + x + x * (x * 1))) by (apply Rmult_le_compat_l; lra). clear - X0 X2 X3 U. nra. }
  cbn [pow] in B. set (x := INR m * u64) in *. assert (0 <= x) by (unfold x; nra).
  replace (2 * (INR m + 1) * u64) with (2 * x + 2 * u64) by (unfold x; ring). replace ((INR m + 1) * u64) with (x + u64) in H by (unfold x; ring).
  assert (X3 : (1 + u64) * (1 + u64) ^ m <= (1 + u64) * (1 + x + x * (x * 1))) by (apply Rmult_le_compat_l; lra).
  assert (X1 : x * x <= x * (1 - u64)) by (apply Rmult_le_compat_l; lra). assert (X2 : u64 * (x * x) <= u64 * 1) by (apply Rmult_le_compat_l; [lra|]; nra). lra.
Qed.
