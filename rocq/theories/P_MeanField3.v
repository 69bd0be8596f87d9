(** * Flat indices, fourth order matrix, scalar identities. *)
From Verif Require Import Prelude PreludeFacts Spec Spec2 M_Index M_Params M_MeanField P_Index P_Energy P_Params P_Enum P_MaxEnt P_MeanField P_MeanField2 P_Cluster4.
Import ListNotations.

Lemma off_find n k : k < off n n -> exists d i, d < n /\ i < n - d /\ k = off n d + i.
Proof.
  assert (G : forall m, m <= n -> k < off n m -> exists d i, d < m /\ i < n - d /\ k = off n d + i).
  { induction m as [|m IH]; intros Hm Hk; [cbn in Hk; lia|]. destruct (lt_dec k (off n m)) as [L|L].
    - destruct (IH ltac:(lia) L) as (d & i & Hd & H). exists d, i. split; [lia|exact H].
    - exists m, (k - off n m). cbn [off] in Hk. split; [lia|]. split; lia. }
  intros H. now apply G.
Qed.

Lemma off_inj n d i d' i' : d < n -> d' < n -> i < n - d -> i' < n - d' -> off n d + i = off n d' + i' -> d = d' /\ i = i'.
Proof.
  intros Hd Hd' Hi Hi' E. destruct (lt_eq_lt_dec d d') as [[L|L]|L].
  - pose proof (off_mono n (S d) d' ltac:(lia)) as M. cbn [off] in M. lia.
  - subst d'. lia.
  - pose proof (off_mono n (S d') d ltac:(lia)) as M. cbn [off] in M. lia.
Qed.

Lemma off_lt n d i : d < n -> i < n - d -> off n d + i < n * (n + 1) / 2.
Proof. intros Hd Hi. rewrite <- off_full. pose proof (off_mono n (S d) n ltac:(lia)) as M. cbn [off] in M. lia. Qed.

Local Open Scope R_scope.

(** ** fourthOrderCoocMat *)
Definition ix (n i j : nat) : nat := (off n (j - i) + i)%nat.

Lemma in_range2 a b x : In x (range2 a b) <-> (a <= x < b)%nat.
Proof. unfold range2. rewrite in_seq. lia. Qed.

Lemma fourth_loop_in n i j m k : In (i, j, (m, k)) (fourth_order_loop n) <-> (i <= j < n)%nat /\ (i <= m)%nat /\ (m <= k < n)%nat.
Proof.
  unfold fourth_order_loop. rewrite in_flat_map. split.
  - intros (a & Ha & H). apply in_flat_map in H. destruct H as (b & Hb & H). apply in_flat_map in H. destruct H as (c & Hc & H).
    apply in_map_iff in H. destruct H as (d & E & Hd). injection E as -> -> -> ->. apply in_range2 in Hb, Hc, Hd. lia.
  - intros (H1 & H2 & H3). exists i. split; [unfold range; apply in_seq; lia|]. apply in_flat_map. exists j. split; [apply in_range2; lia|].
    apply in_flat_map. exists m. split; [apply in_range2; lia|]. apply in_map_iff. exists k. split; [reflexivity|]. apply in_range2. lia.
Qed.

Lemma ix_diag n i j : (i <= j)%nat -> (j < n)%nat -> Z.to_nat (diagFlatIndex (Z.of_nat i) (Z.of_nat j) (Z.of_nat n)) = ix n i j.
Proof. intros. rewrite diagFlatIndex_off by lia. now rewrite Nat2Z.id. Qed.

Lemma ix_lt n i j : (i <= j)%nat -> (j < n)%nat -> (ix n i j < n * (n + 1) / 2)%nat.
Proof. intros. unfold ix. apply off_lt; lia. Qed.

Lemma ix_inj n i j i' j' : (i <= j < n)%nat -> (i' <= j' < n)%nat -> ix n i j = ix n i' j' -> i = i' /\ j = j'.
Proof. intros H H' E. destruct (off_inj n (j - i) i (j' - i') i') as [A B]; try lia. exact E. Qed.

Lemma foldM_ok {A St} (f : St -> A -> result St) (h : St -> A -> St) (l : list A) : (forall st a, In a l -> f st a = Ok (h st a)) ->
  forall st, foldM f l st = Ok (fold_left h l st).
Proof.
  induction l as [|a l IH]; intros H st; [reflexivity|]. cbn [foldM fold_left]. rewrite H by now left. cbn [bind]. apply IH. intros. apply H. now right.
Qed.

Lemma fold_left_pairs {A B St} (g : St -> B -> St) (p q : A -> B) l : forall st,
  fold_left (fun st a => g (g st (p a)) (q a)) l st = fold_left g (flat_map (fun a => [p a; q a]) l) st.
Proof. induction l as [|a l IH]; intros st; [reflexivity|]. cbn [fold_left flat_map app]. apply IH. Qed.

(** Inverse of [ix]. *)
Definition unix (n r : nat) : nat * nat :=
  match find (fun p => Nat.eqb (ix n (fst p) (snd p)) r) (flat_map (fun i => map (fun j => (i, j)) (seq i (n - i))) (seq 0 n)) with
  | Some p => p | None => (0, 0)%nat end.
Lemma unix_ix n i j : (i <= j)%nat -> (j < n)%nat -> unix n (ix n i j) = (i, j).
Proof.
  intros H1 H2. unfold unix. set (l := flat_map _ _).
  assert (Hl : forall p, In p l -> (fst p <= snd p < n)%nat).
  { intros p Hp. apply in_flat_map in Hp. destruct Hp as (a & Ha & Hp). apply in_map_iff in Hp. destruct Hp as (b & <- & Hb). apply in_seq in Ha, Hb. cbn. lia. }
  destruct (find _ l) as [[a b]|] eqn:E.
  - apply find_some in E. destruct E as [E1 E2]. apply Nat.eqb_eq in E2. cbn [fst snd] in E2. specialize (Hl _ E1). cbn in Hl.
    destruct (ix_inj n a b i j) as [-> ->]; auto; lia.
  - exfalso. pose proof (find_none _ _ E (i, j)) as F. cbn [fst snd] in F. rewrite Nat.eqb_refl in F. discriminate F.
    apply in_flat_map. exists i. split; [apply in_seq; lia|]. apply in_map_iff. exists j. split; [reflexivity|]. apply in_seq. lia.
Qed.

Lemma fourthOrder_ok n samples : samples <> [] -> (forall s, In s samples -> length s = n) ->
  exists F, fourthOrderCoocMat samples = Ok F /\ sq (n * (n + 1) / 2) F /\
  forall i j m k, (i <= j < n)%nat -> (m <= k < n)%nat ->
    entry F (ix n i j) (ix n m k) = sample_mean samples (fun s => nthR s i * nthR s j * (nthR s m * nthR s k)).
Proof.
  intros Hne Hlen. destruct samples as [|s0 samples]; [congruence|]. unfold fourthOrderCoocMat. rewrite (Hlen s0) by now left.
  set (X := s0 :: samples) in *. replace ((n + 1) * n / 2)%nat with (n * (n + 1) / 2)%nat by (f_equal; lia). set (D := (n * (n + 1) / 2)%nat).
  set (val := fun a : nat * nat * (nat * nat) => let '(i, j, (m, k)) := a in sumf X (fun s => nthR s i * nthR s j * nthR s m * nthR s k)).
  set (p := fun a : nat * nat * (nat * nat) => let '(i, j, (m, k)) := a in (ix n i j, ix n m k, val a)).
  set (q := fun a : nat * nat * (nat * nat) => let '(i, j, (m, k)) := a in (ix n m k, ix n i j, val a)).
  set (g := fun (M : list (list R)) (w : nat * nat * R) => mset M (fst (fst w)) (snd (fst w)) (snd w)).
  rewrite (foldM_ok _ (fun st a => g (g st (p a)) (q a))).
  2:{ intros st [[i j] [m k]] Ha. apply fourth_loop_in in Ha. rewrite !ix_diag by lia.
      destruct (Nat.ltb_spec (ix n i j) D) as [_|L]; [|exfalso; pose proof (ix_lt n i j ltac:(lia) ltac:(lia)); unfold D in L; lia].
      destruct (Nat.ltb_spec (ix n m k) D) as [_|L]; [|exfalso; pose proof (ix_lt n m k ltac:(lia) ltac:(lia)); unfold D in L; lia]. reflexivity. }
  rewrite fold_left_pairs. cbn [bind]. set (W := flat_map _ _).
  set (G := fun r c => let '(i, j) := unix n r in let '(m, k) := unix n c in sumf X (fun s => nthR s i * nthR s j * (nthR s m * nthR s k))).
  assert (HW : forall w, In w W -> (fst (fst w) < D)%nat /\ (snd (fst w) < D)%nat /\ snd w = G (fst (fst w)) (snd (fst w))).
  { intros w Hw. unfold W in Hw. apply in_flat_map in Hw. destruct Hw as ([[i j] [m k]] & Ha & Hw). apply fourth_loop_in in Ha.
    destruct Hw as [<-|[<-|[]]]; cbn [p q fst snd]; unfold G; rewrite !unix_ix by lia; (split; [apply ix_lt; lia|split; [apply ix_lt; lia|]]); cbn [val]; apply sumf_ext; intros; ring. }
  destruct (writes_ok (fun w : nat * nat * R => fst (fst w)) (fun w => snd (fst w)) (fun w => snd w) D G W (mk_mat D D (fun _ _ => 0))) as (S1 & S2 & _); [apply mk_mat_sq|exact HW|].
  change (fold_left (fun M a => mset M (fst (fst a)) (snd (fst a)) (snd a)) W (mk_mat D D (fun _ _ => 0))) with (fold_left g W (mk_mat D D (fun _ _ => 0))) in *.
  set (M := fold_left g W _) in *. eexists. split; [reflexivity|].
  assert (SM : sq D (map (map (fun x => x / INR (length X))) M)).
  { destruct S1 as [L1 L2]. split; [now rewrite map_length|]. intros i Hi. rewrite (nth_indep _ [] (map (fun x => x / INR (length X)) [])) by (rewrite map_length; lia).
    rewrite map_nth, map_length. now apply L2. }
  split; [exact SM|]. intros i j m k Hij Hmk.
  assert (Hr : (ix n i j < D)%nat) by (apply ix_lt; lia). assert (Hc : (ix n m k < D)%nat) by (apply ix_lt; lia).
  assert (EM : entry M (ix n i j) (ix n m k) = sumf X (fun s => nthR s i * nthR s j * (nthR s m * nthR s k))).
  { assert (Hin : exists w, In w W /\ fst w = (ix n i j, ix n m k)).
    { destruct (le_dec i m).
      - exists (p (i, j, (m, k))). split; [|reflexivity]. apply in_flat_map. exists (i, j, (m, k)). split; [apply fourth_loop_in; lia|now left].
      - exists (q (m, k, (i, j))). split; [|reflexivity]. apply in_flat_map. exists (m, k, (i, j)). split; [apply fourth_loop_in; lia|right; now left]. }
    destruct Hin as (w & Hw & Ew). pose proof (S2 w Hw) as E. rewrite Ew in E. cbn [fst snd] in E. rewrite E. unfold G. rewrite !unix_ix by lia. reflexivity. }
  unfold sample_mean. rewrite <- EM. destruct S1 as [L1 L2]. unfold entry, nthR.
  rewrite (nth_indep _ [] (map (fun x => x / INR (length X)) [])) by (rewrite map_length; lia). rewrite map_nth.
  rewrite (nth_indep _ 0 ((fun x => x / INR (length X)) 0)) by (rewrite map_length, L2; lia). now rewrite (map_nth (fun x => x / INR (length X))).
Qed.

(** ** Scalars *)
Lemma logCosh_ok x : logCosh x = ln (cosh x).
Proof.
  unfold logCosh, cosh. assert (G : forall y, y + ln (1 + exp (-2 * y)) - ln 2 = ln ((exp y + exp (- y)) / 2)).
  { intros y. pose proof (exp_pos (-2 * y)). pose proof (exp_pos y). pose proof (exp_pos (- y)). rewrite ln_quot by lra. f_equal.
    replace (exp y + exp (- y)) with (exp y * (1 + exp (-2 * y))).
    - rewrite ln_mult, ln_exp; lra.
    - rewrite Rmult_plus_distr_l, <- exp_plus, Rmult_1_r. do 2 f_equal. ring. }
  rewrite G. f_equal. unfold Rabs. destruct (Rcase_abs x); [|reflexivity]. rewrite Ropp_involutive. f_equal. ring.
Qed.

Lemma m_func_signs h J ell T : m_func h J ell T 0 < 0 /\ 0 < m_func h J ell T 1.
Proof.
  unfold m_func. split.
  - pose proof (exp_pos ((h + 2 * (ell - 1) * 0 * J) / T)). assert (0 < 1 / (1 + exp ((h + 2 * (ell - 1) * 0 * J) / T))) by (apply Rdiv_lt_0_compat; lra). lra.
  - pose proof (exp_pos ((h + 2 * (ell - 1) * 1 * J) / T)). assert (1 / (1 + exp ((h + 2 * (ell - 1) * 1 * J) / T)) < 1); [|lra].
    apply (Rmult_lt_reg_r (1 + exp ((h + 2 * (ell - 1) * 1 * J) / T))); [lra|]. unfold Rdiv. rewrite Rmult_assoc, Rinv_l by lra. lra.
Qed.

Lemma m_func_root_in h J ell T x : m_func h J ell T x = 0 -> 0 < x < 1.
Proof.
  unfold m_func. intros E. set (e := exp _) in E. assert (He : 0 < e) by apply exp_pos.
  assert (0 < 1 / (1 + e)) by (apply Rdiv_lt_0_compat; lra).
  assert (1 / (1 + e) < 1). { apply (Rmult_lt_reg_r (1 + e)); [lra|]. unfold Rdiv. rewrite Rmult_assoc, Rinv_l by lra. lra. }
  lra.
Qed.

Lemma m_func_cont h J ell T : T <> 0 -> continuity (m_func h J ell T).
Proof.
  intros HT x. unfold m_func. apply continuity_pt_minus; [apply derivable_continuous_pt, derivable_pt_id|].
  apply continuity_pt_div.
  - apply continuity_pt_const. intros a b; reflexivity.
  - apply continuity_pt_plus; [apply continuity_pt_const; intros a b; reflexivity|].
    apply (continuity_pt_comp (fun mm => (h + 2 * (ell - 1) * mm * J) / T) exp); [|apply derivable_continuous_pt, derivable_pt_exp]. reg.
  - pose proof (exp_pos ((h + 2 * (ell - 1) * x * J) / T)). lra.
Qed.

Lemma m_func_root h J ell T : T <> 0 -> exists x, m_func h J ell T x = 0.
Proof.
  intros HT. destruct (m_func_signs h J ell T) as [A B]. destruct (IVT (m_func h J ell T) 0 1 (m_func_cont h J ell T HT) ltac:(lra) A B) as (x & _ & E). now exists x.
Qed.

(** A repulsive coupling (J >= 0 in this sign convention) makes the root unique. *)
Lemma m_func_incr h J ell T x y : 0 < T -> 1 <= ell -> 0 <= J -> x < y -> m_func h J ell T x < m_func h J ell T y.
Proof.
  intros HT Hl HJ Hxy. unfold m_func. set (a := exp ((h + 2 * (ell - 1) * x * J) / T)). set (b := exp ((h + 2 * (ell - 1) * y * J) / T)).
  assert (Ha : 0 < a) by apply exp_pos. assert (Hb : 0 < b) by apply exp_pos.
  assert (L : a <= b).
  { assert (Le : (h + 2 * (ell - 1) * x * J) / T <= (h + 2 * (ell - 1) * y * J) / T).
    { apply Rmult_le_compat_r; [left; now apply Rinv_0_lt_compat|]. assert (0 <= (ell - 1) * J * (y - x)) by (repeat apply Rmult_le_pos; lra). lra. }
    destruct Le as [Le|Le]; [left; now apply exp_increasing|unfold a, b; rewrite Le; lra]. }
  assert (1 / (1 + b) <= 1 / (1 + a)).
  { unfold Rdiv. rewrite !Rmult_1_l. apply Rinv_le_contravar; lra. }
  lra.
Qed.

Lemma indep_entropies x N : -1 < x < 1 -> independentEntropy1 x N = independentEntropy2 x N.
Proof.
  intros Hx. unfold independentEntropy1, independentEntropy2. f_equal.
  set (a := (1 + x) / 2). set (b := (1 - x) / 2). assert (Ha : 0 < a) by (unfold a; lra). assert (Hb : 0 < b) by (unfold b; lra).
  replace ((1 + x) / (1 - x)) with (a / b) by (unfold a, b; field; lra). rewrite ln_quot by assumption.
  set (he := / 2 * (ln a - ln b)).
  assert (C : ln (cosh he) = - ln 2 - / 2 * (ln a + ln b)).
  { assert (E1 : exp he * exp he = a / b) by (rewrite <- exp_plus; replace (he + he) with (ln a - ln b) by (unfold he; field); unfold Rminus; rewrite exp_plus, exp_Ropp, !exp_ln by assumption; reflexivity).
    assert (Hc : cosh he = exp (- ln 2 - / 2 * (ln a + ln b))).
    { replace (- ln 2 - / 2 * (ln a + ln b)) with (he + (- ln 2 - ln a)) by (unfold he; field).
      unfold cosh. rewrite exp_plus. unfold Rminus. rewrite exp_plus, !exp_Ropp, !exp_ln by lra.
      pose proof (exp_pos he). apply (Rmult_eq_reg_r (exp he)); [|lra].
      replace ((exp he + / exp he) / 2 * exp he) with ((exp he * exp he + 1) / 2) by (field; lra).
      replace (exp he * (/ 2 * / a) * exp he) with (exp he * exp he * (/ 2 * / a)) by ring. rewrite E1.
      assert (a + b = 1) by (unfold a, b; lra). apply (Rmult_eq_reg_r (2 * a * b)); [|apply Rmult_integral_contrapositive_currified; lra].
      replace ((a / b + 1) / 2 * (2 * a * b)) with (a * (a + b)) by (field; lra). replace (a / b * (/ 2 * / a) * (2 * a * b)) with a by (field; lra). rewrite H0. ring. }
    rewrite Hc. apply ln_exp. }
  rewrite C. unfold he. replace (- (1 + x) / 2) with (- a) by (unfold a; field). fold b.
  assert (E : a = 1 - b) by (unfold a, b; field). assert (Ex : x = 1 - 2 * b) by (unfold b; field).
  set (la := ln a). set (lb := ln b). clearbody la lb. clear C he. clearbody a b. subst a x. field.
Qed.
