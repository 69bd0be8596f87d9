(** * Facts about replica exchange and the temperature ladder. *)
From Coq Require Import Permutation.
From Coquelicot Require Import Coquelicot.
From Verif Require Import Prelude Spec PreludeFacts M_Index M_Energy M_Params M_Sampler M_Temper P_Energy P_Sampler P_Metro P_Params Props_Sampler.
Import ListNotations.
Local Open Scope R_scope.

(** ** Swapping neighbours of a list *)
Fixpoint swap_at {A} (i : nat) (l : list A) : list A :=
  match i, l with
  | O, a :: b :: r => b :: a :: r
  | S i', a :: r => a :: swap_at i' r
  | _, _ => l
  end.

Lemma swap_at_perm {A} i : forall l : list A, Permutation (swap_at i l) l.
Proof.
  induction i as [|i IH]; intros [|a l]; cbn; try reflexivity.
  - destruct l as [|b l]; [reflexivity|]. constructor.
  - constructor. apply IH.
Qed.

Lemma swap_at_invol {A} i : forall l : list A, swap_at i (swap_at i l) = l.
Proof.
  induction i as [|i IH]; intros [|a l]; cbn; try reflexivity.
  - destruct l as [|b l]; reflexivity.
  - now rewrite IH.
Qed.

Lemma swap_at_length {A} i (l : list A) : length (swap_at i l) = length l.
Proof. apply Permutation_length, swap_at_perm. Qed.

Lemma swap_at_combine {A B} i : forall (a : list A) (b : list B), length a = length b ->
  combine (swap_at i a) (swap_at i b) = swap_at i (combine a b).
Proof.
  induction i as [|i IH]; intros [|x a] [|y b] H; cbn in *; try discriminate; try reflexivity.
  - destruct a as [|x' a], b as [|y' b]; cbn in *; try discriminate; reflexivity.
  - f_equal. apply IH. lia.
Qed.

Section Replicas.
Context {T : Type}.
Variable calc_e : list Z -> list R -> R.
Variable theta : list R.
Definition scale (b : R) : list R := map (fun x => x * b) theta.
Definition eb (b : R) (s : list Z) : R := calc_e s (scale b).

Definition mk (b : R) (s : list Z) (idx : nat) (t : T) : replica T := Rep (scale b) (Some [s]) [s] [eb b s] idx t.

Fixpoint mk_reps (bs : list R) (ss : list (list Z)) (idx : list nat) (ts : list T) : list (replica T) :=
  match bs, ss, idx, ts with
  | b :: bs', s :: ss', i :: idx', t :: ts' => mk b s i t :: mk_reps bs' ss' idx' ts'
  | _, _, _, _ => []
  end.

Fixpoint Etot (bs : list R) (ss : list (list Z)) : R :=
  match bs, ss with b :: bs', s :: ss' => eb b s + Etot bs' ss' | _, _ => 0 end.

(** calc_e is linear in theta at every state. *)
Hypothesis linear : forall s b, calc_e s (scale b) = b * calc_e s theta.

Lemma mk_reps_length bs : forall ss idx ts, length ss = length bs -> length idx = length bs -> length ts = length bs ->
  length (mk_reps bs ss idx ts) = length bs.
Proof.
  induction bs as [|b bs IH]; intros [|s ss] [|i idx] [|t ts] H1 H2 H3; cbn in *; try discriminate; try reflexivity.
  rewrite IH; lia.
Qed.

Lemma mk_reps_nth bs : forall ss idx ts i s, length ss = length bs -> length idx = length bs -> length ts = length bs ->
  nth_error ss i = Some s ->
  exists k t, nth_error idx i = Some k /\ nth_error ts i = Some t /\ nth_error (mk_reps bs ss idx ts) i = Some (mk (nthR bs i) s k t).
Proof.
  induction bs as [|b bs IH]; intros [|s0 ss] [|i0 idx] [|t0 ts] i s H1 H2 H3 Hn; cbn in *; try discriminate.
  - now destruct i.
  - destruct i as [|i]; cbn in *.
    + injection Hn as ->. eauto.
    + apply IH; auto.
Qed.

Lemma mk_reps_forallb bs : forall ss idx ts,
  forallb (fun r => Nat.eqb (length (r_sample r)) 1) (mk_reps bs ss idx ts) = true.
Proof.
  induction bs as [|b bs IH]; intros [|s0 ss] [|i0 idx] [|t0 ts]; cbn in *; auto.
Qed.

Lemma mk_reps_index bs : forall ss idx ts, length ss = length bs -> length idx = length bs -> length ts = length bs ->
  map r_index (mk_reps bs ss idx ts) = idx /\ map (@r_sample T) (mk_reps bs ss idx ts) = map (fun s => [s]) ss.
Proof.
  induction bs as [|b bs IH]; intros [|s ss] [|i idx] [|t ts] H1 H2 H3; cbn in *; try discriminate; auto.
  destruct (IH ss idx ts) as [-> ->]; auto; lia.
Qed.

Lemma Etot_swap i : forall bs ss, length ss = length bs -> (S i < length bs)%nat ->
  Etot bs (swap_at i ss) - Etot bs ss =
  - ((nthR bs i - nthR bs (S i)) * (calc_e (nth i ss []) theta - calc_e (nth (S i) ss []) theta)).
Proof.
  induction i as [|i IH]; intros [|b bs] [|s ss] H1 H2; cbn [length] in *; try lia.
  - destruct bs as [|b2 bs], ss as [|s2 ss]; cbn [length] in *; try lia. cbn. unfold eb. rewrite !linear. unfold nthR. cbn. ring.
  - cbn [swap_at Etot]. replace (eb b s + Etot bs (swap_at i ss) - (eb b s + Etot bs ss)) with (Etot bs (swap_at i ss) - Etot bs ss) by ring.
    rewrite IH by lia. reflexivity.
Qed.

Lemma pair_ratio_mk bs ss idx ts i : length ss = length bs -> length idx = length bs -> length ts = length bs ->
  (S i < length bs)%nat -> (forall b, In b bs -> b <> 0) ->
  pair_ratio bs (mk_reps bs ss idx ts) (i, S i) = Ok (accept_prob (Etot bs (swap_at i ss) - Etot bs ss)).
Proof.
  intros H1 H2 H3 Hi Hb.
  assert (N1 : nth_error ss i = Some (nth i ss [])) by (apply nth_error_nth'; lia).
  assert (N2 : nth_error ss (S i) = Some (nth (S i) ss [])) by (apply nth_error_nth'; lia).
  destruct (mk_reps_nth bs ss idx ts i _ H1 H2 H3 N1) as [k1 [t1 [_ [_ E1]]]].
  destruct (mk_reps_nth bs ss idx ts (S i) _ H1 H2 H3 N2) as [k2 [t2 [_ [_ E2]]]].
  unfold pair_ratio. cbn [fst snd]. unfold get at 1 2. rewrite E1, E2. cbn [bind].
  assert (B1 : nth_error bs i = Some (nthR bs i)) by (apply nth_error_nth'; lia).
  assert (B2 : nth_error bs (S i) = Some (nthR bs (S i))) by (apply nth_error_nth'; lia).
  unfold get at 1 2. rewrite B1, B2. cbn [bind]. unfold mk. cbn [r_E]. unfold get. cbn [nth_error bind].
  f_equal. unfold accept_prob. f_equal. f_equal. rewrite Etot_swap by assumption. unfold eb. rewrite !linear.
  assert (nthR bs i <> 0) by (apply Hb, nth_In; lia). assert (nthR bs (S i) <> 0) by (apply Hb, nth_In; lia).
  field. auto.
Qed.

Lemma acceptance_mk bs ss idx ts i (g : rng T) n : length ss = length bs -> length idx = length bs -> length ts = length bs ->
  (S i < length bs)%nat -> (forall b, In b bs -> b <> 0) ->
  acceptance_ratio g calc_e n 1 0 0 bs [(i, S i)] (mk_reps bs ss idx ts)
  = Ok ([accept_prob (Etot bs (swap_at i ss) - Etot bs ss)], mk_reps bs ss idx ts).
Proof.
  intros H1 H2 H3 Hi Hb. unfold acceptance_ratio. rewrite mk_reps_forallb. cbn [negb mapM].
  rewrite pair_ratio_mk by assumption. cbn [bind]. cbn [fst snd length range seq map repeat Nat.sub].
  unfold meanR, sumR. cbn [nthR nth length INR]. rewrite sumf_cons, sumf_nil. do 3 f_equal. unfold nthR. cbn [nth]. field.
Qed.

Lemma swap_pair_mk i : forall bs ss idx ts, length ss = length bs -> length idx = length bs -> length ts = length bs ->
  (S i < length bs)%nat -> (forall b, In b bs -> b <> 0) ->
  swap_pair bs i (mk_reps bs ss idx ts) = mk_reps bs (swap_at i ss) (swap_at i idx) ts.
Proof.
  induction i as [|i IH]; intros [|b bs] [|s ss] [|k idx] [|t ts] H1 H2 H3 Hi Hb; cbn [length] in *; try lia.
  - destruct bs as [|b2 bs], ss as [|s2 ss], idx as [|k2 idx], ts as [|t2 ts]; cbn [length] in *; try lia.
    cbn. unfold swap_pair. cbn. unfold mk, nthR. cbn. unfold eb. rewrite !linear.
    assert (b <> 0) by (apply Hb; now left). assert (b2 <> 0) by (apply Hb; right; now left).
    replace (b2 * calc_e s2 theta / b2 * b) with (b * calc_e s2 theta) by (field; assumption).
    replace (b * calc_e s theta / b * b2) with (b2 * calc_e s theta) by (field; assumption). reflexivity.
  - cbn [mk_reps swap_at]. rewrite <- IH; try lia; [|intros; apply Hb; now right].
    unfold swap_pair. set (L := mk_reps bs ss idx ts). set (x := mk b s k t).
    change (nth_error (x :: L) (S (S i))) with (nth_error L (S i)). change (nth_error (x :: L) (S i)) with (nth_error L i).
    destruct (nth_error L i) as [a|]; [|reflexivity]. destruct (nth_error L (S i)); reflexivity.
Qed.

(** The exchange sweep on states and indices. *)
Fixpoint exch (g : rng T) (bs : list R) (is : list nat) (st : list (list Z) * list nat) (t : T) : (list (list Z) * list nat) * T :=
  match is with
  | [] => (st, t)
  | i :: is' =>
    let '(u, t1) := rand g t in
    exch g bs is' (if Rlt_dec u (accept_prob (Etot bs (swap_at i (fst st)) - Etot bs (fst st)))
                   then (swap_at i (fst st), swap_at i (snd st)) else st) t1
  end.

Lemma exchange_eq (g : rng T) n bs is : (forall i, In i is -> (S i < length bs)%nat) -> (forall b, In b bs -> b <> 0) ->
  forall ss idx ts t, length ss = length bs -> length idx = length bs -> length ts = length bs ->
  exchange g calc_e n bs is (mk_reps bs ss idx ts) t =
  let '(st, t') := exch g bs is (ss, idx) t in Ok (mk_reps bs (fst st) (snd st) ts, t').
Proof.
  intros His Hb. induction is as [|i is IH]; intros ss idx ts t H1 H2 H3; [reflexivity|].
  cbn [exchange exch fst snd]. rewrite acceptance_mk; try assumption; [|apply His; now left]. cbn [bind fst].
  destruct (rand g t) as [u t1]. unfold nthR at 1. cbn [nth].
  destruct (Rlt_dec u _).
  - rewrite swap_pair_mk; try assumption; [|apply His; now left].
    rewrite IH; [reflexivity| | | |]; rewrite ?swap_at_length; auto. intros; apply His; now right.
  - rewrite IH; auto. intros; apply His; now right.
Qed.

Lemma exch_perm g bs is : forall ss idx t, length ss = length idx ->
  let '(st, _) := exch g bs is (ss, idx) t in
  length (fst st) = length ss /\ length (snd st) = length idx /\ Permutation (combine (fst st) (snd st)) (combine ss idx).
Proof.
  induction is as [|i is IH]; intros ss idx t H; cbn [exch fst snd]; [auto|].
  destruct (rand g t) as [u t1]. destruct (Rlt_dec u _).
  - specialize (IH (swap_at i ss) (swap_at i idx) t1). rewrite !swap_at_length in IH. specialize (IH H).
    destruct (exch g bs is _ t1) as [st t2]. destruct IH as [L1 [L2 P]]. split; [|split]; auto.
    rewrite P, swap_at_combine by assumption. apply swap_at_perm.
  - apply IH. exact H.
Qed.
End Replicas.

Lemma combine_perm_fst {A B} (a a' : list A) (b b' : list B) : length a = length b -> length a' = length b' ->
  Permutation (combine a' b') (combine a b) -> Permutation a' a /\ Permutation b' b.
Proof.
  intros H H' P.
  assert (F : forall (a : list A) (b : list B), length a = length b -> map fst (combine a b) = a /\ map snd (combine a b) = b).
  { clear. induction a as [|x a IH]; intros [|y b] H; cbn in *; try discriminate; auto.
    destruct (IH b) as [-> ->]; auto. }
  destruct (F a b H) as [E1 E2]. destruct (F a' b' H') as [E3 E4].
  assert (P1 := Permutation_map fst P). assert (P2 := Permutation_map snd P). rewrite E1, E3 in P1. rewrite E2, E4 in P2. auto.
Qed.

(** ** Burn in *)
Section Burn.
Context {T : Type}.
Variable g : rng T.
Variable calc_e : list Z -> list R -> R.
Variable theta : list R.
Variable n : nat.
Hypothesis Hg : rng_ok g.
Hypothesis Hn : (0 < n)%nat.

Lemma burn_replica_ok k b ss smp E idx t :
  (ss = None \/ exists s, ss = Some [s] /\ length s = n /\ Forall spin s) ->
  exists s t', length s = n /\ Forall spin s /\
    burn_replica g calc_e n k (Rep (scale theta b) ss smp E idx t) = Ok (mk calc_e theta b s idx t').
Proof.
  intros Hss. unfold burn_replica. cbn [r_theta r_samples r_rng r_index].
  assert (Hex : exists r, ising_generate_sample_py g (fun s => calc_e s (scale theta b)) n 1 k None true ss None t = Ok r).
  { destruct Hss as [-> | [s [-> [Hl Hs]]]].
    - destruct (C25_first_call_succeeds T g (fun s => calc_e s (scale theta b)) n 1 k None true None [] [] t) as [H _]. exact H.
    - unfold ising_generate_sample_py, generate_sample_py. cbn [length Nat.eqb bind].
      destruct (run _ _ s _ t) as [[[s1 E1] t2] h]. destruct (record _ _ _ s1 E1 t2) as [[[ss Es] [[s2 E2] t3]] h2]. eexists. reflexivity. }
  destruct Hex as [r Er]. rewrite Er. cbn [bind].
  destruct (C25_generate_sample T g (fun s => calc_e s (scale theta b)) n 1 k None true ss None t r Hg Hn) as [H1 [H2 [H3 [_ [_ H6]]]]].
  - intros l ->. destruct Hss as [Hc|[s [Hc [Hl Hs]]]]; [discriminate|]. injection Hc as ->. repeat constructor; auto.
  - discriminate.
  - exact Er.
  - destruct (g_sample r) as [|s [|? ?]] eqn:Eg; try discriminate. specialize (H6 ltac:(discriminate)). cbn in H2, H6.
    apply Forall_inv in H3. destruct H3 as [Hl Hs]. exists s, (g_rng r). split; [exact Hl|]. split; [exact Hs|].
    unfold mk. rewrite H6, H2. reflexivity.
Qed.

(** A replica before burn in: right parameters, no state yet or one valid state. *)
Definition pre_ok (b : R) (rep : replica T) : Prop :=
  r_theta rep = scale theta b /\
  (r_samples rep = None \/ exists s, r_samples rep = Some [s] /\ length s = n /\ Forall spin s).

Lemma burn_all_ok k default : forall bs reps, Forall2 pre_ok bs reps ->
  exists ss ts, length ss = length bs /\ length ts = length bs /\ Forall (fun s => length s = n /\ Forall spin s) ss /\
    burn_in_replicas g calc_e n k default reps = Ok (mk_reps calc_e theta bs ss (map r_index reps) ts).
Proof.
  unfold burn_in_replicas. set (k' := match k with O => default | _ => k end).
  induction 1 as [|b rep bs reps [Hth Hs] Hr IH].
  - exists [], []. repeat split; auto.
  - destruct IH as [ss [ts [L1 [L2 [V E]]]]].
    destruct rep as [th sm smp EE idx t]. cbn [r_theta r_samples] in Hth, Hs. subst th.
    destruct (burn_replica_ok k' b sm smp EE idx t Hs) as [s [t' [Hl [Hsp Eb]]]].
    exists (s :: ss), (t' :: ts). cbn [length map mapM]. rewrite Eb. cbn [bind]. rewrite E. cbn [bind].
    repeat split; auto; lia.
Qed.

Lemma mk_reps_pre bs : forall ss idx ts, length ss = length bs -> length idx = length bs -> length ts = length bs ->
  Forall (fun s => length s = n /\ Forall spin s) ss -> Forall2 pre_ok bs (mk_reps calc_e theta bs ss idx ts).
Proof.
  induction bs as [|b bs IH]; intros [|s ss] [|i idx] [|t ts] H1 H2 H3 HF; cbn in *; try discriminate; constructor.
  - inversion HF as [|? ? [? ?]]; subst. split; [reflexivity|]. right. exists s. auto.
  - inversion HF; subst. apply IH; auto; lia.
Qed.
End Burn.

(** ** The ladder *)
Lemma iterate_loop_length beta ratio avg k : forall nb, length (iterate_beta_loop k beta ratio avg nb) = length nb.
Proof. induction k as [|k IH]; intros nb; cbn; [reflexivity|]. now rewrite IH, upd_length. Qed.

Lemma iterate_loop_keep beta ratio avg k : forall nb j, (k <= j)%nat ->
  nthR (iterate_beta_loop k beta ratio avg nb) j = nthR nb j.
Proof.
  induction k as [|k IH]; intros nb j Hj; cbn [iterate_beta_loop]; [reflexivity|]. rewrite IH by lia.
  unfold nthR. apply nth_upd_other. lia.
Qed.

Lemma iterate_loop_diff beta ratio avg k : forall nb j, (k < length nb)%nat -> (j < k)%nat ->
  let r := iterate_beta_loop k beta ratio avg nb in
  nthR r (S j) - nthR r j = (nthR beta (S j) - nthR beta j) * nthR ratio j / avg.
Proof.
  induction k as [|k IH]; intros nb j Hk Hj; [lia|]. cbn [iterate_beta_loop].
  destruct (Nat.eq_dec j k) as [->|Hne].
  - cbv zeta. rewrite !iterate_loop_keep by lia.
    replace (nthR (upd nb k (nthR nb (S k) - (nthR beta (S k) - nthR beta k) * nthR ratio k / avg)) (S k)) with (nthR nb (S k)).
    2: { unfold nthR. rewrite nth_upd_other by lia. reflexivity. }
    replace (nthR (upd nb k (nthR nb (S k) - (nthR beta (S k) - nthR beta k) * nthR ratio k / avg)) k)
      with (nthR nb (S k) - (nthR beta (S k) - nthR beta k) * nthR ratio k / avg).
    2: { unfold nthR at 5. rewrite nth_upd_same by lia. reflexivity. }
    ring.
  - apply IH; [rewrite upd_length; lia | lia].
Qed.

Lemma meanR_pos l : l <> [] -> (forall x, In x l -> 0 < x) -> 0 < meanR l.
Proof.
  intros Hne H. unfold meanR. apply Rdiv_lt_0_compat.
  - unfold sumR. apply sumf_pos; auto.
  - apply lt_0_INR. destruct l; [congruence|cbn; lia].
Qed.

Lemma meanR_le l c : l <> [] -> (forall x, In x l -> x <= c) -> meanR l <= c.
Proof.
  intros Hne H. unfold meanR. assert (P : 0 < INR (length l)) by (apply lt_0_INR; destruct l; [congruence|cbn; lia]).
  apply (Rmult_le_reg_r (INR (length l))); [exact P|]. unfold Rdiv. rewrite Rmult_assoc, Rinv_l, Rmult_1_r by lra.
  unfold sumR. apply Rle_trans with (sumf l (fun _ => c)); [apply sumf_le; auto | rewrite sumf_const; lra].
Qed.

Lemma Forall2_len {A B} (P : A -> B -> Prop) l1 l2 : Forall2 P l1 l2 -> length l1 = length l2.
Proof. induction 1; cbn; congruence. Qed.

Definition increasing (l : list R) : Prop := forall i, (S i < length l)%nat -> nthR l i < nthR l (S i).

Lemma iterate_beta_ok beta ratio : length beta = S (length ratio) -> (forall r, In r ratio -> 0 < r <= 1) -> ratio <> [] ->
  exists nb, iterate_beta beta ratio = Ok nb /\ length nb = length beta /\
    nthR nb (length beta - 1) = nthR beta (length beta - 1) /\
    (forall i, (S i < length beta)%nat ->
       nthR nb (S i) - nthR nb i = (nthR beta (S i) - nthR beta i) * (nthR ratio i / meanR ratio)).
Proof.
  intros Hl Hr Hne. unfold iterate_beta.
  replace (Nat.eqb (length ratio + 1) (length beta)) with true by (symmetry; apply Nat.eqb_eq; lia).
  replace (forallb (fun r => if Rle_dec r 1 then true else false) ratio) with true.
  2: { symmetry. apply forallb_forall. intros r Hin. destruct (Rle_dec r 1); [reflexivity|]. destruct (Hr r Hin). lra. }
  cbn [negb]. eexists. split; [reflexivity|]. split; [apply iterate_loop_length|]. split.
  - apply iterate_loop_keep. lia.
  - intros i Hi. assert (D := iterate_loop_diff beta ratio (meanR ratio) (length beta - 1) beta i ltac:(lia) ltac:(lia)).
    cbv zeta in D. rewrite D. unfold Rdiv. ring.
Qed.

Lemma iterate_beta_increasing beta ratio nb : length beta = S (length ratio) -> (forall r, In r ratio -> 0 < r <= 1) -> ratio <> [] ->
  increasing beta -> iterate_beta beta ratio = Ok nb -> increasing nb /\ length nb = length beta /\
  nthR nb (length beta - 1) = nthR beta (length beta - 1).
Proof.
  intros Hl Hr Hne Hi E. destruct (iterate_beta_ok beta ratio Hl Hr Hne) as [nb' [E' [L [Hlast D]]]].
  rewrite E in E'. injection E' as <-. split; [|auto]. intros i Hlt. rewrite L in Hlt.
  assert (0 < nthR nb (S i) - nthR nb i); [|lra]. rewrite D by assumption.
  apply Rmult_lt_0_compat; [specialize (Hi i Hlt); lra|].
  apply Rdiv_lt_0_compat.
  - apply Hr. apply nth_In. lia.
  - apply meanR_pos; [assumption|]. intros x Hx. now apply Hr.
Qed.

Section Optimize.
Context {T : Type}.
Variable g : rng T.
Variable calc_e : list Z -> list R -> R.
Variable theta : list R.
Variable n : nat.
Hypothesis Hg : rng_ok g.
Hypothesis Hn : (0 < n)%nat.

Lemma mapM_ok {A B} (f : A -> result B) (P : B -> Prop) l : (forall a, In a l -> exists b, f a = Ok b /\ P b) ->
  exists bs, mapM f l = Ok bs /\ length bs = length l /\ Forall P bs.
Proof.
  induction l as [|a l IH]; intros H; [exists []; cbn; auto|].
  destruct (H a (or_introl eq_refl)) as [b [Eb Pb]]. destruct IH as [bs [E [L F]]]; [intros; apply H; now right|].
  exists (b :: bs). cbn. rewrite Eb. cbn. rewrite E. cbn. auto.
Qed.

Lemma accept_range x : 0 < Rmin 1 (exp x) <= 1.
Proof. split; [apply Rmin_pos; [lra|apply exp_pos] | apply Rmin_l]. Qed.

Lemma pair_ratio_range bs ss idx ts i : length ss = length bs -> length idx = length bs -> length ts = length bs ->
  (S i < length bs)%nat -> exists r, pair_ratio bs (mk_reps (T := T) calc_e theta bs ss idx ts) (i, S i) = Ok r /\ 0 < r <= 1.
Proof.
  intros H1 H2 H3 Hi.
  assert (N1 : nth_error ss i = Some (nth i ss [])) by (apply nth_error_nth'; lia).
  assert (N2 : nth_error ss (S i) = Some (nth (S i) ss [])) by (apply nth_error_nth'; lia).
  destruct (mk_reps_nth calc_e theta bs ss idx ts i _ H1 H2 H3 N1) as [k1 [t1 [_ [_ E1]]]].
  destruct (mk_reps_nth calc_e theta bs ss idx ts (S i) _ H1 H2 H3 N2) as [k2 [t2 [_ [_ E2]]]].
  unfold pair_ratio. cbn [fst snd]. unfold get at 1 2. rewrite E1, E2. cbn [bind].
  assert (B1 : nth_error bs i = Some (nthR bs i)) by (apply nth_error_nth'; lia).
  assert (B2 : nth_error bs (S i) = Some (nthR bs (S i))) by (apply nth_error_nth'; lia).
  unfold get at 1 2. rewrite B1, B2. cbn [bind]. unfold mk. cbn [r_E]. unfold get. cbn [nth_error bind].
  eexists. split; [reflexivity|]. apply accept_range.
Qed.

Lemma ratio_columns_ok m k default bs : forall reps, Forall2 (pre_ok theta n) bs reps ->
  (m = 0%nat -> exists ss ts, length ss = length bs /\ length ts = length bs /\ Forall (fun s => length s = n /\ Forall spin s) ss /\
     reps = mk_reps (T := T) calc_e theta bs ss (map r_index reps) ts) ->
  exists cols ss ts, length ss = length bs /\ length ts = length bs /\ Forall (fun s => length s = n /\ Forall spin s) ss /\
    ratio_columns g calc_e n m k default bs (all_pairs (length bs)) reps = Ok (cols, mk_reps calc_e theta bs ss (map r_index reps) ts) /\
    length cols = m /\ Forall (fun col => length col = (length bs - 1)%nat /\ Forall (fun r => 0 < r <= 1) col) cols.
Proof.
  induction m as [|m IH]; intros reps Hp H0.
  - destruct (H0 eq_refl) as [ss [ts [L1 [L2 [V E]]]]]. exists [], ss, ts. cbn. repeat split; auto. f_equal. f_equal. exact E.
  - destruct (burn_all_ok g calc_e theta n Hg Hn k default bs reps Hp) as [ss [ts [L1 [L2 [V E]]]]].
    cbn [ratio_columns]. rewrite E. cbn [bind].
    assert (Li : length (map r_index reps) = length bs) by (rewrite map_length; symmetry; eapply Forall2_len; exact Hp).
    destruct (mapM_ok (pair_ratio bs (mk_reps calc_e theta bs ss (map r_index reps) ts)) (fun r => 0 < r <= 1) (all_pairs (length bs))) as [col [Ec [Lc Fc]]].
    { intros p Hin. apply in_map_iff in Hin. destruct Hin as [i [<- Hin]]. apply in_seq in Hin. apply pair_ratio_range; auto. lia. }
    rewrite Ec. cbn [bind].
    destruct (mk_reps_index calc_e theta bs ss (map r_index reps) ts L1 Li L2) as [Ei _].
    destruct (IH (mk_reps calc_e theta bs ss (map r_index reps) ts)) as [cols [ss2 [ts2 [K1 [K2 [K3 [K4 [K5 K6]]]]]]]].
    + now apply mk_reps_pre.
    + intros _. exists ss, ts. rewrite Ei. auto.
    + rewrite Ei in K4. rewrite K4. cbn [bind fst snd]. exists (col :: cols), ss2, ts2. repeat split; auto.
      * cbn. lia.
      * constructor; auto. split; [|exact Fc]. rewrite Lc. unfold all_pairs, range. now rewrite map_length, seq_length.
Qed.

Lemma ratio_mean_range (cols : list (list R)) j w : cols <> [] -> (j < w)%nat ->
  Forall (fun col => length col = w /\ Forall (fun r => 0 < r <= 1) col) cols ->
  0 < meanR (map (fun col => nthR col j) cols) <= 1.
Proof.
  intros Hne Hj HF.
  assert (A : forall x, In x (map (fun col => nthR col j) cols) -> 0 < x <= 1).
  { intros x Hx. apply in_map_iff in Hx. destruct Hx as [col [<- Hc]]. rewrite Forall_forall in HF.
    destruct (HF col Hc) as [Hl Hr]. rewrite Forall_forall in Hr. apply Hr. apply nth_In. lia. }
  assert (N : map (fun col => nthR col j) cols <> []) by (destruct cols; [congruence|discriminate]).
  split; [apply meanR_pos; auto; intros; now apply A | apply meanR_le; auto; intros; now apply A].
Qed.

Lemma acceptance_all_ok m k default bs reps : (0 < m)%nat -> (0 < k)%nat -> Forall2 (pre_ok theta n) bs reps ->
  Forall (fun r => length (r_sample r) = 1%nat) reps ->
  exists ars ss ts, length ss = length bs /\ length ts = length bs /\ Forall (fun s => length s = n /\ Forall spin s) ss /\
    acceptance_ratio g calc_e n m k default bs (all_pairs (length bs)) reps
    = Ok (ars, mk_reps (T := T) calc_e theta bs ss (map r_index reps) ts) /\
    length ars = (length bs - 1)%nat /\ Forall (fun r => 0 < r <= 1) ars.
Proof.
  intros Hm Hk Hp Hs. unfold acceptance_ratio.
  replace (forallb (fun r => Nat.eqb (length (r_sample r)) 1) reps) with true.
  2: { symmetry. apply forallb_forall. intros r Hr. rewrite Forall_forall in Hs. rewrite (Hs r Hr). reflexivity. }
  cbn [negb]. destruct (ratio_columns_ok m k default bs reps Hp) as [cols [ss [ts [K1 [K2 [K3 [K4 [K5 K6]]]]]]]]; [lia|].
  destruct k as [|k]; [lia|]. rewrite K4. cbn [bind fst snd].
  eexists _, ss, ts. repeat split; auto.
  - unfold range. rewrite map_length, seq_length. unfold all_pairs, range. now rewrite map_length, seq_length.
  - apply Forall_forall. intros x Hx. apply in_map_iff in Hx. destruct Hx as [j [<- Hj]]. apply in_seq in Hj.
    unfold all_pairs, range in Hj. rewrite map_length, seq_length in Hj.
    apply (ratio_mean_range cols j (length bs - 1)); [|lia|exact K6]. intros ->. cbn in K5. lia.
Qed.

Lemma update_params_pre : forall (bs bs1 : list R) (ss : list (list Z)) (idx : list nat) (ts : list T),
  length bs1 = length bs -> length ss = length bs -> length idx = length bs -> length ts = length bs ->
  Forall (fun s => length s = n /\ Forall spin s) ss ->
  let reps := update_replica_parameters theta bs1 (mk_reps calc_e theta bs ss idx ts) in
  Forall2 (pre_ok theta n) bs1 reps /\ Forall (fun r => length (r_sample r) = 1%nat) reps /\ map r_index reps = idx.
Proof.
  induction bs as [|b bs IH]; intros [|b1 bs1] [|s ss] [|i idx] [|t ts] H1 H2 H3 H4 HF; cbn in *; try discriminate.
  - repeat constructor.
  - inversion HF as [|? ? [Hl Hs] HF']; subst.
    destruct (IH bs1 ss idx ts) as [J1 [J2 J3]]; auto; try lia.
    unfold update_replica_parameters in J1, J2, J3.
    split; [|split].
    + constructor; [|exact J1]. split; [reflexivity|]. right. exists s. auto.
    + constructor; [reflexivity|exact J2].
    + f_equal. exact J3.
Qed.

Lemma optimize_ok max_iter m k default tol : (0 < m)%nat -> (0 < k)%nat -> forall old bs reps,
  (2 <= length bs)%nat -> increasing bs ->
  Forall2 (pre_ok theta n) bs reps -> Forall (fun r => length (r_sample r) = 1%nat) reps ->
  exists bs' reps', optimize_beta g calc_e n max_iter theta m k default tol old bs reps = Ok (bs', reps') /\
    length bs' = length bs /\ increasing bs' /\ nthR bs' (length bs - 1) = nthR bs (length bs - 1) /\
    Forall2 (pre_ok theta n) bs' reps' /\ Forall (fun r => length (r_sample r) = 1%nat) reps' /\
    map r_index reps' = map r_index reps.
Proof.
  intros Hm Hk. induction max_iter as [|mi IH]; intros old bs reps H2 Hinc Hp Hs.
  - exists bs, reps. cbn. auto 10.
  - cbn [optimize_beta].
    assert (Go : exists bs' reps',
      bind (acceptance_ratio g calc_e n m k default bs (all_pairs (length bs)) reps) (fun ar =>
      bind (iterate_beta bs (fst ar)) (fun beta1 =>
      optimize_beta g calc_e n mi theta m k default tol (Some bs) beta1
        (update_replica_parameters theta beta1 (snd ar)))) = Ok (bs', reps') /\
      length bs' = length bs /\ increasing bs' /\ nthR bs' (length bs - 1) = nthR bs (length bs - 1) /\
      Forall2 (pre_ok theta n) bs' reps' /\ Forall (fun r => length (r_sample r) = 1%nat) reps' /\
      map r_index reps' = map r_index reps).
    { destruct (acceptance_all_ok m k default bs reps Hm Hk Hp Hs) as [ars [ss [ts [L1 [L2 [V [E [La Fa]]]]]]]].
      rewrite E. cbn [bind fst snd]. rewrite Forall_forall in Fa.
      assert (Hne : ars <> []) by (intros ->; cbn in La; lia).
      destruct (iterate_beta_ok bs ars) as [nb [En _]]; auto; try lia.
      destruct (iterate_beta_increasing bs ars nb) as [I1 [I2 I3]]; auto; try lia.
      rewrite En. cbn [bind].
      assert (Li : length (map r_index reps) = length bs) by (rewrite map_length; symmetry; eapply Forall2_len; exact Hp).
      destruct (update_params_pre bs nb ss (map r_index reps) ts I2 L1 Li L2 V) as [U1 [U2 U3]].
      destruct (IH (Some bs) nb (update_replica_parameters theta nb (mk_reps calc_e theta bs ss (map r_index reps) ts)))
        as [bs' [reps' [Q1 [Q2 [Q3 [Q4 [Q5 [Q6 Q7]]]]]]]]; auto; try lia.
      exists bs', reps'. rewrite Q1. rewrite I2 in Q2, Q4. rewrite U3 in Q7. repeat split; auto; congruence. }
    destruct old as [o|].
    + destruct (Rlt_dec tol _); [exact Go|]. exists bs, reps. auto 10.
    + exact Go.
Qed.
End Optimize.

Lemma initialize_beta_facts b0 b1 m : b0 < b1 -> (1 < m)%nat ->
  length (initialize_beta b0 b1 m) = m /\ increasing (initialize_beta b0 b1 m) /\
  nthR (initialize_beta b0 b1 m) 0 = b0 /\ nthR (initialize_beta b0 b1 m) (m - 1) = b1.
Proof.
  intros Hb Hm. unfold initialize_beta.
  assert (N : forall i, (i < m)%nat -> nthR (map (fun i => b0 + INR i * ((b1 - b0) / INR (m - 1))) (range m)) i = b0 + INR i * ((b1 - b0) / INR (m - 1))).
  { intros i Hi. unfold range. now rewrite nthR_map_seq. }
  assert (P : 0 < INR (m - 1)) by (apply lt_0_INR; lia).
  split; [unfold range; now rewrite map_length, seq_length|]. split; [|split].
  - intros i Hi. unfold range in Hi. rewrite map_length, seq_length in Hi. rewrite !N by lia. rewrite S_INR.
    assert (0 < (b1 - b0) / INR (m - 1)) by (apply Rdiv_lt_0_compat; lra). lra.
  - rewrite N by lia. cbn. ring.
  - rewrite N by lia. field. lra.
Qed.

(** ** Averages *)
(** Expected value of F (of the states) after the exchanges at [is], every uniform
    number being averaged over [0,1]. *)
Section Average.
Variable calc_e : list Z -> list R -> R.
Variable theta : list R.
Variable n : nat.

Fixpoint Eexch (bs : list R) (is : list nat) (F : list (replica unit) -> R) (reps : list (replica unit)) : R :=
  match is with
  | [] => F reps
  | i :: is' =>
    RInt (fun u => match exchange (const_rng 0 0 u) calc_e n bs [i] reps tt with
                   | Ok (reps', _) => Eexch bs is' F reps'
                   | Err _ => 0 end) 0 1
  end.

Hypothesis linear : forall s b, calc_e s (scale theta b) = b * calc_e s theta.

Lemma is_RInt_below p a b : 0 <= p <= 1 -> is_RInt (fun u => if Rlt_dec u p then a else b) 0 1 (p * a + (1 - p) * b).
Proof.
  intros [H0 H1].
  replace (p * a + (1 - p) * b) with (plus (scal (p - 0) a) (scal (1 - p) b))
    by (unfold plus, scal; cbn; unfold mult; cbn; ring).
  apply (is_RInt_Chasles _ 0 p 1).
  - apply (is_RInt_ext (fun _ => a)); [|apply (is_RInt_const (V := R_NormedModule) 0 p a)].
    intros x. rewrite Rmin_left, Rmax_right by lra. intros Hx. destruct (Rlt_dec x p); [reflexivity|lra].
  - apply (is_RInt_ext (fun _ => b)); [|apply (is_RInt_const (V := R_NormedModule) p 1 b)].
    intros x. rewrite Rmin_left, Rmax_right by lra. intros Hx. destruct (Rlt_dec x p); [lra|reflexivity].
Qed.

Lemma Eexch_step bs i is F ss idx ts : length ss = length bs -> length idx = length bs -> length ts = length bs ->
  (S i < length bs)%nat -> (forall b, In b bs -> b <> 0) ->
  let p := accept_prob (Etot calc_e theta bs (swap_at i ss) - Etot calc_e theta bs ss) in
  Eexch bs (i :: is) F (mk_reps calc_e theta bs ss idx ts) =
  p * Eexch bs is F (mk_reps calc_e theta bs (swap_at i ss) (swap_at i idx) ts)
  + (1 - p) * Eexch bs is F (mk_reps calc_e theta bs ss idx ts).
Proof.
  intros H1 H2 H3 Hi Hb. cbv zeta. cbn [Eexch]. apply is_RInt_unique.
  eapply is_RInt_ext; [|apply is_RInt_below].
  - intros u _. cbv beta. rewrite exchange_eq; auto; [|intros j [<-|[]]; exact Hi]. cbn [exch fst snd].
    cbn [const_rng rand]. set (p := accept_prob _).
    destruct (Rlt_dec u p); reflexivity.
  - split; [left; apply accept_prob_pos | apply accept_prob_le].
Qed.

(** Expected value of F after [fs] updates of each of the replicas. *)
Fixpoint Eburn (fs : list (option nat)) (bs : list R) (F : list (list Z) -> R) (ss : list (list Z)) : R :=
  match bs, ss with
  | b :: bs', s :: ss' =>
    Erun (eb calc_e theta b) n fs (fun s1 => Eburn fs bs' (fun ss1 => F (s1 :: ss1)) ss') s (eb calc_e theta b s)
  | _, _ => F []
  end.

Definition tuples (m : nat) : list (list (list Z)) := all_states (spin_states n) m.

Lemma tuples_NoDup m : NoDup (tuples m).
Proof. apply all_states_NoDup, spin_states_NoDup. Qed.

Lemma swap_tuples m i ss : In ss (tuples m) -> In (swap_at i ss) (tuples m) /\ swap_at i (swap_at i ss) = ss.
Proof.
  intros H. split; [|apply swap_at_invol]. unfold tuples in *. apply all_states_spec in H. apply all_states_spec.
  destruct H as [H1 H2]. rewrite swap_at_length. split; [exact H1|]. intros x Hx. apply H2.
  eapply Permutation_in; [apply swap_at_perm | exact Hx].
Qed.

Lemma Eburn_stationary fs : (0 < n)%nat -> forall bs F,
  sumf (tuples (length bs)) (fun ss => exp (- Etot calc_e theta bs ss) * Eburn fs bs F ss) =
  sumf (tuples (length bs)) (fun ss => exp (- Etot calc_e theta bs ss) * F ss).
Proof.
  intros Hn. induction bs as [|b bs IH]; intros F; [reflexivity|].
  unfold tuples. cbn [length all_states]. rewrite !sumf_flat_map.
  rewrite (sumf_ext _ _ (fun s => sumf (tuples (length bs)) (fun ss =>
     exp (- Etot calc_e theta bs ss) * (exp (- eb calc_e theta b s) * Eburn fs (b :: bs) F (s :: ss))))).
  2: { intros s. rewrite sumf_map. apply sumf_ext. intros ss. cbn [Etot]. rewrite Ropp_plus_distr, exp_plus. ring. }
  rewrite sumf_swap.
  rewrite (sumf_ext _ _ (fun ss => exp (- Etot calc_e theta bs ss) *
     sumf (spin_states n) (fun s => exp (- eb calc_e theta b s) * Eburn fs bs (fun ss1 => F (s :: ss1)) ss))).
  2: { intros ss. rewrite sumf_scal_l. f_equal. cbn [Eburn].
       rewrite (run_stationary (eb calc_e theta b) n fs (fun s1 => Eburn fs bs (fun ss1 => F (s1 :: ss1)) ss) Hn). reflexivity. }
  rewrite (sumf_ext _ _ (fun ss => sumf (spin_states n) (fun s => exp (- eb calc_e theta b s) * (exp (- Etot calc_e theta bs ss) * Eburn fs bs (fun ss1 => F (s :: ss1)) ss)))).
  2: { intros ss. rewrite <- sumf_scal_l. apply sumf_ext. intros s. ring. }
  rewrite sumf_swap. apply sumf_ext. intros s. rewrite sumf_scal_l, IH, sumf_map, <- sumf_scal_l.
  apply sumf_ext. intros ss. cbn [Etot]. rewrite Ropp_plus_distr, exp_plus. ring.
Qed.

(** The exchanges leave the product weights invariant, for any function of the states. *)
Lemma Eexch_stationary bs is (F : list (list Z) -> R) :
  (forall i, In i is -> (S i < length bs)%nat) -> (forall b, In b bs -> b <> 0) ->
  forall ts, length ts = length bs -> forall idx, length idx = length bs ->
  sumf (tuples (length bs)) (fun ss => exp (- Etot calc_e theta bs ss) *
     Eexch bs is (fun reps => F (map (fun r => nth 0 (r_sample r) []) reps)) (mk_reps calc_e theta bs ss idx ts)) =
  sumf (tuples (length bs)) (fun ss => exp (- Etot calc_e theta bs ss) * F ss).
Proof.
  intros His Hb ts Hts. set (Fr := fun reps : list (replica unit) => F (map (fun r => nth 0 (r_sample r) []) reps)).
  assert (Len : forall ss, In ss (tuples (length bs)) -> length ss = length bs).
  { intros ss H. unfold tuples in H. apply all_states_spec in H. apply H. }
  (* the indices do not matter *)
  assert (Idx : forall is, (forall i, In i is -> (S i < length bs)%nat) -> forall ss idx idx', length ss = length bs ->
     length idx = length bs -> length idx' = length bs ->
     Eexch bs is Fr (mk_reps calc_e theta bs ss idx ts) = Eexch bs is Fr (mk_reps calc_e theta bs ss idx' ts)).
  { clear is His. induction is as [|i is IH]; intros His ss idx idx' H1 H2 H3.
    - cbn [Eexch]. unfold Fr. f_equal.
      assert (G : forall idx, length idx = length bs -> map (fun r => nth 0 (r_sample r) []) (mk_reps calc_e theta bs ss idx ts) = ss).
      { intros j Hj. destruct (mk_reps_index calc_e theta bs ss j ts H1 Hj Hts) as [_ E].
        rewrite <- (map_map (@r_sample unit) (fun x => nth 0 x [])), E, map_map. cbn [nth]. apply map_id. }
      now rewrite !G.
    - rewrite !Eexch_step; auto; try (apply His; now left).
      rewrite (IH ltac:(intros; apply His; now right) (swap_at i ss) (swap_at i idx) (swap_at i idx')) by (rewrite ?swap_at_length; auto).
      rewrite (IH ltac:(intros; apply His; now right) ss idx idx') by auto. reflexivity. }
  induction is as [|i is IH]; intros idx Hidx.
  - apply sumf_ext_in. intros ss Hss. cbn [Eexch]. unfold Fr. do 2 f_equal.
    destruct (mk_reps_index calc_e theta bs ss idx ts (Len ss Hss) Hidx Hts) as [_ E].
    rewrite <- (map_map (@r_sample unit) (fun x => nth 0 x [])), E, map_map. cbn [nth]. apply map_id.
  - assert (His' : forall j, In j is -> (S j < length bs)%nat) by (intros; apply His; now right).
    set (G := fun ss => Eexch bs is Fr (mk_reps calc_e theta bs ss idx ts)).
    set (E := Etot calc_e theta bs).
    assert (Flow := move_flow (tuples (length bs)) (swap_at i) (swap_at i) (tuples_NoDup _)
                     (swap_tuples (length bs) i) (swap_tuples (length bs) i) E G).
    etransitivity; [|exact (IH His' idx Hidx)].
    rewrite (sumf_ext_in _ _ (fun ss => exp (- E ss) * G ss + (exp (- E ss) * accept_prob (E (swap_at i ss) - E ss) * G (swap_at i ss)
                                   - exp (- E ss) * accept_prob (E (swap_at i ss) - E ss) * G ss))).
    + rewrite sumf_plus, sumf_minus, Flow. unfold G, E, Fr. ring.
    + intros ss Hss. rewrite Eexch_step; auto; try (apply His; now left).
      rewrite (Idx is His' (swap_at i ss) (swap_at i idx) idx) by (rewrite ?swap_at_length; auto).
      fold (G (swap_at i ss)). fold (G ss). fold (E ss). fold (E (swap_at i ss)). ring.
Qed.
End Average.
