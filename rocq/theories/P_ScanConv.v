(** * Convergence of systematic scans *)
From Coq Require Import Permutation Classical FunctionalExtensionality.
From Coquelicot Require Import Coquelicot.
From Verif Require Import Prelude Spec PreludeFacts M_Index M_Sampler P_Energy P_Energy2 P_Sampler P_Metro P_Cpp P_Ising P_Converge P_Converge2 P_Converge3 Props_Converge2.
Import ListNotations.
Local Open Scope R_scope.

(** ** Chains that leave a positive distribution invariant *)
Section Ergodic.
Context {X : Type} (dec : forall a b : X, {a = b} + {a <> b}).
Variable St : list X.
Hypothesis Hnd : NoDup St.
Variable P : (X -> R) -> X -> R.
Hypothesis HP : averaging St P.

Definition reach (a b : X) : Prop := exists k, 0 < iterf k P (ind dec b) a.

Lemma ind_ge0 (x y : X) : 0 <= ind dec x y.
Proof. unfold ind. destruct (dec y x); lra. Qed.

Lemma ind_self (x : X) : ind dec x x = 1.
Proof. unfold ind. destruct (dec x x); [reflexivity|congruence]. Qed.

Lemma iter_ge0 k F s : (forall x, In x St -> 0 <= F x) -> In s St -> 0 <= iterf k P F s.
Proof. intros HF Hs. destruct (avg_iter St P k HP) as (_ & _ & _ & A). now apply A. Qed.

Lemma steps_pos k F s x : In s St -> In x St -> (forall y, In y St -> 0 <= F y) -> 0 < iterf k P (ind dec x) s -> 0 < F x -> 0 < iterf k P F s.
Proof. intros Hs Hx HF Hp Hpos. apply (step_pos dec St Hnd (fun F => iterf k P F) F s x); try assumption. now apply avg_iter. Qed.

Lemma steps_trans a b s x y : In s St -> In x St -> 0 < iterf a P (ind dec x) s -> 0 < iterf b P (ind dec y) x -> 0 < iterf (a + b) P (ind dec y) s.
Proof.
  intros Hs Hx H1 H2. rewrite iter_add. apply (steps_pos a _ s x); try assumption. intros z Hz. apply iter_ge0; [|assumption]. intros u _. apply ind_ge0.
Qed.

Lemma reach_refl a : reach a a.
Proof. exists 0%nat. cbn. rewrite ind_self. lra. Qed.

Lemma reach_trans a b c : In a St -> In b St -> reach a b -> reach b c -> reach a c.
Proof. intros Ha Hb [k H1] [l H2]. exists (k + l)%nat. now apply (steps_trans k l a b c). Qed.

Lemma iter_stationary w k G : (forall G, sumf St (fun x => w x * P G x) = sumf St (fun x => w x * G x)) ->
  sumf St (fun x => w x * iterf k P G x) = sumf St (fun x => w x * G x).
Proof. intros H. induction k as [|k IH]; [reflexivity|]. cbn [iterf]. now rewrite H. Qed.

(** The characteristic function of a set of states. *)
Lemma charfun (A : X -> Prop) (l : list X) : exists f : X -> R, forall x, In x l -> (f x = 1 /\ A x) \/ (f x = 0 /\ ~ A x).
Proof.
  induction l as [|a l [f Hf]].
  - exists (fun _ => 0). intros x [].
  - destruct (classic (A a)) as [H|H].
    + exists (fun x => if dec x a then 1 else f x). intros x Hx. destruct (dec x a) as [->|N]; [now left|]. apply Hf. destruct Hx; [congruence|assumption].
    + exists (fun x => if dec x a then 0 else f x). intros x Hx. destruct (dec x a) as [->|N]; [now right|]. apply Hf. destruct Hx; [congruence|assumption].
Qed.

(** A state that can be left for x can be reached again from x. *)
Lemma reach_back w s x : (forall y, In y St -> 0 < w y) -> (forall G, sumf St (fun x => w x * P G x) = sumf St (fun x => w x * G x)) ->
  In s St -> In x St -> reach s x -> reach x s.
Proof.
  intros Hw Hst Hs Hx [k Hk]. apply NNPP. intros N.
  destruct (charfun (reach x) St) as [f Hf].
  assert (F01 : forall y, In y St -> 0 <= f y <= 1) by (intros y Hy; destruct (Hf y Hy) as [[-> _]|[-> _]]; lra).
  destruct (avg_iter St P k HP) as (A1 & A2 & A3 & A4).
  assert (C : forall y, In y St -> reach x y -> iterf k P f y = 1).
  { intros y Hy R1.
    assert (Z : iterf k P (fun z => 1 - f z) y = 0).
    { rewrite (avg_expand dec St Hnd (fun F => iterf k P F) (fun z => 1 - f z) y); [|now apply avg_iter|assumption]. apply sumf_zero. intros z Hz.
      destruct (Hf z Hz) as [[-> _]|[-> NR]]; [ring|]. assert (0 <= iterf k P (ind dec z) y) by (apply iter_ge0; [intros; apply ind_ge0|assumption]).
      destruct (Rle_lt_or_eq_dec 0 _ H) as [L|<-]; [|ring]. exfalso. apply NR. apply (reach_trans x y z); try assumption. now exists k. }
    rewrite (A1 (fun z => 1 - f z) (fun z => 1 * (fun _ => 1) z + (-1) * f z)) in Z; [|intros; ring|assumption]. rewrite A2, A3 in Z by assumption. lra. }
  assert (T : sumf St (fun y => w y * (iterf k P f y - f y)) = 0).
  { rewrite (sumf_ext _ _ (fun y => w y * iterf k P f y - w y * f y)) by (intros; ring). rewrite sumf_minus, (iter_stationary w k f Hst). ring. }
  assert (Nn : forall y, In y St -> 0 <= w y * (iterf k P f y - f y)).
  { intros y Hy. apply Rmult_le_pos; [left; now apply Hw|]. destruct (Hf y Hy) as [[E R1]|[E R1]]; rewrite E.
    - rewrite C by assumption. lra.
    - assert (0 <= iterf k P f y); [|lra]. apply iter_ge0; [|assumption]. intros z Hz. now apply F01. }
  assert (L := sumf_in_le St _ s Nn Hs). cbv beta in L. rewrite T in L.
  destruct (Hf s Hs) as [[_ R1]|[E _]]; [contradiction|]. rewrite E in L.
  assert (Fx : f x = 1). { destruct (Hf x Hx) as [[E' _]|[_ R1]]; [assumption|]. exfalso. apply R1, reach_refl. }
  assert (0 < iterf k P f s). { apply (steps_pos k f s x); try assumption; [intros z Hz; now apply F01|lra]. }
  specialize (Hw s Hs). nra.
Qed.

Lemma reach_bounded l : (forall p, In p l -> reach (fst p) (snd p)) -> exists N, forall p, In p l -> exists k, (k <= N)%nat /\ 0 < iterf k P (ind dec (snd p)) (fst p).
Proof.
  induction l as [|p l IH]; intros H.
  - exists 0%nat. intros p [].
  - destruct IH as [N HN]; [intros q Hq; apply H; now right|]. destruct (H p (or_introl eq_refl)) as [k Hk]. exists (N + k)%nat. intros q [<-|Hq].
    + exists k. split; [lia|assumption].
    + destruct (HN q Hq) as (j & Hj & J). exists j. split; [lia|assumption].
Qed.

(** All states communicate and one can be kept: some power has a lower bound. *)
Lemma ergodic_minor a : In a St -> 0 < P (ind dec a) a -> (forall s s', In s St -> In s' St -> reach s s') ->
  exists m eps, (0 < m)%nat /\ 0 < eps <= 1 /\ minor St eps (fun F => iterf m P F).
Proof.
  intros Ha Hl Hr. destruct (reach_bounded (list_prod St St)) as [N HN].
  { intros [s s'] H. apply in_prod_iff in H. now apply Hr. }
  exists (S (N + N)). destruct (positive_minor dec St Hnd (fun F => iterf (S (N + N)) P F)) as (eps & He & HM); [now apply avg_iter| |exists eps; split; [lia|now split]].
  intros s s' Hs Hs'.
  destruct (HN (s, a) (in_prod _ _ _ _ Hs Ha)) as (k1 & L1 & P1). destruct (HN (a, s') (in_prod _ _ _ _ Ha Hs')) as (k2 & L2 & P2). cbn [fst snd] in *.
  assert (Loop : forall j, 0 < iterf j P (ind dec a) a).
  { induction j as [|j IH]; [cbn; rewrite ind_self; lra|]. apply (steps_trans 1 j a a a); assumption. }
  replace (S (N + N)) with (k1 + ((S (N + N) - k1 - k2) + k2))%nat by lia.
  apply (steps_trans k1 _ s a s'); try assumption. apply (steps_trans _ k2 a a s'); try assumption. apply Loop.
Qed.
End Ergodic.

(** ** Updates of given sites, one after the other *)
Section Seq.
Context {X : Type}.
Variable U : nat -> (X -> R) -> X -> R.

Definition kseq (js : list nat) (G : X -> R) : X -> R := fold_right U G js.

Lemma kseq_app a b G : kseq (a ++ b) G = kseq a (kseq b G).
Proof. apply fold_right_app. Qed.

Variable St : list X.
Hypothesis HU : forall j, averaging St (U j).

Lemma kseq_averaging js : averaging St (kseq js).
Proof. induction js as [|j js IH]; [apply avg_id|]. apply (avg_compose St (U j) (kseq js)); [apply HU|assumption]. Qed.

Lemma kseq_stationary w js G : (forall j G, sumf St (fun x => w x * U j G x) = sumf St (fun x => w x * G x)) ->
  sumf St (fun x => w x * kseq js G x) = sumf St (fun x => w x * G x).
Proof. intros H. induction js as [|j js IH]; [reflexivity|]. cbn [kseq fold_right]. fold (kseq js G). now rewrite H. Qed.

(** Sites a, a+1, ..., a+k-1, modulo n. *)
Definition cyc (n a k : nat) : list nat := map (fun i => (i mod n)%nat) (seq a k).

Lemma cyc_app n a k l : cyc n a (k + l) = cyc n a k ++ cyc n (a + k) l.
Proof. unfold cyc. now rewrite seq_app, map_app. Qed.

Lemma cyc_shift n a k : (0 < n)%nat -> cyc n (a + n) k = cyc n a k.
Proof.
  intros Hn. unfold cyc. revert a. induction k as [|k IH]; intros a; [reflexivity|]. cbn [seq map]. f_equal; [|exact (IH (S a))].
  replace (a + n)%nat with (a + 1 * n)%nat by lia. apply Nat.mod_add. lia.
Qed.

Lemma cyc_shifts n a q k : (0 < n)%nat -> cyc n (a + q * n) k = cyc n a k.
Proof. intros Hn. induction q as [|q IH]; [now rewrite Nat.add_0_r|]. replace (a + S q * n)%nat with (a + q * n + n)%nat by lia. now rewrite cyc_shift. Qed.

Lemma cyc_mod n a k : (0 < n)%nat -> cyc n a k = cyc n (a mod n) k.
Proof. intros Hn. rewrite (Nat.div_mod a n) at 1 by lia. rewrite Nat.add_comm, Nat.mul_comm. now apply cyc_shifts. Qed.

Lemma cyc_sweeps n a q G : (0 < n)%nat -> kseq (cyc n a (q * n)) G = iterf q (kseq (cyc n a n)) G.
Proof.
  intros Hn. induction q as [|q IH]; [reflexivity|]. cbn [Nat.mul iterf]. rewrite cyc_app, kseq_app, cyc_shift by assumption. now rewrite IH.
Qed.

Lemma cyc_covers n a k i : (i < n)%nat -> (n <= k)%nat -> In i (cyc n a k).
Proof.
  intros Hi Hk. apply in_map_iff. assert (M := Nat.mod_upper_bound a n ltac:(lia)). assert (D := Nat.div_mod a n ltac:(lia)).
  destruct (Nat.le_gt_cases (a mod n) i) as [L|L].
  - exists (a + (i - a mod n))%nat. split; [|apply in_seq; lia]. replace (a + (i - a mod n))%nat with (i + (a / n) * n)%nat by nia. rewrite Nat.mod_add by lia. now apply Nat.mod_small.
  - exists (a + (n + i - a mod n))%nat. split; [|apply in_seq; lia]. replace (a + (n + i - a mod n))%nat with (i + (a / n + 1) * n)%nat by nia. rewrite Nat.mod_add by lia. now apply Nat.mod_small.
Qed.

Lemma cyc_lt n a k : (0 < n)%nat -> Forall (fun i => (i < n)%nat) (cyc n a k).
Proof. intros Hn. apply Forall_forall. intros i Hi. apply in_map_iff in Hi. destruct Hi as (x & <- & _). apply Nat.mod_upper_bound. lia. Qed.

Lemma sites_cyc n k : sites true n k = map Some (cyc n 0 k).
Proof. unfold sites, cyc, range. now rewrite map_map. Qed.
End Seq.

(** ** From lower bounds to convergence *)
Section Rate.
Context {X : Type} (dec : forall a b : X, {a = b} + {a <> b}).
Variable St : list X.
Hypothesis Hnd : NoDup St.
Hypothesis Hne : St <> [].
Variable U : nat -> (X -> R) -> X -> R.
Hypothesis HU : forall j, averaging St (U j).
Variable w : X -> R.
Hypothesis Hw : dist St w.
Hypothesis Hst : forall j G, sumf St (fun x => w x * U j G x) = sumf St (fun x => w x * G x).
Variable n : nat.
Hypothesis Hn : (0 < n)%nat.
Hypothesis Hcov : forall js, Forall (fun i => (i < n)%nat) js -> (forall i, (i < n)%nat -> In i js) ->
  exists m eps, (0 < m)%nat /\ 0 < eps <= 1 /\ minor St eps (fun F => iterf m (kseq U js) F).

Lemma kseq_between js F B : (forall x, In x St -> Rabs (F x) <= B) -> forall x, In x St -> - B <= kseq U js F x <= B.
Proof.
  intros HF x Hx. assert (A := kseq_averaging U St HU js). assert (A' := A). destruct A' as (_ & _ & A3 & _).
  assert (HF' : forall x, In x St -> - B <= F x <= B) by (intros y Hy; now apply Rabs_le_between, HF).
  split; [rewrite <- (A3 (- B) x Hx)|rewrite <- (A3 B x Hx)]; apply (avg_ge St (kseq U js)); try assumption; intros y Hy; now apply HF'.
Qed.

(** N updates from site 0 on, followed by anything that leaves w invariant. *)
Lemma cyc_rate : exists rho m0, 0 <= rho < 1 /\ (0 < m0)%nat /\ forall F B js N s, (forall x, In x St -> Rabs (F x) <= B) -> In s St ->
  Rabs (kseq U (cyc n 0 N ++ js) F s - sumf St (fun x => w x * F x)) <= 2 * B * rho ^ (N / n / m0).
Proof.
  destruct (Hcov (cyc n 0 n) (cyc_lt n 0 n Hn) (fun i Hi => cyc_covers n 0 n i Hi (Nat.le_refl n))) as (m0 & eps & Hm & He & HM).
  exists (1 - eps), m0. split; [lra|]. split; [assumption|]. intros F B js N s HF Hs.
  set (r := cyc n 0 (N mod n)). assert (E : cyc n 0 N = cyc n 0 (N / n * n) ++ r).
  { rewrite (Nat.div_mod N n) at 1 by lia. rewrite (Nat.mul_comm n), cyc_app, cyc_shifts by assumption. reflexivity. }
  rewrite E, <- app_assoc, kseq_app, cyc_sweeps by assumption. set (F' := kseq U (r ++ js) F).
  assert (EF : sumf St (fun x => w x * F x) = sumf St (fun x => w x * F' x)) by (symmetry; now apply kseq_stationary).
  rewrite EF, Rmult_comm. replace (2 * B) with (B - - B) by ring.
  apply (iter_converges St Hnd Hne (kseq U (cyc n 0 n)) m0 eps w F' (- B) B); try assumption; try lra.
  - now apply kseq_averaging.
  - intros G. now apply kseq_stationary.
  - intros x Hx. now apply kseq_between.
Qed.

(** Averages over m states, the sites js being updated before each. *)
Lemma scan_errors js : Forall (fun i => (i < n)%nat) js -> (forall i, (i < n)%nat -> In i js) -> exists C, 0 <= C /\ forall F B, (forall x, In x St -> Rabs (F x) <= B) ->
  forall bs q m s, (0 < q)%nat -> (0 < m)%nat -> In s St ->
  let err := fun rows => sumf rows F / INR m - sumf St (fun x => w x * F x) in
  kseq U bs (rows_exp (fun F => iterf q (kseq U js) F) m (fun rows => err rows ^ 2)) s <= C * B ^ 2 / INR m /\
  forall d, 0 < d -> kseq U bs (rows_exp (fun F => iterf q (kseq U js) F) m (fun rows => if Rlt_dec d (Rabs (err rows)) then 1 else 0)) s <= C * B ^ 2 / (INR m * d ^ 2).
Proof.
  intros H1 H2. destruct (Hcov js H1 H2) as (m0 & eps & Hm & He & HM). exists (4 * (1 + 2 * INR m0 / eps)). split.
  { assert (0 <= INR m0 / eps); [|lra]. apply Rmult_le_pos; [apply pos_INR|left; apply Rinv_0_lt_compat; lra]. }
  intros F B HF bs q m s Hq Hm' Hs err.
  assert (A := kseq_averaging U St HU bs).
  assert (K : forall G c, (forall x, In x St -> G x <= c) -> kseq U bs G s <= c).
  { intros G c HG. destruct A as (_ & _ & A3 & _). rewrite <- (A3 c s Hs). apply (avg_ge St (kseq U bs)); try assumption. now apply kseq_averaging. }
  assert (S : forall x, In x St -> _) by (intros x Hx; exact (sample_errors dec St (kseq U js) m0 eps w F B Hnd Hne He Hm (kseq_averaging U St HU js) HM Hw (fun G => kseq_stationary U St w js G Hst) HF 0 q m x Hq Hm' Hx)).
  split; [|intros d Hd]; apply K; intros x Hx; destruct (S x Hx) as [S1 S2]; [exact S1|now apply S2].
Qed.

(** One constant for finitely many lists of sites. *)
Lemma scan_errors_all (f : nat -> list nat) : (forall a, Forall (fun i => (i < n)%nat) (f a) /\ (forall i, (i < n)%nat -> In i (f a))) ->
  forall N, exists C, 0 <= C /\ forall a, (a < N)%nat -> forall F B, (forall x, In x St -> Rabs (F x) <= B) ->
  forall bs q m s, (0 < q)%nat -> (0 < m)%nat -> In s St ->
  let err := fun rows => sumf rows F / INR m - sumf St (fun x => w x * F x) in
  kseq U bs (rows_exp (fun F => iterf q (kseq U (f a)) F) m (fun rows => err rows ^ 2)) s <= C * B ^ 2 / INR m /\
  forall d, 0 < d -> kseq U bs (rows_exp (fun F => iterf q (kseq U (f a)) F) m (fun rows => if Rlt_dec d (Rabs (err rows)) then 1 else 0)) s <= C * B ^ 2 / (INR m * d ^ 2).
Proof.
  intros Hf. induction N as [|N (C & C0 & IH)].
  - exists 0. split; [lra|]. intros a Ha. lia.
  - destruct (scan_errors (f N) (proj1 (Hf N)) (proj2 (Hf N))) as (C' & C0' & HN). exists (C + C'). split; [lra|].
    intros a Ha F B HF bs q m s Hq Hm Hs err. assert (Pm : 0 < INR m) by (now apply lt_0_INR). assert (B2 := pow2_ge_0 B).
    assert (M1 : forall c c', 0 <= c' -> c * B ^ 2 / INR m <= (c + c') * B ^ 2 / INR m).
    { intros c c' Hc. apply Rmult_le_compat_r; [left; now apply Rinv_0_lt_compat|]. apply Rmult_le_compat_r; lra. }
    assert (M2 : forall c c' d, 0 < d -> 0 <= c' -> c * B ^ 2 / (INR m * d ^ 2) <= (c + c') * B ^ 2 / (INR m * d ^ 2)).
    { intros c c' d Hd Hc. apply Rmult_le_compat_r; [left; apply Rinv_0_lt_compat, Rmult_lt_0_compat; [assumption|now apply pow_lt]|]. apply Rmult_le_compat_r; lra. }
    destruct (Nat.eq_dec a N) as [->|Na].
    + destruct (HN F B HF bs q m s Hq Hm Hs) as [S1 S2]. split; [|intros d Hd]; rewrite (Rplus_comm C C').
      * eapply Rle_trans; [exact S1|now apply M1].
      * eapply Rle_trans; [now apply S2|now apply M2].
    + destruct (IH a ltac:(lia) F B HF bs q m s Hq Hm Hs) as [S1 S2]. split; [|intros d Hd].
      * eapply Rle_trans; [exact S1|now apply M1].
      * eapply Rle_trans; [now apply S2|now apply M2].
Qed.
End Rate.

(** ** Ising: a scan that visits every site, when no single flip leaves the energy unchanged *)
Section IsingScan.
Variable E : list Z -> R.
Variable n : nat.
Hypothesis Hn : (0 < n)%nat.
Notation St := (spin_states n).
Hypothesis NT : forall s i, In s St -> (i < n)%nat -> E (flip s i) <> E s.

Lemma kernel_averaging j : averaging St (kernel E j).
Proof.
  repeat split.
  - intros F G H s Hs. unfold kernel. rewrite (H s Hs), (H (flip s j)); [reflexivity|]. now apply flip_in_states.
  - intros a b F G s Hs. unfold kernel. ring.
  - intros c s Hs. unfold kernel. ring.
  - intros F H s Hs. unfold kernel.
    assert (A := accept_prob_pos (E (flip s j) - E s)). assert (B := accept_prob_le (E (flip s j) - E s)).
    assert (H1 := H s Hs). assert (H2 := H (flip s j) ltac:(now apply flip_in_states)). nra.
Qed.

Notation I := (ind state_eq_dec).

Lemma kseq_ge0 js G s : (forall s, 0 <= G s) -> 0 <= kseq (kernel E) js G s.
Proof. intros H. revert s. induction js as [|j js IH]; intros s; [apply H|]. cbn [kseq fold_right]. now apply kernel_nonneg. Qed.

Lemma stay_pos j G s : (forall s, 0 <= G s) -> E s < E (flip s j) -> 0 < G s -> 0 < kernel E j G s.
Proof.
  intros HG HE Hs. unfold kernel. assert (A : accept_prob (E (flip s j) - E s) < 1).
  { unfold accept_prob. apply Rle_lt_trans with (exp (- (E (flip s j) - E s))); [apply Rmin_r|]. rewrite <- exp_0. apply exp_increasing. lra. }
  assert (P := accept_prob_pos (E (flip s j) - E s)). assert (N := HG (flip s j)). nra.
Qed.

(** Every site of js is flipped. *)
Notation T js s := (fold_left flip js s).

Lemma T_in js s : In s St -> In (T js s) St.
Proof. revert s. induction js as [|j js IH]; intros s Hs; [assumption|]. cbn. apply IH. now apply flip_in_states. Qed.

Lemma flip_swap s i j : flip (flip s i) j = flip (flip s j) i.
Proof.
  destruct (Nat.eq_dec i j) as [->|N]; [reflexivity|]. rewrite !flip_upd. apply (list_eq_nth 0%Z); [now rewrite !upd_length|].
  intros k Hk. rewrite !upd_length in Hk. rewrite (nth_upd_other s j i), (nth_upd_other s i j) by congruence.
  destruct (Nat.eq_dec k i) as [->|Ki].
  - rewrite (nth_upd_other _ j i), !nth_upd_same by (congruence || (rewrite ?upd_length; assumption)). reflexivity.
  - rewrite (nth_upd_other (upd s j _) i k) by congruence. destruct (Nat.eq_dec k j) as [->|Kj].
    + rewrite !nth_upd_same by (rewrite ?upd_length; assumption). reflexivity.
    + rewrite !nth_upd_other by congruence. reflexivity.
Qed.

Lemma T_flip js s i : T js (flip s i) = flip (T js s) i.
Proof. revert s. induction js as [|j js IH]; intros s; [reflexivity|]. cbn [fold_left]. now rewrite flip_swap, IH. Qed.

Lemma T_twice js s : T js (T js s) = s.
Proof. revert s. induction js as [|j js IH]; intros s; [reflexivity|]. cbn [fold_left]. now rewrite (T_flip js (T js (flip s j)) j), IH, flip_flip. Qed.

Lemma all_flip_pos js s G : (forall s, 0 <= G s) -> 0 < G (T js s) -> 0 < kseq (kernel E) js G s.
Proof.
  intros HG. revert s. induction js as [|j js IH]; intros s H; [exact H|]. cbn [fold_left kseq fold_right] in *. apply kernel_ge; [intros x; now apply kseq_ge0|]. now apply IH.
Qed.

(** One visit of site i leaves it as it is. *)
Lemma one_stay_pos js1 js2 i s : E (T js1 s) < E (flip (T js1 s) i) -> 0 < kseq (kernel E) (js1 ++ i :: js2) (I (T js2 (T js1 s))) s.
Proof.
  intros H. rewrite kseq_app. apply all_flip_pos; [intros x; apply kseq_ge0; intros; apply ind_nonneg|]. cbn [kseq fold_right]. apply stay_pos; [intros x; apply kseq_ge0; intros; apply ind_nonneg|assumption|].
  apply all_flip_pos; [intros; apply ind_nonneg|]. rewrite (ind_self state_eq_dec). lra.
Qed.

Lemma scan_reach_flip js s i : In s St -> (i < n)%nat -> In i js -> reach state_eq_dec (kseq (kernel E) js) s (flip s i).
Proof.
  intros Hs Hi Hin. destruct (in_split _ _ Hin) as (js1 & js2 & Ejs). assert (HP := kseq_averaging (kernel E) St kernel_averaging js).
  set (P := kseq (kernel E) js) in *. assert (Hf : In (flip s i) St) by (now apply flip_in_states). assert (HT : In (T js s) St) by (now apply T_in).
  assert (One : forall a b, 0 < P (I b) a -> reach state_eq_dec P a b) by (intros a b H; now exists 1%nat).
  assert (All : forall a, reach state_eq_dec P a (T js a)).
  { intros a. apply One. apply all_flip_pos; [intros; apply ind_nonneg|]. rewrite (ind_self state_eq_dec). lra. }
  assert (ET : forall a, T js2 (T js1 a) = T js (flip a i)).
  { intros a. rewrite Ejs, fold_left_app. cbn [fold_left]. now rewrite (T_flip js1 a i), flip_flip. }
  set (s1 := T js1 s). assert (Hs1 : In s1 St) by (now apply T_in).
  destruct (Rtotal_order (E s1) (E (flip s1 i))) as [L|[L|L]].
  - assert (Hff : In (T js (flip s i)) St) by (now apply T_in). apply (reach_trans state_eq_dec St (spin_states_NoDup n) P HP s (T js (flip s i))); try assumption.
    + apply One. unfold P. rewrite Ejs at 1. rewrite <- ET. now apply one_stay_pos.
    + rewrite <- (T_twice js (flip s i)) at 2. apply All.
  - exfalso. apply (NT s1 i); auto.
  - apply (reach_back state_eq_dec St (spin_states_NoDup n) P HP (boltzmann E St)); try assumption.
    + intros y _. unfold boltzmann. apply Rdiv_lt_0_compat; [apply exp_pos|]. apply sumf_pos; [apply spin_states_ne|intros; apply exp_pos].
    + intros G. apply kseq_stationary. intros j G'. apply (boltzmann_stationary E St (kernel E j)). intros F. apply kernel_stationary.
    + apply (reach_trans state_eq_dec St (spin_states_NoDup n) P HP (flip s i) (T js s)); try assumption.
      * apply One. unfold P. rewrite Ejs at 1. replace (T js s) with (T js2 (T js1 (flip s i))) by (rewrite ET; now rewrite flip_flip). apply one_stay_pos. rewrite T_flip, flip_flip. exact L.
      * rewrite <- (T_twice js s) at 2. apply All.
Qed.

Lemma lowest (St' : list (list Z)) : St' <> [] -> exists a, In a St' /\ forall s, In s St' -> E a <= E s.
Proof.
  induction St' as [|a l IH]; [congruence|]. intros _. destruct l as [|b l].
  - exists a. split; [now left|]. intros s [<-|[]]. lra.
  - destruct IH as (c & Hc & Hm); [discriminate|]. destruct (Rle_lt_dec (E a) (E c)) as [L|L].
    + exists a. split; [now left|]. intros s [<-|Hs]; [lra|]. specialize (Hm s Hs). lra.
    + exists c. split; [now right|]. intros s [<-|Hs]; [lra|now apply Hm].
Qed.

Lemma scan_minor js : Forall (fun i => (i < n)%nat) js -> (forall i, (i < n)%nat -> In i js) ->
  exists m eps, (0 < m)%nat /\ 0 < eps <= 1 /\ minor St eps (fun F => iterf m (kseq (kernel E) js) F).
Proof.
  intros Hjs Hc. assert (HP := kseq_averaging (kernel E) St kernel_averaging js). destruct (lowest St (spin_states_ne n)) as (a & Ha & Hm).
  apply (ergodic_minor state_eq_dec St (spin_states_NoDup n) _ HP a Ha).
  - assert (G : forall l, Forall (fun i => (i < n)%nat) l -> 0 < kseq (kernel E) l (I a) a).
    { induction l as [|j l IH]; intros H; [cbn; rewrite (ind_self state_eq_dec); lra|]. inversion H; subst. cbn [kseq fold_right]. apply stay_pos; [intros; apply kseq_ge0; intros; apply ind_nonneg| |now apply IH].
      assert (Hj := Hm (flip a j) ltac:(now apply flip_in_states)). assert (Nj := NT a j Ha ltac:(assumption)). lra. }
    now apply G.
  - intros s s' Hs Hs'. rewrite <- (flip_to n s s' Hs Hs'). assert (L : length s = n) by (now apply spin_states_spec in Hs). assert (D := diff_sites_lt n s s' L).
    revert D. clear L Hs'. generalize (diff_sites s s'). intros l. revert s Hs. induction l as [|j l IH]; intros s Hs D; [apply reach_refl|]. inversion_clear D as [|? ? Dj Dl]. cbn [fold_left].
    assert (Hf : In (flip s j) St) by (now apply flip_in_states).
    apply (reach_trans state_eq_dec St (spin_states_NoDup _) _ HP s (flip s j)); try assumption; [|now apply IH].
    apply scan_reach_flip; try assumption. now apply Hc.
Qed.
End IsingScan.

(** ** Potts: two scans that visit every site reach every state *)
Section PottsScan.
Variable E : list nat -> R.
Variable n : nat.
Notation St := (potts_states n).

(** One update of site j, averaged over the increment and the uniform number. *)
Definition pk (j : nat) (G : list nat -> R) (s : list nat) : R := sumf [1; 2]%nat (fun r => pkernel E j r G s) / 2.

Lemma pk_averaging j : averaging St (pk j).
Proof.
  repeat split.
  - intros F G H s Hs. unfold pk. f_equal. apply sumf_ext_in. intros r Hr. unfold pkernel. rewrite (H s Hs), (H (shift3 s j r)); [reflexivity|]. apply shift3_back; [now apply in_12|assumption].
  - intros a b F G s Hs. unfold pk. rewrite (sumf_ext _ _ (fun r => a * pkernel E j r F s + b * pkernel E j r G s)) by (intros r; unfold pkernel; ring). rewrite sumf_plus, !sumf_scal_l. unfold Rdiv. ring.
  - intros c s Hs. unfold pk. rewrite (sumf_ext _ _ (fun _ => c)) by (intros r; unfold pkernel; ring). rewrite sumf_const. cbn. field.
  - intros F H s Hs. unfold pk. apply Rmult_le_pos; [|lra]. apply sumf_nonneg. intros r Hr. unfold pkernel.
    assert (A := accept_prob_pos (E (shift3 s j r) - E s)). assert (B := accept_prob_le (E (shift3 s j r) - E s)).
    assert (H1 := H s Hs). assert (H2 := H (shift3 s j r) ltac:(apply shift3_back; [now apply in_12|assumption])). nra.
Qed.

Lemma pk_ge0 j G s : (forall s, 0 <= G s) -> 0 <= pk j G s.
Proof. intros H. unfold pk. apply Rmult_le_pos; [|lra]. apply sumf_nonneg. intros r _. now apply pkernel_nonneg. Qed.

Lemma pk_pos j r G s : (forall s, 0 <= G s) -> In r [1; 2]%nat -> 0 < G (shift3 s j r) -> 0 < pk j G s.
Proof.
  intros HG Hr Hp. unfold pk. apply Rdiv_lt_0_compat; [|lra]. eapply Rlt_le_trans; [|apply (sumf_in_le _ _ r); [|assumption]].
  - unfold pkernel. assert (P := accept_prob_pos (E (shift3 s j r) - E s)). assert (L := accept_prob_le (E (shift3 s j r) - E s)). assert (H1 := HG s). nra.
  - intros k _. now apply pkernel_nonneg.
Qed.

Lemma pseq_ge0 js G s : (forall s, 0 <= G s) -> 0 <= kseq pk js G s.
Proof. intros H. revert s. induction js as [|j js IH]; intros s; [apply H|]. cbn [kseq fold_right]. now apply pk_ge0. Qed.

Lemma pk_stationary j G : sumf St (fun x => boltzmann E St x * pk j G x) = sumf St (fun x => boltzmann E St x * G x).
Proof.
  apply (boltzmann_stationary E St (pk j)). intros F. rewrite <- (pkernel_stationary E n j F). apply sumf_ext. intros s. unfold pk, Rdiv. ring.
Qed.

Lemma residue_hit a x : (a < 3)%nat -> (x < 3)%nat -> x <> a -> exists r, In r [1; 2]%nat /\ ((a + r) mod 3 = x)%nat.
Proof.
  intros Ha Hx N. destruct a as [|[|[|]]]; try lia; destruct x as [|[|[|]]]; try lia.
  all: first [exists 1%nat; split; [now left|reflexivity] | exists 2%nat; split; [right; now left|reflexivity]].
Qed.

Lemma residue_miss a x : (a < 3)%nat -> (x < 3)%nat -> exists r, In r [1; 2]%nat /\ x <> ((a + r) mod 3)%nat.
Proof.
  intros Ha Hx. destruct a as [|[|[|]]]; try lia; destruct x as [|[|[|]]]; try lia.
  all: first [exists 1%nat; split; [now left|cbn; lia] | exists 2%nat; split; [right; now left|cbn; lia]].
Qed.

(** Sites updated once must change, sites updated twice or more can take any value. *)
Lemma pseq_pos x : In x St -> forall L s, Forall (fun i => (i < n)%nat) L -> In s St ->
  (forall i, (i < n)%nat -> (count_occ Nat.eq_dec L i = 0%nat -> nth i x 0%nat = nth i s 0%nat) /\ (count_occ Nat.eq_dec L i = 1%nat -> nth i x 0%nat <> nth i s 0%nat)) ->
  0 < kseq pk L (ind pstate_eq_dec x) s.
Proof.
  intros Hx. assert (Lx : length x = n) by (now apply potts_states_spec in Hx).
  assert (V : forall s i, In s St -> (i < n)%nat -> (nth i s 0 < 3)%nat).
  { intros s i Hs Hi. apply potts_states_spec in Hs. destruct Hs. apply (Forall_nth_in potts3); [assumption|lia]. }
  induction L as [|j L IH]; intros s HL Hs H; assert (Ls : length s = n) by (now apply potts_states_spec in Hs).
  - replace s with x; [cbn; rewrite (ind_self pstate_eq_dec); lra|]. apply (list_eq_nth 0%nat); [congruence|]. intros i Hi. apply H; [lia|reflexivity].
  - inversion_clear HL as [|? ? Hj HL']. destruct (H j Hj) as [_ H1]. cbn [count_occ] in H1. destruct (Nat.eq_dec j j) as [_|]; [|congruence].
    assert (K : exists v r, In r [1; 2]%nat /\ ((nth j s 0 + r) mod 3 = v)%nat /\ (count_occ Nat.eq_dec L j = 0%nat -> nth j x 0%nat = v) /\ (count_occ Nat.eq_dec L j = 1%nat -> nth j x 0%nat <> v)).
    { assert (Vs := V s j Hs Hj). assert (Vx := V x j Hx Hj). destruct (count_occ Nat.eq_dec L j) as [|[|c]].
      - specialize (H1 eq_refl). destruct (residue_hit _ _ Vs Vx H1) as (r & Hr & Er). exists (nth j x 0%nat), r. split; [assumption|]. split; [assumption|]. split; [reflexivity|discriminate].
      - destruct (residue_miss _ _ Vs Vx) as (r & Hr & Er). exists ((nth j s 0 + r) mod 3)%nat, r. split; [assumption|]. split; [reflexivity|]. split; [discriminate|intros _; assumption].
      - exists ((nth j s 0 + 1) mod 3)%nat, 1%nat. split; [now left|]. split; [reflexivity|]. split; discriminate. }
    destruct K as (v & r & Hr & Ev & K0 & K1). cbn [kseq fold_right]. apply (pk_pos j r); [intros; apply pseq_ge0; intros; apply ind_ge0|assumption|].
    apply IH; [assumption|apply shift3_back; [now apply in_12|assumption]|]. intros i Hi. unfold shift3. rewrite Ev. destruct (Nat.eq_dec j i) as [->|N].
    + rewrite nth_upd_same by lia. split; assumption.
    + rewrite nth_upd_other by assumption. destruct (H i Hi) as [A B]. cbn [count_occ] in A, B. destruct (Nat.eq_dec j i); [congruence|]. split; assumption.
Qed.

Lemma potts_scan_minor js : Forall (fun i => (i < n)%nat) js -> (forall i, (i < n)%nat -> In i js) ->
  exists m eps, (0 < m)%nat /\ 0 < eps <= 1 /\ minor St eps (fun F => iterf m (kseq pk js) F).
Proof.
  intros Hjs Hc. exists 2%nat. destruct (positive_minor pstate_eq_dec St (potts_states_NoDup n) (fun F => iterf 2 (kseq pk js) F)) as (eps & He & HM); [apply avg_iter, kseq_averaging, pk_averaging| |exists eps; split; [lia|now split]].
  intros s x Hs Hx. cbn [iterf]. rewrite <- kseq_app. apply pseq_pos; try assumption; [apply Forall_app; now split|].
  intros i Hi. rewrite count_occ_app. assert (C := proj1 (count_occ_In Nat.eq_dec js i) (Hc i Hi)). split; lia.
Qed.
End PottsScan.

(** ** The laws of the rows *)
Section TapeScan.
Context {V Ev : Type}.
Variable Ee : (Ev -> R) -> R.
Variable okev : Ev -> Prop.
Hypothesis Ee_ext : forall H H', (forall e, okev e -> H e = H' e) -> Ee H = Ee H'.
Hypothesis Ee_const : forall c, Ee (fun _ => c) = c.
Variable calc_e : list V -> R.
Variable ok : list V -> Prop.
Variable n : nat.
Hypothesis Hn : (0 < n)%nat.
Variable U : nat -> (list V -> R) -> list V -> R.

(** phi, a function of the state, the energy and the draws to come, has expectation psi of the state
    whenever at least N draws are left. *)
Definition law (N : nat) (phi : list V -> R -> @tstate Ev -> R) (psi : list V -> R) : Prop :=
  forall N' s c, (N <= N')%nat -> ok s -> Etape Ee N' (fun l => phi s (calc_e s) (l, c)) = psi s.

Lemma Etape_const N c : Etape Ee N (fun _ => c) = c.
Proof. induction N as [|N IH]; [reflexivity|]. cbn [Etape]. rewrite (Ee_ext _ (fun _ => c)); [apply Ee_const|]. intros e _. apply IH. Qed.

(** Expected value of G of the m states reached, the i-th by Qs i. *)
Fixpoint rows_seq (Qs : nat -> (list V -> R) -> list V -> R) (m : nat) (G : list (list V) -> R) (s : list V) : R :=
  match m with O => G [] | S m' => Qs 0%nat (fun x => rows_seq (fun i => Qs (S i)) m' (fun rows => G (x :: rows)) x) s end.

Section PyScan.
Variable step : option nat -> list V -> R -> @tstate Ev -> list V * R * @tstate Ev.
Hypothesis step_law : forall N phi psi j, law N phi psi -> (j < n)%nat ->
  law (S N) (fun s E t => let '(s1, de, t1) := step (Some j) s E t in phi s1 (E + de) t1) (U j psi).

Lemma run_law js : Forall (fun j => (j < n)%nat) js -> forall N phi psi, law N phi psi ->
  law (length js + N) (fun s E t => let '((s1, E1, t1), _) := run step (map Some js) s E t in phi s1 E1 t1) (kseq U js psi).
Proof.
  induction js as [|j js IH]; intros Hj N phi psi HL; [exact HL|]. inversion_clear Hj as [|? ? Hj' Hjs].
  assert (L := step_law _ _ _ j (IH Hjs N phi psi HL) Hj'). intros N' s c HN Hs. cbn [length Nat.add] in HN. etransitivity; [|exact (L N' s c HN Hs)].
  apply (Etape_ext Ee okev Ee_ext). intros l _ _. cbn [map run]. destruct (step (Some j) s (calc_e s) (l, c)) as [[s1 de] t1].
  destruct (run step (map Some js) s1 (calc_e s + de) t1) as [[[s2 E2] t2] h]. reflexivity.
Qed.

Lemma record_law js : Forall (fun j => (j < n)%nat) js -> forall m G,
  law (m * length js) (fun s E t => let '((ss, _), _, _) := record step (map Some js) m s E t in G ss) (rows_exp (kseq U js) m G).
Proof.
  intros Hj. induction m as [|m IH]; intros G.
  - intros N' s c _ _. cbn. apply Etape_const.
  - assert (L := run_law js Hj (m * length js) (fun s1 E1 t1 => let '((ss, _), _, _) := record step (map Some js) m s1 E1 t1 in G (s1 :: ss)) (fun s1 => rows_exp (kseq U js) m (fun rows => G (s1 :: rows)) s1)).
    intros N' s c HN Hs. cbn [rows_exp]. rewrite <- (L (fun N'' s1 c1 HN1 Hs1 => IH (fun rows => G (s1 :: rows)) N'' s1 c1 HN1 Hs1) N' s c HN Hs).
    apply (Etape_ext Ee okev Ee_ext). intros l _ _. cbn [record]. destruct (run step (map Some js) s (calc_e s) (l, c)) as [[[s1 E1] t1] h1].
    destruct (record step (map Some js) m s1 E1 t1) as [[[ss Es] fin] h2]. reflexivity.
Qed.

Lemma generate_law random_row m k burn_in samples (G : list (list V) -> R) s0 c z N' : ok s0 -> length s0 = n -> (burn_in_or burn_in k + m * k <= N')%nat ->
  Etape Ee N' (fun l => match generate_sample_py step random_row calc_e n m k burn_in true samples (Some [s0]) (l, c) with Ok r => G (g_sample r) | Err _ => z end) =
  kseq U (cyc n 0 (burn_in_or burn_in k)) (rows_exp (kseq U (cyc n 0 k)) m G) s0.
Proof.
  intros Hs Hl HN. set (b := burn_in_or burn_in k).
  assert (LC : forall j, length (cyc n 0 j) = j) by (intros j; unfold cyc; now rewrite map_length, seq_length).
  assert (L := run_law (cyc n 0 b) (cyc_lt n 0 b Hn) (m * length (cyc n 0 k)) _ _ (record_law (cyc n 0 k) (cyc_lt n 0 k Hn) m G)).
  rewrite !LC in L. rewrite <- (L N' s0 c HN Hs). apply (Etape_ext Ee okev Ee_ext). intros l _ _. unfold generate_sample_py. cbn [length Nat.eqb forallb andb]. rewrite Hl, Nat.eqb_refl. cbn [andb bind]. fold b. rewrite !sites_cyc.
  destruct (run step (map Some (cyc n 0 b)) s0 (calc_e s0) (l, c)) as [[[s1 E1] t1] h1].
  destruct (record step (map Some (cyc n 0 k)) m s1 E1 t1) as [[[ss Es] [[s2 E2] t2]] h2]. reflexivity.
Qed.
End PyScan.

Section CppScan.
Variable g : rng (@tstate Ev).
Variable step : list V -> nat -> @tstate Ev -> list V * R * @tstate Ev.
Hypothesis step_law : forall N phi psi j, law N phi psi -> (j < n)%nat ->
  law (S N) (fun s E t => let '(s1, de, t1) := step s j t in phi s1 (E + de) t1) (U j psi).

Lemma cpp_run_law : forall k ctr N phi psi, law N phi psi ->
  law (k + N) (fun s E t => let '((s1, E1, t1), _) := cpp_run step (pick_all g true n) k ctr s E t in phi s1 E1 t1) (kseq U (cyc n ctr k) psi).
Proof.
  induction k as [|k IH]; intros ctr N phi psi HL; [exact HL|].
  assert (L := step_law _ _ _ (ctr mod n)%nat (IH (S ctr) N phi psi HL) ltac:(apply Nat.mod_upper_bound; lia)). intros N' s c HN Hs. etransitivity; [|exact (L N' s c HN Hs)].
  apply (Etape_ext Ee okev Ee_ext). intros l _ _. cbn [cpp_run]. unfold pick_all at 1. destruct (step s (ctr mod n)%nat (l, c)) as [[s1 de] t1]. replace (ctr + 1)%nat with (S ctr) by lia.
  destruct (cpp_run step (pick_all g true n) k (S ctr) s1 (calc_e s + de) t1) as [[[s2 E2] t2] h]. reflexivity.
Qed.

Lemma cpp_scan_counter k : forall ctr s E t, snd (cpp_run step (pick_all g true n) k ctr s E t) = (ctr + k)%nat.
Proof.
  induction k as [|k IH]; intros ctr s E t; cbn [cpp_run]; [cbn; lia|]. destruct (pick_all g true n ctr t) as [i t1]. destruct (step s i t1) as [[s1 de] t2]. rewrite IH. lia.
Qed.

Lemma cpp_record_law k : forall m ctr G,
  law (m * k) (fun s E t => G (fst (cpp_record step (pick_all g true n) k m ctr s E t))) (rows_seq (fun i => kseq U (cyc n (ctr + i * k) k)) m G).
Proof.
  induction m as [|m IH]; intros ctr G.
  - intros N' s c _ _. cbn. apply Etape_const.
  - assert (L := cpp_run_law k ctr (m * k) (fun s1 E1 t1 => G (s1 :: fst (cpp_record step (pick_all g true n) k m (ctr + k) s1 E1 t1)))
      (fun s1 => rows_seq (fun i => kseq U (cyc n (ctr + k + i * k) k)) m (fun rows => G (s1 :: rows)) s1)).
    intros N' s c HN Hs. cbn [rows_seq]. rewrite Nat.mul_0_l, Nat.add_0_r.
    assert (EQ : (fun i => kseq U (cyc n (ctr + S i * k) k)) = (fun i => kseq U (cyc n (ctr + k + i * k) k))) by (apply functional_extensionality; intros i; f_equal; f_equal; lia). rewrite EQ.
    rewrite <- (L (fun N'' s1 c1 HN1 Hs1 => IH (ctr + k)%nat (fun rows => G (s1 :: rows)) N'' s1 c1 HN1 Hs1) N' s c HN Hs).
    apply (Etape_ext Ee okev Ee_ext). intros l _ _. cbn [cpp_record]. assert (C := cpp_scan_counter k ctr s (calc_e s) (l, c)). destruct (cpp_run step (pick_all g true n) k ctr s (calc_e s) (l, c)) as [[[s1 E1] t1] c1].
    cbn [snd] in C. subst c1. destruct (cpp_record step (pick_all g true n) k m (ctr + k) s1 E1 t1) as [ss fin]. reflexivity.
Qed.

Lemma cpp_generate_law m b k G s0 c N' : ok s0 -> (b + m * k <= N')%nat ->
  Etape Ee N' (fun l => G (fst (cpp_generate_sample g step calc_e n m b k true s0 (l, c)))) =
  kseq U (cyc n 0 b) (rows_seq (fun i => kseq U (cyc n (b + i * k) k)) m G) s0.
Proof.
  intros Hs HN. rewrite <- (cpp_run_law b 0 (m * k) _ _ (cpp_record_law k m b G) N' s0 c HN Hs). apply (Etape_ext Ee okev Ee_ext). intros l _ _. unfold cpp_generate_sample.
  assert (C := cpp_scan_counter b 0 s0 (calc_e s0) (l, c)). destruct (cpp_run step (pick_all g true n) b 0 s0 (calc_e s0) (l, c)) as [[[s1 E1] t1] c1]. cbn [snd Nat.add] in C. subst c1. reflexivity.
Qed.
End CppScan.
End TapeScan.
