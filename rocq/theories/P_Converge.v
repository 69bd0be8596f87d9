(** * Convergence of finite Markov chains, applied to the Metropolis and cluster updates *)
From Coq Require Import Permutation Classical.
From Coquelicot Require Import Coquelicot.
From Verif Require Import Prelude Spec PreludeFacts M_Index M_Sampler P_Energy P_Energy2 P_Sampler P_Metro.
Import ListNotations.
Local Open Scope R_scope.

(** k applications of f. *)
Fixpoint iterf {A} (k : nat) (f : A -> A) (x : A) : A := match k with O => x | S k' => f (iterf k' f x) end.

(** ** Averaging operators on functions of finitely many states *)
Section Chain.
Context {X : Type} (dec : forall a b : X, {a = b} + {a <> b}).
Variable St : list X.
Hypothesis Hnd : NoDup St.
Hypothesis Hne : St <> [].

Definition averaging (P : (X -> R) -> X -> R) : Prop :=
  (forall F G, (forall x, In x St -> F x = G x) -> forall s, In s St -> P F s = P G s) /\
  (forall a b F G s, In s St -> P (fun x => a * F x + b * G x) s = a * P F s + b * P G s) /\
  (forall c s, In s St -> P (fun _ => c) s = c) /\
  (forall F, (forall x, In x St -> 0 <= F x) -> forall s, In s St -> 0 <= P F s).

Definition ind (x y : X) : R := if dec y x then 1 else 0.

Lemma avg_id : averaging (fun F => F).
Proof. repeat split; auto. Qed.

Lemma avg_compose P Q : averaging P -> averaging Q -> averaging (fun F => P (Q F)).
Proof.
  intros (P1 & P2 & P3 & P4) (Q1 & Q2 & Q3 & Q4). repeat split.
  - intros F G H s Hs. apply P1; [|assumption]. intros x Hx. now apply Q1.
  - intros a b F G s Hs. rewrite <- P2 by assumption. apply P1; [|assumption]. intros x Hx. now apply Q2.
  - intros c s Hs. transitivity (P (fun _ => c) s); [|now apply P3]. apply P1; [|assumption]. intros x Hx. now apply Q3.
  - intros F H s Hs. apply P4; [|assumption]. intros x Hx. now apply Q4.
Qed.

Lemma avg_iter P k : averaging P -> averaging (fun F => iterf k P F).
Proof. intros HP. induction k as [|k IH]; [exact avg_id|]. cbn [iterf]. apply (avg_compose P); assumption. Qed.

Lemma avg_sum P : averaging P -> forall {I} (l : list I) (f : I -> X -> R) s, In s St ->
  P (fun x => sumf l (fun i => f i x)) s = sumf l (fun i => P (f i) s).
Proof.
  intros HP I l f s Hs. destruct HP as (P1 & P2 & P3 & P4). induction l as [|i l IH].
  - rewrite sumf_nil. rewrite (P1 _ (fun _ => 0)); [now apply P3|intros; apply sumf_nil|assumption].
  - rewrite sumf_cons, <- IH, (P1 _ (fun x => 1 * f i x + 1 * sumf l (fun i => f i x))); [|intros; rewrite sumf_cons; ring|assumption].
    rewrite (P2 1 1 (f i) (fun x => sumf l (fun i => f i x))) by assumption. ring.
Qed.

Lemma avg_expand P F s : averaging P -> In s St -> P F s = sumf St (fun x => F x * P (ind x) s).
Proof.
  intros HP Hs. assert (HP' := HP). destruct HP' as (P1 & P2 & P3 & P4).
  rewrite (P1 F (fun y => sumf St (fun x => F x * ind x y))); [| |assumption].
  - rewrite (avg_sum P HP St (fun x y => F x * ind x y) s Hs). apply sumf_ext. intros x.
    rewrite (P1 _ (fun y => F x * ind x y + 0 * ind x y)); [|intros; ring|assumption]. rewrite (P2 (F x) 0 (ind x) (ind x)) by assumption. ring.
  - intros y Hy. unfold ind. rewrite (sumf_ext _ _ (fun x => (if dec x y then 1 else 0) * F x)).
    2: { intros x. destruct (dec y x), (dec x y); try congruence; ring. }
    clear - Hnd Hy. induction St as [|z l IH]; [destruct Hy|]. inversion Hnd as [|? ? N ND]; subst. rewrite sumf_cons. destruct Hy as [->|Hy].
    + destruct (dec y y); [|congruence]. rewrite sumf_zero; [ring|]. intros a Ha. destruct (dec a y); [subst; contradiction|ring].
    + rewrite <- IH by assumption. destruct (dec z y); [subst; contradiction|ring].
Qed.

Lemma avg_ge P F G : averaging P -> (forall x, In x St -> F x <= G x) -> forall s, In s St -> P F s <= P G s.
Proof.
  intros (P1 & P2 & P3 & P4) H s Hs.
  assert (A : 0 <= P (fun x => 1 * G x + (-1) * F x) s) by (apply P4; [intros x Hx; specialize (H x Hx); lra|assumption]).
  rewrite P2 in A by assumption. lra.
Qed.

(** ** Contraction of the range of a function *)
Definition minor (eps : R) (P : (X -> R) -> X -> R) : Prop :=
  forall F, (forall x, In x St -> 0 <= F x) -> forall s, In s St -> eps * sumf St F <= P F s.

Lemma contract P eps F lo hi : averaging P -> minor eps P -> 0 <= eps -> (forall x, In x St -> lo <= F x <= hi) ->
  exists lo' hi', hi' - lo' <= (1 - eps) * (hi - lo) /\ forall s, In s St -> lo' <= P F s <= hi'.
Proof.
  intros (P1 & P2 & P3 & P4) HM He HF.
  exists (lo + eps * sumf St (fun x => F x - lo)), (hi - eps * sumf St (fun x => hi - F x)). split.
  - rewrite !sumf_minus, !sumf_const.
    assert (L : 1 <= INR (length St)).
    { destruct St as [|a l]; [congruence|]. cbn [length]. rewrite S_INR. assert (H := pos_INR (length l)). lra. }
    assert (lo <= hi). { destruct St as [|a l]; [congruence|]. specialize (HF a (or_introl eq_refl)). lra. }
    assert (0 <= (hi - lo) * (INR (length St) - 1)) by (apply Rmult_le_pos; lra).
    assert (0 <= eps * ((hi - lo) * (INR (length St) - 1))) by (now apply Rmult_le_pos).
    nra.
  - intros s Hs. split.
    + assert (A := HM (fun x => F x - lo) ltac:(intros x Hx; specialize (HF x Hx); lra) s Hs).
      rewrite (P1 (fun x => F x - lo) (fun x => 1 * F x + (- lo) * (fun _ => 1) x)) in A; [|intros; ring|assumption].
      rewrite P2, P3 in A by assumption. lra.
    + assert (A := HM (fun x => hi - F x) ltac:(intros x Hx; specialize (HF x Hx); lra) s Hs).
      rewrite (P1 (fun x => hi - F x) (fun x => (-1) * F x + hi * (fun _ => 1) x)) in A; [|intros; ring|assumption].
      rewrite P2, P3 in A by assumption. lra.
Qed.

Lemma minor_zero P : averaging P -> minor 0 P.
Proof. intros (P1 & P2 & P3 & P4) F HF s Hs. specialize (P4 F HF s Hs). lra. Qed.

(** k operators in a row, each with the same lower bound. *)
Fixpoint seqop (Ps : nat -> (X -> R) -> X -> R) (k : nat) (F : X -> R) : X -> R :=
  match k with O => F | S k' => Ps 0%nat (seqop (fun i => Ps (S i)) k' F) end.

Lemma seqop_contract eps : 0 <= eps <= 1 -> forall k Ps F lo hi, (forall i, averaging (Ps i)) -> (forall i, minor eps (Ps i)) -> (forall x, In x St -> lo <= F x <= hi) ->
  exists lo' hi', hi' - lo' <= (1 - eps) ^ k * (hi - lo) /\ forall s, In s St -> lo' <= seqop Ps k F s <= hi'.
Proof.
  intros He. induction k as [|k IH]; intros Ps F lo hi HA HM HF.
  - exists lo, hi. split; [cbn; lra|exact HF].
  - destruct (IH (fun i => Ps (S i)) F lo hi) as (l1 & h1 & B & C); auto.
    destruct (contract (Ps 0%nat) eps (seqop (fun i => Ps (S i)) k F) l1 h1 (HA _) (HM _) ltac:(lra) C) as (l2 & h2 & B2 & C2).
    exists l2, h2. split; [|exact C2]. eapply Rle_trans; [exact B2|]. cbn [pow]. rewrite Rmult_assoc. apply Rmult_le_compat_l; lra.
Qed.

(** A stationary distribution has its mean in the range of the function. *)
Definition dist (w : X -> R) : Prop := (forall x, In x St -> 0 <= w x) /\ sumf St w = 1.

Lemma mean_between w F lo hi : dist w -> (forall x, In x St -> lo <= F x <= hi) -> lo <= sumf St (fun x => w x * F x) <= hi.
Proof.
  intros [W0 W1] H. split.
  - rewrite <- (Rmult_1_l lo), <- W1, <- sumf_scal_r. apply sumf_le. intros x Hx. apply Rmult_le_compat_l; [now apply W0|apply H; assumption].
  - rewrite <- (Rmult_1_l hi), <- W1, <- sumf_scal_r. apply sumf_le. intros x Hx. apply Rmult_le_compat_l; [now apply W0|apply H; assumption].
Qed.

Lemma seqop_converges eps w Ps F lo hi : 0 <= eps <= 1 -> (forall i, averaging (Ps i)) -> (forall i, minor eps (Ps i)) -> dist w ->
  (forall i G, sumf St (fun x => w x * Ps i G x) = sumf St (fun x => w x * G x)) ->
  (forall x, In x St -> lo <= F x <= hi) ->
  forall k s, In s St -> Rabs (seqop Ps k F s - sumf St (fun x => w x * F x)) <= (1 - eps) ^ k * (hi - lo).
Proof.
  intros He HA HM HW Hst HF k s Hs.
  assert (St' : forall k Ps, (forall i G, sumf St (fun x => w x * Ps i G x) = sumf St (fun x => w x * G x)) ->
    sumf St (fun x => w x * seqop Ps k F x) = sumf St (fun x => w x * F x)).
  { clear. induction k as [|k IH]; intros Ps H; [reflexivity|]. cbn [seqop]. rewrite H. apply IH. intros i G. apply (H (S i)). }
  destruct (seqop_contract eps He k Ps F lo hi HA HM HF) as (l & h & B & C).
  assert (M := mean_between w (seqop Ps k F) l h HW C). rewrite St' in M by assumption. specialize (C s Hs).
  apply Rabs_le. lra.
Qed.

(** ** One operator whose m-th power has a lower bound *)
Lemma iter_seqop Q : forall k F, seqop (fun _ => Q) k F = iterf k Q F.
Proof. induction k as [|k IH]; intros F; [reflexivity|]. cbn [seqop iterf]. now rewrite IH. Qed.

Lemma iter_add {A} (f : A -> A) a b x : iterf (a + b) f x = iterf a f (iterf b f x).
Proof. induction a as [|a IH]; [reflexivity|]. cbn [Nat.add iterf]. now rewrite IH. Qed.

Lemma iter_iter (P : (X -> R) -> X -> R) m : forall q F, iterf q (fun F => iterf m P F) F = iterf (q * m) P F.
Proof. induction q as [|q IH]; intros F; [reflexivity|]. cbn [iterf Nat.mul]. now rewrite IH, <- iter_add. Qed.

Lemma iter_converges P m eps w F lo hi : 0 <= eps <= 1 -> (0 < m)%nat -> averaging P -> minor eps (fun F => iterf m P F) -> dist w ->
  (forall G, sumf St (fun x => w x * P G x) = sumf St (fun x => w x * G x)) ->
  (forall x, In x St -> lo <= F x <= hi) ->
  forall t s, In s St -> Rabs (iterf t P F s - sumf St (fun x => w x * F x)) <= (1 - eps) ^ (t / m) * (hi - lo).
Proof.
  intros He Hm HA HM HW Hst HF t s Hs.
  rewrite (Nat.div_mod t m) at 1 by lia.
  assert (Sr : forall k F, sumf St (fun x => w x * iterf k P F x) = sumf St (fun x => w x * F x)).
  { intros k F0. induction k as [|k IH]; [reflexivity|]. cbn [iterf]. now rewrite Hst. }
  rewrite iter_add, (Nat.mul_comm m), <- iter_iter, <- iter_seqop, <- (Sr (t mod m)%nat F).
  apply (seqop_converges eps w); try assumption.
  - intros _. now apply avg_iter.
  - intros _. exact HM.
  - intros _ G. apply Sr.
  - intros x Hx. assert (A := avg_iter P (t mod m) HA). destruct A as (A1 & A2 & A3 & A4). split.
    + rewrite <- (A3 lo x Hx). apply (avg_ge (fun F => iterf (t mod m) P F)); [now apply avg_iter| |assumption]. intros y Hy. now apply HF.
    + rewrite <- (A3 hi x Hx). apply (avg_ge (fun F => iterf (t mod m) P F)); [now apply avg_iter| |assumption]. intros y Hy. now apply HF.
Qed.

(** ** Positive entries give a lower bound *)
Lemma lower_bound {A} (l : list A) (f : A -> R) : (forall x, In x l -> 0 < f x) -> exists eps, 0 < eps <= 1 /\ forall x, In x l -> eps <= f x.
Proof.
  induction l as [|a l IH]; intros H.
  - exists 1. split; [lra|]. intros x [].
  - destruct IH as (e & He & Hl); [intros x Hx; apply H; now right|]. exists (Rmin e (f a)). split.
    + split; [apply Rmin_glb_lt; [lra|apply H; now left]|]. eapply Rle_trans; [apply Rmin_l|lra].
    + intros x [<-|Hx]; [apply Rmin_r|]. eapply Rle_trans; [apply Rmin_l|now apply Hl].
Qed.

Lemma positive_minor Q : averaging Q -> (forall s s', In s St -> In s' St -> 0 < Q (ind s') s) -> exists eps, 0 < eps <= 1 /\ minor eps Q.
Proof.
  intros HQ Hp. destruct (lower_bound (list_prod St St) (fun p => Q (ind (snd p)) (fst p))) as (e & He & Hl).
  - intros [a b] Hab. apply in_prod_iff in Hab. apply Hp; apply Hab.
  - exists e. split; [assumption|]. intros F HF s Hs. rewrite (avg_expand Q F s HQ Hs), <- sumf_scal_l. apply sumf_le. intros x Hx.
    rewrite Rmult_comm. apply Rmult_le_compat_l; [now apply HF|]. apply (Hl (s, x)). now apply in_prod.
Qed.

(** ** Paths *)
Inductive path (P : (X -> R) -> X -> R) : nat -> X -> X -> Prop :=
| path_nil s : In s St -> path P 0 s s
| path_cons m s x s' : In s St -> In x St -> 0 < P (ind x) s -> path P m x s' -> path P (S m) s s'.

Lemma path_app P a b s x s' : path P a s x -> path P b x s' -> path P (a + b) s s'.
Proof. intros H1 H2. induction H1; [exact H2|]. cbn [Nat.add]. econstructor; eauto. Qed.

Lemma path_loop P a : In a St -> 0 < P (ind a) a -> forall k, path P k a a.
Proof. intros Ha Hp. induction k; [now constructor|]. econstructor; eauto. Qed.

Lemma step_pos P F s x : averaging P -> In s St -> In x St -> (forall y, In y St -> 0 <= F y) -> 0 < P (ind x) s -> 0 < F x -> 0 < P F s.
Proof.
  intros HP Hs Hx HF Hp Hpos. rewrite (avg_expand P F s HP Hs).
  eapply Rlt_le_trans; [|apply (sumf_in_le St (fun x => F x * P (ind x) s) x); [|assumption]].
  - now apply Rmult_lt_0_compat.
  - intros b Hb. apply Rmult_le_pos; [now apply HF|]. destruct HP as (_ & _ & _ & P4). apply P4; [|assumption]. intros y _. unfold ind. destruct (dec y b); lra.
Qed.

Lemma path_pos P m s s' : averaging P -> path P m s s' -> 0 < iterf m P (ind s') s.
Proof.
  intros HP H. induction H as [s Hs|m s x s' Hs Hx Hp H IH].
  - cbn. unfold ind. destruct (dec s s); [lra|congruence].
  - cbn [iterf]. apply (step_pos P _ s x); try assumption. intros y Hy. assert (A := avg_iter P m HP). destruct A as (_ & _ & _ & A4). apply A4; [|assumption].
    intros z _. unfold ind. destruct (dec z s'); lra.
Qed.

(** ** Averages over the rows of a sample *)
(** Expected value of G of the m states visited after each application of Q. *)
Fixpoint rows_exp (Q : (X -> R) -> X -> R) (m : nat) (G : list X -> R) (s : X) : R :=
  match m with O => G [] | S m' => Q (fun s1 => rows_exp Q m' (fun rows => G (s1 :: rows)) s1) s end.

Lemma rows_exp_ext Q m : averaging Q -> forall G G' s, In s St -> (forall l, Forall (fun x => In x St) l -> length l = m -> G l = G' l) -> rows_exp Q m G s = rows_exp Q m G' s.
Proof.
  intros HQ. induction m as [|m IH]; intros G G' s Hs H; cbn [rows_exp]; [apply H; constructor|].
  destruct HQ as (Q1 & _). apply Q1; [|assumption]. intros x Hx. apply IH; [assumption|]. intros l Hl Lm. apply H; [now constructor|cbn; lia].
Qed.

Lemma rows_exp_lin Q m : averaging Q -> forall a b G G' s, In s St -> rows_exp Q m (fun l => a * G l + b * G' l) s = a * rows_exp Q m G s + b * rows_exp Q m G' s.
Proof.
  intros HQ. induction m as [|m IH]; intros a b G G' s Hs; cbn [rows_exp]; [reflexivity|].
  assert (HQ' := HQ). destruct HQ' as (Q1 & Q2 & _). rewrite <- Q2 by assumption. apply Q1; [|assumption]. intros x Hx. now apply IH.
Qed.

Lemma rows_exp_const Q m : averaging Q -> forall c s, In s St -> rows_exp Q m (fun _ => c) s = c.
Proof.
  intros HQ. induction m as [|m IH]; intros c s Hs; cbn [rows_exp]; [reflexivity|].
  assert (HQ' := HQ). destruct HQ' as (Q1 & _ & Q3 & _). rewrite (Q1 _ (fun _ => c)); [now apply Q3|intros; now apply IH|assumption].
Qed.

Lemma rows_exp_sum Q m f : averaging Q -> forall s, In s St -> rows_exp Q m (fun l => sumf l f) s = sumf (seq 1 m) (fun k => iterf k Q f s).
Proof.
  intros HQ. induction m as [|m IH]; intros s Hs; [reflexivity|]. cbn [rows_exp]. assert (HQ' := HQ). destruct HQ' as (Q1 & Q2 & _).
  rewrite (Q1 _ (fun s1 => 1 * f s1 + 1 * sumf (seq 1 m) (fun k => iterf k Q f s1))); [| |assumption].
  - rewrite (Q2 1 1 f (fun s1 => sumf (seq 1 m) (fun k => iterf k Q f s1))) by assumption. rewrite (avg_sum Q HQ (seq 1 m) (fun k s1 => iterf k Q f s1) s Hs).
    cbn [seq]. rewrite sumf_cons. cbn [iterf]. rewrite <- (seq_shift m 1), sumf_map. cbn [iterf]. rewrite !Rmult_1_l. reflexivity.
  - intros x Hx. rewrite <- IH by assumption. rewrite (rows_exp_ext Q m HQ _ (fun l => f x * (fun _ => 1) l + 1 * sumf l f)); [|assumption|intros; rewrite sumf_cons; ring].
    rewrite rows_exp_lin, rows_exp_const by assumption. ring.
Qed.

Lemma rows_exp_square Q f B K : averaging Q -> 0 <= B -> 0 <= K -> (forall x, In x St -> Rabs (f x) <= B) ->
  (forall m s, In s St -> Rabs (sumf (seq 1 m) (fun k => iterf k Q f s)) <= K) ->
  forall m s, In s St -> rows_exp Q m (fun l => sumf l f ^ 2) s <= INR m * (B * B + 2 * B * K).
Proof.
  intros HQ HB HK Hf HA. induction m as [|m IH]; intros s Hs; [cbn [rows_exp]; rewrite sumf_nil; cbn; lra|]. cbn [rows_exp].
  assert (HQ' := HQ). destruct HQ' as (Q1 & Q2 & Q3 & _).
  rewrite <- (Q3 (INR (S m) * (B * B + 2 * B * K)) s Hs). apply (avg_ge Q); [assumption| |assumption]. intros x Hx. rewrite S_INR.
  rewrite (rows_exp_ext Q m HQ _ (fun l => 1 * ((f x * f x) * (fun _ => 1) l + (2 * f x) * sumf l f) + 1 * (sumf l f ^ 2))); [|assumption|intros; rewrite sumf_cons; ring].
  rewrite (rows_exp_lin Q m HQ 1 1 (fun l => (f x * f x) * (fun _ => 1) l + (2 * f x) * sumf l f) (fun l => sumf l f ^ 2) x Hx).
  rewrite (rows_exp_lin Q m HQ (f x * f x) (2 * f x) (fun _ => 1) (fun l => sumf l f) x Hx), rows_exp_const, rows_exp_sum by assumption.
  specialize (IH x Hx). specialize (HA m x Hx). specialize (Hf x Hx). set (a := sumf (seq 1 m) (fun k => iterf k Q f x)) in *. set (y := f x) in *.
  assert (T1 : y * y <= B * B). { rewrite <- (Rabs_pos_eq (y * y)) by nra. rewrite Rabs_mult. apply Rmult_le_compat; try assumption; apply Rabs_pos. }
  assert (T2 : y * a <= B * K). { eapply Rle_trans; [apply Rle_abs|]. rewrite Rabs_mult. apply Rmult_le_compat; try assumption; apply Rabs_pos. }
  lra.
Qed.

End Chain.

(** A geometric series whose terms stay the same q times. *)
Lemma slow_geometric rho q : 0 <= rho < 1 -> (0 < q)%nat -> forall m, sumf (seq 0 m) (fun k => rho ^ (k / q)) <= INR q / (1 - rho).
Proof.
  intros Hr Hq m. assert (P : 0 < 1 - rho) by lra. assert (Q : 0 <= INR q) by apply pos_INR.
  assert (B : INR q <= INR q / (1 - rho)). { apply (Rmult_le_reg_r (1 - rho)); [lra|]. replace (INR q / (1 - rho) * (1 - rho)) with (INR q) by (field; lra). nra. }
  induction m as [m IH] using lt_wf_ind.
  destruct (Nat.le_gt_cases m q) as [L|L].
  - eapply Rle_trans; [|exact B]. eapply Rle_trans; [apply (sumf_le _ _ (fun _ => 1))|].
    + intros k _. rewrite <- (pow1 (k / q)). apply pow_incr. lra.
    + rewrite sumf_const, seq_length, Rmult_1_r. now apply le_INR.
  - replace m with (q + (m - q))%nat by lia. rewrite seq_app, sumf_app. cbn [Nat.add].
    rewrite (sumf_ext_in (seq 0 q) _ (fun _ => 1)). 2: { intros k Hk. apply in_seq in Hk. rewrite Nat.div_small by lia. reflexivity. }
    rewrite sumf_const, seq_length.
    assert (E : sumf (seq q (m - q)) (fun k => rho ^ (k / q)) = rho * sumf (seq 0 (m - q)) (fun k => rho ^ (k / q))).
    { rewrite <- sumf_scal_l. replace (seq q (m - q)) with (map (fun k => (k + q)%nat) (seq 0 (m - q))).
      - rewrite sumf_map. apply sumf_ext. intros k. replace (k + q)%nat with (k + 1 * q)%nat by lia. rewrite Nat.div_add by lia. rewrite Nat.add_1_r. reflexivity.
      - assert (M : forall j a, map (fun k => (k + q)%nat) (seq a j) = seq (a + q) j) by (induction j as [|j IHj]; intros a; [reflexivity|]; cbn [seq map]; rewrite IHj; reflexivity).
        apply (M (m - q)%nat 0%nat). }
    rewrite E. specialize (IH (m - q)%nat ltac:(lia)).
    apply Rle_trans with (INR q * 1 + rho * (INR q / (1 - rho))); [apply Rplus_le_compat_l, Rmult_le_compat_l; lra|]. right. field. lra.
Qed.

(** Mean square error of sample averages. *)
Lemma average_converges {X} (dec : forall a b : X, {a = b} + {a <> b}) (St : list X) (P : (X -> R) -> X -> R) m0 eps w F B :
  NoDup St -> St <> [] -> 0 < eps <= 1 -> (0 < m0)%nat -> averaging St P -> minor St eps (fun F => iterf m0 P F) -> dist St w ->
  (forall G, sumf St (fun x => w x * P G x) = sumf St (fun x => w x * G x)) ->
  (forall x, In x St -> Rabs (F x) <= B) ->
  forall n_iters m s, (0 < n_iters)%nat -> (0 < m)%nat -> In s St ->
  rows_exp (fun F => iterf n_iters P F) m (fun rows => (sumf rows F / INR m - sumf St (fun x => w x * F x)) ^ 2) s
  <= 4 * B ^ 2 * (1 + 2 * INR m0 / eps) / INR m.
Proof.
  intros Hnd Hne He Hm0 HA HM HW Hst HF ni m s Hni Hm Hs. set (mu := sumf St (fun x => w x * F x)). set (f := fun x => F x - mu).
  assert (B0 : 0 <= B). { destruct St as [|a l]; [congruence|]. eapply Rle_trans; [apply Rabs_pos|apply (HF a); now left]. }
  assert (HF' : forall x, In x St -> - B <= F x <= B) by (intros x Hx; specialize (HF x Hx); apply Rabs_le_between in HF; exact HF).
  assert (Hmu := mean_between St w F (- B) B HW HF'). fold mu in Hmu.
  assert (Hf : forall x, In x St -> Rabs (f x) <= 2 * B) by (intros x Hx; specialize (HF' x Hx); unfold f; apply Rabs_le; lra).
  set (Q := fun F => iterf ni P F). assert (HQ : averaging St Q) by (now apply avg_iter).
  assert (It : forall k x, In x St -> iterf k Q f x = iterf (k * ni) P F x - mu).
  { intros k x Hx. unfold Q. rewrite iter_iter. assert (A := avg_iter St P (k * ni) HA). destruct A as (A1 & A2 & A3 & _).
    rewrite (A1 f (fun x => 1 * F x + (- mu) * (fun _ => 1) x)); [|intros; unfold f; ring|assumption]. rewrite A2, A3 by assumption. ring. }
  assert (K : forall k x, In x St -> Rabs (iterf k Q f x) <= (1 - eps) ^ (k / m0) * (2 * B)).
  { intros k x Hx. rewrite It by assumption. replace (2 * B) with (B - - B) by ring.
    eapply Rle_trans; [apply (iter_converges St Hnd Hne P m0 eps w F (- B) B); try assumption; lra|].
    apply Rmult_le_compat_r; [lra|]. assert (L : (k / m0 <= k * ni / m0)%nat) by (apply Nat.div_le_mono; nia).
    set (u := (k / m0)%nat) in *. set (v := (k * ni / m0)%nat) in *. clearbody u v. replace v with (u + (v - u))%nat by lia. rewrite pow_add.
    rewrite <- (Rmult_1_r ((1 - eps) ^ u)) at 2. apply Rmult_le_compat_l; [apply pow_le; lra|]. assert (Y := pow_incr (1 - eps) 1 (v - u) ltac:(lra)). rewrite pow1 in Y. exact Y. }
  assert (KS : forall j x, In x St -> Rabs (sumf (seq 1 j) (fun k => iterf k Q f x)) <= INR m0 / eps * (2 * B)).
  { intros j x Hx. eapply Rle_trans; [apply sumf_abs_le|]. eapply Rle_trans; [apply sumf_le; intros k _; now apply K|].
    rewrite sumf_scal_r. apply Rmult_le_compat_r; [lra|]. assert (G := slow_geometric (1 - eps) m0 ltac:(lra) Hm0 (S j)). replace (1 - (1 - eps)) with eps in G by ring.
    cbn [seq] in G. rewrite sumf_cons in G. assert (0 <= (1 - eps) ^ (0 / m0)) by (apply pow_le; lra). lra. }
  assert (V := rows_exp_square St Q f (2 * B) (INR m0 / eps * (2 * B)) HQ ltac:(lra) ltac:(apply Rmult_le_pos; [apply Rmult_le_pos; [apply pos_INR|left; apply Rinv_0_lt_compat; lra]|lra]) Hf KS m s Hs).
  assert (Pm : 0 < INR m) by (now apply lt_0_INR).
  rewrite (rows_exp_ext St Q m HQ _ (fun l => / (INR m * INR m) * sumf l f ^ 2 + 0 * sumf l f ^ 2)); [|assumption|].
  - rewrite (rows_exp_lin St Q m HQ _ 0 (fun l => sumf l f ^ 2) (fun l => sumf l f ^ 2) s Hs). rewrite Rmult_0_l, Rplus_0_r.
    apply Rle_trans with (/ (INR m * INR m) * (INR m * (2 * B * (2 * B) + 2 * (2 * B) * (INR m0 / eps * (2 * B))))).
    + apply Rmult_le_compat_l; [left; apply Rinv_0_lt_compat; nra|exact V].
    + right. field. lra.
  - intros l _ Hl. unfold f. rewrite sumf_minus, sumf_const, Hl. field. lra.
Qed.
