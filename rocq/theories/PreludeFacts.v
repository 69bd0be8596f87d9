(** * Facts about the prelude: sums, ranges, combinations. *)
From Coq Require Import Permutation.
From Verif Require Import Prelude Spec.
Import ListNotations.

(** ** Real sums *)
Section Sums.
Local Open Scope R_scope.
Context {A : Type}.
Implicit Types (l : list A) (f g : A -> R).

Lemma sumf_nil f : sumf [] f = 0.
Proof. reflexivity. Qed.

Lemma sumf_cons a l f : sumf (a :: l) f = f a + sumf l f.
Proof. reflexivity. Qed.

Lemma sumf_app l1 l2 f : sumf (l1 ++ l2) f = sumf l1 f + sumf l2 f.
Proof.
  induction l1 as [|a l1 IH]; cbn [app].
  - rewrite sumf_nil. ring.
  - rewrite !sumf_cons, IH. ring.
Qed.

Lemma sumf_ext_in l f g : (forall a, In a l -> f a = g a) -> sumf l f = sumf l g.
Proof.
  induction l as [|a l IH]; intros H; [reflexivity|].
  rewrite !sumf_cons, (H a), IH; auto with datatypes.
Qed.

Lemma sumf_ext l f g : (forall a, f a = g a) -> sumf l f = sumf l g.
Proof. intros H; apply sumf_ext_in; auto. Qed.

Lemma sumf_plus l f g : sumf l (fun a => f a + g a) = sumf l f + sumf l g.
Proof.
  induction l as [|a l IH]; [rewrite !sumf_nil; ring|].
  rewrite !sumf_cons, IH; ring.
Qed.

Lemma sumf_minus l f g : sumf l (fun a => f a - g a) = sumf l f - sumf l g.
Proof.
  induction l as [|a l IH]; [rewrite !sumf_nil; ring|].
  rewrite !sumf_cons, IH; ring.
Qed.

Lemma sumf_opp l f : sumf l (fun a => - f a) = - sumf l f.
Proof.
  induction l as [|a l IH]; [rewrite !sumf_nil; ring|].
  rewrite !sumf_cons, IH; ring.
Qed.

Lemma sumf_scal_l c l f : sumf l (fun a => c * f a) = c * sumf l f.
Proof.
  induction l as [|a l IH]; [rewrite !sumf_nil; ring|].
  rewrite !sumf_cons, IH; ring.
Qed.

Lemma sumf_scal_r c l f : sumf l (fun a => f a * c) = sumf l f * c.
Proof.
  induction l as [|a l IH]; [rewrite !sumf_nil; ring|].
  rewrite !sumf_cons, IH; ring.
Qed.

Lemma sumf_div c l f : sumf l (fun a => f a / c) = sumf l f / c.
Proof. unfold Rdiv; apply sumf_scal_r. Qed.

Lemma sumf_zero l f : (forall a, In a l -> f a = 0) -> sumf l f = 0.
Proof.
  induction l as [|a l IH]; intros H; [reflexivity|].
  rewrite sumf_cons, (H a), IH; auto with datatypes; ring.
Qed.

Lemma sumf_const l c : sumf l (fun _ => c) = INR (length l) * c.
Proof.
  induction l as [|a l IH]; [rewrite sumf_nil; simpl; ring|].
  rewrite sumf_cons, IH. cbn [length]. rewrite S_INR. ring.
Qed.

Lemma sumf_nonneg l f : (forall a, In a l -> 0 <= f a) -> 0 <= sumf l f.
Proof.
  induction l as [|a l IH]; intros H; [rewrite sumf_nil; lra|].
  rewrite sumf_cons.
  assert (0 <= f a) by auto with datatypes.
  assert (0 <= sumf l f) by auto with datatypes. lra.
Qed.

Lemma sumf_pos l f : l <> [] -> (forall a, In a l -> 0 < f a) -> 0 < sumf l f.
Proof.
  destruct l as [|a l]; intros Hn H; [congruence|].
  rewrite sumf_cons.
  assert (0 < f a) by auto with datatypes.
  assert (0 <= sumf l f).
  { apply sumf_nonneg. intros b Hb. left. auto with datatypes. }
  lra.
Qed.

Lemma sumf_le l f g : (forall a, In a l -> f a <= g a) -> sumf l f <= sumf l g.
Proof.
  induction l as [|a l IH]; intros H; [rewrite !sumf_nil; lra|].
  rewrite !sumf_cons.
  assert (f a <= g a) by auto with datatypes.
  assert (sumf l f <= sumf l g) by auto with datatypes. lra.
Qed.

Lemma sumf_abs_le l f : Rabs (sumf l f) <= sumf l (fun a => Rabs (f a)).
Proof.
  induction l as [|a l IH]; [rewrite !sumf_nil, Rabs_R0; lra|].
  rewrite !sumf_cons. eapply Rle_trans; [apply Rabs_triang|]. lra.
Qed.

Lemma sumf_nonneg_zero l f :
  (forall a, In a l -> 0 <= f a) -> sumf l f = 0 -> forall a, In a l -> f a = 0.
Proof.
  induction l as [|b l IH]; intros H Hs a Ha; [destruct Ha|].
  rewrite sumf_cons in Hs.
  assert (Hb : 0 <= f b) by auto with datatypes.
  assert (Hl : 0 <= sumf l f) by (apply sumf_nonneg; auto with datatypes).
  destruct Ha as [<-|Ha]; [lra|].
  apply IH; auto with datatypes. lra.
Qed.

Lemma sumf_in_le l f a : (forall b, In b l -> 0 <= f b) -> In a l -> f a <= sumf l f.
Proof.
  induction l as [|b l IH]; intros H Ha; [destruct Ha|].
  rewrite sumf_cons.
  assert (0 <= f b) by auto with datatypes.
  assert (0 <= sumf l f) by (apply sumf_nonneg; auto with datatypes).
  destruct Ha as [<-|Ha]; [lra|].
  assert (f a <= sumf l f) by auto with datatypes. lra.
Qed.

Lemma sumf_perm l1 l2 f : Permutation l1 l2 -> sumf l1 f = sumf l2 f.
Proof.
  induction 1; rewrite ?sumf_cons; try lra.
Qed.

Lemma sumf_rev l f : sumf (rev l) f = sumf l f.
Proof. apply sumf_perm. apply Permutation_sym, Permutation_rev. Qed.

Lemma sumf_indic (dec : forall a b : A, {a = b} + {a <> b}) l a f :
  NoDup l -> In a l ->
  sumf l (fun b => if dec a b then f b else 0) = f a.
Proof.
  induction l as [|b l IH]; intros Hnd Hin; [destruct Hin|].
  inversion_clear Hnd as [|? ? Hni Hnd'].
  rewrite sumf_cons. destruct (dec a b) as [->|Hne].
  - rewrite sumf_zero; [ring|]. intros c Hc. destruct (dec b c) as [->|]; [contradiction|reflexivity].
  - destruct Hin as [->|Hin]; [congruence|]. rewrite IH by assumption. ring.
Qed.

End Sums.

Section Sums2.
Local Open Scope R_scope.

Lemma sumf_map {A B} (h : A -> B) l (f : B -> R) : sumf (map h l) f = sumf l (fun a => f (h a)).
Proof.
  induction l as [|a l IH]; [reflexivity|].
  cbn [map]. rewrite !sumf_cons, IH. reflexivity.
Qed.

Lemma sumf_flat_map {A B} (h : A -> list B) l (f : B -> R) :
  sumf (flat_map h l) f = sumf l (fun a => sumf (h a) f).
Proof.
  induction l as [|a l IH]; [reflexivity|].
  cbn [flat_map]. rewrite sumf_app, sumf_cons, IH. reflexivity.
Qed.

Lemma sumf_swap {A B} (l1 : list A) (l2 : list B) (f : A -> B -> R) :
  sumf l1 (fun a => sumf l2 (f a)) = sumf l2 (fun b => sumf l1 (fun a => f a b)).
Proof.
  induction l1 as [|a l1 IH].
  - rewrite sumf_nil. symmetry. apply sumf_zero. intros; reflexivity.
  - rewrite sumf_cons, IH.
    rewrite <- sumf_plus. apply sumf_ext. intros b. rewrite sumf_cons. reflexivity.
Qed.

Lemma sumf_filter {A} (p : A -> bool) l (f : A -> R) :
  sumf (filter p l) f = sumf l (fun a => if p a then f a else 0).
Proof.
  induction l as [|a l IH]; [reflexivity|].
  cbn [filter]. destruct (p a) eqn:E; rewrite !sumf_cons, E, ?IH; ring.
Qed.

Lemma sumR_map {A} (h : A -> R) l : sumR (map h l) = sumf l h.
Proof. unfold sumR. rewrite sumf_map. reflexivity. Qed.

Lemma sumf_seq_nth {A} (d : A) (l : list A) (f : A -> R) :
  sumf (seq 0 (length l)) (fun i => f (nth i l d)) = sumf l f.
Proof.
  induction l as [|a l IH]; [reflexivity|].
  cbn [length seq]. rewrite sumf_cons, <- seq_shift, sumf_map, sumf_cons. cbn [nth].
  now rewrite IH.
Qed.

Lemma sumf_seq_shift n (f : nat -> R) : sumf (seq 1 n) f = sumf (seq 0 n) (fun i => f (S i)).
Proof. rewrite <- seq_shift, sumf_map. reflexivity. Qed.

Lemma sumf_seq_S n (f : nat -> R) :
  sumf (seq 0 (S n)) f = f 0%nat + sumf (seq 0 n) (fun i => f (S i)).
Proof. cbn [seq]. rewrite sumf_cons, sumf_seq_shift. reflexivity. Qed.

Lemma sumf_seq_last n (f : nat -> R) :
  sumf (seq 0 (S n)) f = sumf (seq 0 n) f + f n.
Proof. rewrite seq_S, sumf_app. simpl plus. rewrite sumf_cons, sumf_nil. ring. Qed.

Lemma sumf_combine_seq l1 l2 (f : R -> R -> R) n :
  length l1 = n -> length l2 = n ->
  sumf (combine l1 l2) (fun p => f (fst p) (snd p)) =
  sumf (seq 0 n) (fun i => f (nthR l1 i) (nthR l2 i)).
Proof.
  revert l2 n. induction l1 as [|a l1 IH]; intros [|b l2] n H1 H2; simpl in H1, H2; subst n; try discriminate.
  - reflexivity.
  - cbn [combine]. rewrite sumf_cons, sumf_seq_S. cbn [fst snd].
    rewrite (IH l2 (length l1)) by lia. reflexivity.
Qed.

Lemma dot_seq x y n : length x = n -> length y = n ->
  dot x y = sumf (seq 0 n) (fun i => nthR x i * nthR y i).
Proof. intros; unfold dot; apply (sumf_combine_seq x y Rmult); assumption. Qed.

Lemma dot_cons a x b y : dot (a :: x) (b :: y) = a * b + dot x y.
Proof. reflexivity. Qed.

Lemma dot_nil_l y : dot [] y = 0.
Proof. reflexivity. Qed.

Lemma dot_app x1 x2 y1 y2 : length x1 = length y1 ->
  dot (x1 ++ x2) (y1 ++ y2) = dot x1 y1 + dot x2 y2.
Proof.
  revert y1. induction x1 as [|a x1 IH]; intros [|b y1] H; try discriminate.
  - cbn [app]. rewrite (dot_nil_l []). ring.
  - cbn [app]. rewrite !dot_cons, IH by (injection H; auto). ring.
Qed.

Lemma dot_comm x y : dot x y = dot y x.
Proof.
  revert y. induction x as [|a x IH]; intros [|b y]; try reflexivity.
  rewrite !dot_cons, IH. ring.
Qed.

End Sums2.

(** ** Pairs *)
Lemma pairs_map {A B} (h : A -> B) l :
  pairs (map h l) = map (fun p => (h (fst p), h (snd p))) (pairs l).
Proof.
  induction l as [|a l IH]; [reflexivity|].
  cbn [map pairs]. rewrite IH, map_app, !map_map. reflexivity.
Qed.

Lemma pairs_length {A} (l : list A) : length (pairs l) = length l * (length l - 1) / 2.
Proof.
  assert (H : 2 * length (pairs l) = length l * (length l - 1)).
  { induction l as [|a l IH]; [reflexivity|].
    cbn [pairs]. rewrite app_length, map_length. cbn [length].
    destruct (length l) as [|m] eqn:E; simpl in *; nia. }
  rewrite <- H, Nat.mul_comm, Nat.div_mul by lia. reflexivity.
Qed.

Lemma in_pairs_seq a n i j : In (i, j) (pairs (seq a n)) <-> a <= i < j /\ j < a + n.
Proof.
  revert a. induction n as [|n IH]; intros a; [simpl; lia|].
  cbn [seq pairs]. rewrite in_app_iff, in_map_iff, IH.
  split.
  - intros [(y & E & Hy)|H]; [injection E; intros; subst; apply in_seq in Hy; lia|lia].
  - intros [H1 H2]. destruct (Nat.eq_dec i a) as [->|Hne].
    + left. exists j. split; [reflexivity|]. apply in_seq. lia.
    + right. lia.
Qed.

Lemma NoDup_pairs_seq a n : NoDup (pairs (seq a n)).
Proof.
  revert a. induction n as [|n IH]; intros a; [constructor|].
  cbn [seq pairs].
  assert (Happ : forall (X : Type) (u v : list X), NoDup u -> NoDup v ->
            (forall x, In x u -> ~ In x v) -> NoDup (u ++ v)).
  { clear. induction u as [|x u IHu]; intros v Hu Hv Hd; [assumption|].
    inversion_clear Hu. cbn. constructor.
    - rewrite in_app_iff. intros [|]; [contradiction|]. apply (Hd x); [now left|assumption].
    - apply IHu; auto. intros y Hy. apply Hd. now right. }
  apply Happ.
  - apply FinFun.Injective_map_NoDup; [|apply seq_NoDup]. intros x y E. now injection E.
  - apply IH.
  - intros [x y] Hx Hy. apply in_map_iff in Hx. destruct Hx as (z & E & Hz).
    injection E; intros; subst. apply in_pairs_seq in Hy. lia.
Qed.

Lemma NoDup_app_intro {X : Type} (u v : list X) : NoDup u -> NoDup v ->
            (forall x, In x u -> ~ In x v) -> NoDup (u ++ v).
Proof.
  induction u as [|x u IHu]; intros Hu Hv Hd; [assumption|].
  inversion_clear Hu. cbn. constructor.
  - rewrite in_app_iff. intros [|]; [contradiction|]. apply (Hd x); [now left|assumption].
  - apply IHu; auto. intros y Hy. apply Hd. now right.
Qed.

(** The symmetric double sum is twice the sum over pairs plus the diagonal. *)
Lemma sumf_double_pairs {A} (l : list A) (f : A -> A -> R) :
  (forall a b, f a b = f b a) ->
  (sumf l (fun a => sumf l (fun b => f a b)) =
   2 * sumf (pairs l) (fun p => f (fst p) (snd p)) + sumf l (fun a => f a a))%R.
Proof.
  intros Hs. induction l as [|a l IH]; [cbn; ring|].
  cbn [pairs]. rewrite sumf_app, sumf_map, !sumf_cons.
  rewrite (sumf_ext l (fun a0 => sumf (a :: l) (fun b => f a0 b)) (fun a0 => (f a a0 + sumf l (fun b => f a0 b))%R)).
  2:{ intros b. rewrite sumf_cons, Hs. reflexivity. }
  rewrite sumf_plus, IH. cbn [fst snd]. change (sumf l (f a)) with (sumf l (fun b => f a b)). ring.
Qed.

(** Sum over pairs written as a double sum over ordered positions. *)
Lemma sumf_pairs_seq n (f : nat -> nat -> R) :
  sumf (pairs (seq 0 n)) (fun p => f (fst p) (snd p)) =
  sumf (seq 0 n) (fun i => sumf (seq (S i) (n - S i)) (fun j => f i j)).
Proof.
  assert (G : forall n a, sumf (pairs (seq a n)) (fun p => f (fst p) (snd p)) =
     sumf (seq a n) (fun i => sumf (seq (S i) (a + n - S i)) (fun j => f i j))).
  { clear. induction n as [|n IH]; intros a; [reflexivity|].
    cbn [seq pairs]. rewrite sumf_app, sumf_map, sumf_cons, IH. f_equal.
    - replace (a + S n - S a) with n by lia. reflexivity.
    - apply sumf_ext. intros i. replace (S a + n - S i) with (a + S n - S i) by lia. reflexivity. }
  apply (G n 0).
Qed.

(** ** Lists *)
Lemma nth_map_seq {A} (f : nat -> A) n i d : i < n -> nth i (map f (seq 0 n)) d = f i.
Proof.
  intros H. rewrite (nth_indep _ d (f 0)) by (rewrite map_length, seq_length; exact H).
  rewrite map_nth, seq_nth by exact H. reflexivity.
Qed.

Lemma nth_error_map_seq {A} (f : nat -> A) n i : i < n -> nth_error (map f (seq 0 n)) i = Some (f i).
Proof.
  intros H. rewrite nth_error_map, (nth_error_nth' _ 0) by (rewrite seq_length; exact H).
  rewrite seq_nth by exact H. reflexivity.
Qed.

Lemma upd_length {A} (l : list A) i v : length (upd l i v) = length l.
Proof. revert i; induction l as [|x l IH]; intros [|i]; cbn; auto. Qed.

Lemma nth_upd_same {A} (l : list A) i v d : i < length l -> nth i (upd l i v) d = v.
Proof. revert i; induction l as [|x l IH]; intros [|i] H; cbn in *; try lia; auto. apply IH; lia. Qed.

Lemma nth_upd_other {A} (l : list A) i j v d : i <> j -> nth j (upd l i v) d = nth j l d.
Proof. revert i j; induction l as [|x l IH]; intros [|i] [|j] H; cbn in *; try lia; auto. Qed.

Lemma upd_upd {A} (l : list A) i v w : upd (upd l i v) i w = upd l i w.
Proof. revert i; induction l as [|x l IH]; intros [|i]; cbn; auto. now rewrite IH. Qed.

Lemma upd_same {A} (l : list A) i d : upd l i (nth i l d) = l.
Proof. revert i; induction l as [|x l IH]; intros [|i]; cbn; auto. now rewrite IH. Qed.

Lemma list_eq_nth {A} (d : A) l1 l2 : length l1 = length l2 ->
  (forall i, i < length l1 -> nth i l1 d = nth i l2 d) -> l1 = l2.
Proof.
  revert l2; induction l1 as [|a l1 IH]; intros [|b l2] Hl H; try discriminate; [reflexivity|].
  f_equal.
  - apply (H 0). cbn; lia.
  - apply IH; [now injection Hl|]. intros i Hi. apply (H (S i)). cbn; lia.
Qed.

(** ** Combinations *)
Lemma combinations_length {A} (l : list A) k : length (combinations l k) = binom (length l) k.
Proof.
  revert k. induction l as [|a l IH]; intros [|k]; try reflexivity.
  cbn [combinations length binom]. rewrite app_length, map_length, !IH. reflexivity.
Qed.

Lemma combinations_elt_length {A} (l : list A) k t : In t (combinations l k) -> length t = k.
Proof.
  revert k t. induction l as [|a l IH]; intros [|k] t; cbn [combinations]; try (intros [<-|[]]; reflexivity); [intros []|].
  rewrite in_app_iff, in_map_iff. intros [(u & <- & Hu)|H]; [cbn; f_equal; eauto|eauto].
Qed.

Lemma combinations_2_pairs {A} (l : list A) :
  combinations l 2 = map (fun p => [fst p; snd p]) (pairs l).
Proof.
  assert (H1 : forall l : list A, combinations l 1 = map (fun y => [y]) l).
  { clear. induction l as [|a l IH]; [reflexivity|].
    cbn [combinations map app] in *. cbn. f_equal. rewrite <- IH. destruct l; reflexivity. }
  induction l as [|a l IH]; [reflexivity|].
  cbn [pairs]. rewrite map_app, map_map. cbn [fst snd].
  change (combinations (a :: l) 2) with (map (cons a) (combinations l 1) ++ combinations l 2).
  rewrite IH, H1, map_map. reflexivity.
Qed.

Lemma combinations_map {A B} (h : A -> B) l k :
  combinations (map h l) k = map (map h) (combinations l k).
Proof.
  revert k. induction l as [|a l IH]; intros [|k]; try reflexivity.
  change (combinations (map h (a :: l)) (S k)) with
    (map (cons (h a)) (combinations (map h l) k) ++ combinations (map h l) (S k)).
  change (combinations (a :: l) (S k)) with
    (map (cons a) (combinations l k) ++ combinations l (S k)).
  rewrite !IH, map_app, !map_map. reflexivity.
Qed.

(** ** State enumeration *)
Lemma length_flat_map_const {A B} (g : A -> list B) l c :
  (forall a, In a l -> length (g a) = c) -> length (flat_map g l) = c * length l.
Proof.
  induction l as [|a l IH]; intros H; cbn [flat_map length]; [lia|].
  rewrite app_length, H, IH; auto with datatypes. lia.
Qed.

Lemma all_states_length {A} (vals : list A) n : length (all_states vals n) = length vals ^ n.
Proof.
  induction n as [|n IH]; [reflexivity|].
  cbn [all_states]. rewrite (length_flat_map_const _ _ (length vals ^ n)).
  - cbn. lia.
  - intros. now rewrite map_length.
Qed.

Lemma all_states_spec {A} (vals : list A) n s :
  In s (all_states vals n) <-> length s = n /\ (forall v, In v s -> In v vals).
Proof.
  revert s. induction n as [|n IH]; intros s; cbn [all_states].
  - split.
    + intros [<-|[]]. split; [reflexivity|intros v []].
    + intros [H _]. destruct s; [now left|discriminate].
  - rewrite in_flat_map. split.
    + intros (v & Hv & Hs). apply in_map_iff in Hs. destruct Hs as (t & <- & Ht).
      apply IH in Ht. destruct Ht as [Hl Hin]. split; [cbn; lia|].
      intros w [<-|Hw]; auto.
    + intros [Hl Hin]. destruct s as [|v t]; [discriminate|]. exists v. split.
      * apply Hin. now left.
      * apply in_map. apply IH. split; [now injection Hl|]. intros w Hw. apply Hin. now right.
Qed.

Lemma all_states_NoDup {A} (vals : list A) n : NoDup vals -> NoDup (all_states vals n).
Proof.
  intros Hv. induction n as [|n IH]; cbn [all_states]; [constructor; [intros []|constructor]|].
  revert IH; generalize (all_states vals n) as L; intros L IH.
  induction Hv as [|v vs Hni Hnd IHv]; cbn [flat_map]; [constructor|].
  apply NoDup_app_intro; [|assumption|].
  - apply FinFun.Injective_map_NoDup; [|assumption]. intros x y E. now injection E.
  - intros s Hs Hin. apply in_map_iff in Hs. destruct Hs as (t & <- & _).
    apply in_flat_map in Hin. destruct Hin as (w & Hw & Hs).
    apply in_map_iff in Hs. destruct Hs as (u & E & _). injection E; intros; subst. contradiction.
Qed.

Lemma all_states_map {A B} (h : A -> B) vals n :
  all_states (map h vals) n = map (map h) (all_states vals n).
Proof.
  induction n as [|n IH]; [reflexivity|].
  cbn [all_states]. rewrite IH. clear IH.
  generalize (all_states vals n) as L; intros L.
  induction vals as [|v vals IHv]; [reflexivity|].
  cbn [map flat_map]. rewrite IHv, map_app, !map_map. reflexivity.
Qed.
