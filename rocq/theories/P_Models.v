(** * Proofs about M_Models. *)
From Coq Require Import Sorted.
From Verif Require Import Prelude Spec PreludeFacts M_Index M_Params M_Corr M_Enum M_Models P_Index P_Unravel P_Energy P_Params P_Corr P_Corr2.
Import ListNotations.

(** ** Filling in *)
Section Fill.
Context {A : Type}.
Variable (v : A) (N : nat).

(** The values x at the positions ix, v elsewhere, from position [base] on. *)
Fixpoint scatter (base : nat) (ix : list nat) (x : list A) : list A :=
  match ix, x with
  | p :: ix', a :: x' => repeat v (p - base)%nat ++ a :: scatter (S p) ix' x'
  | _, _ => repeat v (N - base)%nat
  end.

Fixpoint cnts (base : nat) (ix : list nat) : list nat :=
  match ix with [] => [(N - base)%nat] | p :: ix' => (p - base)%nat :: cnts (S p) ix' end.

Lemma insert_counts_scatter ins : forall ix x k base, length x = length ix ->
  (forall j, (j <= length ix)%nat -> count_occ Nat.eq_dec ins (k + j)%nat = nth j (cnts base ix) 0%nat) ->
  insert_counts k ins v x = scatter base ix x.
Proof.
  induction ix as [|p ix IH]; intros [|a x] k base Hl Hc; cbn in Hl; try discriminate.
  - cbn. specialize (Hc 0%nat (le_n _)). rewrite Nat.add_0_r in Hc. rewrite Hc. cbn. apply app_nil_r.
  - cbn [insert_counts scatter]. f_equal.
    + specialize (Hc 0%nat ltac:(cbn; lia)). rewrite Nat.add_0_r in Hc. now rewrite Hc.
    + f_equal. apply IH; [lia|]. intros j Hj. specialize (Hc (S j) ltac:(cbn; lia)). cbn [cnts nth] in Hc.
      now rewrite <- Hc, Nat.add_succ_r.
Qed.

Lemma scatter_spec : forall ix x base d, length x = length ix -> StronglySorted lt ix ->
  (forall p, In p ix -> (base <= p < N)%nat) -> (base <= N)%nat ->
  length (scatter base ix x) = (N - base)%nat /\
  (forall k, (k < length ix)%nat -> nth (nth k ix 0 - base)%nat (scatter base ix x) d = nth k x d) /\
  (forall j, (base <= j < N)%nat -> ~ In j ix -> nth (j - base)%nat (scatter base ix x) d = v).
Proof.
  induction ix as [|p ix IH]; intros [|a x] base d Hl Hs Hb HbN; cbn in Hl; try discriminate.
  - cbn. rewrite repeat_length. split; [reflexivity|]. split; [lia|]. intros j Hj _.
    rewrite (nth_indep _ d v) by (rewrite repeat_length; lia). apply nth_repeat.
  - assert (Hp := Hb p (or_introl eq_refl)). apply StronglySorted_inv in Hs. destruct Hs as [Hs Hf]. rewrite Forall_forall in Hf.
    destruct (IH x (S p) d) as [L [V O]]; [lia|exact Hs| |lia|].
    { intros q Hq. specialize (Hf q Hq). specialize (Hb q (or_intror Hq)). lia. }
    cbn [scatter]. split; [|split].
    + rewrite app_length, repeat_length. cbn [length]. lia.
    + intros [|k] Hk; cbn [nth].
      * rewrite app_nth2 by (rewrite repeat_length; lia). rewrite repeat_length, Nat.sub_diag. reflexivity.
      * cbn in Hk. assert (Hq : In (nth k ix 0%nat) ix) by (apply nth_In; lia). specialize (Hf _ Hq).
        rewrite app_nth2 by (rewrite repeat_length; lia). rewrite repeat_length.
        replace (nth k ix 0 - base - (p - base))%nat with (S (nth k ix 0 - S p)) by lia. cbn [nth]. apply V. lia.
    + intros j Hj Hn. destruct (Nat.lt_ge_cases j p).
      * rewrite app_nth1 by (rewrite repeat_length; lia). rewrite (nth_indep _ d v) by (rewrite repeat_length; lia). apply nth_repeat.
      * assert (j <> p) by (intros ->; apply Hn; now left).
        rewrite app_nth2 by (rewrite repeat_length; lia). rewrite repeat_length.
        replace (j - base - (p - base))%nat with (S (j - S p)) by lia. cbn [nth]. apply O; [lia|]. intros Hin. apply Hn. now right.
Qed.

Definition full (i prev : nat) (ixs : list nat) : list nat :=
  insertion_loop i prev ixs ++ repeat (i + 1 + length ixs)%nat (N - last (prev :: ixs) 0 - 1)%nat.

Lemma count_occ_repeat_nat x m k : count_occ Nat.eq_dec (repeat x m) k = if Nat.eq_dec x k then m else 0%nat.
Proof. induction m as [|m IH]; cbn; [now destruct Nat.eq_dec|]. rewrite IH. destruct (Nat.eq_dec x k); reflexivity. Qed.

Lemma full_counts : forall ixs i prev,
  (forall j, (j <= length ixs)%nat -> count_occ Nat.eq_dec (full i prev ixs) (i + 1 + j)%nat = nth j (cnts (S prev) ixs) 0%nat) /\
  (forall k, In k (full i prev ixs) -> (i + 1 <= k <= i + 1 + length ixs)%nat).
Proof.
  induction ixs as [|p ixs IH]; intros i prev.
  - unfold full. cbn [insertion_loop app length last]. split.
    + intros j Hj. replace j with 0%nat by lia. rewrite count_occ_repeat_nat. destruct Nat.eq_dec; [|lia]. cbn. lia.
    + intros k Hk. apply repeat_spec in Hk. lia.
  - destruct (IH (S i) p) as [H1 H2].
    assert (E : full i prev (p :: ixs) = repeat (i + 1)%nat (p - prev - 1)%nat ++ full (S i) p ixs).
    { unfold full. cbn [insertion_loop length]. rewrite <- app_assoc. do 2 f_equal.
      replace (i + 1 + S (length ixs))%nat with (S i + 1 + length ixs)%nat by lia. reflexivity. }
    rewrite E. split.
    + intros j Hj. rewrite count_occ_app, count_occ_repeat_nat. cbn [cnts].
      destruct j as [|j].
      * destruct Nat.eq_dec; [|lia].
        replace (count_occ Nat.eq_dec (full (S i) p ixs) (i + 1 + 0)%nat) with 0%nat; [cbn; lia|].
        symmetry. apply count_occ_not_In. intros Hin. apply H2 in Hin. lia.
      * destruct Nat.eq_dec; [lia|]. cbn [nth plus]. cbn in Hj. specialize (H1 j ltac:(lia)). rewrite <- H1. f_equal. lia.
    + intros k Hk. apply in_app_iff in Hk. cbn [length]. destruct Hk as [Hk|Hk]; [apply repeat_spec in Hk; lia|]. apply H2 in Hk. lia.
Qed.
End Fill.

Lemma set_insertion_ok N p0 rest : (rest <> [] \/ p0 + 1 >= N)%nat ->
  set_insertion_ix N (p0 :: rest) = Ok (repeat 0%nat p0 ++ full N 0 p0 rest).
Proof.
  intros H. unfold set_insertion_ix, full. rewrite <- app_assoc.
  destruct (Nat.ltb_spec (last (p0 :: rest) 0 + 1) N) as [Hl|Hl].
  - destruct rest as [|p1 rest]; [cbn in Hl; destruct H; [congruence|lia]|].
    do 4 f_equal. cbn [length]. lia.
  - replace (N - last (p0 :: rest) 0 - 1)%nat with 0%nat by lia. cbn [repeat]. now rewrite app_nil_r.
Qed.

Lemma fill_in_ok {A} (v : A) N ix x d : ix <> [] -> StronglySorted lt ix -> (forall p, In p ix -> (p < N)%nat) ->
  (2 <= length ix \/ last ix 0 + 1 = N)%nat -> length x = length ix ->
  exists ins y, set_insertion_ix N ix = Ok ins /\ fill_in ins v x = Ok y /\ length y = N /\
    (forall k, (k < length ix)%nat -> nth (nth k ix 0%nat) y d = nth k x d) /\
    (forall j, (j < N)%nat -> ~ In j ix -> nth j y d = v).
Proof.
  intros Hne Hs Hb H2 Hl. destruct ix as [|p0 rest]; [congruence|].
  exists (repeat 0%nat p0 ++ full N 0 p0 rest), (scatter v N 0 (p0 :: rest) x).
  assert (HF := full_counts N rest 0 p0). destruct HF as [F1 F2].
  split; [|split].
  - apply set_insertion_ok. destruct rest; [right; cbn in H2; lia|left; discriminate].
  - unfold fill_in. replace (existsb _ _) with false.
    + f_equal. apply insert_counts_scatter; [exact Hl|]. intros j Hj. rewrite count_occ_app, count_occ_repeat_nat. cbn [cnts Nat.add].
      destruct j as [|j].
      * destruct Nat.eq_dec; [|lia]. replace (count_occ Nat.eq_dec (full N 0 p0 rest) 0) with 0%nat; [cbn; lia|].
        symmetry. apply count_occ_not_In. intros Hin. apply F2 in Hin. lia.
      * destruct Nat.eq_dec; [lia|]. cbn [nth plus]. cbn in Hj. rewrite <- F1 by lia. reflexivity.
    + symmetry. apply not_true_is_false. intros HE. apply existsb_exists in HE. destruct HE as (k & Hk & Hlt).
      apply Nat.ltb_lt in Hlt. rewrite Hl in Hlt. cbn [length] in Hlt.
      apply in_app_iff in Hk. destruct Hk as [Hk|Hk]; [apply repeat_spec in Hk; lia|]. apply F2 in Hk. lia.
  - destruct (scatter_spec v N (p0 :: rest) x 0 d Hl Hs) as [L [V O]]; [intros p Hp; specialize (Hb p Hp); lia|lia|].
    rewrite Nat.sub_0_r in L. split; [exact L|]. split.
    + intros k Hk. specialize (V k Hk). now rewrite Nat.sub_0_r in V.
    + intros j Hj Hn. specialize (O j ltac:(lia) Hn). now rewrite Nat.sub_0_r in O.
Qed.

Lemma seq_sorted a m : StronglySorted lt (seq a m).
Proof.
  revert a. induction m as [|m IH]; intros a; cbn; constructor; auto.
  apply Forall_forall. intros x Hx. apply in_seq in Hx. lia.
Qed.

Lemma filter_sorted f l : StronglySorted lt l -> StronglySorted lt (filter f l).
Proof.
  induction 1 as [|a l Hs IH Hf]; cbn; [constructor|]. destruct (f a); [|assumption]. constructor; [assumption|].
  rewrite Forall_forall in *. intros x Hx. apply filter_In in Hx. now apply Hf.
Qed.

Lemma unique_nat_spec l : StronglySorted lt (unique_nat l) /\ forall k, In k (unique_nat l) <-> In k l.
Proof.
  split; [apply filter_sorted, seq_sorted|]. intros k. unfold unique_nat, range. rewrite filter_In, in_seq, existsb_exists. split.
  - intros (_ & x & Hx & E). apply Nat.eqb_eq in E. now subst.
  - intros Hk. split; [|exists k; now rewrite Nat.eqb_refl].
    assert (H := list_max_le l (list_max l)). destruct H as [H _]. specialize (H (le_n _)). rewrite Forall_forall in H. specialize (H k Hk). lia.
Qed.

Local Open Scope R_scope.
(** ** logp *)
Lemma logp_fold (V : nat -> R) uix : forall m k acc, length acc = length uix ->
  (forall j, (j < length uix)%nat -> (nth j uix 0 < k)%nat -> nthR acc j = V (nth j uix 0%nat)) ->
  let r := fold_left (fun acc i => map (fun ua => if Nat.eqb (fst ua) i then V i else snd ua) (combine uix acc)) (seq k m) acc in
  length r = length uix /\ forall j, (j < length uix)%nat -> (nth j uix 0 < k + m)%nat -> nthR r j = V (nth j uix 0%nat).
Proof.
  induction m as [|m IH]; intros k acc Hl Hv; cbn [seq fold_left].
  - split; [exact Hl|]. intros j Hj Hk. apply Hv; lia.
  - destruct (IH (S k) (map (fun ua => if Nat.eqb (fst ua) k then V k else snd ua) (combine uix acc))) as [R1 R2].
    + rewrite map_length, combine_length. lia.
    + intros j Hj Hk. unfold nthR.
      rewrite (nth_indep _ 0 ((fun ua : nat * R => if Nat.eqb (fst ua) k then V k else snd ua) (0%nat, 0))) by (rewrite map_length, combine_length; lia).
      rewrite (map_nth (fun ua : nat * R => if Nat.eqb (fst ua) k then V k else snd ua)), combine_nth by lia. cbn [fst snd].
      destruct (Nat.eqb_spec (nth j uix 0%nat) k) as [->|Hne]; [reflexivity|]. apply Hv; lia.
    + split; [exact R1|]. intros j Hj Hk. apply R2; lia.
Qed.

Lemma fold_left_combine_seq {B S} (f : S -> nat -> B -> S) (d : B) (us : list B) : forall k s,
  fold_left (fun acc is => let '(i, u) := is in f acc i u) (combine (seq k (length us)) us) s
  = fold_left (fun acc i => f acc i (nth (i - k)%nat us d)) (seq k (length us)) s.
Proof.
  induction us as [|u us IH]; intros k s; cbn [length seq combine fold_left]; [reflexivity|].
  rewrite Nat.sub_diag. cbn [nth]. rewrite IH.
  assert (G : forall l s, (forall i, In i l -> (k < i)%nat) ->
    fold_left (fun acc i => f acc i (nth (i - Datatypes.S k)%nat us d)) l s = fold_left (fun acc i => f acc i (nth (i - k)%nat (u :: us) d)) l s).
  { induction l as [|i l IHl]; intros s0 H; cbn [fold_left]; [reflexivity|].
    replace (i - k)%nat with (Datatypes.S (i - Datatypes.S k)) by (specialize (H i (or_introl eq_refl)); lia). cbn [nth]. apply IHl. intros i0 Hi0. apply H. now right. }
  apply G. intros i Hi. apply in_seq in Hi. lia.
Qed.

Lemma logp_ok lt_ ms sample : forallb (forallb (fun z => existsb (Z.eqb z) [-1; 0; 1]%Z)) sample = true ->
  logp lt_ ms sample = Ok (map (fun s => np_log (INR (length (filter (agrees s) ms)) / INR (length ms))) sample).
Proof.
  intros Hc. unfold logp. rewrite Hc. cbn [negb].
  set (us := np_unique lt_ sample). set (uix := unique_rows_inverse lt_ sample).
  set (V := fun s => INR (length (filter (agrees s) ms)) / INR (length ms)).
  assert (Lu : length uix = length sample) by (unfold uix, unique_rows_inverse; apply map_length).
  assert (E := fold_left_combine_seq (fun acc i s => map (fun ua : nat * R => if Nat.eqb (fst ua) i then V s else snd ua) (combine uix acc)) [] us 0 (repeat 0 (length sample))).
  unfold range. match goal with |- Ok (map np_log ?f) = _ => replace f with (fold_left (fun acc i => map (fun ua : nat * R => if Nat.eqb (fst ua) i then V (nth (i - 0)%nat us []) else snd ua) (combine uix acc)) (seq 0 (length us)) (repeat 0 (length sample))) by (symmetry; exact E) end.
  destruct (logp_fold (fun i => V (nth (i - 0)%nat us [])) uix (length us) 0 (repeat 0 (length sample))) as [R1 R2].
  - rewrite repeat_length. now symmetry.
  - intros j Hj H. lia.
  - cbv zeta in R1, R2. f_equal. rewrite <- (map_map V np_log). f_equal.
    apply (nth_ext _ _ 0 0); [rewrite map_length; lia|]. intros j Hj. rewrite R1 in Hj.
    assert (Hin : In (nth j sample []) sample) by (apply nth_In; lia).
    assert (Ej : nth j uix 0%nat = first_index (nth j sample []) us).
    { unfold uix, unique_rows_inverse. rewrite (nth_indep _ 0%nat (first_index [] us)) by (rewrite map_length; lia). apply (map_nth (fun r => first_index r us)). }
    destruct (first_index_spec (nth j sample []) us) as [F1 F2]; [now apply np_unique_in|].
    unfold nthR in R2. rewrite R2 by (rewrite ?Ej; lia). rewrite Ej, Nat.sub_0_r, F2.
    rewrite (nth_indep _ 0 (V [])) by (rewrite map_length; lia). now rewrite map_nth.
Qed.

(** ** Objectives *)
Lemma vsub_zero x y : length x = length y -> (vsub x y = Ok (map (fun _ => 0) y) <-> x = y).
Proof.
  intros Hl. unfold vsub. rewrite Hl, Nat.eqb_refl. split.
  - intros H. injection H as H. revert y Hl H. induction x as [|a x IH]; intros [|b y] Hl H; cbn in Hl; try discriminate; [reflexivity|].
    cbn in H. injection H as H1 H2. f_equal; [lra|]. apply IH; [lia|exact H2].
  - intros ->. f_equal. clear. induction y as [|b y IH]; cbn; [reflexivity|]. f_equal; [ring|exact IH].
Qed.

Lemma exceeds_spec m params : exceeds (Some m) params = false <-> forall x, In x params -> Rabs x <= m.
Proof.
  unfold exceeds. split.
  - intros H x Hx. destruct (Rlt_dec m (Rabs x)) as [Hlt|]; [|lra]. exfalso.
    assert (existsb (fun x => if Rlt_dec m (Rabs x) then true else false) params = true).
    { apply existsb_exists. exists x. split; [exact Hx|]. destruct (Rlt_dec m (Rabs x)); [reflexivity|contradiction]. }
    congruence.
  - intros H. apply not_true_is_false. intros E. apply existsb_exists in E. destruct E as (x & Hx & E).
    destruct (Rlt_dec m (Rabs x)); [|discriminate]. specialize (H x Hx). lra.
Qed.
