(** * C113: correlations of data in narrow integer types. *)
From Coq Require Import Lra Lia.
From Verif Require Import Prelude Spec PreludeFacts M_Index M_Energy M_Params M_Corr M_MeanField M_Models M_Front M_Rest M_Types M_Narrow P_Params P_MeanField.
Import ListNotations.
Local Open Scope R_scope.

(** Specification: the exact scalar product. *)
Fixpoint exact_dot (u v : list Z) : Z :=
  match u, v with
  | a :: u', b :: v' => (a * b + exact_dot u' v')%Z
  | _, _ => 0%Z
  end.

Lemma wrap_signed_add b x y z : (1 <= b)%nat -> wrap (Signed b) (x + y) = wrap (Signed b) (x + z) <-> (y mod 2 ^ Z.of_nat b = z mod 2 ^ Z.of_nat b)%Z.
Proof.
  intros Hb. unfold wrap. set (m := (2 ^ Z.of_nat b)%Z). set (h := (2 ^ (Z.of_nat b - 1))%Z).
  assert (Hm : (0 < m)%Z) by (apply Z.pow_pos_nonneg; lia). split.
  - intros E. assert (E' : ((x + y + h) mod m = (x + z + h) mod m)%Z) by lia.
    replace y with ((x + y + h) - (x + h))%Z by ring. replace z with ((x + z + h) - (x + h))%Z by ring.
    rewrite (Zminus_mod (x + y + h)), (Zminus_mod (x + z + h)), E'. reflexivity.
  - intros E. f_equal. replace (x + y + h)%Z with (y + (x + h))%Z by ring. replace (x + z + h)%Z with (z + (x + h))%Z by ring.
    rewrite (Zplus_mod y), (Zplus_mod z), E. reflexivity.
Qed.

Lemma wrap_signed_mod b z : (1 <= b)%nat -> (wrap (Signed b) z mod 2 ^ Z.of_nat b = z mod 2 ^ Z.of_nat b)%Z.
Proof.
  intros Hb. unfold wrap. set (m := (2 ^ Z.of_nat b)%Z). set (h := (2 ^ (Z.of_nat b - 1))%Z).
  rewrite Zminus_mod_idemp_l. f_equal. ring.
Qed.

Definition ring_type (t : int_type) : Prop := match t with Signed b => (1 <= b)%nat | Unsigned _ => True | Boolean => False end.

Lemma wrap_add t x y : ring_type t -> wrap t (wrap t x + wrap t y) = wrap t (x + y).
Proof.
  destruct t as [b|b|]; cbn [ring_type]; intros Hb; [| |contradiction].
  - transitivity (wrap (Signed b) (wrap (Signed b) x + y)).
    + apply wrap_signed_add; [exact Hb|]. now apply wrap_signed_mod.
    + rewrite !(Z.add_comm _ y). apply wrap_signed_add; [exact Hb|]. now apply wrap_signed_mod.
  - cbn. symmetry. apply Zplus_mod.
Qed.

Lemma wrap_0 t : ring_type t -> wrap t 0 = 0%Z.
Proof.
  destruct t as [b|b|]; cbn [ring_type]; intros Hb; [| |contradiction].
  - unfold wrap. rewrite Z.add_0_l, Z.mod_small; [lia|]. split; [apply Z.pow_nonneg; lia|]. apply Z.pow_lt_mono_r; lia.
  - apply Zmod_0_l.
Qed.

Lemma typed_dot_wrap t u v : ring_type t -> typed_dot t u v = wrap t (exact_dot u v).
Proof.
  intros Ht. unfold typed_dot. rewrite <- (wrap_0 t Ht) at 1.
  enough (G : forall a, fold_left (fun acc p => wrap t (acc + wrap t (fst p * snd p))%Z) (combine u v) (wrap t a) = wrap t (a + exact_dot u v))
    by (rewrite G; f_equal).
  revert v. induction u as [|x u IH]; intros v a; [cbn; now rewrite Z.add_0_r|]. destruct v as [|y v]; [cbn; now rewrite Z.add_0_r|].
  cbn [combine fold_left exact_dot fst snd]. rewrite wrap_add by exact Ht. rewrite IH. f_equal. ring.
Qed.

Lemma typed_dot_bool u v : Forall (fun z => z = 0%Z \/ z = 1%Z) u -> Forall (fun z => z = 0%Z \/ z = 1%Z) v ->
  typed_dot Boolean u v = (if Z.eqb (exact_dot u v) 0 then 0 else 1)%Z.
Proof.
  unfold typed_dot. intros Hu Hv.
  enough (G : forall a, (0 <= a)%Z -> fold_left (fun acc p => wrap Boolean (acc + wrap Boolean (fst p * snd p))%Z) (combine u v) (wrap Boolean a) =
      wrap Boolean (a + exact_dot u v) /\ (0 <= exact_dot u v)%Z) by (destruct (G 0%Z); [lia|assumption]).
  revert v Hv. induction Hu as [|x u Hx Hu IH]; intros v Hv a Ha; [cbn; rewrite Z.add_0_r; split; [reflexivity|lia]|].
  destruct Hv as [|y v Hy Hv]; [cbn; rewrite Z.add_0_r; split; [reflexivity|lia]|].
  cbn [combine fold_left exact_dot fst snd].
  replace (wrap Boolean (wrap Boolean a + wrap Boolean (x * y))) with (wrap Boolean (a + x * y)).
  - destruct (IH v Hv (a + x * y)%Z) as [E P]; [destruct Hx as [->| ->], Hy as [->| ->]; lia|]. rewrite E. split; [f_equal; ring|].
    destruct Hx as [->| ->], Hy as [->| ->]; lia.
  - unfold wrap. destruct (Z.eqb_spec a 0) as [->|Na]; destruct Hx as [->| ->], Hy as [->| ->]; cbn [Z.mul Z.eqb Pos.mul Z.add Pos.add]; rewrite ?Z.add_0_r; try reflexivity;
      (match goal with |- context [Z.eqb ?x 0] => destruct (Z.eqb_spec x 0) end); try reflexivity; lia.
Qed.

Definition unit_entry (z : Z) : Prop := z = (-1)%Z \/ z = 0%Z \/ z = 1%Z.

Lemma exact_dot_bound u : forall v, Forall unit_entry u -> Forall unit_entry v -> (- Z.of_nat (length u) <= exact_dot u v <= Z.of_nat (length u))%Z.
Proof.
  induction u as [|x u IH]; intros v Hu Hv; [cbn; lia|]. destruct v as [|y v]; [cbn; lia|].
  inversion Hu as [|? ? Ux Hu']; inversion Hv as [|? ? Uy Hv']; subst. specialize (IH v Hu' Hv'). cbn [exact_dot length].
  assert (-1 <= x * y <= 1)%Z by (destruct Ux as [->|[->| ->]], Uy as [->|[->| ->]]; lia). lia.
Qed.

Lemma exact_dot_nonneg u : forall v, Forall (fun z => (0 <= z)%Z) u -> Forall (fun z => (0 <= z)%Z) v -> (0 <= exact_dot u v)%Z.
Proof.
  induction u as [|x u IH]; intros v Hu Hv; [cbn; lia|]. destruct v as [|y v]; [cbn; lia|].
  inversion Hu; inversion Hv; subst. cbn [exact_dot]. specialize (IH v ltac:(assumption) ltac:(assumption)). nia.
Qed.

Lemma xat_unit r i : Forall unit_entry r -> unit_entry (xat r i).
Proof.
  intros H. unfold xat. destruct (Nat.lt_ge_cases i (length r)) as [Hi|Hi]; [|rewrite nth_overflow by exact Hi; right; now left].
  rewrite Forall_forall in H. apply H. now apply nth_In.
Qed.

Lemma spins_ok_units X : spins_ok X = true -> forall r, In r X -> Forall unit_entry r.
Proof.
  unfold spins_ok. rewrite forallb_forall. intros H r Hr. specialize (H r Hr). rewrite forallb_forall in H. apply Forall_forall. intros x Hx.
  specialize (H x Hx). unfold unit_entry. rewrite !Bool.orb_true_iff in H. rewrite !Z.eqb_eq in H. tauto.
Qed.

Lemma exact_dot_columns X i j : IZR (exact_dot (int_column X i) (int_column X j)) = sumf X (fun r => IZR (xat r i) * IZR (xat r j)).
Proof.
  induction X as [|r X IH]; [reflexivity|]. cbn [int_column map exact_dot]. rewrite sumf_cons, plus_IZR, mult_IZR. unfold int_column in IH. now rewrite IH.
Qed.

(** How many products of the values -1, 0, 1 can be added in the type. *)
Definition fits (t : int_type) (m : nat) (X : list (list Z)) : Prop :=
  match t with
  | Signed b => (1 <= b)%nat /\ (Z.of_nat m < 2 ^ (Z.of_nat b - 1))%Z
  | Unsigned b => (Z.of_nat m < 2 ^ Z.of_nat b)%Z /\ forall r, In r X -> Forall (fun z => (0 <= z)%Z) r
  | Boolean => False
  end.

Lemma dot_exact t u v m X : fits t m X -> (length u <= m)%nat -> Forall unit_entry u -> Forall unit_entry v ->
  ((forall r, In r X -> Forall (fun z => (0 <= z)%Z) r) -> Forall (fun z => (0 <= z)%Z) u /\ Forall (fun z => (0 <= z)%Z) v) ->
  typed_dot t u v = exact_dot u v.
Proof.
  intros Hf Hm Hu Hv Hn. pose proof (exact_dot_bound u v Hu Hv) as B. destruct t as [b|b|]; cbn [fits] in Hf; [| |contradiction].
  - destruct Hf as [Hb Hf]. rewrite typed_dot_wrap by exact Hb. unfold wrap. set (h := (2 ^ (Z.of_nat b - 1))%Z) in *.
    assert (E : (2 ^ Z.of_nat b = 2 * h)%Z) by (unfold h; rewrite <- Z.pow_succ_r by lia; f_equal; lia).
    rewrite E, Z.mod_small by lia. lia.
  - destruct Hf as [Hf HX]. rewrite typed_dot_wrap by exact I. unfold wrap. apply Z.mod_small.
    destruct (Hn HX) as [N1 N2]. pose proof (exact_dot_nonneg u v N1 N2). lia.
Qed.

Lemma columns_exact t X i j : fits t (length X) X -> (forall r, In r X -> Forall unit_entry r) ->
  IZR (typed_dot t (int_column X i) (int_column X j)) = sumf X (fun r => IZR (xat r i) * IZR (xat r j)).
Proof.
  intros Hf Hu. rewrite <- exact_dot_columns. f_equal. apply (dot_exact t _ _ (length X) X Hf).
  - unfold int_column. now rewrite map_length.
  - apply Forall_forall. intros z Hz. apply in_map_iff in Hz. destruct Hz as (r & <- & Hr). apply xat_unit. now apply Hu.
  - apply Forall_forall. intros z Hz. apply in_map_iff in Hz. destruct Hz as (r & <- & Hr). apply xat_unit. now apply Hu.
  - intros HX. assert (G : forall k, Forall (fun z => (0 <= z)%Z) (int_column X k)).
    { intros k. apply Forall_forall. intros z Hz. apply in_map_iff in Hz. destruct Hz as (r & <- & Hr). unfold xat.
      destruct (Nat.lt_ge_cases k (length r)) as [Hi|Hi]; [|rewrite nth_overflow by exact Hi; lia].
      specialize (HX r Hr). rewrite Forall_forall in HX. apply HX. now apply nth_In. }
    split; apply G.
Qed.

(** pair_corr does not depend on the element type of the data as long as the number of samples
    fits into it (127 for int8, 255 for uint8), for all its options. *)
Theorem C113_pair_corr_fits : forall (t : int_type) (X : list (list Z)) (N : nat) (w : weights_arg) (ee sm lc : bool),
  fits t (length X) X -> pair_corr_typed t X N w ee sm lc = pair_corr X N w ee sm lc.
Proof.
  intros t X N w ee sm lc Hf. unfold pair_corr_typed, pair_corr. destruct (spins_ok X) eqn:Es; [|reflexivity]. cbn [negb].
  pose proof (spins_ok_units X Es) as Hu. destruct (resolve_weights X N w ee lc) as [r|]; [|reflexivity]. cbn [bind]. destruct r as [rw|w1 w2]; [reflexivity|].
  assert (E : map (fun kp : nat * (nat * nat) => let '(k, p) := kp in IZR (typed_dot t (int_column X (fst p)) (int_column X (snd p))) * nthR w2 k)
       (combine (range (length (loop_ij N))) (loop_ij N)) =
     map (fun kp : nat * (nat * nat) => let '(k, p) := kp in sumf X (fun r => IZR (xat r (fst p)) * IZR (xat r (snd p))) * nthR w2 k)
       (combine (range (length (loop_ij N))) (loop_ij N))).
  { apply map_ext. intros [k p]. now rewrite columns_exact. }
  now rewrite E.
Qed.
Print Assumptions C113_pair_corr_fits.

(** Nor does it with weights per sample, or none, for any type and number of samples. *)
Theorem C113_pair_corr_row_weights : forall (t : int_type) (X : list (list Z)) (N : nat) (w : weights_arg) (sm lc : bool),
  (forall w1 w2, w <> WTuple w1 w2) -> pair_corr_typed t X N w false sm lc = pair_corr X N w false sm lc.
Proof.
  intros t X N w sm lc Hw. unfold pair_corr_typed, pair_corr. destruct (spins_ok X); [|reflexivity]. cbn [negb].
  unfold resolve_weights. cbn [andb]. destruct w as [|a|w1 w2|c]; [reflexivity| |destruct (Hw w1 w2); reflexivity|reflexivity].
  destruct (negb _); reflexivity.
Qed.
Print Assumptions C113_pair_corr_row_weights.

Lemma exact_dot_repeat m : exact_dot (repeat 1%Z m) (repeat 1%Z m) = Z.of_nat m.
Proof. induction m as [|m IH]; [reflexivity|]. cbn [repeat exact_dot]. rewrite IH. lia. Qed.

Lemma filter_all {A} (f : A -> bool) l : (forall a, In a l -> f a = true) -> filter f l = l.
Proof. induction l as [|a l IH]; cbn; intros H; [reflexivity|]. rewrite (H a) by auto. now rewrite IH by auto. Qed.

Lemma map_repeat' {A B} (f : A -> B) a m : map f (repeat a m) = repeat (f a) m.
Proof. induction m; cbn; congruence. Qed.

Lemma spins_ok_repeat m : spins_ok (repeat [1; 1]%Z m) = true.
Proof. unfold spins_ok. apply forallb_forall. intros r Hr. apply repeat_spec in Hr. now subst r. Qed.

Lemma pair_corr_ones t m : (0 < m)%nat ->
  pair_corr_typed t (repeat [1; 1]%Z m) 2 WNone true false false = Ok ([1; 1], [IZR (typed_dot t (repeat 1%Z m) (repeat 1%Z m)) / INR m]).
Proof.
  intros Hm. unfold pair_corr_typed. rewrite spins_ok_repeat. cbn [negb resolve_weights andb bind].
  assert (Hc : forall i, (i < 2)%nat -> int_column (repeat [1; 1]%Z m) i = repeat 1%Z m).
  { intros i Hi. unfold int_column. rewrite map_repeat'. destruct i as [|[|i]]; [reflexivity|reflexivity|lia]. }
  assert (Hs : forall i, (i < 2)%nat -> sumf (repeat [1; 1]%Z m) (fun r => IZR (xat r i)) = INR m).
  { intros i Hi. rewrite (sumf_ext_in _ _ (fun _ => 1)) by (intros r Hr; apply repeat_spec in Hr; subst r; destruct i as [|[|i]]; [reflexivity|reflexivity|lia]).
    rewrite sumf_const, repeat_length. ring. }
  assert (H1 : forall i, (i < 2)%nat -> nonzero_count (repeat [1; 1]%Z m) i = m).
  { intros i Hi. unfold nonzero_count. rewrite filter_all; [apply repeat_length|]. intros r Hr. apply repeat_spec in Hr. subst r.
    destruct i as [|[|i]]; [reflexivity|reflexivity|lia]. }
  assert (H2 : nonzero_count2 (repeat [1; 1]%Z m) 0 1 = m).
  { unfold nonzero_count2. rewrite filter_all; [apply repeat_length|]. intros r Hr. apply repeat_spec in Hr. now subst r. }
  assert (Hr : 0 < INR m) by (apply lt_0_INR; lia).
  replace (range 2) with [0; 1]%nat by reflexivity. replace (loop_ij 2) with [(0, 1)]%nat by reflexivity.
  cbn [map length range seq combine fst snd]. rewrite !H1, H2, !Hs, !Hc by lia. unfold nthR. cbn [nth]. do 2 f_equal.
  - f_equal; [field; lra|]. f_equal. field. lra.
  - f_equal. field. lra.
Qed.

(** "pair_corr returns the averages of the data" fails for int8 data with more than 127
    samples when exclude_empty is set: 128 samples of two spins that are always up have the
    correlation -1 (256 have the correlation 0). *)
Theorem C113_pair_corr_int8_refuted :
  pair_corr_typed (Signed 8) (repeat [1; 1]%Z 128) 2 WNone true false false = Ok ([1; 1], [-1]) /\
  pair_corr_typed (Signed 8) (repeat [1; 1]%Z 256) 2 WNone true false false = Ok ([1; 1], [0]) /\
  (forall m, (0 < m)%nat -> pair_corr (repeat [1; 1]%Z m) 2 WNone true false false = Ok ([1; 1], [1])).
Proof.
  split; [|split].
  - rewrite pair_corr_ones by lia. rewrite typed_dot_wrap, exact_dot_repeat by (cbn; lia). do 2 f_equal. f_equal.
    replace (wrap (Signed 8) (Z.of_nat 128)) with (-128)%Z by reflexivity. rewrite INR_IZR_INZ. change (Z.of_nat 128) with 128%Z. lra.
  - rewrite pair_corr_ones by lia. rewrite typed_dot_wrap, exact_dot_repeat by (cbn; lia). do 2 f_equal. f_equal.
    replace (wrap (Signed 8) (Z.of_nat 256)) with 0%Z by reflexivity. unfold Rdiv. ring.
  - intros m Hm. rewrite <- (C113_pair_corr_fits (Signed (m + 2))).
    + rewrite pair_corr_ones by exact Hm. rewrite (dot_exact (Signed (m + 2)) _ _ m []).
      * rewrite exact_dot_repeat, <- INR_IZR_INZ. do 3 f_equal. field. apply not_0_INR. lia.
      * cbn. split; [lia|]. replace (Z.of_nat (m + 2) - 1)%Z with (Z.of_nat m + 1)%Z by lia. pose proof (Z.pow_gt_lin_r 2 (Z.of_nat m + 1)). lia.
      * rewrite repeat_length. lia.
      * apply Forall_forall. intros z Hz. apply repeat_spec in Hz. subst z. right. now right.
      * apply Forall_forall. intros z Hz. apply repeat_spec in Hz. subst z. right. now right.
      * intros _. split; apply Forall_forall; intros z Hz; apply repeat_spec in Hz; subst z; lia.
    + cbn. rewrite repeat_length. split; [lia|]. replace (Z.of_nat (m + 2) - 1)%Z with (Z.of_nat m + 1)%Z by lia. pose proof (Z.pow_gt_lin_r 2 (Z.of_nat m + 1)). lia.
Qed.
Print Assumptions C113_pair_corr_int8_refuted.

(** With data of type bool every number of samples above one gives a wrong correlation: m
    samples of two spins that are always on have the correlation 1/m. *)
Theorem C113_pair_corr_bool_refuted : forall m, (0 < m)%nat ->
  pair_corr_typed Boolean (repeat [1; 1]%Z m) 2 WNone true false false = Ok ([1; 1], [/ INR m]).
Proof.
  intros m Hm. rewrite pair_corr_ones by exact Hm. rewrite typed_dot_bool.
  - rewrite exact_dot_repeat. replace (Z.eqb (Z.of_nat m) 0) with false by (symmetry; apply Z.eqb_neq; lia). do 3 f_equal. unfold Rdiv. ring.
  - apply Forall_forall. intros z Hz. apply repeat_spec in Hz. now right.
  - apply Forall_forall. intros z Hz. apply repeat_spec in Hz. now right.
Qed.
Print Assumptions C113_pair_corr_bool_refuted.

Lemma map_xat r N : length r = N -> map (xat r) (range N) = r.
Proof.
  intros <-. unfold range, xat. apply (nth_ext _ _ 0%Z 0%Z); [now rewrite map_length, seq_length|].
  intros k Hk. rewrite map_length, seq_length in Hk. rewrite (nth_indep _ 0%Z (nth 0 r 0%Z)) by (now rewrite map_length, seq_length).
  rewrite (map_nth (fun i => nth i r 0%Z)), seq_nth by exact Hk. reflexivity.
Qed.

Lemma exact_dot_sum u : forall v, IZR (exact_dot u v) = sumf (combine u v) (fun p => IZR (fst p) * IZR (snd p)).
Proof. induction u as [|x u IH]; intros [|y v]; try reflexivity. cbn [exact_dot combine]. now rewrite sumf_cons, plus_IZR, mult_IZR, IH. Qed.

(** The overlap of two replicas does not depend on the type if the number of spins fits. *)
Theorem C113_overlap_fits : forall (t : int_type) (sample : list (list Z)) (N a b : nat) (z : bool) ra rb,
  nth_error sample a = Some ra -> nth_error sample b = Some rb -> length ra = N -> length rb = N ->
  Forall unit_entry ra -> Forall unit_entry rb -> fits t N sample ->
  calc_overlap_typed t sample N a b z = calc_overlap sample N a b z.
Proof.
  intros t sample N a b z ra rb Ea Eb La Lb Ua Ub Hf. unfold calc_overlap_typed, calc_overlap.
  rewrite !(nth_error_nth _ _ _ Ea), !(nth_error_nth _ _ _ Eb).
  assert (E : IZR (typed_dot t (map (xat ra) (range N)) (map (xat rb) (range N))) = sumf (range N) (fun i => IZR (xat ra i) * IZR (xat rb i))).
  { rewrite !map_xat by assumption. rewrite (dot_exact t ra rb N sample Hf); [| lia|assumption|assumption|].
    - rewrite exact_dot_sum. rewrite <- (map_xat ra N La) at 1. rewrite <- (map_xat rb N Lb) at 1. clear.
      induction (range N) as [|i l IH]; [reflexivity|]. cbn [map combine]. rewrite !sumf_cons. cbn [fst snd]. now rewrite IH.
    - intros HX. split; apply HX; eapply nth_error_In; eassumption. }
  now rewrite E.
Qed.
Print Assumptions C113_overlap_fits.

(** A state of m spins up has the overlap 1 with itself; in int8 it is -1 for m = 128. *)
Theorem C113_overlap_int8_refuted :
  calc_overlap_typed (Signed 8) [repeat 1%Z 128] 128 0 0 false = -1 /\ calc_overlap [repeat 1%Z 128] 128 0 0 false = 1.
Proof.
  split.
  - unfold calc_overlap_typed. cbn [nth]. rewrite map_xat by apply repeat_length. rewrite typed_dot_wrap, exact_dot_repeat by (cbn; lia).
    replace (wrap (Signed 8) (Z.of_nat 128)) with (-128)%Z by reflexivity. rewrite INR_IZR_INZ. change (Z.of_nat 128) with 128%Z. lra.
  - rewrite <- (C113_overlap_fits (Signed 64) _ 128 0 0 false (repeat 1%Z 128) (repeat 1%Z 128)); try reflexivity.
    + unfold calc_overlap_typed. cbn [nth]. rewrite map_xat by apply repeat_length. rewrite typed_dot_wrap, exact_dot_repeat by (cbn; lia).
      replace (wrap (Signed 64) (Z.of_nat 128)) with 128%Z by reflexivity. rewrite INR_IZR_INZ. change (Z.of_nat 128) with 128%Z. lra.
    + apply Forall_forall. intros z Hz. apply repeat_spec in Hz. subst z. right. now right.
    + apply Forall_forall. intros z Hz. apply repeat_spec in Hz. subst z. right. now right.
    + cbn. lia.
Qed.
Print Assumptions C113_overlap_int8_refuted.

(** ** The residuals of RegularizedMeanField *)
Definition pm_sample (n : nat) (X : list (list Z)) : Prop := forall r, In r X -> length r = n /\ Forall (fun z => z = (-1)%Z \/ z = 1%Z) r.

Lemma pm_self X n i : pm_sample n X -> (i < n)%nat -> exact_dot (int_column X i) (int_column X i) = Z.of_nat (length X).
Proof.
  intros H Hi. induction X as [|r X IH]; [reflexivity|]. cbn [int_column map exact_dot length]. unfold int_column in IH.
  rewrite IH by (intros r' Hr'; apply H; now right). destruct (H r (or_introl eq_refl)) as [L U].
  assert (xat r i * xat r i = 1)%Z.
  { unfold xat. rewrite Forall_forall in U. destruct (U (nth i r 0%Z)) as [-> | ->]; [apply nth_In; lia|reflexivity|reflexivity]. }
  lia.
Qed.

Lemma delta_cooc t X n C i j : pm_sample n X -> (0 < length X)%nat -> (i <= j < n)%nat ->
  exists r, isingDeltaCooc_typed t X C = Ok r /\ length r = (n * (n + 1) / 2)%nat /\
    nthR r (off n (j - i) + i) = IZR (typed_dot t (int_column X i) (int_column X j)) / INR (length X) - entry C i j.
Proof.
  intros H Hm Hij. assert (Hn : length (hd [] X) = n) by (destruct X as [|r X]; [cbn in Hm; lia|]; apply (H r); now left).
  unfold isingDeltaCooc_typed, cooccurrence_typed. rewrite Hn, mk_mat_length. rewrite (aboveDiagFlat_ok n) by (try apply mk_mat_length; lia).
  eexists. split; [reflexivity|]. split; [apply flat_length, mk_mat_length|].
  rewrite blocks_nth by (try lia; intros d Hd; now rewrite diagonal_length, mk_mat_length).
  rewrite diagonal_nth by (rewrite mk_mat_length; lia). replace (i + (j - i))%nat with j by lia. rewrite !entry_mk_mat by lia.
  replace (Nat.ltb j i) with false by (symmetry; apply Nat.ltb_ge; lia). f_equal. unfold Rdiv. ring.
Qed.

(** What the residuals should be: the averages of s_i s_j in the sample minus the data, in the
    documented layout (diagonals one after the other). *)
Definition residual_spec (n : nat) (X : list (list Z)) (C : list (list R)) (r : list R) : Prop :=
  length r = (n * (n + 1) / 2)%nat /\
  forall i j, (i <= j < n)%nat -> nthR r (off n (j - i) + i) = sumf X (fun s => IZR (xat s i) * IZR (xat s j)) / INR (length X) - entry C i j.

Lemma pm_units n X : pm_sample n X -> forall r, In r X -> Forall unit_entry r.
Proof.
  intros H r Hr. destruct (H r Hr) as [_ U]. eapply Forall_impl; [|exact U]. intros z [-> | ->]; unfold unit_entry; auto.
Qed.

(** With the C++ extension the residuals are right for fewer than 2^63 samples; without it, for
    fewer than 128. *)
Theorem C113_rmf_residuals : forall (ext : bool) (n : nat) (theta : list R) (X : list (list Z)) (C : list (list R)),
  (0 < n)%nat -> pm_sample n X -> (0 < length X)%nat -> length theta = (n + n * (n - 1) / 2)%nat ->
  (Z.of_nat (length X) < if ext then 2 ^ 63 else 128)%Z ->
  exists r, rmf_residuals ext n theta X C = Ok r /\ residual_spec n X C r.
Proof.
  intros ext n theta X C Hn H Hm Ht Hl. unfold rmf_residuals, model_sample_type, sample_type, metropolis_new. cbn [sa_boost].
  replace (Nat.eqb (length theta) (n * (n - 1) / 2 + n)) with true by (symmetry; apply Nat.eqb_eq; lia). rewrite Bool.andb_true_r.
  set (t := int_type_of _). assert (Hf : fits t (length X) X) by (subst t; destruct ext; cbn in *; lia).
  destruct (delta_cooc t X n C 0 0 H Hm ltac:(lia)) as (r & E & L & _). exists r. split; [exact E|]. split; [exact L|].
  intros i j Hij. destruct (delta_cooc t X n C i j H Hm Hij) as (r' & E' & _ & V). rewrite E in E'. injection E' as <-.
  rewrite V, columns_exact; [reflexivity|exact Hf|]. now apply (pm_units n).
Qed.
Print Assumptions C113_rmf_residuals.

(** Without the extension the residuals of EVERY sample of the default size 1000 are wrong: the
    average of s_i^2, which is 1, comes out as -3/125. *)
Theorem C113_rmf_int8_refuted : forall (n : nat) (theta : list R) (X : list (list Z)) (C : list (list R)),
  (0 < n)%nat -> pm_sample n X -> length X = 1000%nat ->
  exists r, rmf_residuals false n theta X C = Ok r /\ (forall i, (i < n)%nat -> nthR r i = - (3 / 125) - entry C i i) /\ ~ residual_spec n X C r.
Proof.
  intros n theta X C Hn H Hl. unfold rmf_residuals, model_sample_type, sample_type, metropolis_new. cbn [sa_boost andb].
  replace (int_type_of (fst (Int8, 2%nat))) with (Signed 8) by reflexivity.
  assert (Hi : forall i, (i < n)%nat -> exists r, isingDeltaCooc_typed (Signed 8) X C = Ok r /\ nthR r i = - (3 / 125) - entry C i i).
  { intros i Hi. destruct (delta_cooc (Signed 8) X n C i i H ltac:(lia) ltac:(lia)) as (r & E & _ & V). exists r. split; [exact E|].
    rewrite Nat.sub_diag in V. cbn [off plus] in V. rewrite V, typed_dot_wrap, (pm_self X n i H Hi), Hl by (cbn; lia).
    replace (wrap (Signed 8) (Z.of_nat 1000)) with (-24)%Z by reflexivity. rewrite INR_IZR_INZ. change (Z.of_nat 1000) with 1000%Z. lra. }
  destruct (Hi 0%nat Hn) as (r & E & V0). exists r. split; [exact E|]. split.
  - intros i Hlt. destruct (Hi i Hlt) as (r' & E' & V). rewrite E in E'. now injection E' as <-.
  - intros [_ S]. specialize (S 0%nat 0%nat ltac:(lia)). cbn [off plus Nat.sub] in S. rewrite V0 in S.
    rewrite <- exact_dot_columns, (pm_self X n 0 H Hn), Hl, INR_IZR_INZ in S. change (Z.of_nat 1000) with 1000%Z in S. lra.
Qed.
Print Assumptions C113_rmf_int8_refuted.

(** The hypotheses can be met: 100 and 1000 samples of two spins. *)
Example C113_example : fits (Signed 8) 100 [] /\ fits (Unsigned 8) 200 [] /\ ~ fits (Signed 8) 128 [] /\
  pm_sample 2 (repeat [1; -1]%Z 1000) /\ length (repeat [1; -1]%Z 1000) = 1000%nat.
Proof.
  split; [cbn; lia|]. split; [cbn; split; [lia|intros r []]|]. split; [cbn; lia|]. split; [|apply repeat_length].
  intros r Hr. apply repeat_spec in Hr. subst r. split; [reflexivity|]. constructor; [now right|]. constructor; [now left|constructor].
Qed.
Print Assumptions C113_example.
