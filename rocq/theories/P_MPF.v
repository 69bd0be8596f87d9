(** * Proofs about M_MPF. *)
From Coquelicot Require Import Coquelicot.
From Verif Require Import Prelude Spec PreludeFacts M_Index M_Params M_Energy M_Corr M_MPF P_Index P_Energy P_Energy2.
Import ListNotations.
Local Open Scope R_scope.

Lemma foldM_seq {S} (f : S -> nat -> result S) (st : nat -> S) m : forall b,
  (forall i, (b <= i < b + m)%nat -> f (st i) i = Ok (st (Datatypes.S i))) -> foldM f (seq b m) (st b) = Ok (st (b + m)%nat).
Proof.
  induction m as [|m IH]; intros b H; cbn [seq foldM].
  - now rewrite Nat.add_0_r.
  - rewrite H by lia. cbn [bind]. rewrite IH by (intros i Hi; apply H; lia). do 2 f_equal. lia.
Qed.

Lemma get_nth {A} (d : A) (l : list A) i : (i < length l)%nat -> get l i = Ok (nth i l d).
Proof. intros H. unfold get. rewrite (nth_error_nth' l d H). reflexivity. Qed.

Lemma combine_map2 {A B C} (f : A -> B) (g : A -> C) l : combine (map f l) (map g l) = map (fun x => (f x, g x)) l.
Proof. induction l as [|a l IH]; cbn; [reflexivity|]. now rewrite IH. Qed.

Lemma is_derive_sumf {A} (l : list A) (f : R -> A -> R) (d : A -> R) x :
  (forall a, In a l -> is_derive (fun t => f t a) x (d a)) -> is_derive (fun t => sumf l (f t)) x (sumf l d).
Proof.
  induction l as [|a l IH]; intros H.
  - apply (is_derive_ext (fun _ => 0)); [intros; reflexivity|]. apply @is_derive_const.
  - apply (is_derive_ext (fun t => f t a + sumf l (f t))); [intros t; now rewrite sumf_cons|]. rewrite sumf_cons.
    apply @is_derive_plus; [apply H; now left|]. apply IH. intros b Hb. apply H. now right.
Qed.

Lemma sumR_nth (l : list R) : sumR l = sumf (seq 0 (length l)) (fun k => nthR l k).
Proof. unfold sumR. symmetry. apply (sumf_seq_nth 0 l (fun x => x)). Qed.

Section MPF.
Variable calc_e : list R -> list R -> R.
Variables (Xuniq : list (list R)) (Xcount : list R) (adjs : list (list (list R))).
Hypothesis HC : length Xcount = length Xuniq.
Hypothesis HA : length adjs = length Xuniq.
Let m := length Xuniq.
Let sk k := nth k Xuniq [].
Let ck k := nthR Xcount k.
Let ak k := nth k adjs [].

(** Unnormalised objective and derivative with respect to parameter j. *)
Definition flow (params : list R) : R :=
  sumf (seq 0 m) (fun k => sumf (ak k) (fun a => ck k * exp (/ 2 * (calc_e (sk k) params - calc_e a params)))).
Definition dflow (D : list R -> nat -> R) (params : list R) (j : nat) : R :=
  sumf (seq 0 m) (fun k => sumf (ak k) (fun a => / 2 * (ck k * exp (/ 2 * (calc_e (sk k) params - calc_e a params)) * (D (sk k) j - D a j)))).

(** All states that occur. *)
Definition occurs (s : list R) : Prop := In s Xuniq \/ exists k, In s (ak k).

Lemma mpf_K_value params : mpf_K calc_e None Xuniq Xcount adjs params = Ok (flow params / sumR Xcount, None).
Proof.
  unfold mpf_K.
  set (st := fun i => (sumf (seq 0 i) (fun k => sumf (ak k) (fun a => ck k * exp (/ 2 * (calc_e (sk k) params - calc_e a params)))), repeat 0 (length params))).
  change (0, repeat 0 (length params)) with (st 0%nat). unfold range. rewrite (foldM_seq _ st).
  - cbn [bind fst snd st]. reflexivity.
  - intros i Hi. unfold st at 1. cbn beta iota. rewrite (get_nth [] Xuniq), (get_nth 0 Xcount), (get_nth [] adjs) by lia. cbn [bind].
    unfold st. f_equal. f_equal. rewrite sumf_seq_last. f_equal. unfold dobj. rewrite sumR_map. reflexivity.
Qed.

Lemma mpf_K_grad de D params : (forall s j, occurs s -> (j < length params)%nat -> de s j = Ok (D s j)) ->
  mpf_K calc_e (Some de) Xuniq Xcount adjs params =
  Ok (flow params / sumR Xcount, Some (map (fun j => dflow D params j / sumR Xcount) (seq 0 (length params)))).
Proof.
  intros HD. unfold mpf_K.
  set (term := fun k a => ck k * exp (/ 2 * (calc_e (sk k) params - calc_e a params))).
  set (st := fun i => (sumf (seq 0 i) (fun k => sumf (ak k) (term k)),
     map (fun j => sumf (seq 0 i) (fun k => sumf (ak k) (fun a => / 2 * (term k a * (D (sk k) j - D a j))))) (seq 0 (length params)))).
  replace (0, repeat 0 (length params)) with (st 0%nat).
  2: { unfold st. cbn [seq]. f_equal. generalize (length params) 0%nat. intros p. induction p as [|p IH]; intros b; cbn; [reflexivity|]. now rewrite IH. }
  unfold range. rewrite (foldM_seq _ st).
  - cbn [bind fst snd st]. rewrite map_map. reflexivity.
  - intros i Hi. unfold st at 1. cbn beta iota. rewrite (get_nth [] Xuniq), (get_nth 0 Xcount), (get_nth [] adjs) by lia. cbn [bind].
    fold (sk i) (ak i). change (nth i Xcount 0) with (ck i).
    assert (G : grad_step de params (sk i) (dobj calc_e params (sk i) (ck i) (ak i)) (ak i) (snd (st i)) = Ok (snd (st (Datatypes.S i)))).
    { unfold grad_step, range. rewrite (mapM_eq _ (fun j => nthR (snd (st i)) j + / 2 * sumf (ak i) (fun a => term i a * (D (sk i) j - D a j)))).
      - f_equal. unfold st. cbn [snd]. apply map_ext_in. intros j Hj. apply in_seq in Hj. unfold nthR at 1. rewrite nth_map_seq by lia.
        rewrite sumf_seq_last. f_equal. cbn [plus]. rewrite sumf_scal_l. reflexivity.
      - intros j Hj. apply in_seq in Hj. rewrite HD by (try lia; left; apply nth_In; lia). cbn [bind].
        rewrite (mapM_eq _ (fun a => D a j)).
        2: { intros a Ha. apply HD; [right; now exists i|lia]. }
        cbn [bind]. f_equal. f_equal. f_equal. unfold dobj. rewrite combine_map2, sumf_map. reflexivity. }
    change (snd (st i)) with (map (fun j => sumf (seq 0 i) (fun k => sumf (ak k) (fun a => / 2 * (term k a * (D (sk k) j - D a j))))) (seq 0 (length params))) in G.
    rewrite G. cbn [bind]. f_equal. unfold st. cbn [snd]. f_equal. rewrite sumf_seq_last. f_equal. unfold dobj. rewrite sumR_map. reflexivity.
Qed.

Lemma flow_derive D params j : (forall s, occurs s -> is_derive (fun t => calc_e s (upd params j t)) (nthR params j) (D s j)) ->
  is_derive (fun t => flow (upd params j t)) (nthR params j) (dflow D params j).
Proof.
  intros HD. unfold flow, dflow.
  apply (is_derive_sumf (seq 0 m) (fun t k => sumf (ak k) (fun a => ck k * exp (/ 2 * (calc_e (sk k) (upd params j t) - calc_e a (upd params j t)))))).
  intros k Hk. apply in_seq in Hk.
  apply (is_derive_sumf (ak k) (fun t a => ck k * exp (/ 2 * (calc_e (sk k) (upd params j t) - calc_e a (upd params j t))))).
  intros a Ha.
  assert (Hin : In (sk k) Xuniq) by (apply nth_In; unfold m in Hk; lia).
  assert (H1 := HD (sk k) (or_introl Hin)).
  assert (H2 := HD a (or_intror (ex_intro _ k Ha))).
  set (f1 := fun t => calc_e (sk k) (upd params j t)) in *. set (f2 := fun t => calc_e a (upd params j t)) in *.
  assert (E1 : f1 (nthR params j) = calc_e (sk k) params) by (unfold f1, nthR; now rewrite upd_same).
  assert (E2 : f2 (nthR params j) = calc_e a params) by (unfold f2, nthR; now rewrite upd_same).
  rewrite <- E1, <- E2.
  change (is_derive (fun t => ck k * exp (/ 2 * (f1 t - f2 t))) (nthR params j)
     (/ 2 * (ck k * exp (/ 2 * (f1 (nthR params j) - f2 (nthR params j))) * (D (sk k) j - D a j)))).
  set (x := nthR params j) in *.
  auto_derive.
  - split; [exists (D (sk k) j); exact H1|]. split; [exists (D a j); exact H2|exact I].
  - change (Derive (fun t => f1 t) x) with (Derive f1 x). change (Derive (fun t => f2 t) x) with (Derive f2 x).
    rewrite (is_derive_unique f1 _ _ H1), (is_derive_unique f2 _ _ H2). unfold Rminus. ring.
Qed.

(** *** logK *)
Hypothesis Hm : (0 < m)%nat.
Hypothesis Hreg : forall k, (k < m)%nat -> length (ak k) = length (ak 0).
Hypothesis Hpos : forall k, (k < m)%nat -> 0 < ck k.

Lemma power_rows_ok params : power_rows calc_e params Xuniq adjs =
  Ok (map (fun k => map (fun a => / 2 * (calc_e (sk k) params - calc_e a params)) (ak k)) (seq 0 m)).
Proof.
  unfold power_rows. rewrite (get_nth [] adjs) by (fold m in HA; lia). cbn [bind]. unfold range. apply mapM_eq.
  intros k Hk. apply in_seq in Hk. rewrite (get_nth [] Xuniq), (get_nth [] adjs) by lia. cbn [bind].
  assert (E := Hreg k ltac:(unfold m; lia)). unfold ak in E. rewrite E, Nat.eqb_refl. reflexivity.
Qed.

Lemma Xcount_map : Xcount = map ck (seq 0 m).
Proof. unfold m. rewrite <- HC. apply (list_as_map 0 Xcount). Qed.

Lemma combine_Xcount {B} (F : nat -> B) : combine Xcount (map F (seq 0 m)) = map (fun k => (ck k, F k)) (seq 0 m).
Proof. rewrite <- (combine_map2 ck F). f_equal. apply Xcount_map. Qed.

Lemma Ntot_pos : 0 < sumR Xcount.
Proof.
  rewrite sumR_nth. rewrite HC. fold m. apply sumf_pos; [destruct m; [lia|discriminate]|]. intros k Hk. apply in_seq in Hk. apply Hpos. lia.
Qed.

Lemma sumf_concat {A} (ll : list (list A)) f : sumf (concat ll) f = sumf ll (fun l => sumf l f).
Proof. induction ll as [|l ll IH]; [reflexivity|]. cbn [concat]. now rewrite sumf_app, sumf_cons, IH. Qed.

Lemma logK_obj params (power := map (fun k => map (fun a => / 2 * (calc_e (sk k) params - calc_e a params)) (ak k)) (seq 0 m)) :
  logsumexp (concat (map (fun t => map (fun p => p + ln (fst t) - ln (sumR Xcount)) (snd t)) (combine Xcount power))) = ln (flow params / sumR Xcount).
Proof.
  unfold logsumexp. f_equal. unfold power. rewrite combine_Xcount, map_map, sumf_concat, sumf_map.
  unfold flow. rewrite <- sumf_div. apply sumf_ext_in. intros k Hk. apply in_seq in Hk. cbn [fst snd]. rewrite !sumf_map. rewrite <- sumf_div. apply sumf_ext.
  intros a. pose proof Ntot_pos as HN. pose proof (Hpos k ltac:(lia)) as Hc.
  replace (/ 2 * (calc_e (sk k) params - calc_e a params) + ln (ck k) - ln (sumR Xcount))
    with ((/ 2 * (calc_e (sk k) params - calc_e a params) + ln (ck k)) + - ln (sumR Xcount)) by ring.
  rewrite !exp_plus, exp_Ropp, !exp_ln by assumption. field. lra.
Qed.

Lemma mpf_logK_value params : mpf_logK calc_e None Xuniq Xcount adjs params = Ok (ln (flow params / sumR Xcount), None).
Proof.
  unfold mpf_logK. rewrite power_rows_ok. cbn [bind]. rewrite HC, Nat.eqb_refl. cbn [negb]. now rewrite logK_obj.
Qed.

Hypothesis Hne : (0 < length (ak 0))%nat.

Lemma flow_pos params : 0 < flow params.
Proof.
  unfold flow. apply sumf_pos; [destruct m; [lia|discriminate]|]. intros k Hk. apply in_seq in Hk. apply sumf_pos.
  - intros E. pose proof (Hreg k ltac:(lia)) as H. rewrite E in H. cbn [length] in H. lia.
  - intros a _. apply Rmult_lt_0_compat; [apply Hpos; lia|apply exp_pos].
Qed.

Lemma mpf_logK_grad de D params : length params <> 1%nat -> (forall s j, occurs s -> (j < length params)%nat -> de s j = Ok (D s j)) ->
  mpf_logK calc_e (Some de) Xuniq Xcount adjs params =
  Ok (ln (flow params / sumR Xcount), Some (map (fun j => dflow D params j / flow params - ln (sumR Xcount)) (seq 0 (length params)))).
Proof.
  intros Hp1 HD. unfold mpf_logK. rewrite power_rows_ok. cbn [bind]. rewrite HC, Nat.eqb_refl. cbn [negb]. rewrite logK_obj.
  set (row := fun k => map (fun a => / 2 * (calc_e (sk k) params - calc_e a params)) (ak k)).
  set (shifted := fun d => map (fun k => map (fun p => p - d) (row k)) (seq 0 m)).
  (* total shift after i turns *)
  set (delta := fix delta i := match i with 0%nat => 0 | Datatypes.S i => delta i + rmax (concat (shifted (delta i))) end).
  set (st := fun i => (shifted (delta i), map (fun j => dflow D params j / flow params) (seq 0 i))).
  replace (map row (seq 0 m), @nil R) with (st 0%nat).
  2: { unfold st. cbn [seq map delta]. f_equal. unfold shifted. apply map_ext. intros k. rewrite <- (map_id (row k)) at 2. apply map_ext. intros; ring. }
  unfold range. rewrite (foldM_seq _ st).
  - cbn [bind snd st plus]. rewrite !map_length, seq_length. change (0 + length params)%nat with (length params).
    destruct (Nat.eqb_spec (length params) 1); [contradiction|]. rewrite map_map. reflexivity.
  - intros i Hi. unfold st at 1. cbn beta iota.
    assert (EG : gradcoef_rows de i Xuniq adjs = Ok (map (fun k => map (fun a => / 2 * (D (sk k) i - D a i)) (ak k)) (seq 0 m))).
    { unfold gradcoef_rows, range. apply mapM_eq. intros k Hk. apply in_seq in Hk. rewrite (get_nth [] Xuniq), (get_nth [] adjs) by lia. cbn [bind].
      rewrite HD by (try lia; left; apply nth_In; lia). cbn [bind]. rewrite (mapM_eq _ (fun a => D a i)).
      - cbn [bind]. now rewrite map_map.
      - intros a Ha. apply HD; [right; now exists k|lia]. }
    rewrite EG. cbn [bind]. unfold shift_power. set (mx := rmax (concat (shifted (delta i)))).
    assert (ES : map (map (fun p => p - mx)) (shifted (delta i)) = shifted (delta (Datatypes.S i))).
    { unfold shifted. rewrite map_map. apply map_ext. intros k. rewrite map_map. apply map_ext. intros p. cbn [delta]. fold (shifted (delta i)). fold mx. ring. }
    rewrite ES. unfold st. f_equal. f_equal. rewrite seq_S, map_app. f_equal. cbn [map plus]. f_equal.
    set (d := delta (Datatypes.S i)).
    assert (W1 : weight_sum Xcount (shifted d) = exp (- d) * flow params).
    { unfold weight_sum, shifted. rewrite combine_Xcount, sumf_map. unfold flow. rewrite <- sumf_scal_l. apply sumf_ext. intros k. cbn [fst snd].
      unfold row. rewrite map_map, sumf_map, <- sumf_scal_l. apply sumf_ext. intros a. unfold Rminus at 1. rewrite exp_plus. ring. }
    assert (W2 : weighted_sum Xcount (shifted d) (map (fun k => map (fun a => / 2 * (D (sk k) i - D a i)) (ak k)) (seq 0 m)) = exp (- d) * dflow D params i).
    { unfold weighted_sum, shifted. rewrite combine_map2, combine_Xcount, sumf_map. unfold dflow. rewrite <- sumf_scal_l. apply sumf_ext. intros k. cbn [fst snd].
      unfold row. rewrite map_map, combine_map2, sumf_map, <- sumf_scal_l. apply sumf_ext. intros a. cbn [fst snd]. unfold Rminus at 2. rewrite exp_plus. ring. }
    rewrite W1, W2. pose proof (exp_pos (- d)). pose proof (flow_pos params). change (0 + i)%nat with i. field. lra.
Qed.
End MPF.

(** ** The flow at the true distribution *)
Section Truth.
Context {S : Type} (eqd : forall a b : S, {a = b} + {a <> b}).
Variables (St : list S) (n : nat) (fl : nat -> S -> S).
Hypothesis ND : NoDup St.
Hypothesis Hfl : forall i s, (i < n)%nat -> In s St -> In (fl i s) St /\ fl i (fl i s) = s.

Lemma sumf_flip i (f : S -> R) : (i < n)%nat -> sumf St (fun s => f (fl i s)) = sumf St f.
Proof.
  intros Hi. rewrite <- (sumf_map (fl i) St f). apply sumf_perm. apply Permutation.NoDup_Permutation_bis.
  - clear - ND Hfl Hi. assert (G : forall l, NoDup l -> incl l St -> NoDup (map (fl i) l)).
    { induction l as [|a l IH]; intros N I; cbn; constructor.
      - intros H. apply in_map_iff in H. destruct H as (b & E & Hb). inversion N as [|? ? Na Nl]; subst. apply Na.
        assert (Ia : In a St) by (apply I; now left). assert (Ib : In b St) by (apply I; now right).
        rewrite <- (proj2 (Hfl i a Hi Ia)), <- E. now rewrite (proj2 (Hfl i b Hi Ib)).
      - apply IH; [now inversion N|]. intros x Hx. apply I. now right. }
    apply G; [exact ND|apply incl_refl].
  - rewrite map_length. apply le_n.
  - intros x Hx. apply in_map_iff in Hx. destruct Hx as (s & <- & Hs). now apply (Hfl i s Hi).
Qed.

Definition tflow (w : S -> R) (E : S -> R) : R := sumf St (fun s => sumf (seq 0 n) (fun i => w s * exp (/ 2 * (E s - E (fl i s))))).

Variables (Es : S -> R) (W : R) (w : S -> R).
Hypothesis HW : 0 < W.
Hypothesis Hw : forall s, In s St -> w s = W * exp (- Es s).
Let g i s := W * exp (- / 2 * (Es s + Es (fl i s))).

(** Twice the flow, written symmetrically. *)
Lemma tflow_sym E : 2 * tflow w E = sumf (seq 0 n) (fun i => sumf St (fun s =>
  g i s * (exp (/ 2 * ((E s - E (fl i s)) - (Es s - Es (fl i s)))) + exp (- (/ 2 * ((E s - E (fl i s)) - (Es s - Es (fl i s)))))))).
Proof.
  unfold tflow. rewrite sumf_swap. replace (2 * _) with (sumf (seq 0 n) (fun i => sumf St (fun s => w s * exp (/ 2 * (E s - E (fl i s))))) +
    sumf (seq 0 n) (fun i => sumf St (fun s => w s * exp (/ 2 * (E s - E (fl i s)))))) by ring.
  rewrite <- sumf_plus. apply sumf_ext_in. intros i Hi. apply in_seq in Hi.
  rewrite <- (sumf_flip i (fun s => w s * exp (/ 2 * (E s - E (fl i s))))) at 2 by lia. rewrite <- sumf_plus. apply sumf_ext_in.
  intros s Hs. destruct (Hfl i s ltac:(lia) Hs) as [H1 H2]. rewrite H2, !Hw by assumption. unfold g.
  rewrite !Rmult_assoc, Rmult_plus_distr_l, !Rmult_plus_distr_l, <- !exp_plus. f_equal; f_equal; f_equal; field.
Qed.

Lemma cosh_ge x : 2 <= exp x + exp (- x) /\ (exp x + exp (- x) = 2 -> x = 0).
Proof.
  assert (Hp := exp_pos x). rewrite exp_Ropp. assert (E : exp x + / exp x - 2 = (exp x - 1) * (exp x - 1) / exp x) by (field; lra).
  assert (Q : 0 <= (exp x - 1) * (exp x - 1) / exp x).
  { apply Rmult_le_pos; [apply Rle_0_sqr|]. left. now apply Rinv_0_lt_compat. }
  split; [lra|]. intros H. assert (Z : (exp x - 1) * (exp x - 1) / exp x = 0) by lra.
  assert (Z2 : (exp x - 1) * (exp x - 1) = 0). { replace ((exp x - 1) * (exp x - 1)) with ((exp x - 1) * (exp x - 1) / exp x * exp x) by (field; lra). rewrite Z. ring. }
  assert (exp x = 1) by (apply Rmult_integral in Z2; destruct Z2; lra). apply exp_inv. now rewrite exp_0.
Qed.

Lemma tflow_min E : tflow w Es <= tflow w E /\
  (tflow w E = tflow w Es -> forall s i, In s St -> (i < n)%nat -> E s - E (fl i s) = Es s - Es (fl i s)).
Proof.
  assert (G0 : 2 * tflow w Es = sumf (seq 0 n) (fun i => sumf St (fun s => g i s * 2))).
  { rewrite tflow_sym. apply sumf_ext. intros i. apply sumf_ext. intros s.
    replace (/ 2 * (Es s - Es (fl i s) - (Es s - Es (fl i s)))) with 0 by ring. rewrite Ropp_0, exp_0. ring. }
  assert (gpos : forall i s, 0 < g i s) by (intros; apply Rmult_lt_0_compat; [exact HW|apply exp_pos]).
  set (x := fun i s => / 2 * ((E s - E (fl i s)) - (Es s - Es (fl i s)))).
  assert (D : 2 * tflow w E - 2 * tflow w Es = sumf (seq 0 n) (fun i => sumf St (fun s => g i s * (exp (x i s) + exp (- x i s) - 2)))).
  { rewrite G0, tflow_sym, <- sumf_minus. apply sumf_ext. intros i. rewrite <- sumf_minus. apply sumf_ext. intros s. unfold x. ring. }
  assert (T : forall i s, 0 <= g i s * (exp (x i s) + exp (- x i s) - 2)).
  { intros i s. apply Rmult_le_pos; [left; apply gpos|]. pose proof (proj1 (cosh_ge (x i s))). lra. }
  split.
  - assert (0 <= sumf (seq 0 n) (fun i => sumf St (fun s => g i s * (exp (x i s) + exp (- x i s) - 2)))) by (apply sumf_nonneg; intros; apply sumf_nonneg; intros; apply T).
    lra.
  - intros Heq s i Hs Hi.
    assert (Z : sumf St (fun s => g i s * (exp (x i s) + exp (- x i s) - 2)) = 0).
    { apply (sumf_nonneg_zero (seq 0 n) (fun i => sumf St (fun s => g i s * (exp (x i s) + exp (- x i s) - 2)))); [intros; apply sumf_nonneg; intros; apply T|lra|apply in_seq; lia]. }
    assert (Z2 : g i s * (exp (x i s) + exp (- x i s) - 2) = 0).
    { apply (sumf_nonneg_zero St (fun s => g i s * (exp (x i s) + exp (- x i s) - 2))); [intros; apply T|exact Z|exact Hs]. }
    apply Rmult_integral in Z2. destruct Z2 as [Z2|Z2]; [specialize (gpos i s); lra|].
    assert (x i s = 0) by (apply (proj2 (cosh_ge (x i s))); lra). unfold x in H. lra.
Qed.

(** The derivative in any direction vanishes. *)
Lemma tflow_stationary (D : S -> R) :
  sumf St (fun s => sumf (seq 0 n) (fun i => / 2 * (w s * exp (/ 2 * (Es s - Es (fl i s))) * (D s - D (fl i s))))) = 0.
Proof.
  rewrite sumf_swap. apply sumf_zero. intros i Hi. apply in_seq in Hi.
  set (T := fun s => / 2 * (w s * exp (/ 2 * (Es s - Es (fl i s))) * (D s - D (fl i s)))).
  assert (A : sumf St (fun s => T (fl i s)) = sumf St T) by (apply sumf_flip; lia).
  assert (B : sumf St (fun s => T (fl i s)) = sumf St (fun s => - T s)).
  { apply sumf_ext_in. intros s Hs. destruct (Hfl i s ltac:(lia) Hs) as [H1 H2]. unfold T. rewrite H2, !Hw by assumption.
    rewrite !Rmult_assoc, <- !(Rmult_assoc (exp _) (exp _)), <- !exp_plus.
    replace (- Es (fl i s) + / 2 * (Es (fl i s) - Es s)) with (- Es s + / 2 * (Es s - Es (fl i s))) by field. ring. }
  rewrite sumf_opp in B. lra.
Qed.
End Truth.

(** The shifted exponents. *)
Lemma fold_Rmax_ub l : forall x, x <= fold_left Rmax l x /\ (forall y, In y l -> y <= fold_left Rmax l x).
Proof.
  induction l as [|a l IH]; intros x; cbn [fold_left]; [split; [lra|contradiction]|].
  destruct (IH (Rmax x a)) as [H1 H2]. pose proof (Rmax_l x a). pose proof (Rmax_r x a).
  split; [lra|]. intros y [<-|Hy]; [lra|now apply H2].
Qed.

Lemma fold_Rmax_in l : forall x, In (fold_left Rmax l x) (x :: l).
Proof.
  induction l as [|a l IH]; intros x; cbn [fold_left]; [now left|].
  destruct (IH (Rmax x a)) as [H|H]; [|right; now right].
  rewrite <- H. unfold Rmax. destruct (Rle_dec x a); [right; now left|now left].
Qed.

Lemma rmax_ub l y : In y l -> y <= rmax l.
Proof. destruct l as [|x l]; [contradiction|]. cbn [rmax]. destruct (fold_Rmax_ub l x) as [H1 H2]. intros [<-|H]; [exact H1|now apply H2]. Qed.

Lemma rmax_in l : l <> [] -> In (rmax l) l.
Proof. destruct l as [|x l]; [congruence|]. intros _. apply fold_Rmax_in. Qed.
