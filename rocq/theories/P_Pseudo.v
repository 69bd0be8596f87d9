(** * Proofs: pseudolikelihood objectives. *)
From Coquelicot Require Import Coquelicot.
From Verif Require Import Prelude Spec PreludeFacts M_Index M_Params M_Energy M_Corr M_Pseudo P_Index P_Unravel P_Energy P_Energy2 P_Params P_Unique P_MPF.
Import ListNotations.
Local Open Scope R_scope.

Lemma foldM_app {A S} (f : S -> A -> result S) l1 : forall l2 st, foldM f (l1 ++ l2) st = bind (foldM f l1 st) (foldM f l2).
Proof. induction l1 as [|a l1 IH]; intros l2 st; [reflexivity|]. cbn [app foldM]. destruct (f st a); cbn [bind]; [apply IH|reflexivity]. Qed.

(** ** Fancy indexing *)
Lemma nth_combine {A B} (x : list A) (y : list B) k d e : length x = length y -> nth k (combine x y) (d, e) = (nth k x d, nth k y e).
Proof. intros H. now apply combine_nth. Qed.

Lemma fold_upd_length (l : list (nat * R)) : forall a, length (fold_left (fun a iv => upd a (fst iv) (snd iv)) l a) = length a.
Proof. induction l as [|x l IH]; intros a; [reflexivity|]. cbn [fold_left]. now rewrite IH, upd_length. Qed.

Lemma fold_upd_other (l : list (nat * R)) k : (forall v, ~ In (k, v) l) ->
  forall a, nthR (fold_left (fun a iv => upd a (fst iv) (snd iv)) l a) k = nthR a k.
Proof.
  induction l as [|[i v] l IH]; intros H a; [reflexivity|]. cbn [fold_left fst snd]. rewrite IH.
  - apply nthR_upd_other. intros ->. apply (H v). now left.
  - intros w Hw. apply (H w). now right.
Qed.

Lemma fold_upd_in (l : list (nat * R)) k v : NoDup (map fst l) -> In (k, v) l ->
  forall a, (k < length a)%nat -> nthR (fold_left (fun a iv => upd a (fst iv) (snd iv)) l a) k = v.
Proof.
  induction l as [|[i w] l IH]; intros ND H a Ha; [destruct H|]. cbn [fold_left fst snd map] in *. inversion_clear ND as [|? ? N1 N2].
  destruct H as [E|H].
  - injection E as -> ->. rewrite fold_upd_other; [now apply nthR_upd_same|]. intros u Hu. apply N1. now apply (in_map fst) in Hu.
  - apply IH; auto. now rewrite upd_length.
Qed.

Lemma map_fst_combine {A B} (x : list A) (y : list B) : length x = length y -> map fst (combine x y) = x.
Proof. revert y. induction x as [|a x IH]; intros [|b y] H; cbn in *; try discriminate; [reflexivity|]. f_equal. apply IH. lia. Qed.

Lemma scatter_spec a ix v : length ix = length v -> NoDup ix -> (forall i, In i ix -> (i < length a)%nat) ->
  exists a', scatter a ix v = Ok a' /\ length a' = length a /\
    (forall k, (k < length ix)%nat -> nthR a' (nth k ix 0%nat) = nthR v k) /\
    (forall i, ~ In i ix -> nthR a' i = nthR a i).
Proof.
  intros Hl ND Hr. unfold scatter. rewrite (proj2 (Nat.eqb_eq _ _) Hl). cbn [negb].
  rewrite (proj2 (forallb_forall _ _)); [cbn [negb]|intros i Hi; apply Nat.ltb_lt; auto].
  eexists. split; [reflexivity|]. split; [apply fold_upd_length|]. split.
  - intros k Hk. apply fold_upd_in; [now rewrite map_fst_combine| |].
    + unfold nthR. rewrite <- nth_combine by assumption. apply nth_In. rewrite combine_length. lia.
    + apply Hr, nth_In. assumption.
  - intros i Hi. apply fold_upd_other. intros w Hw. apply in_combine_l in Hw. contradiction.
Qed.

Lemma scatter_gather a ix v a' : length ix = length v -> NoDup ix -> (forall i, In i ix -> (i < length a)%nat) ->
  scatter a ix v = Ok a' -> map (nthR a') ix = v.
Proof.
  intros Hl ND Hr E. destruct (scatter_spec a ix v Hl ND Hr) as (b & E' & _ & H & _). rewrite E in E'. injection E' as ->.
  apply (nth_ext _ _ 0 0); [now rewrite map_length|]. intros k Hk. rewrite map_length in Hk.
  rewrite (nth_indep _ 0 (nthR b 0%nat)) by now rewrite map_length. rewrite (map_nth (nthR b) ix 0%nat k). apply H. assumption.
Qed.

(** Component of v that goes to position k. *)
Definition at_ix (ix : list nat) (v : list R) (k : nat) : R :=
  sumf (combine ix v) (fun iv => if Nat.eqb (fst iv) k then snd iv else 0).

Lemma at_ix_cons i ix x v k : at_ix (i :: ix) (x :: v) k = (if Nat.eqb i k then x else 0) + at_ix ix v k.
Proof. reflexivity. Qed.

Lemma at_ix_notin ix : forall v k, ~ In k ix -> at_ix ix v k = 0.
Proof.
  intros v k H. unfold at_ix. apply sumf_zero. intros [i x] Hi. apply in_combine_l in Hi. cbn [fst snd].
  destruct (Nat.eqb_spec i k) as [->|]; [contradiction|reflexivity].
Qed.

Lemma at_ix_nth ix : forall v m, NoDup ix -> length ix = length v -> (m < length ix)%nat -> at_ix ix v (nth m ix 0%nat) = nthR v m.
Proof.
  induction ix as [|i ix IH]; intros [|x v] m ND Hl Hm; cbn in Hl, Hm; try lia. inversion_clear ND as [|? ? N1 N2]. rewrite at_ix_cons.
  destruct m as [|m]; cbn [nth].
  - rewrite Nat.eqb_refl, at_ix_notin by assumption. unfold nthR. cbn. ring.
  - rewrite IH by (auto; lia). destruct (Nat.eqb_spec i (nth m ix 0%nat)) as [E|]; [|unfold nthR; cbn; ring].
    exfalso. apply N1. rewrite E. apply nth_In. lia.
Qed.

Lemma scatter_add_spec a ix v : length ix = length v -> NoDup ix -> (forall i, In i ix -> (i < length a)%nat) ->
  exists a', scatter_add a ix v = Ok a' /\ length a' = length a /\ forall k, nthR a' k = nthR a k + at_ix ix v k.
Proof.
  intros Hl ND Hr. unfold scatter_add. rewrite (proj2 (Nat.eqb_eq _ _) Hl). cbn [negb].
  destruct (scatter_spec a ix (map (fun iv => nthR a (fst iv) + snd iv) (combine ix v))) as (a' & E & L & H1 & H2); auto.
  { rewrite map_length, combine_length. lia. }
  exists a'. split; [exact E|]. split; [exact L|]. intros k. destruct (in_dec Nat.eq_dec k ix) as [Hk|Hk].
  - apply (In_nth _ _ 0%nat) in Hk. destruct Hk as (m & Hm & <-). rewrite H1, at_ix_nth by assumption.
    unfold nthR at 1. set (g := fun iv : nat * R => nthR a (fst iv) + snd iv).
    rewrite (nth_indep _ 0 (g (0%nat, 0))) by (rewrite map_length, combine_length; lia). rewrite (map_nth g), nth_combine by assumption. reflexivity.
  - rewrite H2, at_ix_notin by assumption. ring.
Qed.

(** ** Dot products with selected entries *)
Lemma dot_gather_upd ix : forall o p k t, length o = length ix -> (k < length p)%nat ->
  dot o (map (nthR (upd p k t)) ix) = dot o (map (nthR p) ix) + at_ix ix o k * (t - nthR p k).
Proof.
  induction ix as [|i ix IH]; intros [|x o] p k t Hl Hk; cbn in Hl; try lia; [cbn; ring|].
  cbn [map]. rewrite !dot_cons, IH, at_ix_cons by lia. destruct (Nat.eqb_spec i k) as [->|].
  - rewrite nthR_upd_same by assumption. ring.
  - rewrite nthR_upd_other by auto. ring.
Qed.

Lemma at_ix_sum {A} (l : list A) ix (f : A -> list R) (w : A -> R) k : (forall a, In a l -> length (f a) = length ix) ->
  at_ix ix (map (fun j => sumf l (fun a => w a * nthR (f a) j)) (seq 0 (length ix))) k = sumf l (fun a => w a * at_ix ix (f a) k).
Proof.
  intros Hl. unfold at_ix. 
  assert (G : forall v, length v = length ix -> sumf (combine ix v) (fun iv => if Nat.eqb (fst iv) k then snd iv else 0) =
     sumf (seq 0 (length ix)) (fun j => if Nat.eqb (nth j ix 0%nat) k then nthR v j else 0)).
  { intros v Hv. rewrite <- (sumf_seq_nth (0%nat, 0) (combine ix v)). rewrite combine_length, Hv, Nat.min_id. apply sumf_ext. intros j.
    rewrite nth_combine by auto. reflexivity. }
  rewrite G by now rewrite map_length, seq_length.
  transitivity (sumf l (fun a => w a * sumf (seq 0 (length ix)) (fun j => if Nat.eqb (nth j ix 0%nat) k then nthR (f a) j else 0))).
  - transitivity (sumf l (fun a => sumf (seq 0 (length ix)) (fun j => w a * (if Nat.eqb (nth j ix 0%nat) k then nthR (f a) j else 0)))).
    + rewrite <- sumf_swap. apply sumf_ext_in. intros j Hj. apply in_seq in Hj. destruct (Nat.eqb _ k).
      * unfold nthR at 1. rewrite nth_map_seq by lia. reflexivity.
      * symmetry. apply sumf_zero. intros; ring.
    + apply sumf_ext. intros a. now rewrite sumf_scal_l.
  - apply sumf_ext_in. intros a Ha. rewrite G by auto. reflexivity.
Qed.

(** ** The function log(1+exp(x)) *)
Definition softplus (x : R) : R := ln (1 + exp x).

Lemma softplus_pos x : 0 < softplus x.
Proof. unfold softplus. rewrite <- ln_1. apply ln_increasing; [lra|]. pose proof (exp_pos x). lra. Qed.

Lemma softplus_tangent x y : softplus x + 1 / (1 + exp x) * exp x * (y - x) <= softplus y.
Proof.
  unfold softplus. set (q := 1 / (1 + exp x) * exp x). pose proof (exp_pos x) as Px. pose proof (exp_pos y) as Py.
  assert (Hq : 0 < q) by (unfold q; apply Rmult_lt_0_compat; [apply Rdiv_lt_0_compat; lra|assumption]).
  assert (Hq1 : 0 < 1 - q).
  { unfold q. replace (1 - 1 / (1 + exp x) * exp x) with (1 / (1 + exp x)) by (field; lra). apply Rdiv_lt_0_compat; lra. }
  set (z := y - x).
  assert (J : (1 + exp x) * exp (q * z) <= 1 + exp y).
  { replace (1 + exp y) with ((1 + exp x) * ((1 - q) * exp 0 + q * exp z)).
    2:{ rewrite exp_0. unfold z. replace (exp y) with (exp x * exp (y - x)) by (rewrite <- exp_plus; f_equal; ring). unfold q. field. lra. }
    apply Rmult_le_compat_l; [lra|].
    assert (T : forall w, exp (q * z) * (1 + (w - q * z)) <= exp w).
    { intros w. replace (exp w) with (exp (q * z) * exp (w - q * z)) by (rewrite <- exp_plus; f_equal; ring).
      apply Rmult_le_compat_l; [left; apply exp_pos|]. apply exp_ineq1_le. }
    pose proof (Rmult_le_compat_l (1 - q) _ _ (Rlt_le _ _ Hq1) (T 0)) as T0.
    pose proof (Rmult_le_compat_l q _ _ (Rlt_le _ _ Hq) (T z)) as T1.
    replace (exp (q * z)) with ((1 - q) * (exp (q * z) * (1 + (0 - q * z))) + q * (exp (q * z) * (1 + (z - q * z)))) by ring. lra. }
  rewrite <- (ln_exp (q * z)). rewrite <- ln_mult by (try apply exp_pos; lra).
  destruct J as [J|J]; [left; apply ln_increasing; [|exact J]; apply Rmult_lt_0_compat; [lra|apply exp_pos]|right; now rewrite J].
Qed.

Lemma softplus_derive a b x t : t = x -> is_derive (fun t => softplus (a + b * (t - x))) t (1 / (1 + exp a) * exp a * b).
Proof.
  intros ->. unfold softplus. pose proof (exp_pos (a + b * (x + - x))). auto_derive; [lra|].
  replace (a + b * (x + - x)) with a by ring. pose proof (exp_pos a). field. lra.
Qed.

(** ** Value and gradient of the objectives *)
Lemma pl_terms_value obs p mult : fst (pl_terms obs p mult) = - sumf obs (fun o => softplus (2 * - dot o mult)).
Proof. reflexivity. Qed.

Lemma pl_terms_grad obs p mult k : (k < p)%nat -> nthR (snd (pl_terms obs p mult)) k =
  sumf obs (fun o => - (1 / (1 + exp (2 * - dot o mult)) * exp (2 * - dot o mult)) * 2 * nthR o k).
Proof. intros H. cbn [snd pl_terms]. unfold nthR at 1, range. now rewrite nth_map_seq. Qed.

Section General.
Variable get_multipliers_r : nat -> list R -> result (list R * list nat).
Variable calc_observables_r : nat -> list R -> list R.
Variable ixs : nat -> list nat.
Variables (n m : nat) (sample : list (list R)).
Hypothesis Hget : forall r p, (r < n)%nat -> length p = m -> get_multipliers_r r p = Ok (map (nthR p) (ixs r), ixs r).
Hypothesis Hnd : forall r, (r < n)%nat -> NoDup (ixs r).
Hypothesis Hrange : forall r i, (r < n)%nat -> In i (ixs r) -> (i < m)%nat.
Hypothesis Hobs : forall r s, (r < n)%nat -> In s sample -> length (calc_observables_r r s) = length (ixs r).

Definition gobj (p : list R) : R :=
  sumf (seq 0 n) (fun r => sumf sample (fun s => softplus (2 * - dot (calc_observables_r r s) (map (nthR p) (ixs r))))).
Definition ggrad (p : list R) (k : nat) : R :=
  sumf (seq 0 n) (fun r => sumf sample (fun s =>
    let e := 2 * - dot (calc_observables_r r s) (map (nthR p) (ixs r)) in
    - (1 / (1 + exp e) * exp e) * 2 * at_ix (ixs r) (calc_observables_r r s) k)).

Lemma general_f_ok p : length p = m ->
  exists grad, pseudo_general_f get_multipliers_r calc_observables_r n m sample p = Ok (gobj p, grad) /\ length grad = m /\
    forall k, nthR grad k = ggrad p k.
Proof.
  intros Hp. unfold pseudo_general_f.
  set (body := fun st r => _).
  assert (L : forall j, (j <= n)%nat -> exists dll, foldM body (range j) (0, repeat 0 m) =
     Ok (- sumf (seq 0 j) (fun r => sumf sample (fun s => softplus (2 * - dot (calc_observables_r r s) (map (nthR p) (ixs r))))), dll) /\ length dll = m /\
     forall k, nthR dll k = sumf (seq 0 j) (fun r => sumf sample (fun s =>
       let e := 2 * - dot (calc_observables_r r s) (map (nthR p) (ixs r)) in
       - (1 / (1 + exp e) * exp e) * 2 * at_ix (ixs r) (calc_observables_r r s) k))).
  { induction j as [|j IH]; intros Hj.
    - exists (repeat 0 m). cbn [range seq foldM]. rewrite sumf_nil, Ropp_0. split; [reflexivity|]. split; [apply repeat_length|].
      intros k. rewrite sumf_nil. unfold nthR. apply nth_repeat.
    - destruct (IH ltac:(lia)) as (dll & E & L & H). unfold range in *. rewrite seq_S. change (0 + j)%nat with j. rewrite foldM_app, E. cbn [bind foldM].
      set (ll := - sumf (seq 0 j) _).
      assert (B : body (ll, dll) j = let '(l, d) := pl_terms (map (calc_observables_r j) sample) (length (ixs j)) (map (nthR p) (ixs j)) in
         bind (scatter_add dll (ixs j) d) (fun dll => Ok (ll + l, dll))).
      { unfold body. rewrite Hget by (auto; lia). cbn [bind fst snd]. now rewrite map_length. }
      rewrite B. clear B. cbv zeta.
      destruct (pl_terms (map (calc_observables_r j) sample) (length (ixs j)) (map (nthR p) (ixs j))) as [l d] eqn:Et.
      assert (Hl : l = - sumf sample (fun s => softplus (2 * - dot (calc_observables_r j s) (map (nthR p) (ixs j))))).
      { change l with (fst (l, d)). rewrite <- Et, pl_terms_value, sumf_map. reflexivity. }
      assert (Hd : d = map (fun i => sumf sample (fun s => - (1 / (1 + exp (2 * - dot (calc_observables_r j s) (map (nthR p) (ixs j)))) *
                   exp (2 * - dot (calc_observables_r j s) (map (nthR p) (ixs j)))) * 2 * nthR (calc_observables_r j s) i)) (seq 0 (length (ixs j)))).
      { change d with (snd (l, d)). rewrite <- Et. cbn [snd pl_terms]. unfold range. apply map_ext. intros i. now rewrite sumf_map. }
      destruct (scatter_add_spec dll (ixs j) d) as (dll' & E' & L' & H').
      { rewrite Hd, map_length, seq_length. reflexivity. }
      { apply Hnd. lia. }
      { rewrite L. intros i Hi. apply (Hrange j); [lia|assumption]. }
      rewrite E'. cbn [bind]. exists dll'. split; [|split; [congruence|]].
      + rewrite sumf_app, sumf_cons, sumf_nil, Hl. f_equal. f_equal. unfold ll. ring.
      + intros k. rewrite H', H, sumf_app, sumf_cons, sumf_nil, Rplus_0_r. f_equal. rewrite Hd.
        apply (at_ix_sum sample (ixs j) (calc_observables_r j) (fun s => - (1 / (1 + exp (2 * - dot (calc_observables_r j s) (map (nthR p) (ixs j)))) *
                   exp (2 * - dot (calc_observables_r j s) (map (nthR p) (ixs j)))) * 2)).
        intros s Hs. apply Hobs; [lia|assumption]. }
  destruct (L n (Nat.le_refl _)) as (dll & E & Ld & H). rewrite E. cbn [bind fst snd]. exists dll. split; [|auto]. rewrite Ropp_involutive. reflexivity.
Qed.

Lemma gobj_derive (p : list R) (k : nat) : length p = m -> (k < m)%nat -> is_derive (fun t : R => gobj (upd p k t)) (nthR p k) (ggrad p k).
Proof.
  intros Hp Hk. unfold gobj, ggrad.
  apply (is_derive_sumf (seq 0 n) (fun t r => sumf sample (fun s => softplus (2 * - dot (calc_observables_r r s) (map (nthR (upd p k t)) (ixs r)))))).
  intros r Hr. apply in_seq in Hr.
  apply (is_derive_sumf sample (fun t s => softplus (2 * - dot (calc_observables_r r s) (map (nthR (upd p k t)) (ixs r))))).
  intros s Hs. cbv zeta. set (e := 2 * - dot (calc_observables_r r s) (map (nthR p) (ixs r))). set (c := at_ix (ixs r) (calc_observables_r r s) k).
  apply (is_derive_ext (fun t => softplus (e + (- 2 * c) * (t - nthR p k)))).
  - intros t. f_equal. rewrite dot_gather_upd; [|apply Hobs; [lia|assumption]|rewrite Hp; exact Hk]. fold c. unfold e. ring.
  - replace (- (1 / (1 + exp e) * exp e) * 2 * c) with (1 / (1 + exp e) * exp e * (- 2 * c)) by ring. now apply softplus_derive.
Qed.

(** Above its tangents. *)
Lemma dot_gather_diff ix : forall o p q, length o = length ix -> length p = length q -> (forall i, In i ix -> (i < length p)%nat) ->
  dot o (map (nthR q) ix) - dot o (map (nthR p) ix) = sumf (seq 0 (length p)) (fun k => at_ix ix o k * (nthR q k - nthR p k)).
Proof.
  induction ix as [|i ix IH]; intros [|x o] p q Hl Hpq Hi; cbn in Hl; try lia.
  - cbn [map]. unfold dot. cbn [combine]. rewrite !sumf_nil. symmetry. rewrite sumf_zero; [ring|]. intros k _. cbn. ring.
  - cbn [map]. rewrite !dot_cons. rewrite (sumf_ext _ _ (fun k => (if Nat.eq_dec i k then x * (nthR q k - nthR p k) else 0) + at_ix ix o k * (nthR q k - nthR p k))).
    + rewrite sumf_plus, sumf_indic; [|apply seq_NoDup|apply in_seq; specialize (Hi i (or_introl eq_refl)); lia].
      rewrite <- (IH o p q) by (auto; intros; apply Hi; now right). ring.
    + intros k. rewrite at_ix_cons. destruct (Nat.eqb_spec i k), (Nat.eq_dec i k); try congruence; ring.
Qed.

Lemma gobj_convex p q : length p = m -> length q = m ->
  gobj p + sumf (seq 0 m) (fun k => ggrad p k * (nthR q k - nthR p k)) <= gobj q.
Proof.
  intros Hp Hq. unfold gobj.
  assert (E : sumf (seq 0 m) (fun k => ggrad p k * (nthR q k - nthR p k)) =
    sumf (seq 0 n) (fun r => sumf sample (fun s =>
      let e := 2 * - dot (calc_observables_r r s) (map (nthR p) (ixs r)) in
      1 / (1 + exp e) * exp e * (2 * - dot (calc_observables_r r s) (map (nthR q) (ixs r)) - e)))).
  { transitivity (sumf (seq 0 m) (fun k => sumf (seq 0 n) (fun r => sumf sample (fun s =>
      let e := 2 * - dot (calc_observables_r r s) (map (nthR p) (ixs r)) in
      - (1 / (1 + exp e) * exp e) * 2 * (at_ix (ixs r) (calc_observables_r r s) k * (nthR q k - nthR p k)))))).
    - apply sumf_ext. intros k. unfold ggrad. rewrite <- sumf_scal_r. apply sumf_ext. intros r. rewrite <- sumf_scal_r. apply sumf_ext. intros s. cbv zeta. ring.
    - rewrite sumf_swap. apply sumf_ext_in. intros r Hr. apply in_seq in Hr. rewrite sumf_swap. apply sumf_ext_in. intros s Hs. cbv zeta.
      rewrite sumf_scal_l. rewrite <- Hp at 1. rewrite <- dot_gather_diff; [ring|apply Hobs; [lia|assumption]|congruence|]. rewrite Hp. intros i Hi. apply (Hrange r); [lia|assumption]. }
  rewrite E, <- sumf_plus. apply sumf_le. intros r _. rewrite <- sumf_plus. apply sumf_le. intros s _. cbv zeta. apply softplus_tangent.
Qed.
End General.
