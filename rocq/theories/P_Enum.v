(** Lemmas about the generated equation files. *)
From Coq Require Import Ascii String.
From Verif Require Import Prelude Spec PreludeFacts M_Index M_Enum P_Index P_Energy.
Import ListNotations.
Local Open Scope R_scope.

(** ** fast_logsumexp *)
Lemma max_from_ge l : forall m, m <= max_from m l /\ forall x, In x l -> x <= max_from m l.
Proof.
  induction l as [|a l IH]; intros m; cbn [max_from]; [split; [lra|intros x []]|].
  destruct (IH (if Rlt_dec m a then a else m)) as [H1 H2].
  split; [destruct (Rlt_dec m a); lra|]. intros x [<-|Hx]; [destruct (Rlt_dec m a); lra|auto].
Qed.

Lemma max_from_in l : forall m, In (max_from m l) (m :: l).
Proof.
  induction l as [|a l IH]; intros m; cbn [max_from]; [left; reflexivity|].
  destruct (IH (if Rlt_dec m a then a else m)) as [H|H].
  - rewrite <- H. destruct (Rlt_dec m a); [right; left; reflexivity|left; reflexivity].
  - right; right; exact H.
Qed.

Lemma lse_sum X M : sumR (map exp (lse_args X M)) = exp (- M) * sumf X exp.
Proof.
  unfold lse_args. rewrite map_map, sumR_map, <- sumf_scal_l. apply sumf_ext. intros x.
  rewrite <- exp_plus. f_equal. ring.
Qed.

Definition wexp (X c : list R) : R := sumf (combine X c) (fun p => snd p * exp (fst p)).

Lemma lse_dot X M : forall c, dot (map exp (lse_args X M)) c = exp (- M) * wexp X c.
Proof.
  unfold lse_args. rewrite map_map. induction X as [|x X IH]; intros c.
  - cbn [map]. rewrite dot_nil_l. unfold wexp. cbn. ring.
  - destruct c as [|b c].
    + unfold dot, wexp. cbn. ring.
    + cbn [map]. rewrite dot_cons, IH. unfold wexp. cbn [combine]. rewrite sumf_cons. cbn [fst snd].
      replace (x - M) with (- M + x) by ring. rewrite exp_plus. ring.
Qed.

Lemma ladd_log_shift M y : 0 <= y -> ladd (np_log (exp (- M) * y)) M = np_log y.
Proof.
  intros Hy. unfold np_log. pose proof (exp_pos (- M)) as Hp.
  destruct (Req_EM_T y 0) as [->|Hn].
  - destruct (Req_EM_T (exp (- M) * 0) 0) as [_|H]; [reflexivity|]. exfalso. apply H. ring.
  - destruct (Req_EM_T (exp (- M) * y) 0) as [H|_].
    + apply Rmult_integral in H. destruct H; lra.
    + cbn. f_equal. rewrite ln_mult by lra. rewrite ln_exp. ring.
Qed.

Lemma fast_logsumexp_some X c : X <> [] -> length c = length X ->
  fast_logsumexp X (Some c) =
  Ok (np_log (Rabs (wexp X c)), if Rlt_dec (wexp X c) 0 then - 1 else 1).
Proof.
  intros HX Hc. destruct X as [|x0 X']; [congruence|]. set (X := x0 :: X') in *.
  unfold fast_logsumexp, X at 1. fold X. cbv zeta. rewrite Hc, Nat.eqb_refl. cbn [negb bind].
  set (M := max_from x0 X'). rewrite (lse_dot X M c). pose proof (exp_pos (- M)) as Hp.
  set (y := wexp X c).
  destruct (Rlt_dec (exp (- M) * y) 0) as [H|H]; destruct (Rlt_dec y 0) as [H'|H'].
  - rewrite Rabs_mult, (Rabs_right (exp (- M))) by lra. rewrite ladd_log_shift by apply Rabs_pos. reflexivity.
  - exfalso. apply (Rmult_le_compat_l (exp (- M)) 0 y) in H'; [lra|lra]|| (assert (0 <= exp (- M) * y) by (apply Rmult_le_pos; lra); lra).
  - exfalso. apply H. apply (Rmult_lt_compat_l (exp (- M))) in H'; lra.
  - rewrite (Rabs_right y) by lra. rewrite ladd_log_shift by lra. reflexivity.
Qed.

Lemma sumf_exp_pos X : X <> [] -> 0 < sumf X exp.
Proof. intros H. apply sumf_pos; [assumption|]. intros. apply exp_pos. Qed.

Lemma fast_logsumexp_none X : X <> [] ->
  fast_logsumexp X None = Ok (Fin (ln (sumf X exp)), 1).
Proof.
  intros HX. pose proof (sumf_exp_pos X HX) as HZ. destruct X as [|x0 X']; [congruence|]. set (X := x0 :: X') in *.
  unfold fast_logsumexp, X at 1. fold X. cbv zeta. cbn [bind]. set (M := max_from x0 X'). rewrite lse_sum.
  pose proof (exp_pos (- M)) as Hp.
  destruct (Rlt_dec (exp (- M) * sumf X exp) 0) as [H|_].
  - assert (0 < exp (- M) * sumf X exp) by (apply Rmult_lt_0_compat; lra). lra.
  - rewrite ladd_log_shift by lra. unfold np_log. destruct (Req_EM_T (sumf X exp) 0); [lra|reflexivity].
Qed.

(** The value computed from it: the ratio of the two sums. *)
Lemma exp_diff_some y z : 0 < z ->
  exp_diff (np_log (Rabs y)) (Fin (ln z)) = Some (Rabs y / z).
Proof.
  intros Hz. unfold np_log. destruct (Req_EM_T (Rabs y) 0) as [H|H]; cbn; f_equal.
  - rewrite H. lra.
  - unfold Rminus. rewrite exp_plus, exp_Ropp, !exp_ln; [reflexivity|lra|].
    pose proof (Rabs_pos y). lra.
Qed.

Lemma signed_ratio y z : 0 < z ->
  nan_to_0 (option_map (fun x => x * (if Rlt_dec y 0 then - 1 else 1)) (exp_diff (np_log (Rabs y)) (Fin (ln z)))) = y / z.
Proof.
  intros Hz. rewrite exp_diff_some by assumption. cbn. unfold Rabs. destruct (Rcase_abs y), (Rlt_dec y 0); try lra; field; lra.
Qed.

Lemma exp_diff_prob e z : 0 < z -> exp_diff (Fin e) (Fin (ln z)) = Some (exp e / z).
Proof. intros Hz. cbn. f_equal. unfold Rminus. rewrite exp_plus, exp_Ropp, exp_ln by assumption. reflexivity. Qed.

(** ** Binary digits *)
Lemma binstate_repr n i : (0 < n)%nat -> binstate n i = binary_repr (N.of_nat i) n.
Proof.
  intros Hn. unfold binstate, binary_repr. destruct (N.of_nat i); [|reflexivity].
  cbn [length]. destruct n; [lia|]. cbn [Nat.eqb]. replace (S n - 1)%nat with n by lia.
  rewrite <- repeat_cons. reflexivity.
Qed.

Lemma binstate_rows n : (0 < n)%nat -> map (binstate n) (seq 0 (2 ^ n)) = all_states [0; 1]%Z n.
Proof.
  intros Hn. rewrite <- (binary_rows_all_states n Hn). unfold binary_rows. apply map_ext. intros i.
  apply binstate_repr, Hn.
Qed.

(** Spin value encoded by a digit in each basis (before the final reversal). *)
Definition dig_spin (sym : bool) (b : Z) : R :=
  if sym then (if Z.eqb b 1 then - 1 else 1) else (if Z.eqb b 1 then 1 else 0).

Lemma parity_prod (l : list bool) :
  (if Nat.eqb (count_true l mod 2) 1 then - 1 else 1) = prodR (map (fun b : bool => if b then - 1 else 1) l).
Proof.
  induction l as [|b l IH]; [reflexivity|]. unfold prodR in *. cbn [map fold_right]. rewrite <- IH.
  unfold count_true. cbn [filter]. destruct b; [|lra]. cbn [length]. set (m := length (filter (fun b => b) l)).
  pose proof (Nat.mod_upper_bound m 2 ltac:(lia)) as Hb.
  assert (E : (S m mod 2 = 1 - m mod 2)%nat).
  { pose proof (Nat.div_mod m 2 ltac:(lia)). symmetry. destruct (m mod 2) as [|[|]] eqn:Em; [| |lia].
    - apply (Nat.mod_unique (S m) 2 (m / 2) 1); lia.
    - apply (Nat.mod_unique (S m) 2 (m / 2 + 1) 0); lia. }
  rewrite E. destruct (m mod 2) as [|[|]]; cbn; lra || lia.
Qed.

Lemma all_prod (l : list bool) :
  (if forallb (fun b => b) l then 1 else 0) = prodR (map (fun b : bool => if b then 1 else 0) l).
Proof.
  induction l as [|b l IH]; [reflexivity|]. unfold prodR in *. cbn [map fold_right forallb]. rewrite <- IH.
  destruct b, (forallb (fun b => b) l); cbn; lra.
Qed.

Lemma existsb_negb_forallb (l : list bool) : existsb negb l = negb (forallb (fun b => b) l).
Proof. induction l as [|[|] l IH]; cbn; auto. Qed.

(** ** Constraint tuples *)
Definition nterms (subix : list (list nat)) : nat := length (hd [] subix).
Definition tuple (subix : list (list nat)) (j : nat) : list nat := map (fun k => nth j k 0%nat) subix.
Definition tuples (subix : list (list nat)) : list (list nat) := map (tuple subix) (seq 0 (nterms subix)).

(** Well-formed index arrays: at least one array, all sites below n. *)
Definition subix_ok (n : nat) (subix : list (list nat)) : Prop :=
  subix <> [] /\ forall t, In t (tuples subix) -> forall i, In i t -> (i < n)%nat.

Definition bspin (sym b : bool) : R := if b then (if sym then - 1 else 1) else (if sym then 1 else 0).

Lemma ones_spins n sym subix bs j : subix_ok n subix -> (j < nterms subix)%nat -> length bs = n ->
  map (bspin sym) (ones_at subix bs j)
  = map (nthR (map (dig_spin sym) bs)) (tuple subix j).
Proof.
  intros [_ H] Hj Hbs. unfold ones_at, tuple. rewrite !map_map. apply map_ext_in. intros k Hk.
  assert (Hlt : (nth j k 0 < length bs)%nat).
  { rewrite Hbs. apply (H (tuple subix j)).
    - apply in_map_iff. exists j. split; [reflexivity|]. apply in_seq; lia.
    - unfold tuple. apply in_map_iff. exists k. auto. }
  unfold nthR. rewrite (nth_indep _ 0 (dig_spin sym 0)) by (rewrite map_length; assumption). rewrite map_nth.
  unfold dig_spin, bspin. destruct sym; reflexivity.
Qed.

Lemma sgn11 n subix bs j : subix_ok n subix -> (j < nterms subix)%nat -> length bs = n ->
  (if Nat.eqb (count_true (ones_at subix bs j) mod 2) 1 then - 1 else 1)
  = prodR (map (nthR (map (dig_spin true) bs)) (tuple subix j)).
Proof. intros H1 H2 H3. rewrite parity_prod, <- (ones_spins n true) by assumption. reflexivity. Qed.

Lemma sgn01 n subix bs j : subix_ok n subix -> (j < nterms subix)%nat -> length bs = n ->
  (if forallb (fun b => b) (ones_at subix bs j) then 1 else 0)
  = prodR (map (nthR (map (dig_spin false) bs)) (tuple subix j)).
Proof. intros H1 H2 H3. rewrite all_prod, <- (ones_spins n false) by assumption. reflexivity. Qed.

(** ** Evaluation of expressions *)
Lemma eval_terms_app e l1 : forall l2,
  eval_terms e (l1 ++ l2) = bind (eval_terms e l1) (fun x => bind (eval_terms e l2) (fun y => Ok (x + y))).
Proof.
  induction l1 as [|[neg a] l1 IH]; intros l2; cbn [app eval_terms bind].
  - destruct (eval_terms e l2); cbn; [f_equal; lra|reflexivity].
  - destruct (eval_atom e a) as [x|]; [|reflexivity]. cbn [bind]. rewrite IH.
    destruct (eval_terms e l1) as [y|]; [|reflexivity]. cbn [bind].
    destruct (eval_terms e l2) as [z|]; [|reflexivity]. cbn [bind]. f_equal. lra.
Qed.

Lemma re_sub0_aux e (m : nat) : forall l, (length l <= m)%nat -> eval_terms e (re_sub0 l) = eval_terms e l.
Proof.
  induction m as [|m IH]; intros l Hl; destruct l as [|t l]; try reflexivity; [cbn in Hl; lia|].
  cbn [length] in Hl. destruct t as [[|] a].
  - change (re_sub0 ((true, a) :: l)) with ((true, a) :: re_sub0 l). cbn [eval_terms]. rewrite IH by lia. reflexivity.
  - destruct a as [|c i].
    + destruct l as [|[[|] a] l].
      * reflexivity.
      * change (re_sub0 ((false, AZero) :: (true, a) :: l)) with ((false, AZero) :: re_sub0 ((true, a) :: l)).
        cbn [eval_terms eval_atom bind]. rewrite IH by (cbn [length] in *; lia). reflexivity.
      * change (re_sub0 ((false, AZero) :: (false, a) :: l)) with ((false, a) :: re_sub0 l).
        cbn [eval_terms eval_atom bind]. rewrite IH by (cbn [length] in Hl; lia).
        destruct (eval_atom e a) as [x|]; [|reflexivity]. cbn [bind].
        destruct (eval_terms e l) as [y|]; [|reflexivity]. cbn [bind]. f_equal. lra.
    + change (re_sub0 ((false, AVar c i) :: l)) with ((false, AVar c i) :: re_sub0 l). cbn [eval_terms]. rewrite IH by lia. reflexivity.
Qed.

Lemma re_sub0_eval e l : eval_terms e (re_sub0 l) = eval_terms e l.
Proof. apply (re_sub0_aux e (length l)). lia. Qed.

Lemma eval_var e c v j : lookup e c = Ok v -> (j < length v)%nat -> eval_atom e (AVar c j) = Ok (nthR v j).
Proof.
  intros Hl Hj. cbn. rewrite Hl. cbn. unfold get. rewrite (nth_error_nth' v 0 Hj). reflexivity.
Qed.

Lemma eval_terms11 e c v subix n bs : subix_ok n subix -> length bs = n ->
  lookup e c = Ok v -> (nterms subix <= length v)%nat ->
  eval_terms e (get_terms11 subix c bs) =
  Ok (sumf (seq 0 (nterms subix)) (fun j => nthR v j * prodR (map (nthR (map (dig_spin true) bs)) (tuple subix j)))).
Proof.
  intros Hok Hbs Hl Hv. unfold get_terms11. destruct subix as [|k0 rest]; [destruct Hok; congruence|].
  set (subix := k0 :: rest) in *. change (length k0) with (nterms subix). unfold range.
  assert (G : forall L, (forall j, In j L -> (j < nterms subix)%nat) ->
    eval_terms e (map (fun j => (Nat.eqb (count_true (ones_at subix bs j) mod 2) 1, AVar c j)) L) =
    Ok (sumf L (fun j => nthR v j * prodR (map (nthR (map (dig_spin true) bs)) (tuple subix j))))).
  { induction L as [|j L IH]; intros HL; [reflexivity|].
    cbn [map eval_terms]. rewrite (eval_var e c v j Hl) by (specialize (HL j (or_introl eq_refl)); lia).
    cbn [bind]. rewrite IH by (intros; apply HL; right; assumption). cbn [bind]. rewrite sumf_cons. f_equal. f_equal.
    rewrite <- (sgn11 n) by (auto; apply HL; left; reflexivity). destruct (Nat.eqb _ 1); ring. }
  apply G. intros j Hj. apply in_seq in Hj. lia.
Qed.

Lemma eval_terms01 e c v subix n bs : subix_ok n subix -> length bs = n ->
  lookup e c = Ok v -> (nterms subix <= length v)%nat ->
  eval_terms e (get_terms01 subix c bs) =
  Ok (sumf (seq 0 (nterms subix)) (fun j => nthR v j * prodR (map (nthR (map (dig_spin false) bs)) (tuple subix j)))).
Proof.
  intros Hok Hbs Hl Hv. unfold get_terms01. destruct subix as [|k0 rest]; [destruct Hok; congruence|].
  set (subix := k0 :: rest) in *. change (length k0) with (nterms subix). unfold range.
  assert (G : forall L, (forall j, In j L -> (j < nterms subix)%nat) ->
    eval_terms e (flat_map (fun j => if forallb (fun b => b) (ones_at subix bs j) then [(false, AVar c j)] else []) L) =
    Ok (sumf L (fun j => nthR v j * prodR (map (nthR (map (dig_spin false) bs)) (tuple subix j))))).
  { induction L as [|j L IH]; intros HL; [reflexivity|].
    cbn [flat_map]. rewrite eval_terms_app, IH by (intros; apply HL; right; assumption).
    rewrite sumf_cons, <- (sgn01 n) by (auto; apply HL; left; reflexivity).
    destruct (forallb (fun b => b) (ones_at subix bs j)).
    - cbn [eval_terms]. rewrite (eval_var e c v j Hl) by (specialize (HL j (or_introl eq_refl)); lia).
      cbn [bind]. f_equal. lra.
    - cbn [eval_terms bind]. f_equal. lra. }
  specialize (G (seq 0 (nterms subix))). cbv zeta.
  destruct (flat_map _ _) eqn:E.
  - rewrite <- G by (intros j Hj; apply in_seq in Hj; lia). cbn. f_equal. lra.
  - apply G. intros j Hj. apply in_seq in Hj. lia.
Qed.

(** ** The environment *)
Lemma lookup_in e c v : NoDup (map fst e) -> In (c, v) e -> lookup e c = Ok v.
Proof.
  induction e as [|[d w] e IH]; [intros _ []|]. cbn [map fst lookup]. intros Hnd [E|Hin].
  - injection E as -> ->. rewrite Ascii.eqb_refl. reflexivity.
  - inversion Hnd as [|? ? Hni Hnd']; subst. destruct (Ascii.eqb_spec c d) as [->|_]; [|auto].
    exfalso. apply Hni. apply (in_map fst) in Hin. exact Hin.
Qed.

Lemma abc_NoDup : NoDup abc.
Proof.
  assert (D : forall l : list ascii, (fix nd (l : list ascii) := match l with [] => true | a :: l' => negb (existsb (Ascii.eqb a) l') && nd l' end) l = true -> NoDup l).
  { induction l as [|a l IH]; intros H; constructor.
    - apply andb_prop in H. destruct H as [H _]. intros Hin. apply negb_true_iff in H.
      assert (existsb (Ascii.eqb a) l = true) by (apply existsb_exists; exists a; split; [assumption|apply Ascii.eqb_refl]). congruence.
    - apply IH. apply andb_prop in H. tauto. }
  apply D. reflexivity.
Qed.

Fixpoint env_ok (e : env) (params : list R) (st : nat) (L : list (ascii * list (list nat))) : Prop :=
  match L with
  | [] => True
  | (c, subix) :: L' => lookup e c = Ok (slice params st (st + nterms subix)) /\ env_ok e params (st + nterms subix) L'
  end.

Lemma env_ok_in e params letters : NoDup (map fst e) -> forall cts st,
  (forall c ab, In (c, ab) (combine letters (cum_slices st (map nterms cts))) -> In (c, slice params (fst ab) (snd ab)) e) ->
  env_ok e params st (combine letters cts).
Proof.
  intros Hnd. induction letters as [|c letters IH]; intros cts st H; [exact I|].
  destruct cts as [|subix cts]; [exact I|]. cbn [combine env_ok]. cbn [map cum_slices combine] in H. split.
  - apply lookup_in; [assumption|]. apply (H c (st, (st + nterms subix)%nat)). left. reflexivity.
  - apply IH. intros c' ab Hin. apply H. right. exact Hin.
Qed.

Lemma nodup_firsts {A B} (l : list A) : forall (m : list B), NoDup l -> NoDup (map fst (combine l m)).
Proof.
  induction l as [|a l IH]; intros m H; [constructor|]. destruct m as [|b m]; [constructor|].
  inversion H; subst. cbn [combine map fst]. constructor; [|auto].
  intros Hin. apply in_map_iff in Hin. destruct Hin as ([x y] & E & Hin). cbn in E. subst x. apply in_combine_l in Hin. contradiction.
Qed.

Lemma make_env_ok f params cts : ef_slices f = combine abc (cum_slices 0 (map nterms cts)) ->
  env_ok (make_env f params) params 0 (combine abc cts).
Proof.
  intros Hs. unfold make_env. rewrite Hs. apply env_ok_in.
  - rewrite map_rev, map_map. cbn [fst]. apply NoDup_rev. apply nodup_firsts. exact abc_NoDup.
  - intros c ab Hin. apply in_rev. rewrite rev_involutive. apply in_map_iff. exists (c, ab). auto.
Qed.

Lemma slice_nth (params : list R) a b j : (a + j < b)%nat -> nthR (slice params a b) j = nthR params (a + j).
Proof. intros H. unfold slice. rewrite nthR_firstn by lia. apply nthR_skipn. Qed.

Lemma slice_length {A} (params : list A) a b : (a <= b)%nat -> (b <= length params)%nat -> length (slice params a b) = (b - a)%nat.
Proof. intros H1 H2. unfold slice. rewrite firstn_length, skipn_length. lia. Qed.

Definition all_tuples (cts : list (list (list nat))) : list (list nat) := flat_map tuples cts.

Lemma tuples_length subix : length (tuples subix) = nterms subix.
Proof. unfold tuples. rewrite map_length, seq_length. reflexivity. Qed.

Lemma eval_orders (sym : bool) e params n bs : length bs = n -> forall letters cts st,
  (length cts <= length letters)%nat ->
  (forall subix, In subix cts -> subix_ok n subix) ->
  env_ok e params st (combine letters cts) ->
  (st + length (all_tuples cts) <= length params)%nat ->
  eval_terms e (flat_map (fun ci => let '(c, subix) := ci in
     if sym then get_terms11 subix c bs else get_terms01 subix c bs) (combine letters cts)) =
  Ok (sumf (seq 0 (length (all_tuples cts))) (fun j => nthR params (st + j) *
        prodR (map (nthR (map (dig_spin sym) bs)) (nth j (all_tuples cts) [])))).
Proof.
  intros Hbs. induction letters as [|c letters IH]; intros cts st Hlen Hok He Hp; destruct cts as [|subix cts]; try reflexivity; [cbn in Hlen; lia|].
  cbn [combine flat_map]. cbn [combine env_ok] in He. destruct He as [Hl He]. rewrite eval_terms_app.
  cbn [length] in Hlen. unfold all_tuples in Hp. cbn [flat_map] in Hp. fold (all_tuples cts) in Hp. rewrite app_length, tuples_length in Hp.
  assert (Hs : subix_ok n subix) by (apply Hok; left; reflexivity).
  assert (Hsl : length (slice params st (st + nterms subix)) = nterms subix) by (rewrite slice_length; lia).
  assert (E1 : eval_terms e (if sym then get_terms11 subix c bs else get_terms01 subix c bs) =
    Ok (sumf (seq 0 (nterms subix)) (fun j => nthR (slice params st (st + nterms subix)) j * prodR (map (nthR (map (dig_spin sym) bs)) (tuple subix j))))).
  { destruct sym; [apply (eval_terms11 e c _ subix n)|apply (eval_terms01 e c _ subix n)]; auto; lia. }
  rewrite E1. cbn [bind]. rewrite (IH cts (st + nterms subix)%nat) by (first [lia | assumption | intros; apply Hok; right; assumption]).
  cbn [bind]. f_equal. unfold all_tuples. cbn [flat_map]. fold (all_tuples cts). rewrite app_length, tuples_length, seq_app, sumf_app. f_equal.
  - apply sumf_ext_in. intros j Hj. apply in_seq in Hj. rewrite slice_nth by lia. f_equal. f_equal. f_equal.
    rewrite app_nth1 by (rewrite tuples_length; lia). unfold tuples. rewrite nth_map_seq by lia. reflexivity.
  - cbn [Nat.add].
    assert (G : forall m a b f g, (forall j, (j < m)%nat -> f (a + j)%nat = g (b + j)%nat) -> sumf (seq a m) f = sumf (seq b m) g).
    { induction m as [|m IHm]; intros a b f g H; [reflexivity|]. cbn [seq]. rewrite !sumf_cons. f_equal.
      - specialize (H 0%nat ltac:(lia)). rewrite !Nat.add_0_r in H. exact H.
      - apply IHm. intros j Hj. specialize (H (S j) ltac:(lia)). replace (S a + j)%nat with (a + S j)%nat by lia.
        replace (S b + j)%nat with (b + S j)%nat by lia. exact H. }
    apply (G _ 0%nat (nterms subix)). intros j Hj. cbn [Nat.add]. f_equal; [f_equal; lia|]. f_equal. f_equal.
    rewrite app_nth2 by (rewrite tuples_length; lia). rewrite tuples_length. f_equal. lia.
Qed.

Lemma mapM_ok {A B} (f : A -> result B) (g : A -> B) l : (forall a, In a l -> f a = Ok (g a)) -> mapM f l = Ok (map g l).
Proof.
  induction l as [|a l IH]; intros H; [reflexivity|]. cbn [mapM map].
  rewrite (H a) by (left; reflexivity). cbn [bind]. rewrite IH by (intros; apply H; right; assumption). reflexivity.
Qed.

(** ** Signs *)
Definition sign_spec (sym : bool) (bs : list Z) (t : list nat) : Z :=
  let ones := map (fun i => Z.eqb (nth i bs 0%Z) 1) t in
  if sym then (if Nat.eqb (count_true ones mod 2) 1 then -1 else 1)%Z
  else (if existsb negb ones then 0 else 1)%Z.

Lemma signs_of_eq n (sym : bool) subix : subix <> [] ->
  signs_of n sym subix = Ok (map (fun t => map (fun bs => sign_spec sym bs t) (map (binstate n) (seq 0 (2 ^ n)))) (tuples subix)).
Proof.
  intros Hne. unfold signs_of.
  assert (E : forall state, match compute_signs subix (binstate n state) sym with None => Err AttributeError | Some s => Ok s end
    = Ok (map (fun t => sign_spec sym (binstate n state) t) (tuples subix))).
  { intros state. unfold compute_signs. destruct subix as [|k0 rest]; [congruence|]. set (subix := k0 :: rest) in *.
    f_equal. unfold tuples. rewrite map_map. change (length k0) with (nterms subix). apply map_ext. intros j. unfold sign_spec, tuple.
    rewrite map_map. reflexivity. }
  rewrite (mapM_ok _ (fun state => map (fun t => sign_spec sym (binstate n state) t) (tuples subix))) by (intros; apply E).
  cbn [bind]. f_equal.
  set (T := tuples subix). set (Sx := seq 0 (2 ^ n)).
  assert (Hsz : length (nth 0 (map (fun state => map (fun t => sign_spec sym (binstate n state) t) T) Sx) []) = length T).
  { subst Sx. destruct (2 ^ n)%nat eqn:E2; [pose proof (Nat.pow_nonzero 2 n); lia|]. cbn [seq map nth]. apply map_length. }
  rewrite Hsz. apply (list_eq_nth []); [unfold range; rewrite !map_length, seq_length; reflexivity|].
  intros j Hj. unfold range in *. rewrite map_length, seq_length in Hj. rewrite nth_map_seq by assumption.
  rewrite (nth_indep _ [] (map (fun bs => sign_spec sym bs []) (map (binstate n) Sx))) by (rewrite map_length; assumption).
  rewrite (map_nth (fun t => map (fun bs => sign_spec sym bs t) (map (binstate n) Sx))).
  rewrite !map_map. apply map_ext. intros state.
  rewrite (nth_indep _ 0%Z (sign_spec sym (binstate n state) [])) by (rewrite map_length; lia).
  rewrite (map_nth (fun t => sign_spec sym (binstate n state) t)). reflexivity.
Qed.

Lemma sign_spec_R n (sym : bool) bs t : length bs = n -> (forall i, In i t -> (i < n)%nat) ->
  IZR (sign_spec sym bs t) = prodR (map (nthR (map (dig_spin sym) bs)) t).
Proof.
  intros Hbs Ht. unfold sign_spec.
  assert (E : map (bspin sym) (map (fun i => Z.eqb (nth i bs 0%Z) 1) t)
    = map (nthR (map (dig_spin sym) bs)) t).
  { rewrite map_map. apply map_ext_in. intros i Hi. specialize (Ht i Hi).
    unfold nthR. rewrite (nth_indep _ 0 (dig_spin sym 0)) by (rewrite map_length; lia). rewrite map_nth.
    unfold dig_spin, bspin. destruct sym; reflexivity. }
  rewrite <- E. destruct sym.
  - rewrite <- parity_prod. destruct (Nat.eqb _ 1); reflexivity.
  - rewrite <- all_prod, existsb_negb_forallb. destruct (forallb _ _); reflexivity.
Qed.

(** ** The whole file *)
Lemma flat_map_map_rev {A B} (f : A -> list B) l : rev (flat_map f l) = flat_map (fun a => rev (f a)) (rev l).
Proof.
  induction l as [|a l IH]; [reflexivity|]. cbn [flat_map rev]. rewrite rev_app_distr, IH, flat_map_app. cbn [flat_map].
  rewrite app_nil_r. reflexivity.
Qed.

Lemma rev_all_states {A} (vals : list A) n : rev (all_states vals n) = all_states (rev vals) n.
Proof.
  induction n as [|n IH]; [reflexivity|]. cbn [all_states]. rewrite flat_map_map_rev. apply flat_map_ext. intros v.
  rewrite <- map_rev, IH. reflexivity.
Qed.

Definition real_states (sym : bool) (n : nat) : list (list R) := all_states (if sym then [- 1; 1] else [0; 1]) n.

(** States in the order of the file. *)
Definition file_states (sym : bool) (n : nat) : list (list R) :=
  map (map (dig_spin sym)) (all_states [0; 1]%Z n).

Lemma file_states_rev (sym : bool) n : (if sym then rev (file_states sym n) else file_states sym n) = real_states sym n.
Proof.
  unfold file_states, real_states. rewrite <- all_states_map. destruct sym.
  - rewrite rev_all_states. reflexivity.
  - reflexivity.
Qed.

Lemma write_eqns_ok n sym cts : (length cts <= length abc)%nat -> (forall subix, In subix cts -> subix <> []) ->
  write_eqns n sym cts = Ok {| ef_slices := combine abc (cum_slices 0 (map nterms cts));
    ef_terms := map (expterm n sym cts) (seq 0 (2 ^ n));
    ef_coeffs := map (fun t => map (fun bs => sign_spec sym bs t) (map (binstate n) (seq 0 (2 ^ n)))) (all_tuples cts);
    ef_probs := map (expterm n sym cts) (seq 0 (2 ^ n)); ef_rev := sym |}.
Proof.
  intros Hlen Hne. unfold write_eqns. destruct (Nat.ltb_spec (length abc) (length cts)); [lia|].
  rewrite (mapM_ok _ (fun subix => map (fun t => map (fun bs => sign_spec sym bs t) (map (binstate n) (seq 0 (2 ^ n)))) (tuples subix)))
    by (intros; apply signs_of_eq; auto).
  cbn [bind]. f_equal. f_equal.
  - f_equal. f_equal. rewrite map_map. apply map_ext. intros subix. rewrite map_length. apply tuples_length.
  - unfold all_tuples. rewrite <- flat_map_concat_map. clear. induction cts as [|x cts IH]; [reflexivity|]. cbn [flat_map]. rewrite map_app, IH. reflexivity.
Qed.

Lemma sumf_partition_file sym n (F : list R -> R) :
  sumf (file_states sym n) F = sumf (real_states sym n) F.
Proof. rewrite <- file_states_rev. destruct sym; [rewrite sumf_rev|]; reflexivity. Qed.

Section File.
Variables (n : nat) (sym : bool) (cts : list (list (list nat))) (params : list R).
Hypothesis Hn : (0 < n)%nat.
Hypothesis Hlen : (length cts <= length abc)%nat.
Hypothesis Hok : forall subix, In subix cts -> subix_ok n subix.
Hypothesis Hp : (length (all_tuples cts) <= length params)%nat.
Let cs := all_tuples cts.
Let E := subset_energy cs params.

Let f := {| ef_slices := combine abc (cum_slices 0 (map nterms cts));
    ef_terms := map (expterm n sym cts) (seq 0 (2 ^ n));
    ef_coeffs := map (fun t => map (fun bs => sign_spec sym bs t) (map (binstate n) (seq 0 (2 ^ n)))) (all_tuples cts);
    ef_probs := map (expterm n sym cts) (seq 0 (2 ^ n)); ef_rev := sym |}.

Lemma file_energies : mapM (eval_terms (make_env f params)) (map (expterm n sym cts) (seq 0 (2 ^ n)))
  = Ok (map (fun s => - E s) (file_states sym n)).
Proof.
  unfold file_states. rewrite <- (binstate_rows n Hn), !map_map.
  assert (G : forall e, (forall i, In i (seq 0 (2 ^ n)) -> eval_terms e (expterm n sym cts i) = Ok (- E (map (dig_spin sym) (binstate n i)))) ->
     mapM (eval_terms e) (map (expterm n sym cts) (seq 0 (2 ^ n))) = Ok (map (fun i => - E (map (dig_spin sym) (binstate n i))) (seq 0 (2 ^ n)))).
  { intros e. generalize (seq 0 (2 ^ n)). induction l as [|i l IH]; intros H; [reflexivity|].
    cbn [map mapM]. rewrite H by (left; reflexivity). cbn [bind]. rewrite IH by (intros; apply H; right; assumption). reflexivity. }
  apply G. intros i Hi. unfold expterm. cbv zeta. rewrite re_sub0_eval.
  assert (Hb : length (binstate n i) = n).
  { assert (Hin : In (binstate n i) (all_states [0; 1]%Z n)) by (rewrite <- (binstate_rows n Hn); apply in_map; exact Hi).
    apply all_states_spec in Hin. tauto. }
  rewrite (eval_orders sym (make_env f params) params n (binstate n i) Hb abc cts 0%nat Hlen Hok); [|apply make_env_ok; reflexivity|exact Hp].
  f_equal. unfold E, subset_energy. rewrite Ropp_involutive. reflexivity.
Qed.

Lemma energies_Z : sumf (map (fun s => - E s) (file_states sym n)) exp = partition E (real_states sym n).
Proof. rewrite sumf_map. unfold partition. rewrite sumf_partition_file. reflexivity. Qed.

Lemma energies_ne : map (fun s => - E s) (file_states sym n) <> [].
Proof.
  intros H. apply (f_equal (@length _)) in H. unfold file_states in H. rewrite !map_length, all_states_length in H.
  cbn [length] in H. pose proof (Nat.pow_nonzero 2 n). lia.
Qed.

Lemma Zpos : 0 < partition E (real_states sym n).
Proof. rewrite <- energies_Z. apply sumf_exp_pos, energies_ne. Qed.

Lemma file_p : run_p f params = Ok (map (fun s => Some (boltzmann E (real_states sym n) s)) (real_states sym n)).
Proof.
  unfold run_p. cbv zeta. change (ef_terms f) with (map (expterm n sym cts) (seq 0 (2 ^ n))).
  change (ef_probs f) with (map (expterm n sym cts) (seq 0 (2 ^ n))). change (ef_rev f) with sym.
  rewrite file_energies. cbn [bind]. rewrite fast_logsumexp_none by apply energies_ne. cbn [bind fst].
  rewrite energies_Z.
  assert (G : forall e L V z, mapM (eval_terms e) L = Ok V ->
    mapM (fun t => bind (eval_terms e t) (fun x => Ok (exp_diff (Fin x) z))) L = Ok (map (fun x => exp_diff (Fin x) z) V)).
  { intros e. induction L as [|t L IH]; intros V z H; cbn [mapM] in *; [injection H as <-; reflexivity|].
    destruct (eval_terms e t) as [x|]; [|discriminate]. cbn [bind] in *. destruct (mapM (eval_terms e) L) as [V'|]; [|discriminate].
    cbn [bind] in H. injection H as <-. rewrite (IH V' z eq_refl). reflexivity. }
  rewrite (G _ _ _ _ file_energies). cbn [bind]. f_equal. rewrite map_map.
  assert (E1 : forall s, exp_diff (Fin (- E s)) (Fin (ln (partition E (real_states sym n)))) = Some (boltzmann E (real_states sym n) s)).
  { intros s. rewrite exp_diff_prob by apply Zpos. reflexivity. }
  transitivity (map (fun s => exp_diff (Fin (- E s)) (Fin (ln (partition E (real_states sym n))))) (real_states sym n)).
  - generalize (partition E (real_states sym n)) as Z. intros Z. rewrite <- (file_states_rev sym n). destruct sym; [rewrite <- map_rev|]; reflexivity.
  - apply map_ext. exact E1.
Qed.

Lemma file_obs : run_calc_observables f params =
  Ok (map (fun t => expectation (boltzmann E (real_states sym n)) (real_states sym n) (fun s => prodR (map (nthR s) t))) cs).
Proof.
  unfold run_calc_observables. change (ef_terms f) with (map (expterm n sym cts) (seq 0 (2 ^ n))).
  change (ef_coeffs f) with (map (fun t => map (fun bs => sign_spec sym bs t) (map (binstate n) (seq 0 (2 ^ n)))) cs).
  rewrite file_energies. cbn [bind]. rewrite fast_logsumexp_none by apply energies_ne. cbn [bind fst].
  rewrite energies_Z, (binstate_rows n Hn).
  assert (Hc : forall t, In t cs -> forall i, In i t -> (i < n)%nat).
  { intros t Ht. unfold cs, all_tuples in Ht. apply in_flat_map in Ht. destruct Ht as (subix & Hs & Ht). apply (proj2 (Hok subix Hs) t Ht). }
  set (EN := map (fun s => - E s) (file_states sym n)). set (ZZ := partition E (real_states sym n)).
  assert (G0 : forall L, (forall t, In t L -> forall i, In i t -> (i < n)%nat) ->
    mapM (fun c => bind (fast_logsumexp EN (Some (map IZR c))) (fun num =>
        Ok (nan_to_0 (option_map (fun x => x * snd num) (exp_diff (fst num) (Fin (ln ZZ)))))))
      (map (fun t => map (fun bs => sign_spec sym bs t) (all_states [0; 1]%Z n)) L) =
    Ok (map (fun t => expectation (boltzmann E (real_states sym n)) (real_states sym n) (fun s => prodR (map (nthR s) t))) L));
    [|exact (G0 cs Hc)].
  clear Hc. intros L HL. unfold EN, ZZ. induction L as [|t L IH]; [reflexivity|]. cbn [map mapM].
  rewrite fast_logsumexp_some; [|apply energies_ne|unfold file_states; rewrite !map_length; reflexivity].
  cbn [bind fst snd]. rewrite IH by (intros t' Ht'; apply HL; right; exact Ht'). cbn [bind]. f_equal. f_equal.
  rewrite signed_ratio by apply Zpos. unfold expectation, boltzmann.
  transitivity (sumf (real_states sym n) (fun s => exp (- E s) * prodR (map (nthR s) t)) / partition E (real_states sym n)).
  - f_equal. rewrite <- sumf_partition_file. unfold wexp, file_states.
    assert (G : forall B, (forall bs, In bs B -> length bs = n) ->
      sumf (combine (map (fun s => - E s) (map (map (dig_spin sym)) B)) (map IZR (map (fun bs => sign_spec sym bs t) B))) (fun p => snd p * exp (fst p))
      = sumf (map (map (dig_spin sym)) B) (fun s => exp (- E s) * prodR (map (nthR s) t))).
    { induction B as [|b B IHB]; intros HB; [reflexivity|]. cbn [map combine]. rewrite !sumf_cons, IHB by (intros; apply HB; right; assumption).
      cbn [fst snd]. rewrite (sign_spec_R n) by (first [apply HB; left; reflexivity | apply HL; left; reflexivity]). ring. }
    apply G. intros bs Hbs. apply all_states_spec in Hbs. tauto.
  - rewrite <- sumf_div. apply sumf_ext. intros s. unfold Rdiv. ring.
Qed.
End File.
