(** * Proofs: deprecated pseudolikelihood solver. *)
From Coq Require Import Permutation.
From Coquelicot Require Import Coquelicot.
From Verif Require Import Prelude PreludeFacts Spec Spec2 M_Params M_PseudoDep P_Energy P_Energy2 P_Params P_MPF P_Pseudo P_MeanField P_Cluster4 P_Cluster5.
Import ListNotations.
Local Open Scope R_scope.

(** Data matrix with n columns of zeros and ones. *)
Definition binary (n : nat) (X : list (list R)) : Prop := forall x, In x X -> length x = n /\ forall v, In v x -> v = 0 \/ v = 1.

Lemma binary_at n X x i : binary n X -> In x X -> (i < n)%nat -> nthR x i = 0 \/ nthR x i = 1.
Proof. intros H Hx Hi. destruct (H x Hx) as [L V]. apply V. apply nth_In. lia. Qed.

Lemma shapes_ok n r X Jr : X <> [] -> (forall x, In x X -> length x = n) -> (r < n)%nat -> length Jr = n -> dep_shapes r X Jr = Ok tt.
Proof.
  intros Hne HX Hr HJ. unfold dep_shapes. destruct X as [|x X]; [congruence|]. rewrite (HX x (or_introl eq_refl)), HJ.
  destruct (Nat.ltb_spec r n); [|lia]. now rewrite Nat.eqb_refl.
Qed.

Lemma rhat_length r x : length (rhat r x) = length x.
Proof. unfold rhat. now rewrite upd_length, map_length. Qed.

Lemma rhat_nth r x i : (r < length x)%nat -> (i < length x)%nat -> nthR (rhat r x) i = if Nat.eqb i r then 1 else 2 * nthR x i.
Proof.
  intros Hr Hi. unfold rhat, nthR. destruct (Nat.eqb_spec i r) as [->|Hn].
  - apply nth_upd_same. now rewrite map_length.
  - rewrite nth_upd_other by congruence. rewrite (nth_indep _ 0 (2 * 0)) by now rewrite map_length. apply (map_nth (fun v => 2 * v)).
Qed.

Lemma dep_energy_upd r x Jr i t : length Jr = length x -> (i < length Jr)%nat ->
  dep_energy r x (upd Jr i t) = dep_energy r x Jr + sigma_tilde r x * nthR (rhat r x) i * (t - nthR Jr i).
Proof.
  intros HJ Hi. unfold dep_energy. rewrite (dot_comm (upd Jr i t)), dot_upd; rewrite ?rhat_length; try lia. rewrite (dot_comm (rhat r x)). ring.
Qed.

Lemma logistic_eq a : 1 / (1 + exp a) * exp a = 1 / (1 + exp (- a)).
Proof. rewrite exp_Ropp. pose proof (exp_pos a). field. lra. Qed.

(** Weighted objective: value, gradient, Hessian. *)
Section Weighted.
Variable c : list R -> R.
Definition wobj (r : nat) (X : list (list R)) (Jr : list R) : R := sumf X (fun x => c x * softplus (dep_energy r x Jr)).
Definition wjac (r : nat) (X : list (list R)) (Jr : list R) (i : nat) : R :=
  sumf X (fun x => c x * (sigma_tilde r x * nthR (rhat r x) i * (1 / (1 + exp (- dep_energy r x Jr))))).
Definition whess (r : nat) (X : list (list R)) (Jr : list R) (i j : nat) : R :=
  sumf X (fun x => c x * (exp (- dep_energy r x Jr) / (1 + exp (- dep_energy r x Jr)) ^ 2 * (nthR (rhat r x) i * nthR (rhat r x) j))).

Lemma wobj_derive n r X (Jr : list R)  i : (forall x, In x X -> length x = n) -> length Jr = n -> (i < n)%nat ->
  is_derive (fun t => wobj r X (upd Jr i t)) (nthR Jr i) (wjac r X Jr i).
Proof.
  intros HX HJ Hi. unfold wobj, wjac.
  apply (is_derive_sumf X (fun t x => c x * softplus (dep_energy r x (upd Jr i t)))). intros x Hx.
  apply (is_derive_ext (fun t => c x * softplus (dep_energy r x Jr + sigma_tilde r x * nthR (rhat r x) i * (t - nthR Jr i)))).
  { intros t. rewrite dep_energy_upd; [reflexivity| |lia]. rewrite HJ. symmetry. now apply HX. }
  replace (c x * (sigma_tilde r x * nthR (rhat r x) i * (1 / (1 + exp (- dep_energy r x Jr)))))
    with (c x * (1 / (1 + exp (dep_energy r x Jr)) * exp (dep_energy r x Jr) * (sigma_tilde r x * nthR (rhat r x) i))) by (rewrite logistic_eq; ring).
  apply (is_derive_scal (fun t => softplus (dep_energy r x Jr + sigma_tilde r x * nthR (rhat r x) i * (t - nthR Jr i))) _ (c x)).
  now apply softplus_derive.
Qed.

Lemma wjac_derive n r X (Jr : list R)  i j : (forall x, In x X -> length x = n) -> (forall x, In x X -> nthR x r = 0 \/ nthR x r = 1) ->
  length Jr = n -> (j < n)%nat -> is_derive (fun t => wjac r X (upd Jr j t) i) (nthR Jr j) (whess r X Jr i j).
Proof.
  intros HX Hb HJ Hj. unfold wjac, whess.
  apply (is_derive_sumf X (fun t x => c x * (sigma_tilde r x * nthR (rhat r x) i * (1 / (1 + exp (- dep_energy r x (upd Jr j t))))))). intros x Hx.
  assert (S2 : sigma_tilde r x * sigma_tilde r x = 1) by (unfold sigma_tilde; destruct (Hb x Hx) as [-> | ->]; ring).
  set (s := sigma_tilde r x) in *. set (a := dep_energy r x Jr). set (pi := nthR (rhat r x) i). set (pj := nthR (rhat r x) j).
  apply (is_derive_ext (fun t => c x * (s * pi * (1 / (1 + exp (- (a + s * pj * (t - nthR Jr j)))))))).
  { intros t. rewrite dep_energy_upd; [reflexivity| |lia]. rewrite HJ. symmetry. now apply HX. }
  replace (c x * (exp (- a) / (1 + exp (- a)) ^ 2 * (pi * pj))) with (c x * (s * s * pi * pj * (exp (- a) / (1 + exp (- a)) ^ 2))) by (rewrite S2; ring).
  assert (P : 0 < exp (- (a + s * pj * (nthR Jr j + - nthR Jr j)))) by apply exp_pos.
  auto_derive; [lra|]. replace (a + s * pj * (nthR Jr j + - nthR Jr j)) with a in * by ring. field. lra.
Qed.

(** Tangent inequality, summed. *)
Lemma wobj_tangent n r X Jr Jr' : (forall x, In x X -> length x = n) -> (forall x, In x X -> 0 <= c x) -> length Jr = n -> length Jr' = n ->
  wobj r X Jr + sumf (seq 0 n) (fun i => wjac r X Jr i * (nthR Jr' i - nthR Jr i)) <= wobj r X Jr'.
Proof.
  intros HX Hc HJ HJ'.
  assert (E : sumf (seq 0 n) (fun i => wjac r X Jr i * (nthR Jr' i - nthR Jr i)) =
    sumf X (fun x => c x * (1 / (1 + exp (dep_energy r x Jr)) * exp (dep_energy r x Jr) * (dep_energy r x Jr' - dep_energy r x Jr)))).
  { rewrite (sumf_ext (seq 0 n) _ (fun i => sumf X (fun x => c x * (sigma_tilde r x * nthR (rhat r x) i * (1 / (1 + exp (- dep_energy r x Jr)))) * (nthR Jr' i - nthR Jr i))))
      by (intros i; unfold wjac; now rewrite sumf_scal_r).
    rewrite sumf_swap. apply sumf_ext_in. intros x Hx. rewrite logistic_eq.
    rewrite (sumf_ext _ _ (fun i => c x * (1 / (1 + exp (- dep_energy r x Jr))) * sigma_tilde r x * (nthR Jr' i * nthR (rhat r x) i - nthR Jr i * nthR (rhat r x) i))) by (intros i; ring).
    rewrite sumf_scal_l, sumf_minus. unfold dep_energy. rewrite (dot_seq Jr' (rhat r x) n), (dot_seq Jr (rhat r x) n) by (rewrite ?rhat_length; auto). ring. }
  rewrite E. unfold wobj. rewrite <- sumf_plus. apply sumf_le. intros x Hx.
  pose proof (softplus_tangent (dep_energy r x Jr) (dep_energy r x Jr')) as T. pose proof (Hc x Hx).
  replace (c x * softplus (dep_energy r x Jr) + c x * (1 / (1 + exp (dep_energy r x Jr)) * exp (dep_energy r x Jr) * (dep_energy r x Jr' - dep_energy r x Jr)))
    with (c x * (softplus (dep_energy r x Jr) + 1 / (1 + exp (dep_energy r x Jr)) * exp (dep_energy r x Jr) * (dep_energy r x Jr' - dep_energy r x Jr))) by ring.
  now apply Rmult_le_compat_l.
Qed.
End Weighted.

(** ** The functions of the code *)
Lemma cll_eq n r X Jr : X <> [] -> (forall x, In x X -> length x = n) -> (r < n)%nat -> length Jr = n ->
  cond_log_likelihood r X Jr = Ok (- wobj (fun _ => 1) r X Jr).
Proof.
  intros Hne HX Hr HJ. unfold cond_log_likelihood. rewrite (shapes_ok n) by assumption. cbn [bind]. f_equal. f_equal. apply sumf_ext. intros x. unfold softplus. ring.
Qed.
Lemma cjac_eq n r X Jr : X <> [] -> (forall x, In x X -> length x = n) -> (r < n)%nat -> length Jr = n ->
  cond_jac r X Jr = Ok (map (wjac (fun _ => 1) r X Jr) (seq 0 n)).
Proof.
  intros Hne HX Hr HJ. unfold cond_jac. rewrite (shapes_ok n) by assumption. cbn [bind]. f_equal. unfold range. rewrite HJ. apply map_ext. intros i.
  apply sumf_ext. intros x. ring.
Qed.
Lemma cLL_eq n r X Jr k : X <> [] -> (forall x, In x X -> length x = n) -> (r < n)%nat -> length Jr = n ->
  conditionalLogLikelihood r X Jr k = Ok (- wobj (filter_vec r k) r X Jr).
Proof.
  intros Hne HX Hr HJ. unfold conditionalLogLikelihood. rewrite (shapes_ok n) by assumption. cbn [bind]. f_equal. unfold wobj. rewrite <- sumf_opp.
  apply sumf_ext. intros x. unfold softplus. ring.
Qed.
Lemma cJac_eq n r X Jr k : X <> [] -> (forall x, In x X -> length x = n) -> (r < n)%nat -> length Jr = n ->
  conditionalJacobian r X Jr k = Ok (map (wjac (filter_vec r k) r X Jr) (seq 0 n)).
Proof.
  intros Hne HX Hr HJ. unfold conditionalJacobian. rewrite (shapes_ok n) by assumption. cbn [bind]. f_equal. unfold range. rewrite HJ. apply map_ext. intros i.
  apply sumf_ext. intros x. unfold Rdiv. ring.
Qed.

Lemma combine_map_self {A B} (f : A -> B) (l : list A) : combine l (map f l) = map (fun a => (a, f a)) l.
Proof. induction l as [|a l IH]; [reflexivity|]. cbn. now rewrite IH. Qed.

Lemma chess_eq n r X Jr : X <> [] -> (forall x, In x X -> length x = n) -> (r < n)%nat -> length Jr = n ->
  cond_hess r X Jr None = Ok (mk_mat n n (whess (fun _ => 1) r X Jr)).
Proof.
  intros Hne HX Hr HJ. unfold cond_hess. rewrite (shapes_ok n) by assumption. cbn [bind]. unfold pair_cooc_mat. rewrite !map_length, Nat.eqb_refl. cbn [negb]. f_equal.
  rewrite HJ. apply mk_mat_ext. intros i j Hi Hj. rewrite map_map, combine_map_self, sumf_map. apply sumf_ext_in. intros x Hx. cbn [fst snd].
  rewrite entry_mk_mat by (rewrite rhat_length, HX by assumption; assumption). ring.
Qed.

Lemma cHess_eq n r X Jr k : X <> [] -> (forall x, In x X -> length x = n) -> (r < n)%nat -> length Jr = n ->
  conditionalHessian r X Jr k None = Ok (mk_mat n n (whess (filter_vec r k) r X Jr)).
Proof.
  intros Hne HX Hr HJ. unfold conditionalHessian. rewrite (shapes_ok n) by assumption. cbn [bind]. unfold pair_cooc_mat. rewrite !map_length, Nat.eqb_refl. cbn [negb]. f_equal.
  rewrite HJ. apply mk_mat_ext. intros i j Hi Hj. rewrite map_map, combine_map_self, sumf_map. apply sumf_ext_in. intros x Hx. cbn [fst snd].
  rewrite entry_mk_mat by (rewrite rhat_length, HX by assumption; assumption). ring.
Qed.

(** The factor by which the precomputed products of the solvers differ. *)
Definition hfac (r i : nat) : R := if Nat.eqb i r then 1 else / 2.
Lemma upd_one_nth r x i : (r < length x)%nat -> (i < length x)%nat -> nthR (upd x r 1) i = hfac r i * nthR (rhat r x) i.
Proof.
  intros Hr Hi. rewrite rhat_nth by assumption. unfold hfac, nthR. destruct (Nat.eqb_spec i r) as [->|Hn].
  - rewrite nth_upd_same by assumption. ring.
  - rewrite nth_upd_other by congruence. field.
Qed.
Lemma chess_pc_eq n r X Jr : X <> [] -> (forall x, In x X -> length x = n) -> (r < n)%nat -> length Jr = n ->
  cond_hess r X Jr (Some (dep_pc r X)) = Ok (mk_mat n n (fun i j => hfac r i * hfac r j * whess (fun _ => 1) r X Jr i j)).
Proof.
  intros Hne HX Hr HJ. unfold cond_hess. rewrite (shapes_ok n) by assumption. cbn [bind]. unfold dep_pc, pair_cooc_mat. rewrite !map_length, Nat.eqb_refl. cbn [negb]. f_equal.
  rewrite HJ. apply mk_mat_ext. intros i j Hi Hj. rewrite map_map, combine_map_self, sumf_map. unfold whess. rewrite <- sumf_scal_l. apply sumf_ext_in. intros x Hx. cbn [fst snd].
  rewrite entry_mk_mat by (rewrite upd_length, HX by assumption; assumption). rewrite !upd_one_nth by (rewrite HX by assumption; assumption). ring.
Qed.
Lemma cHess_pc_eq n r X Jr k : X <> [] -> (forall x, In x X -> length x = n) -> (r < n)%nat -> length Jr = n ->
  conditionalHessian r X Jr k (Some (dep_pc r X)) = Ok (mk_mat n n (fun i j => hfac r i * hfac r j * whess (filter_vec r k) r X Jr i j)).
Proof.
  intros Hne HX Hr HJ. unfold conditionalHessian. rewrite (shapes_ok n) by assumption. cbn [bind]. unfold dep_pc, pair_cooc_mat. rewrite !map_length, Nat.eqb_refl. cbn [negb]. f_equal.
  rewrite HJ. apply mk_mat_ext. intros i j Hi Hj. rewrite map_map, combine_map_self, sumf_map. unfold whess. rewrite <- sumf_scal_l. apply sumf_ext_in. intros x Hx. cbn [fst snd].
  rewrite entry_mk_mat by (rewrite upd_length, HX by assumption; assumption). rewrite !upd_one_nth by (rewrite HX by assumption; assumption). ring.
Qed.

(** ** Conditional probabilities of the matrix model *)
Lemma energy01_as_double n J y : (forall i, (i < n)%nat -> nthR y i = 0 \/ nthR y i = 1) ->
  energy01 n J y = sumf (seq 0 n) (fun i => sumf (seq 0 n) (fun j => entry J i j * (nthR y i * nthR y j))).
Proof.
  intros Hb. unfold energy01. rewrite <- sumf_plus. apply sumf_ext_in. intros i Hi. apply in_seq in Hi.
  rewrite <- (sumf_indic Nat.eq_dec (seq 0 n) i (fun j => entry J i j * nthR y j)) by (try apply seq_NoDup; apply in_seq; lia).
  rewrite <- sumf_plus. apply sumf_ext_in. intros j Hj. apply in_seq in Hj.
  destruct (Nat.eq_dec i j) as [<-|Hn].
  - rewrite Nat.eqb_refl. destruct (Nat.eq_dec i i); [|congruence]. destruct (Hb i ltac:(lia)) as [-> | ->]; ring.
  - destruct (Nat.eqb_spec i j); [congruence|]. destruct (Nat.eq_dec j i); [congruence|]. ring.
Qed.

Lemma nthR_upd x r w i : (r < length x)%nat -> nthR (upd x r w) i = if Nat.eqb i r then w else nthR x i.
Proof. intros Hr. unfold nthR. destruct (Nat.eqb_spec i r) as [->|Hn]; [now apply nth_upd_same|apply nth_upd_other; congruence]. Qed.

Lemma energy01_upd n J x r w : (r < n)%nat -> length x = n ->
  energy01 n J (upd x r w) = energy01 n J (upd x r 0) +
    w * (entry J r r + sumf (seq 0 n) (fun j => if Nat.eqb j r then 0 else (entry J r j + entry J j r) * nthR x j)).
Proof.
  intros Hr Lx. enough (E : energy01 n J (upd x r w) - energy01 n J (upd x r 0) =
    w * (entry J r r + sumf (seq 0 n) (fun j => if Nat.eqb j r then 0 else (entry J r j + entry J j r) * nthR x j))) by lra.
  assert (Ir : In r (seq 0 n)) by (apply in_seq; lia).
  unfold energy01. match goal with |- ?a + ?b - (?c + ?d) = _ => replace (a + b - (c + d)) with ((a - c) + (b - d)) by ring end.
  rewrite <- !sumf_minus.
  rewrite (sumf_ext (seq 0 n) (fun a => entry J a a * nthR (upd x r w) a - entry J a a * nthR (upd x r 0) a) (fun i => if Nat.eq_dec r i then entry J i i * w else 0)).
  2:{ intros i. rewrite !nthR_upd by lia. destruct (Nat.eq_dec r i) as [<-|]; [rewrite Nat.eqb_refl; ring|]. destruct (Nat.eqb_spec i r); [congruence|ring]. }
  rewrite sumf_indic by (try apply seq_NoDup; assumption).
  rewrite (sumf_ext (seq 0 n) _ (fun i => sumf (seq 0 n) (fun j => (if Nat.eq_dec r i then (if Nat.eqb j r then 0 else entry J r j * (w * nthR x j)) else 0)) +
                                          sumf (seq 0 n) (fun j => if Nat.eq_dec r j then (if Nat.eqb i r then 0 else entry J i r * (w * nthR x i)) else 0))).
  2:{ intros i. rewrite <- sumf_minus, <- sumf_plus. apply sumf_ext. intros j. rewrite !nthR_upd by lia.
      destruct (Nat.eqb_spec i j) as [<-|Hij].
      - destruct (Nat.eq_dec r i) as [<-|]; [rewrite Nat.eqb_refl; ring|ring].
      - destruct (Nat.eq_dec r i) as [<-|Hi].
        + rewrite Nat.eqb_refl. destruct (Nat.eqb_spec j r); [congruence|]. destruct (Nat.eq_dec r j); [congruence|ring].
        + destruct (Nat.eqb_spec i r); [congruence|]. destruct (Nat.eq_dec r j) as [<-|Hj]; [rewrite Nat.eqb_refl; ring|].
          destruct (Nat.eqb_spec j r); [congruence|ring]. }
  rewrite sumf_plus.
  rewrite (sumf_ext (seq 0 n) (fun i => sumf (seq 0 n) (fun j => if Nat.eq_dec r i then (if Nat.eqb j r then 0 else entry J r j * (w * nthR x j)) else 0))
    (fun i => if Nat.eq_dec r i then sumf (seq 0 n) (fun j => if Nat.eqb j r then 0 else entry J r j * (w * nthR x j)) else 0)).
  2:{ intros i. destruct (Nat.eq_dec r i); [reflexivity|]. apply sumf_zero. reflexivity. }
  rewrite (sumf_indic Nat.eq_dec (seq 0 n) r (fun _ => _)) by (try apply seq_NoDup; assumption).
  rewrite (sumf_ext (seq 0 n) (fun i => sumf (seq 0 n) (fun j => if Nat.eq_dec r j then (if Nat.eqb i r then 0 else entry J i r * (w * nthR x i)) else 0))
    (fun i => if Nat.eqb i r then 0 else entry J i r * (w * nthR x i))).
  2:{ intros i. now rewrite (sumf_indic Nat.eq_dec (seq 0 n) r (fun _ => _)) by (try apply seq_NoDup; assumption). }
  rewrite <- sumf_plus. rewrite Rmult_plus_distr_l, <- sumf_scal_l. f_equal; [ring|].
  apply sumf_ext. intros j. destruct (Nat.eqb j r); ring.
Qed.

(** The local field of the code is the energy of switching site r on. *)
Lemma local_field_dot n J x r : (r < n)%nat -> length x = n -> sq n J -> symm n J ->
  dot (nth r J []) (rhat r x) = entry J r r + sumf (seq 0 n) (fun j => if Nat.eqb j r then 0 else (entry J r j + entry J j r) * nthR x j).
Proof.
  intros Hr Lx HJ Hs. rewrite (dot_seq _ _ n) by (rewrite ?rhat_length; first [assumption | apply HJ; assumption]).
  rewrite <- (sumf_indic Nat.eq_dec (seq 0 n) r (fun j => entry J j j)) by (try apply seq_NoDup; apply in_seq; lia).
  rewrite <- sumf_plus. apply sumf_ext_in. intros j Hj. apply in_seq in Hj. rewrite rhat_nth by lia.
  change (nthR (nth r J []) j) with (entry J r j).
  destruct (Nat.eq_dec r j) as [<-|Hn]; [rewrite Nat.eqb_refl; ring|]. destruct (Nat.eqb_spec j r); [congruence|]. rewrite (Hs j r) by lia. ring.
Qed.

(** Model restricted to states with at least k ones: probability of the value of site r
    given all other sites. *)
Definition agree_off (r : nat) (x y : list R) : bool :=
  forallb (fun i => Nat.eqb i r || Reqb (nthR y i) (nthR x i)) (seq 0 (length x)).
Definition cond01 (n : nat) (k : Z) (J : list (list R)) (r : nat) (x : list R) : R :=
  exp (- energy01 n J x) / sumf (filter (agree_off r x) (states01 n k)) (fun y => exp (- energy01 n J y)).

Lemma agree_off_spec r x y : agree_off r x y = true <-> forall i, (i < length x)%nat -> i <> r -> nthR y i = nthR x i.
Proof.
  unfold agree_off. rewrite forallb_forall. split; intros H i Hi.
  - intros Hn. specialize (H i ltac:(apply in_seq; lia)). destruct (Nat.eqb_spec i r); [congruence|]. cbn in H. unfold Reqb in H.
    now destruct (Req_EM_T (nthR y i) (nthR x i)).
  - apply in_seq in Hi. destruct (Nat.eqb_spec i r); [reflexivity|]. cbn. unfold Reqb. destruct (Req_EM_T _ _) as [|N]; [reflexivity|]. exfalso. apply N, H; [lia|assumption].
Qed.

Lemma agreeing_states n k r x : (r < n)%nat -> length x = n -> (forall v, In v x -> v = 0 \/ v = 1) ->
  Permutation (filter (agree_off r x) (states01 n k))
              (filter (fun s => if Rle_dec (IZR k) (sumR s) then true else false) [upd x r 0; upd x r 1]).
Proof.
  intros Hr Lx Hb. apply NoDup_Permutation.
  - apply NoDup_filter, NoDup_filter, all_states_NoDup. constructor; [intros [H|[]]; lra|]. constructor; [intros []|constructor].
  - apply NoDup_filter. constructor; [|constructor; [intros []|constructor]]. intros [H|[]].
    assert (X : nthR (upd x r 1) r = nthR (upd x r 0) r) by now rewrite H. rewrite !nthR_upd, Nat.eqb_refl in X by lia. lra.
  - intros y. rewrite filter_In. unfold states01. rewrite !filter_In. rewrite all_states_spec, agree_off_spec.
    assert (Q : ((length y = n /\ (forall v, In v y -> In v [0; 1])) /\ forall i, (i < length x)%nat -> i <> r -> nthR y i = nthR x i) <-> In y [upd x r 0; upd x r 1]).
    { split.
      - intros [[Ly Hv] Ha]. assert (V : nthR y r = 0 \/ nthR y r = 1).
        { destruct (Hv (nthR y r)) as [E|[E|[]]]; [apply nth_In; lia|left|right]; congruence. }
        assert (E : y = upd x r (nthR y r)).
        { apply (list_eq_nth 0); [rewrite upd_length; congruence|]. intros i Hi. change (nthR y i = nthR (upd x r (nthR y r)) i). rewrite nthR_upd by lia.
          destruct (Nat.eqb_spec i r) as [->|]; [reflexivity|]. apply Ha; [lia|assumption]. }
        rewrite E. destruct V as [-> | ->]; [now left|right; now left].
      - intros H. assert (E : exists w, (w = 0 \/ w = 1) /\ y = upd x r w) by (destruct H as [<-|[<-|[]]]; eauto). destruct E as (w & Hw & ->).
        split; [split|].
        + now rewrite upd_length.
        + intros v Hv. apply (In_nth _ _ 0) in Hv. destruct Hv as (i & Hi & <-). rewrite upd_length in Hi. change (In (nthR (upd x r w) i) [0; 1]).
          rewrite nthR_upd by lia. destruct (Nat.eqb i r); [destruct Hw as [-> | ->]; cbn; auto|].
          destruct (Hb (nthR x i)) as [-> | ->]; [now apply nth_In|cbn; auto|cbn; auto].
        + intros i Hi Hn. rewrite nthR_upd by lia. destruct (Nat.eqb_spec i r); [congruence|reflexivity]. }
    rewrite <- Q. tauto.
Qed.

Lemma sumR_upd x r w : (r < length x)%nat -> sumR (upd x r w) = sumR x + (w - nthR x r).
Proof.
  revert r. unfold sumR. induction x as [|a x IH]; intros r Hr; [cbn in Hr; lia|]. destruct r as [|r]; cbn [upd]; rewrite !sumf_cons.
  - unfold nthR. cbn [nth]. ring.
  - rewrite IH by (cbn in Hr; lia). unfold nthR. cbn [nth]. ring.
Qed.

Lemma sumR_binary_Z x : (forall v, In v x -> v = 0 \/ v = 1) -> exists z, sumR x = IZR z.
Proof.
  unfold sumR. induction x as [|a x IH]; intros H; [exists 0%Z; reflexivity|]. destruct IH as [z Hz]; [intros v Hv; apply H; now right|].
  rewrite sumf_cons, Hz. destruct (H a (or_introl eq_refl)) as [-> | ->]; [exists z; ring|exists (1 + z)%Z; now rewrite plus_IZR].
Qed.

Lemma upd_nthR_same x r w : nthR x r = w -> upd x r w = x.
Proof. intros <-. apply upd_same. Qed.

(** One term of the log likelihood. *)
Lemma cond01_value n k J r x : (r < n)%nat -> length x = n -> (forall v, In v x -> v = 0 \/ v = 1) -> sq n J -> symm n J -> IZR k <= sumR x ->
  ln (cond01 n k J r x) = - filter_vec r (IZR k) x * softplus (dep_energy r x (nth r J [])).
Proof.
  intros Hr Lx Hb HJ Hs Hk. unfold cond01. rewrite (sumf_perm _ _ _ (agreeing_states n k r x Hr Lx Hb)).
  set (L := dot (nth r J []) (rhat r x)). set (e0 := energy01 n J (upd x r 0)).
  assert (E1 : energy01 n J (upd x r 1) = e0 + L) by (unfold L; rewrite (local_field_dot n) by assumption; rewrite (energy01_upd n J x r 1) by assumption; unfold e0; ring).
  destruct (sumR_binary_Z x Hb) as [z Hz].
  assert (Hxr : nthR x r = 0 \/ nthR x r = 1) by (apply Hb, nth_In; lia).
  unfold dep_energy, sigma_tilde, filter_vec, softplus. fold L.
  assert (Pe : forall a, 0 < exp a) by apply exp_pos.
  assert (T : forall a b, ln (exp (- a) / (exp (- a) + (exp (- b) + 0))) = - ln (1 + exp (a - b))).
  { intros a b. rewrite <- ln_Rinv by (pose proof (Pe (a - b)); lra). f_equal. replace (exp (- b)) with (exp (- a) * exp (a - b)) by (rewrite <- exp_plus; f_equal; ring).
    pose proof (Pe (- a)). pose proof (Pe (a - b)). field. split; [lra|nra]. }
  destruct Hxr as [Hx|Hx].
  - (* site r is off: both values are allowed *)
    assert (EX : upd x r 0 = x) by now apply upd_nthR_same.
    rewrite EX. cbn [filter]. destruct (Rle_dec (IZR k) (sumR x)) as [_|N]; [|contradiction].
    destruct (Rle_dec (IZR k) (sumR (upd x r 1))) as [_|N]; [|exfalso; apply N; rewrite sumR_upd, Hx by lia; lra].
    rewrite !sumf_cons, sumf_nil, E1. fold e0. replace (energy01 n J x) with e0 by (unfold e0; now rewrite EX).
    rewrite T, Hx. replace (e0 - (e0 + L)) with (- L) by ring. replace ((2 * 0 - 1) * L) with (- L) by ring. ring.
  - assert (EX : upd x r 1 = x) by now apply upd_nthR_same.
    assert (EN : energy01 n J x = e0 + L) by (now rewrite <- E1, EX). rewrite EX, EN. cbn [filter].
    destruct (Rle_dec (IZR k) (sumR x)) as [_|N]; [|contradiction]. rewrite Hx. replace ((2 * 1 - 1) * L) with L by ring.
    rewrite sumR_upd, Hx by lia. rewrite Hz. replace (IZR z + (0 - 1)) with (IZR (z - 1)) by (rewrite minus_IZR; ring).
    destruct (Rle_dec (IZR z) (IZR k)) as [Hle|Hgt].
    + destruct (Rle_dec (IZR k) (IZR (z - 1))) as [Hc|_]; [exfalso; apply le_IZR in Hc, Hle; lia|].
      rewrite sumf_cons, sumf_nil, EN. replace (exp (- (e0 + L)) / (exp (- (e0 + L)) + 0)) with 1 by (pose proof (Pe (- (e0 + L))); field; lra).
      rewrite ln_1. ring.
    + destruct (Rle_dec (IZR k) (IZR (z - 1))) as [_|Hc]; [|exfalso; apply Rnot_le_lt in Hc, Hgt; apply lt_IZR in Hc, Hgt; lia].
      rewrite !sumf_cons, sumf_nil. fold e0. rewrite EN. replace (exp (- e0) + (exp (- (e0 + L)) + 0)) with (exp (- (e0 + L)) + (exp (- e0) + 0)) by ring.
      rewrite T. replace (e0 + L - e0) with L by ring. ring.
Qed.
