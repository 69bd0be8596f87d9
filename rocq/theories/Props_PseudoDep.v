(** * Property C77: deprecated pseudolikelihood solver. *)
From Coquelicot Require Import Coquelicot.
From Verif Require Import Prelude PreludeFacts Spec Spec2 M_Params M_Cluster M_PseudoDep P_Energy P_Energy2 P_Params P_MPF P_Pseudo P_MeanField P_Cluster4 P_Cluster5 P_RMF2 P_PseudoDep Props_RMF2 P_MeanField2.
Import ListNotations.
Local Open Scope R_scope.

(** ** The objective *)
(** With at least k participants in every sample: the value is the log probability of
    column r given the other columns, in the model restricted to states with at least k
    ones. *)
Theorem C77_conditional_likelihood : forall (n : nat) (J : list (list R)) (r : nat) (X : list (list R)) (k : Z),
  (r < n)%nat -> sq n J -> symm n J -> X <> [] -> binary n X -> (forall x, In x X -> IZR k <= sumR x) ->
  conditionalLogLikelihood r X (nth r J []) (IZR k) = Ok (sumf X (fun x => ln (cond01 n k J r x))).
Proof.
  intros n J r X k Hr HJ Hs Hne HX Hk. rewrite (cLL_eq n) by (try assumption; try (intros x Hx; now apply HX); now apply HJ).
  f_equal. unfold wobj. rewrite <- sumf_opp. apply sumf_ext_in. intros x Hx. destruct (HX x Hx) as [L V].
  rewrite (cond01_value n k J r x) by auto. ring.
Qed.
Print Assumptions C77_conditional_likelihood.

(** The method of the class: no restriction on the number of ones (k = 0), and the two
    implementations agree. *)
Theorem C77_class_likelihood : forall (n : nat) (J : list (list R)) (r : nat) (X : list (list R)),
  (r < n)%nat -> sq n J -> symm n J -> X <> [] -> binary n X ->
  cond_log_likelihood r X (nth r J []) = Ok (sumf X (fun x => ln (cond_prob (energy01 n J) [0; 1] x r (nthR x r)))) /\
  cond_log_likelihood r X (nth r J []) = conditionalLogLikelihood r X (nth r J []) 0.
Proof.
  intros n J r X Hr HJ Hs Hne HX. assert (P0 : forall x, In x X -> 0 <= sumR x).
  { intros x Hx. apply sumf_nonneg. intros v Hv. destruct (HX x Hx) as [_ V]. destruct (V v Hv); lra. }
  assert (E : cond_log_likelihood r X (nth r J []) = conditionalLogLikelihood r X (nth r J []) 0).
  { rewrite (cll_eq n), (cLL_eq n) by (try assumption; try (intros x Hx; now apply HX); now apply HJ). f_equal. f_equal. unfold wobj. apply sumf_ext_in. intros x Hx. f_equal.
    unfold filter_vec. destruct (Rle_dec (sumR x) 0) as [H|]; [|ring]. assert (Z : sumR x = 0) by (pose proof (P0 x Hx); lra).
    destruct (HX x Hx) as [L V]. unfold sumR in Z. assert (nthR x r = 0); [|lra].
    apply (sumf_nonneg_zero x (fun v => v)); [intros v Hv; destruct (V v Hv); lra|exact Z|apply nth_In; lia]. }
  split; [|exact E]. rewrite E. change 0 with (IZR 0). rewrite (C77_conditional_likelihood n J r X 0%Z) by auto. f_equal. apply sumf_ext_in. intros x Hx. f_equal.
  destruct (HX x Hx) as [L V]. unfold cond01, cond_prob. rewrite upd_nthR_same by reflexivity. f_equal.
  rewrite (sumf_perm _ _ _ (agreeing_states n 0 r x Hr L V)).
  assert (Q : forall w, w = 0 \/ w = 1 -> 0 <= sumR (upd x r w)).
  { intros w Hw. apply sumf_nonneg. intros v Hv. apply (In_nth _ _ 0) in Hv. destruct Hv as (i & Hi & <-). rewrite upd_length in Hi. change (0 <= nthR (upd x r w) i).
    rewrite nthR_upd by lia. destruct (Nat.eqb i r); [lra|]. destruct (V (nthR x i)) as [-> | ->]; [now apply nth_In|lra|lra]. }
  cbn [filter]. destruct (Rle_dec 0 (sumR (upd x r 0))) as [_|N]; [|exfalso; apply N, Q; auto].
  destruct (Rle_dec 0 (sumR (upd x r 1))) as [_|N]; [|exfalso; apply N, Q; auto]. now rewrite !sumf_cons.
Qed.
Print Assumptions C77_class_likelihood.

(** ** Derivatives *)
(** The Jacobian is the gradient of minus the log likelihood (both implementations), for
    real data of any kind. *)
Theorem C77_gradient : forall (n r : nat) (X : list (list R)) (Jr : list R) (k : R),
  (r < n)%nat -> X <> [] -> (forall x, In x X -> length x = n) -> length Jr = n ->
  exists g g', cond_jac r X Jr = Ok g /\ conditionalJacobian r X Jr k = Ok g' /\ length g = n /\ length g' = n /\
    forall i, (i < n)%nat ->
      is_derive (fun t => match cond_log_likelihood r X (upd Jr i t) with Ok l => - l | Err _ => 0 end) (nthR Jr i) (nthR g i) /\
      is_derive (fun t => match conditionalLogLikelihood r X (upd Jr i t) k with Ok l => - l | Err _ => 0 end) (nthR Jr i) (nthR g' i).
Proof.
  intros n r X Jr k Hr Hne HX HJ. exists (map (wjac (fun _ => 1) r X Jr) (seq 0 n)), (map (wjac (filter_vec r k) r X Jr) (seq 0 n)).
  split; [now apply cjac_eq|]. split; [now apply cJac_eq|]. rewrite !map_length, seq_length. split; [reflexivity|]. split; [reflexivity|].
  intros i Hi. unfold nthR at 2 4. rewrite !nth_map_seq by assumption. split.
  - apply (is_derive_ext (fun t => wobj (fun _ => 1) r X (upd Jr i t))); [|now apply (wobj_derive (fun _ => 1) n)].
    intros t. rewrite (cll_eq n) by (rewrite ?upd_length; auto). symmetry. apply Ropp_involutive.
  - apply (is_derive_ext (fun t => wobj (filter_vec r k) r X (upd Jr i t))); [|now apply (wobj_derive (filter_vec r k) n)].
    intros t. rewrite (cLL_eq n) by (rewrite ?upd_length; auto). symmetry. apply Ropp_involutive.
Qed.
Print Assumptions C77_gradient.

(** The documentation says the Jacobian is the derivative of the log likelihood itself:
    it has the opposite sign. *)
Theorem C77_documented_sign_refuted : exists r X Jr i g d,
  cond_jac r X Jr = Ok g /\ is_derive (fun t => match cond_log_likelihood r X (upd Jr i t) with Ok l => l | Err _ => 0 end) (nthR Jr i) d /\ nthR g i <> d.
Proof.
  destruct (C77_gradient 1 0 [[1]] [0] 0 ltac:(lia) ltac:(discriminate) ltac:(intros x [<-|[]]; reflexivity) eq_refl) as (g & g' & E & _ & L & _ & H).
  destruct (H 0%nat ltac:(lia)) as [D _]. exists 0%nat, [[1]], [0], 0%nat, g, (- nthR g 0). split; [exact E|]. split.
  - apply (is_derive_ext (fun t => - match cond_log_likelihood 0 [[1]] (upd [0] 0 t) with Ok l => - l | Err _ => 0 end)).
    + intros t. destruct (cond_log_likelihood 0 [[1]] (upd [0] 0 t)); [apply Ropp_involutive|apply Ropp_0].
    + apply (is_derive_opp (fun t => match cond_log_likelihood 0 [[1]] (upd [0] 0 t) with Ok l => - l | Err _ => 0 end)). exact D.
  - rewrite (cjac_eq 1) in E by (auto; try discriminate; try lia; intros x [<-|[]]; reflexivity). injection E as <-. cbn [seq map]. unfold nthR. cbn [nth].
    unfold wjac. cbn [sumf fold_right map]. unfold sumf. cbn [map fold_right]. unfold sigma_tilde, rhat, dep_energy, nthR. cbn. unfold sumf. cbn.
    set (e := exp _). assert (0 < e) by apply exp_pos. assert (0 < 1 / (1 + e)) by (apply Rdiv_lt_0_compat; lra). lra.
Qed.
Print Assumptions C77_documented_sign_refuted.

(** For data whose column r is binary the Hessian (with no precomputed products) is the
    derivative of the Jacobian. *)
Theorem C77_hessian : forall (n r : nat) (X : list (list R)) (Jr : list R) (k : R),
  (r < n)%nat -> X <> [] -> (forall x, In x X -> length x = n) -> (forall x, In x X -> nthR x r = 0 \/ nthR x r = 1) -> length Jr = n ->
  exists H H', cond_hess r X Jr None = Ok H /\ conditionalHessian r X Jr k None = Ok H' /\ sq n H /\ sq n H' /\ symm n H /\ symm n H' /\
    forall i j, (i < n)%nat -> (j < n)%nat ->
      is_derive (fun t => match cond_jac r X (upd Jr j t) with Ok g => nthR g i | Err _ => 0 end) (nthR Jr j) (entry H i j) /\
      is_derive (fun t => match conditionalJacobian r X (upd Jr j t) k with Ok g => nthR g i | Err _ => 0 end) (nthR Jr j) (entry H' i j).
Proof.
  intros n r X Jr k Hr Hne HX Hb HJ. exists (mk_mat n n (whess (fun _ => 1) r X Jr)), (mk_mat n n (whess (filter_vec r k) r X Jr)).
  split; [now apply chess_eq|]. split; [now apply cHess_eq|]. split; [apply mk_mat_sq|]. split; [apply mk_mat_sq|].
  split; [intros i j Hi Hj; rewrite !entry_mk_mat by assumption; apply sumf_ext; intros x; ring|].
  split; [intros i j Hi Hj; rewrite !entry_mk_mat by assumption; apply sumf_ext; intros x; ring|].
  intros i j Hi Hj. rewrite !entry_mk_mat by assumption. split.
  - apply (is_derive_ext (fun t => wjac (fun _ => 1) r X (upd Jr j t) i)); [|now apply (wjac_derive (fun _ => 1) n)].
    intros t. rewrite (cjac_eq n) by (rewrite ?upd_length; auto). unfold nthR. now rewrite nth_map_seq.
  - apply (is_derive_ext (fun t => wjac (filter_vec r k) r X (upd Jr j t) i)); [|now apply (wjac_derive (filter_vec r k) n)].
    intros t. rewrite (cJac_eq n) by (rewrite ?upd_length; auto). unfold nthR. now rewrite nth_map_seq.
Qed.
Print Assumptions C77_hessian.

(** The solvers pass precomputed products of undoubled data.  The Hessian given to the
    minimiser is then a quarter of the true one for two couplings, half of it for a
    coupling and the field, and right for the field only; it is wrong as soon as another
    column holds a one. *)
Theorem C77_solver_hessian_refuted : forall (n r : nat) (X : list (list R)) (Jr : list R),
  (r < n)%nat -> X <> [] -> binary n X -> length Jr = n ->
  exists H H', cond_hess r X Jr None = Ok H /\ cond_hess r X Jr (Some (dep_pc r X)) = Ok H' /\
    (forall i j, (i < n)%nat -> (j < n)%nat -> i <> r -> j <> r -> entry H' i j = entry H i j / 4) /\
    (forall i, (i < n)%nat -> i <> r -> entry H' i r = entry H i r / 2 /\ entry H' r i = entry H r i / 2) /\
    entry H' r r = entry H r r /\
    forall i, (i < n)%nat -> i <> r -> (exists x, In x X /\ nthR x i = 1) -> entry H' i i < entry H i i.
Proof.
  intros n r X Jr Hr Hne HX HJ. assert (HL : forall x, In x X -> length x = n) by (intros x Hx; now apply HX).
  exists (mk_mat n n (whess (fun _ => 1) r X Jr)), (mk_mat n n (fun i j => hfac r i * hfac r j * whess (fun _ => 1) r X Jr i j)).
  split; [now apply chess_eq|]. split; [now apply chess_pc_eq|]. unfold hfac.
  assert (F : forall i, i <> r -> Nat.eqb i r = false) by (intros i Hi; now apply Nat.eqb_neq).
  split; [|split; [|split]].
  - intros i j Hi Hj Hir Hjr. rewrite !entry_mk_mat, !F by assumption. field.
  - intros i Hi Hir. rewrite !entry_mk_mat by assumption. rewrite Nat.eqb_refl, (F i Hir). split; field.
  - rewrite !entry_mk_mat by assumption. rewrite Nat.eqb_refl. ring.
  - intros i Hi Hir (x & Hx & Hxi). rewrite !entry_mk_mat by assumption. rewrite (F i Hir).
    assert (T : forall y, In y X -> 0 <= 1 * (exp (- dep_energy r y Jr) / (1 + exp (- dep_energy r y Jr)) ^ 2 * (nthR (rhat r y) i * nthR (rhat r y) i))).
    { intros y _. pose proof (exp_pos (- dep_energy r y Jr)). rewrite Rmult_1_l. apply Rmult_le_pos; [|nra]. apply Rlt_le, Rdiv_lt_0_compat; [lra|]. apply pow_lt. lra. }
    assert (P : 0 < whess (fun _ => 1) r X Jr i i).
    { unfold whess. eapply Rlt_le_trans; [|apply (sumf_in_le X _ x T Hx)]. cbv beta. rewrite rhat_nth, (F i Hir), Hxi by (rewrite HL by assumption; assumption).
      pose proof (exp_pos (- dep_energy r x Jr)). rewrite Rmult_1_l. apply Rmult_lt_0_compat; [|lra]. apply Rdiv_lt_0_compat; [lra|]. apply pow_lt. lra. }
    lra.
Qed.
Print Assumptions C77_solver_hessian_refuted.

(** The same for the module function. *)
Theorem C77_module_solver_hessian_refuted : forall (n r : nat) (X : list (list R)) (Jr : list R) (k : R),
  (r < n)%nat -> X <> [] -> binary n X -> length Jr = n ->
  exists H H', conditionalHessian r X Jr k None = Ok H /\ conditionalHessian r X Jr k (Some (dep_pc r X)) = Ok H' /\
    forall i j, (i < n)%nat -> (j < n)%nat ->
      entry H' i j = entry H i j * (if Nat.eqb i r then 1 else / 2) * (if Nat.eqb j r then 1 else / 2).
Proof.
  intros n r X Jr k Hr Hne HX HJ. assert (HL : forall x, In x X -> length x = n) by (intros x Hx; now apply HX).
  exists (mk_mat n n (whess (filter_vec r k) r X Jr)), (mk_mat n n (fun i j => hfac r i * hfac r j * whess (filter_vec r k) r X Jr i j)).
  split; [now apply cHess_eq|]. split; [now apply cHess_pc_eq|]. intros i j Hi Hj. rewrite !entry_mk_mat by assumption. unfold hfac. ring.
Qed.
Print Assumptions C77_module_solver_hessian_refuted.

(** ** The minimum *)
(** Wherever the Jacobian vanishes the log likelihood is maximal over all parameter
    vectors, whatever Hessian the minimiser was given. *)
Theorem C77_stationary_is_optimal : forall (n r : nat) (X : list (list R)) (k : R) (Jr : list R),
  (r < n)%nat -> X <> [] -> binary n X -> length Jr = n ->
  (forall g, cond_jac r X Jr = Ok g -> (forall i, (i < n)%nat -> nthR g i = 0) ->
     exists l, cond_log_likelihood r X Jr = Ok l /\ forall Jr', length Jr' = n -> exists l', cond_log_likelihood r X Jr' = Ok l' /\ l' <= l) /\
  (forall g, conditionalJacobian r X Jr k = Ok g -> (forall i, (i < n)%nat -> nthR g i = 0) ->
     exists l, conditionalLogLikelihood r X Jr k = Ok l /\ forall Jr', length Jr' = n -> exists l', conditionalLogLikelihood r X Jr' k = Ok l' /\ l' <= l).
Proof.
  intros n r X k Jr Hr Hne HX HJ. assert (HL : forall x, In x X -> length x = n) by (intros x Hx; now apply HX).
  assert (G : forall c, (forall x, In x X -> 0 <= c x) -> (forall i, (i < n)%nat -> wjac c r X Jr i = 0) -> forall Jr', length Jr' = n -> - wobj c r X Jr' <= - wobj c r X Jr).
  { intros c Hc Hz Jr' HJ'. pose proof (wobj_tangent c n r X Jr Jr' HL Hc HJ HJ') as T. rewrite (sumf_zero (seq 0 n)) in T; [lra|].
    intros i Hi. apply in_seq in Hi. rewrite Hz by lia. ring. }
  split; intros g E Hz.
  - rewrite (cjac_eq n) in E by assumption. injection E as <-. exists (- wobj (fun _ => 1) r X Jr). split; [now apply (cll_eq n)|]. intros Jr' HJ'.
    exists (- wobj (fun _ => 1) r X Jr'). split; [now apply (cll_eq n)|]. apply G; [intros; lra| |assumption]. intros i Hi. specialize (Hz i Hi). unfold nthR in Hz. now rewrite nth_map_seq in Hz.
  - rewrite (cJac_eq n) in E by assumption. injection E as <-. exists (- wobj (filter_vec r k) r X Jr). split; [now apply (cLL_eq n)|]. intros Jr' HJ'.
    exists (- wobj (filter_vec r k) r X Jr'). split; [now apply (cLL_eq n)|]. apply G; [|intros i Hi; specialize (Hz i Hi); unfold nthR in Hz; now rewrite nth_map_seq in Hz|assumption].
    intros x Hx. unfold filter_vec. destruct (binary_at n X x r HX Hx Hr) as [-> | ->]; destruct (Rle_dec _ _); lra.
Qed.
Print Assumptions C77_stationary_is_optimal.

(** The start is the independent model: the field component of the gradient vanishes
    there. *)
Theorem C77_start : forall (n r : nat) (X : list (list R)), (r < n)%nat -> X <> [] -> binary n X ->
  (exists x, In x X /\ nthR x r = 0) -> (exists x, In x X /\ nthR x r = 1) ->
  length (dep_start r X) = n /\ (forall i, (i < n)%nat -> i <> r -> nthR (dep_start r X) i = 0) /\
  exists g, cond_jac r X (dep_start r X) = Ok g /\ nthR g r = 0.
Proof.
  intros n r X Hr Hne HX (x0 & Hx0 & V0) (x1 & Hx1 & V1). assert (HL : forall x, In x X -> length x = n) by (intros x Hx; now apply HX).
  assert (L0 : length (nth 0 X []) = n) by (apply HL, nth_In; destruct X; [congruence|cbn; lia]).
  unfold dep_start. rewrite L0. set (N := INR (length X)). set (s := sumf X (fun x => nthR x r)). set (f := s / N).
  assert (LJ : length (upd (repeat 0 n) r (- ln (f / (1 - f)))) = n) by (rewrite upd_length; apply repeat_length).
  split; [exact LJ|]. split.
  - intros i Hi Hn. rewrite nthR_upd by (rewrite repeat_length; lia). destruct (Nat.eqb_spec i r); [congruence|]. unfold nthR. apply nth_repeat.
  - eexists. split; [apply (cjac_eq n); assumption|]. unfold nthR. rewrite nth_map_seq by assumption.
    assert (NP : 0 < N) by (apply lt_0_INR; destruct X; [congruence|cbn; lia]).
    assert (B : forall x, In x X -> nthR x r = 0 \/ nthR x r = 1) by (intros x Hx; now apply (binary_at n X)).
    assert (S1 : 1 <= s). { unfold s. eapply Rle_trans; [|apply (sumf_in_le X (fun x => nthR x r) x1)]; [rewrite V1; lra|intros y Hy; destruct (B y Hy); lra|assumption]. }
    assert (S2 : 1 <= N - s).
    { unfold s, N. replace (INR (length X)) with (sumf X (fun _ => 1)) by (rewrite sumf_const; ring). rewrite <- sumf_minus.
      eapply Rle_trans; [|apply (sumf_in_le X (fun x => 1 - nthR x r) x0)]; [rewrite V0; lra|intros y Hy; destruct (B y Hy); lra|assumption]. }
    assert (F : 0 < f < 1).
    { unfold f. split; [apply Rdiv_lt_0_compat; lra|]. apply (Rmult_lt_reg_r N); [assumption|]. unfold Rdiv. rewrite Rmult_assoc, Rinv_l by lra. lra. }
    assert (Q : 0 < f / (1 - f)) by (apply Rdiv_lt_0_compat; lra).
    set (h := - ln (f / (1 - f))). assert (Eh : exp (- h) = f / (1 - f)) by (unfold h; rewrite Ropp_involutive; now apply exp_ln).
    assert (Eh' : exp h = (1 - f) / f) by (unfold h; rewrite exp_Ropp, exp_ln by assumption; field; lra).
    unfold wjac. rewrite (sumf_ext_in X _ (fun x => (1 - f) * nthR x r - f * (1 - nthR x r))).
    + rewrite sumf_minus, !sumf_scal_l, sumf_minus, sumf_const. fold s N. unfold f. field. lra.
    + intros x Hx. rewrite rhat_nth, Nat.eqb_refl by (rewrite HL by assumption; assumption). unfold dep_energy.
      assert (D : dot (upd (repeat 0 n) r h) (rhat r x) = h).
      { rewrite dot_comm, dot_upd by (rewrite ?rhat_length, ?repeat_length, ?HL by assumption; auto). rewrite rhat_nth, Nat.eqb_refl by (rewrite HL by assumption; assumption).
        rewrite (dot_seq _ _ n) by (rewrite ?rhat_length, ?repeat_length; auto). rewrite (sumf_zero (seq 0 n)); [unfold nthR; rewrite nth_repeat; ring|].
        intros i _. unfold nthR. rewrite nth_repeat. ring. }
      rewrite D. unfold sigma_tilde. destruct (B x Hx) as [-> | ->].
      * replace (- ((2 * 0 - 1) * h)) with h by ring. rewrite Eh'. field. lra.
      * replace (- ((2 * 1 - 1) * h)) with (- h) by ring. rewrite Eh. field. lra.
Qed.
Print Assumptions C77_start.

(** ** The returned parameters *)
(** If the minimiser returns the rows J, the solver returns the parameters of the model
    of J in the -1,1 basis: every state has the same energy up to one constant.  This
    holds without any assumption on the symmetry of J. *)
Theorem C77_returned_model : forall fmin_ncg (sample J : list (list R)) (n : nat), (1 <= n)%nat -> length (nth 0 sample []) = n ->
  dep_rows fmin_ncg (map (map (fun v => (v + 1) / 2)) sample) = Ok J ->
  exists mult, solve_ising_deprecated fmin_ncg sample = Ok mult /\ length mult = (n + n * (n - 1) / 2)%nat /\
    exists c, forall y, length y = n -> ising_energy n mult (map (fun x => 2 * x - 1) y) = energy01 n J y + c.
Proof.
  intros fmin_ncg sample J n Hn Hl HJ. unfold solve_ising_deprecated. rewrite HJ. cbn [bind].
  assert (El : length (nth 0 (map (map (fun v => (v + 1) / 2)) sample) []) = n).
  { change (@nil R) with (map (fun v : R => (v + 1) / 2) []) at 1. rewrite map_nth, map_length. exact Hl. }
  rewrite El. set (J2 := mk_mat n n (fun i j => / 2 * (entry J i j + entry J j i))).
  assert (S2 : symm n J2) by (intros i j Hi Hj; unfold J2; rewrite !entry_mk_mat by assumption; ring).
  destruct (to_multipliers_ok n J2 Hn (mk_mat_sq n _) S2) as (mult & E & L & c & Hc).
  assert (E2 : to_multipliers J2 = bind (zero_diag (mk_mat n n (fun i j => - / 2 * (entry J i j + entry J j i)))) (fun Z => bind (squareform_mat Z) (fun v =>
     bind (convert_params (map (fun i => entry (mk_mat n n (fun i j => - / 2 * (entry J i j + entry J j i))) i i) (range n)) (map (fun x => x * 2) v) To11) (fun p => Ok (fst p ++ snd p))))).
  { unfold to_multipliers. assert (LJ2 : length J2 = n) by apply mk_mat_length. rewrite LJ2. unfold J2 at 1. rewrite !zero_diag_mk. cbn [bind]. rewrite map_neg_mk.
    replace (mk_mat n n (fun i j => - (if Nat.eqb i j then 0 else / 2 * (entry J i j + entry J j i))))
      with (mk_mat n n (fun i j => if Nat.eqb i j then 0 else - / 2 * (entry J i j + entry J j i))) by (apply mk_mat_ext; intros i j _ _; destruct (Nat.eqb i j); ring).
    replace (map (fun i => - entry J2 i i) (range n)) with (map (fun i => entry (mk_mat n n (fun i j => - / 2 * (entry J i j + entry J j i))) i i) (range n)); [reflexivity|].
    apply map_ext_in. intros i Hi. apply in_seq in Hi. unfold J2. rewrite !entry_mk_mat by lia. ring. }
  rewrite <- E2. exists mult. split; [exact E|]. split; [exact L|]. exists c. intros y Hy. rewrite Hc by assumption. f_equal. apply energy01_sym.
  intros i j Hi Hj. unfold J2. rewrite !entry_mk_mat by assumption. field.
Qed.
Print Assumptions C77_returned_model.

(** The minimiser either returns a point at which the objective is smallest or a point at which the
    gradient it was given vanishes. *)
Definition finds_minimum (fmin_ncg : ncg_oracle) : Prop := forall f x0 g h x, fmin_ncg f x0 g h = Ok x ->
  length x = length x0 /\
  ((exists v, f x = Ok v /\ forall y v', length y = length x0 -> f y = Ok v' -> v <= v') \/
   (exists v, g x = Ok v /\ forall i, (i < length x0)%nat -> nthR v i = 0)).

Lemma mapM_nth {A} (f : nat -> result A) d n : forall a J, mapM f (seq a n) = Ok J -> length J = n /\ forall r, (r < n)%nat -> f (a + r)%nat = Ok (nth r J d).
Proof.
  induction n as [|n IH]; intros a J H; cbn [seq mapM] in H; [injection H as <-; split; [reflexivity|intros; lia]|].
  destruct (f a) as [v|] eqn:E; [|discriminate]. cbn [bind] in H. destruct (mapM f (seq (S a) n)) as [J'|] eqn:E'; [|discriminate]. cbn [bind] in H. injection H as <-.
  destruct (IH (S a) J' E') as [L G]. split; [cbn; now rewrite L|]. intros [|r] Hr; cbn [nth]; [now rewrite Nat.add_0_r|]. rewrite <- (G r) by lia. f_equal. lia.
Qed.

(** With such a minimiser every row the class method finds maximises the conditional likelihood of
    its column. *)
Theorem C77_class_rows : forall fmin_ncg (X J : list (list R)) (n : nat), finds_minimum fmin_ncg -> X <> [] -> binary n X ->
  dep_rows fmin_ncg X = Ok J ->
  length J = n /\ forall r, (r < n)%nat -> length (nth r J []) = n /\
    exists l, cond_log_likelihood r X (nth r J []) = Ok l /\
      forall Jr, length Jr = n -> exists l', cond_log_likelihood r X Jr = Ok l' /\ l' <= l.
Proof.
  intros fmin_ncg X J n Hf Hne HX H. assert (HL : forall x, In x X -> length x = n) by (intros x Hx; now apply HX).
  assert (En : length (nth 0 X []) = n) by (destruct X as [|x X]; [congruence|]; apply HL; now left).
  unfold dep_rows in H. rewrite En in H. apply (mapM_nth _ []) in H. destruct H as [LJ G]. split; [exact LJ|]. intros r Hr. specialize (G r Hr). rewrite Nat.add_0_l in G.
  apply Hf in G. assert (L0 : length (dep_start r X) = n) by (unfold dep_start; rewrite upd_length, repeat_length; exact En). rewrite L0 in G. destruct G as [Lr G]. split; [exact Lr|].
  destruct G as [(v & Ev & Hv)|(v & Ev & Hv)].
  - rewrite (cll_eq n) in Ev by assumption. cbn [bind] in Ev. injection Ev as <-. eexists. split; [now apply (cll_eq n)|]. intros Jr HJr. eexists. split; [now apply (cll_eq n)|].
    assert (Hv' := fun v' => Hv Jr v' HJr). rewrite (cll_eq n) in Hv' by assumption. cbn [bind] in Hv'. specialize (Hv' _ eq_refl). lra.
  - exact (proj1 (C77_stationary_is_optimal n r X 0 (nth r J []) Hr Hne HX Lr) v Ev Hv).
Qed.
Print Assumptions C77_class_rows.

(** The module function: samples with fewer than minSize ones are dropped; the result is
    symmetric and gives every state the energy of the rows found; no sample left raises
    IndexError. *)
Theorem C77_module_result : forall fmin_ncg (samples : list (list R)) (minSize : R) (Jf : list (list R)),
  pseudoInverseIsing fmin_ncg samples minSize = Ok Jf ->
  exists data J, (forall x, In x data <-> In x samples /\ minSize <= sumR x) /\ data <> [] /\
    let n := length (nth 0 data []) in
    mapM (fun r => fmin_ncg (fun Jr => bind (conditionalLogLikelihood r data Jr minSize) (fun l => Ok (- l))) (dep_start r data)
               (fun Jr => conditionalJacobian r data Jr minSize)
               (fun Jr => conditionalHessian r data Jr minSize (Some (dep_pc r data)))) (range n) = Ok J /\
    sq n Jf /\ symm n Jf /\ forall y, energy01 n Jf y = energy01 n J y.
Proof.
  intros fmin_ncg samples minSize Jf H. unfold pseudoInverseIsing in H. set (data := filter _ samples) in *.
  assert (HD : forall x, In x data <-> In x samples /\ minSize <= sumR x).
  { intros x. unfold data. rewrite filter_In. destruct (Rle_dec minSize (sumR x)); intuition congruence. }
  exists data. destruct data as [|x0 data'] eqn:ED; [discriminate|].
  destruct (mapM _ (range (length x0))) as [J|] eqn:EJ in H; [|discriminate]. cbn [bind] in H. injection H as <-.
  exists J. split; [exact HD|]. split; [discriminate|]. cbn [nth]. split; [exact EJ|]. split; [apply mk_mat_sq|]. split.
  - intros i j Hi Hj. rewrite !entry_mk_mat by assumption. ring.
  - intros y. apply energy01_sym. intros i j Hi Hj. rewrite !entry_mk_mat by assumption. field.
Qed.
Print Assumptions C77_module_result.
Theorem C77_no_data : forall fmin_ncg samples minSize, (forall x, In x samples -> sumR x < minSize) ->
  pseudoInverseIsing fmin_ncg samples minSize = Err IndexError.
Proof.
  intros fmin_ncg samples minSize H. unfold pseudoInverseIsing. replace (filter _ samples) with (@nil (list R)); [reflexivity|]. symmetry.
  induction samples as [|x l IH]; [reflexivity|]. cbn [filter]. destruct (Rle_dec minSize (sumR x)) as [Hle|]; [specialize (H x (or_introl eq_refl)); lra|].
  apply IH. intros y Hy. apply H. now right.
Qed.
Print Assumptions C77_no_data.

(** ** The total log likelihood *)
(** The method of the class always raises NameError. *)
Theorem C77_class_total_refuted : forall X J, J <> [] -> pseudo_log_likelihood X J = Err NameError.
Proof. intros X [|r J] H; [congruence|reflexivity]. Qed.
Print Assumptions C77_class_total_refuted.

Lemma mapM_Ok_map {A B} (f : A -> result B) (h : A -> B) l : (forall a, In a l -> f a = Ok (h a)) -> mapM f l = Ok (map h l).
Proof. induction l as [|a l IH]; intros H; [reflexivity|]. cbn [mapM map]. rewrite H by now left. cbn [bind]. rewrite IH; [reflexivity|]. intros b Hb. apply H. now right. Qed.

(** The module function adds the likelihood of every column under every row of the
    matrix: n times too many terms.  The documented value is the sum over r of the
    likelihood of column r under row r. *)
Theorem C77_module_total_refuted : forall (n : nat) (X J : list (list R)) (k : R), sq n J -> X <> [] -> (forall x, In x X -> length x = n) ->
  exists ll, (forall r q, (r < n)%nat -> (q < n)%nat -> conditionalLogLikelihood r X (nth q J []) k = Ok (ll r q)) /\
    pseudoLogLikelihood X J k = Ok (sumf (seq 0 n) (fun r => sumf (seq 0 n) (fun q => ll r q))) /\
    (* all parameters zero, no restriction: n times the documented value *)
    ((2 <= n)%nat -> k < 0 -> binary n X -> (forall i j, (i < n)%nat -> (j < n)%nat -> entry J i j = 0) ->
     pseudoLogLikelihood X J k = Ok (INR n * sumf (seq 0 n) (fun r => ll r r)) /\
     pseudoLogLikelihood X J k <> Ok (sumf (seq 0 n) (fun r => ll r r))).
Proof.
  intros n X J k HJ Hne HX. set (ll := fun r q => - wobj (filter_vec r k) r X (nth q J [])). exists ll.
  assert (LL : forall r q, (r < n)%nat -> (q < n)%nat -> conditionalLogLikelihood r X (nth q J []) k = Ok (ll r q)) by (intros r q Hr Hq; apply (cLL_eq n); auto; now apply HJ).
  assert (E : pseudoLogLikelihood X J k = Ok (sumf (seq 0 n) (fun r => sumf (seq 0 n) (fun q => ll r q)))).
  { unfold pseudoLogLikelihood. rewrite (proj1 HJ). rewrite (mapM_Ok_map _ (fun r => sumf (seq 0 n) (fun q => ll r q))).
    - cbn [bind]. now rewrite sumR_map.
    - intros r Hr. apply in_seq in Hr. unfold conditionalLogLikelihood_mat.
      assert (EJ : J = map (fun q => nth q J []) (seq 0 n)).
      { apply (list_eq_nth []); [rewrite map_length, seq_length; apply HJ|]. intros i Hi. now rewrite nth_map_seq by (rewrite (proj1 HJ) in Hi; exact Hi). }
      rewrite EJ at 1. rewrite (mapM_Ok_map _ (fun v => - wobj (filter_vec r k) r X v)).
      + cbn [bind]. rewrite sumR_map, sumf_map. reflexivity.
      + intros v Hv. apply in_map_iff in Hv. destruct Hv as (q & <- & Hq). apply in_seq in Hq. apply LL; lia. }
  split; [exact LL|]. split; [exact E|]. intros Hn Hk HB HZ.
  assert (V : forall r q, (r < n)%nat -> (q < n)%nat -> ll r q = - (INR (length X) * ln 2)).
  { intros r q Hr Hq. unfold ll, wobj. f_equal. rewrite (sumf_ext_in X _ (fun _ => ln 2)); [apply sumf_const|]. intros x Hx.
    assert (D : dot (nth q J []) (rhat r x) = 0).
    { rewrite (dot_seq _ _ n) by (rewrite ?rhat_length; first [now apply HX | now apply HJ]). apply sumf_zero. intros i Hi. apply in_seq in Hi.
      change (nthR (nth q J []) i) with (entry J q i). rewrite HZ by lia. ring. }
    unfold dep_energy. rewrite D, Rmult_0_r. unfold softplus. rewrite exp_0. unfold filter_vec.
    destruct (Rle_dec (sumR x) k) as [Hle|_]; [|replace (1 + 1) with 2 by ring; ring].
    exfalso. assert (0 <= sumR x); [|lra]. apply sumf_nonneg. intros v Hv. destruct (HB x Hx) as [_ B]. destruct (B v Hv); lra. }
  set (a := - (INR (length X) * ln 2)). assert (NP : 0 < INR (length X)) by (apply lt_0_INR; destruct X; [congruence|cbn; lia]).
  assert (L2 : 0 < ln 2) by (rewrite <- ln_1; apply ln_increasing; lra). assert (A : a < 0) by (unfold a; nra).
  assert (D1 : sumf (seq 0 n) (fun r => ll r r) = INR n * a).
  { rewrite (sumf_ext_in _ _ (fun _ => a)) by (intros r Hr; apply in_seq in Hr; apply V; lia). now rewrite sumf_const, seq_length. }
  assert (D2 : sumf (seq 0 n) (fun r => sumf (seq 0 n) (fun q => ll r q)) = INR n * (INR n * a)).
  { rewrite (sumf_ext_in _ _ (fun _ => INR n * a)); [now rewrite sumf_const, seq_length|]. intros r Hr. apply in_seq in Hr.
    rewrite (sumf_ext_in _ _ (fun _ => a)) by (intros q Hq; apply in_seq in Hq; apply V; lia). now rewrite sumf_const, seq_length. }
  rewrite E, D1, D2. split; [reflexivity|]. intros X0. injection X0 as X0. assert (2 <= INR n) by (replace 2 with (INR 2) by (cbn; ring); now apply le_INR). assert (INR n * a < 0) by nra. nra.
Qed.
Print Assumptions C77_module_total_refuted.

(** ** A concrete case *)
Example C77_example : binary 2 [[1; 1]; [1; 0]] /\ (forall x, In x [[1; 1]; [1; 0]] -> IZR 1 <= sumR x) /\
  sq 2 [[1; 2]; [2; 3]] /\ symm 2 [[1; 2]; [2; 3]] /\
  (* the sample 1,0 could not have a zero in its first column *)
  conditionalLogLikelihood 0 [[1; 1]; [1; 0]] [1; 2] (IZR 1) = Ok (- ln (1 + exp 5)).
Proof.
  assert (B : binary 2 [[1; 1]; [1; 0]]) by (intros x [<-|[<-|[]]]; split; try reflexivity; intros v [<-|[<-|[]]]; auto).
  split; [exact B|]. split; [intros x [<-|[<-|[]]]; unfold sumR, sumf; cbn; lra|].
  split; [split; [reflexivity|]; intros i Hi; destruct i as [|[|i]]; [reflexivity|reflexivity|lia]|].
  split; [intros i j Hi Hj; destruct i as [|[|i]], j as [|[|j]]; try lia; reflexivity|].
  rewrite (cLL_eq 2); auto; [|discriminate|intros x Hx; now apply B]. f_equal. unfold wobj. rewrite !sumf_cons, sumf_nil. unfold filter_vec, dep_energy, sigma_tilde, softplus, sumR, sumf, dot, rhat, nthR, sumf. cbn.
  destruct (Rle_dec (1 + (1 + 0)) 1); [lra|]. destruct (Rle_dec (1 + (0 + 0)) 1); [|lra].
  replace ((2 * 1 - 1) * (1 * 1 + (2 * (2 * 1) + 0))) with 5 by ring. ring.
Qed.

(** A minimiser that keeps the start if the gradient vanishes there and fails otherwise; on all four
    states of two spins it keeps it. *)
Definition keep_start : ncg_oracle := fun f x0 g h =>
  match g x0 with
  | Ok v => if Forall_dec (fun x => x = 0) (fun x => Req_EM_T x 0) v then Ok x0 else Err OutOfFuel
  | Err e => Err e end.
Example C77_rows_example : finds_minimum keep_start /\ binary 2 [[0; 0]; [0; 1]; [1; 0]; [1; 1]] /\
  dep_rows keep_start [[0; 0]; [0; 1]; [1; 0]; [1; 1]] = Ok [[0; 0]; [0; 0]].
Proof.
  split; [|split].
  - intros f x0 g h x. unfold keep_start. destruct (g x0) as [v|] eqn:E; [|discriminate]. destruct (Forall_dec _ _ v) as [F|]; [|discriminate]. intros H. injection H as <-.
    split; [reflexivity|]. right. exists v. split; [exact E|]. intros i _. unfold nthR. destruct (nth_in_or_default i v 0) as [Hi| ->]; [|reflexivity]. rewrite Forall_forall in F. now apply F.
  - intros x [<-|[<-|[<-|[<-|[]]]]]; (split; [reflexivity|]); intros v [<-|[<-|[]]]; auto.
  - set (X := [[0; 0]; [0; 1]; [1; 0]; [1; 1]]). assert (S : forall r, (r < 2)%nat -> dep_start r X = [0; 0]).
    { intros r Hr. assert (F : forall r, (r < 2)%nat -> - ln (sumf X (fun x => nthR x r) / INR (length X) / (1 - sumf X (fun x => nthR x r) / INR (length X))) = 0).
      { intros q Hq. replace (sumf X (fun x => nthR x q)) with 2 by (destruct q as [|[|q]]; [| |lia]; unfold sumf, nthR; cbn; ring). cbn [length X INR]. replace (2 / (1 + 1 + 1 + 1) / (1 - 2 / (1 + 1 + 1 + 1))) with 1 by field. rewrite ln_1. ring. }
      unfold dep_start. rewrite F by exact Hr. destruct r as [|[|r]]; [reflexivity|reflexivity|lia]. }
    unfold dep_rows. cbn [length nth X range seq mapM]. fold X. unfold keep_start. rewrite !S by lia.
    assert (G : forall r, (r < 2)%nat -> exists v, cond_jac r X [0; 0] = Ok v /\ Forall (fun x => x = 0) v).
    { intros r Hr. eexists. split; [apply (cjac_eq 2); first [exact Hr|discriminate|reflexivity|intros x [<-|[<-|[<-|[<-|[]]]]]; reflexivity]|].
      apply Forall_forall. intros v Hv. apply in_map_iff in Hv. destruct Hv as (i & <- & Hi). apply in_seq in Hi. unfold wjac, X. rewrite !sumf_cons, sumf_nil.
      assert (D : forall x, length x = 2%nat -> exp (- dep_energy r x [0; 0]) = 1).
      { intros x Hx. unfold dep_energy. destruct x as [|a [|b [|c x]]]; try discriminate. unfold dot, rhat, sumf. cbn. rewrite <- exp_0. f_equal. destruct r as [|[|r]]; cbn; ring. }
      rewrite !D by reflexivity. destruct r as [|[|r]]; [| |lia]; (destruct i as [|[|i]]; [| |lia]); unfold sigma_tilde, rhat, nthR; cbn; field. }
    destruct (G 0%nat ltac:(lia)) as (v0 & -> & F0). destruct (G 1%nat ltac:(lia)) as (v1 & -> & F1).
    destruct (Forall_dec _ _ v0); [|contradiction]. destruct (Forall_dec _ _ v1); [|contradiction]. reflexivity.
Qed.
