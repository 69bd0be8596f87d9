(** * Properties of the pseudolikelihood solver (Ising). *)
From Coquelicot Require Import Coquelicot.
From Coq Require ClassicalEpsilon.
From Verif Require Import Prelude Spec PreludeFacts M_Index M_Params M_Energy M_Corr M_Pseudo P_Index P_Unravel P_Energy P_Energy2 P_Params P_Unique P_MPF P_MaxEnt P_Corr2 P_Pseudo P_Pseudo2 Props_Energy P_Pseudo3.
Import ListNotations.
Local Open Scope R_scope.

(** Specification: minus the log-likelihood of spin r given the other spins, summed over
    the data. *)
Definition neg_log_pl (n : nat) (p : list R) (sample : list (list R)) (r : nat) : R :=
  - sumf sample (fun s => ln (cond_prob (ising_energy n p) [-1; 1] s r (nthR s r))).

Section Shorthand.
Variables (n : nat) (sample : list (list R)).
(** The model's functions with the helpers for the Ising model. *)
Let get := pseudo_ising_get_multipliers_r n.
Let obs := pseudo_ising_calc_observables_r n.
Hypothesis Hs : forall s, In s sample -> spin_state n s.
Let m := (n + n * (n - 1) / 2)%nat.

Lemma nlpl_softplus p r : (r < n)%nat -> length p = m ->
  neg_log_pl n p sample r = sumf sample (fun s => softplus (2 * - dot (obs r s) (map (nthR p) (ising_ix n r)))).
Proof.
  intros Hr Hp. unfold neg_log_pl. rewrite <- sumf_opp. apply sumf_ext_in. intros s H. symmetry. apply softplus_cond; auto.
Qed.

Lemma gobj_nlpl p : length p = m -> gobj obs (ising_ix n) n sample p = sumf (seq 0 n) (neg_log_pl n p sample).
Proof.
  intros Hp. unfold gobj. apply sumf_ext_in. intros r Hr. apply in_seq in Hr. symmetry. apply nlpl_softplus; [lia|assumption].
Qed.

Lemma hget r p : (r < n)%nat -> length p = m -> get r p = Ok (map (nthR p) (ising_ix n r), ising_ix n r).
Proof. intros Hr _. now apply ising_get. Qed.
Lemma hobs r s : (r < n)%nat -> In s sample -> length (obs r s) = length (ising_ix n r).
Proof. intros Hr _. unfold obs. now rewrite ising_obs_r_length, ising_ix_length. Qed.
End Shorthand.

(** ** C40 *)
(** _solve_general: the objective is the negative log pseudolikelihood and the second
    component is its gradient. *)
Theorem C40_general_objective : forall (n : nat) (sample : list (list R)) (params : list R),
  (forall s, In s sample -> spin_state n s) -> length params = (n + n * (n - 1) / 2)%nat ->
  let L := fun p => sumf (seq 0 n) (neg_log_pl n p sample) in
  exists grad, pseudo_general_f (pseudo_ising_get_multipliers_r n) (pseudo_ising_calc_observables_r n) n (length params) sample params
      = Ok (L params, grad) /\
    length grad = length params /\ 0 <= L params /\
    forall k, (k < length params)%nat -> is_derive (fun t : R => L (upd params k t)) (nthR params k) (nthR grad k).
Proof.
  intros n sample params Hs Hp L. rewrite Hp.
  destruct (general_f_ok (pseudo_ising_get_multipliers_r n) (pseudo_ising_calc_observables_r n) (ising_ix n) n _ sample
    (hget n) (ising_ix_NoDup n) (ising_ix_range n) (hobs n sample) params Hp) as (grad & E & Lg & H).
  exists grad. split; [|split; [exact Lg|split]].
  - rewrite E. f_equal. f_equal. now apply gobj_nlpl.
  - unfold L. rewrite <- gobj_nlpl by assumption. unfold gobj. apply sumf_nonneg. intros r _. apply sumf_nonneg. intros s _. left. apply softplus_pos.
  - intros k Hk. rewrite H.
    apply (is_derive_ext (fun t : R => gobj (pseudo_ising_calc_observables_r n) (ising_ix n) n sample (upd params k t))).
    + intros t. apply gobj_nlpl; [assumption|now rewrite upd_length].
    + apply (gobj_derive _ _ n (n + n * (n - 1) / 2)); auto. apply (hobs n sample).
Qed.
Print Assumptions C40_general_objective.

(** Any model: with helpers that select parameters by distinct positions, the second
    component is the gradient of the first. *)
Theorem C40_general_gradient : forall get_multipliers_r calc_observables_r (ixs : nat -> list nat) (n m : nat) (sample : list (list R)) (params : list R),
  (forall r p, (r < n)%nat -> length p = m -> get_multipliers_r r p = Ok (map (nthR p) (ixs r), ixs r)) ->
  (forall r, (r < n)%nat -> NoDup (ixs r)) -> (forall r i, (r < n)%nat -> In i (ixs r) -> (i < m)%nat) ->
  (forall r s, (r < n)%nat -> In s sample -> length (calc_observables_r r s) = length (ixs r)) -> length params = m ->
  exists (F : list R -> R) (G : list R -> list R),
    (forall p, length p = m -> pseudo_general_f get_multipliers_r calc_observables_r n m sample p = Ok (F p, G p)) /\
    (forall k, (k < m)%nat -> is_derive (fun t : R => F (upd params k t)) (nthR params k) (nthR (G params) k)).
Proof.
  intros get obs ixs n m sample params H1 H2 H3 H4 Hp.
  set (G := fun p => match pseudo_general_f get obs n m sample p with Ok (_, g) => g | Err _ => [] end).
  exists (gobj obs ixs n sample), G. split.
  - intros p Lp. destruct (general_f_ok get obs ixs n m sample H1 H2 H3 H4 p Lp) as (g & E & _). unfold G. now rewrite E.
  - intros k Hk. destruct (general_f_ok get obs ixs n m sample H1 H2 H3 H4 params Hp) as (g & E & _ & Hg). unfold G. rewrite E, Hg.
    now apply (gobj_derive obs ixs n m).
Qed.
Print Assumptions C40_general_gradient.

(** _solve_ising, spin r: whatever the state [guess] of the array captured by the closure,
    a call with x sets the field and the couplings of r to x (in the order of the helper),
    leaves the other parameters alone, and returns the negative log-likelihood of spin r
    and its gradient with respect to these parameters. *)
Theorem C40_spin_objective : forall (n r : nat) (sample : list (list R)) (guess x : list R),
  (r < n)%nat -> (forall s, In s sample -> spin_state n s) -> length guess = (n + n * (n - 1) / 2)%nat -> length x = n ->
  exists params ix grad,
    pseudo_ising_get_multipliers_r n r params = Ok (x, ix) /\ length params = length guess /\
    (forall i, ~ In i ix -> nthR params i = nthR guess i) /\
    pseudo_ising_f (pseudo_ising_get_multipliers_r n) r (map (pseudo_ising_calc_observables_r n r) sample) ix guess x
      = Ok (neg_log_pl n params sample r, grad, params) /\
    length grad = n /\ 0 <= neg_log_pl n params sample r /\
    forall k, (k < n)%nat -> is_derive (fun t : R => neg_log_pl n (upd params (nth k ix 0%nat) t) sample r) (nthR params (nth k ix 0%nat)) (nthR grad k).
Proof.
  intros n r sample guess x Hr Hs Hg Hx.
  destruct (scatter_spec guess (ising_ix n r) x) as (params & E & Lp & H1 & H2).
  { now rewrite ising_ix_length. } { now apply ising_ix_NoDup. } { rewrite Hg. intros i. now apply ising_ix_range. }
  assert (Ex : map (nthR params) (ising_ix n r) = x).
  { apply (scatter_gather guess); [now rewrite ising_ix_length|now apply ising_ix_NoDup|rewrite Hg; intros i; now apply ising_ix_range|exact E]. }
  assert (Lp' : length params = (n + n * (n - 1) / 2)%nat) by congruence.
  set (o := map (pseudo_ising_calc_observables_r n r) sample).
  exists params, (ising_ix n r), (snd (pl_terms o n x)). rewrite ising_get, Ex by assumption. split; [reflexivity|]. split; [exact Lp|]. split; [exact H2|].
  assert (V : - fst (pl_terms o n x) = neg_log_pl n params sample r).
  { rewrite pl_terms_value, Ropp_involutive. unfold o. rewrite sumf_map, (nlpl_softplus n sample Hs params r Hr Lp'), Ex. reflexivity. }
  split; [|split; [|split]].
  - unfold pseudo_ising_f. rewrite E. cbn [bind]. rewrite ising_get, Ex by assumption. cbn [bind fst]. rewrite Hx.
    destruct (pl_terms o n x) as [ll dll] eqn:Et. cbn [fst snd] in *. now rewrite V.
  - cbn [snd pl_terms]. unfold range. now rewrite map_length, seq_length.
  - rewrite nlpl_softplus by assumption. apply sumf_nonneg. intros s _. left. apply softplus_pos.
  - intros k Hk. rewrite pl_terms_grad by assumption. unfold o. rewrite sumf_map.
    set (i := nth k (ising_ix n r) 0%nat).
    assert (Hi : (i < length params)%nat).
    { rewrite Lp'. apply (ising_ix_range n r); [assumption|]. apply nth_In. now rewrite ising_ix_length. }
    apply (is_derive_ext (fun t : R => sumf sample (fun s => softplus (2 * - dot (pseudo_ising_calc_observables_r n r s) (map (nthR (upd params i t)) (ising_ix n r)))))).
    { intros t. symmetry. apply nlpl_softplus; auto. now rewrite upd_length. }
    apply (is_derive_sumf sample (fun t s => softplus (2 * - dot (pseudo_ising_calc_observables_r n r s) (map (nthR (upd params i t)) (ising_ix n r))))).
    intros s Hin. set (ob := pseudo_ising_calc_observables_r n r s). set (e := 2 * - dot ob x).
    assert (La : length ob = length (ising_ix n r)) by (unfold ob; now rewrite ising_obs_r_length, ising_ix_length).
    apply (is_derive_ext (fun t : R => softplus (e + (- 2 * nthR ob k) * (t - nthR params i)))).
    + intros t. f_equal. rewrite dot_gather_upd, Ex by assumption. unfold i. rewrite at_ix_nth.
      * unfold e. ring.
      * now apply ising_ix_NoDup.
      * now symmetry.
      * now rewrite ising_ix_length.
    + replace (- (1 / (1 + exp e) * exp e) * 2 * nthR ob k) with (1 / (1 + exp e) * exp e * (- 2 * nthR ob k)) by ring. now apply softplus_derive.
Qed.
Print Assumptions C40_spin_objective.

(** The values do not depend on the history of earlier calls. *)
Theorem C40_spin_objective_history : forall (n r : nat) (obs : list (list R)) (g1 g2 x : list R) ix mult,
  (r < n)%nat -> length g1 = (n + n * (n - 1) / 2)%nat -> length g2 = length g1 -> length x = n ->
  pseudo_ising_get_multipliers_r n r g1 = Ok (mult, ix) ->
  exists v grad g1' g2',
    pseudo_ising_f (pseudo_ising_get_multipliers_r n) r obs ix g1 x = Ok (v, grad, g1') /\
    pseudo_ising_f (pseudo_ising_get_multipliers_r n) r obs ix g2 x = Ok (v, grad, g2') /\ length g1' = length g1.
Proof.
  intros n r obs g1 g2 x ix mult Hr H1 H2 Hx E. rewrite ising_get in E by assumption. injection E as _ <-.
  assert (G : forall g, length g = length g1 -> exists g', pseudo_ising_f (pseudo_ising_get_multipliers_r n) r obs (ising_ix n r) g x =
     Ok (- fst (pl_terms obs n x), snd (pl_terms obs n x), g') /\ length g' = length g1).
  { intros g Lg. destruct (scatter_spec g (ising_ix n r) x) as (p & E & Lp & _).
    { now rewrite ising_ix_length. } { now apply ising_ix_NoDup. } { rewrite Lg, H1. intros i. now apply ising_ix_range. }
    assert (Ex : map (nthR p) (ising_ix n r) = x).
    { apply (scatter_gather g); [now rewrite ising_ix_length|now apply ising_ix_NoDup|rewrite Lg, H1; intros i; now apply ising_ix_range|exact E]. }
    exists p. unfold pseudo_ising_f. rewrite E. cbn [bind]. rewrite ising_get, Ex by assumption. cbn [bind fst]. rewrite Hx.
    destruct (pl_terms obs n x). split; [reflexivity|congruence]. }
  destruct (G g1 eq_refl) as (p1 & E1 & L1). destruct (G g2 H2) as (p2 & E2 & _). do 4 eexists. split; [exact E1|]. split; [exact E2|exact L1].
Qed.
Print Assumptions C40_spin_objective_history.

Example C40_example : (forall s, In s [[1; -1]; [1; 1]] -> spin_state 2 s) /\ length [0.5; 0; -1] = (2 + 2 * (2 - 1) / 2)%nat /\
  pseudo_general_f (pseudo_ising_get_multipliers_r 1) (pseudo_ising_calc_observables_r 1) 1 1 [[1]] [0] = Ok (- (0 + - (ln (1 + exp (2 * - (1 * 0 + 0))) + 0)),
    [0 + (- (1 / (1 + exp (2 * - (1 * 0 + 0))) * exp (2 * - (1 * 0 + 0))) * 2 * 1 + 0)]).
Proof.
  split; [|split; reflexivity].
  intros s H. cbn in H. repeat (destruct H as [<-|H]; [split; [reflexivity|]; intros x Hx; cbn in Hx; intuition subst; auto|]). destruct H.
Qed.

(** ** C69 *)
(** The objectives are convex: parameters with zero gradient are global minima. *)
Theorem C69_convex : forall (n : nat) (sample : list (list R)) (p q : list R),
  (forall s, In s sample -> spin_state n s) -> length p = (n + n * (n - 1) / 2)%nat -> length q = length p ->
  exists v grad w grad', let f := pseudo_general_f (pseudo_ising_get_multipliers_r n) (pseudo_ising_calc_observables_r n) n (length p) sample in
    f p = Ok (v, grad) /\ f q = Ok (w, grad') /\
    v + sumf (seq 0 (length p)) (fun k => nthR grad k * (nthR q k - nthR p k)) <= w.
Proof.
  intros n sample p q Hs Hp Hq. rewrite Hp in *.
  destruct (general_f_ok (pseudo_ising_get_multipliers_r n) (pseudo_ising_calc_observables_r n) (ising_ix n) n _ sample
    (hget n) (ising_ix_NoDup n) (ising_ix_range n) (hobs n sample) p Hp) as (g & E & _ & H).
  destruct (general_f_ok (pseudo_ising_get_multipliers_r n) (pseudo_ising_calc_observables_r n) (ising_ix n) n _ sample
    (hget n) (ising_ix_NoDup n) (ising_ix_range n) (hobs n sample) q Hq) as (g' & E' & _ & H').
  do 4 eexists. cbv zeta. split; [exact E|]. split; [exact E'|].
  rewrite (sumf_ext _ _ (fun k => ggrad (pseudo_ising_calc_observables_r n) (ising_ix n) n sample p k * (nthR q k - nthR p k))) by (intros; now rewrite H).
  apply gobj_convex; auto; [apply ising_ix_range|apply (hobs n sample)].
Qed.
Print Assumptions C69_convex.

(** ** C42 *)
(** The r-th optimisation of _solve_ising starts from row r of the rearranged matrix.  For
    the first two spins this is the caller's guess for the parameters of the spin in the
    order of get_multipliers_r; for r>=2 only if the couplings with spins 0..r-1 agree. *)
Theorem C42_starting_point : forall (n : nat) (guess : list R), (1 <= n)%nat -> length guess = (n + n * (n - 1) / 2)%nat ->
  exists gmat, initial_guess_mat n guess = Ok gmat /\ length gmat = n /\
  forall r, (r < n)%nat -> exists mult ix, pseudo_ising_get_multipliers_r n r guess = Ok (mult, ix) /\
    ((r <= 1)%nat -> nth r gmat [] = mult) /\
    (nth r gmat [] = mult <-> forall i j, (i < r)%nat -> (j < r)%nat -> coupling n guess r i = coupling n guess r j).
Proof.
  intros n guess Hn Hg. destruct (initial_guess_mat_ok n guess Hn Hg) as (gmat & E & L & H). exists gmat. split; [exact E|]. split; [exact L|].
  intros r Hr. exists (map (nthR guess) (ising_ix n r)), (ising_ix n r). rewrite ising_get by assumption. split; [reflexivity|]. rewrite H by assumption.
  assert (Iff : start n guess r = map (nthR guess) (ising_ix n r) <-> forall i j, (i < r)%nat -> (j < r)%nat -> coupling n guess r i = coupling n guess r j).
  { split.
    - intros Eq.
      assert (A : forall i, (S i < r)%nat -> coupling n guess r (S i) = coupling n guess r i).
      { intros i Hi. pose proof (f_equal (fun l => nthR l (S i)) Eq) as Ei. cbv beta in Ei. rewrite mult_nth in Ei by lia.
        unfold start, nthR in Ei. rewrite nth_map_seq in Ei by lia. change (S i =? 0)%nat with false in Ei. cbv iota in Ei.
        destruct (Nat.eqb_spec (S i) r); [lia|]. destruct (Nat.leb_spec (S i) r); [|lia]. replace (S i - 1)%nat with i in Ei by lia. exact Ei. }
      assert (B : forall i, (i < r)%nat -> coupling n guess r i = coupling n guess r 0).
      { induction i as [|i IH]; intros Hi; [reflexivity|]. rewrite A by assumption. apply IH. lia. }
      intros i j Hi Hj. rewrite (B i), (B j) by assumption. reflexivity.
    - intros Eq. apply (list_eq_nth 0).
      + unfold start. now rewrite !map_length, seq_length, ising_ix_length.
      + unfold start at 1. rewrite map_length, seq_length. intros m Hm. unfold start. rewrite nth_map_seq by assumption.
        change (nth m (map (nthR guess) (ising_ix n r)) 0) with (nthR (map (nthR guess) (ising_ix n r)) m). rewrite mult_nth by assumption.
        destruct (Nat.eqb_spec m 0); [reflexivity|]. destruct (Nat.eqb_spec m r), (Nat.leb_spec m r); try lia; [apply Eq; lia|apply Eq; lia|reflexivity]. }
  split; [|exact Iff]. intros H1. apply Iff. intros i j Hi Hj. do 2 f_equal. lia.
Qed.
Print Assumptions C42_starting_point.

(** The claim for all spins is false: three spins with different couplings of spin 2. *)
Theorem C42_starting_point_refuted : ~ forall (n r : nat) (guess : list R) gmat mult ix,
  (r < n)%nat -> length guess = (n + n * (n - 1) / 2)%nat -> initial_guess_mat n guess = Ok gmat ->
  pseudo_ising_get_multipliers_r n r guess = Ok (mult, ix) -> nth r gmat [] = mult.
Proof.
  intros H. set (g := [0; 0; 0; 1; 2; 3]).
  destruct (C42_starting_point 3 g ltac:(lia) eq_refl) as (gmat & E & _ & A).
  destruct (A 2%nat ltac:(lia)) as (mult & ix & Em & _ & Iff).
  pose proof (proj1 Iff (H 3%nat 2%nat g gmat mult ix ltac:(lia) eq_refl E Em) 0%nat 1%nat ltac:(lia) ltac:(lia)) as X.
  unfold coupling, g, nthR in X. cbn in X. lra.
Qed.
Print Assumptions C42_starting_point_refuted.

(** ** C43 *)
(** Whatever the minimiser does, the result has the field of spin r from its own
    optimisation and, for each pair, the average of the two estimates.  The r-th function
    handed to the minimiser is the negative log-likelihood of spin r of C40. *)
Theorem C43_solve_ising : forall (n nobs : nat) (sample : list (list R)) (guess : option (list R)) minimize,
  let g := match guess with None => repeat 0 nobs | Some g => g end in
  (1 <= n)%nat -> length g = (n + n * (n - 1) / 2)%nat -> (forall s, In s sample -> spin_state n s) ->
  (forall f x, length x = n -> length (minimize f x) = n) ->
  exists (f : nat -> list R -> result (R * list R)) (x0 : nat -> list R) mult,
    let x := fun r => minimize (f r) (x0 r) in
    solve_ising (pseudo_ising_get_multipliers_r n) (pseudo_ising_calc_observables_r n) n nobs sample guess minimize = Ok mult /\
    length mult = length g /\
    (forall r, (r < n)%nat -> nthR mult r = nthR (x r) 0) /\
    (forall i j, (i < j)%nat -> (j < n)%nat -> nthR mult (n + pair_index n i j) = (nthR (x i) j + nthR (x j) (S i)) / 2) /\
    forall r y, (r < n)%nat -> length y = n -> exists params ix grad,
      pseudo_ising_get_multipliers_r n r params = Ok (y, ix) /\ length params = length g /\
      (forall i, ~ In i ix -> nthR params i = nthR g i) /\
      f r y = Ok (neg_log_pl n params sample r, grad).
Proof.
  intros n nobs sample guess minimize g Hn Hg Hs Hmin.
  set (f := fun r params => bind (pseudo_ising_f (pseudo_ising_get_multipliers_r n) r (map (pseudo_ising_calc_observables_r n r) sample) (ising_ix n r) g params) (fun t => Ok (fst t))).
  exists f, (start n g).
  assert (Lx : forall r, length (minimize (f r) (start n g r)) = n) by (intros r; apply Hmin; unfold start; now rewrite map_length, seq_length).
  eexists. cbv zeta. split; [|split; [|split; [|split]]].
  - apply (solve_ising_ok (pseudo_ising_get_multipliers_r n) (pseudo_ising_calc_observables_r n) n nobs sample guess minimize (ising_ix n) Hn Hg).
    + intros r Hr. fold g. rewrite ising_get by assumption. eexists. reflexivity.
    + intros r _. apply Lx.
  - rewrite app_length, !map_length, seq_length, pairs_seq_length, Hg. reflexivity.
  - intros r Hr. unfold nthR at 1. rewrite app_nth1 by (rewrite map_length, seq_length; lia). rewrite nth_map_seq by assumption. reflexivity.
  - intros i j Hij Hj. unfold nthR at 1. rewrite app_nth2 by (rewrite map_length, seq_length; lia). rewrite map_length, seq_length.
    replace (n + pair_index n i j - n)%nat with (pair_index n i j) by lia.
    set (q := fun p : nat * nat => _).
    rewrite (nth_indep _ 0 (q (0, 0)%nat)) by (rewrite map_length, pairs_seq_length; now apply pair_index_lt).
    rewrite (map_nth q), (nth_error_nth _ _ _ (pair_index_spec n i j Hij Hj)). reflexivity.
  - intros r y Hr Hy. destruct (C40_spin_objective n r sample g y Hr Hs Hg Hy) as (params & ix & grad & E1 & E2 & E3 & E4 & _).
    exists params, ix, grad. split; [exact E1|]. split; [exact E2|]. split; [exact E3|]. rewrite ising_get in E1 by assumption. injection E1 as _ <-.
    unfold f. rewrite E4. reflexivity.
Qed.
Print Assumptions C43_solve_ising.

(** ** C69: exact data *)
(** A minimiser that finds a global minimum whenever there is one. *)
Definition pl_minimum (f : list R -> result (R * list R)) (m : nat) (y : list R) : Prop :=
  length y = m /\ exists v g, f y = Ok (v, g) /\ forall z, length z = m -> exists w g', f z = Ok (w, g') /\ v <= w.
Definition finds_minimum (minimize : (list R -> result (R * list R)) -> list R -> list R) : Prop :=
  forall f x0 y, pl_minimum f (length x0) y -> pl_minimum f (length x0) (minimize f x0).

(** The frequencies in the sample are exactly the probabilities of the model hJ. *)
Definition exact_sample (n : nat) (hJ : list R) (sample : list (list Z)) : Prop :=
  sample <> [] /\ (forall r, In r sample -> In r (all_states [-1; 1]%Z n)) /\
  forall s, In s (all_states [-1; 1]%Z n) -> INR (count_occ rows_dec sample s) / INR (length sample) =
    boltzmann (ising_energy n hJ) (all_states [-1; 1] n) (map IZR s).

Lemma exact_weights_of n hJ sample : exact_sample n hJ sample -> exists W, 0 < W /\
  forall s, In s (all_states [-1; 1]%Z n) -> INR (count_occ rows_dec sample s) = W * exp (- ising_energy n hJ (map IZR s)).
Proof.
  intros (Hne & _ & H). set (Z := partition (ising_energy n hJ) (all_states [-1; 1] n)).
  assert (LP : 0 < INR (length sample)) by (apply lt_0_INR; destruct sample; [congruence|cbn; lia]).
  assert (ZP : 0 < Z).
  { unfold Z, partition. apply sumf_pos; [|intros; apply exp_pos]. intros E.
    assert (X : In (repeat (-1) n) (all_states [-1; 1] n)) by (apply all_states_spec; rewrite repeat_length; split; [reflexivity|intros x Hx; apply repeat_spec in Hx; subst; now left]).
    rewrite E in X. destruct X. }
  exists (INR (length sample) / Z). split; [now apply Rdiv_lt_0_compat|].
  intros s Hs. specialize (H s Hs). unfold boltzmann in H. fold Z in H.
  replace (INR (count_occ rows_dec sample s)) with (INR (count_occ rows_dec sample s) / INR (length sample) * INR (length sample)) by (field; lra).
  rewrite H. field. lra.
Qed.

Lemma exact_spins n hJ sample : exact_sample n hJ sample -> forall s, In s (map (map IZR) sample) -> spin_state n s.
Proof.
  intros (_ & H & _) s Hs. apply in_map_iff in Hs. destruct Hs as (u & <- & Hu). apply St_spin. now apply H.
Qed.

(** The true parameters minimise every term of the pseudolikelihood, and only they do. *)
Theorem C69_exact_data_unique_minimum : forall (n r : nat) (hJ p : list R) (sample : list (list Z)),
  (r < n)%nat -> length hJ = (n + n * (n - 1) / 2)%nat -> length p = length hJ -> exact_sample n hJ sample ->
  let L := fun p r => neg_log_pl n p (map (map IZR) sample) r in
  L hJ r <= L p r /\
  (L p r = L hJ r -> nthR p r = nthR hJ r /\ forall i, (i < n)%nat -> i <> r -> coupling n p r i = coupling n hJ r i) /\
  (sumf (seq 0 n) (L p) = sumf (seq 0 n) (L hJ) -> p = hJ).
Proof.
  intros n r hJ p sample Hr HhJ Hp Hex L. destruct (exact_weights_of n hJ sample Hex) as (W & HW & HF).
  assert (K : forall r, (r < n)%nat -> L hJ r <= L p r /\
    (L p r = L hJ r -> nthR p r = nthR hJ r /\ forall i, (i < n)%nat -> i <> r -> coupling n p r i = coupling n hJ r i)).
  { intros r0 Hr0. destruct (exact_spin_min n hJ sample HhJ (proj1 (proj2 Hex)) W HW HF p r0 Hr0 Hp) as [A B]. split; [exact A|]. intros E. specialize (B E). split.
    - exact (f_equal (fun l => nthR l 0) B).
    - intros i Hi Hne. rewrite <- !(pix_coupling n _ r0 i) by assumption.
      apply (proj1 map_ext_in_iff B). right. apply in_map_iff. exists i. split; [reflexivity|]. apply in_others. lia. }
  split; [now apply K|]. split; [now apply K|]. intros E.
  assert (Z : forall r, In r (seq 0 n) -> L p r - L hJ r = 0).
  { intros r0 H0. apply (sumf_nonneg_zero (seq 0 n) (fun r => L p r - L hJ r)); [| |assumption].
    - intros a Ha. apply in_seq in Ha. pose proof (proj1 (K a ltac:(lia))). lra.
    - rewrite sumf_minus. lra. }
  apply (ising_params_ext n); [congruence|assumption| |].
  - intros i Hi. apply K; [assumption|]. pose proof (Z i ltac:(apply in_seq; lia)). lra.
  - intros i j Hij Hj. apply K; [lia| |assumption|lia]. pose proof (Z i ltac:(apply in_seq; lia)). lra.
Qed.
Print Assumptions C69_exact_data_unique_minimum.

(** End to end: with such data and such a minimiser both solvers return the true
    parameters, whatever the initial guess. *)
Theorem C69_solve_ising_recovers : forall (n nobs : nat) (hJ : list R) (sample : list (list Z)) (guess : option (list R)) minimize,
  let g := match guess with None => repeat 0 nobs | Some g => g end in
  (1 <= n)%nat -> length hJ = (n + n * (n - 1) / 2)%nat -> length g = length hJ -> exact_sample n hJ sample -> finds_minimum minimize ->
  solve_ising (pseudo_ising_get_multipliers_r n) (pseudo_ising_calc_observables_r n) n nobs (map (map IZR) sample) guess minimize = Ok hJ.
Proof.
  intros n nobs hJ sample guess minimize g Hn HhJ Hg Hex Hmin.
  destruct (exact_weights_of n hJ sample Hex) as (W & HW & HF).
  pose proof (exact_spins n hJ sample Hex) as Hs.
  set (f := fun r params => bind (pseudo_ising_f (pseudo_ising_get_multipliers_r n) r (map (pseudo_ising_calc_observables_r n r) (map (map IZR) sample)) (ising_ix n r) g params) (fun t => Ok (fst t))).
  assert (Hg' : length g = (n + n * (n - 1) / 2)%nat) by congruence.
  assert (F : forall r y, (r < n)%nat -> length y = n -> exists p gr, f r y = Ok (neg_log_pl n p (map (map IZR) sample) r, gr) /\
    length p = length hJ /\ map (nthR p) (ising_ix n r) = y).
  { intros r y Hr Hy. destruct (C40_spin_objective n r _ g y Hr Hs Hg' Hy) as (p & ix & gr & E1 & E2 & _ & E4 & _).
    rewrite ising_get in E1 by assumption. injection E1 as E1 <-. exists p, gr. unfold f. rewrite E4. split; [reflexivity|]. split; [congruence|assumption]. }
  assert (X : forall r, (r < n)%nat -> minimize (f r) (start n g r) = map (nthR hJ) (ising_ix n r)).
  { intros r Hr.
    assert (Ls : length (start n g r) = n) by (unfold start; now rewrite map_length, seq_length).
    assert (Ly : length (map (nthR hJ) (ising_ix n r)) = n) by (now rewrite map_length, ising_ix_length).
    assert (V : forall p, length p = length hJ -> map (nthR p) (ising_ix n r) = map (nthR hJ) (ising_ix n r) ->
       neg_log_pl n p (map (map IZR) sample) r = neg_log_pl n hJ (map (map IZR) sample) r).
    { intros p Lp Ep. rewrite !nlpl_softplus by (assumption || congruence). rewrite Ep. reflexivity. }
    destruct (F r _ Hr Ly) as (p0 & gr0 & E0 & L0 & I0).
    assert (M : pl_minimum (f r) (length (start n g r)) (map (nthR hJ) (ising_ix n r))).
    { rewrite Ls. split; [exact Ly|]. do 2 eexists. split; [exact E0|]. intros z Hz. destruct (F r z Hr Hz) as (p & gr & E & Lp & Ip).
      do 2 eexists. split; [exact E|]. rewrite (V p0 L0 I0). now apply (exact_spin_min n hJ sample HhJ (proj1 (proj2 Hex)) W HW HF p r Hr Lp). }
    apply Hmin in M. rewrite Ls in M. destruct M as (Lm & v & gr & Em & Min).
    destruct (F r _ Hr Lm) as (p & gr1 & E & Lp & Ip). rewrite E in Em. injection Em as Ev _.
    destruct (Min _ Ly) as (w & gw & Ew & Hle). rewrite E0 in Ew. injection Ew as Ew _. rewrite (V p0 L0 I0) in Ew.
    destruct (exact_spin_min n hJ sample HhJ (proj1 (proj2 Hex)) W HW HF p r Hr Lp) as [A B].
    rewrite <- Ip. apply B. apply Rle_antisym; [|exact A]. subst v w. exact Hle. }
  assert (SO := solve_ising_ok (pseudo_ising_get_multipliers_r n) (pseudo_ising_calc_observables_r n) n nobs (map (map IZR) sample) guess minimize (ising_ix n) Hn Hg').
  cbv zeta in SO. rewrite SO.
  - f_equal. transitivity (firstn n hJ ++ skipn n hJ); [|apply firstn_skipn]. rewrite <- fields_firstn by lia. rewrite <- (coupling_pairs n hJ) by assumption. f_equal.
    + apply map_ext_in. intros r Hr. apply in_seq in Hr. fold g. change (minimize _ (start n g r)) with (minimize (f r) (start n g r)). rewrite X by lia. reflexivity.
    + apply map_ext_in. intros [i j] Hij. apply in_pairs_seq in Hij. cbn [fst snd]. fold g.
      change (minimize _ (start n g i)) with (minimize (f i) (start n g i)). change (minimize _ (start n g j)) with (minimize (f j) (start n g j)).
      rewrite !X by lia. rewrite !mult_nth by lia. unfold hJmat.
      destruct (Nat.eqb_spec i j); [lia|]. destruct (Nat.eqb_spec j 0); [lia|]. cbn [Nat.eqb]. destruct (Nat.leb_spec j i); [lia|]. destruct (Nat.leb_spec (S i) j); [|lia].
      replace (S i - 1)%nat with i by lia. rewrite (coupling_sym n hJ j i) by lia. field.
  - intros r Hr. fold g. rewrite ising_get by assumption. eexists. reflexivity.
  - intros r Hr. fold g. change (minimize _ (start n g r)) with (minimize (f r) (start n g r)). rewrite X by assumption. now rewrite map_length, ising_ix_length.
Qed.
Print Assumptions C69_solve_ising_recovers.

Theorem C69_solve_general_recovers : forall (n nobs : nat) (hJ : list R) (sample : list (list Z)) (guess : option (list R)) minimize,
  let g := match guess with None => repeat 0 nobs | Some g => g end in
  (1 <= n)%nat -> length hJ = (n + n * (n - 1) / 2)%nat -> length g = length hJ -> exact_sample n hJ sample -> finds_minimum minimize ->
  solve_general (pseudo_ising_get_multipliers_r n) (pseudo_ising_calc_observables_r n) n nobs (map (map IZR) sample) guess minimize = hJ.
Proof.
  intros n nobs hJ sample guess minimize g Hn HhJ Hg Hex Hmin. unfold solve_general. fold g.
  pose proof (exact_spins n hJ sample Hex) as Hs.
  set (f := pseudo_general_f _ _ n (length g) (map (map IZR) sample)).
  assert (F : forall y, length y = length hJ -> exists gr, f y = Ok (sumf (seq 0 n) (neg_log_pl n y (map (map IZR) sample)), gr)).
  { intros y Hy. destruct (C40_general_objective n (map (map IZR) sample) y Hs ltac:(congruence)) as (gr & E & _). exists gr. unfold f. rewrite Hg, <- Hy. exact E. }
  assert (M : pl_minimum f (length g) hJ).
  { split; [now symmetry|]. destruct (F hJ eq_refl) as [gr E]. do 2 eexists. split; [exact E|]. intros z Hz. destruct (F z ltac:(congruence)) as [gz Ez].
    do 2 eexists. split; [exact Ez|]. apply sumf_le. intros r Hr. apply in_seq in Hr.
    now apply (C69_exact_data_unique_minimum n r hJ z sample ltac:(lia) HhJ ltac:(congruence) Hex). }
  apply Hmin in M. destruct M as (Lm & v & gr & Em & Min). destruct (F _ ltac:(rewrite Lm; exact Hg)) as [g1 E1]. rewrite E1 in Em. injection Em as Ev _.
  destruct (Min hJ ltac:(now symmetry)) as (w & gw & Ew & Hle). destruct (F hJ eq_refl) as [g2 E2]. rewrite E2 in Ew. injection Ew as Ew _.
  apply (C69_exact_data_unique_minimum n 0 hJ (minimize f g) sample ltac:(lia) HhJ ltac:(congruence) Hex).
  apply Rle_antisym; [subst; exact Hle|]. apply sumf_le. intros r Hr. apply in_seq in Hr.
  now apply (C69_exact_data_unique_minimum n r hJ (minimize f g) sample ltac:(lia) HhJ ltac:(congruence) Hex).
Qed.
Print Assumptions C69_solve_general_recovers.
