(** * C111: Pseudo with a model that is neither Ising nor Potts3. *)
From Coquelicot Require Import Coquelicot.
From Coq Require Import Lra Lia.
From Verif Require Import Prelude Spec PreludeFacts M_Index M_Params M_Energy M_Corr M_Pseudo M_PseudoSetup P_Index P_Unravel P_Energy P_Energy2 P_Params P_Pseudo P_Pseudo2 Props_Energy P_Pseudo3 Props_Pseudo.
Import ListNotations.
Local Open Scope R_scope.

Lemma firstn_nthR m (p : list R) i : (i < m)%nat -> nthR (firstn m p) i = nthR p i.
Proof. revert p i. induction m as [|m IH]; intros [|x p] [|i] H; cbn; try lia; try reflexivity. apply (IH p i). lia. Qed.

(** The general objective with the Ising helpers, for longer parameter vectors. *)
Lemma long_objective n m sample p : (forall s, In s sample -> spin_state n s) -> (n + n * (n - 1) / 2 <= m)%nat -> length p = m ->
  exists grad, pseudo_general_f (pseudo_ising_get_multipliers_r n) (pseudo_ising_calc_observables_r n) n m sample p
      = Ok (sumf (seq 0 n) (neg_log_pl n (firstn (n + n * (n - 1) / 2) p) sample), grad) /\
    length grad = m /\ (forall k, (n + n * (n - 1) / 2 <= k)%nat -> nthR grad k = 0).
Proof.
  intros Hs Hm Hp. set (q := (n + n * (n - 1) / 2)%nat) in *.
  destruct (general_f_ok (pseudo_ising_get_multipliers_r n) (pseudo_ising_calc_observables_r n) (ising_ix n) n m sample) with (p := p) as (grad & E & Lg & Hg).
  - intros r p0 Hr _. now apply ising_get.
  - exact (ising_ix_NoDup n).
  - intros r i Hr Hi. pose proof (ising_ix_range n r i Hr Hi). unfold q in Hm. lia.
  - intros r s Hr _. now rewrite ising_obs_r_length, ising_ix_length.
  - exact Hp.
  - exists grad. split; [|split; [exact Lg|]].
    + rewrite E. f_equal. f_equal. rewrite <- (gobj_nlpl n sample Hs) by (rewrite firstn_length; unfold q; lia).
      unfold gobj. apply sumf_ext_in. intros r Hr. apply in_seq in Hr. apply sumf_ext_in. intros s _. do 4 f_equal.
      apply map_ext_in. intros i Hi. pose proof (ising_ix_range n r i ltac:(lia) Hi). symmetry. apply firstn_nthR. unfold q. lia.
    + intros k Hk. rewrite Hg. unfold ggrad. apply sumf_zero. intros r Hr. apply in_seq in Hr.
      apply sumf_zero. intros s _. cbv zeta. rewrite at_ix_notin; [ring|].
      intros Hi. pose proof (ising_ix_range n r k ltac:(lia) Hi). unfold q in Hk. lia.
Qed.

(** Without functions of the caller's own, Pseudo fits every model that is neither Ising nor
    Potts3 as a pairwise Ising model: what the minimiser receives is the pairwise objective of
    the first n+n(n-1)/2 parameters, and its gradient vanishes in all others. *)
Theorem C111_other_models : forall (n k nobs : nat) get_r obs_r (sample : list (list R)) force guess minimize solve_potts hp,
  get_r = None \/ obs_r = None -> (forall s, In s sample -> spin_state n s) -> (n + n * (n - 1) / 2 <= nobs)%nat ->
  (forall g, guess = Some g -> length g = nobs) ->
  pseudo_helpers n k get_r obs_r sample = Ok hp ->
  exists f start, pseudo_solve ClsOther force hp solve_potts n nobs sample guess minimize = Ok (minimize f start) /\ length start = nobs /\
    forall params, length params = nobs ->
      exists grad, f params = Ok (sumf (seq 0 n) (neg_log_pl n (firstn (n + n * (n - 1) / 2) params) sample), grad) /\
        length grad = nobs /\ forall j, (n + n * (n - 1) / 2 <= j)%nat -> nthR grad j = 0.
Proof.
  intros n k nobs get_r obs_r sample force guess minimize sp hp Hnone Hs Hm Hg Hh.
  assert (Hhp : hp = (pseudo_ising_get_multipliers_r n, pseudo_ising_calc_observables_r n)).
  { unfold pseudo_helpers in Hh. destruct get_r, obs_r; try (injection Hh as <-; reflexivity). destruct Hnone; discriminate. }
  subst hp. unfold pseudo_solve, solve_general. cbn [fst snd].
  set (start := match guess with None => repeat 0 nobs | Some g => g end).
  assert (Hst : length start = nobs) by (unfold start; destruct guess; [apply Hg; reflexivity|apply repeat_length]).
  do 2 eexists. split; [destruct force; reflexivity|]. split; [exact Hst|]. intros params Hp. rewrite Hst.
  apply long_objective; assumption.
Qed.
Print Assumptions C111_other_models.

(** With functions of their own, the caller gets exactly these functions, provided that the
    sample is not empty and has no entry above k-1; otherwise the constructor refuses it. *)
Theorem C111_own_helpers : forall (n k : nat) g o (sample : list (list R)),
  (concat sample <> [] -> (forall s x, In s sample -> In x s -> x <= INR k - 1) -> pseudo_helpers n k (Some g) (Some o) sample = Ok (g, o)) /\
  ((exists s x, In s sample /\ In x s /\ INR k - 1 < x) -> pseudo_helpers n k (Some g) (Some o) sample = Err AssertionError) /\
  (concat sample = [] -> pseudo_helpers n k (Some g) (Some o) sample = Err ValueError).
Proof.
  intros n k g o sample. unfold pseudo_helpers. split; [|split].
  - intros Hne H. assert (F : forallb (fun x => if Rle_dec x (INR k - 1) then true else false) (concat sample) = true).
    { apply forallb_forall. intros x Hx. apply in_concat in Hx. destruct Hx as (s & Hs & Hx). destruct (Rle_dec x (INR k - 1)) as [|N]; [reflexivity|].
      exfalso. apply N. now apply (H s). }
    destruct (concat sample) eqn:E; [congruence|]. now rewrite F.
  - intros (s & x & Hs & Hx & Hlt). assert (Hin : In x (concat sample)) by (apply in_concat; eauto).
    assert (F : forallb (fun x => if Rle_dec x (INR k - 1) then true else false) (concat sample) = false).
    { apply Bool.not_true_iff_false. intros F. rewrite forallb_forall in F. specialize (F x Hin). destruct (Rle_dec x (INR k - 1)); [lra|discriminate]. }
    destruct (concat sample) eqn:E; [destruct Hin|]. now rewrite F.
  - intros ->. reflexivity.
Qed.
Print Assumptions C111_own_helpers.

(** With force_general the Ising model is solved with the pairwise objective too, and never
    with the routine for Ising models; a Potts3 model is solved by its own routine. *)
Theorem C111_dispatch : forall (n k : nat) (sample : list (list R)) guess minimize solve_potts hp, 
  (forall s, In s sample -> spin_state n s) -> pseudo_helpers n k None None sample = Ok hp ->
  (forall g, guess = Some g -> length g = (n + n * (n - 1) / 2)%nat) ->
  (exists f start, pseudo_solve ClsIsing true hp solve_potts n (n + n * (n - 1) / 2) sample guess minimize = Ok (minimize f start) /\
    forall params, length params = (n + n * (n - 1) / 2)%nat ->
      exists grad, f params = Ok (sumf (seq 0 n) (neg_log_pl n params sample), grad)) /\
  (forall force nobs, pseudo_solve ClsPotts3 force hp solve_potts n nobs sample guess minimize = solve_potts).
Proof.
  intros n k sample guess minimize sp hp Hs Hh Hg. split; [|intros [] ?; reflexivity].
  cbn in Hh. injection Hh as <-. unfold pseudo_solve, solve_general. cbn [fst snd].
  set (start := match guess with None => _ | Some g => g end).
  assert (Hst : length start = (n + n * (n - 1) / 2)%nat) by (unfold start; destruct guess; [apply Hg; reflexivity|apply repeat_length]).
  do 2 eexists. split; [reflexivity|]. intros params Hp. rewrite Hst.
  destruct (long_objective n _ sample params Hs (le_n _) Hp) as (grad & E & _). exists grad. rewrite E.
  rewrite firstn_all2 by lia. reflexivity.
Qed.
Print Assumptions C111_dispatch.

(** Specification: energy of three spins with a triplet interaction. *)
Definition triplet_energy3 (p s : list R) : R := ising_energy 3 (firstn 6 p) s - nthR p 6 * (nthR s 0 * nthR s 1 * nthR s 2).

(** "Pseudo maximises the pseudolikelihood of the model it was given" does not hold for a Triplet
    model: at a triplet interaction of 1 the objective is that of no interaction at all. *)
Theorem C111_triplet_refuted : exists sample params v grad, (forall s, In s sample -> spin_state 3 s) /\ length params = 7%nat /\
  (forall force minimize solve_potts hp, pseudo_helpers 3 2 None None sample = Ok hp ->
     exists f start, pseudo_solve ClsOther force hp solve_potts 3 7 sample None minimize = Ok (minimize f start) /\ f params = Ok (v, grad)) /\
  v <> sumf (seq 0 3) (fun r => - sumf sample (fun s => ln (cond_prob (triplet_energy3 params) [-1; 1] s r (nthR s r)))).
Proof.
  set (sample := [[1; 1; 1]]). set (params := [0; 0; 0; 0; 0; 0; 1]).
  assert (Hs : forall s, In s sample -> spin_state 3 s).
  { intros s [<-|[]]. split; [reflexivity|]. intros x Hx. cbn in Hx. left. destruct Hx as [<-|[<-|[<-|[]]]]; reflexivity. }
  destruct (long_objective 3 7 sample params Hs ltac:(cbn; lia) eq_refl) as (grad & E & _ & _).
  exists sample, params, (sumf (seq 0 3) (neg_log_pl 3 (firstn (3 + 3 * (3 - 1) / 2) params) sample)), grad.
  split; [exact Hs|]. split; [reflexivity|]. split.
  - intros force minimize sp hp Hh. cbn in Hh. injection Hh as <-. unfold pseudo_solve, solve_general. do 2 eexists. split; [destruct force; reflexivity|].
    cbn [fst snd]. rewrite repeat_length. exact E.
  - intros H.
    assert (P0 : forall r, (r < 3)%nat -> neg_log_pl 3 (firstn (3 + 3 * (3 - 1) / 2) params) sample r = ln 2).
    { intros r Hr. unfold neg_log_pl, sample. rewrite sumf_cons, sumf_nil, Rplus_0_r. unfold cond_prob. rewrite <- ln_Rinv.
      - f_equal. rewrite !sumf_cons, sumf_nil. 
        assert (Z0 : forall s, length s = 3%nat -> ising_energy 3 (firstn (3 + 3 * (3 - 1) / 2) params) s = 0).
        { intros s _. unfold ising_energy, params. cbn. unfold coupling, sumf. cbn. ring. }
        rewrite !Z0 by (rewrite upd_length; reflexivity). rewrite Ropp_0, exp_0. field.
      - rewrite !sumf_cons, sumf_nil. apply Rdiv_lt_0_compat; [apply exp_pos|]. rewrite Rplus_0_r. apply Rplus_lt_0_compat; apply exp_pos. }
    assert (P1 : forall r, (r < 3)%nat -> - sumf sample (fun s => ln (cond_prob (triplet_energy3 params) [-1; 1] s r (nthR s r))) = ln (1 + exp (-2))).
    { intros r Hr. unfold sample. rewrite sumf_cons, sumf_nil, Rplus_0_r. unfold cond_prob. rewrite <- ln_Rinv.
      - f_equal. rewrite !sumf_cons, sumf_nil.
        assert (Z1 : forall s, triplet_energy3 params s = - (nthR s 0 * nthR s 1 * nthR s 2)).
        { intros s. unfold triplet_energy3, ising_energy, params. cbn. unfold coupling, sumf. cbn. ring. }
        rewrite !Z1. destruct r as [|[|[|r]]]; [| | |lia]; cbn -[exp Rinv]; unfold nthR; cbn -[exp Rinv].
        1-3: repeat match goal with |- context [exp (- ?x)] => first [replace (- x) with 1 by ring|replace (- x) with (IZR (-1)) by ring] end.
        1-3: assert (Hx : exp (-2) = exp (-1) / exp 1) by (replace (-2) with (-1 + Ropp 1) by ring; rewrite exp_plus, (exp_Ropp 1); reflexivity); rewrite ?Hx; pose proof (exp_pos 1); pose proof (exp_pos (-1)); field; split; lra.
      - rewrite !sumf_cons, sumf_nil. apply Rdiv_lt_0_compat; [apply exp_pos|]. rewrite Rplus_0_r. apply Rplus_lt_0_compat; apply exp_pos. }
    rewrite (sumf_ext_in (seq 0 3) _ (fun _ => ln 2)) in H by (intros r Hr; apply in_seq in Hr; apply P0; lia).
    rewrite (sumf_ext_in (seq 0 3) (fun r => - _) (fun _ => ln (1 + exp (-2)))) in H by (intros r Hr; apply in_seq in Hr; apply P1; lia).
    unfold sumf in H. cbn -[exp ln] in H. assert (Hl : ln (1 + exp (-2)) < ln 2).
    { apply ln_increasing; pose proof (exp_pos (-2)); [lra|]. assert (exp (-2) < exp 0) by (apply exp_increasing; lra). rewrite exp_0 in *. lra. }
    lra.
Qed.
Print Assumptions C111_triplet_refuted.

(** A Triplet model of three spins has 7 observables, one more than the pairwise model. *)
Example C111_example : length (triplet_calc_observables_row [1; -1; 1]) = 7%nat /\
  exists hp, pseudo_helpers 3 2 None None [[1; -1; 1]; [-1; -1; -1]] = Ok hp /\
    forall s, In s [[1; -1; 1]; [-1; -1; -1]] -> spin_state 3 s.
Proof.
  split; [reflexivity|]. eexists. split; [reflexivity|]. intros s [<-|[<-|[]]]; (split; [reflexivity|]); intros x Hx; cbn in Hx;
    repeat destruct Hx as [<-|Hx]; try contradiction; auto.
Qed.
Print Assumptions C111_example.
