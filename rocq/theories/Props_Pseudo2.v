(** * Properties of the pseudolikelihood solver: Potts model, and examples. *)
From Coquelicot Require Import Coquelicot.
From Coq Require ClassicalEpsilon.
From Verif Require Import Prelude Spec PreludeFacts M_Index M_Params M_Energy M_Corr M_Pseudo P_Index P_Unravel P_Energy P_Energy2 P_Params P_Unique P_MPF P_MaxEnt P_Corr2 P_Pseudo P_Pseudo2 P_Pseudo4 P_Pseudo3 Props_Energy Props_Pseudo.
From Verif Require Props_MPF.
Import ListNotations.
Local Open Scope R_scope.

(** Specification: minus the log-likelihood of spin r given the other spins. *)
Definition neg_log_pl_potts (n k : nat) (p : list R) (sample : list (list nat)) (r : nat) : R :=
  - sumf sample (fun x => ln (cond_prob (potts_energy n k p) (seq 0 k) x r (nth r x 0%nat))).

Lemma potts_D_cond n k r x p : (r < n)%nat -> length x = n -> (forall v, In v x -> (v < k)%nat) ->
  ln (potts_D n k r x p) = - ln (cond_prob (potts_energy n k p) (seq 0 k) x r (nth r x 0%nat)).
Proof.
  intros Hr Hl Hv. destruct (C18_pseudo_potts_conditional n k r x p Hl Hv Hr) as (mult & ix & obs & oo & os & E1 & E2 & _ & _ & _ & _ & E).
  rewrite potts_get in E1 by assumption. injection E1 as <- <-. rewrite potts_calc in E2 by assumption. injection E2 as <- <- <-.
  rewrite E, sumf_map. set (e := fun st => dot (obs_st n k r x st) (map (nthR p) (potts_ixs n k r))). set (xr := nth r x 0%nat).
  change (ln (sumf (others k xr) (fun st => exp (e st - e xr)) + 1) = - ln (exp (e xr) / (exp (e xr) + sumf (others k xr) (fun st => exp (e st))))).
  assert (P : 0 <= sumf (others k xr) (fun st => exp (e st))) by (apply sumf_nonneg; intros; left; apply exp_pos).
  pose proof (exp_pos (e xr)) as P2.
  assert (Q : sumf (others k xr) (fun st => exp (e st - e xr)) + 1 = (exp (e xr) + sumf (others k xr) (fun st => exp (e st))) / exp (e xr)).
  { rewrite (sumf_ext _ _ (fun st => exp (e st) * / exp (e xr))) by (intros; unfold Rminus; now rewrite exp_plus, exp_Ropp). rewrite sumf_scal_r. field. lra. }
  rewrite Q, !ln_quot by lra. ring.
Qed.

(** ** C41 *)
(** For every k and every data set, the value minimised by _solve_potts is the negative log
    pseudolikelihood plus the cost, and the second component is its gradient. *)
Theorem C41_potts_objective : forall (n k : nat) (sample : list (list nat)) (params : list R) (cost : list R -> R) (cost_jac : list R -> list R),
  (forall x, In x sample -> length x = n /\ forall v, In v x -> (v < k)%nat) ->
  length params = (k * n + n * (n - 1) / 2)%nat ->
  (forall j, (j < length params)%nat -> is_derive (fun t : R => cost (upd params j t)) (nthR params j) (nthR (cost_jac params) j)) ->
  let L := fun p => sumf (seq 0 n) (neg_log_pl_potts n k p sample) in
  exists grad, pseudo_potts_f (pseudo_potts_get_multipliers_r n k) (pseudo_potts_calc_observables_r n k) n k (length params) sample cost cost_jac params
      = Ok (L params + cost params, grad) /\
    length grad = length params /\ 0 <= L params /\
    forall j, (j < length params)%nat -> is_derive (fun t : R => L (upd params j t) + cost (upd params j t)) (nthR params j) (nthR grad j).
Proof.
  intros n k sample params cost cost_jac Hs Hp Hc L.
  assert (V : forall p, L p = sumf (seq 0 n) (fun r => sumf sample (fun x => ln (potts_D n k r x p)))).
  { intros p. unfold L. apply sumf_ext_in. intros r Hr. apply in_seq in Hr. unfold neg_log_pl_potts. rewrite <- sumf_opp. apply sumf_ext_in. intros x Hx.
    destruct (Hs x Hx). symmetry. apply potts_D_cond; [lia|assumption|assumption]. }
  destruct (potts_f_ok n k sample params Hs Hp cost cost_jac) as (grad & E & Lg & Hg).
  exists grad. split; [rewrite E, V; reflexivity|]. split; [exact Lg|]. split.
  - rewrite V. apply sumf_nonneg. intros r _. apply sumf_nonneg. intros x _. rewrite <- ln_1. pose proof (potts_D_pos n k r x params) as H.
    destruct H as [H|H]; [left; apply ln_increasing; lra|right; now rewrite <- H].
  - intros j Hj. rewrite Hg by assumption.
    apply (is_derive_plus (fun t : R => L (upd params j t)) (fun t : R => cost (upd params j t))); [|now apply Hc].
    apply (is_derive_ext (fun t : R => sumf (seq 0 n) (fun r => sumf sample (fun x => ln (potts_D n k r x (upd params j t)))))).
    { intros t. symmetry. apply V. }
    now apply potts_obj_derive.
Qed.
Print Assumptions C41_potts_objective.

(** Three spins, three states, with and without a quadratic cost. *)
Example C41_example :
  (forall x, In x [[0; 1; 1]; [2; 1; 0]]%nat -> length x = 3%nat /\ forall v, In v x -> (v < 3)%nat) /\
  length (repeat 0.5 12) = (3 * 3 + 3 * (3 - 1) / 2)%nat /\
  (forall j, (j < 12)%nat -> is_derive (fun t : R => sumf (upd (repeat 0.5 12) j t) (fun a => a * a)) (nthR (repeat 0.5 12) j)
     (nthR (map (fun a => 2 * a) (repeat 0.5 12)) j)).
Proof.
  split; [|split; [reflexivity|]].
  - intros x [<-|[<-|[]]]; (split; [reflexivity|]); intros v Hv; cbn in Hv; intuition lia.
  - intros j Hj. do 12 (destruct j as [|j]; [cbn [upd repeat map nthR nth]; unfold nthR; cbn [nth]; 
      apply (is_derive_ext (fun t : R => t * t + 11 * (0.5 * 0.5))); [intros t; unfold sumf; cbn; ring|auto_derive; [exact I|ring]]|]). lia.
Qed.

(** ** Examples for C42, C43 and C69 *)
Example C42_example : exists gmat, initial_guess_mat 3 [10; 20; 30; 1; 2; 3] = Ok gmat /\
  nth 0 gmat [] = [10; 1; 2] /\ nth 1 gmat [] = [20; 1; 3] /\ nth 2 gmat [] = [30; 3; 2] /\
  pseudo_ising_get_multipliers_r 3 2 [10; 20; 30; 1; 2; 3] = Ok ([30; 2; 3], [2; 4; 5]%nat).
Proof.
  destruct (initial_guess_mat_ok 3 [10; 20; 30; 1; 2; 3] ltac:(lia) eq_refl) as (gmat & E & _ & H). exists gmat. split; [exact E|].
  rewrite !H by lia. repeat split; reflexivity.
Qed.

(** A minimiser that returns the starting point: the solver returns the caller's guess
    for two spins, a permuted and averaged one for three. *)
Example C43_example :
  solve_ising (pseudo_ising_get_multipliers_r 3) (pseudo_ising_calc_observables_r 3) 3 6 [[1; -1; 1]] (Some [10; 20; 30; 1; 2; 3]) (fun _ x => x)
    = Ok [10; 20; 30; (1 + 1) / 2; (2 + 3) / 2; (3 + 2) / 2] /\
  (forall s, In s [[1; -1; 1]] -> spin_state 3 s).
Proof.
  split.
  - rewrite (solve_ising_ok (pseudo_ising_get_multipliers_r 3) (pseudo_ising_calc_observables_r 3) 3 6 _ (Some [10; 20; 30; 1; 2; 3]) (fun _ x => x) (ising_ix 3));
      [reflexivity|lia|reflexivity| |].
    + intros r Hr. rewrite ising_get by assumption. eexists. reflexivity.
    + intros r Hr. unfold start. now rewrite map_length, seq_length.
  - intros s [<-|[]]. split; [reflexivity|]. intros x Hx. cbn in Hx. intuition subst; auto.
Qed.

Example C69_example :
  exact_sample 2 [0; 0; ln 2 / 2] [[1; 1]; [1; 1]; [-1; -1]; [-1; -1]; [1; -1]; [-1; 1]]%Z /\ exists minimize, finds_minimum minimize.
Proof.
  destruct Props_MPF.C38_example as (H1 & H2 & _). split; [split; [discriminate|split; [exact H1|exact H2]]|].
  exists (fun f x0 => ClassicalEpsilon.epsilon (inhabits []) (pl_minimum f (length x0))).
  intros f x0 y H. apply ClassicalEpsilon.epsilon_spec. exists y. exact H.
Qed.
