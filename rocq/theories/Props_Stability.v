(** * C84: stability of a mean field solution; the stream of seeds. *)
From Coquelicot Require Import Complex.
From Verif Require Import Prelude PreludeFacts M_Params P_Params M_MeanField P_MeanField P_RMF M_RMF M_Homog Props_RMF.
Import ListNotations.
Local Open Scope R_scope.

(** ** Specification *)
(** One step of the self-consistency iteration of the mean field equations. *)
Definition mf_step (n : nat) (h : list R) (J : list (list R)) (x : list R) (i : nat) : R :=
  / (1 + exp (nthR h i + 2 * sumf (filter (fun j => negb (Nat.eqb i j)) (seq 0 n)) (fun j => entry J i j * nthR x j))).
Definition mf_solution (n : nat) (h : list R) (J : list (list R)) (x : list R) : Prop :=
  length x = n /\ forall i, (i < n)%nat -> nthR x i = mf_step n h J x i.

(** Complex eigenvalue of a real matrix, by the real and imaginary parts of the vector. *)
Definition eigenvalue (n : nat) (M : nat -> nat -> R) (l : Complex.C) : Prop :=
  exists u v : nat -> R, (exists i, (i < n)%nat /\ (u i <> 0 \/ v i <> 0)) /\
  forall i, (i < n)%nat ->
    sumf (seq 0 n) (fun j => M i j * u j) = fst l * u i - snd l * v i /\
    sumf (seq 0 n) (fun j => M i j * v j) = fst l * v i + snd l * u i.

(** The matrix D of first derivatives of the step at x. *)
Definition jacobian (n : nat) (h : list R) (J : list (list R)) (x : list R) (D : nat -> nat -> R) : Prop :=
  forall i j, (i < n)%nat -> (j < n)%nat ->
  derivable_pt_lim (fun t => mf_step n h J (upd x j t) i) (nthR x j) (D i j).

Lemma nthR_upd x j t k : (j < length x)%nat -> nthR (upd x j t) k = if Nat.eqb k j then t else nthR x k.
Proof.
  intros H. unfold nthR. destruct (Nat.eqb_spec k j) as [-> | N].
  - apply nth_upd_same. exact H.
  - apply nth_upd_other. congruence.
Qed.

Lemma logistic_derive (a b t0 : R) : derivable_pt_lim (fun t => / (1 + exp (a + b * t))) t0
  (- b * (/ (1 + exp (a + b * t0)) * (1 - / (1 + exp (a + b * t0))))).
Proof.
  pose proof (exp_pos (a + b * t0)) as P.
  assert (D1 : derivable_pt_lim (fun t => 1 + exp (a + b * t)) t0 (0 + exp (a + b * t0) * (0 + b * 1))).
  { apply (derivable_pt_lim_plus (fun _ => 1) (fun t => exp (a + b * t))); [apply derivable_pt_lim_const |].
    apply (derivable_pt_lim_comp (fun t => a + b * t) exp); [| apply derivable_pt_lim_exp].
    apply (derivable_pt_lim_plus (fun _ => a) (fun t => b * t)); [apply derivable_pt_lim_const |].
    apply (derivable_pt_lim_scal id). apply derivable_pt_lim_id. }
  replace (- b * (/ (1 + exp (a + b * t0)) * (1 - / (1 + exp (a + b * t0))))) with
    (- (0 + exp (a + b * t0) * (0 + b * 1)) / (1 + exp (a + b * t0))²) by (unfold Rsqr; field; lra).
  apply (derivable_pt_lim_inv (fun t => 1 + exp (a + b * t))); [lra | exact D1].
Qed.

Definition others (n i : nat) : list nat := filter (fun j => negb (Nat.eqb i j)) (seq 0 n).

Lemma step_at n h J x j i : length x = n -> (j < n)%nat -> exists a, forall t,
  mf_step n h J (upd x j t) i = / (1 + exp (a + (if Nat.eqb i j then 0 else 2 * entry J i j) * t)).
Proof.
  intros L Hj. exists (nthR h i + 2 * sumf (others n i) (fun k => if Nat.eqb k j then 0 else entry J i k * nthR x k)). intros t.
  unfold mf_step. fold (others n i). do 3 f_equal. 
  transitivity (nthR h i + 2 * (sumf (others n i) (fun k => if Nat.eqb k j then 0 else entry J i k * nthR x k) + (if Nat.eqb i j then 0 else entry J i j) * t)).
  2: destruct (Nat.eqb i j); ring.
  f_equal. f_equal.
  transitivity (sumf (others n i) (fun k => if Nat.eqb k j then 0 else entry J i k * nthR x k) + sumf (others n i) (fun k => if Nat.eqb k j then entry J i j * t else 0)).
  - rewrite <- sumf_plus. apply sumf_ext. intros k. rewrite nthR_upd by lia. destruct (Nat.eqb_spec k j) as [-> | ]; ring.
  - f_equal. unfold others. rewrite sumf_filter.
    rewrite (sumf_ext_in _ _ (fun k => if Nat.eq_dec k j then (if Nat.eqb i j then 0 else entry J i j) * t else 0)).
    2:{ intros k _. destruct (Nat.eqb_spec i k), (Nat.eqb_spec k j), (Nat.eq_dec k j), (Nat.eqb_spec i j); subst; cbn [negb]; try congruence; ring. }
    assert (G : forall l, NoDup l -> In j l -> sumf l (fun k => if Nat.eq_dec k j then (if Nat.eqb i j then 0 else entry J i j) * t else 0) = (if Nat.eqb i j then 0 else entry J i j) * t).
    { induction l as [| b l IH]; intros ND I; [destruct I |]. inversion ND; subst. rewrite sumf_cons. destruct (Nat.eq_dec b j) as [-> | Nb].
      - rewrite sumf_zero; [ring |]. intros c Hc. destruct (Nat.eq_dec c j); [subst; contradiction | reflexivity].
      - destruct I as [E | I]; [congruence |]. rewrite IH by assumption. ring. }
    apply G; [apply seq_NoDup | apply in_seq; lia].
Qed.

(** The derivatives at a solution. *)
Lemma jacobian_solution n h J x : mf_solution n h J x ->
  jacobian n h J x (fun i j => if Nat.eqb i j then 0 else -2 * entry J i j * (nthR x i * (1 - nthR x i))).
Proof.
  intros [L S] i j Hi Hj. destruct (step_at n h J x j i L Hj) as [a Ha].
  assert (U : upd x j (nthR x j) = x).
  { apply (nth_ext _ _ 0 0); [apply upd_length |]. intros k _. change (nthR (upd x j (nthR x j)) k = nthR x k). rewrite nthR_upd by lia.
    destruct (Nat.eqb_spec k j); subst; reflexivity. }
  assert (V : nthR x i = / (1 + exp (a + (if Nat.eqb i j then 0 else 2 * entry J i j) * nthR x j))) by (rewrite <- Ha, U; apply S; exact Hi).
  pose proof (logistic_derive a (if Nat.eqb i j then 0 else 2 * entry J i j) (nthR x j)) as D. rewrite <- V in D.
  replace (if Nat.eqb i j then 0 else -2 * entry J i j * (nthR x i * (1 - nthR x i))) with
    (- (if Nat.eqb i j then 0 else 2 * entry J i j) * (nthR x i * (1 - nthR x i))) by (destruct (Nat.eqb i j); ring).
  intros eps He. destruct (D eps He) as [del Hd]. exists del. intros t T1 T2. rewrite !Ha. apply Hd; assumption.
Qed.

Lemma jacobian_unique n h J x D D' : jacobian n h J x D -> jacobian n h J x D' -> forall i j, (i < n)%nat -> (j < n)%nat -> D i j = D' i j.
Proof. intros A B i j Hi Hj. exact (uniqueness_limite _ _ _ _ (A i j Hi Hj) (B i j Hi Hj)). Qed.

Lemma eigenvalue_ext n M M' l : (forall i j, (i < n)%nat -> (j < n)%nat -> M i j = M' i j) -> eigenvalue n M l -> eigenvalue n M' l.
Proof.
  intros E (u & v & N & H). exists u, v. split; [exact N |]. intros i Hi. destruct (H i Hi) as [A B].
  split; [rewrite <- A | rewrite <- B]; apply sumf_ext_in; intros j Hj; apply in_seq in Hj; rewrite E by lia; reflexivity.
Qed.

(** Scaling rows or columns gives the same eigenvalues. *)
Lemma eigenvalue_swap n (A : nat -> nat -> R) d l : (forall i, (i < n)%nat -> d i <> 0) ->
  eigenvalue n (fun i j => A i j * d j) l <-> eigenvalue n (fun i j => A i j * d i) l.
Proof.
  intros Hd. split; intros (u & v & (i0 & Hi0 & N) & H).
  - exists (fun i => d i * u i), (fun i => d i * v i). split.
    + exists i0. split; [exact Hi0 |]. pose proof (Hd i0 Hi0). destruct N; [left | right]; apply Rmult_integral_contrapositive; split; assumption.
    + intros i Hi. destruct (H i Hi) as [H1 H2]. split.
      * transitivity (d i * sumf (seq 0 n) (fun j => A i j * d j * u j)); [rewrite <- sumf_scal_l; apply sumf_ext; intros; ring | rewrite H1; ring].
      * transitivity (d i * sumf (seq 0 n) (fun j => A i j * d j * v j)); [rewrite <- sumf_scal_l; apply sumf_ext; intros; ring | rewrite H2; ring].
  - exists (fun i => u i / d i), (fun i => v i / d i). split.
    + exists i0. split; [exact Hi0 |]. pose proof (Hd i0 Hi0). destruct N; [left | right]; apply Rmult_integral_contrapositive; split; try assumption; apply Rinv_neq_0_compat; assumption.
    + intros i Hi. destruct (H i Hi) as [H1 H2]. pose proof (Hd i Hi) as Di. split.
      * transitivity (/ d i * sumf (seq 0 n) (fun j => A i j * d i * u j)).
        -- rewrite <- sumf_scal_l. apply sumf_ext_in. intros j Hj. apply in_seq in Hj. assert (d j <> 0) by (apply Hd; lia). field. split; assumption.
        -- rewrite H1. field. exact Di.
      * transitivity (/ d i * sumf (seq 0 n) (fun j => A i j * d i * v j)).
        -- rewrite <- sumf_scal_l. apply sumf_ext_in. intros j Hj. apply in_seq in Hj. assert (d j <> 0) by (apply Hd; lia). field. split; assumption.
        -- rewrite H2. field. exact Di.
Qed.

Lemma fold_max l x : (In (fold_left Rmax l x) (x :: l)) /\ forall y, In y (x :: l) -> y <= fold_left Rmax l x.
Proof.
  revert x; induction l as [| b l IH]; intros x; cbn [fold_left].
  - split; [now left |]. intros y [<- | []]. lra.
  - destruct (IH (Rmax x b)) as [A B]. split.
    + destruct A as [<- | A]; [| now right; right]. unfold Rmax. destruct (Rle_dec x b); [right; now left | now left].
    + assert (M := B _ (or_introl eq_refl)). pose proof (Rmax_l x b). pose proof (Rmax_r x b).
      intros y [<- | [<- | Hy]]; [lra | lra |]. apply B. now right.
Qed.

(** ** The returned number is the spectral radius of the derivative of the self-consistency
    iteration at the solution.  The eigenvalue routine is asked about one matrix only: the
    derivative with its columns, not its rows, multiplied by f(1-f). *)
Theorem C84_stability : forall eigvals n h J freqs, (0 < n)%nat -> sq n J -> mf_solution n h J freqs ->
  let M := mk_mat n n (fun i j => if Nat.eqb i j then 0 else -2 * entry J i j * (nthR freqs j * (1 - nthR freqs j))) in
  eigvals M <> [] -> (forall l, In l (eigvals M) <-> eigenvalue n (entry M) l) ->
  exists r, meanFieldStability eigvals J freqs = Ok r /\
  forall D, jacobian n h J freqs D ->
    (exists l, eigenvalue n D l /\ Cmod l = r) /\ (forall l, eigenvalue n D l -> Cmod l <= r).
Proof.
  intros eigvals n h J freqs Hn HJ HS M Hne He. destruct HS as [L S].
  assert (HM : exists Jz, zeroDiag J = Ok Jz /\ length Jz = n /\ stability_matrix Jz freqs = M).
  { exists (mk_mat n n (fun i j => if Nat.eqb i j then 0 else entry J i j)).
    rewrite (sq_mk_mat n J HJ) at 1. rewrite zeroDiag_mk. split; [reflexivity |]. split; [apply mk_mat_length |].
    unfold stability_matrix, M. rewrite L. apply mk_mat_ext. intros i j Hi Hj. rewrite entry_mk_mat by assumption. destruct (Nat.eqb i j); ring. }
  destruct HM as (Jz & E1 & E2 & E3). unfold meanFieldStability. rewrite E1. cbn [bind]. rewrite E2, L, Nat.eqb_refl, E3.
  destruct (eigvals M) as [| l0 ls] eqn:EV; [congruence |]. cbn [map]. eexists. split; [reflexivity |].
  assert (F : forall i, (i < n)%nat -> nthR freqs i * (1 - nthR freqs i) <> 0).
  { intros i Hi. rewrite (S i Hi). unfold mf_step. set (e := exp _). assert (0 < e) by apply exp_pos.
    replace (/ (1 + e) * (1 - / (1 + e))) with (e / ((1 + e) * (1 + e))) by (field; lra).
    apply Rgt_not_eq, Rdiv_lt_0_compat; [assumption | nra]. }
  intros D HD.
  assert (EQ : forall l, eigenvalue n D l <-> In l (l0 :: ls)).
  { intros l. rewrite He. 
    pose proof (jacobian_unique n h J freqs _ _ HD (jacobian_solution n h J freqs (conj L S))) as U. cbv beta in U.
    pose proof (eigenvalue_swap n (fun i j => if Nat.eqb i j then 0 else -2 * entry J i j) (fun i => nthR freqs i * (1 - nthR freqs i)) l F) as W. cbv beta in W.
    split; intros H.
    - apply eigenvalue_ext with (M := fun i j => (if Nat.eqb i j then 0 else -2 * entry J i j) * (nthR freqs j * (1 - nthR freqs j))).
      + intros i j Hi Hj. unfold M. rewrite entry_mk_mat by assumption. destruct (Nat.eqb i j); ring.
      + apply W. eapply eigenvalue_ext; [| exact H]. intros i j Hi Hj. rewrite U by assumption. destruct (Nat.eqb i j); ring.
    - apply eigenvalue_ext with (M := fun i j => (if Nat.eqb i j then 0 else -2 * entry J i j) * (nthR freqs i * (1 - nthR freqs i))).
      + intros i j Hi Hj. rewrite U by assumption. destruct (Nat.eqb i j); ring.
      + apply W. eapply eigenvalue_ext; [| exact H]. intros i j Hi Hj. unfold M. rewrite entry_mk_mat by assumption. destruct (Nat.eqb i j); ring. }
  destruct (fold_max (map Cmod ls) (Cmod l0)) as [A B]. change (Cmod l0 :: map Cmod ls) with (map Cmod (l0 :: ls)) in A, B. split.
  - apply in_map_iff in A. destruct A as (l & A1 & A2). exists l. split; [apply EQ; exact A2 | exact A1].
  - intros l Hl. apply B. apply in_map. apply EQ. exact Hl.
Qed.
Print Assumptions C84_stability.

(** Shapes that do not fit raise. *)
Theorem C84_shapes : forall eigvals n J freqs, sq n J -> length freqs <> n -> meanFieldStability eigvals J freqs = Err ValueError.
Proof.
  intros eigvals n J freqs HJ L. unfold meanFieldStability. rewrite (sq_mk_mat n J HJ). rewrite zeroDiag_mk. cbn [bind]. rewrite mk_mat_length.
  destruct (Nat.eqb_spec n (length freqs)); [congruence | reflexivity].
Qed.
Print Assumptions C84_shapes.

(** The k-th seed; different draws never repeat a seed unless the step is 0. *)
Theorem C84_seeds : forall start delta k, length (seedGenerator start delta k) = k /\
  (forall i, (i < k)%nat -> nth i (seedGenerator start delta k) 0%Z = (start + (Z.of_nat i + 1) * delta)%Z) /\
  (delta <> 0%Z -> NoDup (seedGenerator start delta k)).
Proof.
  intros start delta k.
  assert (L : forall k start, length (seedGenerator start delta k) = k) by (clear; induction k; intros; [reflexivity |]; simpl; now rewrite IHk).
  assert (V : forall k start i, (i < k)%nat -> nth i (seedGenerator start delta k) 0%Z = (start + (Z.of_nat i + 1) * delta)%Z).
  { clear; induction k; intros start i Hi; [lia |]. destruct i; cbn [seedGenerator nth]; [lia |]. rewrite IHk by lia. lia. }
  split; [apply L |]. split; [apply V |]. intros Hd. apply (NoDup_nth _ 0%Z). rewrite L. intros i j Hi Hj. rewrite !V by assumption. intros E.
  assert ((Z.of_nat i - Z.of_nat j) * delta = 0)%Z by lia. apply Z.mul_eq_0 in H. lia.
Qed.
Print Assumptions C84_seeds.

(** Two units that inhibit each other with coupling 1 and fields -1: both frequencies 1/2
    solve the equations, the derivative has eigenvalues 1/2 and -1/2. *)
Example C84_example : mf_solution 2 [-1; -1] [[0; 1]; [1; 0]] [/ 2; / 2] /\
  exists eigvals : list (list R) -> list Complex.C,
    let M := mk_mat 2 2 (fun i j => if Nat.eqb i j then 0 else -2 * entry [[0; 1]; [1; 0]] i j * (nthR [/ 2; / 2] j * (1 - nthR [/ 2; / 2] j))) in
    eigvals M <> [] /\ (forall l, In l (eigvals M) <-> eigenvalue 2 (entry M) l) /\
    meanFieldStability eigvals [[0; 1]; [1; 0]] [/ 2; / 2] = Ok (/ 2).
Proof.
  split.
  - split; [reflexivity |]. intros [| [| i]] Hi; [| | lia].
    + unfold mf_step. cbn [seq filter Nat.eqb negb]. rewrite sumf_cons, sumf_nil. unfold nthR, entry; cbn [nth].
      replace (-1 + 2 * (1 * / 2 + 0)) with 0 by field. rewrite exp_0. lra.
    + unfold mf_step. cbn [seq filter Nat.eqb negb]. rewrite sumf_cons, sumf_nil. unfold nthR, entry; cbn [nth].
      replace (-1 + 2 * (1 * / 2 + 0)) with 0 by field. rewrite exp_0. lra.
  - exists (fun _ => [(/ 2, 0); (- / 2, 0)]). cbv zeta. split; [discriminate |]. split.
    + assert (EM : forall i j, (i < 2)%nat -> (j < 2)%nat -> entry (mk_mat 2 2 (fun i j => if Nat.eqb i j then 0 else -2 * entry [[0; 1]; [1; 0]] i j * (nthR [/ 2; / 2] j * (1 - nthR [/ 2; / 2] j)))) i j = if Nat.eqb i j then 0 else - / 2).
      { intros i j Hi Hj. rewrite entry_mk_mat by assumption. destruct i as [| [| i]]; destruct j as [| [| j]]; try lia; cbn [Nat.eqb]; unfold entry, nthR; cbn [nth]; lra. }
      intros [x y]. split.
      * intros H. apply eigenvalue_ext with (M := fun i j => if Nat.eqb i j then 0 else - / 2); [intros; symmetry; apply EM; assumption |].
        destruct H as [H | [H | []]]; injection H as <- <-.
        -- exists (fun i => if Nat.eqb i 0 then 1 else -1), (fun _ => 0). split; [exists 0%nat; split; [lia | left; cbn; lra] |].
           intros [| [| i]] Hi; [| | lia]; cbn [seq]; rewrite !sumf_cons, !sumf_nil; cbn; lra.
        -- exists (fun i => 1), (fun _ => 0). split; [exists 0%nat; split; [lia | left; lra] |].
           intros [| [| i]] Hi; [| | lia]; cbn [seq]; rewrite !sumf_cons, !sumf_nil; cbn; lra.
      * intros H. apply (eigenvalue_ext 2 _ (fun i j => if Nat.eqb i j then 0 else - / 2)) in H; [| exact EM].
        destruct H as (u & v & N & H). pose proof (H 0%nat ltac:(lia)) as [A1 B1]. pose proof (H 1%nat ltac:(lia)) as [A2 B2].
        cbn [seq] in *. rewrite !sumf_cons, !sumf_nil in *. cbn [Nat.eqb fst snd] in *. clear H.
        assert (P1 : (x + / 2) * (u 0%nat + u 1%nat) = y * (v 0%nat + v 1%nat)) by lra.
        assert (P2 : (x + / 2) * (v 0%nat + v 1%nat) = - y * (u 0%nat + u 1%nat)) by lra.
        assert (P3 : (x - / 2) * (u 0%nat - u 1%nat) = y * (v 0%nat - v 1%nat)) by lra.
        assert (P4 : (x - / 2) * (v 0%nat - v 1%nat) = - y * (u 0%nat - u 1%nat)) by lra.
        assert (K : forall z a b, z * a = y * b -> z * b = - y * a -> (a <> 0 \/ b <> 0) -> z = 0 /\ y = 0).
        { intros z a b K1 K2 K3. assert (0 < a * a + b * b) by (destruct K3; nra).
          assert (z * (a * a + b * b) = 0) by (replace (z * (a * a + b * b)) with (z * a * a + z * b * b) by ring; rewrite K1, K2; ring).
          assert (y * (a * a + b * b) = 0) by (replace (y * (a * a + b * b)) with (y * b * b - - y * a * a) by ring; rewrite <- K1, <- K2; ring).
          split; [apply Rmult_integral in H0 | apply Rmult_integral in H1]; lra. }
        destruct (Req_dec (u 0%nat + u 1%nat) 0) as [Q1 | Q1]; [destruct (Req_dec (v 0%nat + v 1%nat) 0) as [Q2 | Q2] |].
        -- destruct (K _ _ _ P3 P4) as [K1 K2].
           { destruct N as ([| [| i]] & Hi & N); [| | lia]; destruct N; [left | right | left | right]; lra. }
           left. f_equal; lra.
        -- destruct (K _ _ _ P1 P2 (or_intror Q2)) as [K1 K2]. right; left. f_equal; lra.
        -- destruct (K _ _ _ P1 P2 (or_introl Q1)) as [K1 K2]. right; left. f_equal; lra.
    + unfold meanFieldStability, zeroDiag, replaceDiag. cbn [length repeat is_square forallb Nat.eqb andb negb]. cbn [bind]. rewrite mk_mat_length. cbn [Nat.eqb length].
      cbn [map fold_left]. f_equal. unfold Cmod; cbn [fst snd].
      replace ((/ 2) ^ 2 + 0 ^ 2) with (/ 2 * / 2) by ring. replace ((- / 2) ^ 2 + 0 ^ 2) with (/ 2 * / 2) by ring.
      rewrite sqrt_square by lra. apply Rmax_left. lra.
Qed.
