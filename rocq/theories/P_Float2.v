(** * Rounding in the Metropolis updates: acceptance, running energy, long runs *)
From Coq Require Import Permutation.
From Coquelicot Require Import Coquelicot.
From Flocq Require Import Core.
From Verif Require Import Prelude Spec PreludeFacts M_Index M_Energy M_Sampler P_Index P_Energy P_Energy2 P_Sampler P_Metro P_Cpp P_Converge P_Converge2 M_Float P_Float.
Import ListNotations.
Local Open Scope R_scope.

(** ** Acceptance *)
Lemma accept_prob_exp x : accept_prob x = exp (- Rmax 0 x).
Proof.
  unfold accept_prob, Rmax. destruct (Rle_dec 0 x) as [H|H].
  - apply Rmin_right. rewrite <- exp_0. destruct (Req_dec x 0) as [-> |N]; [rewrite Ropp_0; lra|]. left. apply exp_increasing. lra.
  - rewrite Ropp_0, exp_0. apply Rmin_left. rewrite <- exp_0. left. apply exp_increasing. lra.
Qed.

Lemma exp_neg_lip a b : 0 <= a <= b -> 0 <= exp (- a) - exp (- b) <= b - a.
Proof.
  intros H. assert (E : exp (- b) = exp (- a) * exp (- (b - a))) by (rewrite <- exp_plus; f_equal; ring).
  assert (L : 1 + - (b - a) <= exp (- (b - a))) by apply exp_ineq1_le.
  assert (P := exp_pos (- a)). assert (P1 : exp (- a) <= 1) by (rewrite <- exp_0; destruct (Req_dec a 0) as [-> |N]; [rewrite Ropp_0; lra|left; apply exp_increasing; lra]).
  assert (P2 : exp (- (b - a)) <= 1) by (rewrite <- exp_0; destruct (Req_dec a b) as [-> |N]; [rewrite Rminus_eq_0, Ropp_0; lra|left; apply exp_increasing; lra]).
  rewrite E. set (x := exp (- a)) in *. set (y := exp (- (b - a))) in *. nra.
Qed.

Lemma accept_lip x y : Rabs (accept_prob x - accept_prob y) <= Rabs (x - y).
Proof.
  rewrite !accept_prob_exp. assert (M : Rabs (Rmax 0 x - Rmax 0 y) <= Rabs (x - y)).
  { unfold Rmax. destruct (Rle_dec 0 x), (Rle_dec 0 y); unfold Rabs; repeat destruct (Rcase_abs _); lra. }
  eapply Rle_trans; [|exact M]. assert (X := Rmax_l 0 x). assert (Y := Rmax_l 0 y). set (a := Rmax 0 x) in *. set (b := Rmax 0 y) in *.
  destruct (Rle_dec a b) as [L|L].
  - assert (K := exp_neg_lip a b ltac:(lra)). rewrite Rabs_pos_eq by lra. rewrite Rabs_minus_sym, Rabs_pos_eq by lra. lra.
  - assert (K := exp_neg_lip b a ltac:(lra)). rewrite Rabs_minus_sym, Rabs_pos_eq by lra. rewrite Rabs_pos_eq by lra. lra.
Qed.

(** The probability with which the float code accepts an energy difference. *)
Definition fl_accept (fexp : R -> R) (de : R) : R := if Rlt_dec 0 de then Rmax 0 (Rmin 1 (fexp (- de))) else 1.

Lemma fl_accept_range fexp de : 0 <= fl_accept fexp de <= 1.
Proof. unfold fl_accept. destruct (Rlt_dec 0 de); [|lra]. split; [apply Rmax_l|]. apply Rmax_lub; [lra|apply Rmin_l]. Qed.

(** An exponential function that is off by at most d for arguments up to 0. *)
Definition exp_within (fexp : R -> R) (d : R) : Prop := forall x, x <= 0 -> Rabs (fexp x - exp x) <= d.

Lemma fl_accept_near fexp d de dE eta : exp_within fexp d -> Rabs (de - dE) <= eta -> Rabs (fl_accept fexp de - accept_prob dE) <= eta + d.
Proof.
  intros He Hd. assert (P0 : 0 <= d) by (eapply Rle_trans; [apply Rabs_pos|apply (He 0); lra]).
  replace (fl_accept fexp de - accept_prob dE) with ((accept_prob de - accept_prob dE) + (fl_accept fexp de - accept_prob de)) by ring.
  eapply Rle_trans; [apply Rabs_triang|]. assert (A := accept_lip de dE).
  assert (B : Rabs (fl_accept fexp de - accept_prob de) <= d); [|lra].
  unfold fl_accept. destruct (Rlt_dec 0 de) as [H|H].
  - rewrite accept_prob_exp, (Rmax_right 0 de) by lra. specialize (He (- de) ltac:(lra)). assert (Q := exp_pos (- de)). assert (Q1 : exp (- de) <= 1) by (rewrite <- exp_0; left; apply exp_increasing; lra).
    apply Rabs_le_between in He. apply Rabs_le. unfold Rmax, Rmin. destruct (Rle_dec 1 (fexp (- de))); destruct (Rle_dec 0 _); lra.
  - rewrite accept_prob_exp, Rmax_left by lra. rewrite Ropp_0, exp_0, Rminus_eq_0, Rabs_R0. assumption.
Qed.

(** State and energy difference of one float update whose random number is u. *)
Definition fl_outcome (fexp : R -> R) (calc_e : list Z -> R) (fs : option nat) (i : nat) (s : list Z) (E u : R) : list Z * R :=
  fst (fl_sample_metropolis (const_rng i 0 u) fexp calc_e fs s E tt).

Lemma threshold_clip fexp de u : 0 < u < 1 -> 0 < de -> (fexp (- de) < u <-> fl_accept fexp de < u).
Proof. intros Hu Hd. unfold fl_accept. destruct (Rlt_dec 0 de); [|lra]. unfold Rmax, Rmin. destruct (Rle_dec 1 (fexp (- de))); destruct (Rle_dec 0 _); lra. Qed.

Lemma fl_update_average fexp calc_e fs i s E (G : list Z * R -> R) :
  let s1 := flip s (site_or fs i) in let de := fsub (calc_e s1) E in let a := fl_accept fexp de in
  is_RInt (fun u => G (fl_outcome fexp calc_e fs i s E u)) 0 1 (a * G (s1, de) + (1 - a) * G (s, 0)).
Proof.
  cbv zeta. set (s1 := flip s (site_or fs i)). set (de := fsub (calc_e s1) E). apply RInt_threshold; [apply fl_accept_range|].
  intros u Hu. unfold fl_outcome, fl_sample_metropolis.
  assert (Es : (match fs with Some i0 => (i0, tt) | None => randint (const_rng i 0 u) tt 0%nat (length s) end) = (site_or fs i, tt)) by (destruct fs; reflexivity).
  rewrite Es. fold s1. fold de. cbn [const_rng rand]. destruct (Rlt_dec 0 de) as [Hd|Hd].
  - assert (K := threshold_clip fexp de u Hu Hd). destruct (Rlt_dec (fexp (- de)) u) as [L|L]; destruct (Rlt_dec (fl_accept fexp de) u) as [L'|L']; try tauto.
    cbn [fst]. unfold s1. now rewrite flip_flip.
  - cbn [fst]. unfold fl_accept. destruct (Rlt_dec 0 de); [lra|]. destruct (Rlt_dec 1 u); [lra|reflexivity].
Qed.

(** Expected value of F after the float updates; compare [Erun]. *)
Fixpoint Efl_run (fexp : R -> R) (calc_e : list Z -> R) (n : nat) (fs : list (option nat)) (F : list Z -> R) (s : list Z) (E : R) : R :=
  match fs with
  | [] => F s
  | Some j :: fs' =>
    RInt (fun u => let '(s1, de) := fl_outcome fexp calc_e (Some j) 0 s E u in Efl_run fexp calc_e n fs' F s1 (fadd E de)) 0 1
  | None :: fs' =>
    sumf (seq 0 n) (fun i =>
      RInt (fun u => let '(s1, de) := fl_outcome fexp calc_e None i s E u in Efl_run fexp calc_e n fs' F s1 (fadd E de)) 0 1) / INR n
  end.

Lemma fl_RInt fexp calc_e fs i s E (G : list Z -> R -> R) :
  let s1 := flip s (site_or fs i) in let de := fsub (calc_e s1) E in let a := fl_accept fexp de in
  RInt (fun u => let '(s1, de) := fl_outcome fexp calc_e fs i s E u in G s1 (fadd E de)) 0 1 = a * G s1 (fadd E de) + (1 - a) * G s (fadd E 0).
Proof.
  cbv zeta. apply is_RInt_unique. assert (H := fl_update_average fexp calc_e fs i s E (fun p => G (fst p) (fadd E (snd p)))). cbv zeta in H. cbn [fst snd] in H.
  eapply is_RInt_ext; [|exact H]. intros u _. cbv beta. destruct (fl_outcome fexp calc_e fs i s E u) as [x y]. reflexivity.
Qed.

Lemma mix_near a a0 G1 G0 g1 g0 D O e : 0 <= a <= 1 -> Rabs (a - a0) <= e -> Rabs (G1 - g1) <= D -> Rabs (G0 - g0) <= D -> Rabs (g1 - g0) <= O ->
  Rabs ((a * G1 + (1 - a) * G0) - (a0 * g1 + (1 - a0) * g0)) <= D + e * O.
Proof.
  intros Ha Hd H1 H0 Ho.
  replace ((a * G1 + (1 - a) * G0) - (a0 * g1 + (1 - a0) * g0)) with ((a * (G1 - g1) + (1 - a) * (G0 - g0)) + (a - a0) * (g1 - g0)) by ring.
  eapply Rle_trans; [apply Rabs_triang|]. apply Rplus_le_compat.
  - eapply Rle_trans; [apply Rabs_triang|]. rewrite !Rabs_mult, (Rabs_pos_eq a), (Rabs_pos_eq (1 - a)) by lra. nra.
  - rewrite Rabs_mult. apply Rmult_le_compat; try apply Rabs_pos; assumption.
Qed.

Lemma mean_near n (f g : nat -> R) D : (0 < n)%nat -> (forall i, (i < n)%nat -> Rabs (f i - g i) <= D) -> Rabs (sumf (seq 0 n) f / INR n - sumf (seq 0 n) g / INR n) <= D.
Proof.
  intros Hn H. assert (P : 0 < INR n) by (now apply lt_0_INR). replace (sumf (seq 0 n) f / INR n - sumf (seq 0 n) g / INR n) with (sumf (seq 0 n) (fun i => f i - g i) / INR n) by (rewrite sumf_minus; field; lra).
  unfold Rdiv. rewrite Rabs_mult, (Rabs_pos_eq (/ INR n)) by (left; now apply Rinv_0_lt_compat). apply (Rmult_le_reg_r (INR n)); [assumption|]. rewrite Rmult_assoc, Rinv_l, Rmult_1_r by lra.
  eapply Rle_trans; [apply sumf_abs_le|]. eapply Rle_trans; [apply (sumf_le _ _ (fun _ => D))|].
  - intros i Hi. apply in_seq in Hi. apply H. lia.
  - rewrite sumf_const, seq_length. lra.
Qed.

(** ** Long runs of any chain that is close to the exact one in each step *)
Lemma Erun_abs E n F B : (0 < n)%nat -> (forall s, In s (spin_states n) -> Rabs (F s) <= B) -> forall fs s, (forall j, In (Some j) fs -> (j < n)%nat) -> In s (spin_states n) -> Rabs (Erun E n fs F s (E s)) <= B.
Proof.
  intros Hn HF. assert (K : forall i G s, (forall s, In s (spin_states n) -> Rabs (G s) <= B) -> In s (spin_states n) -> Rabs (kernel E i G s) <= B).
  { intros i G s HG Hs. unfold kernel. set (a := accept_prob _). assert (A : 0 < a <= 1) by (split; [apply accept_prob_pos|apply accept_prob_le]).
    assert (H1 := HG _ Hs). assert (H2 := HG _ (proj1 (flip_in_states n s i Hs))). eapply Rle_trans; [apply Rabs_triang|]. rewrite !Rabs_mult, (Rabs_pos_eq a), (Rabs_pos_eq (1 - a)) by lra. nra. }
  induction fs as [|[j|] fs IH]; intros s Hj Hs; [now apply HF| |].
  - rewrite Erun_some. apply K; [|assumption]. intros x Hx. apply IH; [|assumption]. intros k Hk. apply Hj. now right.
  - rewrite Erun_none. assert (Z := mean_near n (fun i => kernel E i (fun s => Erun E n fs F s (E s)) s) (fun _ => 0) B Hn). 
    rewrite (sumf_zero (seq 0 n) (fun _ => 0)) in Z by reflexivity. unfold Rdiv at 2 in Z. rewrite Rmult_0_l, Rminus_0_r in Z. apply Z. intros i _. rewrite Rminus_0_r.
    apply K; [|assumption]. intros x Hx. apply IH; [|assumption]. intros k Hk. apply Hj. now right.
Qed.

Section Energy.
Variables (n : nat) (En calc_e : list Z -> R) (M tau : R).
Hypothesis Hn : (0 < n)%nat.
Hypothesis Hfl : forall s, In s (spin_states n) -> float64 (calc_e s).
Hypothesis HM : forall s, In s (spin_states n) -> Rabs (calc_e s) <= M.
Hypothesis Htau : forall s, In s (spin_states n) -> Rabs (calc_e s - En s) <= tau.

Definition drift : R := 4 * u64 * M.
Definition valid (s : list Z) (E : R) : Prop := In s (spin_states n) /\ float64 E /\ Rabs (E - calc_e s) <= drift.
Definition de_err : R := u64 * (2 * M + drift) + drift + 2 * tau.

Lemma M_nonneg s : In s (spin_states n) -> 0 <= M.
Proof. intros Hs. exact (Rle_trans _ _ _ (Rabs_pos _) (HM s Hs)). Qed.

Lemma valid_start s : In s (spin_states n) -> valid s (calc_e s).
Proof. intros Hs. split; [assumption|]. split; [now apply Hfl|]. rewrite Rminus_eq_0, Rabs_R0. unfold drift. assert (A := M_nonneg s Hs). assert (U := u64_pos). apply Rmult_le_pos; lra. Qed.

Lemma valid_stay s E : valid s E -> valid s (fadd E 0).
Proof. intros (H1 & H2 & H3). unfold fadd. rewrite Rplus_0_r, rnd_id by assumption. now repeat split. Qed.

Lemma valid_move s E i : valid s E -> let s1 := flip s i in let de := fsub (calc_e s1) E in
  valid s1 (fadd E de) /\ Rabs (de - (En s1 - En s)) <= de_err.
Proof.
  intros (Hs & HE & HD). cbv zeta. set (s1 := flip s i). assert (Hs1 : In s1 (spin_states n)) by (now apply flip_in_states).
  assert (U := u64_pos). assert (U1 := u64_small). assert (M0 := M_nonneg s Hs). assert (B0 := HM s Hs). assert (B1 := HM s1 Hs1). assert (T0 := Htau s Hs). assert (T1 := Htau s1 Hs1).
  assert (F1 := Hfl s1 Hs1). set (e1 := calc_e s1) in *. set (e0 := calc_e s) in *. set (de := fsub e1 E).
  assert (X := fsub_error e1 E F1 HE). fold de in X.
  assert (BE : Rabs E <= M + drift) by (replace E with ((E - e0) + e0) by ring; eapply Rle_trans; [apply Rabs_triang|]; lra).
  assert (B2 : Rabs (e1 - E) <= 2 * M + drift) by (eapply Rle_trans; [apply Rabs_triang|]; rewrite Rabs_Ropp; lra).
  assert (X1 : Rabs (de - (e1 - E)) <= u64 * (2 * M + drift)) by (eapply Rle_trans; [exact X|]; apply Rmult_le_compat_l; lra).
  split.
  - split; [assumption|]. split; [apply rnd_float|]. assert (Y := fadd_error E de HE (rnd_float _)).
    assert (B3 : Rabs (E + de) <= M + u64 * (2 * M + drift)). { replace (E + de) with (e1 + (de - (e1 - E))) by ring. eapply Rle_trans; [apply Rabs_triang|]. lra. }
    change (Rabs (fadd E de - e1) <= drift).
    apply Rle_trans with (Rabs (fadd E de - (E + de)) + Rabs (de - (e1 - E))); [replace (fadd E de - e1) with ((fadd E de - (E + de)) + (de - (e1 - E))) by ring; apply Rabs_triang|].
    assert (Y1 : u64 * Rabs (E + de) <= u64 * (M + u64 * (2 * M + drift))) by (apply Rmult_le_compat_l; lra).
    eapply Rle_trans; [apply Rplus_le_compat; [eapply Rle_trans; [exact Y|exact Y1]|exact X1]|]. unfold drift.
    assert (Q1 : u64 * u64 <= / 64 * u64) by (apply Rmult_le_compat_r; lra). assert (Q2 : u64 * (u64 * u64) <= / 64 * (u64 * u64)) by (apply Rmult_le_compat_r; nra).
    replace (u64 * (M + u64 * (2 * M + 4 * u64 * M)) + u64 * (2 * M + 4 * u64 * M)) with ((3 * u64 + 6 * (u64 * u64) + 4 * (u64 * (u64 * u64))) * M) by ring.
    apply Rmult_le_compat_r; lra.
  - replace (de - (En s1 - En s)) with ((de - (e1 - E)) + ((e1 - En s1) - (E - e0) - (e0 - En s))) by ring. unfold de_err.
    eapply Rle_trans; [apply Rabs_triang|]. 
    assert (Z : Rabs ((e1 - En s1) - (E - e0) - (e0 - En s)) <= drift + 2 * tau). { apply Rabs_le_between in HD, T0, T1. apply Rabs_le. lra. } lra.
Qed.

(** The running energy of a run never moves away from the energy of its state. *)
Lemma run_valid {T} (g : rng T) fexp : forall fs s E t s' E' t', valid s E ->
  fl_run (fl_sample_metropolis g fexp calc_e) fs s E t = (s', E', t') -> valid s' E'.
Proof.
  induction fs as [|f fs IH]; intros s E t s' E' t' HV H; [cbn in H; injection H; intros _ <- <-; exact HV|].
  cbn [fl_run] in H. destruct (fl_sample_metropolis g fexp calc_e f s E t) as [[s1 de] t1] eqn:Q.
  apply (IH s1 (fadd E de) t1 s' E' t'); [|assumption]. clear H IH.
  unfold fl_sample_metropolis in Q. destruct (match f with Some i => (i, t) | None => randint g t 0%nat (length s) end) as [i t2].
  destruct (valid_move s E i HV) as [V _]. cbv zeta in V.
  destruct (Rlt_dec 0 _); [destruct (rand g t2) as [u t3]; destruct (Rlt_dec _ u)|]; injection Q; intros _ <- <-; try assumption.
  rewrite flip_flip. now apply valid_stay.
Qed.

Variables (fexp : R -> R) (d : R).
Hypothesis Hexp : exp_within fexp d.

Definition acc_err : R := de_err + d.

Lemma step_near fs i s E (G : list Z -> R -> R) (g : list Z -> R) D O : valid s E ->
  (forall s E, valid s E -> Rabs (G s E - g s) <= D) -> (forall s s', In s (spin_states n) -> In s' (spin_states n) -> Rabs (g s - g s') <= O) ->
  Rabs (RInt (fun u => let '(s1, de) := fl_outcome fexp calc_e fs i s E u in G s1 (fadd E de)) 0 1 - kernel En (site_or fs i) g s) <= D + acc_err * O.
Proof.
  intros HV HG Ho. rewrite (fl_RInt fexp calc_e fs i s E G). unfold kernel. destruct (valid_move s E (site_or fs i) HV) as [V DE]. cbv zeta in V, DE.
  apply mix_near; [apply fl_accept_range|now apply fl_accept_near|now apply HG|apply HG; now apply valid_stay|]. destruct HV as [Hs _]. apply Ho; [now apply flip_in_states|assumption].
Qed.

Lemma runs_near F B : (forall s, In s (spin_states n) -> Rabs (F s) <= B) -> forall fs s E, (forall j, In (Some j) fs -> (j < n)%nat) -> valid s E ->
  Rabs (Efl_run fexp calc_e n fs F s E - Erun En n fs F s (En s)) <= INR (length fs) * (acc_err * (2 * B)).
Proof.
  intros HF. induction fs as [|f fs IH]; intros s E Hj HV; [cbn [Efl_run Erun length]; rewrite Rminus_eq_0, Rabs_R0; cbn; lra|].
  assert (Hj' : forall j, In (Some j) fs -> (j < n)%nat) by (intros j Hin; apply Hj; now right).
  assert (O : forall s s', In s (spin_states n) -> In s' (spin_states n) -> Rabs (Erun En n fs F s (En s) - Erun En n fs F s' (En s')) <= 2 * B).
  { intros x y Hx Hy. assert (A := Erun_abs En n F B Hn HF fs x Hj' Hx). assert (C := Erun_abs En n F B Hn HF fs y Hj' Hy). eapply Rle_trans; [apply Rabs_triang|]. rewrite Rabs_Ropp. lra. }
  cbn [length]. rewrite S_INR. replace ((INR (length fs) + 1) * (acc_err * (2 * B))) with (INR (length fs) * (acc_err * (2 * B)) + acc_err * (2 * B)) by ring.
  destruct f as [j|].
  - rewrite Erun_some. cbn [Efl_run]. apply (step_near (Some j) 0 s E (Efl_run fexp calc_e n fs F) (fun s => Erun En n fs F s (En s))); [assumption| |assumption]. intros x e Hx. now apply IH.
  - rewrite Erun_none. cbn [Efl_run]. apply mean_near; [assumption|]. intros i _.
    apply (step_near None i s E (Efl_run fexp calc_e n fs F) (fun s => Erun En n fs F s (En s))); [assumption| |assumption]. intros x e Hx. now apply IH.
Qed.

Lemma random_near F (O : nat -> R) : (forall t s s', In s (spin_states n) -> In s' (spin_states n) -> Rabs (Erun En n (repeat None t) F s (En s) - Erun En n (repeat None t) F s' (En s')) <= O t) ->
  forall t s E, valid s E -> Rabs (Efl_run fexp calc_e n (repeat None t) F s E - Erun En n (repeat None t) F s (En s)) <= acc_err * sumf (seq 0 t) O.
Proof.
  intros HO. induction t as [|t IH]; intros s E HV; [cbn [repeat Efl_run Erun]; rewrite Rminus_eq_0, Rabs_R0; cbn; lra|].
  cbn [repeat]. rewrite Erun_none. cbn [Efl_run]. rewrite sumf_seq_last, Rmult_plus_distr_l. apply mean_near; [assumption|]. intros i _.
  apply (step_near None i s E (Efl_run fexp calc_e n (repeat None t) F) (fun s => Erun En n (repeat None t) F s (En s))); [assumption|apply IH|apply HO].
Qed.
End Energy.
