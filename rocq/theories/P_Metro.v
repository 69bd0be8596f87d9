(** * Detailed balance and stationarity of the Metropolis updates *)
From Coq Require Import Permutation.
From Coquelicot Require Import Coquelicot.
From Verif Require Import Prelude Spec PreludeFacts M_Index M_Sampler P_Energy P_Energy2 P_Sampler.
Import ListNotations.
Local Open Scope R_scope.

(** The probability with which a proposal is to be accepted. *)
Definition accept_prob (dE : R) : R := Rmin 1 (exp (- dE)).

Lemma accept_prob_pos dE : 0 < accept_prob dE.
Proof. unfold accept_prob. apply Rmin_glb_lt; [lra | apply exp_pos]. Qed.

Lemma accept_prob_le dE : accept_prob dE <= 1.
Proof. unfold accept_prob. apply Rmin_l. Qed.

(** exp(-E) times the acceptance probability of a move to energy E' is symmetric. *)
Lemma accept_balance E E' : exp (- E) * accept_prob (E' - E) = Rmin (exp (- E)) (exp (- E')).
Proof.
  unfold accept_prob. assert (P := exp_pos (- E)).
  assert (H : exp (- E) * exp (- (E' - E)) = exp (- E')).
  { rewrite <- exp_plus. f_equal. ring. }
  unfold Rmin. destruct (Rle_dec 1 (exp (- (E' - E)))) as [L|L]; destruct (Rle_dec (exp (- E)) (exp (- E'))) as [M|M].
  - ring.
  - exfalso. apply M. rewrite <- H. apply Rmult_le_compat_l with (r := exp (- E)) in L; lra.
  - rewrite H. apply Rle_antisym; [|exact M]. rewrite <- H.
    apply Rnot_le_lt, Rlt_le, Rmult_le_compat_l with (r := exp (- E)) in L; lra.
  - exact H.
Qed.

(** The integral over a uniform number of a function that takes one value up to a
    threshold and another one after it. *)
Lemma RInt_threshold a x y (f : R -> R) : 0 <= a <= 1 ->
  (forall u, 0 < u < 1 -> f u = if Rlt_dec a u then y else x) ->
  is_RInt f 0 1 (a * x + (1 - a) * y).
Proof.
  intros Ha Hf.
  apply (is_RInt_Chasles f 0 a 1 (a * x) ((1 - a) * y)).
  - apply is_RInt_ext with (fun _ => x).
    + intros u Hu. rewrite Rmin_left, Rmax_right in Hu by lra.
      rewrite Hf by lra. destruct (Rlt_dec a u); [lra|reflexivity].
    + replace (a * x) with (scal (a - 0) x) by (unfold scal; cbn; unfold mult; cbn; ring). apply @is_RInt_const.
  - apply is_RInt_ext with (fun _ => y).
    + intros u Hu. rewrite Rmin_left, Rmax_right in Hu by lra.
      rewrite Hf by lra. destruct (Rlt_dec a u); [reflexivity|lra].
    + apply (is_RInt_const a 1 y).
Qed.

(** A generator that returns the given site, the given Potts increment and the given
    uniform number. *)
Definition const_rng (i r : nat) (u : R) : rng unit :=
  Rng unit (fun _ lo _ => (if Nat.eqb lo 0 then i else r, tt)) (fun _ => (u, tt)).

(** State after one update whose random number is u. *)
Definition outcome (calc_e : list Z -> R) (fs : option nat) (i : nat) (s : list Z) (E u : R) : list Z * R :=
  fst (sample_metropolis (const_rng i 0 u) calc_e fs s E tt).

Definition site_or (fs : option nat) (i : nat) : nat := match fs with Some j => j | None => i end.

Lemma outcome_eq calc_e fs i s u :
  let s1 := flip s (site_or fs i) in
  outcome calc_e fs i s (calc_e s) u =
  (if Rlt_dec (accept_prob (calc_e s1 - calc_e s)) u then if Rlt_dec 1 u then outcome calc_e fs i s (calc_e s) u else (s, 0)
   else (s1, calc_e s1 - calc_e s)).
Proof.
  cbv zeta. destruct (Rlt_dec 1 u) as [H1|H1].
  - destruct (Rlt_dec _ u) as [H|H]; [reflexivity|].
    exfalso. apply H. apply Rle_lt_trans with 1; [apply accept_prob_le | exact H1].
  - unfold outcome, sample_metropolis.
    assert (Es : (match fs with Some i0 => (i0, tt) | None => randint (const_rng i 0 u) tt 0%nat (length s) end)
                 = (site_or fs i, tt)) by (destruct fs; reflexivity).
    rewrite Es. set (s1 := flip s (site_or fs i)). set (de := calc_e s1 - calc_e s).
    cbn [const_rng rand]. unfold accept_prob.
    destruct (Rlt_dec 0 de) as [Hd|Hd].
    + rewrite Rmin_right.
      2: { rewrite <- exp_0. left. apply exp_increasing. lra. }
      destruct (Rlt_dec (exp (- de)) u); cbn; [|reflexivity].
      unfold s1. now rewrite flip_flip.
    + rewrite Rmin_left. 2: { destruct (Rle_lt_or_eq_dec de 0 ltac:(lra)) as [L|L].
        - rewrite <- exp_0. left. apply exp_increasing. lra.
        - rewrite L, Ropp_0, exp_0. lra. }
      destruct (Rlt_dec 1 u); [lra|reflexivity].
Qed.

(** One update averaged over its uniform number. *)
Lemma update_average calc_e fs i s (G : list Z * R -> R) :
  let s1 := flip s (site_or fs i) in
  let a := accept_prob (calc_e s1 - calc_e s) in
  is_RInt (fun u => G (outcome calc_e fs i s (calc_e s) u)) 0 1
          (a * G (s1, calc_e s1 - calc_e s) + (1 - a) * G (s, 0)).
Proof.
  cbv zeta. apply RInt_threshold.
  - split; [left; apply accept_prob_pos | apply accept_prob_le].
  - intros u Hu. rewrite outcome_eq. cbv zeta.
    destruct (Rlt_dec _ u); [|reflexivity]. destruct (Rlt_dec 1 u); [lra|reflexivity].
Qed.

(** Expected value of F after the updates of [run] (samplers.py: de = sample_metropolis;
    E += de), every uniform number being averaged over [0,1] and, when no site is
    given, every site being equally likely. *)
Fixpoint Erun (calc_e : list Z -> R) (n : nat) (fs : list (option nat)) (F : list Z -> R) (s : list Z) (E : R) : R :=
  match fs with
  | [] => F s
  | Some j :: fs' =>
    RInt (fun u => let '(s1, de) := outcome calc_e (Some j) 0 s E u in Erun calc_e n fs' F s1 (E + de)) 0 1
  | None :: fs' =>
    sumf (seq 0 n) (fun i =>
      RInt (fun u => let '(s1, de) := outcome calc_e None i s E u in Erun calc_e n fs' F s1 (E + de)) 0 1) / INR n
  end.

(** The kernel of one update, as a rule: stay or flip site i. *)
Definition kernel (E : list Z -> R) (i : nat) (G : list Z -> R) (s : list Z) : R :=
  let a := accept_prob (E (flip s i) - E s) in a * G (flip s i) + (1 - a) * G s.

Lemma RInt_update calc_e n fs i s F fs' :
  RInt (fun u => let '(s1, de) := outcome calc_e fs i s (calc_e s) u in Erun calc_e n fs' F s1 (calc_e s + de)) 0 1 =
  kernel calc_e (site_or fs i) (fun s => Erun calc_e n fs' F s (calc_e s)) s.
Proof.
  apply is_RInt_unique.
  assert (H := update_average calc_e fs i s (fun p => Erun calc_e n fs' F (fst p) (calc_e s + snd p))).
  cbv zeta in H. cbn [fst snd] in H. unfold kernel.
  replace (calc_e s + 0) with (calc_e s) in H by ring.
  replace (calc_e s + (calc_e (flip s (site_or fs i)) - calc_e s)) with (calc_e (flip s (site_or fs i))) in H by ring.
  eapply is_RInt_ext; [|exact H]. intros u _. cbv beta.
  destruct (outcome calc_e fs i s (calc_e s) u) as [s1 de]. reflexivity.
Qed.

Lemma Erun_some calc_e n j fs F s :
  Erun calc_e n (Some j :: fs) F s (calc_e s) = kernel calc_e j (fun s => Erun calc_e n fs F s (calc_e s)) s.
Proof. cbn [Erun]. apply (RInt_update calc_e n (Some j) 0). Qed.

Lemma Erun_none calc_e n fs F s :
  Erun calc_e n (None :: fs) F s (calc_e s) =
  sumf (seq 0 n) (fun i => kernel calc_e i (fun s => Erun calc_e n fs F s (calc_e s)) s) / INR n.
Proof.
  cbn [Erun]. f_equal. apply sumf_ext. intros i. apply (RInt_update calc_e n None i).
Qed.

(** ** Invariance of the Boltzmann weights under reversible moves *)
Section Moves.
Context {X : Type}.
Variable states : list X.
Variables phi psi : X -> X.
Hypothesis Hnd : NoDup states.
Hypothesis Hphi : forall s, In s states -> In (phi s) states /\ psi (phi s) = s.
Hypothesis Hpsi : forall s, In s states -> In (psi s) states /\ phi (psi s) = s.

Lemma move_perm : Permutation (map phi states) states.
Proof.
  apply NoDup_Permutation.
  - assert (G : forall l, NoDup l -> (forall s, In s l -> In s states) -> NoDup (map phi l)).
    { induction 1 as [|a l Ha Hl IH]; intros Hin; cbn; constructor.
      - intros Hc. apply in_map_iff in Hc. destruct Hc as [b [Eb Hb]]. apply Ha.
        destruct (Hphi a (Hin a (or_introl eq_refl))) as [_ Ea].
        destruct (Hphi b (Hin b (or_intror Hb))) as [_ Eb'].
        rewrite <- Ea, <- Eb, Eb'. exact Hb.
      - apply IH. intros s Hs. apply Hin. now right. }
    apply G; auto.
  - exact Hnd.
  - intros s. rewrite in_map_iff. split.
    + intros [b [<- Hb]]. now apply Hphi.
    + intros Hs. exists (psi s). split; now apply Hpsi.
Qed.

Lemma move_flow (E : X -> R) (G : X -> R) :
  sumf states (fun s => exp (- E s) * accept_prob (E (phi s) - E s) * G (phi s)) =
  sumf states (fun s => exp (- E s) * accept_prob (E (psi s) - E s) * G s).
Proof.
  rewrite <- (sumf_perm _ _ (fun s => exp (- E s) * accept_prob (E (psi s) - E s) * G s) move_perm).
  rewrite sumf_map. apply sumf_ext_in. intros s Hs.
  destruct (Hphi s Hs) as [_ ->]. rewrite !accept_balance. now rewrite Rmin_comm.
Qed.
End Moves.

Definition spin_states (n : nat) : list (list Z) := all_states [-1; 1]%Z n.

Lemma spin_states_spec n s : In s (spin_states n) <-> length s = n /\ Forall spin s.
Proof.
  unfold spin_states. rewrite all_states_spec, Forall_forall.
  split; intros [H1 H2]; (split; [exact H1|]); intros x Hx; specialize (H2 x Hx); unfold spin in *; cbn in *; intuition.
Qed.

Lemma spin_states_NoDup n : NoDup (spin_states n).
Proof. apply all_states_NoDup. repeat constructor; cbn; intuition lia. Qed.

Lemma flip_in_states n s i : In s (spin_states n) -> In (flip s i) (spin_states n) /\ flip (flip s i) i = s.
Proof.
  rewrite !spin_states_spec. intros [Hl Hs]. rewrite flip_length, flip_flip. auto using flip_spins.
Qed.

Lemma kernel_stationary E n i G :
  sumf (spin_states n) (fun s => exp (- E s) * kernel E i G s) = sumf (spin_states n) (fun s => exp (- E s) * G s).
Proof.
  assert (F := move_flow (spin_states n) (fun s => flip s i) (fun s => flip s i) (spin_states_NoDup n)
                 (fun s => flip_in_states n s i) (fun s => flip_in_states n s i) E G).
  cbv beta in F.
  rewrite (sumf_ext _ _ (fun s => exp (- E s) * G s + (exp (- E s) * accept_prob (E (flip s i) - E s) * G (flip s i)
                                   - exp (- E s) * accept_prob (E (flip s i) - E s) * G s))).
  - rewrite sumf_plus, sumf_minus, F. ring.
  - intros s. unfold kernel. ring.
Qed.

Lemma run_stationary E n fs F : (0 < n)%nat ->
  sumf (spin_states n) (fun s => exp (- E s) * Erun E n fs F s (E s)) = sumf (spin_states n) (fun s => exp (- E s) * F s).
Proof.
  intros Hn. induction fs as [|[j|] fs IH]; [reflexivity| |].
  - rewrite (sumf_ext _ _ (fun s => exp (- E s) * kernel E j (fun s => Erun E n fs F s (E s)) s)) by
      (intros s; now rewrite Erun_some).
    rewrite kernel_stationary. exact IH.
  - rewrite (sumf_ext _ _ (fun s => sumf (seq 0 n) (fun i => exp (- E s) * kernel E i (fun s => Erun E n fs F s (E s)) s) / INR n)).
    2: { intros s. rewrite Erun_none, sumf_scal_l. unfold Rdiv. ring. }
    rewrite sumf_div, sumf_swap.
    rewrite (sumf_ext _ _ (fun _ => sumf (spin_states n) (fun s => exp (- E s) * F s))).
    2: { intros i. rewrite kernel_stationary. exact IH. }
    rewrite sumf_const, seq_length. field. apply not_0_INR. lia.
Qed.

(** ** Reachability *)
Lemma kernel_nonneg E i G s : (forall s, 0 <= G s) -> 0 <= kernel E i G s.
Proof.
  intros H. unfold kernel. assert (P := accept_prob_pos (E (flip s i) - E s)).
  assert (L := accept_prob_le (E (flip s i) - E s)). assert (H1 := H s). assert (H2 := H (flip s i)). nra.
Qed.

Lemma kernel_ge E i G s : (forall s, 0 <= G s) -> 0 < G (flip s i) -> 0 < kernel E i G s.
Proof.
  intros H H0. unfold kernel. assert (P := accept_prob_pos (E (flip s i) - E s)).
  assert (L := accept_prob_le (E (flip s i) - E s)). assert (H1 := H s). nra.
Qed.

Lemma Erun_nonneg E n fs F : (0 < n)%nat -> (forall s, 0 <= F s) -> forall s, 0 <= Erun E n fs F s (E s).
Proof.
  intros Hn HF. induction fs as [|[j|] fs IH]; intros s.
  - apply HF.
  - rewrite Erun_some. now apply kernel_nonneg.
  - rewrite Erun_none. apply Rmult_le_pos.
    + apply sumf_nonneg. intros i _. now apply kernel_nonneg.
    + left. apply Rinv_0_lt_compat. apply lt_0_INR. lia.
Qed.

(** Updates at the listed sites; None allows any site. *)
Definition allows (f : option nat) (i : nat) : Prop := match f with Some j => j = i | None => True end.

Lemma Erun_pos E n F : (0 < n)%nat -> (forall s, 0 <= F s) -> forall is fs s,
  Forall2 allows fs is -> Forall (fun i => (i < n)%nat) is ->
  0 < F (fold_left flip is s) -> 0 < Erun E n fs F s (E s).
Proof.
  intros Hn HF. induction is as [|i is IH]; intros fs s H2 Hi Hpos; inversion H2 as [|f ? fs' ? Hf Hfs]; subst.
  - exact Hpos.
  - inversion Hi; subst. cbn in Hpos. specialize (IH fs' (flip s i) Hfs ltac:(assumption) Hpos).
    assert (K : 0 < kernel E i (fun s => Erun E n fs' F s (E s)) s).
    { apply kernel_ge; [|exact IH]. now apply Erun_nonneg. }
    destruct f as [j|]; cbn in Hf.
    + subst j. now rewrite Erun_some.
    + rewrite Erun_none. apply Rdiv_lt_0_compat; [|apply lt_0_INR; lia].
      eapply Rlt_le_trans; [exact K|].
      apply (sumf_in_le (seq 0 n) (fun i => kernel E i (fun s => Erun E n fs' F s (E s)) s) i).
      * intros k _. apply kernel_nonneg. now apply Erun_nonneg.
      * apply in_seq. lia.
Qed.

(** Sites where two spin vectors differ. *)
Definition diff_sites (s s' : list Z) : list nat :=
  filter (fun i => negb (Z.eqb (nth i s 0%Z) (nth i s' 0%Z))) (seq 0 (length s)).

Lemma fold_flip_length is : forall s, length (fold_left flip is s) = length s.
Proof. induction is as [|i is IH]; intros s; cbn; [reflexivity|]. rewrite IH. apply flip_length. Qed.

Lemma fold_flip_nth is : forall s k, NoDup is -> (forall i, In i is -> (i < length s)%nat) ->
  nth k (fold_left flip is s) 0%Z = if in_dec Nat.eq_dec k is then (nth k s 0 * -1)%Z else nth k s 0%Z.
Proof.
  induction is as [|i is IH]; intros s k Hnd Hi; [reflexivity|].
  inversion Hnd as [|? ? Hni Hnd']; subst. cbn [fold_left].
  rewrite IH; [|exact Hnd'|intros j Hj; rewrite flip_length; apply Hi; now right].
  unfold flip. destruct (Nat.eq_dec i k) as [<-|Hik].
  - rewrite nth_upd_same by (apply Hi; now left).
    destruct (in_dec Nat.eq_dec i is); [contradiction|].
    destruct (in_dec Nat.eq_dec i (i :: is)) as [_|N]; [reflexivity|]. exfalso. apply N. now left.
  - rewrite nth_upd_other by exact Hik.
    destruct (in_dec Nat.eq_dec k is) as [H|H]; destruct (in_dec Nat.eq_dec k (i :: is)) as [H'|H']; try reflexivity.
    + exfalso. apply H'. now right.
    + exfalso. destruct H' as [?|?]; contradiction.
Qed.

Lemma flip_to n s s' : In s (spin_states n) -> In s' (spin_states n) -> fold_left flip (diff_sites s s') s = s'.
Proof.
  rewrite !spin_states_spec. intros [Hl Hs] [Hl' Hs'].
  apply (list_eq_nth 0%Z); [rewrite fold_flip_length; congruence|].
  rewrite fold_flip_length. intros k Hk. rewrite fold_flip_nth.
  - destruct (in_dec Nat.eq_dec k (diff_sites s s')) as [H|H].
    + apply filter_In in H. destruct H as [_ H]. apply negb_true_iff, Z.eqb_neq in H.
      destruct (Forall_nth_in _ _ k 0%Z Hs Hk); destruct (Forall_nth_in _ _ k 0%Z Hs' ltac:(lia)); lia.
    + destruct (Z.eq_dec (nth k s 0%Z) (nth k s' 0%Z)) as [E|E]; [exact E|].
      exfalso. apply H. apply filter_In. split; [apply in_seq; lia|]. now apply negb_true_iff, Z.eqb_neq.
  - apply NoDup_filter, seq_NoDup.
  - intros i Hi. apply filter_In in Hi. destruct Hi as [Hi _]. apply in_seq in Hi. lia.
Qed.

Lemma diff_sites_lt n s s' : length s = n -> Forall (fun i => (i < n)%nat) (diff_sites s s').
Proof. intros <-. apply Forall_forall. intros i Hi. apply filter_In in Hi. destruct Hi as [Hi _]. apply in_seq in Hi. lia. Qed.

Lemma filter_length_le {A} (p : A -> bool) l : (length (filter p l) <= length l)%nat.
Proof. induction l as [|a l IH]; cbn; [lia|]. destruct (p a); cbn; lia. Qed.

Lemma diff_sites_length s s' : (length (diff_sites s s') <= length s)%nat.
Proof. unfold diff_sites. rewrite filter_length_le, seq_length. lia. Qed.

(** ** The only stationary distribution *)
Definition state_eq_dec : forall a b : list Z, {a = b} + {a <> b} := list_eq_dec Z.eq_dec.
Definition indic (s' s : list Z) : R := if state_eq_dec s s' then 1 else 0.

Lemma dirichlet E n i (r : list Z -> R) :
  sumf (spin_states n) (fun s => exp (- E s) * r s * (r s - kernel E i r s)) =
  / 2 * sumf (spin_states n) (fun s => exp (- E s) * accept_prob (E (flip s i) - E s) * (r s - r (flip s i)) ^ 2).
Proof.
  assert (F := move_flow (spin_states n) (fun s => flip s i) (fun s => flip s i) (spin_states_NoDup n)
                 (fun s => flip_in_states n s i) (fun s => flip_in_states n s i) E (fun s => r s ^ 2)).
  cbv beta in F. set (m := fun s => exp (- E s) * accept_prob (E (flip s i) - E s)) in *.
  rewrite (sumf_ext _ _ (fun s => m s * r s ^ 2 - m s * (r s * r (flip s i)))).
  2: { intros s. unfold kernel, m. ring. }
  rewrite (sumf_ext (spin_states n) (fun s => exp (- E s) * accept_prob (E (flip s i) - E s) * (r s - r (flip s i)) ^ 2)
             (fun s => (m s * r s ^ 2 + m s * r (flip s i) ^ 2) - 2 * (m s * (r s * r (flip s i))))).
  2: { intros s. unfold m. ring. }
  rewrite !sumf_minus, sumf_plus, sumf_scal_l.
  change (sumf (spin_states n) (fun s => m s * r (flip s i) ^ 2) = sumf (spin_states n) (fun s => m s * r s ^ 2)) in F.
  rewrite F. field.
Qed.

(** A weight that one random-site update leaves invariant is a multiple of exp(-E). *)
Lemma stationary_unique E n (p : list Z -> R) : (0 < n)%nat ->
  (forall F, sumf (spin_states n) (fun s => p s * Erun E n [None] F s (E s)) = sumf (spin_states n) (fun s => p s * F s)) ->
  forall s s', In s (spin_states n) -> In s' (spin_states n) -> p s * exp (- E s') = p s' * exp (- E s).
Proof.
  intros Hn Hp.
  set (r := fun s => p s * exp (E s)).
  assert (Hr : forall s, p s = exp (- E s) * r s).
  { intros s. unfold r. replace (exp (- E s) * (p s * exp (E s))) with (p s * (exp (- E s) * exp (E s))) by ring.
    rewrite <- exp_plus. replace (- E s + E s) with 0 by ring. rewrite exp_0. ring. }
  assert (HN : INR n <> 0) by (apply not_0_INR; lia).
  assert (Z0 : sumf (seq 0 n) (fun i => sumf (spin_states n) (fun s =>
             exp (- E s) * accept_prob (E (flip s i) - E s) * (r s - r (flip s i)) ^ 2)) = 0).
  { assert (D : sumf (seq 0 n) (fun i => sumf (spin_states n) (fun s => exp (- E s) * r s * (r s - kernel E i r s))) = 0).
    { rewrite sumf_swap.
      rewrite (sumf_ext _ _ (fun s => INR n * (p s * r s) - INR n * (p s * Erun E n [None] r s (E s)))).
      2: { intros s. rewrite (sumf_ext _ _ (fun i => p s * r s - p s * kernel E i r s)) by (intros i; rewrite Hr; ring).
           rewrite sumf_minus, sumf_const, sumf_scal_l, seq_length. rewrite Erun_none. cbn [Erun].
           change (fun s0 => r s0) with r. field. exact HN. }
      rewrite sumf_minus, !sumf_scal_l, (Hp r). ring. }
    rewrite (sumf_ext _ _ _ (fun i => dirichlet E n i r)) in D. rewrite sumf_scal_l in D. lra. }
  assert (Step : forall i s, (i < n)%nat -> In s (spin_states n) -> r (flip s i) = r s).
  { intros i s Hi Hs.
    assert (N : forall i s, 0 <= exp (- E s) * accept_prob (E (flip s i) - E s) * (r s - r (flip s i)) ^ 2).
    { intros i0 s0. apply Rmult_le_pos; [|apply pow2_ge_0]. apply Rmult_le_pos; left; [apply exp_pos | apply accept_prob_pos]. }
    assert (Q := sumf_nonneg_zero _ _ (fun i _ => sumf_nonneg _ _ (fun s _ => N i s)) Z0 i ltac:(apply in_seq; lia)).
    assert (Q2 := sumf_nonneg_zero _ _ (fun s _ => N i s) Q s Hs).
    assert (P1 := exp_pos (- E s)). assert (P2 := accept_prob_pos (E (flip s i) - E s)).
    apply Rmult_integral in Q2. destruct Q2 as [Q2|Q2].
    - apply Rmult_integral in Q2. lra.
    - cbn in Q2. nra. }
  assert (Path : forall is s, Forall (fun i => (i < n)%nat) is -> In s (spin_states n) -> r (fold_left flip is s) = r s).
  { induction is as [|i is IH]; intros s Hi Hs; [reflexivity|]. inversion Hi; subst. cbn.
    rewrite IH; [|assumption|now apply flip_in_states]. now apply Step. }
  intros s s' Hs Hs'.
  assert (Hl : length s = n) by (now apply spin_states_spec in Hs).
  assert (Eq := Path (diff_sites s s') s (diff_sites_lt n s s' Hl) Hs).
  rewrite (flip_to n s s' Hs Hs') in Eq. rewrite (Hr s), (Hr s'), Eq. ring.
Qed.

(** ** Three state Potts updates *)
Definition poutcome (calc_e : list nat -> R) (fs : option nat) (i r : nat) (s : list nat) (E u : R) : list nat * R :=
  fst (potts_sample_metropolis (const_rng i r u) calc_e fs s E tt).

(** The proposed state. *)
Definition shift3 (s : list nat) (i r : nat) : list nat := upd s i ((nth i s 0 + r) mod 3)%nat.

Fixpoint Erun_potts (calc_e : list nat -> R) (n : nat) (fs : list (option nat)) (F : list nat -> R) (s : list nat) (E : R) : R :=
  match fs with
  | [] => F s
  | Some j :: fs' =>
    sumf [1; 2]%nat (fun r =>
      RInt (fun u => let '(s1, de) := poutcome calc_e (Some j) 0 r s E u in Erun_potts calc_e n fs' F s1 (E + de)) 0 1) / 2
  | None :: fs' =>
    sumf (seq 0 n) (fun i => sumf [1; 2]%nat (fun r =>
      RInt (fun u => let '(s1, de) := poutcome calc_e None i r s E u in Erun_potts calc_e n fs' F s1 (E + de)) 0 1) / 2) / INR n
  end.

Definition pkernel (E : list nat -> R) (i r : nat) (G : list nat -> R) (s : list nat) : R :=
  let a := accept_prob (E (shift3 s i r) - E s) in a * G (shift3 s i r) + (1 - a) * G s.

Lemma poutcome_eq calc_e fs i r s u : 0 < u < 1 ->
  let s1 := shift3 s (site_or fs i) r in
  poutcome calc_e fs i r s (calc_e s) u =
  (if Rlt_dec (accept_prob (calc_e s1 - calc_e s)) u then (s, 0) else (s1, calc_e s1 - calc_e s)).
Proof.
  intros Hu. cbv zeta. unfold poutcome, potts_sample_metropolis.
  assert (Es : (match fs with Some i0 => (i0, tt) | None => randint (const_rng i r u) tt 0%nat (length s) end)
               = (site_or fs i, tt)) by (destruct fs; reflexivity).
  rewrite Es. cbn [const_rng rand randint]. cbn [Nat.eqb].
  fold (shift3 s (site_or fs i) r). set (s1 := shift3 s (site_or fs i) r). set (de := calc_e s1 - calc_e s).
  unfold accept_prob.
  destruct (Rlt_dec 0 de) as [Hd|Hd].
  - rewrite Rmin_right.
    2: { rewrite <- exp_0. left. apply exp_increasing. lra. }
    destruct (Rlt_dec (exp (- de)) u); cbn; [|reflexivity].
    unfold s1, shift3. now rewrite upd_upd, upd_same.
  - rewrite Rmin_left. 2: { destruct (Rle_lt_or_eq_dec de 0 ltac:(lra)) as [L|L].
      - rewrite <- exp_0. left. apply exp_increasing. lra.
      - rewrite L, Ropp_0, exp_0. lra. }
    destruct (Rlt_dec 1 u); [lra|reflexivity].
Qed.

Lemma potts_update_average calc_e fs i r s (G : list nat * R -> R) :
  let s1 := shift3 s (site_or fs i) r in
  let a := accept_prob (calc_e s1 - calc_e s) in
  is_RInt (fun u => G (poutcome calc_e fs i r s (calc_e s) u)) 0 1
          (a * G (s1, calc_e s1 - calc_e s) + (1 - a) * G (s, 0)).
Proof.
  cbv zeta. apply RInt_threshold.
  - split; [left; apply accept_prob_pos | apply accept_prob_le].
  - intros u Hu. rewrite poutcome_eq by exact Hu. cbv zeta. destruct (Rlt_dec _ u); reflexivity.
Qed.

Lemma RInt_potts_update calc_e n fs i r s F fs' :
  RInt (fun u => let '(s1, de) := poutcome calc_e fs i r s (calc_e s) u in Erun_potts calc_e n fs' F s1 (calc_e s + de)) 0 1 =
  pkernel calc_e (site_or fs i) r (fun s => Erun_potts calc_e n fs' F s (calc_e s)) s.
Proof.
  apply is_RInt_unique.
  assert (H := potts_update_average calc_e fs i r s (fun p => Erun_potts calc_e n fs' F (fst p) (calc_e s + snd p))).
  cbv zeta in H. cbn [fst snd] in H. unfold pkernel.
  replace (calc_e s + 0) with (calc_e s) in H by ring.
  replace (calc_e s + (calc_e (shift3 s (site_or fs i) r) - calc_e s)) with (calc_e (shift3 s (site_or fs i) r)) in H by ring.
  eapply is_RInt_ext; [|exact H]. intros u _. cbv beta.
  destruct (poutcome calc_e fs i r s (calc_e s) u) as [s1 de]. reflexivity.
Qed.

Definition potts_states (n : nat) : list (list nat) := all_states [0; 1; 2]%nat n.

Lemma potts_states_spec n s : In s (potts_states n) <-> length s = n /\ Forall potts3 s.
Proof.
  unfold potts_states. rewrite all_states_spec, Forall_forall.
  split; intros [H1 H2]; (split; [exact H1|]); intros x Hx; specialize (H2 x Hx); unfold potts3 in *; cbn in *; intuition lia.
Qed.

Lemma potts_states_NoDup n : NoDup (potts_states n).
Proof. apply all_states_NoDup. repeat constructor; cbn; intuition lia. Qed.

Lemma shift3_back n s i r : (1 <= r <= 2)%nat -> In s (potts_states n) ->
  In (shift3 s i r) (potts_states n) /\ shift3 (shift3 s i r) i (3 - r) = s.
Proof.
  intros Hr. rewrite !potts_states_spec. intros [Hl Hs]. unfold shift3.
  split; [split|].
  - rewrite upd_length. exact Hl.
  - apply Forall_upd; [exact Hs|]. apply Nat.mod_upper_bound. lia.
  - rewrite upd_upd. destruct (Nat.lt_ge_cases i (length s)) as [H|H].
    + rewrite nth_upd_same by exact H.
      assert (Ho : (nth i s 0 < 3)%nat) by (apply (Forall_nth_in potts3); assumption).
      replace (((nth i s 0 + r) mod 3 + (3 - r)) mod 3)%nat with (nth i s 0%nat); [apply upd_same|].
      destruct (nth i s 0%nat) as [|[|[|k]]]; try lia; destruct r as [|[|[|r]]]; try lia; reflexivity.
    + now rewrite upd_oob.
Qed.

Lemma pkernel_stationary E n i G :
  sumf (potts_states n) (fun s => exp (- E s) * sumf [1; 2]%nat (fun r => pkernel E i r G s) / 2)
  = sumf (potts_states n) (fun s => exp (- E s) * G s).
Proof.
  assert (F1 := move_flow (potts_states n) (fun s => shift3 s i 1) (fun s => shift3 s i 2) (potts_states_NoDup n)
                 (fun s => shift3_back n s i 1 ltac:(lia)) (fun s => shift3_back n s i 2 ltac:(lia)) E G).
  assert (F2 := move_flow (potts_states n) (fun s => shift3 s i 2) (fun s => shift3 s i 1) (potts_states_NoDup n)
                 (fun s => shift3_back n s i 2 ltac:(lia)) (fun s => shift3_back n s i 1 ltac:(lia)) E G).
  cbv beta in F1, F2.
  set (m := fun r s => exp (- E s) * accept_prob (E (shift3 s i r) - E s)).
  rewrite (sumf_ext _ _ (fun s => exp (- E s) * G s
     + ((m 1%nat s * G (shift3 s i 1) + m 2%nat s * G (shift3 s i 2)) - (m 1%nat s * G s + m 2%nat s * G s)) * / 2)).
  - rewrite sumf_plus, sumf_scal_r, sumf_minus, !sumf_plus. unfold m. rewrite F1, F2. ring.
  - intros s. unfold pkernel, m, sumf. cbn. field.
Qed.

Lemma Erun_potts_some E n j fs F s :
  Erun_potts E n (Some j :: fs) F s (E s) = sumf [1; 2]%nat (fun r => pkernel E j r (fun s => Erun_potts E n fs F s (E s)) s) / 2.
Proof. cbn [Erun_potts]. f_equal. apply sumf_ext. intros r. apply (RInt_potts_update E n (Some j) 0). Qed.

Lemma Erun_potts_none E n fs F s :
  Erun_potts E n (None :: fs) F s (E s) =
  sumf (seq 0 n) (fun i => sumf [1; 2]%nat (fun r => pkernel E i r (fun s => Erun_potts E n fs F s (E s)) s) / 2) / INR n.
Proof.
  cbn [Erun_potts]. f_equal. apply sumf_ext. intros i. f_equal. apply sumf_ext. intros r. apply (RInt_potts_update E n None i).
Qed.

Lemma potts_run_stationary E n fs F : (0 < n)%nat ->
  sumf (potts_states n) (fun s => exp (- E s) * Erun_potts E n fs F s (E s)) = sumf (potts_states n) (fun s => exp (- E s) * F s).
Proof.
  intros Hn. induction fs as [|[j|] fs IH]; [reflexivity| |].
  - rewrite (sumf_ext _ _ (fun s => exp (- E s) * sumf [1; 2]%nat (fun r => pkernel E j r (fun s => Erun_potts E n fs F s (E s)) s) / 2)) by
      (intros s; rewrite Erun_potts_some; unfold Rdiv; ring).
    rewrite pkernel_stationary. exact IH.
  - rewrite (sumf_ext _ _ (fun s => sumf (seq 0 n) (fun i => exp (- E s) * sumf [1; 2]%nat (fun r => pkernel E i r (fun s => Erun_potts E n fs F s (E s)) s) / 2) / INR n)).
    2: { intros s. rewrite Erun_potts_none.
         rewrite (sumf_ext (seq 0 n) (fun i => exp (- E s) * _ / 2) (fun i => exp (- E s) * (sumf [1; 2]%nat (fun r => pkernel E i r (fun s => Erun_potts E n fs F s (E s)) s) / 2)))
           by (intros i; unfold Rdiv; ring).
         rewrite sumf_scal_l. unfold Rdiv. ring. }
    rewrite sumf_div, sumf_swap.
    rewrite (sumf_ext _ _ (fun _ => sumf (potts_states n) (fun s => exp (- E s) * F s))).
    2: { intros i. rewrite pkernel_stationary. exact IH. }
    rewrite sumf_const, seq_length. field. apply not_0_INR. lia.
Qed.
