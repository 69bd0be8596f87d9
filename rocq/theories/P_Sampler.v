(** * Facts about the Metropolis samplers *)
From Verif Require Import Prelude Spec PreludeFacts M_Index M_Sampler P_Energy P_Energy2.
Import ListNotations.
Local Open Scope R_scope.

Definition spin (z : Z) : Prop := z = (-1)%Z \/ z = 1%Z.

(** Two vectors of the same length that differ at position i and nowhere else. *)
Definition differ_only_at {A} (i : nat) (s s' : list A) : Prop :=
  (i < length s)%nat /\ length s' = length s /\ nth_error s i <> nth_error s' i /\
  forall j, j <> i -> nth_error s' j = nth_error s j.

Lemma nth_error_upd_other {A} (l : list A) i j v : i <> j -> nth_error (upd l i v) j = nth_error l j.
Proof. revert i j. induction l as [|a l IH]; intros [|i] [|j] H; cbn; try reflexivity; try lia. apply IH. lia. Qed.

Lemma nth_error_upd_same {A} (l : list A) i v : (i < length l)%nat -> nth_error (upd l i v) i = Some v.
Proof. revert i. induction l as [|a l IH]; intros [|i] H; cbn in *; try lia; try reflexivity. apply IH. lia. Qed.

Lemma upd_differ {A} (s : list A) i v d : (i < length s)%nat -> nth i s d <> v ->
  differ_only_at i s (upd s i v).
Proof.
  intros Hi Hv. split; [exact Hi|]. split; [apply upd_length|]. split.
  - rewrite nth_error_upd_same by exact Hi. intros E. apply Hv. now apply nth_error_nth.
  - intros j Hj. apply nth_error_upd_other. congruence.
Qed.

Lemma upd_oob {A} (l : list A) i v : (length l <= i)%nat -> upd l i v = l.
Proof. revert i. induction l as [|a l IH]; intros [|i] H; cbn in *; try lia; try reflexivity. now rewrite IH by lia. Qed.

Lemma flip_length s i : length (flip s i) = length s.
Proof. apply upd_length. Qed.

Lemma flip_flip s i : flip (flip s i) i = s.
Proof.
  unfold flip. destruct (Nat.lt_ge_cases i (length s)) as [H|H].
  - rewrite nth_upd_same by exact H. rewrite upd_upd.
    replace (nth i s 0 * -1 * -1)%Z with (nth i s 0%Z) by lia. apply upd_same.
  - rewrite !upd_oob; rewrite ?upd_length; auto.
Qed.

Lemma Forall_nth_in {A} (P : A -> Prop) l i d : Forall P l -> (i < length l)%nat -> P (nth i l d).
Proof. intros H Hi. rewrite Forall_forall in H. apply H. now apply nth_In. Qed.

Lemma Forall_upd {A} (P : A -> Prop) l i v : Forall P l -> P v -> Forall P (upd l i v).
Proof.
  intros H Hv. revert i. induction H as [|a l Ha Hl IH]; intros [|i]; cbn; auto.
Qed.

Lemma spin_flip z : spin z -> spin (z * -1)%Z.
Proof. unfold spin. intros [-> | ->]; lia. Qed.

Lemma flip_spins s i : Forall spin s -> Forall spin (flip s i).
Proof.
  intros H. destruct (Nat.lt_ge_cases i (length s)) as [Hi|Hi].
  - apply Forall_upd; [exact H|]. apply spin_flip. now apply Forall_nth_in.
  - unfold flip. now rewrite upd_oob.
Qed.

Lemma flip_differ s i : Forall spin s -> (i < length s)%nat -> differ_only_at i s (flip s i).
Proof.
  intros H Hi. unfold flip. apply upd_differ with 0%Z; [exact Hi|].
  destruct (Forall_nth_in _ _ i 0%Z H Hi); lia.
Qed.

(** The outcome of one update: nothing changed, or exactly one site changed. *)
Definition good_step {V} (E : list V -> R) (site_ok : nat -> Prop) (s s' : list V) (de : R) : Prop :=
  (s' = s /\ de = 0) \/ (exists i, site_ok i /\ differ_only_at i s s' /\ de = E s' - E s).

Definition site_of (fs : option nat) (i : nat) : Prop := match fs with Some j => i = j | None => True end.
Definition site_in (n : nat) (fs : option nat) : Prop := match fs with Some j => (j < n)%nat | None => True end.

Lemma sample_metropolis_step {T} (g : rng T) calc_e fs s t s' de t' :
  rng_ok g -> (0 < length s)%nat -> Forall spin s -> site_in (length s) fs ->
  sample_metropolis g calc_e fs s (calc_e s) t = (s', de, t') ->
  good_step calc_e (site_of fs) s s' de /\ Forall spin s'.
Proof.
  intros Hg Hn Hs Hf. unfold sample_metropolis.
  assert (Hsite : exists site t1, (match fs with Some i => (i, t) | None => randint g t 0%nat (length s) end) = (site, t1)
                  /\ (site < length s)%nat /\ site_of fs site).
  { destruct fs as [i|].
    - exists i, t. cbn in *. auto.
    - destruct (randint g t 0 (length s)) as [site t1] eqn:E. exists site, t1. split; [reflexivity|].
      destruct Hg as [Hg _]. specialize (Hg t 0%nat (length s) Hn). rewrite E in Hg. cbn in *. split; [lia|exact I]. }
  destruct Hsite as [site [t1 [-> [Hi Hok]]]].
  assert (Acc : good_step calc_e (site_of fs) s (flip s site) (calc_e (flip s site) - calc_e s)).
  { right. exists site. split; [exact Hok|]. split; [now apply flip_differ | reflexivity]. }
  destruct (Rlt_dec 0 _) as [Hd|Hd].
  - destruct (rand g t1) as [u t2]. destruct (Rlt_dec _ u).
    + intros E. injection E as <- <- <-. split.
      * left. split; [apply flip_flip | reflexivity].
      * now rewrite flip_flip.
    + intros E. injection E as <- <- <-. split; [exact Acc | now apply flip_spins].
  - intros E. injection E as <- <- <-. split; [exact Acc | now apply flip_spins].
Qed.

Definition potts3 (x : nat) : Prop := (x < 3)%nat.

Lemma potts_sample_metropolis_step {T} (g : rng T) calc_e fs s t s' de t' :
  rng_ok g -> (0 < length s)%nat -> Forall potts3 s -> site_in (length s) fs ->
  potts_sample_metropolis g calc_e fs s (calc_e s) t = (s', de, t') ->
  good_step calc_e (site_of fs) s s' de /\ Forall potts3 s'.
Proof.
  intros Hg Hn Hs Hf. unfold potts_sample_metropolis.
  assert (Hsite : exists site t1, (match fs with Some i => (i, t) | None => randint g t 0%nat (length s) end) = (site, t1)
                  /\ (site < length s)%nat /\ site_of fs site).
  { destruct fs as [i|].
    - exists i, t. cbn in *. auto.
    - destruct (randint g t 0 (length s)) as [site t1] eqn:E. exists site, t1. split; [reflexivity|].
      destruct Hg as [Hg _]. specialize (Hg t 0%nat (length s) Hn). rewrite E in Hg. cbn in *. split; [lia|exact I]. }
  destruct Hsite as [site [t1 [-> [Hi Hok]]]].
  destruct (randint g t1 1 3) as [r t2] eqn:Er.
  assert (Hr : (1 <= r < 3)%nat).
  { destruct Hg as [Hg _]. specialize (Hg t1 1%nat 3%nat ltac:(lia)). now rewrite Er in Hg. }
  assert (Ho : (nth site s 0 < 3)%nat) by (apply (Forall_nth_in potts3); assumption).
  set (v := ((nth site s 0 + r) mod 3)%nat).
  assert (Hv : (v < 3)%nat) by (apply Nat.mod_upper_bound; lia).
  assert (Hne : nth site s 0%nat <> v).
  { unfold v. destruct (nth site s 0%nat) as [|[|[|k]]]; try lia; destruct r as [|[|[|r]]]; try lia; cbn; lia. }
  assert (Acc : good_step calc_e (site_of fs) s (upd s site v) (calc_e (upd s site v) - calc_e s)).
  { right. exists site. split; [exact Hok|]. split; [apply upd_differ with 0%nat; assumption | reflexivity]. }
  assert (Hs1 : Forall potts3 (upd s site v)) by now apply Forall_upd.
  destruct (Rlt_dec 0 _) as [Hd|Hd].
  - destruct (rand g t2) as [u t3]. destruct (Rlt_dec _ u).
    + intros E. injection E as <- <- <-. rewrite upd_upd, upd_same. split; [now left | exact Hs].
    + intros E. injection E as <- <- <-. auto.
  - intros E. injection E as <- <- <-. auto.
Qed.

(** ** Runs of any number of updates *)
Section Runs.
Context {V T : Type}.
Variable step : option nat -> list V -> R -> T -> list V * R * T.
Variable calc_e : list V -> R.
Variable valid : V -> Prop.
Variable n : nat.
Hypothesis step_ok : forall f s t s' de t', length s = n -> Forall valid s -> site_in n f ->
  step f s (calc_e s) t = (s', de, t') ->
  length s' = n /\ Forall valid s' /\ de = calc_e s' - calc_e s.

Lemma run_inv fs : Forall (site_in n) fs -> forall s t s' E' t' h,
  length s = n -> Forall valid s ->
  run step fs s (calc_e s) t = ((s', E', t'), h) ->
  length s' = n /\ Forall valid s' /\ E' = calc_e s' /\ length h = length fs.
Proof.
  induction 1 as [|f fs Hf Hfs IH]; intros s t s' E' t' h Hn Hv; cbn.
  - intros E. injection E as <- <- <- <-. auto.
  - destruct (step f s (calc_e s) t) as [[s1 de] t1] eqn:E1.
    destruct (step_ok _ _ _ _ _ _ Hn Hv Hf E1) as [Hn1 [Hv1 ->]].
    replace (calc_e s + (calc_e s1 - calc_e s)) with (calc_e s1) by ring.
    destruct (run step fs s1 (calc_e s1) t1) as [[[s2 E2] t2] h2] eqn:E2'.
    intros E. injection E as <- <- <- <-.
    destruct (IH _ _ _ _ _ _ Hn1 Hv1 E2') as [? [? [? ?]]]. cbn. auto.
Qed.

Lemma record_inv fs : Forall (site_in n) fs -> forall m s t ss Es s' E' t' h,
  length s = n -> Forall valid s ->
  record step fs m s (calc_e s) t = ((ss, Es), (s', E', t'), h) ->
  length ss = m /\ Es = map calc_e ss /\ Forall (fun s => length s = n /\ Forall valid s) ss /\
  length s' = n /\ Forall valid s' /\ E' = calc_e s' /\ length h = (m * length fs)%nat /\
  (ss <> [] -> s' = last ss []).
Proof.
  intros Hfs. induction m as [|m IH]; intros s t ss Es s' E' t' h Hn Hv; cbn.
  - intros E. injection E as <- <- <- <- <- <-. repeat split; auto. congruence.
  - destruct (run step fs s (calc_e s) t) as [[[s1 E1] t1] h1] eqn:R1.
    destruct (run_inv fs Hfs _ _ _ _ _ _ Hn Hv R1) as [Hn1 [Hv1 [-> Hh1]]].
    destruct (record step fs m s1 (calc_e s1) t1) as [[[ss2 Es2] [[s2 E2] t2]] h2] eqn:R2.
    destruct (IH _ _ _ _ _ _ _ _ Hn1 Hv1 R2) as [Hl [-> [HF [Hn2 [Hv2 [-> [Hh2 Hlast]]]]]]].
    intros E. injection E as <- <- <- <- <- <-. repeat split; auto.
    + cbn. congruence.
    + rewrite app_length. lia.
    + intros _. destruct ss2 as [|a ss2]; [|rewrite Hlast by discriminate; reflexivity].
      cbn in Hl. subst m. cbn in R2. inversion R2. reflexivity.
Qed.

Lemma sites_in systematic m : (0 < n)%nat -> Forall (site_in n) (sites systematic n m).
Proof.
  intros Hn. apply Forall_forall. intros f Hf. unfold sites in Hf. apply in_map_iff in Hf.
  destruct Hf as [i [<- _]]. destruct systematic; cbn; [|exact I]. apply Nat.mod_upper_bound. lia.
Qed.

Lemma sites_length systematic m : length (sites systematic n m) = m.
Proof. unfold sites. rewrite map_length. apply seq_length. Qed.
End Runs.
