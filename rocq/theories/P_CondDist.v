(** * Conditional sampling: the chain of the free spins *)
From Coq Require Import Permutation Sorted FunctionalExtensionality.
From Coquelicot Require Import Coquelicot.
From Verif Require Import Prelude Spec PreludeFacts M_Index M_Sampler P_Energy P_Energy2 P_Sampler P_Metro P_Cpp P_Cond P_Converge P_Converge2 P_Converge3.
Import ListNotations.

(** The state has the given values at the given sites. *)
Definition agrees (fixed : list (nat * Z)) (s : list Z) : bool := forallb (fun p => Z.eqb (nth (fst p) s 0%Z) (snd p)) fixed.

Lemma agrees_spec n fixed s : length s = n -> Forall (fun i => (i < n)%nat) (map fst fixed) ->
  agrees fixed s = true <-> forall i v, In (i, v) fixed -> nth_error s i = Some v.
Proof.
  intros Hl Hb. unfold agrees. rewrite forallb_forall. rewrite Forall_forall in Hb. split.
  - intros H i v Hi. specialize (H _ Hi). cbn in H. apply Z.eqb_eq in H. rewrite <- H. apply nth_error_nth'. rewrite Hl. apply Hb. apply in_map_iff. now exists (i, v).
  - intros H [i v] Hi. cbn. apply Z.eqb_eq. specialize (H _ _ Hi). now apply nth_error_nth.
Qed.

Definition free_sites (n : nat) (fixed : list (nat * Z)) : list nat := filter (fun i => negb (existsb (Nat.eqb i) (map fst fixed))) (seq 0 n).

Lemma free_sites_spec n fixed i : In i (free_sites n fixed) <-> (i < n)%nat /\ ~ In i (map fst fixed).
Proof.
  unfold free_sites. rewrite filter_In, in_seq. split; intros [A B]; (split; [lia|]).
  - intros H. apply negb_true_iff in B. assert (existsb (Nat.eqb i) (map fst fixed) = true); [|congruence]. apply existsb_exists. exists i. split; [assumption|apply Nat.eqb_refl].
  - apply negb_true_iff. apply not_true_is_false. intros H. apply existsb_exists in H. destruct H as (x & Hx & E). apply Nat.eqb_eq in E. subst. contradiction.
Qed.

Lemma completes_unique n fixed st a b : completes n fixed st a -> completes n fixed st b -> a = b.
Proof.
  intros (A1 & A2 & A3) (B1 & B2 & B3). apply (nth_ext _ _ 0%Z 0%Z); [congruence|]. intros i Hi. rewrite A1 in Hi.
  destruct (in_dec Nat.eq_dec i (map fst fixed)) as [H|H].
  - apply in_map_iff in H. destruct H as ([j v] & E & H). cbn in E. subst j. rewrite (nth_error_nth _ _ 0%Z (A2 _ _ H)). now rewrite (nth_error_nth _ _ 0%Z (B2 _ _ H)).
  - assert (F : In i (free_sites n fixed)) by (now apply free_sites_spec). rewrite <- B3 in A3. fold (free_sites n fixed) in A3.
    rewrite map_ext_in_iff in A3. now apply A3.
Qed.

Lemma free_length n fixed : fixed_ok n fixed -> length (free_sites n fixed) = (n - length fixed)%nat /\ non_ix_loop (range n) (map fst fixed) 0 = free_sites n fixed.
Proof.
  intros [Hs Hb]. assert (E : non_ix_loop (range n) (map fst fixed) 0 = free_sites n fixed) by (unfold range; rewrite (non_ix_loop_spec _ Hs n 0 0); [reflexivity|intros; lia|lia]).
  destruct (non_ix_spec n (map fst fixed) Hs Hb) as (_ & L & _). rewrite E, map_length in L. auto.
Qed.

Lemma nth_map_in {A B} (f : A -> B) l j d d' : (j < length l)%nat -> nth j (map f l) d = f (nth j l d').
Proof. intros H. rewrite (nth_indep _ d (f d')) by (now rewrite map_length). apply map_nth. Qed.

Section Free.
Variables (n : nat) (fixed : list (nat * Z)).
Hypothesis Hok : fixed_ok n fixed.
Hypothesis Hspin : Forall (fun p => spin (snd p)) fixed.
Hypothesis Hlt : (length fixed < n)%nat.
Notation k := (n - length fixed)%nat.
Notation comp := (complete fixed 0).

Lemma comp_spec x : length x = k -> completes n fixed x (comp x).
Proof. intros H. now apply complete_completes. Qed.

Lemma cond_perm : Permutation (filter (agrees fixed) (spin_states n)) (map comp (spin_states k)).
Proof.
  apply NoDup_Permutation.
  - apply NoDup_filter, spin_states_NoDup.
  - assert (I : forall l, NoDup l -> Forall (fun x => length x = k) l -> NoDup (map comp l)).
    { induction l as [|a l IH]; intros H F; [constructor|]. apply NoDup_cons_iff in H. destruct H as [H1 H2]. apply Forall_cons_iff in F. destruct F as [F1 F2]. cbn [map]. constructor; [|now apply IH].
      intros C. apply in_map_iff in C. destruct C as (y & E & Hy). rewrite Forall_forall in F2. specialize (F2 _ Hy).
      assert (a = y); [|congruence]. destruct (comp_spec a F1) as (_ & _ & <-). destruct (comp_spec y F2) as (_ & _ & <-). now rewrite E. }
    apply I; [apply spin_states_NoDup|]. apply Forall_forall. intros x Hx. now apply spin_states_spec in Hx.
  - intros s. rewrite filter_In, spin_states_spec, in_map_iff. destruct Hok as [Hs Hb]. split.
    + intros [[Hl Hsp] Ha]. assert (A := proj1 (agrees_spec n fixed s Hl Hb) Ha).
      exists (map (fun i => nth i s 0%Z) (free_sites n fixed)). assert (L : length (map (fun i => nth i s 0%Z) (free_sites n fixed)) = k) by (rewrite map_length; now apply free_length). split.
      * apply (completes_unique n fixed (map (fun i => nth i s 0%Z) (free_sites n fixed))); [now apply comp_spec|]. split; [assumption|]. split; [assumption|reflexivity].
      * apply spin_states_spec. split; [assumption|]. apply Forall_forall. intros z Hz. apply in_map_iff in Hz. destruct Hz as (i & <- & Hi). apply free_sites_spec in Hi.
        rewrite Forall_forall in Hsp. apply Hsp. apply nth_In. lia.
    + intros (x & <- & Hx). apply spin_states_spec in Hx. destruct Hx as [Hl Hx]. destruct (comp_spec x Hl) as (C1 & C2 & _).
      split; [split; [assumption|now apply complete_spins]|]. now apply (agrees_spec n).
Qed.

Lemma comp_in x : In x (spin_states k) -> In (comp x) (spin_states n) /\ agrees fixed (comp x) = true.
Proof. intros H. assert (A : In (comp x) (filter (agrees fixed) (spin_states n))) by (apply (Permutation_in _ (Permutation_sym cond_perm)); now apply in_map). now apply filter_In in A. Qed.

Lemma agrees_comp s : In s (spin_states n) -> agrees fixed s = true -> exists x, In x (spin_states k) /\ comp x = s.
Proof.
  intros H1 H2. assert (A : In s (map comp (spin_states k))) by (apply (Permutation_in _ cond_perm); apply filter_In; auto).
  apply in_map_iff in A. destruct A as (x & E & Hx). now exists x.
Qed.

(** Flipping the r-th free spin commutes with inserting the fixed ones. *)
Lemma flip_comp x r : length x = k -> (r < k)%nat -> flip (comp x) (nth r (free_sites n fixed) 0%nat) = comp (flip x r).
Proof.
  intros Hl Hr. destruct (free_length n fixed Hok) as [FL _]. set (i := nth r (free_sites n fixed) 0%nat).
  assert (Hi : In i (free_sites n fixed)) by (apply nth_In; lia). assert (Hi' := proj1 (free_sites_spec n fixed i) Hi).
  destruct (comp_spec x Hl) as (C1 & C2 & C3). fold (free_sites n fixed) in C3.
  apply (completes_unique n fixed (flip x r)); [|apply comp_spec; now rewrite flip_length].
  split; [now rewrite flip_length|]. split.
  - intros j v Hj. assert (j <> i) by (intros ->; apply (proj2 Hi'); apply in_map_iff; now exists (i, v)).
    rewrite (nth_error_nth' _ 0%Z) by (rewrite flip_length, C1; destruct Hok as [_ B]; rewrite Forall_forall in B; apply B; apply in_map_iff; now exists (j, v)).
    unfold flip. rewrite nth_upd_other by auto. f_equal. apply nth_error_nth. now apply C2.
  - fold (free_sites n fixed). assert (ND : NoDup (free_sites n fixed)) by (apply NoDup_filter, seq_NoDup).
    assert (V : forall j, (j < k)%nat -> nth (nth j (free_sites n fixed) 0%nat) (comp x) 0%Z = nth j x 0%Z).
    { intros j Hj. transitivity (nth j (map (fun i => nth i (comp x) 0%Z) (free_sites n fixed)) 0%Z); [|now rewrite C3]. symmetry. apply (nth_map_in (fun i => nth i (comp x) 0%Z) (free_sites n fixed) j 0%Z 0%nat). lia. }
    apply (nth_ext _ _ 0%Z 0%Z); [rewrite map_length, flip_length; lia|]. intros j Hj. rewrite map_length in Hj.
    rewrite (nth_map_in (fun i0 => nth i0 (flip (comp x) i) 0%Z) (free_sites n fixed) j 0%Z 0%nat) by lia.
    unfold flip. destruct (Nat.eq_dec j r) as [->|Hne].
    + fold i. rewrite nth_upd_same by (rewrite C1; apply Hi'). rewrite nth_upd_same by lia. unfold i. now rewrite V by lia.
    + rewrite nth_upd_other; [rewrite nth_upd_other by auto; apply V; lia|]. unfold i. intros E. apply Hne. symmetry. apply (proj1 (NoDup_nth _ 0%nat) ND); lia.
Qed.
End Free.

Local Open Scope R_scope.

(** Expectation under the distribution p of the states given the values of some spins. *)
Definition given (p : list Z -> R) (states : list (list Z)) (fixed : list (nat * Z)) (F : list Z -> R) : R :=
  sumf (filter (agrees fixed) states) (fun s => p s * F s) / sumf (filter (agrees fixed) states) p.

Lemma given_eq n fixed E F : fixed_ok n fixed -> Forall (fun p => spin (snd p)) fixed -> (length fixed < n)%nat ->
  let St := spin_states (n - length fixed) in let E' := fun x => E (complete fixed 0 x) in
  given (boltzmann E (spin_states n)) (spin_states n) fixed F = expectation (boltzmann E' St) St (fun x => F (complete fixed 0 x)).
Proof.
  intros Hok Hs Hlt St E'. unfold given. rewrite !(sumf_perm _ _ _ (cond_perm n fixed Hok Hs Hlt)), !sumf_map. fold St.
  assert (Z : 0 < partition E (spin_states n)) by (apply sumf_pos; [apply spin_states_ne|]; intros; apply exp_pos).
  assert (Z' : 0 < partition E' St) by (apply sumf_pos; [apply spin_states_ne|]; intros; apply exp_pos).
  unfold expectation, boltzmann.
  rewrite (sumf_ext_in St (fun a => exp (- E (complete fixed 0 a)) / partition E (spin_states n)) (fun a => / partition E (spin_states n) * exp (- E' a))) by (intros; unfold E'; field; lra).
  rewrite sumf_scal_l. change (sumf St (fun a => exp (- E' a))) with (partition E' St).
  rewrite (sumf_ext_in St (fun a => exp (- E (complete fixed 0 a)) / partition E (spin_states n) * F (complete fixed 0 a)) (fun a => / partition E (spin_states n) * (exp (- E' a) * F (complete fixed 0 a)))) by (intros; unfold E'; field; lra).
  rewrite sumf_scal_l.
  rewrite (sumf_ext_in St (fun s => exp (- E' s) / partition E' St * F (complete fixed 0 s)) (fun s => / partition E' St * (exp (- E' s) * F (complete fixed 0 s)))) by (intros; field; lra).
  rewrite sumf_scal_l. field. split; lra.
Qed.

(** ** The initial row *)
Lemma tape_row (v : nat -> Z) m : forall (first : list (nat * R)) c, length first = m ->
  exists row c', forall l, draw_row (fun t => let '(b, t) := randint tape t 0%nat 2%nat in (v b, t)) m (first ++ l, c) = (row, (l, c')).
Proof.
  induction m as [|m IH]; intros [|e first] c H; cbn in H; try discriminate; [exists [], c; reflexivity|].
  destruct (IH first e ltac:(lia)) as (row & c' & Q). exists (v (clampi (fst e) 0 2) :: row), c'. intros l. cbn [draw_row tape randint fst app]. now rewrite Q.
Qed.

(** ** The compiled sampler's chain on full states *)
Section Full.
Variables (n : nat) (fixed : list (nat * Z)).
Hypothesis Hok : fixed_ok n fixed.
Hypothesis Hspin : Forall (fun p => spin (snd p)) fixed.
Hypothesis Hlt : (length fixed < n)%nat.
Variable E : list Z -> R.
Notation k := (n - length fixed)%nat.
Notation comp := (complete fixed 0).
Let E' := fun x => E (comp x).

Definition cnext (e : nat * R) (s : list Z) : list Z * R := inext E (nth (fst e) (free_sites n fixed) 0%nat, snd e) s.

Lemma cnext_comp e x : okdraw k e -> length x = k -> cnext e (comp x) = (comp (fst (inext E' e x)), snd (inext E' e x)).
Proof.
  intros [Hi Hu] Hl. unfold cnext, inext. cbn [fst snd]. rewrite (outcome_eq E), (outcome_eq E'). cbv zeta. cbn [site_or].
  rewrite (flip_comp n fixed Hok Hlt x (fst e) Hl Hi). fold (E' (flip x (fst e))). fold (E' x).
  destruct (Rlt_dec 1 (snd e)); [lra|]. destruct (Rlt_dec _ _); reflexivity.
Qed.

Definition okfull (s : list Z) : Prop := exists x, In x (spin_states k) /\ comp x = s.

Lemma cnext_ok e s : okdraw k e -> okfull s -> okfull (fst (cnext e s)) /\ E s + snd (cnext e s) = E (fst (cnext e s)).
Proof.
  intros He (x & Hx & <-). assert (Hl : length x = k) by (now apply spin_states_spec in Hx). rewrite (cnext_comp e x He Hl). cbn [fst snd].
  destruct (inext_ok E' k e x He Hx) as [A B]. split; [eexists; eauto|exact B].
Qed.

Lemma cP_iter j : forall G x, In x (spin_states k) -> iterf j (Pnext (draw k) cnext) G (comp x) = iterf j (rs_step E' k) (fun y => G (comp y)) x.
Proof.
  induction j as [|j IH]; intros G x Hx; [reflexivity|]. cbn [iterf]. rewrite <- draw_next. unfold Pnext at 1 3. apply draw_ext. intros e He.
  rewrite (cnext_comp e x He) by (now apply spin_states_spec in Hx). cbn [fst]. apply IH. now apply inext_ok.
Qed.

Lemma cP_rows m j : forall G x, (0 < k)%nat -> In x (spin_states k) ->
  rows_exp (fun F => iterf j (Pnext (draw k) cnext) F) m G (comp x) = rows_exp (fun F => iterf j (rs_step E' k) F) m (fun rows => G (map comp rows)) x.
Proof.
  induction m as [|m IH]; intros G x Hk Hx; [reflexivity|]. cbn [rows_exp]. rewrite cP_iter by assumption.
  destruct (avg_iter (spin_states k) (rs_step E' k) j (rs_averaging E' k Hk)) as (A1 & _). apply A1; [|assumption]. intros y Hy. now apply (IH (fun rows => G (comp y :: rows))).
Qed.

(** Choosing a free site is choosing a position among them. *)
Lemma free_run {T} (g : rng T) (step : list Z -> nat -> T -> list Z * R * T) m : forall ctr s e t,
  cpp_run step (pick_free g false n (map fst fixed) (free_sites n fixed)) m ctr s e t =
  cpp_run (fun s r t => step s (nth r (free_sites n fixed) 0%nat) t) (pick_all g false k) m ctr s e t.
Proof.
  induction m as [|m IH]; intros ctr s e t; cbn [cpp_run]; [reflexivity|]. unfold pick_free at 1, pick_all at 1. rewrite map_length. replace (n - 1 - length fixed + 1)%nat with k by lia.
  destruct (randint g t 0 k) as [r t1]. destruct (step s (nth r (free_sites n fixed) 0%nat) t1) as [[s1 de] t2]. apply IH.
Qed.

Lemma free_record {T} (g : rng T) (step : list Z -> nat -> T -> list Z * R * T) j m : forall ctr s e t,
  cpp_record step (pick_free g false n (map fst fixed) (free_sites n fixed)) j m ctr s e t =
  cpp_record (fun s r t => step s (nth r (free_sites n fixed) 0%nat) t) (pick_all g false k) j m ctr s e t.
Proof.
  induction m as [|m IH]; intros ctr s e t; cbn [cpp_record]; [reflexivity|]. rewrite free_run.
  destruct (cpp_run _ _ j ctr s e t) as [[[s1 e1] t1] c1]. now rewrite IH.
Qed.
End Full.
