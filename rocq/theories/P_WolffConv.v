(** * Convergence of the Wolff chain *)
From Coq Require Import Permutation FunctionalExtensionality.
From Coquelicot Require Import Coquelicot.
From Verif Require Import Prelude PreludeFacts Spec M_Index M_Params M_Sampler M_Wolff P_Index P_Energy P_Energy2 P_Params P_RMF P_Sampler P_Metro
  P_Ising P_Lattice P_Wolff P_Wolff2 P_Wolff3 P_Converge P_Converge2 P_Converge3.
Import ListNotations.
Local Open Scope R_scope.

Section Chain.
Variables (n : nat) (h v : list R).
Hypothesis Hn : (0 < n)%nat.
Hypothesis Hh : length h = n.

Notation P := (Estep n h v n).
Notation St := (spin_states n).

Lemma Pcl_total s i : (i < n)%nat -> sumf (clusters n) (fun c => Pcl n v s i c) = 1.
Proof.
  intros Hi. transitivity (Ecl n (eJ n v s) n [i] [i] (fun _ => 1)).
  - rewrite (Ecl_decompose n h v Hh) by assumption. apply sumf_ext. intros c. ring.
  - apply Ecl_const; [repeat constructor; intros []|intros x [<-|[]]; assumption|cbn; lia].
Qed.

(** One step as a mixture of its outcomes. *)
Lemma Estep_mix F s : P F s = sumf (seq 0 n) (fun i => sumf (clusters n) (fun c => Pcl n v s i c * (acl h s c * F (flip_cluster s c) + (1 - acl h s c) * F s))) / INR n.
Proof.
  rewrite (Estep_eq n h v Hh) by assumption.
  assert (HN : INR n <> 0) by (apply not_0_INR; lia).
  rewrite (sumf_ext_in (seq 0 n) (fun i => sumf (clusters n) (fun c => Pcl n v s i c * (acl h s c * F (flip_cluster s c) + (1 - acl h s c) * F s)))
    (fun i => F s + sumf (clusters n) (fun c => Pcl n v s i c * acl h s c * (F (flip_cluster s c) - F s)))).
  - rewrite sumf_plus, sumf_const, seq_length. field. assumption.
  - intros i Hi. apply in_seq in Hi. transitivity (sumf (clusters n) (fun c => Pcl n v s i c) * F s + sumf (clusters n) (fun c => Pcl n v s i c * acl h s c * (F (flip_cluster s c) - F s))); [|rewrite (Pcl_total s i) by lia; now rewrite Rmult_1_l]. rewrite <- sumf_scal_r, <- sumf_plus. apply sumf_ext. intros c. ring.
Qed.

Lemma acl_range s c : 0 < acl h s c <= 1.
Proof. unfold acl. split; [apply Rmin_glb_lt; [lra|apply exp_pos]|apply Rmin_l]. Qed.

Lemma Pcl_nonneg s i c : 0 <= Pcl n v s i c.
Proof. apply (Ecl_nonneg n h v Hh). apply hit_nonneg. Qed.

Lemma flip_cluster_in s c : In s St -> In (flip_cluster s c) St.
Proof. intros Hs. apply spin_states_spec in Hs. apply spin_states_spec. now apply flip_cluster_spins. Qed.

Lemma mix_nonneg F s i c : (forall x, In x St -> 0 <= F x) -> In s St -> 0 <= Pcl n v s i c * (acl h s c * F (flip_cluster s c) + (1 - acl h s c) * F s).
Proof.
  intros HF Hs. assert (A := acl_range s c). apply Rmult_le_pos; [apply Pcl_nonneg|]. apply Rplus_le_le_0_compat; apply Rmult_le_pos; try lra; apply HF; [now apply flip_cluster_in|assumption].
Qed.

Lemma wolff_averaging : averaging St P.
Proof.
  repeat split.
  - intros F G H s Hs. rewrite !Estep_mix. f_equal. apply sumf_ext. intros i. apply sumf_ext. intros c. rewrite (H s Hs), (H (flip_cluster s c)); [reflexivity|now apply flip_cluster_in].
  - intros a b F G s Hs. rewrite !Estep_mix. unfold Rdiv. rewrite <- !Rmult_assoc, <- Rmult_plus_distr_r. f_equal. rewrite <- !sumf_scal_l, <- sumf_plus. apply sumf_ext. intros i.
    rewrite <- !sumf_scal_l, <- sumf_plus. apply sumf_ext. intros c. ring.
  - intros c s Hs. rewrite (Estep_eq n h v Hh) by assumption. rewrite sumf_zero; [unfold Rdiv; ring|]. intros i _. apply sumf_zero. intros cl _. ring.
  - intros F HF s Hs. rewrite Estep_mix. apply Rmult_le_pos; [|left; apply Rinv_0_lt_compat, lt_0_INR; lia]. apply sumf_nonneg. intros i _. apply sumf_nonneg. intros c _. now apply mix_nonneg.
Qed.

Lemma ind_ge0 (x y : list Z) : 0 <= ind state_eq_dec x y.
Proof. unfold ind. destruct (state_eq_dec y x); lra. Qed.

Lemma ind_refl (x : list Z) : ind state_eq_dec x x = 1.
Proof. unfold ind. destruct (state_eq_dec x x); congruence. Qed.

(** A cluster with positive probability leads to its reversal, or to no move if it may be
    refused. *)
Lemma move_pos s i c : In s St -> (i < n)%nat -> In c (clusters n) -> 0 < Pcl n v s i c -> 0 < P (ind state_eq_dec (flip_cluster s c)) s.
Proof.
  intros Hs Hi Hc Hp. rewrite Estep_mix. set (F := ind state_eq_dec (flip_cluster s c)). apply Rdiv_lt_0_compat; [|apply lt_0_INR; lia].
  assert (NN : forall k c, 0 <= Pcl n v s k c * (acl h s c * F (flip_cluster s c) + (1 - acl h s c) * F s)) by (intros; apply mix_nonneg; [intros; apply ind_ge0|assumption]).
  eapply Rlt_le_trans; [|apply (sumf_in_le (seq 0 n) _ i); [intros k _; apply sumf_nonneg; intros; apply NN|apply in_seq; lia]].
  eapply Rlt_le_trans; [|apply (sumf_in_le (clusters n) _ c); [intros; apply NN|assumption]].
  apply Rmult_lt_0_compat; [assumption|]. unfold F at 1. rewrite ind_refl. assert (A := acl_range s c). assert (B := ind_ge0 (flip_cluster s c) s). fold F in B. nra.
Qed.

Lemma stay_pos s i c : In s St -> (i < n)%nat -> In c (clusters n) -> 0 < Pcl n v s i c -> acl h s c < 1 -> 0 < P (ind state_eq_dec s) s.
Proof.
  intros Hs Hi Hc Hp Ha. rewrite Estep_mix. set (F := ind state_eq_dec s). apply Rdiv_lt_0_compat; [|apply lt_0_INR; lia].
  assert (NN : forall k c, 0 <= Pcl n v s k c * (acl h s c * F (flip_cluster s c) + (1 - acl h s c) * F s)) by (intros; apply mix_nonneg; [intros; apply ind_ge0|assumption]).
  eapply Rlt_le_trans; [|apply (sumf_in_le (seq 0 n) _ i); [intros k _; apply sumf_nonneg; intros; apply NN|apply in_seq; lia]].
  eapply Rlt_le_trans; [|apply (sumf_in_le (clusters n) _ c); [intros; apply NN|assumption]].
  apply Rmult_lt_0_compat; [assumption|]. unfold F at 2. rewrite ind_refl. assert (A := acl_range s c). assert (B := ind_ge0 s (flip_cluster s c)). fold F in B. nra.
Qed.

Lemma single_cluster i : (i < n)%nat -> In [i] (clusters n).
Proof. intros Hi. apply (clusters_spec n h Hh). split; [repeat constructor; intros []|intros x [<-|[]]; assumption]. Qed.

Lemma flip_pos s i : In s St -> (i < n)%nat -> 0 < P (ind state_eq_dec (flip s i)) s.
Proof.
  intros Hs Hi. rewrite <- (flip_cluster_single n h Hh) by (apply spin_states_spec in Hs; destruct Hs; lia). apply (move_pos s i); [assumption|assumption|now apply single_cluster|now apply (Pcl_single n h v Hh)].
Qed.

Lemma flip_path : forall is s, In s St -> Forall (fun i => (i < n)%nat) is -> path state_eq_dec St P (length is) s (fold_left flip is s).
Proof.
  induction is as [|i is IH]; intros s Hs H; [now constructor|]. apply Forall_cons_iff in H. destruct H as [Hi H]. cbn [length fold_left].
  assert (Hf : In (flip s i) St) by (now apply flip_in_states). econstructor; [assumption|exact Hf|now apply flip_pos|now apply IH].
Qed.

(** ** Two-site clusters *)
Lemma Esub_one skip p l : (forall i, 0 <= p i <= 1) -> (forall i, In i l -> p i < 1) -> forall j Q, In j l -> skip j = false -> 0 < p j -> (forall A, 0 <= Q A) -> 0 < Q [j] -> 0 < Esub skip p l Q.
Proof.
  intros Hp. induction l as [|x l IH]; intros Hl j Q Hj Sj Pj HQ H0; [destruct Hj|]. cbn [Esub].
  assert (Hl' : forall i, In i l -> p i < 1) by (intros i Hi; apply Hl; now right).
  assert (B := Hp x). assert (B' := Hl x (or_introl eq_refl)). destruct Hj as [->|Hj].
  - rewrite Sj. assert (0 < Esub skip p l (fun A => Q (j :: A))) by (apply Esub_empty; auto).
    assert (0 <= Esub skip p l Q) by (apply Esub_nonneg; auto). apply Rplus_lt_le_0_compat; [apply Rmult_lt_0_compat; lra|apply Rmult_le_pos; lra].
  - assert (0 < Esub skip p l Q) by (now apply (IH Hl' j)). destruct (skip x); [assumption|].
    assert (0 <= Esub skip p l (fun A => Q (x :: A))) by (apply Esub_nonneg; auto). apply Rplus_le_lt_0_compat; [apply Rmult_le_pos; lra|apply Rmult_lt_0_compat; lra].
Qed.

Lemma clampP_lt1 s i k : (i < n)%nat -> (k < n)%nat -> clampP (entry (eJ n v s) k i) < 1.
Proof.
  intros Hi Hk. unfold clampP. rewrite eJ_entry by assumption. apply Rmax_lub_lt; [lra|]. pose proof (exp_pos (-2 * (symmat n v k i * (sR s k * sR s i)))). lra.
Qed.

Lemma Pcl_pair s i j : (i < n)%nat -> (j < n)%nat -> i <> j -> 0 < symmat n v j i * (sR s j * sR s i) -> 0 < Pcl n v s i [i; j].
Proof.
  intros Hi Hj N HJ. unfold Pcl.
  assert (Hit : forall A, 0 <= hit [i; j] A) by (intros; apply hit_nonneg).
  assert (EN : exists m, n = S (S m)) by (exists (n - 2)%nat; lia). destruct EN as [m EN].
  assert (K2 : 0 < Ecl n (eJ n v s) (S m) ([] ++ [j]) ([i] ++ [j]) (hit [i; j])).
  { cbn [app Ecl]. apply Esub_empty.
    - intros k. apply clampP_bounds, (eJ_nonneg n h v Hh).
    - intros k Hk. apply in_range in Hk. now apply clampP_lt1.
    - intros A. now apply (Ecl_nonneg n h v Hh s).
    - cbn [app]. destruct m; cbn [Ecl]; unfold hit; destruct (list_eq_dec Nat.eq_dec [i; j] [i; j]); try lra; congruence. }
  cut (forall f, f = S (S m) -> 0 < Ecl n (eJ n v s) f [i] [i] (hit [i; j])); [intros G; exact (G n EN)|]. intros f ->.
  cbn [Ecl]. cbn [Ecl] in K2. apply (Esub_one _ _ _) with (j := j).
  - intros k. apply clampP_bounds, (eJ_nonneg n h v Hh).
  - intros k Hk. apply in_range in Hk. now apply clampP_lt1.
  - now apply in_range.
  - cbn [existsb]. destruct (Nat.eqb_spec j i); [congruence|reflexivity].
  - unfold clampP. rewrite eJ_entry by assumption. eapply Rlt_le_trans; [|apply Rmax_r].
    assert (exp (-2 * (symmat n v j i * (sR s j * sR s i))) < exp 0) by (apply exp_increasing; lra). rewrite exp_0 in H. lra.
  - intros A. now apply (Ecl_nonneg n h v Hh s (S m)).
  - exact K2.
Qed.

Lemma flip_cluster_pair s i j : length s = n -> (i < n)%nat -> (j < n)%nat -> i <> j -> flip_cluster s [i; j] = flip (flip s i) j.
Proof.
  intros Hl Hi Hj N. apply (list_eq_nth 0%Z); [now rewrite flip_cluster_length, !flip_length|]. rewrite flip_cluster_length. intros k Hk.
  rewrite flip_cluster_nth by assumption. cbn [existsb]. rewrite orb_false_r. unfold flip.
  assert (E1 : nth j (upd s i (nth i s 0 * -1)%Z) 0%Z = nth j s 0%Z) by (now rewrite nth_upd_other by congruence).
  destruct (Nat.eqb_spec k i) as [->|N1]; cbn [orb].
  - rewrite nth_upd_other by congruence. rewrite nth_upd_same by lia. lia.
  - destruct (Nat.eqb_spec k j) as [->|N2].
    + rewrite nth_upd_same by (rewrite upd_length; lia). try rewrite E1. lia.
    + rewrite !nth_upd_other by congruence. reflexivity.
Qed.

(** Some parameter is not zero: some state can return to itself in any number of steps
    above one. *)
Lemma spin_cases s k : In s St -> (k < n)%nat -> sR s k = 1 \/ sR s k = -1.
Proof.
  intros Hs Hk. apply spin_states_spec in Hs. destruct Hs as [Hl Hs]. unfold sR. rewrite Forall_forall in Hs. destruct (Hs (nth k s 0%Z)) as [->| ->]; [apply nth_In; lia|now right|now left].
Qed.

Lemma flip_sR s i k : (i < length s)%nat -> sR (flip s i) k = if Nat.eqb k i then - sR s k else sR s k.
Proof.
  intros Hi. unfold sR, flip. destruct (Nat.eqb_spec k i) as [->|N].
  - rewrite nth_upd_same by assumption. rewrite mult_IZR. ring.
  - now rewrite nth_upd_other by congruence.
Qed.

Lemma two_cycle s : In s St -> path state_eq_dec St P 2 s s.
Proof.
  intros Hs. assert (Hf := proj1 (flip_in_states n s 0 Hs)). apply path_cons with (x := flip s 0); [assumption|assumption|now apply flip_pos|].
  apply path_cons with (x := s); [assumption|assumption| |now constructor]. rewrite <- (proj2 (flip_in_states n s 0 Hs)) at 1. now apply flip_pos.
Qed.

Lemma long_cycles s : In s St -> path state_eq_dec St P 3 s s -> forall k, (2 <= k)%nat -> path state_eq_dec St P k s s.
Proof.
  intros Hs H3 k. induction k as [k IH] using lt_wf_ind. intros Hk. destruct (Nat.lt_ge_cases k 4) as [L|L].
  - assert (k = 2 \/ k = 3)%nat as [-> | ->] by lia; [now apply two_cycle|assumption].
  - replace k with (2 + (k - 2))%nat by lia. eapply path_app; [now apply two_cycle|]. apply IH; lia.
Qed.

Lemma field_cycles i : (i < n)%nat -> nthR h i <> 0 -> exists a, In a St /\ forall k, (2 <= k)%nat -> path state_eq_dec St P k a a.
Proof.
  intros Hi Hz.
  assert (EX : exists a, In a St /\ 0 < nthR h i * sR a i).
  { set (s := repeat 1%Z n). assert (Hs : In s St) by (apply spin_states_spec; split; [apply repeat_length|]; apply Forall_forall; intros x Hx; apply repeat_spec in Hx; subst x; now right).
    assert (Ls : length s = n) by apply repeat_length. destruct (spin_cases s i Hs Hi) as [E1|E1], (Rlt_dec 0 (nthR h i)) as [L|L].
    - exists s. split; [assumption|]. rewrite E1. lra.
    - exists (flip s i). split; [now apply flip_in_states|]. rewrite flip_sR, Nat.eqb_refl, E1 by lia. lra.
    - exists (flip s i). split; [now apply flip_in_states|]. rewrite flip_sR, Nat.eqb_refl, E1 by lia. lra.
    - exists s. split; [assumption|]. rewrite E1. lra. }
  destruct EX as (a & Ha & Hp). exists a. split; [assumption|]. intros k _. apply path_loop; [assumption|].
  apply (stay_pos a i [i]); [assumption|assumption|now apply single_cluster|now apply (Pcl_single n h v Hh)|].
  unfold acl. eapply Rle_lt_trans; [apply Rmin_r|]. rewrite <- exp_0. apply exp_increasing. rewrite cluster_field_eq, sumf_cons, sumf_nil. lra.
Qed.

Lemma coupling_cycles i j : (i < n)%nat -> (j < n)%nat -> i <> j -> symmat n v j i <> 0 -> exists a, In a St /\ forall k, (2 <= k)%nat -> path state_eq_dec St P k a a.
Proof.
  intros Hi Hj N Hz.
  assert (EX : exists a, In a St /\ 0 < symmat n v j i * (sR a j * sR a i)).
  { set (s := repeat 1%Z n). assert (Hs : In s St) by (apply spin_states_spec; split; [apply repeat_length|]; apply Forall_forall; intros x Hx; apply repeat_spec in Hx; subst x; now right).
    assert (Ls : length s = n) by apply repeat_length.
    destruct (Rlt_dec 0 (symmat n v j i * (sR s j * sR s i))) as [L|L]; [now exists s|]. exists (flip s i). split; [now apply flip_in_states|].
    rewrite !flip_sR, Nat.eqb_refl by lia. destruct (Nat.eqb_spec j i); [congruence|]. destruct (spin_cases s i Hs Hi) as [E1|E1], (spin_cases s j Hs Hj) as [E2|E2]; rewrite E1, E2 in *; lra. }
  destruct EX as (a & Ha & Hp). exists a. split; [assumption|]. apply long_cycles; [assumption|].
  assert (La : length a = n) by (now apply spin_states_spec in Ha).
  assert (F1 := proj1 (flip_in_states n a i Ha)). assert (F2 := proj1 (flip_in_states n (flip a i) j F1)).
  assert (B1 := proj2 (flip_in_states n (flip a i) j F1)). assert (B2 := proj2 (flip_in_states n a i Ha)).
  apply path_cons with (x := flip (flip a i) j); [assumption|assumption| |].
  - rewrite <- flip_cluster_pair by assumption. apply (move_pos a i); [assumption|assumption| |now apply Pcl_pair].
    apply (clusters_spec n h Hh). split; [constructor; [intros [C|[]]; congruence|repeat constructor; intros []]|intros x [<-|[<-|[]]]; assumption].
  - apply path_cons with (x := flip a i); [assumption|assumption|rewrite <- B1 at 1; now apply flip_pos|].
    apply path_cons with (x := a); [assumption|assumption|rewrite <- B2 at 1; now apply flip_pos|now constructor].
Qed.

Lemma wolff_minor : (exists i, (i < n)%nat /\ nthR h i <> 0) \/ (exists i j, (i < n)%nat /\ (j < n)%nat /\ i <> j /\ symmat n v j i <> 0) ->
  exists eps, 0 < eps <= 1 /\ minor St eps (fun F => iterf (2 * n + 2) P F).
Proof.
  intros HZ. assert (EA : exists a, In a St /\ forall k, (2 <= k)%nat -> path state_eq_dec St P k a a).
  { destruct HZ as [(i & Hi & Z)|(i & j & Hi & Hj & N & Z)]; [now apply (field_cycles i)|now apply (coupling_cycles i j)]. }
  destruct EA as (a & Ha & HC).
  apply (positive_minor state_eq_dec St (spin_states_NoDup n)); [apply avg_iter, wolff_averaging|].
  intros s s' Hs Hs'. apply (path_pos state_eq_dec St (spin_states_NoDup n)); [apply wolff_averaging|].
  assert (L1 := diff_sites_length s a). assert (L2 := diff_sites_length a s').
  assert (E1 : length s = n) by (now apply spin_states_spec in Hs). assert (E2 : length a = n) by (now apply spin_states_spec in Ha).
  assert (P1 := flip_path (diff_sites s a) s Hs (diff_sites_lt n s a E1)). rewrite (flip_to n s a Hs Ha) in P1.
  assert (P2 := flip_path (diff_sites a s') a Ha (diff_sites_lt n a s' E2)). rewrite (flip_to n a s' Ha Hs') in P2.
  assert (P3 := HC (2 * n + 2 - length (diff_sites s a) - length (diff_sites a s'))%nat ltac:(lia)).
  replace (2 * n + 2)%nat with (length (diff_sites s a) + ((2 * n + 2 - length (diff_sites s a) - length (diff_sites a s')) + length (diff_sites a s')))%nat by lia.
  eapply path_app; [exact P1|]. eapply path_app; [exact P3|exact P2].
Qed.

Lemma wolff_stationary F : sumf St (fun x => boltzmann (ienergy n (h ++ v)) St x * P F x) = sumf St (fun x => boltzmann (ienergy n (h ++ v)) St x * F x).
Proof. apply (boltzmann_stationary (ienergy n (h ++ v)) St P). intros G. now apply (step_stationary n h v Hh G). Qed.
End Chain.

(** ** Independent draws *)
(** An event is the random site and the uniform numbers of one step (those left over are
    discarded); the generator's state: the events to come, the numbers left. *)
Notation wev := (nat * list R)%type.

Definition wtape : rng (list wev * list R) :=
  Rng _ (fun t lo hi => match fst t with e :: l => (clampi (fst e) lo hi, (l, snd e)) | [] => (lo, t) end)
        (fun t => (clampu (hd 0 (snd t)), (fst t, tl (snd t)))).

Lemma wtape_ok : rng_ok wtape.
Proof.
  split; cbn.
  - intros [[|e l] c] lo hi H; cbn; [lia|]. unfold clampi. destruct (Nat.leb_spec lo (fst e)), (Nat.ltb_spec (fst e) hi); cbn; lia.
  - intros t. unfold clampu. destruct (Rle_dec 0 _); [destruct (Rlt_dec _ 1)|]; lra.
Qed.

(** Expectation over a site below n and n*n+1 numbers in [0,1]. *)
Definition wdraw (n : nat) (H : wev -> R) : R := sumf (seq 0 n) (fun i => Evec (n * n + 1) (fun r => H (i, r))) / INR n.

Definition okwdraw (n : nat) (e : wev) : Prop := (fst e < n)%nat /\ in01 (snd e).

Lemma wdraw_ext n H H' : (forall e, okwdraw n e -> H e = H' e) -> wdraw n H = wdraw n H'.
Proof.
  intros HH. unfold wdraw. f_equal. apply sumf_ext_in. intros i Hi. apply in_seq in Hi. apply Evec_ext. intros r Hr H01. apply HH. split; cbn; [lia|assumption].
Qed.

Lemma clampu_hd r : in01 r -> clampu (hd 0 r) = hd 0 r /\ in01 (tl r).
Proof.
  intros H. destruct r as [|u r]; cbn [hd tl].
  - split; [unfold clampu; destruct (Rle_dec 0 0); [destruct (Rlt_dec 0 1)|]; lra|intros x []].
  - split; [apply clampu_in, H; now left|]. intros x Hx. apply H. now right.
Qed.

Lemma rand_vec_wtape i n l : forall r, in01 r -> rand_vec wtape n (l, r) = (fst (rand_vec (script i) n r), (l, snd (rand_vec (script i) n r))) /\ in01 (snd (rand_vec (script i) n r)).
Proof.
  induction n as [|n IH]; intros r Hr; cbn [rand_vec].
  - cbn [fst snd]. split; [reflexivity|assumption].
  - change (rand wtape (l, r)) with (clampu (hd 0 r), (l, tl r)). change (rand (script i) r) with (hd 0 r, tl r). destruct (clampu_hd r Hr) as [E1 H1]. rewrite E1. destruct (IH (tl r) H1) as [E2 H2]. rewrite E2.
    destruct (rand_vec (script i) n (tl r)) as [vs r']. cbn [fst snd] in *. split; [reflexivity|assumption].
Qed.

Lemma grow_wtape i n e l fuel : forall nw mk r, in01 r ->
  grow wtape n e fuel nw mk (l, r) = match grow (script i) n e fuel nw mk r with Ok (c, r') => Ok (c, (l, r')) | Err x => Err x end /\
  (forall c r', grow (script i) n e fuel nw mk r = Ok (c, r') -> in01 r').
Proof.
  induction fuel as [|fuel IH]; intros nw mk r Hr; destruct nw as [|s0 rest]; cbn [grow].
  - split; [reflexivity|]. intros c r' [= _ <-]. assumption.
  - split; [reflexivity|discriminate].
  - split; [reflexivity|]. intros c r' [= _ <-]. assumption.
  - unfold find_neighbors. destruct (rand_vec_wtape i n l r Hr) as [E1 H1]. rewrite E1. destruct (rand_vec (script i) n r) as [vs r1]. cbn [fst snd] in *. now apply IH.
Qed.

Lemma step_wtape self fuel s i r l c : (i < w_n self)%nat -> in01 r ->
  one_step wtape self fuel s None ((i, r) :: l, c) = match one_step (script i) self fuel s None r with Ok (s', r') => Ok (s', (l, r')) | Err x => Err x end.
Proof.
  intros Hi Hr. unfold one_step. cbv zeta. cbn [first_site]. change (randint wtape ((i, r) :: l, c) 0%nat (w_n self)) with (clampi i 0 (w_n self), (l, r)). change (randint (script i) r 0%nat (w_n self)) with (i, r). rewrite clampi_in by assumption. cbv iota beta. unfold build_cluster. rewrite (proj2 (Nat.ltb_lt i (w_n self)) Hi).
  destruct (grow_wtape i (w_n self) (exp_dJ (w_n self) (w_J self) s) l fuel [i] [i] r Hr) as [E1 H1]. rewrite E1. destruct (grow (script i) _ _ fuel [i] [i] r) as [[cl r1]|x]; [|reflexivity]. cbn [bind].
  change (rand wtape (l, r1)) with (clampu (hd 0 r1), (l, tl r1)). change (rand (script i) r1) with (hd 0 r1, tl r1). destruct (clampu_hd r1 (H1 cl r1 eq_refl)) as [E2 _]. rewrite E2. destruct (Rlt_dec _ _); reflexivity.
Qed.

Section Sample.
Variables (n : nat) (h v : list R).
Hypothesis Hn : (0 < n)%nat.
Hypothesis Hh : length h = n.
Notation P := (Estep n h v n).
Notation St := (spin_states n).
Notation self := (MkWolff n (mk_mat n n (symmat n v)) h).

(** One step on the next event. *)
Lemma step_ev s e l c : In s St -> okwdraw n e -> exists s' r', one_step (script (fst e)) self n s None (snd e) = Ok (s', r') /\ one_step wtape self n s None (e :: l, c) = Ok (s', (l, r')) /\ In s' St.
Proof.
  intros Hs [Hi Hr]. destruct e as [i r]. cbn [fst snd] in *.
  destruct (one_step_ok wtape self n s None ((i, r) :: l, c) wtape_ok Hn (Nat.le_refl n) ltac:(discriminate)) as (i0 & cl & t' & s' & E1 & _ & _ & _ & D).
  assert (E2 := step_wtape self n s i r l c Hi Hr). rewrite E1 in E2. destruct (one_step (script i) self n s None r) as [[s1 r1]|]; [|discriminate]. injection E2 as -> ->.
  exists s1, r1. split; [reflexivity|]. split; [exact E1|]. apply spin_states_spec in Hs. apply spin_states_spec. destruct D as [->|[-> _]]; [now apply flip_cluster_spins|assumption].
Qed.

Lemma wdraw_step (N : nat) (Phi : list Z -> list wev * list R -> R) (Psi : list Z -> R) z s c : In s St ->
  (forall s c, In s St -> Etape (wdraw n) N (fun l => Phi s (l, c)) = Psi s) ->
  Etape (wdraw n) (S N) (fun l => match one_step wtape self n s None (l, c) with Ok (s', t') => Phi s' t' | Err _ => z end) = P Psi s.
Proof.
  intros Hs HP. cbn [Etape].
  transitivity (wdraw n (fun e => match one_step (script (fst e)) self n s None (snd e) with Ok (s', _) => Psi s' | Err _ => 0 end)); [|reflexivity].
  apply wdraw_ext. intros e He. destruct (step_ev s e [] c Hs He) as (s' & r' & E1 & _ & Hs'). rewrite E1. rewrite <- (HP s' r' Hs').
  apply (Etape_ext (wdraw n) (okwdraw n) (wdraw_ext n)). intros l _ _. destruct (step_ev s e l c Hs He) as (s2 & r2 & E2 & E3 & _). rewrite E3. rewrite E1 in E2. injection E2 as <- <-. reflexivity.
Qed.

(** k steps. *)
Lemma steps_tape (N : nat) (Phi : list Z -> list wev * list R -> R) (Psi : list Z -> R) z : 
  (forall s c, In s St -> Etape (wdraw n) N (fun l => Phi s (l, c)) = Psi s) ->
  forall js s hist c, In s St ->
  Etape (wdraw n) (length js + N) (fun l => match foldM (fun st (j : nat) => let '(s, hist, t) := st in
      bind (one_step wtape self n s None t) (fun st' => Ok (fst st', fst st' :: hist, snd st'))) js (s, hist, (l, c)) with Ok (s', _, t') => Phi s' t' | Err _ => z end) =
  iterf (length js) P Psi s.
Proof.
  intros HP. induction js as [|j js IH]; intros s hist c Hs; [now apply HP|]. cbn [length Nat.add foldM iterf].
  rewrite <- (wdraw_step (length js + N) (fun s1 t1 => match foldM (fun st (j : nat) => let '(s, hist, t) := st in
      bind (one_step wtape self n s None t) (fun st' => Ok (fst st', fst st' :: hist, snd st'))) js (s1, s1 :: hist, t1) with Ok (s', _, t') => Phi s' t' | Err _ => z end) (iterf (length js) P Psi) z s c Hs).
  - apply (Etape_ext (wdraw n) (okwdraw n) (wdraw_ext n)). intros l _ _. destruct (one_step wtape self n s None (l, c)) as [[s1 t1]|]; reflexivity.
  - intros s1 c1 H1. now apply IH.
Qed.

(** Rows that evolve independently, k steps each. *)
Fixpoint indep (k : nat) (rows : list (list Z)) (G : list (list Z) -> R) : R :=
  match rows with [] => G [] | s :: rest => iterf k P (fun s1 => indep k rest (fun out => G (s1 :: out))) s end.

Lemma generate_indep k z : forall rows (G : list (list Z) -> R) c, Forall (fun s => In s St) rows ->
  Etape (wdraw n) (length rows * k) (fun l => match wolff_generate wtape self n k false rows (l, c) with Ok (out, _, _) => G out | Err _ => z end) = indep k rows G.
Proof.
  assert (K : forall rows (G : list (list Z) -> R) out hist c, Forall (fun s => In s St) rows ->
    Etape (wdraw n) (length rows * k) (fun l => match foldM (fun st s => let '(out, hist, t) := st in
      bind (steps wtape self n k false s t) (fun r => let '(s', h', t') := r in Ok (out ++ [s'], hist ++ [rev h'], t'))) rows (out, hist, (l, c)) with Ok (out', _, _) => G out' | Err _ => z end) =
    indep k rows (fun o => G (out ++ o))).
  { induction rows as [|s rows IH]; intros G out hist c HR.
    - cbn. now rewrite app_nil_r.
    - apply Forall_cons_iff in HR. destruct HR as [Hs HR]. cbn [length Nat.mul indep foldM].
      set (REST := fun out hist t => match foldM (fun st s => let '(out, hist, t) := st in
        bind (steps wtape self n k false s t) (fun r => let '(s', h', t') := r in Ok (out ++ [s'], hist ++ [rev h'], t'))) rows (out, hist, t) with Ok (out', _, _) => G out' | Err _ => z end).
      assert (IH' : forall s1 hist1 c1, In s1 St -> Etape (wdraw n) (length rows * k) (fun l => REST (out ++ [s1]) hist1 (l, c1)) = indep k rows (fun o => G (out ++ s1 :: o))).
      { intros s1 hist1 c1 _. unfold REST. rewrite (IH G (out ++ [s1]) hist1 c1 HR). f_equal. apply functional_extensionality. intros o. now rewrite <- app_assoc. }
      (* the history does not matter *)
      assert (HI : forall rows out hist hist' t, match foldM (fun st s => let '(out, hist, t) := st in
        bind (steps wtape self n k false s t) (fun r => let '(s', h', t') := r in Ok (out ++ [s'], hist ++ [rev h'], t'))) rows (out, hist, t) with Ok (out', _, _) => G out' | Err _ => z end =
        match foldM (fun st s => let '(out, hist, t) := st in
        bind (steps wtape self n k false s t) (fun r => let '(s', h', t') := r in Ok (out ++ [s'], hist ++ [rev h'], t'))) rows (out, hist', t) with Ok (out', _, _) => G out' | Err _ => z end).
      { clear. induction rows as [|s rows IH]; intros out hist hist' t; [reflexivity|]. cbn [foldM]. destruct (steps wtape self n k false s t) as [[[s' h'] t']|]; [|reflexivity]. cbn [bind]. apply IH. }
      assert (LR : length (range k) = k) by (unfold range; apply seq_length).
      assert (SJ := steps_tape (length rows * k) (fun s1 t1 => REST (out ++ [s1]) [] t1) (fun s1 => indep k rows (fun o => G (out ++ s1 :: o))) z
        (fun s1 c1 H1 => IH' s1 [] c1 H1) (range k) s [s] c Hs). rewrite LR in SJ. rewrite <- SJ.
      apply (Etape_ext (wdraw n) (okwdraw n) (wdraw_ext n)). intros l _ _. unfold steps.
      destruct (foldM _ (range k) (s, [s], (l, c))) as [[[s' h'] t']|]; [|reflexivity]. cbn [bind]. apply HI. }
  intros rows G c HR. transitivity (indep k rows (fun o => G ([] ++ o))); [|reflexivity]. rewrite <- (K rows G [] [] c HR). apply (Etape_ext (wdraw n) (okwdraw n) (wdraw_ext n)). intros l _ _. unfold wolff_generate. 
  destruct (foldM _ rows ([], [], (l, c))) as [[[o hh] t']|]; reflexivity.
Qed.

(** ** Averages over independent rows *)
Lemma iter_avg k : averaging St (fun F => iterf k P F).
Proof. apply avg_iter. now apply wolff_averaging. Qed.

Lemma indep_ext k : forall rows G G', Forall (fun s => In s St) rows -> (forall out, Forall (fun s => In s St) out -> length out = length rows -> G out = G' out) -> indep k rows G = indep k rows G'.
Proof.
  induction rows as [|s rows IH]; intros G G' HR H; cbn [indep]; [now apply H|]. apply Forall_cons_iff in HR. destruct HR as [Hs HR].
  apply (proj1 (iter_avg k)); [|assumption]. intros x Hx. apply IH; [assumption|]. intros out Ho Lo. apply H; [now constructor|cbn; lia].
Qed.

Lemma indep_lin k : forall rows a b G G', Forall (fun s => In s St) rows -> indep k rows (fun out => a * G out + b * G' out) = a * indep k rows G + b * indep k rows G'.
Proof.
  induction rows as [|s rows IH]; intros a b G G' HR; cbn [indep]; [reflexivity|]. apply Forall_cons_iff in HR. destruct HR as [Hs HR]. destruct (iter_avg k) as (A1 & A2 & _).
  rewrite <- A2 by assumption. apply A1; [|assumption]. intros x Hx. now apply IH.
Qed.

Lemma indep_const k c : forall rows, Forall (fun s => In s St) rows -> indep k rows (fun _ => c) = c.
Proof.
  induction rows as [|s rows IH]; intros HR; cbn [indep]; [reflexivity|]. apply Forall_cons_iff in HR. destruct HR as [Hs HR]. destruct (iter_avg k) as (A1 & _ & A3 & _).
  transitivity (iterf k P (fun _ => c) s); [|now apply A3]. apply A1; [|assumption]. intros x Hx. now apply IH.
Qed.

Lemma indep_row k F : forall rows i, Forall (fun s => In s St) rows -> (i < length rows)%nat -> indep k rows (fun out => F (nth i out [])) = iterf k P F (nth i rows []).
Proof.
  induction rows as [|s rows IH]; intros i HR Hi; cbn [length] in Hi; [lia|]. apply Forall_cons_iff in HR. destruct HR as [Hs HR]. destruct (iter_avg k) as (A1 & _ & A3 & _). destruct i as [|i]; cbn [indep nth].
  - apply A1; [|assumption]. intros x Hx. now apply indep_const.
  - transitivity (iterf k P (fun _ => iterf k P F (nth i rows [])) s); [|now apply A3]. apply A1; [|assumption]. intros x Hx. apply IH; [assumption|lia].
Qed.

Lemma indep_sum k F : forall rows, Forall (fun s => In s St) rows -> indep k rows (fun out => sumf out F) = sumf rows (fun s => iterf k P F s).
Proof.
  induction rows as [|s rows IH]; intros HR; cbn [indep]; [reflexivity|]. apply Forall_cons_iff in HR. destruct HR as [Hs HR]. destruct (iter_avg k) as (A1 & A2 & A3 & _).
  rewrite sumf_cons, <- IH by assumption. set (c := indep k rows (fun out => sumf out F)).
  transitivity (iterf k P (fun x => 1 * F x + c * (fun _ => 1) x) s).
  - apply A1; [|assumption]. intros x Hx. rewrite (indep_ext k rows _ (fun out => F x * (fun _ => 1) out + 1 * sumf out F)) by (try assumption; intros; rewrite sumf_cons; ring).
    rewrite indep_lin, indep_const by assumption. fold c. ring.
  - rewrite A2, A3 by assumption. ring.
Qed.

(** Second moment of a sum of independent terms. *)
Lemma indep_square k F delta V : 0 <= delta -> (forall x, In x St -> Rabs (iterf k P F x) <= delta) -> (forall x, In x St -> iterf k P (fun y => F y ^ 2) x <= V) ->
  forall rows, Forall (fun s => In s St) rows ->
  indep k rows (fun out => sumf out F ^ 2) <= INR (length rows) * V + (INR (length rows) * delta) ^ 2.
Proof.
  intros Hd HD HV. induction rows as [|s rows IH]; intros HR.
  - cbn. lra.
  - assert (HR0 := HR). apply Forall_cons_iff in HR. destruct HR as [Hs HR]. destruct (iter_avg k) as (A1 & A2 & A3 & _). cbn [indep].
    set (m1 := indep k rows (fun out => sumf out F)). set (m2 := indep k rows (fun out => sumf out F ^ 2)).
    assert (Q : iterf k P (fun s1 => indep k rows (fun out => sumf (s1 :: out) F ^ 2)) s = iterf k P (fun y => F y ^ 2) s + 2 * m1 * iterf k P F s + m2).
    { transitivity (iterf k P (fun x => 1 * F x ^ 2 + 1 * (fun x => (2 * m1) * F x + m2 * (fun _ => 1) x) x) s).
      - apply A1; [|assumption]. intros x Hx. rewrite (indep_ext k rows _ (fun out => 1 * (fun out => F x ^ 2 * (fun _ => 1) out + (2 * F x) * sumf out F) out + 1 * sumf out F ^ 2)) by (try assumption; intros; rewrite sumf_cons; ring).
        rewrite indep_lin, indep_lin, indep_const by assumption. fold m1 m2. ring.
      - rewrite A2, A2, A3 by assumption. ring. }
    rewrite Q. cbn [length]. rewrite S_INR. specialize (IH HR). fold m2 in IH. specialize (HV s Hs).
    assert (M1 : Rabs m1 <= INR (length rows) * delta).
    { unfold m1. rewrite indep_sum by assumption. eapply Rle_trans; [apply sumf_abs_le|]. rewrite <- sumf_const. apply sumf_le. intros x Hx. apply HD. rewrite Forall_forall in HR. now apply HR. }
    assert (M2 := HD s Hs). set (N := INR (length rows)) in *. assert (HN : 0 <= N) by apply pos_INR.
    assert (X : m1 * iterf k P F s <= N * delta * delta).
    { eapply Rle_trans; [apply Rle_abs|]. rewrite Rabs_mult. apply Rmult_le_compat; try apply Rabs_pos; assumption. }
    assert (0 <= delta ^ 2) by apply pow2_ge_0. nra.
Qed.
End Sample.
