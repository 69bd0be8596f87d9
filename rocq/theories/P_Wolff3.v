(** * The Wolff step and the Boltzmann distribution: detailed balance, stationarity and
    uniqueness. *)
From Coq Require Import Permutation ListDec.
From Coquelicot Require Import Coquelicot.
From Verif Require Import Prelude PreludeFacts Spec M_Index M_Params M_Sampler M_Wolff P_Index P_Energy P_Energy2 P_Params P_RMF P_Sampler P_Metro P_Ising P_Lattice P_Wolff P_Wolff2.
Import ListNotations.
Local Open Scope R_scope.

Lemma one_minus_clamp e : 1 - clampP e = Rmin 1 e.
Proof. unfold clampP, Rmax, Rmin. destruct (Rle_dec 0 (1 - e)), (Rle_dec 1 e); lra. Qed.

Lemma Rmin_exp x : Rmin 1 (exp x) = exp x * Rmin 1 (exp (- x)).
Proof.
  assert (P := exp_pos x). assert (Q : exp x * exp (- x) = 1) by (rewrite <- exp_plus; replace (x + - x) with 0 by ring; apply exp_0).
  unfold Rmin. destruct (Rle_dec 1 (exp x)), (Rle_dec 1 (exp (- x))); nra.
Qed.

Lemma prodR_cons a l : prodR (a :: l) = a * prodR l.
Proof. reflexivity. Qed.

Lemma prodR_exp {A} (f : A -> R) (q q' : A -> R) l : (forall a, In a l -> q a = exp (f a) * q' a) ->
  prodR (map q l) = exp (sumf l f) * prodR (map q' l).
Proof.
  induction l as [|a l IH]; intros H; cbn [map]; [rewrite sumf_nil, exp_0; cbn; ring|]. rewrite !prodR_cons, sumf_cons, exp_plus.
  rewrite IH by (intros b Hb; apply H; now right). rewrite (H a) by (now left). ring.
Qed.

Lemma prodR_pos {A} (q : A -> R) l : (forall a, In a l -> 0 < q a) -> 0 < prodR (map q l).
Proof.
  induction l as [|a l IH]; intros H; cbn [map]; [cbn; lra|]. rewrite prodR_cons. apply Rmult_lt_0_compat; [apply H; now left|]. apply IH. intros b Hb. apply H. now right.
Qed.

(** ** Energy of a reversed cluster *)
Lemma energy_symmetric n params s : ising_energy n params s =
  - sumf (seq 0 n) (fun i => nthR params i * nthR s i)
  - / 2 * sumf (seq 0 n) (fun i => sumf (seq 0 n) (fun j => csym n params i j * (nthR s i * nthR s j))).
Proof.
  rewrite ising_energy_pairs. rewrite (sumf_double_pairs (seq 0 n) (fun i j => csym n params i j * (nthR s i * nthR s j))).
  - rewrite (sumf_zero (seq 0 n) (fun a => csym n params a a * (nthR s a * nthR s a))); [field|]. intros a _. unfold csym. rewrite Nat.eqb_refl. ring.
  - intros a b. rewrite csym_sym. ring.
Qed.

Lemma sumf_split_mem n c (f : nat -> R) : NoDup c -> (forall x, In x c -> (x < n)%nat) ->
  sumf (seq 0 n) f = sumf c f + sumf (filter (fun j => negb (existsb (Nat.eqb j) c)) (seq 0 n)) f.
Proof.
  intros ND HR. rewrite <- sumf_app. apply sumf_perm. apply NoDup_Permutation; [apply seq_NoDup| |].
  - apply NoDup_app_disj; [assumption|apply NoDup_filter, seq_NoDup|]. intros x Hx C. apply filter_In in Hx. destruct Hx as [_ Hx].
    apply negb_true_iff, existsb_eqb_notIn in Hx. contradiction.
  - intros x. rewrite in_app_iff, filter_In, negb_true_iff, existsb_eqb_notIn, in_seq. split.
    + intros H. destruct (in_dec Nat.eq_dec x c); [now left|right]. split; [lia|assumption].
    + intros [H|[H _]]; [specialize (HR x H)|]; lia.
Qed.

Section Cluster.
Variables (n : nat) (h v : list R).
Hypothesis Hh : length h = n.

Definition outs (c : list nat) : list nat := filter (fun j => negb (existsb (Nat.eqb j) c)) (seq 0 n).
Definition Jm : list (list R) := mk_mat n n (symmat n v).
Definition sR (s : list Z) (i : nat) : R := IZR (nth i s 0%Z).
(** Sum of J s s' over the bonds that leave the cluster. *)
Definition cut (s : list Z) (c : list nat) : R := sumf c (fun i => sumf (outs c) (fun j => symmat n v j i * (sR s j * sR s i))).

Lemma energy_cluster s c : length s = n -> NoDup c -> (forall x, In x c -> (x < n)%nat) ->
  ienergy n (h ++ v) (flip_cluster s c) - ienergy n (h ++ v) s = 2 * sumf c (fun i => nthR h i * sR s i) + 2 * cut s c.
Proof.
  intros Hs ND HR. unfold ienergy. rewrite !energy_symmetric.
  assert (Nin : forall i, (i < n)%nat -> nthR (map IZR s) i = sR s i) by (intros i Hi; apply nthR_IZR).
  assert (Fin : forall i, In i c -> nthR (map IZR (flip_cluster s c)) i = - sR s i).
  { intros i Hi. rewrite nthR_IZR, flip_cluster_nth by (rewrite Hs; auto). rewrite (proj2 (existsb_eqb_In i c) Hi). apply opp_IZR. }
  assert (Fout : forall i, In i (outs c) -> nthR (map IZR (flip_cluster s c)) i = sR s i).
  { intros i Hi. unfold outs in Hi. apply filter_In in Hi. destruct Hi as [Hi Hn]. apply in_seq in Hi. apply negb_true_iff in Hn.
    rewrite nthR_IZR, flip_cluster_nth by lia. now rewrite Hn. }
  assert (Lt : forall i, In i (outs c) -> (i < n)%nat) by (intros i Hi; unfold outs in Hi; apply filter_In in Hi; destruct Hi as [Hi _]; apply in_seq in Hi; lia).
  assert (Ph : forall i, (i < n)%nat -> nthR (h ++ v) i = nthR h i) by (intros i Hi; unfold nthR; apply app_nth1; lia).
  assert (Cs : forall i j, (i < n)%nat -> (j < n)%nat -> csym n (h ++ v) i j = symmat n v i j).
  { intros i j Hi Hj. unfold csym. destruct (Nat.eqb_spec i j) as [->|N]; [now rewrite symmat_diag|]. symmetry. now apply symmat_coupling. }
  rewrite !(sumf_split_mem n c _ ND HR). fold (outs c).
  assert (F1 : sumf c (fun i => nthR (h ++ v) i * nthR (map IZR (flip_cluster s c)) i) = - sumf c (fun i => nthR h i * sR s i)).
  { rewrite <- sumf_opp. apply sumf_ext_in. intros i Hi. rewrite Fin, Ph by auto. ring. }
  assert (F2 : sumf c (fun i => nthR (h ++ v) i * nthR (map IZR s) i) = sumf c (fun i => nthR h i * sR s i)).
  { apply sumf_ext_in. intros i Hi. rewrite Nin, Ph by auto. ring. }
  assert (F3 : sumf (outs c) (fun i => nthR (h ++ v) i * nthR (map IZR (flip_cluster s c)) i) = sumf (outs c) (fun i => nthR (h ++ v) i * nthR (map IZR s) i)).
  { apply sumf_ext_in. intros i Hi. rewrite Fout, Nin by auto. ring. }
  rewrite F1, F2, F3.
  set (g := fun t i j => csym n (h ++ v) i j * (nthR (map IZR t) i * nthR (map IZR t) j)).
  assert (D : forall t l, (forall i, In i l -> (i < n)%nat) ->
     sumf l (fun i => sumf (seq 0 n) (fun j => g t i j)) = sumf l (fun i => sumf c (g t i)) + sumf l (fun i => sumf (outs c) (g t i))).
  { intros t l _. rewrite <- sumf_plus. apply sumf_ext. intros i. now rewrite (sumf_split_mem n c _ ND HR). }
  fold (g (flip_cluster s c)) (g s).
  change (sumf c (fun i => sumf (seq 0 n) (fun j => csym n (h ++ v) i j * (nthR (map IZR (flip_cluster s c)) i * nthR (map IZR (flip_cluster s c)) j)))) with (sumf c (fun i => sumf (seq 0 n) (fun j => g (flip_cluster s c) i j))).
  change (sumf (outs c) (fun i => sumf (seq 0 n) (fun j => csym n (h ++ v) i j * (nthR (map IZR (flip_cluster s c)) i * nthR (map IZR (flip_cluster s c)) j)))) with (sumf (outs c) (fun i => sumf (seq 0 n) (fun j => g (flip_cluster s c) i j))).
  change (sumf c (fun i => sumf (seq 0 n) (fun j => csym n (h ++ v) i j * (nthR (map IZR s) i * nthR (map IZR s) j)))) with (sumf c (fun i => sumf (seq 0 n) (fun j => g s i j))).
  change (sumf (outs c) (fun i => sumf (seq 0 n) (fun j => csym n (h ++ v) i j * (nthR (map IZR s) i * nthR (map IZR s) j)))) with (sumf (outs c) (fun i => sumf (seq 0 n) (fun j => g s i j))).
  rewrite !D by auto.
  assert (Q1 : sumf c (fun i => sumf c (g (flip_cluster s c) i)) = sumf c (fun i => sumf c (g s i))).
  { apply sumf_ext_in. intros i Hi. apply sumf_ext_in. intros j Hj. unfold g. rewrite !Fin, !Nin by auto. ring. }
  assert (Q2 : sumf (outs c) (fun i => sumf (outs c) (g (flip_cluster s c) i)) = sumf (outs c) (fun i => sumf (outs c) (g s i))).
  { apply sumf_ext_in. intros i Hi. apply sumf_ext_in. intros j Hj. unfold g. rewrite !Fout, !Nin by auto. ring. }
  assert (Q3 : sumf c (fun i => sumf (outs c) (g (flip_cluster s c) i)) = - cut s c).
  { unfold cut. rewrite <- sumf_opp. apply sumf_ext_in. intros i Hi. rewrite <- sumf_opp. apply sumf_ext_in. intros j Hj. unfold g. rewrite Fin, Fout, Cs by auto. rewrite (symmat_sym n v i j). ring. }
  assert (Q4 : sumf c (fun i => sumf (outs c) (g s i)) = cut s c).
  { unfold cut. apply sumf_ext_in. intros i Hi. apply sumf_ext_in. intros j Hj. unfold g. rewrite !Nin, Cs by auto. rewrite (symmat_sym n v i j). ring. }
  assert (Q5 : sumf (outs c) (fun i => sumf c (g (flip_cluster s c) i)) = - cut s c).
  { rewrite sumf_swap. unfold cut. rewrite <- sumf_opp. apply sumf_ext_in. intros i Hi. rewrite <- sumf_opp. apply sumf_ext_in. intros j Hj. unfold g. rewrite (Fin i), (Fout j), Cs by auto. ring. }
  assert (Q6 : sumf (outs c) (fun i => sumf c (g s i)) = cut s c).
  { rewrite sumf_swap. unfold cut. apply sumf_ext_in. intros i Hi. apply sumf_ext_in. intros j Hj. unfold g. rewrite !Nin, Cs by auto. ring. }
  rewrite Q1, Q2, Q3, Q4, Q5, Q6. field.
Qed.

(** ** Probability of a cluster before and after its reversal *)
Definition eJ (s : list Z) : list (list R) := exp_dJ n Jm s.
Definition Pcl (s : list Z) (i0 : nat) (c : list nat) : R := Ecl n (eJ s) n [i0] [i0] (hit c).

Lemma eJ_entry s i j : (i < n)%nat -> (j < n)%nat -> entry (eJ s) i j = exp (-2 * (symmat n v i j * (sR s i * sR s j))).
Proof. intros Hi Hj. unfold eJ. rewrite exp_dJ_entry by assumption. unfold Jm. rewrite entry_mk_mat by assumption. f_equal. unfold sR. ring. Qed.

Lemma eJ_nonneg s a b : 0 <= entry (eJ s) a b.
Proof.
  destruct (Nat.lt_ge_cases a n) as [Ha|Ha], (Nat.lt_ge_cases b n) as [Hb|Hb].
  1: rewrite eJ_entry by assumption; left; apply exp_pos.
  all: unfold eJ, exp_dJ, entry.
  - rewrite mk_mat_row by assumption. rewrite nth_overflow by (rewrite map_length, seq_length; lia). lra.
  - rewrite (nth_overflow (mk_mat _ _ _)) by (rewrite mk_mat_length; lia). destruct b; cbn; lra.
  - rewrite (nth_overflow (mk_mat _ _ _)) by (rewrite mk_mat_length; lia). destruct b; cbn; lra.
Qed.

Lemma Pcl_balance s c i0 : length s = n -> NoDup c -> (forall x, In x c -> (x < n)%nat) ->
  Pcl s i0 c = exp (-2 * cut s c) * Pcl (flip_cluster s c) i0 c.
Proof.
  intros Hs ND HR. destruct (in_dec Nat.eq_dec i0 c) as [Hi0|Hi0].
  2:{ unfold Pcl. rewrite !(Ecl_outside n _ c n _ _ i0) by (try assumption; now left). ring. }
  set (s' := flip_cluster s c). set (e := eJ s). set (e' := eJ s').
  assert (Sin : forall i, In i c -> sR s' i = - sR s i).
  { intros i Hi. unfold sR, s'. rewrite flip_cluster_nth by (rewrite Hs; auto). rewrite (proj2 (existsb_eqb_In i c) Hi). apply opp_IZR. }
  assert (Sout : forall i, (i < n)%nat -> ~ In i c -> sR s' i = sR s i).
  { intros i Hi Hn. unfold sR, s'. rewrite flip_cluster_nth by lia. now rewrite (proj2 (existsb_eqb_notIn i c) Hn). }
  assert (Hin : forall i j, In i c -> In j c -> entry e i j = entry e' i j).
  { intros i j Hi Hj. unfold e, e'. rewrite !eJ_entry by auto. rewrite !Sin by assumption. f_equal. ring. }
  pose proof (Ecl_balance n e e' c ND Hin n [i0] [i0] (fun x H => H)) as B.
  assert (P : Permutation ([i0] ++ unmarked c [i0]) c).
  { apply NoDup_Permutation; [|assumption|].
    - apply NoDup_app_disj; [repeat constructor; intros []|apply NoDup_filter; assumption|]. intros x Hx [<-|[]]. unfold unmarked in Hx. apply filter_In in Hx.
      destruct Hx as [_ Hx]. apply negb_true_iff, existsb_eqb_notIn in Hx. apply Hx. now left.
    - intros x. rewrite in_app_iff. unfold unmarked. rewrite filter_In, negb_true_iff, existsb_eqb_notIn. cbn [In]. split.
      + intros [[<-|[]]|[H _]]; assumption.
      + intros H. destruct (Nat.eq_dec i0 x); [left; now left|right]. split; [assumption|tauto]. }
  rewrite !(boundary_perm n c _ _ _ P) in B.
  assert (BE : boundary n c e c = exp (-2 * cut s c) * boundary n c e' c).
  { unfold boundary. rewrite (prodR_exp (fun i => -2 * sumf (outs c) (fun j => symmat n v j i * (sR s j * sR s i))) _ (fun s0 => alone c e' s0 (range n))).
    - rewrite sumf_scal_l. reflexivity.
    - intros i Hi. unfold alone. fold (outs c). change (filter (fun j => negb (existsb (Nat.eqb j) c)) (range n)) with (outs c).
      rewrite <- sumf_scal_l. apply prodR_exp. intros j Hj. unfold outs in Hj. apply filter_In in Hj. destruct Hj as [Hj Hn]. apply in_seq in Hj. apply negb_true_iff, existsb_eqb_notIn in Hn.
      rewrite !one_minus_clamp. unfold e, e'. rewrite !eJ_entry by first [lia|auto]. rewrite (Sin i Hi), (Sout j ltac:(lia) Hn).
      replace (-2 * (symmat n v j i * (sR s j * - sR s i))) with (- (-2 * (symmat n v j i * (sR s j * sR s i)))) by ring. apply Rmin_exp. }
  assert (Pos : 0 < boundary n c e' c).
  { unfold boundary. apply prodR_pos. intros i Hi. unfold alone. apply prodR_pos. intros j Hj. apply filter_In in Hj. destruct Hj as [Hj _]. apply in_range in Hj.
    rewrite one_minus_clamp. unfold e'. rewrite eJ_entry by auto. apply Rmin_glb_lt; [lra|apply exp_pos]. }
  unfold Pcl. fold e e'. rewrite BE in B. apply (Rmult_eq_reg_r (boundary n c e' c)); [|lra]. rewrite B. ring.
Qed.

Lemma cluster_field_eq s c : cluster_field h s c = sumf c (fun i => nthR h i * sR s i).
Proof.
  unfold cluster_field. induction c as [|i c IH]; [reflexivity|]. cbn [map]. rewrite dot_cons, sumf_cons, IH. reflexivity.
Qed.

(** Probability that the cluster is reversed once grown. *)
Definition acl (s : list Z) (c : list nat) : R := Rmin 1 (exp (-2 * cluster_field h s c)).

Lemma acl_balance s c : length s = n -> (forall x, In x c -> (x < n)%nat) -> acl s c = exp (-2 * cluster_field h s c) * acl (flip_cluster s c) c.
Proof.
  intros Hs HR. unfold acl. rewrite Rmin_exp. f_equal. f_equal. f_equal. rewrite !cluster_field_eq.
  replace (sumf c (fun i => nthR h i * sR (flip_cluster s c) i)) with (- sumf c (fun i => nthR h i * sR s i)); [ring|].
  rewrite <- sumf_opp. apply sumf_ext_in. intros i Hi. unfold sR. rewrite flip_cluster_nth by (rewrite Hs; auto). rewrite (proj2 (existsb_eqb_In i c) Hi), opp_IZR. ring.
Qed.

(** Flow through cluster c from state s. *)
Definition flow (i0 : nat) (c : list nat) (s : list Z) : R := exp (- ienergy n (h ++ v) s) * Pcl s i0 c * acl s c.

Lemma flow_balance i0 c s : length s = n -> NoDup c -> (forall x, In x c -> (x < n)%nat) ->
  flow i0 c (flip_cluster s c) = flow i0 c s.
Proof.
  intros Hs ND HR. unfold flow. rewrite (Pcl_balance s c i0 Hs ND HR), (acl_balance s c Hs HR).
  pose proof (energy_cluster s c Hs ND HR) as EC. rewrite cluster_field_eq.
  replace (- ienergy n (h ++ v) (flip_cluster s c)) with (- ienergy n (h ++ v) s + (-2 * cut s c + -2 * sumf c (fun i => nthR h i * sR s i))) by lra.
  rewrite !exp_plus. ring.
Qed.

(** ** The whole step *)
(** Clusters that may occur. *)
Definition clusters : list (list nat) := filter (fun l => if NoDup_dec Nat.eq_dec l then true else false) (flat_map (all_states (seq 0 n)) (seq 0 (S n))).

Lemma clusters_spec c : In c clusters <-> NoDup c /\ (forall x, In x c -> (x < n)%nat).
Proof.
  unfold clusters. rewrite filter_In, in_flat_map. split.
  - intros [(k & Hk & Hc) H]. destruct (NoDup_dec Nat.eq_dec c); [|discriminate]. split; [assumption|]. apply all_states_spec in Hc. intros x Hx.
    destruct Hc as [_ Hc]. specialize (Hc x Hx). apply in_seq in Hc. lia.
  - intros [H1 H2]. split; [|destruct (NoDup_dec Nat.eq_dec c); [reflexivity|contradiction]]. exists (length c). split.
    + apply in_seq. pose proof (nodup_le n c H1 H2). lia.
    + apply all_states_spec. split; [reflexivity|]. intros x Hx. apply in_seq. specialize (H2 x Hx). lia.
Qed.

Lemma clusters_NoDup : NoDup clusters.
Proof.
  unfold clusters. apply NoDup_filter.
  assert (X : forall l, NoDup l -> NoDup (flat_map (all_states (seq 0 n)) l)).
  { induction 1 as [|k l Hk Hl IH]; cbn [flat_map]; [constructor|]. apply NoDup_app_disj; [apply all_states_NoDup, seq_NoDup|assumption|].
    intros x Hx C. apply in_flat_map in Hx. destruct Hx as (k' & Hk' & Hx). apply all_states_spec in Hx, C. destruct Hx as [Hx _], C as [C _]. congruence. }
  apply X, seq_NoDup.
Qed.

Lemma Ecl_decompose s i0 H : (i0 < n)%nat -> Ecl n (eJ s) n [i0] [i0] H = sumf clusters (fun c => Pcl s i0 c * H c).
Proof.
  intros Hi. assert (ND : NoDup [i0]) by (repeat constructor; intros []). assert (HR : forall x, In x [i0] -> (x < n)%nat) by (intros x [<-|[]]; assumption).
  unfold Pcl. rewrite (sumf_ext clusters _ (fun c => Ecl n (eJ s) n [i0] [i0] (fun m => H c * hit c m))) by (intros c; rewrite Ecl_scal; ring).
  rewrite <- Ecl_sum. apply Ecl_ext; [|assumption|assumption]. intros c _ _ NDc HRc.
  rewrite (sumf_ext clusters _ (fun c0 => if list_eq_dec Nat.eq_dec c c0 then H c0 else 0)).
  - symmetry. apply (sumf_indic (list_eq_dec Nat.eq_dec)); [apply clusters_NoDup|apply clusters_spec; now split].
  - intros c0. unfold hit. destruct (list_eq_dec Nat.eq_dec c c0); ring.
Qed.

(** Expected value of F after one step of the model, run on independent uniform random
    numbers, when [randint] returns i0 (which is not consulted if the site is given). *)
Definition Esite (fuel : nat) (ini : option nat) (i0 : nat) (F : list Z -> R) (s : list Z) : R :=
  Evec (fuel * n + 1) (fun r => match one_step (script i0) (MkWolff n Jm h) fuel s ini r with Ok (s', _) => F s' | Err _ => 0 end).

(** The same when [randint] is uniform over the n sites. *)
Definition Estep (fuel : nat) (F : list Z -> R) (s : list Z) : R := sumf (seq 0 n) (fun i0 => Esite fuel None i0 F s) / INR n.

Definition site_of (ini : option nat) (i0 : nat) : nat := match ini with Some (S k) => S k | _ => i0 end.

Lemma Esite_eq ini i0 F s : (site_of ini i0 < n)%nat -> Esite n ini i0 F s =
  F s + sumf clusters (fun c => Pcl s (site_of ini i0) c * acl s c * (F (flip_cluster s c) - F s)).
Proof.
  intros Hi0. unfold Esite. set (x := site_of ini i0) in *.
  set (HH := fun c u => if Rlt_dec u (exp (-2 * cluster_field h s c)) then F (flip_cluster s c) else F s).
  transitivity (Evec (n * n + 1) (fun r => match grow (script i0) n (eJ s) n [x] [x] r with Ok (c, r') => HH c (hd 0 r') | Err _ => 0 end)).
  + apply Evec_ext. intros r _ _. unfold one_step. cbn [w_n w_J w_h].
    assert (FS : first_site (script i0) n ini r = (x, r)) by (unfold first_site, x, site_of; destruct ini as [[|k]|]; reflexivity). rewrite FS.
    unfold build_cluster. rewrite (proj2 (Nat.ltb_lt x n) Hi0).
    fold (eJ s). fold (script i0). destruct (grow (script i0) n (eJ s) n [x] [x] r) as [[c r']|]; [|reflexivity]. cbn [bind script rand]. unfold HH.
    destruct (Rlt_dec _ _); reflexivity.
  + rewrite (Evec_grow i0 n (eJ s) (eJ_nonneg s) HH 0).
    transitivity (Ecl n (eJ s) n [x] [x] (fun c => F s + acl s c * (F (flip_cluster s c) - F s))).
    * f_equal. apply FunctionalExtensionality.functional_extensionality. intros c. apply is_RInt_unique.
      replace (F s + acl s c * (F (flip_cluster s c) - F s)) with (acl s c * F (flip_cluster s c) + (1 - acl s c) * F s) by ring.
      apply RInt_below.
      -- unfold acl. split; [apply Rmin_glb; [lra|left; apply exp_pos]|apply Rmin_l].
      -- intros u Hu. unfold HH, acl. destruct (Rlt_dec u (exp (-2 * cluster_field h s c))) as [A|A], (Rlt_dec u (Rmin 1 (exp (-2 * cluster_field h s c)))) as [B|B]; try reflexivity; exfalso.
         ++ apply B. apply Rmin_glb_lt; lra.
         ++ apply A. eapply Rlt_le_trans; [exact B|apply Rmin_r].
    * rewrite Ecl_plus, Ecl_const by first [now (repeat constructor; intros []) | (intros y [<-|[]]; assumption) | (cbn; lia)].
      f_equal. rewrite Ecl_decompose by assumption. apply sumf_ext. intros c. ring.
Qed.

Lemma Estep_eq F s : (0 < n)%nat -> Estep n F s =
  F s + sumf (seq 0 n) (fun i0 => sumf clusters (fun c => Pcl s i0 c * acl s c * (F (flip_cluster s c) - F s))) / INR n.
Proof.
  intros Hn. unfold Estep.
  rewrite (sumf_ext_in (seq 0 n) _ (fun i0 => F s + sumf clusters (fun c => Pcl s i0 c * acl s c * (F (flip_cluster s c) - F s)))).
  - rewrite sumf_plus, sumf_const, seq_length. field. apply not_0_INR. lia.
  - intros i0 Hi. apply in_seq in Hi. rewrite Esite_eq; [reflexivity|]. cbn [site_of]. lia.
Qed.

Notation E := (ienergy n (h ++ v)).

(** Sum over the states of a symmetric flow. *)
Lemma flow_exchange i0 c G : In c clusters ->
  sumf (spin_states n) (fun s => flow i0 c s * G (flip_cluster s c)) = sumf (spin_states n) (fun s => flow i0 c s * G s).
Proof.
  intros Hc. apply clusters_spec in Hc. destruct Hc as [ND HR].
  assert (K : forall s, In s (spin_states n) -> In (flip_cluster s c) (spin_states n) /\ flip_cluster (flip_cluster s c) c = s).
  { intros s Hs. split; [|apply flip_cluster_twice]. apply spin_states_spec, (flip_cluster_spins n). now apply spin_states_spec in Hs. }
  rewrite <- (sumf_perm _ _ (fun s => flow i0 c s * G s) (move_perm (spin_states n) (fun s => flip_cluster s c) (fun s => flip_cluster s c) (spin_states_NoDup n) K K)).
  rewrite sumf_map. apply sumf_ext_in. intros s Hs. apply spin_states_spec in Hs. rewrite flow_balance by (try assumption; apply Hs). reflexivity.
Qed.

Lemma site_stationary ini i0 F : (site_of ini i0 < n)%nat ->
  sumf (spin_states n) (fun s => exp (- E s) * Esite n ini i0 F s) = sumf (spin_states n) (fun s => exp (- E s) * F s).
Proof.
  intros Hi. set (x := site_of ini i0) in *.
  rewrite (sumf_ext _ _ (fun s => exp (- E s) * F s + sumf clusters (fun c => flow x c s * (F (flip_cluster s c) - F s)))).
  - rewrite sumf_plus, sumf_swap.
    rewrite (sumf_zero clusters (fun c => sumf (spin_states n) (fun s => flow x c s * (F (flip_cluster s c) - F s)))); [ring|].
    intros c Hc. rewrite (sumf_ext _ _ (fun s => flow x c s * F (flip_cluster s c) - flow x c s * F s)) by (intros s; ring).
    rewrite sumf_minus, flow_exchange by assumption. ring.
  - intros s. rewrite Esite_eq by assumption. rewrite Rmult_plus_distr_l. f_equal. rewrite <- sumf_scal_l. apply sumf_ext. intros c. unfold flow, x. ring.
Qed.

Lemma step_stationary F : (0 < n)%nat ->
  sumf (spin_states n) (fun s => exp (- E s) * Estep n F s) = sumf (spin_states n) (fun s => exp (- E s) * F s).
Proof.
  intros Hn. unfold Estep. rewrite (sumf_ext _ _ (fun s => sumf (seq 0 n) (fun i0 => exp (- E s) * Esite n None i0 F s) / INR n)).
  - rewrite sumf_div, sumf_swap. rewrite (sumf_ext_in (seq 0 n) _ (fun _ => sumf (spin_states n) (fun s => exp (- E s) * F s))).
    + rewrite sumf_const, seq_length. field. apply not_0_INR. lia.
    + intros i0 Hi. apply in_seq in Hi. apply site_stationary. cbn [site_of]. lia.
  - intros s. rewrite sumf_scal_l. unfold Rdiv. ring.
Qed.

Lemma step_reversible G F : (0 < n)%nat ->
  sumf (spin_states n) (fun s => exp (- E s) * (G s * Estep n F s)) = sumf (spin_states n) (fun s => exp (- E s) * (F s * Estep n G s)).
Proof.
  intros Hn.
  assert (K : forall G F, sumf (spin_states n) (fun s => exp (- E s) * (G s * Estep n F s)) =
    sumf (spin_states n) (fun s => exp (- E s) * (G s * F s)) + sumf (seq 0 n) (fun i0 => sumf clusters (fun c =>
      sumf (spin_states n) (fun s => flow i0 c s * (G s * F (flip_cluster s c))) - sumf (spin_states n) (fun s => flow i0 c s * (G s * F s)))) / INR n).
  { clear G F. intros G F. rewrite (sumf_ext _ _ (fun s => exp (- E s) * (G s * F s) + sumf (seq 0 n) (fun i0 => sumf clusters (fun c => flow i0 c s * (G s * F (flip_cluster s c)) - flow i0 c s * (G s * F s))) / INR n)).
    - rewrite sumf_plus, sumf_div, sumf_swap. f_equal. f_equal. apply sumf_ext. intros i0. rewrite sumf_swap. apply sumf_ext. intros c. now rewrite sumf_minus.
    - intros s. rewrite Estep_eq by assumption. rewrite !Rmult_plus_distr_l. f_equal. unfold Rdiv. rewrite <- !Rmult_assoc. f_equal. rewrite <- sumf_scal_l.
      apply sumf_ext. intros i0. rewrite <- sumf_scal_l. apply sumf_ext. intros c. unfold flow. ring. }
  rewrite !K. f_equal; [apply sumf_ext; intros s; ring|]. f_equal. apply sumf_ext. intros i0. apply sumf_ext_in. intros c Hc. f_equal.
  - rewrite <- (flow_exchange i0 c (fun s => F s * G (flip_cluster s c)) Hc). apply sumf_ext. intros s. rewrite flip_cluster_twice. ring.
  - apply sumf_ext. intros s. ring.
Qed.

(** ** Uniqueness *)
Lemma clampP_bounds e0 : 0 <= e0 -> 0 <= clampP e0 <= 1.
Proof. intros H. unfold clampP. split; [apply Rmax_l|apply Rmax_lub; lra]. Qed.

Lemma Esub_nonneg skip p l : (forall i, 0 <= p i <= 1) -> forall Q, (forall A, 0 <= Q A) -> 0 <= Esub skip p l Q.
Proof.
  intros Hp. induction l as [|x l IH]; intros Q HQ; cbn [Esub]; [apply HQ|]. destruct (skip x); [now apply IH|].
  specialize (Hp x). apply Rplus_le_le_0_compat; apply Rmult_le_pos; try lra; apply IH; auto.
Qed.

Lemma Ecl_nonneg s0 (e := eJ s0) fuel : forall nw mk H, (forall m, 0 <= H m) -> 0 <= Ecl n e fuel nw mk H.
Proof.
  induction fuel as [|fuel IH]; intros nw mk H HH; destruct nw as [|x nw]; cbn [Ecl]; try lra; try apply HH.
  apply Esub_nonneg; [intros i; apply clampP_bounds, eJ_nonneg|]. intros A. now apply IH.
Qed.

Lemma hit_nonneg c m : 0 <= hit c m.
Proof. unfold hit. destruct (list_eq_dec Nat.eq_dec m c); lra. Qed.

Lemma Esub_empty skip p l : (forall i, 0 <= p i <= 1) -> (forall i, In i l -> p i < 1) -> forall Q, (forall A, 0 <= Q A) -> 0 < Q [] -> 0 < Esub skip p l Q.
Proof.
  intros Hp. induction l as [|x l IH]; intros Hl Q HQ H0; cbn [Esub]; [assumption|].
  assert (Hl' : forall i, In i l -> p i < 1) by (intros i Hi; apply Hl; now right). destruct (skip x); [now apply IH|].
  assert (B := Hp x). assert (B' := Hl x (or_introl eq_refl)).
  assert (0 <= Esub skip p l (fun A => Q (x :: A))) by (apply Esub_nonneg; auto).
  assert (0 < Esub skip p l Q) by (apply IH; auto). apply Rplus_le_lt_0_compat; [apply Rmult_le_pos; lra|apply Rmult_lt_0_compat; lra].
Qed.

Lemma Pcl_single s i : (i < n)%nat -> 0 < Pcl s i [i].
Proof.
  intros Hi. unfold Pcl. destruct n as [|m] eqn:En; [lia|]. rewrite <- En in *. replace (Ecl n (eJ s) (S m) [i] [i] (hit [i])) with (Ecl n (eJ s) n [i] [i] (hit [i])) by (now rewrite En).
  rewrite En at 2. cbn [Ecl]. apply Esub_empty.
  - intros k. apply clampP_bounds, eJ_nonneg.
  - intros k Hk. apply in_range in Hk. unfold clampP. rewrite eJ_entry by assumption. apply Rmax_lub_lt; [lra|]. pose proof (exp_pos (-2 * (symmat n v k i * (sR s k * sR s i)))). lra.
  - intros A. apply Ecl_nonneg. apply hit_nonneg.
  - rewrite !app_nil_r. destruct m; cbn [Ecl]; unfold hit; destruct (list_eq_dec Nat.eq_dec [i] [i]); try lra; congruence.
Qed.

Lemma flow_nonneg i0 c s : 0 <= flow i0 c s.
Proof.
  unfold flow. apply Rmult_le_pos; [apply Rmult_le_pos; [left; apply exp_pos|apply Ecl_nonneg, hit_nonneg]|]. unfold acl. apply Rmin_glb; [lra|left; apply exp_pos].
Qed.

Lemma flow_single i s : (i < n)%nat -> 0 < flow i [i] s.
Proof.
  intros Hi. unfold flow. apply Rmult_lt_0_compat; [apply Rmult_lt_0_compat; [apply exp_pos|now apply Pcl_single]|]. unfold acl. apply Rmin_glb_lt; [lra|apply exp_pos].
Qed.

Lemma flip_cluster_single s i : (i < length s)%nat -> flip_cluster s [i] = flip s i.
Proof.
  intros Hi. apply (list_eq_nth 0%Z); [rewrite flip_cluster_length, flip_length; reflexivity|]. rewrite flip_cluster_length. intros k Hk.
  rewrite flip_cluster_nth by assumption. cbn [existsb]. rewrite orb_false_r. unfold flip. destruct (Nat.eqb_spec k i) as [->|N].
  - rewrite nth_upd_same by assumption. lia.
  - now rewrite nth_upd_other by congruence.
Qed.

Lemma step_unique (p : list Z -> R) : (0 < n)%nat ->
  (forall F, sumf (spin_states n) (fun s => p s * Estep n F s) = sumf (spin_states n) (fun s => p s * F s)) ->
  forall s s', In s (spin_states n) -> In s' (spin_states n) -> p s * exp (- E s') = p s' * exp (- E s).
Proof.
  intros Hn Hp. set (r := fun s => p s * exp (E s)).
  assert (Hr : forall s, p s = exp (- E s) * r s).
  { intros s. unfold r. replace (exp (- E s) * (p s * exp (E s))) with (p s * (exp (- E s) * exp (E s))) by ring.
    rewrite <- exp_plus. replace (- E s + E s) with 0 by ring. rewrite exp_0. ring. }
  assert (HN : INR n <> 0) by (apply not_0_INR; lia).
  assert (Z0 : sumf (seq 0 n) (fun i0 => sumf clusters (fun c => sumf (spin_states n) (fun s => flow i0 c s * (r (flip_cluster s c) - r s) ^ 2))) = 0).
  { specialize (Hp r).
    rewrite (sumf_ext _ _ (fun s => p s * r s + sumf (seq 0 n) (fun i0 => sumf clusters (fun c => flow i0 c s * (r s * (r (flip_cluster s c) - r s)))) / INR n)) in Hp.
    2:{ intros s. rewrite Estep_eq by assumption. rewrite (Hr s). rewrite Rmult_plus_distr_l. f_equal. unfold Rdiv. rewrite <- Rmult_assoc. f_equal. rewrite <- sumf_scal_l.
        apply sumf_ext. intros i0. rewrite <- sumf_scal_l. apply sumf_ext. intros c. unfold flow. ring. }
    rewrite sumf_plus, sumf_div, sumf_swap in Hp.
    assert (Z1 : sumf (seq 0 n) (fun i0 => sumf (spin_states n) (fun s => sumf clusters (fun c => flow i0 c s * (r s * (r (flip_cluster s c) - r s))))) = 0).
    { apply (Rmult_eq_reg_r (/ INR n)); [|now apply Rinv_neq_0_compat]. unfold Rdiv in Hp. lra. }
    rewrite <- (Rmult_0_r (-2)), <- Z1, <- sumf_scal_l. apply sumf_ext. intros i0. rewrite (sumf_swap (spin_states n) clusters), <- sumf_scal_l. apply sumf_ext_in. intros c Hc.
    rewrite (sumf_ext (spin_states n) (fun s => flow i0 c s * (r (flip_cluster s c) - r s) ^ 2)
      (fun s => (flow i0 c s * r (flip_cluster s c) ^ 2 - flow i0 c s * r s ^ 2) + -2 * (flow i0 c s * (r s * (r (flip_cluster s c) - r s))))) by (intros s; ring).
    rewrite sumf_plus, sumf_minus, sumf_scal_l. rewrite (flow_exchange i0 c (fun s => r s ^ 2) Hc). ring. }
  assert (St : forall i s, (i < n)%nat -> In s (spin_states n) -> r (flip s i) = r s).
  { intros i s Hi Hs. assert (N : forall i0 c s, 0 <= flow i0 c s * (r (flip_cluster s c) - r s) ^ 2) by (intros; apply Rmult_le_pos; [apply flow_nonneg|apply pow2_ge_0]).
    assert (Y := sumf_nonneg_zero (seq 0 n) _ (fun a _ => sumf_nonneg _ _ (fun c _ => sumf_nonneg _ _ (fun s0 _ => N a c s0))) Z0 i ltac:(apply in_seq; lia)). cbv beta in Y.
    assert (Hc : In [i] clusters) by (apply clusters_spec; split; [repeat constructor; intros []|intros x [<-|[]]; assumption]).
    assert (Y2 := sumf_nonneg_zero clusters _ (fun c _ => sumf_nonneg _ _ (fun s0 _ => N i c s0)) Y [i] Hc). cbv beta in Y2.
    assert (Y3 := sumf_nonneg_zero (spin_states n) _ (fun s0 _ => N i [i] s0) Y2 s Hs). cbv beta in Y3.
    assert (Hl : length s = n) by (apply spin_states_spec in Hs; apply Hs). rewrite flip_cluster_single in Y3 by lia.
    pose proof (flow_single i s Hi). apply Rmult_integral in Y3. destruct Y3 as [Y3|Y3]; [lra|]. assert (r (flip s i) - r s = 0) by nra. lra. }
  intros s s' Hs Hs'. assert (Hl : length s = n) by (apply spin_states_spec in Hs; apply Hs).
  assert (Path : forall is s, Forall (fun i => (i < n)%nat) is -> In s (spin_states n) -> r (fold_left flip is s) = r s).
  { induction is as [|i is IH]; intros s0 Hi H0; [reflexivity|]. cbn [fold_left]. inversion Hi; subst. rewrite IH; [now apply St|assumption|now apply flip_in_states]. }
  assert (Eq := Path (diff_sites s s') s (diff_sites_lt n s s' Hl) Hs).
  rewrite (flip_to n s s' Hs Hs') in Eq. rewrite (Hr s), (Hr s'), Eq. ring.
Qed.
End Cluster.
