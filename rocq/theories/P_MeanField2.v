(** * Facts about the exact enumeration of coniii/mean_field_ising.py. *)
From Coq Require Import Permutation.
From Verif Require Import Prelude PreludeFacts Spec Spec2 M_Index M_Params M_MeanField P_Index P_Params P_Enum P_MaxEnt P_MPF P_MeanField.
Import ListNotations.
Local Open Scope R_scope.

Lemma filter_map_comm {A B} (q : B -> bool) (g : A -> B) l : filter q (map g l) = map g (filter (fun a => q (g a)) l).
Proof. induction l as [|a l IH]; [reflexivity|]. cbn [map filter]. rewrite IH. now destruct (q (g a)). Qed.

Lemma sumR_IZR x : sumR (map IZR x) = IZR (sumZ x).
Proof. unfold sumR, sumZ. induction x as [|a x IH]; [reflexivity|]. cbn [map fold_right]. rewrite sumf_cons, IH. now rewrite plus_IZR. Qed.

Lemma sumZ_nonneg x : (forall v, In v x -> In v [0; 1]%Z) -> (0 <= sumZ x)%Z.
Proof.
  intros H. unfold sumZ. induction x as [|a x IH]; [cbn; lia|]. cbn [fold_right].
  assert (0 <= fold_right Z.add 0 x)%Z by (apply IH; intros v Hv; apply H; now right).
  destruct (H a (or_introl eq_refl)) as [<-|[<-|[]]]; lia.
Qed.

Lemma fightPossibilities_states n k : (0 < n)%nat -> fightPossibilities n k = states01 n k.
Proof.
  intros Hn. unfold fightPossibilities, states01. rewrite binary_rows_all_states by assumption.
  replace [0; 1] with (map IZR [0; 1]%Z) by reflexivity. rewrite all_states_map, filter_map_comm. f_equal.
  apply filter_ext_in. intros x Hx. apply all_states_spec in Hx. destruct Hx as [_ Hx]. rewrite sumR_IZR.
  destruct (Z.ltb_spec 0 k) as [L|L].
  - destruct (Rle_dec (IZR k) (IZR (sumZ x))) as [H|H]; [apply le_IZR in H; lia|]. apply Z.leb_gt. apply Z.lt_nge. intros K. apply H. now apply IZR_le.
  - destruct (Rle_dec (IZR k) (IZR (sumZ x))) as [H|H]; [reflexivity|]. exfalso. apply H. apply IZR_le. pose proof (sumZ_nonneg x Hx). lia.
Qed.

Lemma states01_0 n : states01 n 0 = all_states [0; 1] n.
Proof.
  unfold states01. rewrite (filter_ext_in _ (fun _ => true)).
  - induction (all_states [0; 1] n) as [|a l IH]; [reflexivity|]. cbn. now rewrite IH.
  - intros s Hs. apply all_states_spec in Hs. destruct Hs as [_ Hs]. destruct (Rle_dec (IZR 0) (sumR s)) as [H|H]; [reflexivity|]. exfalso. apply H.
    clear H. unfold sumR. apply sumf_nonneg. intros v Hv. destruct (Hs v Hv) as [<-|[<-|[]]]; lra.
Qed.

Lemma all_states01_ne n : all_states [0; 1] n <> [].
Proof. intros E. apply (f_equal (@length _)) in E. rewrite all_states_length in E. cbn [length] in E. pose proof (Nat.pow_nonzero 2 n). lia. Qed.

Lemma in_states01 n k s : In s (states01 n k) -> length s = n /\ forall v, In v s -> v = 0 \/ v = 1.
Proof.
  intros H. apply filter_In in H. destruct H as [H _]. apply all_states_spec in H. destruct H as [H1 H2]. split; [assumption|].
  intros v Hv. destruct (H2 v Hv) as [<-|[<-|[]]]; auto.
Qed.

(** The energy the code computes. *)
Definition E01 (n : nat) (J : list (list R)) (hext : R) (s : list R) : R := energy01 n J s - hext * sumf (seq 0 n) (nthR s).

Lemma unsummedLogZ_ok J hext k : let n := length J in (0 < n)%nat -> states01 n k <> [] ->
  unsummedLogZ J hext k = Ok (map (fun s => - E01 n J hext s) (states01 n k)).
Proof.
  intros n Hn Hne. unfold unsummedLogZ. fold n. rewrite fightPossibilities_states by assumption.
  destruct (states01 n k) as [|s0 l] eqn:E; [congruence|]. f_equal. apply map_ext. intros s. unfold E01, energy01, range.
  rewrite (sumf_ext (seq 0 n) (fun i => nthR s i * (entry J i i - hext)) (fun i => entry J i i * nthR s i - hext * nthR s i)) by (intros; ring).
  rewrite sumf_minus. rewrite (sumf_scal_l hext).
  replace (sumf (seq 0 n) (fun j => sumf (seq 0 n) (fun i => nthR s i * (entry J i j - (if (i =? j)%nat then entry J i i else 0))) * nthR s j))
    with (sumf (seq 0 n) (fun i => sumf (seq 0 n) (fun j => if (i =? j)%nat then 0 else entry J i j * (nthR s i * nthR s j)))).
  - change (sumf (seq 0 n) (nthR s)) with (sumf (seq 0 n) (fun i => nthR s i)). ring.
  - rewrite sumf_swap. apply sumf_ext. intros j. rewrite <- sumf_scal_r. apply sumf_ext. intros i.
    destruct (Nat.eqb_spec i j) as [->|]; ring.
Qed.

Lemma unsummedZ_ok J hext k : let n := length J in (0 < n)%nat -> states01 n k <> [] ->
  unsummedZ J hext k = Ok (map (fun s => exp (- E01 n J hext s)) (states01 n k)).
Proof. intros n Hn Hne. unfold unsummedZ. rewrite unsummedLogZ_ok by assumption. cbn [bind]. now rewrite map_map. Qed.

Lemma combine_map_r {A B} (g : A -> B) l : combine l (map g l) = map (fun a => (a, g a)) l.
Proof. induction l as [|a l IH]; [reflexivity|]. cbn. now rewrite IH. Qed.

Lemma coocExpectations_ok J hext zb k : let n := length J in (0 < n)%nat -> states01 n k <> [] ->
  coocExpectations J hext zb k = Ok (mk_mat n n (fun i j => if (zb && negb (Nat.leb i j))%bool then 0 else
    expectation (boltzmann (E01 n J hext) (states01 n k)) (states01 n k) (fun s => nthR s i * nthR s j))).
Proof.
  intros n Hn Hne. unfold coocExpectations. fold n. rewrite unsummedZ_ok by assumption. cbn [bind]. fold n. f_equal. apply mk_mat_ext.
  intros i j Hi Hj. rewrite fightPossibilities_states by assumption. rewrite combine_map_r, sumf_map, sumR_map.
  assert (X : sumf (states01 n k) (fun x => nthR (fst (x, exp (- E01 n J hext x))) j * nthR (fst (x, exp (- E01 n J hext x))) i * snd (x, exp (- E01 n J hext x))) /
    sumf (states01 n k) (fun s => exp (- E01 n J hext s)) = expectation (boltzmann (E01 n J hext) (states01 n k)) (states01 n k) (fun s => nthR s i * nthR s j)).
  { unfold expectation, boltzmann, partition. rewrite <- sumf_div. apply sumf_ext. intros s. cbn [fst snd]. unfold Rdiv. ring. }
  rewrite X. destruct zb; cbn [andb]; [|reflexivity]. destruct (Nat.leb i j); cbn [negb]; ring.
Qed.

Lemma analyticEntropy_ok J : let n := length J in (0 < n)%nat ->
  analyticEntropy J = Ok (entropy (boltzmann (energy01 n J) (all_states [0; 1] n)) (all_states [0; 1] n)).
Proof.
  intros n Hn. unfold analyticEntropy. rewrite unsummedZ_ok by (try assumption; rewrite states01_0; apply all_states01_ne). cbn [bind]. fold n.
  f_equal. unfold entropy. f_equal. rewrite states01_0, map_map, sumf_map. apply sumf_ext. intros s. rewrite sumR_map.
  assert (X : forall t, E01 n J 0 t = energy01 n J t) by (intros; unfold E01; ring).
  unfold boltzmann, partition. rewrite X. rewrite (sumf_ext _ (fun s0 => exp (- E01 n J 0 s0)) (fun s0 => exp (- energy01 n J s0))) by (intros; now rewrite X). reflexivity.
Qed.

(** Entropy of a distribution on a list of states. *)
Lemma entropy_nonneg {A} (p : A -> R) states : (forall s, In s states -> 0 <= p s) -> sumf states p = 1 -> 0 <= entropy p states.
Proof.
  intros H1 H2. unfold entropy. rewrite <- sumf_opp. apply sumf_nonneg. intros s Hs.
  assert (Hle : p s <= 1).
  { rewrite <- H2. clear H2. induction states as [|a l IH]; [destruct Hs|]. rewrite sumf_cons.
    assert (N : 0 <= sumf l p) by (apply sumf_nonneg; intros t Ht; apply H1; now right).
    pose proof (H1 a (or_introl eq_refl)). destruct Hs as [<-|Hs]; [lra|]. assert (p s <= sumf l p); [|lra].
    apply IH; [intros t Ht; apply H1; now right|assumption]. }
  pose proof (H1 s Hs) as H0. destruct (Req_dec (p s) 0) as [E|E]; [rewrite E; lra|].
  assert (L : ln (p s) <= p s - 1) by (apply ln_le_sub1; lra). nra.
Qed.

Lemma entropy_le_uniform {A} (p : A -> R) states : states <> [] -> (forall s, In s states -> 0 <= p s) -> sumf states p = 1 ->
  entropy p states <= ln (INR (length states)).
Proof.
  intros Hne H1 H2. assert (HN : 0 < INR (length states)).
  { apply lt_0_INR. destruct states; [congruence|cbn; lia]. }
  destruct (gibbs states (fun _ => / INR (length states)) p) as [G _].
  - intros s _. now apply Rinv_0_lt_compat.
  - assumption.
  - rewrite H2, sumf_const. field. lra.
  - eapply Rle_trans; [exact G|]. rewrite ln_Rinv by assumption.
    rewrite sumf_scal_r, H2. lra.
Qed.

(** ** cooccurrence_matrix *)
Lemma cooccurrence_ok samples kd n : samples <> [] -> (forall s, In s samples -> length s = n) ->
  cooccurrence_matrix samples kd = mk_mat n n (fun i j => if (if kd then Nat.ltb j i else Nat.leb j i) then 0 else
    sample_mean samples (fun s => nthR s i * nthR s j)).
Proof.
  intros Hne Hl. unfold cooccurrence_matrix. replace (length (hd [] samples)) with n by (destruct samples; [congruence|symmetry; apply Hl; now left]).
  apply mk_mat_ext. intros i j _ _. unfold sample_mean. destruct (if kd then (j <? i)%nat else (j <=? i)%nat); unfold Rdiv; ring.
Qed.

(** ** From the coupling matrix to fields and couplings *)
Lemma energy01_ext n A B y : (forall i j, (i < n)%nat -> (j < n)%nat -> entry A i j = entry B i j) -> energy01 n A y = energy01 n B y.
Proof.
  intros H. unfold energy01. f_equal; apply sumf_ext_in; intros i Hi; apply in_seq in Hi; [now rewrite H by lia|].
  apply sumf_ext_in. intros j Hj. apply in_seq in Hj. destruct (i =? j)%nat; [reflexivity|]. now rewrite H by lia.
Qed.

(** Only the diagonal and the sums J_ij + J_ji matter. *)
Lemma energy01_sym n A B y : (forall i j, (i < n)%nat -> (j < n)%nat -> entry A i j + entry A j i = entry B i j + entry B j i) -> energy01 n A y = energy01 n B y.
Proof.
  intros H.
  assert (D : forall i, (i < n)%nat -> entry A i i = entry B i i) by (intros i Hi; pose proof (H i i Hi Hi); lra).
  unfold energy01. f_equal; [apply sumf_ext_in; intros i Hi; apply in_seq in Hi; now rewrite D by lia|].
  assert (X : forall M, sumf (seq 0 n) (fun i => sumf (seq 0 n) (fun j => if (i =? j)%nat then 0 else entry M i j * (nthR y i * nthR y j))) =
    sumf (seq 0 n) (fun i => sumf (seq 0 n) (fun j => if (i =? j)%nat then 0 else (entry M i j + entry M j i) / 2 * (nthR y i * nthR y j)))).
  { intros M. set (S1 := sumf (seq 0 n) _). assert (S2 : S1 = sumf (seq 0 n) (fun i => sumf (seq 0 n) (fun j => if (i =? j)%nat then 0 else entry M j i * (nthR y i * nthR y j)))).
    { unfold S1. rewrite sumf_swap. apply sumf_ext. intros j. apply sumf_ext. intros i. rewrite Nat.eqb_sym. destruct (j =? i)%nat; ring. }
    replace S1 with ((S1 + S1) / 2) by field. rewrite S2 at 2. unfold S1. rewrite <- sumf_plus, <- sumf_div. apply sumf_ext. intros i.
    rewrite <- sumf_plus, <- sumf_div. apply sumf_ext. intros j. destruct (i =? j)%nat; field. }
  rewrite (X A), (X B). apply sumf_ext_in. intros i Hi. apply in_seq in Hi. apply sumf_ext_in. intros j Hj. apply in_seq in Hj.
  destruct (i =? j)%nat; [reflexivity|]. now rewrite H by lia.
Qed.
