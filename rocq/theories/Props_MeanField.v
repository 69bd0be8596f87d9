(** * Properties C50, C51, C52, C61. *)
From Verif Require Import Prelude PreludeFacts Spec Spec2 M_Index M_Params M_MeanField P_Index P_Energy P_Params P_Enum P_MaxEnt P_MeanField P_MeanField2 P_MeanField3.
Import ListNotations.
Local Open Scope R_scope.

(** ** C50 *)
Theorem C50_flat_index_bijection : forall n,
  (forall i j, (i <= j < n)%nat -> (0 <= diagFlatIndex (Z.of_nat i) (Z.of_nat j) (Z.of_nat n) < Z.of_nat (n * (n + 1) / 2))%Z) /\
  (forall i j i' j', (i <= j < n)%nat -> (i' <= j' < n)%nat ->
     diagFlatIndex (Z.of_nat i) (Z.of_nat j) (Z.of_nat n) = diagFlatIndex (Z.of_nat i') (Z.of_nat j') (Z.of_nat n) -> i = i' /\ j = j') /\
  (forall k, (0 <= k < Z.of_nat (n * (n + 1) / 2))%Z -> exists i j, (i <= j < n)%nat /\ diagFlatIndex (Z.of_nat i) (Z.of_nat j) (Z.of_nat n) = k).
Proof.
  intros n. split; [|split].
  - intros i j H. rewrite diagFlatIndex_off by lia. pose proof (ix_lt n i j ltac:(lia) ltac:(lia)) as L. unfold ix in L. lia.
  - intros i j i' j' H H' E. rewrite !diagFlatIndex_off in E by lia. apply (ix_inj n); auto. unfold ix. lia.
  - intros k Hk. destruct (off_find n (Z.to_nat k)) as (d & i & Hd & Hi & E); [rewrite off_full; lia|].
    exists i, (i + d)%nat. split; [lia|]. rewrite diagFlatIndex_off by lia. replace (i + d - i)%nat with d by lia. lia.
Qed.
Print Assumptions C50_flat_index_bijection.

Theorem C50_flat_layout : forall n A, (1 <= n)%nat -> length A = n ->
  exists x, aboveDiagFlat A true None = Ok x /\ length x = (n * (n + 1) / 2)%nat /\
    forall i j, (i <= j < n)%nat -> nthR x (Z.to_nat (diagFlatIndex (Z.of_nat i) (Z.of_nat j) (Z.of_nat n))) = entry A i j.
Proof.
  intros n A Hn HA. eexists. split; [now apply (aboveDiagFlat_ok n)|]. split; [now apply flat_length|].
  intros i j H. rewrite ix_diag by lia. unfold ix. now apply flat_nth.
Qed.
Print Assumptions C50_flat_layout.

(** Without the diagonal the same list is returned from position n on; a 1x1 matrix
    leaves nothing to concatenate. *)
Theorem C50_without_diagonal : forall n A, length A = n ->
  ((n <= 1)%nat -> aboveDiagFlat A false None = Err ValueError) /\
  ((2 <= n)%nat -> exists x, aboveDiagFlat A true None = Ok x /\ aboveDiagFlat A false None = Ok (skipn n x)).
Proof.
  intros n A HA. split; intros Hn.
  - unfold aboveDiagFlat. cbn [off_diag_mult]. rewrite HA. destruct n as [|[|n]]; try lia; reflexivity.
  - exists (flat_map (diagonal A) (seq 0 n)). split; [apply aboveDiagFlat_ok; lia|]. unfold aboveDiagFlat. cbn [off_diag_mult]. rewrite HA.
    unfold range2. destruct n as [|[|n]]; try lia. cbn [Nat.sub seq]. f_equal. cbn [flat_map].
    rewrite skipn_app. rewrite diagonal_length, HA, Nat.sub_0_r, skipn_all2 by (rewrite diagonal_length; lia). cbn [app]. now rewrite Nat.sub_diag.
Qed.
Print Assumptions C50_without_diagonal.

Theorem C50_unflatten_inverts_flat : forall n A, (1 <= n)%nat -> sq n A -> (forall i j, (j < i < n)%nat -> entry A i j = 0) ->
  exists x, aboveDiagFlat A true None = Ok x /\ unflatten x n false = Ok A.
Proof.
  intros n A Hn HA Hu. destruct (C50_flat_layout n A Hn (proj1 HA)) as (x & Ex & Lx & Hx). exists x. split; [exact Ex|].
  destruct (unflatten_ok n x false Hn Lx) as (B & EB & SB & HB). rewrite EB. f_equal. apply (sq_ext n); [assumption|assumption|].
  intros i j Hi Hj. rewrite HB by assumption. cbv zeta. destruct (Nat.leb_spec i j).
  - rewrite <- (Hx i j) by lia. rewrite ix_diag by lia. reflexivity.
  - symmetry. apply Hu. lia.
Qed.
Print Assumptions C50_unflatten_inverts_flat.

Theorem C50_flat_inverts_unflatten : forall n x, (1 <= n)%nat -> length x = (n * (n + 1) / 2)%nat ->
  exists A, unflatten x n false = Ok A /\ sq n A /\ (forall i j, (j < i < n)%nat -> entry A i j = 0) /\ aboveDiagFlat A true None = Ok x.
Proof.
  intros n x Hn Lx. destruct (unflatten_ok n x false Hn Lx) as (A & EA & SA & HA). exists A. split; [exact EA|]. split; [exact SA|]. split.
  - intros i j H. rewrite HA by lia. cbv zeta. destruct (Nat.leb_spec i j); [lia|reflexivity].
  - destruct (C50_flat_layout n A Hn (proj1 SA)) as (y & Ey & Ly & Hy). rewrite Ey. f_equal. apply nth_ext with (d := 0) (d' := 0); [congruence|].
    intros k Hk. change (nthR y k = nthR x k). destruct (off_find n k) as (d & i & Hd & Hi & ->); [rewrite off_full; lia|].
    pose proof (Hy i (i + d)%nat ltac:(lia)) as E. rewrite ix_diag in E by lia. unfold ix in E. replace (i + d - i)%nat with d in E by lia. rewrite E, HA by lia.
    cbv zeta. destruct (Nat.leb_spec i (i + d)); [|lia]. now replace (i + d - i)%nat with d by lia.
Qed.
Print Assumptions C50_flat_inverts_unflatten.

(** symmetrize=True changes the matrix but not the weights of the states, and
    offDiagMult=2 is its inverse on symmetric matrices. *)
Theorem C50_symmetrize_keeps_weights : forall n x hext k, (1 <= n)%nat -> length x = (n * (n + 1) / 2)%nat ->
  exists A B, unflatten x n false = Ok A /\ unflatten x n true = Ok B /\ sq n B /\ (forall i j, (i < n)%nat -> (j < n)%nat -> entry B i j = entry B j i) /\
    unsummedZ B hext k = unsummedZ A hext k /\ aboveDiagFlat B true (Some 2) = Ok x.
Proof.
  intros n x hext k Hn Lx. destruct (unflatten_ok n x false Hn Lx) as (A & EA & SA & HA). destruct (unflatten_ok n x true Hn Lx) as (B & EB & SB & HB).
  exists A, B. split; [exact EA|]. split; [exact EB|]. split; [exact SB|]. cbv zeta in HA, HB. split; [|split].
  - intros i j Hi Hj. rewrite !HB by assumption. lra.
  - destruct (states01 n k) as [|s0 st] eqn:Est.
    + unfold unsummedZ, unsummedLogZ. rewrite (proj1 SA), (proj1 SB), fightPossibilities_states, Est by lia. reflexivity.
    + pose proof (unsummedZ_ok A hext k) as ZA. pose proof (unsummedZ_ok B hext k) as ZB. cbv zeta in ZA, ZB. rewrite (proj1 SA) in ZA. rewrite (proj1 SB) in ZB.
      rewrite ZA, ZB by (lia || (rewrite Est; discriminate)). f_equal. apply map_ext. intros s. unfold E01. do 3 f_equal. apply energy01_sym.
      intros i j Hi Hj. rewrite !HA, !HB by assumption. cbv beta. lra.
  - destruct (C50_flat_inverts_unflatten n x Hn Lx) as (A' & EA' & _ & Hu & Fl). assert (A' = A) by congruence. subst A'.
    unfold aboveDiagFlat in *. cbn [off_diag_mult] in *. rewrite (proj1 SB). rewrite mk_mat_length. rewrite (proj1 SA) in Fl.
    destruct (range2 0 n) as [|d0 ds] eqn:Er; [exact Fl|]. rewrite <- Fl. f_equal. apply flat_map_ext. intros d. unfold diagonal. rewrite mk_mat_length, (proj1 SA). apply map_ext_in.
    intros i Hi. apply in_seq in Hi. rewrite entry_mk_mat by lia. rewrite HA, HB by lia. destruct (Nat.leb_spec i (i + d)); [|lia].
    destruct (Nat.eqb_spec i (i + d)) as [E|E].
    + replace d with 0%nat by lia. rewrite Nat.add_0_r, Nat.leb_refl, Nat.sub_diag. lra.
    + destruct (Nat.leb_spec (i + d) i); [lia|]. lra.
Qed.
Print Assumptions C50_symmetrize_keeps_weights.

Example C50_example : aboveDiagFlat [[1; 2; 3]; [0; 4; 5]; [0; 0; 6]] true None = Ok [1; 4; 6; 2; 5; 3] /\
  exists A, unflatten [1; 4; 6; 2; 5; 3] 3 true = Ok A /\ entry A 2 0 = 3 / 2 /\ diagFlatIndex 0 2 3 = 5%Z.
Proof.
  split; [reflexivity|]. destruct (unflatten_ok 3 [1; 4; 6; 2; 5; 3] true) as (A & EA & _ & HA); [lia|reflexivity|]. exists A. split; [exact EA|].
  split; [|reflexivity]. rewrite HA by lia. unfold nthR. cbn. lra.
Qed.

(** ** C51 *)
(** The energy of a 0,1 state in the sign convention of this module, with an external
    field added to every spin. *)
Definition energy_ext (n : nat) (J : list (list R)) (hext : R) (s : list R) : R :=
  energy01 n J s - hext * sumf (seq 0 n) (fun i => nthR s i).

Theorem C51_weights : forall J hext k, let n := length J in (0 < n)%nat -> states01 n k <> [] ->
  unsummedZ J hext k = Ok (map (fun s => exp (- energy_ext n J hext s)) (states01 n k)).
Proof. exact unsummedZ_ok. Qed.
Print Assumptions C51_weights.

Theorem C51_exact_expectations : forall J hext k, let n := length J in (0 < n)%nat -> states01 n k <> [] ->
  exists C D, coocExpectations J hext true k = Ok C /\ coocExpectations J hext false k = Ok D /\ sq n C /\ sq n D /\
    let E := expectation (boltzmann (energy_ext n J hext) (states01 n k)) (states01 n k) in
    forall i j, (i < n)%nat -> (j < n)%nat ->
      entry D i j = E (fun s => nthR s i * nthR s j) /\ entry C i j = if Nat.leb i j then entry D i j else 0.
Proof.
  intros J hext k n Hn Hs. rewrite !coocExpectations_ok by assumption. fold n. eexists _, _. split; [reflexivity|]. split; [reflexivity|].
  split; [apply mk_mat_sq|]. split; [apply mk_mat_sq|]. cbv zeta. intros i j Hi Hj. rewrite !entry_mk_mat by assumption. cbn [andb]. split; [reflexivity|].
  destruct (Nat.leb i j); reflexivity.
Qed.
Print Assumptions C51_exact_expectations.

(** They are frequencies: joint frequencies lie between 0 and each of the single ones. *)
Theorem C51_expectations_are_frequencies : forall J hext k D, let n := length J in (0 < n)%nat -> states01 n k <> [] ->
  coocExpectations J hext false k = Ok D ->
  forall i j, (i < n)%nat -> (j < n)%nat -> 0 <= entry D i j /\ entry D i j <= entry D i i /\ entry D i i <= 1 /\ entry D i j = entry D j i.
Proof.
  intros J hext k D n Hn Hs E i j Hi Hj. destruct (C51_exact_expectations J hext k Hn Hs) as (C & D' & _ & ED & _ & _ & H). cbv zeta in H.
  assert (D' = D) by congruence. subst D'. clear E ED. fold n in H. destruct (H i j Hi Hj) as [Hij _]. destruct (H i i Hi Hi) as [Hii _]. destruct (H j i Hj Hi) as [Hji _].
  set (P := boltzmann (energy_ext n J hext) (states01 n k)) in *.
  assert (P0 : forall s, 0 < P s) by (intros s; apply boltzmann_pos; assumption).
  assert (P1 : sumf (states01 n k) P = 1) by (apply boltzmann_sum; assumption).
  assert (V : forall s a, In s (states01 n k) -> (a < n)%nat -> nthR s a = 0 \/ nthR s a = 1).
  { intros s a Hin Ha. destruct (in_states01 _ _ _ Hin) as [L V]. apply V. apply nth_In. lia. }
  rewrite Hij, Hii, Hji. unfold expectation. split; [|split; [|split]].
  - apply sumf_nonneg. intros s Hin. apply Rmult_le_pos; [left; apply P0|]. destruct (V s i Hin Hi) as [-> | ->], (V s j Hin Hj) as [-> | ->]; lra.
  - apply sumf_le. intros s Hin. apply Rmult_le_compat_l; [left; apply P0|]. destruct (V s i Hin Hi) as [-> | ->], (V s j Hin Hj) as [-> | ->]; lra.
  - rewrite <- P1. apply sumf_le. intros s Hin. rewrite <- (Rmult_1_r (P s)) at 2. apply Rmult_le_compat_l; [left; apply P0|]. destruct (V s i Hin Hi) as [-> | ->]; lra.
  - apply sumf_ext_in. intros s _. ring.
Qed.
Print Assumptions C51_expectations_are_frequencies.

(** More ones required than there are spins: no state is left and numpy raises. *)
Theorem C51_no_states : forall J hext z k, let n := length J in (0 < n)%nat -> (Z.of_nat n < k)%Z ->
  coocExpectations J hext z k = Err ValueError.
Proof.
  intros J hext z k n Hn Hk. unfold coocExpectations, unsummedZ, unsummedLogZ. fold n. rewrite fightPossibilities_states by assumption.
  assert (E : states01 n k = []); [|now rewrite E].
  destruct (states01 n k) as [|s l] eqn:E; [reflexivity|exfalso]. assert (Hin : In s (states01 n k)) by (rewrite E; now left).
  destruct (in_states01 _ _ _ Hin) as [L V]. unfold states01 in Hin. apply filter_In in Hin. destruct Hin as [_ Hin]. destruct (Rle_dec (IZR k) (sumR s)) as [Le|]; [|discriminate].
  assert (sumR s <= INR (length s)).
  { clear - V. unfold sumR. induction s as [|a s IH]; [cbn; lra|]. rewrite sumf_cons. cbn [length]. rewrite S_INR.
    assert (sumf s (fun x => x) <= INR (length s)) by (apply IH; intros v Hv; apply V; now right). destruct (V a (or_introl eq_refl)) as [-> | ->]; lra. }
  apply IZR_lt in Hk. rewrite <- INR_IZR_INZ in Hk. rewrite L in *. lra.
Qed.
Print Assumptions C51_no_states.

Theorem C51_entropy : forall J, let n := length J in (0 < n)%nat ->
  exists S, analyticEntropy J = Ok S /\ S = entropy (boltzmann (energy01 n J) (all_states [0; 1] n)) (all_states [0; 1] n) /\ 0 <= S <= INR n * ln 2.
Proof.
  intros J n Hn. rewrite analyticEntropy_ok by assumption. fold n. eexists. split; [reflexivity|]. split; [reflexivity|]. split.
  - apply entropy_nonneg; [intros s _; left; apply boltzmann_pos, all_states01_ne|apply boltzmann_sum, all_states01_ne].
  - replace (INR n * ln 2) with (ln (INR (length (all_states [0; 1] n)))).
    + apply entropy_le_uniform; [apply all_states01_ne|intros s _; left; apply boltzmann_pos, all_states01_ne|apply boltzmann_sum, all_states01_ne].
    + rewrite all_states_length, pow_INR. cbn [length]. rewrite ln_pow by (cbn; lra). reflexivity.
Qed.
Print Assumptions C51_entropy.

Example C51_example : analyticEntropy [[0; 0]; [0; 0]] = Ok (2 * ln 2) /\
  exists D, coocExpectations [[0; 0]; [0; 0]] 0 false 1 = Ok D /\ entry D 0 1 = / 3 /\ coocExpectations [[0; 0]; [0; 0]] 0 false 3 = Err ValueError.
Proof.
  assert (E0 : forall s, energy01 2 [[0; 0]; [0; 0]] s = 0).
  { intros s. unfold energy01. cbn [seq]. rewrite !sumf_cons, !sumf_nil. unfold entry, nthR. cbn. ring. }
  split.
  - rewrite analyticEntropy_ok by (cbn; lia). f_equal. cbn [length]. unfold entropy, boltzmann, partition. cbn [all_states flat_map map app]. rewrite !sumf_cons, !sumf_nil. rewrite !E0.
    rewrite Ropp_0, exp_0. replace (1 / (1 + (1 + (1 + (1 + 0))))) with (/ 4) by field. rewrite ln_Rinv by lra. replace 4 with (2 * 2) by ring. rewrite ln_mult by lra. field.
  - assert (Es : states01 2 1 = [[0; 1]; [1; 0]; [1; 1]]).
    { unfold states01. cbn [all_states flat_map map app filter]. unfold sumR. rewrite !sumf_cons, !sumf_nil.
      repeat match goal with |- context [Rle_dec ?a ?b] => destruct (Rle_dec a b); try lra end. reflexivity. }
    destruct (C51_exact_expectations [[0; 0]; [0; 0]] 0 1) as (C & D & _ & ED & _ & _ & H); [cbn; lia|cbn [length]; rewrite Es; discriminate|].
    exists D. split; [exact ED|]. split; [|apply C51_no_states; cbn; lia]. cbv zeta in H. destruct (H 0%nat 1%nat) as [H1 _]; [cbn; lia|cbn; lia|]. rewrite H1. cbn [length]. rewrite Es.
    unfold expectation, boltzmann, partition, energy_ext. rewrite !sumf_cons, !sumf_nil, !E0. rewrite !Rmult_0_l, !Rminus_0_r, !Ropp_0, !exp_0. unfold nthR. cbn [nth]. field.
Qed.

(** ** C52 *)
Theorem C52_cooccurrence : forall samples n kd, samples <> [] -> (forall s, In s samples -> length s = n) ->
  let C := cooccurrence_matrix samples kd in sq n C /\
  forall i j, (i < n)%nat -> (j < n)%nat ->
    ((i < j)%nat \/ (i = j /\ kd = true) -> entry C i j = sample_mean samples (fun s => nthR s i * nthR s j)) /\
    ((j < i)%nat \/ (i = j /\ kd = false) -> entry C i j = 0).
Proof.
  intros samples n kd Hne Hlen C. unfold C. rewrite (cooccurrence_ok samples kd n Hne Hlen). split; [apply mk_mat_sq|].
  intros i j Hi Hj. rewrite entry_mk_mat by assumption. destruct kd.
  - split; intros H; destruct (Nat.ltb_spec j i); try reflexivity; exfalso; destruct H as [|[? ?]]; (lia || discriminate).
  - split; intros H; destruct (Nat.leb_spec j i); try reflexivity; exfalso; destruct H as [|[? ?]]; (lia || discriminate).
Qed.
Print Assumptions C52_cooccurrence.

(** Laplace's correction keeps frequencies off 0 and 1, so no residual is divided by
    zero. *)
Theorem C52_bayesian_mean : forall C N, (forall r x, In r C -> In x r -> 0 <= x <= 1) ->
  length (coocMatBayesianMean C N) = length C /\
  forall i j, (i < length C)%nat -> (j < length (nth i C []))%nat ->
    entry (coocMatBayesianMean C N) i j = (entry C i j * INR N + 1) / (INR N + 2) /\ 0 < entry (coocMatBayesianMean C N) i j < 1.
Proof.
  intros C N H. unfold coocMatBayesianMean. split; [apply map_length|]. intros i j Hi Hj. set (g := fun c => (c * INR N + 1) / (INR N + 2)).
  assert (E : entry (map (map g) C) i j = g (entry C i j)).
  { unfold entry, nthR. rewrite (nth_indep _ [] (map g [])) by (rewrite map_length; lia). rewrite map_nth.
    rewrite (nth_indep _ 0 (g 0)) by (rewrite map_length; lia). apply map_nth. }
  rewrite E. split; [reflexivity|]. unfold g. assert (Hx : 0 <= entry C i j <= 1) by (apply (H (nth i C [])); apply nth_In; assumption).
  pose proof (pos_INR N). assert (0 <= entry C i j * INR N) by (apply Rmult_le_pos; lra). assert (entry C i j * INR N <= 1 * INR N) by (apply Rmult_le_compat_r; lra).
  split; [apply Rdiv_lt_0_compat; lra|]. apply (Rmult_lt_reg_r (INR N + 2)); [lra|]. unfold Rdiv. rewrite Rmult_assoc, Rinv_l by lra. lra.
Qed.
Print Assumptions C52_bayesian_mean.

Theorem C52_stdevs_positive : forall n C N, (1 <= n)%nat -> (0 < N)%nat -> sq n C -> (forall r x, In r C -> In x r -> 0 <= x <= 1) ->
  exists v, coocStdevsFlat C N = Ok v /\ length v = (n * (n + 1) / 2)%nat /\ (forall x, In x v -> 0 < x) /\
    forall i j, (i <= j < n)%nat -> let p := (entry C i j * INR N + 1) / (INR N + 2) in
      (nthR v (Z.to_nat (diagFlatIndex (Z.of_nat i) (Z.of_nat j) (Z.of_nat n)))) ^ 2 = p * (1 - p) / INR N.
Proof.
  intros n C N Hn HN HC Hp. destruct (C52_bayesian_mean C N Hp) as [LB HB]. unfold coocStdevsFlat. set (B := coocMatBayesianMean C N) in *. rewrite (proj1 HC) in *.
  set (g := fun c => c * (1 - c) / INR N). assert (LG : length (map (map g) B) = n) by (rewrite map_length; lia).
  destruct (C50_flat_layout n (map (map g) B) Hn LG) as (x & Ex & Lx & Hx). rewrite Ex. cbn [bind]. exists (map sqrt x). split; [reflexivity|]. rewrite map_length. split; [exact Lx|].
  assert (LBi : forall i, (i < n)%nat -> length (nth i B []) = n).
  { intros i Hi. unfold B, coocMatBayesianMean. set (h := fun c => (c * INR N + 1) / (INR N + 2)). rewrite (nth_indep _ [] (map h [])) by (rewrite map_length, (proj1 HC); lia).
    rewrite map_nth, map_length. now apply HC. }
  assert (E : forall i j, (i < n)%nat -> (j < n)%nat -> entry (map (map g) B) i j = g (entry B i j)).
  { intros i j Hi Hj. unfold entry, nthR. rewrite (nth_indep _ [] (map g [])) by (rewrite map_length; lia). rewrite map_nth.
    rewrite (nth_indep _ 0 (g 0)) by (rewrite map_length, LBi; lia). apply map_nth. }
  assert (G0 : forall i j, (i <= j < n)%nat -> 0 < g (entry B i j)).
  { intros i j H. destruct (HB i j ltac:(lia) ltac:(rewrite (proj2 HC); lia)) as [_ Hb]. unfold g. apply Rdiv_lt_0_compat; [apply Rmult_lt_0_compat; lra|]. apply lt_0_INR. exact HN. }
  split.
  - intros y Hy. apply in_map_iff in Hy. destruct Hy as (z & <- & Hz). apply sqrt_lt_R0. apply (In_nth _ _ 0) in Hz. destruct Hz as (k & Hk & <-).
    destruct (C50_flat_index_bijection n) as (_ & _ & Hsur). destruct (Hsur (Z.of_nat k)) as (i & j & Hij & Ei); [lia|]. specialize (Hx i j Hij). rewrite Ei, Nat2Z.id in Hx.
    change (0 < nthR x k). rewrite Hx, E by lia. now apply G0.
  - intros i j Hij. cbv zeta. specialize (Hx i j Hij). set (k := Z.to_nat _) in *. assert (Hk : (k < length x)%nat).
    { destruct (C50_flat_index_bijection n) as (Hr & _). specialize (Hr i j Hij). unfold k. lia. }
    unfold nthR. rewrite (nth_indep _ 0 (sqrt 0)) by (rewrite map_length; exact Hk). rewrite map_nth. change (nth k x 0) with (nthR x k). rewrite Hx, E by lia.
    rewrite pow2_sqrt by (left; now apply G0). unfold g. destruct (HB i j ltac:(lia) ltac:(rewrite (proj2 HC); lia)) as [-> _]. reflexivity.
Qed.
Print Assumptions C52_stdevs_positive.

Theorem C52_matrix_helpers : forall n A d, (1 <= n)%nat -> sq n A -> length d = n ->
  (exists B, symmetrizeUsingUpper A = Ok B /\ sq n B /\ forall i j, (i <= j < n)%nat -> entry B i j = entry A i j /\ entry B j i = entry A i j) /\
  (exists B, replaceDiag A d = Ok B /\ sq n B /\ forall i j, (i < n)%nat -> (j < n)%nat -> entry B i j = if Nat.eqb i j then nthR d i else entry A i j) /\
  (exists B, zeroDiag A = Ok B /\ sq n B /\ forall i j, (i < n)%nat -> (j < n)%nat -> entry B i j = if Nat.eqb i j then 0 else entry A i j).
Proof.
  intros n A d Hn HA Hd. split; [|split].
  - rewrite (symmetrizeUsingUpper_ok n A Hn HA). eexists. split; [reflexivity|]. split; [apply mk_mat_sq|]. intros i j H. rewrite !entry_mk_mat by lia.
    rewrite (Nat.min_l i j), (Nat.max_r i j), (Nat.min_r j i), (Nat.max_l j i) by lia. now split.
  - rewrite (replaceDiag_ok n A d HA Hd). eexists. split; [reflexivity|]. split; [apply mk_mat_sq|]. intros i j Hi Hj. now rewrite entry_mk_mat.
  - unfold zeroDiag. rewrite (replaceDiag_ok n A _ HA) by (rewrite repeat_length; apply HA). eexists. split; [reflexivity|]. split; [apply mk_mat_sq|].
    intros i j Hi Hj. rewrite entry_mk_mat by assumption. destruct (Nat.eqb i j); [|reflexivity]. unfold nthR. apply nth_repeat.
Qed.
Print Assumptions C52_matrix_helpers.

Theorem C52_embed_cluster : forall N Jc cl, NoDup cl -> (forall x, In x cl -> (x < N)%nat) -> sq (length cl) Jc ->
  exists J, JfullFromCluster Jc cl N = Ok J /\ sq N J /\
    (forall a b, (a < length cl)%nat -> (b < length cl)%nat -> entry J (nth a cl 0%nat) (nth b cl 0%nat) = entry Jc a b) /\
    (forall i j, (i < N)%nat -> (j < N)%nat -> (~ In i cl \/ ~ In j cl) -> entry J i j = 0).
Proof. exact JfullFromCluster_ok. Qed.
Print Assumptions C52_embed_cluster.

(** All entries of the fourth order matrix, although the loops visit only half of the
    pairs of pairs. *)
Theorem C52_fourth_order : forall n samples, samples <> [] -> (forall s, In s samples -> length s = n) ->
  exists F, fourthOrderCoocMat samples = Ok F /\ sq (n * (n + 1) / 2) F /\
  forall i j m k, (i <= j < n)%nat -> (m <= k < n)%nat ->
    let pos := fun i j => Z.to_nat (diagFlatIndex (Z.of_nat i) (Z.of_nat j) (Z.of_nat n)) in
    entry F (pos i j) (pos m k) = sample_mean samples (fun s => nthR s i * nthR s j * (nthR s m * nthR s k)).
Proof.
  intros n samples Hne Hlen. destruct (fourthOrder_ok n samples Hne Hlen) as (F & EF & SF & HF). exists F. split; [exact EF|]. split; [exact SF|].
  intros i j m k H1 H2. cbv zeta beta. rewrite !ix_diag by lia. now apply HF.
Qed.
Print Assumptions C52_fourth_order.

Example C52_example : let X := [[1; 1]; [0; 1]; [1; 0]; [1; 1]] in
  cooccurrence_matrix X true = [[3 / 4; 2 / 4]; [0; 3 / 4]] /\
  exists F, fourthOrderCoocMat X = Ok F /\ entry F 0 2 = 2 / 4 /\ entry F 2 0 = 2 / 4 /\ entry F 0 0 = 3 / 4.
Proof.
  intros X. assert (HL : forall s, In s X -> length s = 2%nat) by (intros s Hs; unfold X in Hs; cbn in Hs; intuition; subst; reflexivity).
  split.
  - rewrite (cooccurrence_ok X true 2) by (assumption || discriminate). unfold mk_mat, range. cbn [seq map Nat.ltb Nat.leb]. unfold sample_mean, X. cbn [length].
    rewrite !sumf_cons, !sumf_nil. unfold nthR. cbn [nth INR]. repeat f_equal; field.
  - destruct (C52_fourth_order 2 X) as (F & EF & _ & HF); [discriminate|assumption|]. exists F. split; [exact EF|].
    cbv zeta beta in HF. pose proof (HF 0 0 0 1)%nat as A. pose proof (HF 0 1 0 0)%nat as B. pose proof (HF 0 0 0 0)%nat as C.
    change (Z.to_nat (diagFlatIndex (Z.of_nat 0) (Z.of_nat 0) (Z.of_nat 2))) with 0%nat in *.
    change (Z.to_nat (diagFlatIndex (Z.of_nat 0) (Z.of_nat 1) (Z.of_nat 2))) with 2%nat in *.
    rewrite A, B, C by lia. unfold sample_mean, X. cbn [length]. rewrite !sumf_cons, !sumf_nil. unfold nthR. cbn [nth INR]. repeat split; field.
Qed.

(** ** C61 *)
Theorem C61_log_cosh : forall x, logCosh x = ln (cosh x).
Proof. exact logCosh_ok. Qed.
Print Assumptions C61_log_cosh.

Theorem C61_root_bracketed : forall h J ell T, T <> 0 ->
  m_func h J ell T 0 < 0 /\ 0 < m_func h J ell T 1 /\ continuity (m_func h J ell T) /\
  (exists x, m_func h J ell T x = 0) /\ (forall x, m_func h J ell T x = 0 -> 0 < x < 1).
Proof.
  intros h J ell T HT. destruct (m_func_signs h J ell T) as [A B]. split; [exact A|]. split; [exact B|]. split; [now apply m_func_cont|].
  split; [now apply m_func_root|]. intros x. apply m_func_root_in.
Qed.
Print Assumptions C61_root_bracketed.

(** For repulsive couplings the equation has one solution; for attractive ones this
    is not guaranteed and the root returned is whichever brentq finds. *)
Theorem C61_root_unique_when_repulsive : forall h J ell T x y, 0 < T -> 1 <= ell -> 0 <= J ->
  m_func h J ell T x = 0 -> m_func h J ell T y = 0 -> x = y.
Proof.
  intros h J ell T x y HT Hl HJ Hx Hy. destruct (Rtotal_order x y) as [L|[E|L]]; [|exact E|]; exfalso; apply (m_func_incr h J ell T) in L; try assumption; lra.
Qed.
Print Assumptions C61_root_unique_when_repulsive.

Theorem C61_independent_entropies_agree : forall x N, -1 < x < 1 -> independentEntropy1 x N = independentEntropy2 x N.
Proof. exact indep_entropies. Qed.
Print Assumptions C61_independent_entropies_agree.

Example C61_example : logCosh (-3) = ln (cosh (-3)) /\ m_func 0 5 1 2 (/ 2) = 0 /\ independentEntropy1 0 4 = independentEntropy2 0 4.
Proof.
  split; [apply C61_log_cosh|]. split; [|apply C61_independent_entropies_agree; lra].
  unfold m_func. replace ((0 + 2 * (1 - 1) * / 2 * 5) / 2) with 0 by field. rewrite exp_0. field.
Qed.
