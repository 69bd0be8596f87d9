(** * Property theorem C115: pseudolikelihood fitted to samples. *)
From Coq Require Import FunctionalExtensionality.
From Coquelicot Require Import Coquelicot.
From Verif Require Import Prelude Spec PreludeFacts M_Index M_Sampler M_Corr M_Params M_Energy M_Models M_MCH M_Pseudo P_Index P_Unravel P_Params P_Energy P_Energy2 P_Unique P_Corr P_Corr2
  P_Models P_MPF P_MCH P_Convert P_Descent P_Stable P_Logistic P_MaxEnt P_Pseudo P_Pseudo2 P_Pseudo3 P_Sampler P_Metro P_Cpp
  Props_Energy Props_Corr Props_Models Props_MCH Props_MCHDescent Props_Stable Props_Pseudo P_PseudoStable
  P_Converge P_Converge2 P_Converge3 Props_Converge Props_Converge2 Props_Recover.
Import ListNotations.
Local Open Scope R_scope.

(** Squared distance of the frequencies of the states in the rows from their
    probabilities under the Ising model with parameters q. *)
Definition freq_dist (n : nat) (q : list R) (rows : list (list Z)) : R :=
  let St := all_states [-1; 1]%Z n in
  sumf St (fun s => (INR (count_occ rows_dec rows s) / INR (length rows) - boltzmann (fun s => ising_energy n q (map IZR s)) St s) ^ 2).

(** How near the frequencies must be for the accuracy rho. *)
Definition fit_radius (n : nat) (q : list R) (rho : R) : R :=
  let P := (n + n * (n - 1) / 2)%nat in
  exp (- (4 * sumf q Rabs + 2 * (sqrt (INR P) * rho))) * Rmin (/ 2 ^ S n) (rho / (4 * INR n * sqrt (INR P))).

(** Both routines for the pseudolikelihood of the Ising model return parameters within
    rho of q, whatever the guess and whichever minimiser is used. *)
Definition pl_recovers (n : nat) (q : list R) (rho : R) (rows : list (list Z)) : Prop :=
  let P := (n + n * (n - 1) / 2)%nat in
  forall nobs guess minimize, let g := match guess with None => repeat 0 nobs | Some g => g end in
  length g = P -> finds_minimum minimize ->
  (exists p, solve_ising (pseudo_ising_get_multipliers_r n) (pseudo_ising_calc_observables_r n) n nobs (map (map IZR) rows) guess minimize = Ok p /\
     length p = P /\ forall k, (k < P)%nat -> Rabs (nthR p k - nthR q k) < rho) /\
  let p := solve_general (pseudo_ising_get_multipliers_r n) (pseudo_ising_calc_observables_r n) n nobs (map (map IZR) rows) guess minimize in
  length p = P /\ dist2 p q < rho.

Lemma radius_pos n q rho : (0 < n)%nat -> 0 < rho -> 0 < fit_radius n q rho.
Proof.
  intros Hn Hr. unfold fit_radius. apply Rmult_lt_0_compat; [apply exp_pos|]. apply Rmin_glb_lt; [apply Rinv_0_lt_compat, pow_lt; lra|].
  apply Rdiv_lt_0_compat; [exact Hr|]. assert (0 < INR n) by now apply lt_0_INR. apply Rmult_lt_0_compat; [lra|]. apply sqrt_lt_R0, lt_0_INR. lia.
Qed.

Section Fit.
Variables (n : nat) (q : list R) (rows : list (list Z)) (rho : R).
Let P := (n + n * (n - 1) / 2)%nat.
Let St := all_states [-1; 1]%Z n.
Hypothesis Hn : (0 < n)%nat.
Hypothesis Hq : length q = P.
Hypothesis Hne : rows <> [].
Hypothesis Hrows : forall s, In s rows -> In s St.
Hypothesis Hrho : 0 < rho.
Hypothesis HD : 2 ^ n * freq_dist n q rows < fit_radius n q rho * fit_radius n q rho.
Let ob (r : nat) (u : list Z) : list R := pseudo_ising_calc_observables_r n r (map IZR u).
Let w (i : list Z * nat) : R := INR (count_occ rows_dec rows (fst i)) / INR (length rows).
Let sample := map (map IZR) rows.

Lemma near_l1 : pl_l1 n q rows < pl_radius n q rho.
Proof using Hn Hrho HD.
  assert (Rp := radius_pos n q rho Hn Hrho). change (pl_radius n q rho) with (fit_radius n q rho).
  apply Rsqr_incrst_0; [|apply sumf_nonneg; intros; apply Rabs_pos|lra]. unfold Rsqr. apply Rle_lt_trans with (2 := HD).
  unfold pl_l1. apply Rle_trans with (1 := square_sum _ _). rewrite (st_len n Hn). apply Rmult_le_compat_l; [apply pow_le; lra|].
  unfold freq_dist. right. apply sumf_ext. intros s. rewrite <- Rabs_mult, Rabs_pos_eq by apply Rle_0_sqr. ring.
Qed.

Lemma sample_spin : forall s, In s sample -> spin_state n s.
Proof using Hrows. intros s Hs. apply in_map_iff in Hs. destruct Hs as (u & <- & Hu). apply St_spin. now apply Hrows. Qed.

Lemma len_pos : 0 < INR (length rows).
Proof using Hne. clear - Hne. apply lt_0_INR. destruct rows; [congruence|cbn; lia]. Qed.

(** One spin at a time. *)
Lemma spin_fit r : (r < n)%nat -> exists x : list R, length x = n /\ (forall k, (k < n)%nat -> Rabs (nthR x k - nthR (map (nthR q) (ising_ix n r)) k) < rho) /\
  forall p p', length p = P -> length p' = P -> map (nthR p) (ising_ix n r) = x ->
    neg_log_pl n p sample r <= neg_log_pl n p' sample r /\
    (neg_log_pl n p' sample r <= neg_log_pl n p sample r -> map (nthR p') (ising_ix n r) = x).
Proof using Hn Hq Hne Hrows Hrho HD.
  intros Hr. set (a := nthR (map (nthR q) (ising_ix n r))).
  set (A := fun (i : list Z * nat) k => 2 * - nthR (ob r (fst i)) k).
  assert (La : length (map (nthR q) (ising_ix n r)) = n) by (now rewrite map_length, ising_ix_length).
  assert (NP : (n <= P)%nat) by (unfold P; lia).
  assert (SA : sumf (seq 0 n) (fun k => Rabs (a k)) <= sumf q Rabs).
  { assert (X := sumf_seq_nth 0 (map (nthR q) (ising_ix n r)) Rabs). rewrite La in X.
    change (sumf (seq 0 n) (fun i => Rabs (nth i (map (nthR q) (ising_ix n r)) 0)) <= sumf q Rabs). rewrite X, sumf_map.
    rewrite <- (sumf_seq_nth 0 q Rabs), Hq. apply (sumf_incl_le (fun k => Rabs (nthR q k))); [intros; apply Rabs_pos|now apply ising_ix_NoDup|].
    intros i Hi. apply in_seq. apply (ising_ix_range n r i Hr) in Hi. unfold P. lia. }
  destruct (items_near n q rows Hn Hq Hne Hrows rho Hrho near_l1 n [r] A (fun x _ => map x (seq 0 n)) a Hn NP) as (x & X1 & X2 & X3).
  - intros s [<-|[]]. exact Hr.
  - discriminate.
  - cbn. lia.
  - intros. now rewrite map_length, seq_length.
  - intros x u s Hu [<-|[]]. unfold A, ip. cbn [fst]. rewrite (dot_seq _ _ n) by (rewrite ?map_length, ?seq_length; auto; now apply ising_obs_r_length).
    rewrite <- sumf_opp, <- sumf_scal_l. apply sumf_ext_in. intros k Hk. apply in_seq in Hk. rewrite nthR_map_seq by lia. unfold ob. ring.
  - intros x s _. rewrite sumf_map. lra.
  - intros v. rewrite sumf_cons, sumf_nil, sumf_map. unfold ip. lra.
  - intros s [<-|[]]. unfold a. apply (nth_ext _ _ 0 0); [now rewrite map_length, seq_length|]. intros k Hk. rewrite map_length, seq_length in Hk. now rewrite nth_map_seq.
  - exact SA.
  - assert (OBJ : forall p, length p = P -> forall x, map x (seq 0 n) = map (nthR p) (ising_ix n r) ->
      neg_log_pl n p sample r = INR (length rows) * lg_obj (list_prod St [r]) w A n x).
    { intros p Lp x0 Ex. rewrite (nlpl_softplus n sample sample_spin p r Hr Lp). unfold sample. rewrite sumf_map.
      rewrite (sample_obj n rows Hne Hrows). f_equal. unfold lg_obj, St. rewrite L_sum, sumf_cons, sumf_nil, Rplus_0_r. fold St. apply sumf_ext_in. intros u Hu. unfold w. cbn [fst]. f_equal. f_equal.
      rewrite <- Ex. unfold lg_z, A, ip. cbn [fst]. rewrite (dot_seq _ _ n) by (rewrite ?map_length, ?seq_length; auto; now apply ising_obs_r_length).
      rewrite <- sumf_opp, <- sumf_scal_l. apply sumf_ext_in. intros k Hk. apply in_seq in Hk. rewrite nthR_map_seq by lia. unfold ob. ring. }
    assert (VEC : forall p, map (nthR (map (nthR p) (ising_ix n r))) (seq 0 n) = map (nthR p) (ising_ix n r)).
    { intros p. apply (nth_ext _ _ 0 0); [now rewrite !map_length, seq_length, ising_ix_length|]. intros k Hk. rewrite map_length, seq_length in Hk. now rewrite nth_map_seq. }
    exists (map x (seq 0 n)). split; [now rewrite map_length, seq_length|]. split.
    + intros k Hk. rewrite nthR_map_seq by exact Hk. apply Rle_lt_trans with (2 := X1). exact (coord_le n (fun k => x k - a k) k Hk).
    + intros p p' Lp Lp' Ep. rewrite (OBJ p Lp x (eq_sym Ep)), (OBJ p' Lp' _ (VEC p')). assert (Lr := len_pos). split.
      * apply Rmult_le_compat_l; [lra|]. apply X2.
      * intros Hle. apply Rmult_le_reg_l in Hle; [|exact Lr]. rewrite <- VEC. apply map_ext_in. intros k Hk. apply in_seq in Hk. apply (X3 _ Hle). lia.
Qed.

(** All spins together. *)
Lemma joint_fit : exists x : list R, length x = P /\ dist2 x q < rho /\
  forall p, length p = P -> sumf (seq 0 n) (neg_log_pl n x sample) <= sumf (seq 0 n) (neg_log_pl n p sample) /\
    (sumf (seq 0 n) (neg_log_pl n p sample) <= sumf (seq 0 n) (neg_log_pl n x sample) -> p = x).
Proof using Hn Hq Hne Hrows Hrho HD.
  set (A := fun (i : list Z * nat) k => 2 * - sumf (seq 0 n) (fun j => if Nat.eq_dec (nth j (ising_ix n (snd i)) 0%nat) k then nthR (ob (snd i) (fst i)) j else 0)).
  assert (PP : (0 < P)%nat) by (unfold P; lia).
  assert (IPA : forall x u r, (r < n)%nat -> ip P (A (u, r)) x = 2 * - dot (ob r u) (map x (ising_ix n r))).
  { intros x u r Hr. unfold ip, A. cbn [fst snd].
    rewrite (dot_seq _ _ n) by (rewrite ?map_length, ?ising_ix_length; auto; now apply ising_obs_r_length).
    rewrite (sumf_ext (seq 0 P) _ (fun k => 2 * - sumf (seq 0 n) (fun j => if Nat.eq_dec (nth j (ising_ix n r) 0%nat) k then nthR (ob r u) j * x k else 0))).
    - rewrite sumf_scal_l, sumf_opp, sumf_swap. f_equal. f_equal. apply sumf_ext_in. intros j Hj. apply in_seq in Hj.
      assert (Ij : In (nth j (ising_ix n r) 0%nat) (ising_ix n r)) by (apply nth_In; rewrite ising_ix_length; lia).
      rewrite (sumf_indic Nat.eq_dec (seq 0 P) (nth j (ising_ix n r) 0%nat) (fun k => nthR (ob r u) j * x k)).
      + f_equal. unfold nthR. rewrite (nth_indep _ 0 (x 0%nat)) by (rewrite map_length, ising_ix_length; lia). now rewrite map_nth.
      + apply seq_NoDup.
      + apply in_seq. apply (ising_ix_range n r _ Hr) in Ij. unfold P. lia.
    - intros k. rewrite Rmult_assoc, Ropp_mult_distr_l_reverse, <- sumf_scal_r. do 2 f_equal. apply sumf_ext. intros j. destruct (Nat.eq_dec _ _); ring. }
  destruct (items_near n q rows Hn Hq Hne Hrows rho Hrho near_l1 P (seq 0 n) A (fun x r => map x (ising_ix n r)) (nthR q) PP (le_n _)) as (x & X1 & X2 & X3).
  - intros r Hr. apply in_seq in Hr. lia.
  - destruct n; [lia|discriminate].
  - rewrite seq_length. lia.
  - intros x r Hr. apply in_seq in Hr. rewrite map_length. apply ising_ix_length. lia.
  - intros x u r Hu Hr. apply in_seq in Hr. apply IPA. lia.
  - intros x r Hr. apply in_seq in Hr. rewrite sumf_map. apply (sumf_incl_le (fun k => Rabs (x k))); [intros; apply Rabs_pos|apply ising_ix_NoDup; lia|].
    intros i Hi. apply in_seq. apply (ising_ix_range n r i ltac:(lia)) in Hi. unfold P. lia.
  - intros v. unfold ip. rewrite (sumf_ext (seq 0 n) _ (fun r => sumf (ising_ix n r) (fun k => v k * v k))) by (intros; apply sumf_map).
    rewrite <- sumf_flat_map. apply (sumf_incl_le (fun k => v k * v k)); [intros; apply Rle_0_sqr|apply seq_NoDup|].
    intros k Hk. apply in_seq in Hk. destruct (ising_ix_cover n k ltac:(unfold P in Hk; lia)) as (r & Hr & Hi). apply in_flat_map. exists r. split; [apply in_seq; lia|exact Hi].
  - reflexivity.
  - rewrite <- (sumf_seq_nth 0 q Rabs), Hq. apply Rle_refl.
  - assert (OBJ : forall x, sumf (seq 0 n) (neg_log_pl n (map x (seq 0 P)) sample) = INR (length rows) * lg_obj (list_prod St (seq 0 n)) w A P x).
    { intros y. unfold lg_obj, St. rewrite L_sum. fold St. rewrite <- sumf_scal_l. apply sumf_ext_in. intros r Hr. apply in_seq in Hr.
      rewrite (nlpl_softplus n sample sample_spin (map y (seq 0 P)) r ltac:(lia) ltac:(now rewrite map_length, seq_length)). unfold sample. rewrite sumf_map.
      rewrite (sample_obj n rows Hne Hrows). f_equal. fold St. apply sumf_ext_in. intros u Hu. unfold w. cbn [fst]. f_equal. f_equal. unfold lg_z. rewrite IPA by lia.
      fold (ob r u). do 3 f_equal. apply map_ext_in. intros k Hk. apply nthR_map_seq. apply (ising_ix_range n r k ltac:(lia)) in Hk. exact Hk. }
    assert (VEC : forall p, length p = P -> map (nthR p) (seq 0 P) = p) by (intros p Lp; exact (vec_nthR n Hn p Lp)).
    assert (Lr := len_pos).
    exists (map x (seq 0 P)). split; [now rewrite map_length, seq_length|]. split.
    + rewrite (dist2_nrm n Hn _ q Hq). fold P. rewrite (nrm_ext P _ (fun k => x k - nthR q k)); [exact X1|]. intros k Hk. now rewrite nthR_map_seq.
    + intros p Lp. rewrite <- (VEC p Lp) at 1 2. rewrite !OBJ. split.
      * apply Rmult_le_compat_l; [lra|]. apply X2.
      * intros Hle. apply Rmult_le_reg_l in Hle; [|exact Lr]. rewrite <- (VEC p Lp). apply map_ext_in. intros k Hk. apply in_seq in Hk. apply (X3 _ Hle). lia.
Qed.
End Fit.

(** Two lists of the same shape are close when their entries are. *)
Lemma close_lists {A B} (l : list A) (l' : list B) f f' g g' rho :
  (forall a, In a l -> Rabs (f a - f' a) < rho) -> (forall b, In b l' -> Rabs (g b - g' b) < rho) ->
  forall k, (k < length l + length l')%nat -> Rabs (nthR (map f l ++ map g l') k - nthR (map f' l ++ map g' l') k) < rho.
Proof.
  intros Hf Hg. induction l as [|a l IH]; cbn [map app length].
  - induction l' as [|b l' IH]; intros k Hk; cbn [map length] in *; [lia|].
    destruct k as [|k]; [apply Hg; now left|]. apply IH; [intros; apply Hg; now right|lia].
  - intros [|k] Hk; [apply Hf; now left|]. apply IH; [intros; apply Hf; now right|lia].
Qed.

(** ** C115 *)
(** Data whose frequencies are near the probabilities of an Ising model: maximising the
    pseudolikelihood, spin by spin or all at once, returns parameters near those of the
    model. *)
Theorem C115_near_data : forall (n : nat) (q : list R) (rho : R) (rows : list (list Z)), let P := (n + n * (n - 1) / 2)%nat in
  (0 < n)%nat -> length q = P -> 0 < rho -> rows <> [] -> (forall s, In s rows -> In s (all_states [-1; 1]%Z n)) ->
  2 ^ n * freq_dist n q rows < fit_radius n q rho * fit_radius n q rho -> pl_recovers n q rho rows.
Proof.
  intros n q rho rows P Hn Hq Hrho Hne Hrows HD nobs guess minimize g Hg Hmin.
  pose proof (sample_spin n rows Hrows) as Hs. set (sample := map (map IZR) rows) in *. split.
  - set (f := fun r params => bind (pseudo_ising_f (pseudo_ising_get_multipliers_r n) r (map (pseudo_ising_calc_observables_r n r) sample) (ising_ix n r) g params) (fun t => Ok (fst t))).
    assert (F : forall r y, (r < n)%nat -> length y = n -> exists p gr, f r y = Ok (neg_log_pl n p sample r, gr) /\ length p = P /\ map (nthR p) (ising_ix n r) = y).
    { intros r y Hr Hy. destruct (C40_spin_objective n r sample g y Hr Hs Hg Hy) as (p & ix & gr & E1 & E2 & _ & E4 & _).
      rewrite ising_get in E1 by assumption. injection E1 as E1 <-. exists p, gr. unfold f. rewrite E4. split; [reflexivity|]. split; [rewrite E2; exact Hg|assumption]. }
    assert (X : forall r, (r < n)%nat -> length (minimize (f r) (start n g r)) = n /\
      forall k, (k < n)%nat -> Rabs (nthR (minimize (f r) (start n g r)) k - nthR (map (nthR q) (ising_ix n r)) k) < rho).
    { intros r Hr. destruct (spin_fit n q rows rho Hn Hq Hne Hrows Hrho HD r Hr) as (x & Lx & Nx & Ux). fold sample in Ux.
      assert (Ls : length (start n g r) = n) by (unfold start; now rewrite map_length, seq_length).
      destruct (F r x Hr Lx) as (p0 & gr0 & E0 & L0 & I0).
      assert (M : pl_minimum (f r) (length (start n g r)) x).
      { rewrite Ls. split; [exact Lx|]. do 2 eexists. split; [exact E0|]. intros z Hz. destruct (F r z Hr Hz) as (p & gr & E & Lp & Ip).
        do 2 eexists. split; [exact E|]. now apply (Ux p0 p L0 Lp I0). }
      apply Hmin in M. rewrite Ls in M. destruct M as (Lm & v & gr & Em & Min).
      destruct (F r _ Hr Lm) as (p & gr1 & E & Lp & Ip). rewrite E in Em. injection Em as Ev _.
      destruct (Min _ Lx) as (v' & gw & Ew & Hle). rewrite E0 in Ew. injection Ew as Ew _. subst v v'.
      split; [exact Lm|]. rewrite <- Ip. rewrite (proj2 (Ux p0 p L0 Lp I0) Hle). exact Nx. }
    assert (SO := solve_ising_ok (pseudo_ising_get_multipliers_r n) (pseudo_ising_calc_observables_r n) n nobs sample guess minimize (ising_ix n) Hn Hg).
    cbv zeta in SO. eexists. split; [apply SO|].
    + intros r Hr. fold g. rewrite ising_get by assumption. eexists. reflexivity.
    + intros r Hr. fold g. change (minimize _ (start n g r)) with (minimize (f r) (start n g r)). now apply X.
    + split; [rewrite app_length, !map_length, seq_length, pairs_seq_length; reflexivity|]. intros k Hk.
      rewrite <- (firstn_skipn n q). rewrite <- fields_firstn by (rewrite Hq; unfold P; lia). rewrite <- (coupling_pairs n q) by assumption.
      apply close_lists; [| |rewrite seq_length, pairs_seq_length; exact Hk].
      * intros r Hr. apply in_seq in Hr. fold g. change (minimize _ (start n g r)) with (minimize (f r) (start n g r)).
        exact (proj2 (X r ltac:(lia)) 0%nat Hn).
      * intros [i j] Hij. apply in_pairs_seq in Hij. cbn [fst snd]. fold g.
        change (minimize _ (start n g i)) with (minimize (f i) (start n g i)). change (minimize _ (start n g j)) with (minimize (f j) (start n g j)).
        pose proof (proj2 (X i ltac:(lia)) j ltac:(lia)) as A. pose proof (proj2 (X j ltac:(lia)) (S i) ltac:(lia)) as B.
        rewrite mult_nth in A by lia. rewrite mult_nth in B by lia. unfold hJmat.
        destruct (Nat.eqb_spec i j); [lia|]. destruct (Nat.eqb_spec j 0); [lia|]. cbn [Nat.eqb] in *. destruct (Nat.leb_spec j i); [lia|]. destruct (Nat.leb_spec (S i) j); [|lia].
        replace (S i - 1)%nat with i in B by lia. rewrite (coupling_sym n q j i) in B by lia.
        set (c := coupling n q i j) in *. set (t1 := nthR (minimize (f i) (start n g i)) j) in *. set (t2 := nthR (minimize (f j) (start n g j)) (S i)) in *.
        apply Rabs_def2 in A. apply Rabs_def2 in B. apply Rabs_def1; lra.
  - unfold solve_general. fold g. set (f := pseudo_general_f _ _ n (length g) sample).
    assert (F : forall y, length y = P -> exists gr, f y = Ok (sumf (seq 0 n) (neg_log_pl n y sample), gr)).
    { intros y Hy. destruct (C40_general_objective n sample y Hs Hy) as (gr & E & _). exists gr. unfold f. rewrite Hg. rewrite Hy in E. exact E. }
    destruct (joint_fit n q rows rho Hn Hq Hne Hrows Hrho HD) as (x & Lx & Dx & Ux). fold sample in Ux. fold P in Lx.
    assert (M : pl_minimum f (length g) x).
    { rewrite Hg. split; [exact Lx|]. destruct (F x Lx) as [gr E]. do 2 eexists. split; [exact E|]. intros z Hz. destruct (F z Hz) as [gz Ez].
      do 2 eexists. split; [exact Ez|]. now apply Ux. }
    apply Hmin in M. rewrite Hg in M. destruct M as (Lm & v & gr & Em & Min). destruct (F _ Lm) as [g1 E1]. rewrite E1 in Em. injection Em as Ev _.
    destruct (Min x Lx) as (v' & gw & Ew & Hle). destruct (F x Lx) as [g2 E2]. rewrite E2 in Ew. injection Ew as Ew _. subst v v'.
    assert (EX : minimize f g = x) by (now apply Ux). rewrite EX. split; [exact Lx|exact Dx].
Qed.
Print Assumptions C115_near_data.

(** ** From the sampler to the fit *)
(** A sample that is good enough. *)
Definition good_rows (n : nat) (q : list R) (rho : R) (rows : list (list Z)) : bool :=
  forallb (fun s => if in_dec rows_dec s (all_states [-1; 1]%Z n) then true else false) rows &&
  if Rlt_dec (2 ^ n * freq_dist n q rows) (fit_radius n q rho * fit_radius n q rho) then true else false.

Lemma good_rows_ok n q rho rows : (0 < n)%nat -> length q = (n + n * (n - 1) / 2)%nat -> 0 < rho -> (0 < length rows)%nat ->
  good_rows n q rho rows = true -> pl_recovers n q rho rows.
Proof.
  intros Hn Hq Hr Hl Hg. apply andb_true_iff in Hg. destruct Hg as [G1 G2]. rewrite forallb_forall in G1.
  apply C115_near_data; try assumption.
  - intros ->. cbn in Hl. lia.
  - intros s Hs. specialize (G1 s Hs). now destruct (in_dec rows_dec s (all_states [-1; 1]%Z n)).
  - now destruct (Rlt_dec (2 ^ n * freq_dist n q rows) (fit_radius n q rho * fit_radius n q rho)).
Qed.

(** The probability that a chain produces a sample that is not good enough. *)
Lemma chain_fit n q ce rho : (0 < n)%nat -> length q = (n + n * (n - 1) / 2)%nat -> 0 < rho ->
  (forall s, In s (spin_states n) -> ce s = ising_energy n q (map IZR s)) ->
  forall eps, 0 < eps <= 1 -> minor (spin_states n) eps (fun F => iterf (2 * n) (rs_step ce n) F) ->
  forall b k m s0, (0 < k)%nat -> (0 < m)%nat -> In s0 (spin_states n) ->
  iterf b (rs_step ce n) (rows_exp (fun F => iterf k (rs_step ce n) F) m (fun rows => if good_rows n q rho rows then 0 else 1)) s0 *
    (fit_radius n q rho * fit_radius n q rho) * INR m <= 2 ^ n * 2 ^ n * (4 * (1 + 2 * INR (2 * n) / eps)).
Proof.
  intros Hn Hq Hr EE eps He HM b k m s0 Hk Hm Hs. set (r := fit_radius n q rho). assert (Rp : 0 < r) by now apply radius_pos.
  assert (R2 : 0 < r * r) by now apply Rmult_lt_0_compat. assert (P2 : 0 < 2 ^ n) by (apply pow_lt; lra).
  set (X := spin_states n) in *. set (K := length X). assert (KE : INR K = 2 ^ n) by exact (st_len n Hn).
  set (F := fun (i : nat) (s : list Z) => if rows_dec (nth i X []) s then 1 else 0).
  assert (FB : forall i x, (i < K)%nat -> In x X -> Rabs (F i x) <= 1).
  { intros i x _ _. unfold F. destruct (rows_dec _ _); [rewrite Rabs_R1|rewrite Rabs_R0]; lra. }
  assert (Tp : 0 < r * r / 2 ^ n) by (now apply Rdiv_lt_0_compat).
  assert (J := joint_errors state_eq_dec X (rs_step ce n) (2 * n) eps (boltzmann ce X) F K
     (spin_states_NoDup n) (spin_states_ne n) He ltac:(lia) (rs_averaging ce n Hn) HM (boltzmann_dist _ _ (spin_states_ne n)) (rs_stationary ce n Hn)
     FB b k m s0 (r * r / 2 ^ n) Hk Hm Hs Tp). cbv zeta in J.
  set (bad := fun rows => if Rlt_dec _ _ then 0 else 1) in J.
  assert (AV : averaging X (rs_step ce n)) by (now apply rs_averaging).
  assert (EQ : iterf b (rs_step ce n) (rows_exp (fun F => iterf k (rs_step ce n) F) m (fun rows => if good_rows n q rho rows then 0 else 1)) s0 =
    iterf b (rs_step ce n) (rows_exp (fun F => iterf k (rs_step ce n) F) m bad) s0).
  { apply (proj1 (avg_iter X (rs_step ce n) b AV)); [|exact Hs]. intros x Hx. apply (rows_exp_ext X _ m (avg_iter X (rs_step ce n) k AV)); [exact Hx|].
    intros l Hl Lm. rewrite Forall_forall in Hl.
    assert (ED : sumf (seq 0 K) (fun i => (sumf l (F i) / INR m - sumf X (fun x => boltzmann ce X x * F i x)) ^ 2) = freq_dist n q l).
    { unfold freq_dist. change (all_states [-1; 1]%Z n) with X. cbv zeta. rewrite <- (sumf_seq_nth [] X (fun s => (INR (count_occ rows_dec l s) / INR (length l) - boltzmann (fun s => ising_energy n q (map IZR s)) X s) ^ 2)).
      apply sumf_ext_in. intros i Hi. apply in_seq in Hi. rewrite Lm. f_equal. f_equal.
      - f_equal. unfold F. generalize (nth i X []). intros s. clear - l. induction l as [|a l IH]; [reflexivity|]. rewrite sumf_cons, IH. cbn [count_occ].
        destruct (rows_dec s a) as [N|N], (rows_dec a s) as [N'|N']; try congruence; rewrite ?S_INR; ring.
      - rewrite (sumf_ext X _ (fun x => if rows_dec (nth i X []) x then boltzmann ce X x else 0)) by (intros x0; unfold F; destruct (rows_dec _ _); ring).
        rewrite (sumf_indic rows_dec X (nth i X []) (boltzmann ce X)); [|apply spin_states_NoDup|apply nth_In; exact (proj2 Hi)].
        unfold boltzmann, partition. rewrite EE by (apply nth_In; exact (proj2 Hi)). f_equal. apply (sumf_ext_in X). intros s Hs'. now rewrite EE. }
    unfold bad. rewrite ED. unfold good_rows. rewrite (proj2 (forallb_forall _ l)).
    - cbn [andb]. fold r. destruct (Rlt_dec (2 ^ n * freq_dist n q l) (r * r)) as [H1|H1], (Rlt_dec (freq_dist n q l) (r * r / 2 ^ n)) as [H2|H2]; try reflexivity; exfalso.
      + apply H2. apply (Rmult_lt_reg_l (2 ^ n)); [exact P2|]. replace (2 ^ n * (r * r / 2 ^ n)) with (r * r) by (field; lra). exact H1.
      + apply H1. apply (Rmult_lt_compat_l (2 ^ n)) in H2; [|exact P2]. replace (2 ^ n * (r * r / 2 ^ n)) with (r * r) in H2 by (field; lra). exact H2.
    - intros s Hs'. specialize (Hl s Hs'). destruct (in_dec rows_dec s (all_states [-1; 1]%Z n)) as [|N]; [reflexivity|]. exfalso. now apply N. }
  rewrite EQ. rewrite KE in J. set (pr := iterf b (rs_step ce n) (rows_exp (fun F => iterf k (rs_step ce n) F) m bad) s0) in *.
  change (pr * (r * r / 2 ^ n) * INR m <= 2 ^ n * (4 * (1 + 2 * INR (2 * n) / eps))) in J.
  apply (Rmult_le_compat_l (2 ^ n)) in J; [|lra].
  replace (2 ^ n * (pr * (r * r / 2 ^ n) * INR m)) with (pr * (r * r) * INR m) in J by (field; lra). lra.
Qed.

(** The probability that the compiled sampler returns a sample that is not good enough. *)
Lemma boost_good : forall (n : nat) (q : list R), let P := (n + n * (n - 1) / 2)%nat in
  (0 < n)%nat -> length q = P -> (exists k, (k < length q)%nat /\ nthR q k <> 0) ->
  exists C, 0 < C /\ forall (rho delta : R) s0 burn_in n_iters m c,
  let r := fit_radius n q rho in
  0 < rho -> 0 < delta -> In s0 (all_states [-1; 1]%Z n) -> (0 < n_iters)%nat -> 2 ^ n * 2 ^ n * C <= delta * (r * r) * INR m ->
  (0 < m)%nat /\
    Etape (draw n) (burn_in + m * n_iters) (fun l =>
      if good_rows n q rho (fst (cpp_generate_sample tape (cpp_sample_metropolis tape n q (coupling_mat n n q)) (cpp_calc_e n q) n m burn_in n_iters false s0 (l, c)))
      then 0 else 1) <= delta.
Proof.
  intros n q P Hn Hq NZ. set (states := all_states [-1; 1]%Z n). set (E := fun s => ising_energy n q (map IZR s)). set (ce := cpp_calc_e n q).
  assert (EE : forall s, In s states -> ce s = E s).
  { intros s Hs. apply spin_states_spec in Hs. unfold ce, E. now apply cpp_calc_e_eq. }
  assert (NE : nonconstant ce states).
  { apply (energy_zero_iff n q Hq) in NZ. destruct NZ as (s & s' & Hs & Hs' & NE). exists s, s'. split; [assumption|]. split; [assumption|]. rewrite !EE by assumption. unfold E. intros Q. apply NE.
    rewrite (proj1 (C15_ising_energy n (map IZR s) q ltac:(rewrite map_length; now apply spin_states_spec in Hs) Hq)).
    now rewrite (proj1 (C15_ising_energy n (map IZR s') q ltac:(rewrite map_length; now apply spin_states_spec in Hs') Hq)). }
  destruct (rs_minor ce n Hn NE) as (eps & He & HM). exists (4 * (1 + 2 * INR (2 * n) / eps)).
  assert (Cp : 0 < 4 * (1 + 2 * INR (2 * n) / eps)).
  { assert (0 <= 2 * INR (2 * n) / eps) by (apply Rdiv_le_0_compat; [pose proof (pos_INR (2 * n)); lra|lra]). lra. }
  split; [exact Cp|]. intros rho delta s0 b k m c r Hr Hd Hs Hk Hm.
  assert (Rp : 0 < r) by (now apply radius_pos). assert (P2 : 0 < 2 ^ n * 2 ^ n) by (apply Rmult_lt_0_compat; apply pow_lt; lra).
  assert (R2 : 0 < r * r) by now apply Rmult_lt_0_compat.
  assert (Mp : (0 < m)%nat).
  { destruct m as [|m]; [|lia]. change (INR 0) with 0 in Hm. rewrite Rmult_0_r in Hm. pose proof (Rmult_lt_0_compat _ _ P2 Cp). lra. }
  split; [exact Mp|].
    assert (Q : forall H : list (list Z) -> R, Etape (draw n) (b + m * k) (fun l => H (fst (cpp_generate_sample tape (cpp_sample_metropolis tape n q (coupling_mat n n q)) ce n m b k false s0 (l, c))))
       = iterf b (rs_step ce n) (rows_exp (fun F => iterf k (rs_step ce n) F) m H) s0).
    { intros H. rewrite (cpp_generate_tape (draw n) (okdraw n) (draw_ext n) ce (fun s => In s states) (inext ce) (fun e s He Hs => inext_ok ce n e s He Hs)); [| |assumption].
      - assert (EP : Pnext (draw n) (inext ce) = rs_step ce n) by (apply functional_extensionality; intros G; apply functional_extensionality; intros s; apply draw_next). now rewrite EP.
      - intros s [i u] l c0 H1 H2. assert (Ls : length s = n) by (now apply spin_states_spec in H1). rewrite <- (ising_tape_step ce n s i u l c0 Ls H2).
        cbn [tape randint fst]. rewrite clampi_in by apply H2. unfold ce. rewrite cpp_sample_metropolis_eq; [|apply H2|assumption].
        unfold sample_metropolis at 2. cbn [tape randint fst]. rewrite Ls, clampi_in by apply H2. reflexivity. }
    fold ce. rewrite (Q (fun rows => if good_rows n q rho rows then 0 else 1)).
    pose proof (chain_fit n q ce rho Hn Hq Hr EE eps He HM b k m s0 Hk Mp Hs) as J. fold r in J.
    match type of J with ?a * _ * _ <= _ => set (pr := a) in * end.
    apply (Rmult_le_reg_r (r * r)); [exact R2|]. apply (Rmult_le_reg_r (INR m)); [now apply lt_0_INR|]. lra.
Qed.

(** Sample with the compiled Metropolis sampler at parameters q, then maximise the
    pseudolikelihood: there is a constant C, depending on q only, such that for every
    accuracy and confidence, every start, burn-in and number of updates between rows,
    m rows with 4^n C <= delta r^2 m are enough for the fitted parameters to be within
    rho of q with probability at least 1 - delta. *)
Theorem C115_boost : forall (n : nat) (q : list R), let P := (n + n * (n - 1) / 2)%nat in
  (0 < n)%nat -> length q = P -> (exists k, (k < length q)%nat /\ nthR q k <> 0) ->
  exists C, 0 < C /\ forall (rho delta : R) s0 burn_in n_iters m c,
  let r := fit_radius n q rho in
  0 < rho -> 0 < delta -> In s0 (all_states [-1; 1]%Z n) -> (0 < n_iters)%nat -> 2 ^ n * 2 ^ n * C <= delta * (r * r) * INR m ->
  exists good : list (list Z) -> bool,
    Etape (draw n) (burn_in + m * n_iters) (fun l =>
      if good (fst (cpp_generate_sample tape (cpp_sample_metropolis tape n q (coupling_mat n n q)) (cpp_calc_e n q) n m burn_in n_iters false s0 (l, c)))
      then 0 else 1) <= delta /\
    forall rows, length rows = m -> good rows = true -> pl_recovers n q rho rows.
Proof.
  intros n q P Hn Hq NZ. destruct (boost_good n q Hn Hq NZ) as (C & Cp & H). exists C. split; [exact Cp|].
  intros rho delta s0 b k m c r Hr Hd Hs Hk Hm. destruct (H rho delta s0 b k m c Hr Hd Hs Hk Hm) as [Mp HE]. exists (good_rows n q rho). split; [exact HE|].
  intros rows Lr Hg. apply good_rows_ok; try assumption. lia.
Qed.
Print Assumptions C115_boost.

(** The same for the Python sampler. *)
Lemma python_good : forall (n : nat) (q : list R), let P := (n + n * (n - 1) / 2)%nat in
  (0 < n)%nat -> length q = P -> (exists k, (k < length q)%nat /\ nthR q k <> 0) ->
  exists C, 0 < C /\ forall (rho delta : R) samples s0 burn_in n_iters m c,
  let r := fit_radius n q rho in
  0 < rho -> 0 < delta -> In s0 (all_states [-1; 1]%Z n) -> (0 < n_iters)%nat -> 2 ^ n * 2 ^ n * C <= delta * (r * r) * INR m ->
  (0 < m)%nat /\
    Etape (draw n) (burn_in_or burn_in n_iters + m * n_iters) (fun l =>
      match ising_generate_sample_py tape (fun s => ising_energy n q (map IZR s)) n m n_iters burn_in false samples (Some [s0]) (l, c) with
      | Ok g => if good_rows n q rho (g_sample g) then 0 else 1 | Err _ => 1 end) <= delta.
Proof.
  intros n q P Hn Hq NZ. set (states := all_states [-1; 1]%Z n). set (E := fun s => ising_energy n q (map IZR s)). set (ce := E).
  assert (EE : forall s, In s states -> ce s = E s) by reflexivity.
  assert (NE : nonconstant ce states).
  { apply (energy_zero_iff n q Hq) in NZ. destruct NZ as (s & s' & Hs & Hs' & NE). exists s, s'. split; [assumption|]. split; [assumption|]. rewrite !EE by assumption. unfold E. intros Q. apply NE.
    rewrite (proj1 (C15_ising_energy n (map IZR s) q ltac:(rewrite map_length; now apply spin_states_spec in Hs) Hq)).
    now rewrite (proj1 (C15_ising_energy n (map IZR s') q ltac:(rewrite map_length; now apply spin_states_spec in Hs') Hq)). }
  destruct (rs_minor ce n Hn NE) as (eps & He & HM). exists (4 * (1 + 2 * INR (2 * n) / eps)).
  assert (Cp : 0 < 4 * (1 + 2 * INR (2 * n) / eps)).
  { assert (0 <= 2 * INR (2 * n) / eps) by (apply Rdiv_le_0_compat; [pose proof (pos_INR (2 * n)); lra|lra]). lra. }
  split; [exact Cp|]. intros rho delta samples s0 b0 k m c r Hr Hd Hs Hk Hm.
  assert (Rp : 0 < r) by (now apply radius_pos). assert (P2 : 0 < 2 ^ n * 2 ^ n) by (apply Rmult_lt_0_compat; apply pow_lt; lra).
  assert (R2 : 0 < r * r) by now apply Rmult_lt_0_compat.
  assert (Mp : (0 < m)%nat).
  { destruct m as [|m]; [|lia]. change (INR 0) with 0 in Hm. rewrite Rmult_0_r in Hm. pose proof (Rmult_lt_0_compat _ _ P2 Cp). lra. }
  set (b := burn_in_or b0 k). split; [exact Mp|].
    assert (Q : forall H : list (list Z) -> R, Etape (draw n) (b + m * k) (fun l => match ising_generate_sample_py tape ce n m k b0 false samples (Some [s0]) (l, c) with Ok r => H (g_sample r) | Err _ => 1 end)
       = iterf b (rs_step ce n) (rows_exp (fun F => iterf k (rs_step ce n) F) m H) s0).
    { intros H. unfold ising_generate_sample_py, b.
      rewrite (generate_tape (draw n) (okdraw n) (draw_ext n) ce (fun s => In s states) (inext ce) (fun e s He Hs => inext_ok ce n e s He Hs)); [| |assumption|now apply spin_states_spec in Hs].
      - assert (EP : Pnext (draw n) (inext ce) = rs_step ce n) by (apply functional_extensionality; intros G; apply functional_extensionality; intros s; apply draw_next). now rewrite EP.
      - intros s [i u] l c0 H1 H2. apply (ising_tape_step ce n); [now apply spin_states_spec in H1|assumption]. }
    change (fun s => ising_energy n q (map IZR s)) with ce.
    rewrite (Q (fun rows => if good_rows n q rho rows then 0 else 1)).
    pose proof (chain_fit n q ce rho Hn Hq Hr EE eps He HM b k m s0 Hk Mp Hs) as J. fold r in J.
    match type of J with ?a * _ * _ <= _ => set (pr := a) in * end.
    apply (Rmult_le_reg_r (r * r)); [exact R2|]. apply (Rmult_le_reg_r (INR m)); [now apply lt_0_INR|]. lra.
Qed.

(** The same with the Python sampler, Metropolis.generate_sample_py. *)
Theorem C115_python : forall (n : nat) (q : list R), let P := (n + n * (n - 1) / 2)%nat in
  (0 < n)%nat -> length q = P -> (exists k, (k < length q)%nat /\ nthR q k <> 0) ->
  exists C, 0 < C /\ forall (rho delta : R) samples s0 burn_in n_iters m c,
  let r := fit_radius n q rho in
  0 < rho -> 0 < delta -> In s0 (all_states [-1; 1]%Z n) -> (0 < n_iters)%nat -> 2 ^ n * 2 ^ n * C <= delta * (r * r) * INR m ->
  exists good : list (list Z) -> bool,
    Etape (draw n) (burn_in_or burn_in n_iters + m * n_iters) (fun l =>
      match ising_generate_sample_py tape (fun s => ising_energy n q (map IZR s)) n m n_iters burn_in false samples (Some [s0]) (l, c) with
      | Ok g => if good (g_sample g) then 0 else 1 | Err _ => 1 end) <= delta /\
    forall rows, length rows = m -> good rows = true -> pl_recovers n q rho rows.
Proof.
  intros n q P Hn Hq NZ. destruct (python_good n q Hn Hq NZ) as (C & Cp & H). exists C. split; [exact Cp|].
  intros rho delta samples s0 b0 k m c r Hr Hd Hs Hk Hm. destruct (H rho delta samples s0 b0 k m c Hr Hd Hs Hk Hm) as [Mp HE]. exists (good_rows n q rho). split; [exact HE|].
  intros rows Lr Hg. apply good_rows_ok; try assumption. lia.
Qed.
Print Assumptions C115_python.

(** The hypotheses can be met: for every C, accuracy and confidence there are enough rows;
    and a minimiser as assumed exists, see C69_example. A sample whose frequencies are
    exact is near enough for every accuracy. *)
Example C115_example : (forall (n : nat) (q : list R) (C rho delta : R), (0 < n)%nat -> 0 < rho -> 0 < delta ->
    exists m : nat, let r := fit_radius n q rho in 2 ^ n * 2 ^ n * C <= delta * (r * r) * INR m) /\
  (forall rho, 0 < rho -> 2 ^ 1 * freq_dist 1 [0] [[1]; [-1]]%Z < fit_radius 1 [0] rho * fit_radius 1 [0] rho).
Proof.
  split.
  - intros n q C rho delta Hn Hr Hd. set (r := fit_radius n q rho).
    assert (Rp : 0 < r) by (now apply radius_pos). assert (D2 : 0 < delta * (r * r)) by (apply Rmult_lt_0_compat; [exact Hd|now apply Rmult_lt_0_compat]).
    set (x := 2 ^ n * 2 ^ n * C / (delta * (r * r))). assert (Hm : exists m, x < INR m).
    { exists (Z.to_nat (up x)). destruct (archimed x) as [Ha _]. apply Rlt_le_trans with (1 := Ha). rewrite INR_IZR_INZ. apply IZR_le. lia. }
    destruct Hm as [m Hm]. exists m. cbv zeta. fold r. unfold x in Hm.
    apply (Rmult_lt_compat_l (delta * (r * r))) in Hm; [|exact D2]. replace (delta * (r * r) * (2 ^ n * 2 ^ n * C / (delta * (r * r)))) with (2 ^ n * 2 ^ n * C) in Hm by (field; lra). lra.
  - intros rho Hr. assert (Rp := radius_pos 1 [0] rho ltac:(lia) Hr).
    assert (Z : freq_dist 1 [0] [[1]; [-1]]%Z = 0); [|rewrite Z, Rmult_0_r; now apply Rmult_lt_0_compat].
    unfold freq_dist, boltzmann, partition. cbn [all_states flat_map map app]. rewrite !sumf_cons, !sumf_nil.
    assert (EZ : forall s, ising_energy 1 [0] [s] = 0) by (intros s; unfold ising_energy, dot; cbn; ring).
    cbn [map]. rewrite !EZ, Ropp_0, exp_0. cbn. lra.
Qed.
