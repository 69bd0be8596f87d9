(** * Minimum probability flow of data whose frequencies are nearly the probabilities of a model. *)
From Coquelicot Require Import Coquelicot.
From Verif Require Import Prelude Spec PreludeFacts M_Index M_Params M_Energy M_Corr M_Pseudo P_Index P_Unravel P_Energy P_Energy2 P_Params P_Unique P_MPF P_MaxEnt
  P_Corr2 P_Pseudo P_Pseudo2 P_Pseudo3 P_Descent P_Stable P_ExpLoss P_PseudoStable P_MCH Props_MCHDescent Props_Stable.
Import ListNotations.
Local Open Scope R_scope.

(** The probability flow of the rows: every row, every spin flipped. *)
Definition spin_flow (n : nat) (rows : list (list Z)) (p : list R) : R :=
  let E := fun s => ising_energy n p (map IZR s) in
  sumf (all_states [-1; 1]%Z n) (fun s => INR (count_occ rows_dec rows s) / INR (length rows) *
    sumf (seq 0 n) (fun r => exp (/ 2 * (E s - E (upd s r (- nth r s 0)%Z))))).

Section Flow.
Variables (n : nat) (q : list R) (rows : list (list Z)).
Hypothesis Hn : (0 < n)%nat.
Let P := (n + n * (n - 1) / 2)%nat.
Hypothesis Hq : length q = P.
Let St := all_states [-1; 1]%Z n.
Hypothesis Hne : rows <> [].
Hypothesis Hrows : forall s, In s rows -> In s St.
Let E (p : list R) := fun s : list Z => ising_energy n p (map IZR s).
Let pi := boltzmann (E q) St.
Let freq (s : list Z) : R := INR (count_occ rows_dec rows s) / INR (length rows).
Let Q := sumf q Rabs.
Variable rho : R.
Hypothesis Hrho : 0 < rho.
Hypothesis HD : pl_l1 n q rows < pl_radius n q rho.
Let ob (r : nat) (u : list Z) : list R := pseudo_ising_calc_observables_r n r (map IZR u).
Let flip (r : nat) (u : list Z) : list Z := upd u r (- nth r u 0)%Z.
Let om := exp (- 2 * Q) / 2 ^ S n.
Let B := Q + sqrt (INR P) * rho.

Lemma flow_z p r u : (r < n)%nat -> In u St -> - dot (ob r u) (map (nthR p) (ising_ix n r)) = / 2 * (E p u - E p (flip r u)).
Proof.
  intros Hr Hu. destruct (St_spec n u Hu) as [L _]. assert (Lm : length (map IZR u) = n) by (now rewrite map_length).
  unfold ob. rewrite ising_dot by assumption. unfold E, flip. rewrite map_upd_IZR, opp_IZR.
  pose proof (ising_energy_upd n p (map IZR u) r (- IZR (nth r u 0%Z)) Hr Lm) as X. rewrite nth_IZR in *. lra.
Qed.

(** With the probabilities of the model as weights the gradient vanishes. *)
Lemma flow_stationary r y : (r < n)%nat -> length y = n ->
  sumf St (fun u => exp (- E q u) * (exp (- dot (ob r u) (map (nthR q) (ising_ix n r))) * - dot (ob r u) y)) = 0.
Proof using Hn Hq.
  intros Hr Hy. set (f := fun u => _ * (_ * _)).
  assert (F : sumf St (fun u => f (flip r u)) = sumf St f).
  { apply (sumf_flip St 1 (fun _ => flip r) ltac:(apply all_states_NoDup; repeat constructor; cbn; intuition discriminate) (fun i s _ Hs => flip_ok n q Hq r Hr s Hs) 0 f). lia. }
  assert (G : forall u, In u St -> f (flip r u) = - f u).
  { intros u Hu. destruct (flip_ok n q Hq r Hr u Hu) as [Hf Hff]. change (In (flip r u) St) in Hf. change (flip r (flip r u) = u) in Hff.
    unfold f. rewrite !flow_z by assumption. rewrite Hff. pose proof (ob_flip n r Hr u y Hu Hy) as O. change (dot (ob r (flip r u)) y = - dot (ob r u) y) in O. rewrite O.
    rewrite <- !Rmult_assoc, <- !exp_plus.
    replace (- E q (flip r u) + / 2 * (E q (flip r u) - E q u)) with (- E q u + / 2 * (E q u - E q (flip r u))) by field. ring. }
  rewrite (sumf_ext_in St _ (fun u => - f u) G), sumf_opp in F. lra.
Qed.

Lemma flow_fit : exists x : list R, length x = P /\ dist2 x q < rho /\
  forall p, length p = P -> spin_flow n rows x <= spin_flow n rows p /\ (spin_flow n rows p <= spin_flow n rows x -> p = x).
Proof using Hn Hq Hne Hrows Hrho HD.
  set (A := fun (i : list Z * nat) k => - sumf (seq 0 n) (fun j => if Nat.eq_dec (nth j (ising_ix n (snd i)) 0%nat) k then nthR (ob (snd i) (fst i)) j else 0)).
  set (L := list_prod St (seq 0 n)). set (w := fun i : list Z * nat => freq (fst i)).
  assert (PP : (0 < P)%nat) by (unfold P; lia).
  assert (IPA : forall x u r, (r < n)%nat -> ip P (A (u, r)) x = - dot (ob r u) (map x (ising_ix n r))).
  { intros x u r Hr. unfold ip, A. cbn [fst snd].
    rewrite (dot_seq _ _ n) by (rewrite ?map_length, ?ising_ix_length; auto; now apply ising_obs_r_length).
    rewrite (sumf_ext (seq 0 P) _ (fun k => - sumf (seq 0 n) (fun j => if Nat.eq_dec (nth j (ising_ix n r) 0%nat) k then nthR (ob r u) j * x k else 0))).
    - rewrite sumf_opp, sumf_swap. f_equal. apply sumf_ext_in. intros j Hj. apply in_seq in Hj.
      assert (Ij : In (nth j (ising_ix n r) 0%nat) (ising_ix n r)) by (apply nth_In; rewrite ising_ix_length; lia).
      rewrite (sumf_indic Nat.eq_dec (seq 0 P) (nth j (ising_ix n r) 0%nat) (fun k => nthR (ob r u) j * x k)).
      + f_equal. unfold nthR. rewrite (nth_indep _ 0 (x 0%nat)) by (rewrite map_length, ising_ix_length; lia). now rewrite map_nth.
      + apply seq_NoDup.
      + apply in_seq. apply (ising_ix_range n r _ Hr) in Ij. unfold P. lia.
    - intros k. rewrite Ropp_mult_distr_l_reverse, <- sumf_scal_r. f_equal. apply sumf_ext. intros j. destruct (Nat.eq_dec _ _); ring. }
  assert (LS : forall f, sumf L f = sumf (seq 0 n) (fun r => sumf St (fun u => f (u, r)))) by (intros f; apply L_sum).
  assert (LI : forall i, In i L -> In (fst i) St /\ (snd i < n)%nat).
  { intros [u r] Hi. apply in_prod_iff in Hi. destruct Hi as [H1 H2]. apply in_seq in H2. split; [exact H1|cbn [snd]; lia]. }
  assert (W0 : forall i, In i L -> 0 <= w i) by (intros; apply freq_nonneg; assumption).
  assert (P2 : 0 < 2 ^ n) by (apply pow_lt; lra). assert (Om : 0 < om) by (apply om_pos). assert (Sq1 : 1 <= sqrt (INR P)) by (now apply sqrtP_ge1).
  assert (Q0 : 0 <= Q) by apply Q_nonneg.
  assert (B0 : 0 <= B) by (unfold B; assert (0 <= sqrt (INR P) * rho) by (apply Rmult_le_pos; lra); lra).
  assert (FT : sumf St freq = 1) by (now apply (freq_total n rows)).
  assert (WT : sumf L w = INR n).
  { rewrite LS. unfold w. cbn [fst]. rewrite (sumf_ext (seq 0 n) _ (fun _ => 1)) by (intros; apply FT). rewrite sumf_const, seq_length. ring. }
  assert (Np : 1 <= INR n) by (apply (le_INR 1); lia).
  assert (LX : forall (x : nat -> R) r, (r < n)%nat -> length (map x (ising_ix n r)) = n) by (intros; rewrite map_length; now apply ising_ix_length).
  assert (ZB : forall x i, In i L -> Rabs (ex_z A P x i) <= sumf (seq 0 P) (fun k => Rabs (x k))).
  { intros x i Hi. destruct (LI i Hi) as [Hu Hr]. destruct i as [u r]. cbn [fst snd] in *. unfold ex_z. rewrite IPA by assumption. rewrite Rabs_Ropp.
    pose proof (ob_bound n r Hr u (map x (ising_ix n r)) Hu ltac:(now apply LX)) as H1. apply Rle_trans with (1 := H1). rewrite sumf_map.
    apply (sumf_incl_le (fun k => Rabs (x k))); [intros; apply Rabs_pos|now apply ising_ix_NoDup|].
    intros i Hi'. apply in_seq. apply (ising_ix_range n r i Hr) in Hi'. unfold P. lia. }
  assert (SPAN : forall v, om * 2 ^ n * ip P v v <= sumf L (fun i => w i * (ex_z A P v i * ex_z A P v i))).
  { intros v. apply Rle_trans with (om * 2 ^ n * sumf (seq 0 n) (fun r => sumf (map v (ising_ix n r)) (fun t => t * t))).
    { apply Rmult_le_compat_l; [apply Rmult_le_pos; lra|]. unfold ip. rewrite (sumf_ext (seq 0 n) _ (fun r => sumf (ising_ix n r) (fun k => v k * v k))) by (intros; apply sumf_map).
      rewrite <- sumf_flat_map. apply (sumf_incl_le (fun k => v k * v k)); [intros; apply Rle_0_sqr|apply seq_NoDup|].
      intros k Hk. apply in_seq in Hk. destruct (ising_ix_cover n k ltac:(unfold P in Hk; lia)) as (r & Hr & Hi). apply in_flat_map. exists r. split; [apply in_seq; lia|exact Hi]. }
    rewrite LS, <- sumf_scal_l. apply sumf_le. intros r Hr0. apply in_seq in Hr0. assert (Hr : (r < n)%nat) by lia.
    pose proof (ob_span n r Hr (map v (ising_ix n r)) ltac:(now apply LX)) as S.
    change (sumf St (fun u => dot (ob r u) (map v (ising_ix n r)) * dot (ob r u) (map v (ising_ix n r))) = 2 ^ n * sumf (map v (ising_ix n r)) (fun t => t * t)) in S.
    rewrite (Rmult_assoc om), <- S, <- sumf_scal_l. apply sumf_le. intros u Hu. unfold w, ex_z. cbn [fst]. rewrite IPA by assumption.
    pose proof (freq_low n q rows Hn Hq rho Hrho HD u Hu) as F. fold (freq u) in F. change (om <= freq u) in F.
    pose proof (Rle_0_sqr (dot (ob r u) (map v (ising_ix n r)))) as G. unfold Rsqr in G. nra. }
  assert (N1 : sumf (seq 0 P) (fun k => Rabs (nthR q k)) = Q) by (unfold Q; now rewrite <- (sumf_seq_nth 0 q Rabs), Hq).
  assert (ZA : forall i, In i L -> Rabs (ex_z A P (nthR q) i) <= Q) by (intros i Hi; rewrite <- N1; now apply ZB).
  assert (BQ : Q <= B) by (unfold B; assert (0 <= sqrt (INR P) * rho) by (apply Rmult_le_pos; lra); lra).
  set (g := ex_grad L w A P B (nthR q)). set (l1 := pl_l1 n q rows) in *.
  assert (D0 : 0 <= l1) by (apply sumf_nonneg; intros; apply Rabs_pos).
  assert (GR : nrm P g <= INR n * l1 * (exp Q * sqrt (INR P))).
  { assert (Ng := nrm_nonneg P g).
    assert (G : ip P g g <= INR n * l1 * (exp Q * sqrt (INR P)) * nrm P g).
    { unfold g at 1. rewrite ex_grad_ip, LS. unfold w. cbn [fst].
      apply Rle_trans with (sumf (seq 0 n) (fun _ => l1 * (exp Q * (sqrt (INR P) * nrm P g)))).
      - apply sumf_le. intros r Hr0. apply in_seq in Hr0. assert (Hr : (r < n)%nat) by lia.
        assert (IL : forall u, In u St -> In (u, r) L) by (intros u Hu; apply in_prod; [exact Hu|apply in_seq; lia]).
        assert (CE : forall u, In u St -> cexp B (ex_z A P (nthR q) (u, r)) = exp (ex_z A P (nthR q) (u, r))).
        { intros u Hu. apply cexp_id. apply Rle_trans with (2 := BQ). apply ZA. now apply IL. }
        assert (Z : sumf St (fun u => pi u * (exp (ex_z A P (nthR q) (u, r)) * ex_z A P g (u, r))) = 0).
        { pose proof (flow_stationary r (map g (ising_ix n r)) Hr ltac:(now apply LX)) as X.
          rewrite (sumf_ext_in St _ (fun u => / partition (E q) St * (exp (- E q u) * (exp (- dot (ob r u) (map (nthR q) (ising_ix n r))) * - dot (ob r u) (map g (ising_ix n r)))))).
          - rewrite sumf_scal_l. apply Rmult_eq_0_compat_l. exact X.
          - intros u Hu. unfold ex_z. rewrite !IPA by assumption. unfold pi, boltzmann, Rdiv. ring. }
        rewrite <- (Rminus_0_r (sumf St _)), <- Z, <- sumf_minus. unfold l1, pl_l1. rewrite <- sumf_scal_r. apply sumf_le. intros u Hu.
        rewrite (CE u Hu). rewrite <- Rmult_minus_distr_r.
        apply Rle_trans with (1 := Rle_abs _). rewrite Rabs_mult. apply Rmult_le_compat_l; [apply Rabs_pos|]. rewrite Rabs_mult.
        apply Rmult_le_compat; try apply Rabs_pos.
        + rewrite Rabs_pos_eq by (left; apply exp_pos). apply exp_le. apply Rle_trans with (1 := Rle_abs _). apply ZA. now apply IL.
        + apply Rle_trans with (1 := ZB g (u, r) (IL u Hu)). apply norm1_nrm.
      - rewrite sumf_const, seq_length. right. ring. }
    rewrite <- nrm_sqr in G. destruct (Req_dec (nrm P g) 0) as [Z|Z].
    - rewrite Z. apply Rmult_le_pos; [apply Rmult_le_pos; [apply pos_INR|exact D0]|]. apply Rmult_le_pos; [left; apply exp_pos|lra].
    - apply (Rmult_le_reg_r (nrm P g)); [lra|exact G]. }
  set (M := 1 + sumf L (fun i => ip P (A i) (A i))).
  assert (M0 : 0 <= sumf L (fun i => ip P (A i) (A i))) by (apply sumf_nonneg; intros; apply ip_nonneg).
  destruct (ex_minimum_near L w A P B B0 W0 M) with (kap := om * 2 ^ n) (a := nthR q) (rho := rho) as (x & X1 & X2 & X3).
  - intros i Hi. pose proof (sumf_in_le L (fun i => ip P (A i) (A i)) i (fun b _ => ip_nonneg P _) Hi). cbn beta in *. unfold M. lra.
  - rewrite WT. apply Rmult_lt_0_compat; unfold M; lra.
  - apply Rmult_lt_0_compat; lra.
  - exact SPAN.
  - exact Hrho.
  - intros x i Hx Hi. apply Rle_trans with (1 := ZB x i Hi). unfold B.
    apply Rle_trans with (sumf (seq 0 P) (fun k => Rabs (nthR q k)) + sumf (seq 0 P) (fun k => Rabs (x k - nthR q k))).
    + rewrite <- sumf_plus. apply sumf_le. intros k _. replace (x k) with (nthR q k + (x k - nthR q k)) at 1 by ring. apply Rabs_triang.
    + pose proof (norm1_nrm P (fun k => x k - nthR q k)) as N2. cbv beta in N2. rewrite N1.
      assert (sqrt (INR P) * nrm P (fun k => x k - nthR q k) <= sqrt (INR P) * rho) by (apply Rmult_le_compat_l; lra). lra.
  - fold g. apply Rle_lt_trans with (1 := GR).
    set (t := sqrt (INR P) * rho). assert (T0 : 0 < t) by (unfold t; apply Rmult_lt_0_compat; lra).
    assert (D2 : l1 < exp (- (4 * Q + t)) * (rho / (4 * INR n * sqrt (INR P)))).
    { apply Rlt_le_trans with (1 := HD). unfold pl_radius. fold P Q t. apply Rmult_le_compat; [left; apply exp_pos| |apply exp_le; lra|apply Rmin_r].
      apply Rmin_glb; [left; now apply Rinv_0_lt_compat, pow_lt; lra|]. left. apply Rdiv_lt_0_compat; [exact Hrho|apply Rmult_lt_0_compat; lra]. }
    assert (Pos : 0 < INR n * (exp Q * sqrt (INR P))) by (repeat apply Rmult_lt_0_compat; try apply exp_pos; lra).
    apply (Rmult_lt_compat_l (INR n * (exp Q * sqrt (INR P)))) in D2; [|exact Pos].
    replace (INR n * l1 * (exp Q * sqrt (INR P))) with (INR n * (exp Q * sqrt (INR P)) * l1) by ring.
    apply Rlt_trans with (1 := D2).
    assert (E1 : exp Q * exp (- (4 * Q + t)) = exp (- B) * exp (- 2 * Q)) by (rewrite <- !exp_plus; f_equal; unfold B, t; ring).
    replace (INR n * (exp Q * sqrt (INR P)) * (exp (- (4 * Q + t)) * (rho / (4 * INR n * sqrt (INR P))))) with (exp Q * exp (- (4 * Q + t)) * rho / 4) by (field; lra).
    rewrite E1. replace (exp (- B) * (om * 2 ^ n) * rho) with (exp (- B) * exp (- 2 * Q) * rho / 2) by (unfold om; cbn [pow]; field; lra).
    assert (0 < exp (- B) * exp (- 2 * Q) * rho) by (repeat apply Rmult_lt_0_compat; try apply exp_pos; lra). lra.
  - assert (OBJ : forall y, spin_flow n rows (map y (seq 0 P)) = ex_obj L w A P y).
    { intros y. unfold ex_obj. rewrite LS, sumf_swap. unfold spin_flow. fold St. apply sumf_ext_in. intros u Hu. rewrite <- sumf_scal_l. apply sumf_ext_in. intros r Hr. apply in_seq in Hr.
      unfold w. cbn [fst]. fold (freq u). f_equal. f_equal. unfold ex_z. rewrite IPA by lia.
      pose proof (flow_z (map y (seq 0 P)) r u ltac:(lia) Hu) as FZ. unfold E, flip in FZ. rewrite <- FZ. f_equal. f_equal.
      apply map_ext_in. intros k Hk. apply nthR_map_seq. apply (ising_ix_range n r k ltac:(lia)) in Hk. exact Hk. }
    assert (VEC : forall p, length p = P -> map (nthR p) (seq 0 P) = p) by (intros p Lp; exact (vec_nthR n Hn p Lp)).
    exists (map x (seq 0 P)). split; [now rewrite map_length, seq_length|]. split.
    + rewrite (dist2_nrm n Hn _ q Hq). fold P. rewrite (nrm_ext P _ (fun k => x k - nthR q k)); [exact X1|]. intros k Hk. now rewrite nthR_map_seq.
    + intros p Lp. rewrite <- (VEC p Lp) at 1 2. rewrite !OBJ. split; [apply X2|].
      intros Hle. rewrite <- (VEC p Lp). apply map_ext_in. intros k Hk. apply in_seq in Hk. apply (X3 _ Hle). lia.
Qed.
End Flow.
