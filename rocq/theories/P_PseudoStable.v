(** * Pseudolikelihood of data whose frequencies are nearly the probabilities of a model. *)
From Coquelicot Require Import Coquelicot.
From Verif Require Import Prelude Spec PreludeFacts M_Index M_Params M_Energy M_Corr M_Pseudo P_Index P_Unravel P_Energy P_Energy2 P_Params P_Unique P_MPF P_MaxEnt
  P_Corr2 P_Pseudo P_Pseudo2 P_Pseudo3 P_Descent P_Stable P_Logistic Props_MCHDescent Props_Stable.
Import ListNotations.

(** Every parameter belongs to some spin. *)
Lemma ising_ix_cover n k : k < n + n * (n - 1) / 2 -> exists r, r < n /\ In k (ising_ix n r).
Proof.
  intros Hk. destruct (Nat.ltb_spec k n) as [H|H]; [exists k; split; [exact H|now left]|].
  destruct (nth_error (pairs (seq 0 n)) (k - n)) as [[i j]|] eqn:E.
  - assert (Hij : In (i, j) (pairs (seq 0 n))) by (eapply nth_error_In; eassumption). apply in_pairs_seq in Hij.
    exists i. split; [lia|]. right. apply in_map_iff. exists j. split; [|apply in_others; lia].
    assert (Pi := pair_index_spec n i j ltac:(lia) ltac:(lia)). assert (ND := NoDup_pairs_seq 0 n). rewrite NoDup_nth_error in ND.
    unfold pix. destruct (Nat.ltb_spec j i); [lia|].
    assert (Q : pair_index n i j = k - n); [|lia]. apply ND; [apply nth_error_Some; congruence|congruence].
  - apply nth_error_None in E. rewrite pairs_seq_length in E. lia.
Qed.

Local Open Scope R_scope.

Lemma sumf_incl_le {A} (f : A -> R) : (forall a, 0 <= f a) -> forall l l', NoDup l -> incl l l' -> sumf l f <= sumf l' f.
Proof.
  intros Hf. induction l as [|a l IH]; intros l' ND Hi; [rewrite sumf_nil; now apply sumf_nonneg|].
  destruct (in_split a l' (Hi a (or_introl eq_refl))) as (l1 & l2 & ->). rewrite sumf_app, !sumf_cons. inversion_clear ND as [|? ? N1 N2].
  assert (H : sumf l f <= sumf (l1 ++ l2) f).
  { apply IH; [exact N2|]. intros b Hb. assert (X := Hi b (or_intror Hb)). apply in_app_iff in X. apply in_app_iff.
    destruct X as [X|[X|X]]; [now left| |now right]. subst b. contradiction. }
  rewrite sumf_app in H. lra.
Qed.

Lemma norm1_nrm K v : sumf (seq 0 K) (fun k => Rabs (v k)) <= sqrt (INR K) * nrm K v.
Proof.
  unfold nrm. rewrite <- sqrt_mult by (try apply ip_nonneg; apply pos_INR).
  rewrite <- (sqrt_square (sumf (seq 0 K) (fun k => Rabs (v k)))) by (apply sumf_nonneg; intros; apply Rabs_pos).
  apply sqrt_le_1_alt. apply Rle_trans with (1 := square_sum _ _). rewrite seq_length. right. f_equal. unfold ip. apply sumf_ext. intros k.
  rewrite <- Rabs_mult. apply Rabs_pos_eq, Rle_0_sqr.
Qed.

(** ** The conditional energies of one spin *)
Section Spin.
Variables n r : nat.
Hypothesis Hr : (r < n)%nat.
Let m := (n + n * (n - 1) / 2)%nat.
Let St := all_states [-1; 1]%Z n.
Let ob (u : list Z) : list R := pseudo_ising_calc_observables_r n r (map IZR u).
Let flip (u : list Z) : list Z := upd u r (- nth r u 0)%Z.

Lemma ob_scatter y : length y = n -> exists p, length p = m /\ map (nthR p) (ising_ix n r) = y.
Proof using Hr.
  intros Hy. destruct (P_Pseudo.scatter_spec (repeat 0 m) (ising_ix n r) y) as (p & _ & L & H & _).
  - rewrite ising_ix_length by assumption. now symmetry.
  - now apply ising_ix_NoDup.
  - intros i Hi. rewrite repeat_length. now apply (ising_ix_range n r).
  - exists p. rewrite repeat_length in L. split; [exact L|]. apply (nth_ext _ _ 0 0); [now rewrite map_length, ising_ix_length|].
    intros k Hk. rewrite map_length in Hk. specialize (H k Hk). rewrite (nth_indep _ 0 (nthR p 0)) by (now rewrite map_length). now rewrite map_nth.
Qed.

Lemma ob_entry u k : In u St -> (k < n)%nat -> Rabs (nthR (ob u) k) <= 1.
Proof using Hr.
  intros Hu Hk. destruct (St_spin n u Hu) as [L V].
  assert (B : forall i, Rabs (nthR (map IZR u) i) <= 1).
  { intros i. destruct (Nat.ltb_spec i n) as [H|H].
    - destruct (spin_nth n (map IZR u) i (conj L V) H) as [-> | ->]; [rewrite Rabs_R1; lra|rewrite Rabs_left by lra; lra].
    - unfold nthR. rewrite nth_overflow by lia. rewrite Rabs_R0. lra. }
  assert (I : In (nthR (ob u) k) (ob u)) by (apply nth_In; unfold ob; now rewrite ising_obs_r_length).
  revert I. generalize (nthR (ob u) k). intros x [<-|I]; [apply B|]. apply in_map_iff in I. destruct I as ([i j] & <- & _). cbn [fst snd].
  rewrite Rabs_mult. pose proof (B i). pose proof (B j). pose proof (Rabs_pos (nthR (map IZR u) i)). pose proof (Rabs_pos (nthR (map IZR u) j)). nra.
Qed.

Lemma ob_bound u y : In u St -> length y = n -> Rabs (dot (ob u) y) <= sumf y Rabs.
Proof using Hr.
  intros Hu Hy. rewrite (dot_seq _ _ n) by (auto; unfold ob; now rewrite ising_obs_r_length). apply Rle_trans with (1 := sumf_abs_le _ _).
  rewrite <- (sumf_seq_nth 0 y Rabs), Hy. apply sumf_le. intros k Hk. apply in_seq in Hk. rewrite Rabs_mult.
  pose proof (ob_entry u k Hu ltac:(lia)). pose proof (Rabs_pos (nthR y k)). fold (nthR y k). nra.
Qed.

Lemma ob_flip u y : In u St -> length y = n -> dot (ob (flip u)) y = - dot (ob u) y.
Proof using Hr.
  intros Hu Hy. destruct (ob_scatter y Hy) as (p & Lp & <-). destruct (St_spec n u Hu) as [L _]. unfold ob, flip.
  rewrite !ising_dot by (auto; rewrite map_length, ?upd_length; exact L). rewrite !nth_IZR, upd_nth_gen by lia. rewrite Nat.eqb_refl, opp_IZR.
  rewrite Ropp_mult_distr_l_reverse. do 2 f_equal. unfold local_field. f_equal. apply sumf_ext_in. intros i Hi. apply in_others in Hi. f_equal.
  rewrite !nth_IZR, upd_nth_gen by lia. destruct (Nat.eqb_spec r i); [lia|reflexivity].
Qed.

Lemma ob_span y : length y = n -> sumf St (fun u => dot (ob u) y * dot (ob u) y) = 2 ^ n * sumf y (fun x => x * x).
Proof using Hr.
  intros Hy. destruct (ob_scatter y Hy) as (p & Lp & Ey).
  set (v := map (fun i => if Nat.eqb i r then 0 else coupling n p r i) (seq 0 n)).
  assert (Lv : length v = n) by (unfold v; now rewrite map_length, seq_length).
  assert (A : forall s : list R, length s = n -> local_field n p s r = nthR p r + dot s v).
  { intros s Hs. unfold local_field. f_equal. rewrite (dot_seq s v n) by assumption. unfold others. rewrite sumf_filter. apply sumf_ext_in. intros i Hi. apply in_seq in Hi.
    unfold v. rewrite nthR_map_seq by lia. destruct (Nat.eqb_spec i r); cbn [negb]; ring. }
  rewrite (sumf_ext_in St _ (fun u => (nthR p r + dot (map IZR u) v) * (nthR p r + dot (map IZR u) v))).
  - assert (Hn : (0 < n)%nat) by lia. unfold St. rewrite (st_sum n Hn (fun s => (nthR p r + dot s v) * (nthR p r + dot s v))), Props_Models.ising_states_all, linear_square by assumption.
    f_equal. rewrite <- Ey. unfold ising_ix. cbn [map]. rewrite sumf_cons. f_equal. unfold v. rewrite !sumf_map. unfold others. rewrite sumf_filter.
    apply sumf_ext_in. intros i Hi. apply in_seq in Hi. destruct (Nat.eqb_spec i r); cbn [negb]; [ring|]. now rewrite pix_coupling.
  - intros u Hu. destruct (St_spin n u Hu) as [L V]. rewrite <- Ey. unfold ob. rewrite ising_dot by assumption. rewrite A by assumption.
    destruct (spin_nth n (map IZR u) r (conj L V) Hr) as [-> | ->]; ring.
Qed.

(** With the probabilities of the model as weights the gradient vanishes. *)
Lemma ob_exact q y : length q = m -> length y = n ->
  sumf St (fun u => exp (- ising_energy n q (map IZR u)) * (sg (2 * - dot (ob u) (map (nthR q) (ising_ix n r))) * (2 * - dot (ob u) y))) = 0.
Proof using Hr.
  intros Hq Hy. set (E := fun u => ising_energy n q (map IZR u)). set (f := fun u => _ * (_ * _)).
  assert (F : sumf St (fun u => f (flip u)) = sumf St f).
  { apply (sumf_flip St 1 (fun _ => flip) ltac:(apply all_states_NoDup; repeat constructor; cbn; intuition discriminate) (fun i s _ Hs => flip_ok n q Hq r Hr s Hs) 0 f). lia. }
  assert (G : forall u, In u St -> f (flip u) = - f u).
  { intros u Hu. destruct (flip_ok n q Hq r Hr u Hu) as [Hf Hff]. change (In (flip u) St) in Hf. change (flip (flip u) = u) in Hff.
    assert (S : forall u, In u St -> exp (- E u) * sg (2 * - dot (ob u) (map (nthR q) (ising_ix n r))) = exp (- E u) * exp (- E (flip u)) / (exp (- E u) + exp (- E (flip u)))).
    { clear u Hu Hf Hff. intros u Hu. pose proof (softplus_cond n r q (map IZR u) Hr (St_spin n u Hu) Hq) as C. fold (ob u) in C. rewrite (cond_cpair n q Hq q r u Hr Hu) in C.
      set (t := 2 * - dot (ob u) (map (nthR q) (ising_ix n r))) in *. unfold cpair in C. fold (flip u) in C.
      change (ising_energy n q (map IZR u)) with (E u) in C. change (ising_energy n q (map IZR (flip u))) with (E (flip u)) in C.
      pose proof (exp_pos (- E u)) as P1. pose proof (exp_pos (- E (flip u))) as P2. pose proof (exp_pos t) as P3.
      rewrite <- ln_Rinv in C by (apply Rdiv_lt_0_compat; lra). unfold softplus in C.
      apply ln_inv in C; [|lra|apply Rinv_0_lt_compat, Rdiv_lt_0_compat; lra].
      assert (X : exp t = exp (- E (flip u)) / exp (- E u)) by (replace (exp t) with (1 + exp t - 1) by ring; rewrite C; field; lra).
      unfold sg. rewrite X. field. lra. }
    pose proof (S u Hu) as S1. pose proof (S (flip u) Hf) as S2. rewrite Hff in S2. unfold f. fold (E u) (E (flip u)).
    rewrite <- !Rmult_assoc. rewrite S1, S2. rewrite ob_flip by assumption.
    pose proof (exp_pos (- E u)) as P1. pose proof (exp_pos (- E (flip u))) as P2. field. lra. }
  rewrite (sumf_ext_in St _ (fun u => - f u) G), sumf_opp in F. lra.
Qed.
End Spin.

(** ** Data near a model *)
Section Near.
Variables (n : nat) (q : list R) (sample : list (list Z)).
Hypothesis Hn : (0 < n)%nat.
Let P := (n + n * (n - 1) / 2)%nat.
Hypothesis Hq : length q = P.
Let St := all_states [-1; 1]%Z n.
Hypothesis Hne : sample <> [].
Hypothesis Hrows : forall s, In s sample -> In s St.
Let E := fun s : list Z => ising_energy n q (map IZR s).
Let pi := boltzmann E St.
Let freq (s : list Z) : R := INR (count_occ rows_dec sample s) / INR (length sample).
Definition pl_l1 : R := sumf St (fun s => Rabs (freq s - pi s)).
Let Q := sumf q Rabs.
Variable rho : R.
Hypothesis Hrho : 0 < rho.
Definition pl_radius : R := exp (- (4 * Q + 2 * (sqrt (INR P) * rho))) * Rmin (/ 2 ^ S n) (rho / (4 * INR n * sqrt (INR P))).
Hypothesis HD : pl_l1 < pl_radius.
Let ob (r : nat) (u : list Z) : list R := pseudo_ising_calc_observables_r n r (map IZR u).
Let om := exp (- 2 * Q) / 2 ^ S n.
Let B := 2 * (Q + sqrt (INR P) * rho).

Lemma Q_nonneg : 0 <= Q.
Proof. apply sumf_nonneg. intros; apply Rabs_pos. Qed.

Lemma P_ge1 : 1 <= INR P.
Proof using Hn. apply (le_INR 1). unfold P. clear - Hn. lia. Qed.

Lemma sqrtP_ge1 : 1 <= sqrt (INR P).
Proof using Hn. rewrite <- sqrt_1. apply sqrt_le_1_alt, P_ge1. Qed.

Lemma pi_low s : In s St -> exp (- 2 * Q) / 2 ^ n <= pi s.
Proof using Hn Hq.
  intros Hs. assert (N1 : sumf (seq 0 P) (fun k => Rabs (nthR q k)) = Q) by (unfold Q; now rewrite <- (sumf_seq_nth 0 q Rabs), Hq).
  pose proof (prob_low n Hn s (nthR q) Q Hs (Req_le _ _ N1)) as L. cbv beta in L. fold P in L.
  apply Rle_trans with (1 := L). right. assert (V : map (nthR q) (seq 0 P) = q) by (apply (vec_nthR n Hn q Hq)). rewrite V.
  assert (EE : forall s, In s St -> exp (dot (ising_obs (map IZR s)) q) = exp (- E s)).
  { intros u Hu. unfold E. rewrite ising_energy_dot by (auto; rewrite map_length; now apply (St_spec n u Hu)). f_equal. ring. }
  unfold pi, boltzmann, partition. fold St. rewrite (EE s Hs). f_equal. apply (sumf_ext_in St). exact EE.
Qed.

Lemma freq_low s : In s St -> om <= freq s.
Proof using Hn Hq HD Hrho.
  intros Hs. pose proof (pi_low s Hs) as L.
  assert (D : Rabs (freq s - pi s) <= pl_l1) by (apply (sumf_in_le St (fun s => Rabs (freq s - pi s)) s); [intros; apply Rabs_pos|exact Hs]).
  assert (R1 : pl_radius <= om).
  { unfold pl_radius, om, Rdiv. apply Rmult_le_compat; [left; apply exp_pos| | |apply Rmin_l].
    - apply Rmin_glb; [left; apply Rinv_0_lt_compat, pow_lt; lra|]. pose proof sqrtP_ge1. assert (0 < INR n) by now apply lt_0_INR.
      left. apply Rmult_lt_0_compat; [exact Hrho|apply Rinv_0_lt_compat; apply Rmult_lt_0_compat; lra].
    - pose proof Q_nonneg. assert (X : 0 <= sqrt (INR P) * rho) by (apply Rmult_le_pos; [apply sqrt_pos|lra]).
      destruct (Rle_lt_or_eq_dec (- (4 * Q + 2 * (sqrt (INR P) * rho))) (- 2 * Q) ltac:(lra)) as [Y|Y]; [left; now apply exp_increasing|right; now rewrite Y]. }
  assert (O2 : exp (- 2 * Q) / 2 ^ n = 2 * om) by (unfold om; cbn [pow]; field; apply pow_nonzero; lra).
  pose proof (Rle_abs (- (freq s - pi s))) as A. rewrite Rabs_Ropp in A. lra.
Qed.

Lemma om_pos : 0 < om.
Proof. unfold om. apply Rdiv_lt_0_compat; [apply exp_pos|apply pow_lt; lra]. Qed.

Lemma freq_total : sumf St freq = 1.
Proof using Hne Hrows.
  unfold freq. rewrite (sumf_ext St _ (fun s => INR (count_occ rows_dec sample s) * / INR (length sample))) by reflexivity. rewrite sumf_scal_r.
  rewrite (sumf_ext St _ (fun s => INR (count_occ rows_dec sample s) * 1)) by (intros; ring).
  rewrite <- (sumf_count sample St (fun _ => 1)); [|apply all_states_NoDup; repeat constructor; cbn; intuition discriminate|exact Hrows].
  rewrite sumf_const. field. apply not_0_INR. intros H0. apply length_zero_iff_nil in H0. now apply Hne.
Qed.

(** The objective of the code, divided by the number of samples. *)
Lemma sample_obj (f : list Z -> R) : sumf sample f = INR (length sample) * sumf St (fun s => freq s * f s).
Proof using Hne Hrows.
  rewrite (sumf_count sample St f); [|apply all_states_NoDup; repeat constructor; cbn; intuition discriminate|exact Hrows].
  rewrite <- sumf_scal_l. apply sumf_ext. intros s. unfold freq. field. apply not_0_INR. intros H0. apply length_zero_iff_nil in H0. now apply Hne.
Qed.

(** *** A list of spins at a time: [L] pairs states with spins, [z] are linear forms. *)
Section Items.
Variables (K : nat) (spins : list nat) (A : list Z * nat -> nat -> R) (y : (nat -> R) -> nat -> list R) (a : nat -> R).
Hypothesis HK : (0 < K)%nat.
Hypothesis KP : (K <= P)%nat.
Hypothesis Hsp : forall r, In r spins -> (r < n)%nat.
Hypothesis Sn : spins <> [].
Hypothesis Sl : (length spins <= n)%nat.
Hypothesis Ly : forall x r, In r spins -> length (y x r) = n.
Hypothesis Hz : forall x u r, In u St -> In r spins -> ip K (A (u, r)) x = 2 * - dot (ob r u) (y x r).
Hypothesis Hy1 : forall x r, In r spins -> sumf (y x r) Rabs <= sumf (seq 0 K) (fun k => Rabs (x k)).
Hypothesis Hy2 : forall v, ip K v v <= sumf spins (fun r => sumf (y v r) (fun t => t * t)).
Hypothesis Hya : forall r, In r spins -> y a r = map (nthR q) (ising_ix n r).
Hypothesis Ha : sumf (seq 0 K) (fun k => Rabs (a k)) <= Q.
Let L := list_prod St spins.
Let w (i : list Z * nat) : R := freq (fst i).

Lemma L_sum (f : list Z * nat -> R) : sumf L f = sumf spins (fun r => sumf St (fun u => f (u, r))).
Proof.
  unfold L. rewrite sumf_swap. generalize St. intros l. induction l as [|u l IH]; [reflexivity|]. cbn [list_prod]. rewrite sumf_app, sumf_cons, IH, sumf_map. reflexivity.
Qed.

Lemma L_in i : In i L -> In (fst i) St /\ In (snd i) spins.
Proof. destruct i as [u r]. intros H. apply in_prod_iff in H. exact H. Qed.

Lemma freq_nonneg s : 0 <= freq s.
Proof.
  unfold freq. apply Rdiv_le_0_compat; [apply pos_INR|]. apply lt_0_INR, Nat.neq_0_lt_0. intros H0. apply length_zero_iff_nil in H0. now apply Hne.
Qed.

Lemma items_near : exists x, nrm K (fun k => x k - a k) < rho /\ (forall x', lg_obj L w A K x <= lg_obj L w A K x') /\
  forall x', lg_obj L w A K x' <= lg_obj L w A K x -> forall k, (k < K)%nat -> x' k = x k.
Proof using Hn Hq HD Hrho Hne Hrows HK KP Hsp Sn Sl Ly Hz Hy1 Hy2 Hya Ha.
  assert (W0 : forall i, In i L -> 0 <= w i) by (intros; apply freq_nonneg).
  assert (P2 : 0 < 2 ^ n) by (apply pow_lt; lra). assert (Om := om_pos). assert (Sq1 := sqrtP_ge1). assert (Pp := P_ge1).
  assert (SK : sqrt (INR K) <= sqrt (INR P)) by (apply sqrt_le_1_alt, le_INR, KP).
  assert (WT : sumf L w = INR (length spins)).
  { rewrite L_sum. unfold w. cbn [fst]. rewrite (sumf_ext spins _ (fun _ => 1)) by (intros; apply freq_total). rewrite sumf_const. ring. }
  assert (SP : 1 <= INR (length spins)) by (apply (le_INR 1); destruct spins; [congruence|cbn; lia]).
  assert (ZB : forall x i, In i L -> Rabs (lg_z A K x i) <= 2 * sumf (seq 0 K) (fun k => Rabs (x k))).
  { intros x i Hi. destruct (L_in i Hi) as [Hu Hs]. destruct i as [u r]. cbn [fst snd] in *. unfold lg_z. rewrite Hz by assumption.
    rewrite Rabs_mult, Rabs_Ropp, (Rabs_pos_eq 2) by lra. pose proof (ob_bound n r (Hsp r Hs) u (y x r) Hu (Ly x r Hs)) as H1. change (Rabs (dot (ob r u) (y x r)) <= sumf (y x r) Rabs) in H1. pose proof (Hy1 x r Hs). lra. }
  assert (SPAN : forall v, om * 4 * 2 ^ n * ip K v v <= sumf L (fun i => w i * (lg_z A K v i * lg_z A K v i))).
  { intros v. apply Rle_trans with (om * 4 * 2 ^ n * sumf spins (fun r => sumf (y v r) (fun t => t * t))).
    { apply Rmult_le_compat_l; [|apply Hy2]. assert (0 < om * 4) by lra. nra. }
    rewrite L_sum, <- sumf_scal_l. apply sumf_le. intros r Hr0. pose proof (ob_span n r (Hsp r Hr0) (y v r) (Ly v r Hr0)) as S.
    change (sumf St (fun u => dot (ob r u) (y v r) * dot (ob r u) (y v r)) = 2 ^ n * sumf (y v r) (fun t => t * t)) in S.
    rewrite (Rmult_assoc (om * 4)), <- S, <- sumf_scal_l. apply sumf_le. intros u Hu. unfold w, lg_z. cbn [fst]. rewrite Hz by assumption. fold (ob r u).
    pose proof (freq_low u Hu) as F. pose proof (Rle_0_sqr (dot (ob r u) (y v r))) as G. unfold Rsqr in G. nra. }
  assert (GR : nrm K (lg_grad L w A K a) <= INR n * pl_l1 * (2 * sqrt (INR P))).
  { set (g := lg_grad L w A K a). assert (D0 : 0 <= pl_l1) by (apply sumf_nonneg; intros; apply Rabs_pos).
    assert (Ng := nrm_nonneg K g).
    assert (G : ip K g g <= INR n * pl_l1 * (2 * sqrt (INR P)) * nrm K g).
    { unfold g at 1. rewrite lg_grad_ip, L_sum. unfold w. cbn [fst].
      apply Rle_trans with (sumf spins (fun _ => pl_l1 * (2 * sqrt (INR P) * nrm K g))).
      - apply sumf_le. intros r Hr0.
        assert (Z : sumf St (fun u => pi u * (sg (lg_z A K a (u, r)) * lg_z A K g (u, r))) = 0).
        { pose proof (ob_exact n r (Hsp r Hr0) q (y g r) Hq (Ly g r Hr0)) as X.
          rewrite (sumf_ext_in St _ (fun u => / partition E St * (exp (- ising_energy n q (map IZR u)) * (sg (2 * - dot (ob r u) (map (nthR q) (ising_ix n r))) * (2 * - dot (ob r u) (y g r)))))).
          - rewrite sumf_scal_l. apply Rmult_eq_0_compat_l. exact X.
          - intros u Hu. unfold lg_z. rewrite !Hz by assumption. rewrite Hya by assumption. unfold pi, boltzmann, E, Rdiv. ring. }
        rewrite <- (Rminus_0_r (sumf St _)), <- Z, <- sumf_minus. unfold pl_l1. rewrite <- sumf_scal_r. apply sumf_le. intros u Hu.
        rewrite <- Rmult_minus_distr_r.
        apply Rle_trans with (1 := Rle_abs _). rewrite Rabs_mult. apply Rmult_le_compat_l; [apply Rabs_pos|]. rewrite Rabs_mult.
        assert (S1 : Rabs (sg (lg_z A K a (u, r))) <= 1).
        { unfold sg. set (t := lg_z A K a (u, r)). pose proof (exp_pos t). rewrite Rabs_pos_eq by (apply Rdiv_le_0_compat; lra).
          apply (Rmult_le_reg_r (1 + exp t)); [lra|]. unfold Rdiv. rewrite Rmult_assoc, Rinv_l; lra. }
        pose proof (ZB g (u, r) ltac:(apply in_prod; assumption)) as Zg. pose proof (norm1_nrm K g) as Ngg.
        assert (Zg2 : Rabs (lg_z A K g (u, r)) <= 2 * sqrt (INR P) * nrm K g).
        { assert (sqrt (INR K) * nrm K g <= sqrt (INR P) * nrm K g) by (apply Rmult_le_compat_r; assumption). lra. }
        pose proof (Rabs_pos (lg_z A K g (u, r))). pose proof (Rabs_pos (sg (lg_z A K a (u, r)))). nra.
      - rewrite sumf_const. replace (INR n * pl_l1 * (2 * sqrt (INR P)) * nrm K g) with (INR n * (pl_l1 * (2 * sqrt (INR P) * nrm K g))) by ring.
        apply Rmult_le_compat_r; [apply Rmult_le_pos; [exact D0|apply Rmult_le_pos; lra]|apply le_INR, Sl]. }
    rewrite <- nrm_sqr in G. destruct (Req_dec (nrm K g) 0) as [Z|Z].
    - rewrite Z. apply Rmult_le_pos; [apply Rmult_le_pos; [apply pos_INR|exact D0]|lra].
    - apply (Rmult_le_reg_r (nrm K g)); [lra|exact G]. }
  set (M := 1 + sumf L (fun i => ip K (A i) (A i))).
  assert (M0 : 0 <= sumf L (fun i => ip K (A i) (A i))) by (apply sumf_nonneg; intros; apply ip_nonneg).
  destruct (lg_minimum_near L w A K W0 M) with (kap := om * 4 * 2 ^ n) (a := a) (rho := rho) (B := B) as (x & H1 & H2 & H3).
  - intros i Hi. pose proof (sumf_in_le L (fun i => ip K (A i) (A i)) i (fun b _ => ip_nonneg K _) Hi). cbn beta in *. unfold M. lra.
  - rewrite WT. apply Rmult_lt_0_compat; unfold M; lra.
  - apply Rmult_lt_0_compat; lra.
  - exact SPAN.
  - exact Hrho.
  - intros x i Hx Hi. apply Rle_trans with (1 := ZB x i Hi). unfold B. apply Rmult_le_compat_l; [lra|].
    apply Rle_trans with (sumf (seq 0 K) (fun k => Rabs (a k)) + sumf (seq 0 K) (fun k => Rabs (x k - a k))).
    + rewrite <- sumf_plus. apply sumf_le. intros k _. replace (x k) with (a k + (x k - a k)) at 1 by ring. apply Rabs_triang.
    + pose proof (norm1_nrm K (fun k => x k - a k)) as N1. cbv beta in N1.
      assert (sqrt (INR K) * nrm K (fun k => x k - a k) <= sqrt (INR P) * rho).
      { apply Rmult_le_compat; [apply sqrt_pos|apply nrm_nonneg|exact SK|exact Hx]. }
      lra.
  - apply Rle_lt_trans with (1 := GR).
    assert (Np : 1 <= INR n) by (apply (le_INR 1); lia).
    assert (D2 : pl_l1 < exp (- (4 * Q + 2 * (sqrt (INR P) * rho))) * (rho / (4 * INR n * sqrt (INR P)))).
    { apply Rlt_le_trans with (1 := HD). unfold pl_radius. apply Rmult_le_compat_l; [left; apply exp_pos|apply Rmin_r]. }
    assert (Pos : 0 < 2 * INR n * sqrt (INR P)) by (apply Rmult_lt_0_compat; lra).
    apply (Rmult_lt_compat_l (2 * INR n * sqrt (INR P))) in D2; [|exact Pos].
    assert (E1 : exp (- (4 * Q + 2 * (sqrt (INR P) * rho))) = exp (- B) * exp (- 2 * Q)) by (rewrite <- exp_plus; f_equal; unfold B; ring).
    rewrite E1 in D2.
    replace (2 * INR n * sqrt (INR P) * (exp (- B) * exp (- 2 * Q) * (rho / (4 * INR n * sqrt (INR P))))) with (exp (- B) * exp (- 2 * Q) * rho / 2) in D2 by (field; lra).
    replace (exp (- B) / 4 * (om * 4 * 2 ^ n) * rho) with (exp (- B) * exp (- 2 * Q) * rho / 2) by (unfold om; cbn [pow]; field; lra). lra.
  - exists x. auto.
Qed.
End Items.
End Near.
