(** * Mean field inversion and RegularizedMeanField. *)
From Coq Require Import Permutation.
From Verif Require Import Prelude PreludeFacts Spec Spec2 M_Index M_Params M_MeanField M_Cluster M_RMF P_Index P_Energy P_Params P_Enum P_MaxEnt
  P_MeanField P_MeanField2 P_MeanField3 P_Cluster4 P_Cluster5.
Import ListNotations.
Local Open Scope R_scope.

(** ** argmin *)
Lemma argmin_from_ok L : forall l pre best v, L = pre ++ l -> (best < length pre)%nat -> v = nthR L best ->
  (forall j, (j < length pre)%nat -> v <= nthR L j) -> (forall j, (j < best)%nat -> v < nthR L j) ->
  let r := argmin_from l (length pre) best v in
  (r < length L)%nat /\ (forall j, (j < length L)%nat -> nthR L r <= nthR L j) /\ (forall j, (j < r)%nat -> nthR L r < nthR L j).
Proof.
  induction l as [|x l IH]; intros pre best v EL Hb Ev H1 H2.
  - cbn [argmin_from]. rewrite app_nil_r in EL. subst L v. auto.
  - cbn [argmin_from].
    assert (Ex : nthR L (length pre) = x) by (rewrite EL; unfold nthR; rewrite app_nth2, Nat.sub_diag by lia; reflexivity).
    assert (EL' : L = (pre ++ [x]) ++ l) by (rewrite <- app_assoc; exact EL).
    assert (Ll : Datatypes.S (length pre) = length (pre ++ [x])) by (rewrite app_length; cbn; lia).
    destruct (Rlt_dec x v) as [Lt|Ge]; rewrite Ll.
    + apply (IH (pre ++ [x]) (length pre) x EL'); [lia|now symmetry| |].
      * intros j Hj. rewrite <- Ll in Hj. destruct (Nat.eq_dec j (length pre)) as [->|]; [lra|]. specialize (H1 j ltac:(lia)). lra.
      * intros j Hj. specialize (H1 j Hj). lra.
    + apply (IH (pre ++ [x]) best v EL'); [lia|assumption| |assumption].
      intros j Hj. rewrite <- Ll in Hj. destruct (Nat.eq_dec j (length pre)) as [->|]; [lra|]. apply H1. lia.
Qed.

Lemma argmin_ok l : l <> [] -> exists k, argmin l = Ok k /\ (k < length l)%nat /\
  (forall j, (j < length l)%nat -> nthR l k <= nthR l j) /\ (forall j, (j < k)%nat -> nthR l k < nthR l j).
Proof.
  intros H. destruct l as [|x l]; [congruence|]. eexists. split; [reflexivity|].
  apply (argmin_from_ok (x :: l) l [x] 0 x); [reflexivity|cbn; lia|reflexivity| |intros; lia].
  intros j Hj. replace j with 0%nat by (cbn in Hj; lia). unfold nthR. cbn. lra.
Qed.

(** ** Linear algebra with sums *)
Definition delta (i j : nat) : R := if Nat.eqb i j then 1 else 0.

Lemma delta_sum n (g : nat -> R) i : (i < n)%nat -> sumf (range n) (fun k => delta i k * g k) = g i.
Proof.
  intros Hi. unfold range. transitivity (sumf (seq 0 n) (fun k => if Nat.eq_dec i k then g k else 0)).
  - apply sumf_ext. intros k. unfold delta. destruct (Nat.eq_dec i k) as [->|N]; [rewrite Nat.eqb_refl; ring|]. destruct (Nat.eqb_spec i k); [congruence|ring].
  - apply (sumf_indic Nat.eq_dec); [apply seq_NoDup|apply in_seq; lia].
Qed.

(** What an eigendecomposition of a symmetric matrix promises: the columns of [vq] are
    orthonormal (so are the rows) and M = V diag(mq) V^T. *)
Definition eigen (n : nat) (M : list (list R)) (mq : list R) (vq : list (list R)) : Prop :=
  length mq = n /\
  (forall k l, (k < n)%nat -> (l < n)%nat -> sumf (range n) (fun i => entry vq i k * entry vq i l) = delta k l) /\
  (forall i j, (i < n)%nat -> (j < n)%nat -> sumf (range n) (fun k => entry vq i k * entry vq j k) = delta i j) /\
  (forall i j, (i < n)%nat -> (j < n)%nat -> entry M i j = sumf (range n) (fun k => entry vq i k * (nthR mq k * entry vq j k))).

Lemma in_range n i : In i (range n) <-> (i < n)%nat.
Proof. unfold range. rewrite in_seq. lia. Qed.

Lemma delta_sym i j : delta i j = delta j i.
Proof. unfold delta. now rewrite Nat.eqb_sym. Qed.

(** M v_l = m_l v_l. *)
Lemma eigen_apply n M mq vq i l : eigen n M mq vq -> (i < n)%nat -> (l < n)%nat ->
  sumf (range n) (fun j => entry M i j * entry vq j l) = nthR mq l * entry vq i l.
Proof.
  intros (_ & H1 & H2 & H3) Hi Hl.
  rewrite (sumf_ext_in (range n) _ (fun j => sumf (range n) (fun k => entry vq i k * nthR mq k * (entry vq j k * entry vq j l)))).
  - rewrite sumf_swap.
    rewrite (sumf_ext_in (range n) _ (fun k => delta l k * (entry vq i k * nthR mq k))).
    + rewrite delta_sum by assumption. ring.
    + intros k Hk. apply in_range in Hk. rewrite sumf_scal_l, H1 by assumption. rewrite (delta_sym k l). ring.
  - intros j Hj. apply in_range in Hj. rewrite H3 by assumption. rewrite <- sumf_scal_r. apply sumf_ext. intros k. ring.
Qed.

Lemma eigen_trace n M mq vq : eigen n M mq vq -> sumf (range n) (fun i => entry M i i) = sumR mq.
Proof.
  intros (L & H1 & H2 & H3).
  rewrite (sumf_ext_in (range n) _ (fun i => sumf (range n) (fun k => nthR mq k * (entry vq i k * entry vq i k)))).
  - rewrite sumf_swap. rewrite (sumf_ext_in (range n) _ (fun k => nthR mq k)).
    + unfold sumR. rewrite <- (sumf_map (nthR mq) (range n) (fun x => x)). f_equal. subst n. unfold range, nthR. rewrite <- (map_as_seq (fun x => x) mq 0). apply map_id.
    + intros k Hk. apply in_range in Hk. rewrite sumf_scal_l, H1 by assumption. unfold delta. rewrite Nat.eqb_refl. ring.
  - intros i Hi. apply in_range in Hi. rewrite H3 by assumption. apply sumf_ext. intros k. ring.
Qed.

(** The identity has only the eigenvalue 1. *)
Lemma eigen_id n M mq vq : eigen n M mq vq -> (forall i j, (i < n)%nat -> (j < n)%nat -> entry M i j = delta i j) ->
  forall k, (k < n)%nat -> nthR mq k = 1.
Proof.
  intros HE HM k Hk. pose proof HE as (L & H1 & H2 & H3).
  assert (X : sumf (range n) (fun i => entry vq i k * sumf (range n) (fun j => entry M i j * entry vq j k)) = nthR mq k).
  - rewrite (sumf_ext_in (range n) _ (fun i => nthR mq k * (entry vq i k * entry vq i k))).
    + rewrite sumf_scal_l, H1 by assumption. unfold delta. rewrite Nat.eqb_refl. ring.
    + intros i Hi. apply in_range in Hi. rewrite (eigen_apply n M mq vq) by assumption. ring.
  - rewrite <- X. rewrite (sumf_ext_in (range n) _ (fun i => entry vq i k * entry vq i k)).
    + rewrite H1 by assumption. unfold delta. now rewrite Nat.eqb_refl.
    + intros i Hi. apply in_range in Hi. f_equal.
      rewrite (sumf_ext_in (range n) _ (fun j => delta i j * entry vq j k)) by (intros j Hj; apply in_range in Hj; now rewrite HM).
      now rewrite delta_sum.
Qed.

(** V diag(1/m) V^T inverts M. *)
Lemma eigen_inverse n M mq vq i l : eigen n M mq vq -> (forall k, (k < n)%nat -> nthR mq k <> 0) -> (i < n)%nat -> (l < n)%nat ->
  sumf (range n) (fun j => sumf (range n) (fun k => entry vq i k * (1 / nthR mq k * entry vq j k)) * entry M l j) = delta i l.
Proof.
  intros HE Hnz Hi Hl. pose proof HE as (L & H1 & H2 & H3).
  rewrite (sumf_ext_in (range n) _ (fun j => sumf (range n) (fun k => entry vq i k * (1 / nthR mq k) * (entry M l j * entry vq j k)))).
  - rewrite sumf_swap. rewrite (sumf_ext_in (range n) _ (fun k => entry vq i k * entry vq l k)).
    + apply H2; assumption.
    + intros k Hk. apply in_range in Hk. rewrite sumf_scal_l, (eigen_apply n M mq vq) by assumption. field. now apply Hnz.
  - intros j Hj. rewrite <- sumf_scal_r. apply sumf_ext. intros k. ring.
Qed.

Lemma inverse_unique n (A B M : nat -> nat -> R) :
  (forall i l, (i < n)%nat -> (l < n)%nat -> sumf (range n) (fun j => A i j * M j l) = delta i l) ->
  (forall i l, (i < n)%nat -> (l < n)%nat -> sumf (range n) (fun j => M i j * B j l) = delta i l) ->
  forall i l, (i < n)%nat -> (l < n)%nat -> A i l = B i l.
Proof.
  intros HA HB i l Hi Hl.
  assert (X : sumf (range n) (fun j => A i j * sumf (range n) (fun k => M j k * B k l)) =
              sumf (range n) (fun k => sumf (range n) (fun j => A i j * M j k) * B k l)).
  - rewrite (sumf_ext (range n) (fun j => A i j * _) (fun j => sumf (range n) (fun k => A i j * M j k * B k l))).
    + rewrite sumf_swap. apply sumf_ext. intros k. now rewrite <- sumf_scal_r.
    + intros j. rewrite <- sumf_scal_l. apply sumf_ext. intros k. ring.
  - rewrite (sumf_ext_in (range n) (fun j => A i j * _) (fun j => delta l j * A i j)) in X by (intros j Hj; apply in_range in Hj; rewrite HB, (delta_sym j l) by assumption; ring).
    rewrite (sumf_ext_in (range n) (fun k => _ * B k l) (fun k => delta i k * B k l)) in X by (intros j Hj; apply in_range in Hj; now rewrite HA by assumption).
    now rewrite !delta_sum in X by assumption.
Qed.

(** ** The regularised eigenvalue *)
Lemma mqhat_pos g x : 0 < g \/ g = 0 /\ 0 < x -> 0 < mqhat g x.
Proof.
  intros H. unfold mqhat. destruct H as [H|[-> H]].
  - assert (Rabs (x - g) < sqrt ((x - g) ^ 2 + 4 * g)).
    { rewrite <- sqrt_Rsqr_abs. pose proof (Rle_0_sqr (x - g)) as Q. apply sqrt_lt_1; unfold Rsqr in *; lra. }
    pose proof (Rle_abs (- (x - g))). rewrite Rabs_Ropp in *. lra.
  - replace ((x - 0) ^ 2 + 4 * 0) with (x²) by (unfold Rsqr; ring). rewrite sqrt_Rsqr by lra. lra.
Qed.

Lemma mqhat_root g x : 0 <= g -> mqhat g x ^ 2 - (x - g) * mqhat g x - g = 0.
Proof.
  intros H. unfold mqhat. pose proof (Rle_0_sqr (x - g)) as Q. pose proof (sqrt_sqrt ((x - g) ^ 2 + 4 * g) ltac:(unfold Rsqr in Q; lra)) as E. clear Q. set (s := sqrt _) in *.
  replace ((/ 2 * (x - g + s)) ^ 2 - (x - g) * (/ 2 * (x - g + s)) - g) with (/ 4 * (s * s - ((x - g) ^ 2 + 4 * g))) by field.
  rewrite E. ring.
Qed.

Lemma mqhat_0 x : 0 <= x -> mqhat 0 x = x.
Proof.
  intros H. unfold mqhat. replace ((x - 0) ^ 2 + 4 * 0) with (x²) by (unfold Rsqr; ring). rewrite sqrt_Rsqr by lra. lra.
Qed.

Lemma mqhat_1 g : 0 <= g -> mqhat g 1 = 1.
Proof.
  intros H. unfold mqhat. replace ((1 - g) ^ 2 + 4 * g) with ((1 + g)²) by (unfold Rsqr; ring). rewrite sqrt_Rsqr by lra. lra.
Qed.

(** Regularisation moves an eigenvalue towards 1, the value for independent spins. *)
Lemma mqhat_shrinks g x : 0 <= g -> 0 <= x -> (x <= 1 -> x <= mqhat g x <= 1) /\ (1 <= x -> 1 <= mqhat g x <= x).
Proof.
  intros Hg Hx.
  assert (L : forall a, 0 <= a -> a ^ 2 <= (x - g) ^ 2 + 4 * g -> a <= sqrt ((x - g) ^ 2 + 4 * g)).
  { intros a Ha H. rewrite <- (sqrt_Rsqr a Ha). apply sqrt_le_1_alt. unfold Rsqr. lra. }
  assert (U : forall a, 0 <= a -> (x - g) ^ 2 + 4 * g <= a ^ 2 -> sqrt ((x - g) ^ 2 + 4 * g) <= a).
  { intros a Ha H. rewrite <- (sqrt_Rsqr a Ha). apply sqrt_le_1_alt. unfold Rsqr. lra. }
  unfold mqhat. split; intros H1.
  - split.
    + pose proof (L (x + g) ltac:(lra) ltac:(nra)). lra.
    + pose proof (U (2 - x + g) ltac:(lra) ltac:(nra)). lra.
  - split.
    + destruct (Rle_dec 0 (2 - x + g)) as [P|P].
      * pose proof (L (2 - x + g) P ltac:(nra)). lra.
      * pose proof (sqrt_pos ((x - g) ^ 2 + 4 * g)). lra.
    + pose proof (U (x + g) ltac:(lra) ltac:(nra)). lra.
Qed.

Lemma ln_le_sub1 x : 0 < x -> ln x + 1 - x <= 0.
Proof. intros H. pose proof (exp_ineq1_le (ln x)) as E. rewrite exp_ln in E by assumption. lra. Qed.

Lemma Reqb_spec x y : reflect (x = y) (Reqb x y).
Proof. apply iff_reflect. symmetry. apply Reqb_eq. Qed.

(** ** SmeanField *)
Section SMF.
Variable eig : list (list R) -> list R * list (list R).
Variable inv : list (list R) -> list (list R).
Variable svdvals : list (list R) -> list R.

(** Co-occurrences of the cluster, read above the diagonal. *)
Definition cc_of (C : list (list R)) (cl : list nat) : list (list R) :=
  mk_mat (length cl) (length cl) (fun a b => entry C (nth (Nat.min a b) cl 0%nat) (nth (Nat.max a b) cl 0%nat)).

Lemma entry_cc C cl a b : (a < length cl)%nat -> (b < length cl)%nat ->
  entry (cc_of C cl) a b = entry C (nth (Nat.min a b) cl 0%nat) (nth (Nat.max a b) cl 0%nat).
Proof. intros. unfold cc_of. now rewrite entry_mk_mat. Qed.

Lemma entry_cc_diag C cl a : (a < length cl)%nat -> entry (cc_of C cl) a a = entry C (nth a cl 0%nat) (nth a cl 0%nat).
Proof. intros. rewrite entry_cc by assumption. now rewrite Nat.min_id, Nat.max_id. Qed.

Lemma zeroDiag_mk n f : zeroDiag (mk_mat n n f) = Ok (mk_mat n n (fun i j => if Nat.eqb i j then 0 else f i j)).
Proof.
  unfold zeroDiag. rewrite (replaceDiag_ok n) by (try apply mk_mat_sq; rewrite repeat_length; apply mk_mat_length). f_equal. apply mk_mat_ext.
  intros i j Hi Hj. rewrite mk_mat_length, entry_mk_mat by assumption. destruct (Nat.eqb i j); [|reflexivity]. unfold nthR. now apply nth_repeat.
Qed.

Definition independent_entropy (C : list (list R)) (cl : list nat) : R := sumf cl (fun x => binary_entropy (entry C x x)).

Lemma Sind_eq C cl : sumf (range (length cl)) (fun i => - entry (cc_of C cl) i i * ln (entry (cc_of C cl) i i) -
    (1 - entry (cc_of C cl) i i) * ln (1 - entry (cc_of C cl) i i)) = independent_entropy C cl.
Proof.
  unfold independent_entropy. transitivity (sumf (map (fun k => nth k cl 0%nat) (seq 0 (length cl))) (fun x => binary_entropy (entry C x x))).
  - rewrite sumf_map. apply sumf_ext_in. intros k Hk. apply in_range in Hk. rewrite entry_cc_diag by assumption. unfold binary_entropy. ring.
  - f_equal. rewrite <- (map_as_seq (fun x => x) cl 0%nat). apply map_id.
Qed.

Lemma SmeanField_ok N C cl lmbda ns (it ae ur : bool) JMF ent0 : sq N C -> (forall x, In x cl -> (x < N)%nat) -> NoDup cl -> cl <> [] ->
  let n := length cl in let cc := cc_of C cl in
  mf_couplings eig inv svdvals n cc (if it then independent_entropy C cl else 0) lmbda ns ur = Ok (JMF, ent0) -> 
  exists ent J Jc, SmeanField eig inv svdvals cl C lmbda ns it ae ur = Ok (ent, J) /\ sq N J /\ sq n Jc /\
    (ae = false -> ent = ent0) /\
    (ae = true -> ent = entropy (boltzmann (energy01 n Jc) (all_states [0; 1] n)) (all_states [0; 1] n)) /\
    (forall a b, (a < n)%nat -> (b < n)%nat -> entry J (nth a cl 0%nat) (nth b cl 0%nat) = entry Jc a b) /\
    (forall i j, (i < N)%nat -> (j < N)%nat -> ~ In i cl \/ ~ In j cl -> entry J i j = 0) /\
    (forall a b, (a < n)%nat -> (b < n)%nat -> a <> b -> entry Jc a b = / 2 * entry JMF a b) /\
    (forall a, (a < n)%nat -> let f := fun a => entry C (nth a cl 0%nat) (nth a cl 0%nat) in
       entry Jc a a = sumf (range n) (fun b => entry JMF a b * ((entry cc a b - f a * f b) * ((f a - / 2) / (f a * (1 - f a))) - f b))
                     - (if it then ln (f a / (1 - f a)) else 0)).
Proof.
  intros HC Hin Hnd Hne n cc Hmf. unfold SmeanField.
  assert (Hn : (1 <= n)%nat) by (subst n; destruct cl; [congruence|cbn; lia]).
  rewrite (coocCluster_ok N) by assumption. cbn [bind].
  rewrite (symmetrizeUsingUpper_ok n) by (try assumption; apply mk_mat_sq). cbn [bind]. fold n.
  match goal with |- context [mk_mat n n (fun i j => entry ?A (Nat.min i j) (Nat.max i j))] =>
    assert (Ecc : mk_mat n n (fun i j => entry A (Nat.min i j) (Nat.max i j)) = cc) by
      (unfold cc, cc_of; apply mk_mat_ext; intros i j Hi Hj; rewrite entry_mk_mat by lia; reflexivity); rewrite Ecc; clear Ecc end.
  cbv zeta. assert (ES : (if it then sumf (range n) (fun i => - entry cc i i * ln (entry cc i i) - (1 - entry cc i i) * ln (1 - entry cc i i)) else 0) =
    (if it then independent_entropy C cl else 0)) by (destruct it; [apply Sind_eq|reflexivity]).
  rewrite ES, Hmf. cbn [bind fst snd].
  match goal with |- context [replaceDiag ?A ?d] => rewrite (replaceDiag_ok n A d) by (try apply mk_mat_sq; unfold range; now rewrite map_length, seq_length);
    set (hMF := d) end.
  cbn [bind]. set (Jc := mk_mat n n _). 
  assert (SJ : sq n Jc) by apply mk_mat_sq.
  assert (EE : exists ent, (if ae then analyticEntropy Jc else Ok ent0) = Ok ent /\ (ae = false -> ent = ent0) /\
    (ae = true -> ent = entropy (boltzmann (energy01 n Jc) (all_states [0; 1] n)) (all_states [0; 1] n))).
  { destruct ae.
    - eexists. split; [apply analyticEntropy_ok; destruct SJ as [-> _]; lia|]. destruct SJ as [-> _]. split; [discriminate|reflexivity].
    - eexists. repeat split; discriminate. }
  destruct EE as (ent & -> & E1 & E2). cbn [bind].
  assert (LC : length C = N) by apply HC. rewrite LC.
  destruct (JfullFromCluster_ok N Jc cl Hnd Hin SJ) as (J & -> & SqJ & HJ1 & HJ2). cbn [bind].
  exists ent, J, Jc. split; [reflexivity|]. repeat (split; [assumption|]). split.
  - intros a b Ha Hb Hab. unfold Jc. rewrite entry_mk_mat by assumption. destruct (Nat.eqb_spec a b); [congruence|]. now rewrite entry_mk_mat.
  - intros a Ha. unfold Jc. rewrite entry_mk_mat, Nat.eqb_refl by assumption. unfold hMF, nthR, range. rewrite (nth_map_seq (fun i => _ - _)) by assumption.
    f_equal.
    + apply sumf_ext_in. intros b Hb. apply in_range in Hb. unfold connected, cc. now rewrite !entry_cc_diag by assumption.
    + unfold cc. now rewrite !entry_cc_diag by assumption.
Qed.

Definition gamma_of (lmbda : R) (ns : option nat) : result R :=
  if Reqb lmbda 0 then Ok 0 else match ns with Some N => Ok (lmbda / INR N) | None => Err TypeError end.

Lemma mf_reg n cc Sind lmbda ns ur g mq vq : (lmbda <> 0 \/ ur = true) -> gamma_of lmbda ns = Ok g ->
  eig (Mmat n cc) = (mq, vq) ->
  mf_couplings eig inv svdvals n cc Sind lmbda ns ur =
    Ok (mk_mat n n (fun i j => if Nat.eqb i j then 0 else
          sumf (range n) (fun k => entry vq i k * (1 / nthR (map (mqhat g) mq) k * entry vq j k)) / Mdenom cc i j),
        Sind + / 2 * sumf (map (mqhat g) mq) (fun x => ln x + 1 - x)).
Proof.
  intros Hb Hg He. unfold mf_couplings. cbv zeta.
  assert (negb (Reqb lmbda 0) || ur = true)%bool as ->.
  { destruct (Reqb_spec lmbda 0) as [E|E]; [|reflexivity]. cbn. destruct Hb; [contradiction|assumption]. }
  unfold gamma_of in Hg. rewrite Hg. cbn [bind]. rewrite He. rewrite zeroDiag_mk. reflexivity.
Qed.

Lemma mf_inv n cc Sind ns :
  mf_couplings eig inv svdvals n cc Sind 0 ns false =
    Ok (mk_mat n n (fun i j => if Nat.eqb i j then 0 else entry (inv (Mmat n cc)) i j / Mdenom cc i j),
        Sind + / 2 * sumf (svdvals (Mmat n cc)) ln).
Proof.
  unfold mf_couplings. cbv zeta. assert (E : Reqb 0 0 = true) by (destruct (Reqb_spec 0 0); congruence). rewrite E. cbn [negb orb].
  rewrite zeroDiag_mk. reflexivity.
Qed.

Lemma Mdenom_diag cc i : 0 < entry cc i i < 1 -> Mdenom cc i i = entry cc i i * (1 - entry cc i i).
Proof. intros H. unfold Mdenom. apply sqrt_square. nra. Qed.

Lemma Mdenom_sym cc i j : Mdenom cc i j = Mdenom cc j i.
Proof. unfold Mdenom. f_equal. ring. Qed.

Lemma Mdenom_pos cc i j : 0 < entry cc i i < 1 -> 0 < entry cc j j < 1 -> 0 < Mdenom cc i j.
Proof. intros H1 H2. unfold Mdenom. apply sqrt_lt_R0. apply Rmult_lt_0_compat; nra. Qed.

Lemma Mmat_diag n cc i : (i < n)%nat -> 0 < entry cc i i < 1 -> entry (Mmat n cc) i i = 1.
Proof.
  intros Hi H. unfold Mmat. rewrite entry_mk_mat, Mdenom_diag by assumption. unfold connected.
  field. lra.
Qed.

Lemma mqhat_nth g mq k : (k < length mq)%nat -> nthR (map (mqhat g) mq) k = mqhat g (nthR mq k).
Proof. intros H. unfold nthR. rewrite (nth_indep _ 0 (mqhat g 0)) by now rewrite map_length. apply map_nth. Qed.

Lemma reg_couplings_sym n vq (d : nat -> R) cc i j :
  sumf (range n) (fun k => entry vq i k * (1 / d k * entry vq j k)) / Mdenom cc i j =
  sumf (range n) (fun k => entry vq j k * (1 / d k * entry vq i k)) / Mdenom cc j i.
Proof. rewrite (Mdenom_sym cc i j). f_equal. apply sumf_ext. intros k. ring. Qed.

(** Regularised entropy never exceeds the entropy of independent spins. *)
Lemma reg_entropy_le g mq : 0 < g \/ g = 0 /\ (forall x, In x mq -> 0 < x) ->
  sumf (map (mqhat g) mq) (fun x => ln x + 1 - x) <= 0.
Proof.
  intros H. rewrite sumf_map. rewrite <- (sumf_zero mq (fun _ => 0)) by reflexivity. apply sumf_le. intros x Hx.
  apply ln_le_sub1, mqhat_pos. destruct H as [H|[H1 H2]]; [now left|right; split; auto].
Qed.
End SMF.
