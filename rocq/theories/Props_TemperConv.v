(** * Property C105: averages over replica exchange samples converge. *)
From Coq Require Import Permutation FunctionalExtensionality.
From Coquelicot Require Import Coquelicot.
From Verif Require Import Prelude Spec PreludeFacts M_Index M_Energy M_Params M_Sampler M_Temper P_Energy P_Energy2 P_Sampler P_Metro P_Params P_Ising P_Temper P_Coarse Props_Temper
  P_Converge P_Converge2 P_Converge3 P_ScanConv P_MoveConv P_Streams P_TemperConv Props_Sampler Props_Converge2 Props_ScanConv.
Import ListNotations.
Local Open Scope R_scope.

(** The same replicas with the generators [ts]. *)
Definition with_generators {T T'} (reps : list (replica T)) (ts : list T') : list (replica T') :=
  map (fun rt => Rep (r_theta (fst rt)) (r_samples (fst rt)) (r_sample (fst rt)) (r_E (fst rt)) (r_index (fst rt)) (snd rt)) (combine reps ts).

Lemma with_generators_mk {T T'} calc_e theta bs : forall ss idx (ts : list T) (ts' : list T'), length ss = length bs -> length idx = length bs -> length ts = length bs -> length ts' = length bs ->
  with_generators (mk_reps calc_e theta bs ss idx ts) ts' = mk_reps calc_e theta bs ss idx ts'.
Proof.
  induction bs as [|b bs IH]; intros [|s ss] [|i idx] [|t ts] [|t' ts'] H1 H2 H3 H4; cbn [length] in *; try discriminate; [reflexivity|].
  cbn [mk_reps]. unfold with_generators. cbn [combine map fst snd]. f_equal. apply IH; lia.
Qed.

Lemma Etot_sumf calc_e theta : (forall s b, calc_e s (map (fun x => x * b) theta) = b * calc_e s theta) ->
  forall bs ss, sumf (combine bs ss) (fun bs => fst bs * calc_e (snd bs) theta) = Etot calc_e theta bs ss.
Proof.
  intros Hlin. induction bs as [|b bs IH]; intros [|s ss]; try reflexivity. cbn [combine Etot]. rewrite sumf_cons, IH. cbn [fst snd]. unfold eb, scale. now rewrite Hlin.
Qed.

(** ** C105 *)
(** ParallelTempering.generate_sample.  Replica i has its own generator and so has the
    exchange step; each returns independent uniform numbers ([Estreams]; stream 0 is that of
    the exchanges; z is counted for a run that raises).  If no flip of one spin leaves the
    energy unchanged, no inverse temperature is 0 and a burn in of a round visits every spin,
    averages over the rows of any function of all replicas have mean square error at most
    C B^2 / M with respect to the product of the Boltzmann distributions, from every set of
    consistent replicas. *)
Theorem C105_tempering : forall (calc_e : list Z -> list R -> R) (n : nat) (theta beta : list R) (repExBurnin default : nat),
  (0 < n)%nat -> (forall s b, calc_e s (map (fun x => x * b) theta) = b * calc_e s theta) -> no_ties (fun s => calc_e s theta) n ->
  (0 < length beta)%nat -> (forall b, In b beta -> b <> 0) ->
  let k := match repExBurnin with O => default | _ => repExBurnin end in (n <= k)%nat ->
  let m := length beta in
  let states := all_states (all_states [-1; 1]%Z n) m in
  let Etot := fun ss => sumf (combine beta ss) (fun bs => fst bs * calc_e (snd bs) theta) in
  exists C, forall (F : list (list Z) -> R) (B : R), (forall ss, In ss states -> Rabs (F ss) <= B) ->
  forall (T : Type) (reps : list (replica T)) M z, consistent calc_e n theta beta reps -> (0 < M)%nat ->
  let err := fun rows => sumf rows F / INR M - expectation (boltzmann Etot states) states F in
  let mean := fun H => Estreams ((M * (m - 1))%nat :: repeat (M * (2 * k))%nat m) (fun ls =>
      match tempering_sample ntape calc_e n M repExBurnin default beta (with_generators reps (tl ls)) (hd [] ls) with Ok (rows, _, _) => H rows | Err _ => z end) in
  mean (fun rows => err rows ^ 2) <= C * B ^ 2 / INR M /\
  forall d, 0 < d -> mean (fun rows => if Rlt_dec d (Rabs (err rows)) then 1 else 0) <= C * B ^ 2 / (INR M * d ^ 2).
Proof.
  intros calc_e n theta beta repEx default Hn Hlin NT0 Hm Hb k Hk m states Et. assert (NT := no_ties_flip _ n NT0). cbv beta in NT.
  destruct (round_minor calc_e theta n Hn Hlin NT beta Hb k Hk) as (m0 & eps & Hm0 & He & HM). fold m in HM.
  exists (4 * (1 + 2 * INR m0 / eps)). intros F B HF T reps M z HC HMp err mean.
  destruct (consistent_mk _ _ _ _ _ HC) as (ss & ts & L1 & L2 & V & ER). assert (LI : length (map r_index reps) = length beta) by (rewrite map_length; now destruct HC).
  set (idx := map r_index reps) in *. set (P := mseq (Etot calc_e theta beta) (round_moves n k m)) in *.
  assert (Hs : In ss (tuples n m)) by (apply tuples_spec; split; [assumption|]; eapply Forall_impl; [|exact V]; intros s Hs; now apply spin_states_spec).
  assert (Q : forall H, mean H = rows_exp P M H ss).
  { intros H. unfold mean. assert (RL := rounds_law calc_e theta n Hn Hlin beta repEx default z Hb Hm M ss idx H Hs LI). cbv zeta in RL. fold k m P in RL.
    apply slaw_Estreams. eapply slaw_ext; [|exact RL]. intros ls Ll _ _. cbv beta. cbn [length] in Ll. rewrite repeat_length in Ll.
    assert (Lt : length (tl ls) = length beta) by (destruct ls; cbn [tl length] in *; [discriminate|fold m; lia]).
    rewrite <- (with_generators_mk calc_e theta beta ss idx ts (tl ls) L1 LI L2 Lt). rewrite <- ER. reflexivity. }
  assert (EE : forall x, Et x = Etot calc_e theta beta x) by (intros x; apply (Etot_sumf calc_e theta Hlin)).
  assert (AV := mseq_averaging (tuples n m) (Etot calc_e theta beta) _ (moves_invol n Hn beta k Hk)). fold m in AV. fold P in AV.
  assert (NE := tuples_ne n m).
  assert (ST : forall G, sumf (tuples n m) (fun x => boltzmann (Etot calc_e theta beta) (tuples n m) x * P G x) = sumf (tuples n m) (fun x => boltzmann (Etot calc_e theta beta) (tuples n m) x * G x)) by (intros G; apply mseq_stationary; [apply tuples_NoDup|apply (moves_invol n Hn beta k Hk)]).
  destruct (sample_errors tuple_eq_dec (tuples n m) P m0 eps (boltzmann (Etot calc_e theta beta) (tuples n m)) F B (tuples_NoDup n m) NE He Hm0 AV HM (boltzmann_dist _ _ NE) ST HF 0 1 M ss ltac:(lia) HMp Hs) as [A1 A2].
  assert (EX : expectation (boltzmann Et states) states F = sumf (tuples n m) (fun x => boltzmann (Etot calc_e theta beta) (tuples n m) x * F x)) by (apply (boltzmann_ext Et (Etot calc_e theta beta) states F); intros x _; apply EE).
  cbn [iterf] in A1, A2. split; [rewrite Q; unfold err; rewrite EX; exact A1|]. intros d Hd. rewrite Q. unfold err. rewrite EX. now apply A2.
Qed.
Print Assumptions C105_tempering.

(** One factor of a product of Boltzmann distributions. *)
Lemma product_cons n (w : list Z -> R) (W : list (list Z) -> R) (g : list (list Z) -> R) m :
  sumf (tuples n (S m)) (fun ss => w (hd [] ss) * W (tl ss) * g ss) = sumf (spin_states n) (fun v => w v * sumf (tuples n m) (fun ss => W ss * g (v :: ss))).
Proof.
  unfold tuples. cbn [all_states]. rewrite sumf_flat_map. apply sumf_ext. intros v. rewrite sumf_map, <- sumf_scal_l. apply sumf_ext. intros ss. cbn [hd tl]. ring.
Qed.

Lemma weight_cons (e : list Z -> R) b bs ss : ss <> [] ->
  exp (- sumf (combine (b :: bs) ss) (fun x => fst x * e (snd x))) = exp (- (b * e (hd [] ss))) * exp (- sumf (combine bs (tl ss)) (fun x => fst x * e (snd x))).
Proof. destruct ss as [|s ss]; [congruence|]. intros _. cbn [combine hd tl]. rewrite sumf_cons. cbn [fst snd]. rewrite Ropp_plus_distr. apply exp_plus. Qed.

Lemma product_marginal n (e : list Z -> R) f : forall bs i, (i < length bs)%nat -> let W := fun bs ss => exp (- sumf (combine bs ss) (fun x => fst x * e (snd x))) in let w := fun b s => exp (- (b * e s)) in
  sumf (tuples n (length bs)) (fun ss => W bs ss * f (nth i ss [])) * sumf (spin_states n) (w (nth i bs 0)) =
  sumf (tuples n (length bs)) (W bs) * sumf (spin_states n) (fun s => w (nth i bs 0) s * f s).
Proof.
  intros bs i Hi W w. revert i Hi. induction bs as [|b bs IH]; intros i Hi; [cbn in Hi; lia|]. cbn [length] in *.
  assert (K : forall g, sumf (tuples n (S (length bs))) (fun ss => W (b :: bs) ss * g ss) = sumf (spin_states n) (fun v => w b v * sumf (tuples n (length bs)) (fun ss => W bs ss * g (v :: ss)))).
  { intros g. rewrite <- product_cons. apply sumf_ext_in. intros ss Hs. apply tuples_spec in Hs. unfold W, w. rewrite weight_cons; [reflexivity|]. intros ->. cbn in Hs. destruct Hs. discriminate. }
  assert (K1 : sumf (tuples n (S (length bs))) (W (b :: bs)) = sumf (spin_states n) (w b) * sumf (tuples n (length bs)) (W bs)).
  { rewrite (sumf_ext _ _ (fun ss => W (b :: bs) ss * (fun _ => 1) ss)) by (intros; ring). rewrite K. rewrite <- sumf_scal_r. apply sumf_ext. intros v. f_equal. apply sumf_ext. intros; ring. }
  rewrite K, K1. destruct i as [|i]; cbn [nth].
  - rewrite (sumf_ext _ _ (fun v => w b v * f v * sumf (tuples n (length bs)) (W bs))) by (intros v; rewrite sumf_scal_r; ring). rewrite sumf_scal_r. ring.
  - rewrite sumf_scal_r. rewrite Rmult_assoc, IH by lia. ring.
Qed.

(** Averages over the states of one replica: the target is the Boltzmann distribution at
    its inverse temperature. *)
Theorem C105_replica : forall (calc_e : list Z -> list R -> R) (n : nat) (theta beta : list R) (repExBurnin default : nat),
  (0 < n)%nat -> (forall s b, calc_e s (map (fun x => x * b) theta) = b * calc_e s theta) -> no_ties (fun s => calc_e s theta) n ->
  (0 < length beta)%nat -> (forall b, In b beta -> b <> 0) ->
  let k := match repExBurnin with O => default | _ => repExBurnin end in (n <= k)%nat ->
  let m := length beta in let states := all_states [-1; 1]%Z n in
  exists C, forall (i : nat) (F : list Z -> R) (B : R), (i < m)%nat -> (forall s, In s states -> Rabs (F s) <= B) ->
  forall (T : Type) (reps : list (replica T)) M z, consistent calc_e n theta beta reps -> (0 < M)%nat ->
  let target := expectation (boltzmann (fun s => calc_e s (map (fun x => x * nthR beta i) theta)) states) states F in
  let err := fun rows => sumf (map (fun row => nth i row []) rows) F / INR M - target in
  let mean := fun H => Estreams ((M * (m - 1))%nat :: repeat (M * (2 * k))%nat m) (fun ls =>
      match tempering_sample ntape calc_e n M repExBurnin default beta (with_generators reps (tl ls)) (hd [] ls) with Ok (rows, _, _) => H rows | Err _ => z end) in
  mean (fun rows => err rows ^ 2) <= C * B ^ 2 / INR M /\
  forall d, 0 < d -> mean (fun rows => if Rlt_dec d (Rabs (err rows)) then 1 else 0) <= C * B ^ 2 / (INR M * d ^ 2).
Proof.
  intros calc_e n theta beta repEx default Hn Hlin NT Hm Hb k Hk m states.
  destruct (C105_tempering calc_e n theta beta repEx default Hn Hlin NT Hm Hb Hk) as [C HC]. exists C. intros i F B Hi HF T reps M z Hc HM target err mean.
  destruct (HC (fun ss => F (nth i ss [])) B) with (T := T) (reps := reps) (M := M) (z := z) as [A1 A2]; [|assumption|assumption|].
  { intros ss Hs. apply (tuples_spec n (length beta)) in Hs. destruct Hs as [L V]. apply HF. rewrite Forall_forall in V. apply V, nth_In. rewrite L. exact Hi. }
  set (Et := fun ss => sumf (combine beta ss) (fun bs => fst bs * calc_e (snd bs) theta)) in *. set (sts := all_states (all_states [-1; 1]%Z n) (length beta)) in *.
  assert (ET : expectation (boltzmann Et sts) sts (fun ss => F (nth i ss [])) = target).
  { unfold target. rewrite (boltzmann_ext _ (fun s => nthR beta i * calc_e s theta) states F) by (intros; apply Hlin).
    assert (K := product_marginal n (fun s => calc_e s theta) F beta i Hi). cbv zeta in K. change (tuples n (length beta)) with sts in K. change (spin_states n) with states in K. change (nth i beta 0) with (nthR beta i) in K.
    assert (Z1 : 0 < sumf sts (fun ss => exp (- Et ss))) by (apply sumf_pos; [apply (tuples_ne n (length beta))|intros; apply exp_pos]).
    assert (Z2 : 0 < sumf states (fun s => exp (- (nthR beta i * calc_e s theta)))) by (apply sumf_pos; [apply (spin_states_ne n)|intros; apply exp_pos]).
    unfold expectation, boltzmann, partition.
    rewrite (sumf_ext sts _ (fun ss => exp (- Et ss) * F (nth i ss []) / sumf sts (fun ss => exp (- Et ss)))) by (intros; unfold Rdiv; ring).
    rewrite (sumf_ext states _ (fun s => exp (- (nthR beta i * calc_e s theta)) * F s / sumf states (fun s => exp (- (nthR beta i * calc_e s theta))))) by (intros; unfold Rdiv; ring).
    rewrite !sumf_div.
    assert (G : forall a b c d, a * d = c * b -> 0 < c -> 0 < d -> a / c = b / d).
    { intros a b c d H Hc0 Hd0. apply (Rmult_eq_reg_r (c * d)); [|apply Rgt_not_eq, Rmult_lt_0_compat; assumption]. unfold Rdiv. replace (a * / c * (c * d)) with (a * d * (c * / c)) by ring. replace (b * / d * (c * d)) with (c * b * (d * / d)) by ring. rewrite !Rinv_r, H by lra. reflexivity. }
    apply G; [exact K|exact Z1|exact Z2]. }
  assert (EM : forall rows : list (list (list Z)), sumf (map (fun row => nth i row []) rows) F = sumf rows (fun ss => F (nth i ss []))) by (intros rows; apply sumf_map).
  rewrite ET in A1, A2. split.
  - unfold mean, err. eapply Rle_trans; [|exact A1]. right. f_equal. apply functional_extensionality. intros ls. destruct (tempering_sample _ _ _ _ _ _ _ _ _) as [[[rows hist] fin]|]; [|reflexivity]. now rewrite EM.
  - intros d Hd. eapply Rle_trans; [|exact (A2 d Hd)]. right. unfold mean, err. f_equal. apply functional_extensionality. intros ls. destruct (tempering_sample _ _ _ _ _ _ _ _ _) as [[[rows hist] fin]|]; [|reflexivity]. now rewrite EM.
Qed.
Print Assumptions C105_replica.

(** Two coupled spins in fields, two replicas. *)
Example C105_example : let theta := [1; 1; 3] in let calc_e := fun (s : list Z) th => ising_energy 2 th (map IZR s) in
  (forall s b, calc_e s (map (fun x => x * b) theta) = b * calc_e s theta) /\ no_ties (fun s => calc_e s theta) 2 /\
  exists reps : list (replica unit), consistent calc_e 2 theta [/ 2; 1] reps /\ map r_sample reps = [[[1; -1]%Z]; [[-1; -1]%Z]].
Proof.
  intros theta calc_e. split; [intros s b; apply ising_linear|]. split.
  - intros s i Hs Hi. destruct i as [|[|i]]; [| |lia]; cbn in Hs; repeat destruct Hs as [<-|Hs]; try destruct Hs; unfold calc_e, ising_energy, coupling, theta, sumf, nthR, pair_index; cbn; intros HH; lra.
  - exists (mk_reps calc_e theta [/ 2; 1] [[1; -1]%Z; [-1; -1]%Z] [0; 1]%nat [tt; tt]). split; [|reflexivity].
    apply mk_consistent; try reflexivity. repeat (apply Forall_cons; [split; [reflexivity|]; repeat (apply Forall_cons; [unfold spin; auto|]); apply Forall_nil|]); apply Forall_nil.
Qed.
