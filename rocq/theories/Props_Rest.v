(** * C106 compiled signatures, C107 Hamiltonian Monte Carlo, C108 the Heisenberg chain. *)
From Verif Require Import Prelude Spec Spec3 M_Index M_Params M_Energy M_Heisenberg M_Rest P_Energy P_Heisenberg Props_Energy Props_Heisenberg.
Import ListNotations.
Local Open Scope R_scope.

(** ** C106 *)
Lemma dtype_eqb_eq a b : dtype_eqb a b = true <-> a = b.
Proof. destruct a, b; cbn; split; intros H; try discriminate; try reflexivity; [apply Nat.eqb_eq in H; now subst|injection H as ->; apply Nat.eqb_refl]. Qed.
Lemma types_eqb_eq : forall a b, types_eqb a b = true <-> a = b.
Proof.
  induction a as [|[d k] a IH]; intros [|[e m] b]; cbn [types_eqb fst snd]; split; intros H; try discriminate; try reflexivity.
  - apply andb_true_iff in H as [H H3]. apply andb_true_iff in H as [H1 H2]. apply dtype_eqb_eq in H1. apply Nat.eqb_eq in H2. apply IH in H3. now subst.
  - injection H as -> -> ->. rewrite Nat.eqb_refl. rewrite andb_true_r. apply andb_true_iff. split; [now apply dtype_eqb_eq|now apply IH].
Qed.

(** calc_e of define_ising_helper_functions returns the energies of int64 state matrices under
    float64 parameter vectors and raises TypeError on arrays of any other types, e.g. on states
    stored as floats or as 8-bit integers, on one state without its row dimension, and on
    integer parameters. *)
Theorem C106_accepted_types : forall (n : nat) ts tp (S : list (list R)) (params : list R),
  (forall s, In s S -> length s = n) -> length params = (n + n * (n - 1) / 2)%nat ->
  ((ts = (Int64, 2%nat) /\ tp = (Float64, 1%nat)) -> ising_calc_e_typed ts tp S params = Ok (map (ising_energy n params) S)) /\
  (~ (ts = (Int64, 2%nat) /\ tp = (Float64, 1%nat)) -> ising_calc_e_typed ts tp S params = Err TypeError).
Proof.
  intros n ts tp S params HS Hp. unfold ising_calc_e_typed, define_ising_helper_functions, numba_call. cbn [bind].
  rewrite (C15_ising_energy_rows n S params HS Hp).
  match goal with |- context [if ?b then _ else _] => destruct b eqn:E end.
  - apply types_eqb_eq in E. unfold calc_e_signature in E. injection E as <- <-. split; [reflexivity|tauto].
  - split; [|reflexivity]. intros [-> ->]. discriminate E.
Qed.
Print Assumptions C106_accepted_types.

(** define_ising_helper_functions_sym should return functions for the model without fields.  It
    always raises: the signature of fast_sum lists the types int64[:], float64[:,:] (element
    types of vector and matrix exchanged), so the compilation of calc_e, which calls it with a
    float64 vector and an int64 matrix, fails; no array types give energies. *)
Theorem C106_sym_refuted : define_ising_helper_functions_sym = Err TypeError /\
  forall ts tp S params, ising_sym_calc_e_typed ts tp S params = Err TypeError.
Proof. split; [reflexivity|]. intros. reflexivity. Qed.
Print Assumptions C106_sym_refuted.

(** Two spins: with the right types, and with float states. *)
Example C106_example :
  ising_calc_e_typed (Int64, 2%nat) (Float64, 1%nat) [[1; 1]; [1; -1]] [1; 2; 3] = Ok [-6; 4] /\
  ising_calc_e_typed (Float64, 2%nat) (Float64, 1%nat) [[1; 1]; [1; -1]] [1; 2; 3] = Err TypeError.
Proof.
  assert (HS : forall s, In s [[1; 1]; [1; -1]] -> length s = 2%nat) by (intros s [<-|[<-|[]]]; reflexivity).
  destruct (C106_accepted_types 2 (Int64, 2%nat) (Float64, 1%nat) [[1; 1]; [1; -1]] [1; 2; 3] HS eq_refl) as [H _].
  destruct (C106_accepted_types 2 (Float64, 2%nat) (Float64, 1%nat) [[1; 1]; [1; -1]] [1; 2; 3] HS eq_refl) as [_ H2].
  split; [rewrite H by (split; reflexivity)|apply H2; intros [X _]; discriminate].
  unfold ising_energy, coupling, sumf, nthR, pair_index. cbn. f_equal. repeat (f_equal; try lra).
Qed.
Print Assumptions C106_example.

(** ** C107 *)
Lemma map_seq_S {B} (f : nat -> B) m a : map f (seq a (S m)) = f a :: map f (seq (S a) m).
Proof. reflexivity. Qed.

Lemma hmc_loop_eq E grad dt N nBurn draw : forall m c st copies, (c + m = nBurn + 2)%nat -> (1 <= m)%nat ->
  hmc_sample_loop E grad m dt N nBurn c draw st copies =
  Ok (fst (fst (fold_left (hmc_step E grad dt N) (map draw (seq c m)) st)),
      copies ++ map (fun k => fst (fst (fold_left (hmc_step E grad dt N) (map draw (seq c k)) st))) (seq 1 m)).
Proof.
  induction m as [|m IH]; intros c st copies Hc Hm; [lia|].
  cbn [hmc_sample_loop]. destruct (Nat.ltb_spec nBurn c).
  - assert (m = 0%nat) by lia. subst m. reflexivity.
  - rewrite IH by lia. rewrite map_seq_S. cbn [fold_left]. f_equal. f_equal.
    rewrite <- app_assoc. f_equal. cbn [seq map app]. rewrite <- (seq_shift m 1), map_map. f_equal.
Qed.

Lemma nth_map_lt {A B} (f : A -> B) l i d d' : (i < length l)%nat -> nth i (map f l) d = f (nth i l d').
Proof. intros H. rewrite (nth_indep _ d (f d')) by (now rewrite map_length). apply map_nth. Qed.

(** sample(x0, nBurn) always returns, after nBurn+2 transitions: its value is the array that
    jit_sample leaves after nBurn+2 passes with the same random numbers; history has nBurn+3
    entries, entry k (for k >= 1) the position after k passes and entry 0 the final position. *)
Theorem C107_sample_transitions : forall E grad dt N nBurn draw x0,
  let after k := jit_sample E grad x0 dt N (map draw (seq 0 k)) in
  exists history, hmc_sample E grad dt N nBurn draw x0 = Ok (after (nBurn + 2)%nat, history) /\
    length history = (nBurn + 3)%nat /\ nth 0 history [] = after (nBurn + 2)%nat /\
    forall k, (1 <= k <= nBurn + 2)%nat -> nth k history [] = after k.
Proof.
  intros E grad dt N nBurn draw x0 after. unfold hmc_sample. rewrite hmc_loop_eq by lia. cbn [bind fst snd app].
  eexists. split; [reflexivity|]. split; [|split; [reflexivity|]].
  - cbn [length]. rewrite map_length, seq_length. lia.
  - intros k Hk. destruct k as [|k]; [lia|]. cbn [nth]. rewrite (nth_map_lt _ _ _ _ 0%nat) by (rewrite seq_length; lia).
    rewrite seq_nth by lia. reflexivity.
Qed.
Print Assumptions C107_sample_transitions.

(** Free motion: zero energy, momentum 1. *)
Lemma free_step x : hmc_step (fun _ => 0) (fun _ => [0]) 1 1 ([x], 0, [0]) ([1], 0) = ([x + 1], 0, [0]).
Proof.
  unfold hmc_step, leapfrogs, range, leapfrog, vec_axpy. cbn [seq fold_left combine map fst snd].
  assert (X : x + 1 * (1 + - (1 / 2) * 0) = x + 1) by field. rewrite X.
  destruct (Rlt_dec _ 0); [reflexivity|]. destruct (Rlt_dec _ _); reflexivity.
Qed.

(** The slow and the fast method should agree: sample(x0, nBurn) and jit_sample with nBurn rows,
    from the same random numbers.  They do not: sample makes two transitions more. *)
Theorem C107_slow_fast_agree_refuted : exists E grad dt N nBurn draw x0, forall history,
  hmc_sample E grad dt N nBurn draw x0 <> Ok (jit_sample E grad x0 dt N (map draw (seq 0 nBurn)), history).
Proof.
  exists (fun _ => 0), (fun _ => [0]), 1, 1%nat, 0%nat, (fun _ => ([1], 0)), [0]. intros history H.
  destruct (C107_sample_transitions (fun _ => 0) (fun _ => [0]) 1 1 0 (fun _ => ([1], 0)) [0]) as [h [Eh _]].
  rewrite Eh in H. injection H as H _. unfold jit_sample in H. cbn [plus seq map] in H.
  cbn [fold_left] in H. rewrite !free_step in H. cbn [fst] in H. injection H as H. lra.
Qed.
Print Assumptions C107_slow_fast_agree_refuted.

(** generate_sample with given starting points: fast in one process, one run of nBurn passes for
    each; slow with several processes, nBurn+2 passes for each; it fails for the other
    two settings and, with several processes, for no starting points. *)
Theorem C107_generate_sample : forall E grad dt N nBurn draw x0,
  let runs m := map (fun i => jit_sample E grad (nth i x0 []) dt N (map (draw i) (seq 0 m))) (seq 0 (length x0)) in
  hmc_generate_sample E grad dt N nBurn 0 true draw x0 = Ok (runs nBurn) /\
  hmc_generate_sample E grad dt N nBurn 0 false draw x0 = Err UnboundLocalError /\
  forall nCpus, (0 < nCpus)%nat -> x0 <> [] ->
    hmc_generate_sample E grad dt N nBurn nCpus false draw x0 = Ok (runs (nBurn + 2)%nat) /\
    hmc_generate_sample E grad dt N nBurn nCpus true draw x0 = Err NameError.
Proof.
  intros E grad dt N nBurn draw x0 runs.
  assert (C : forall {B} (f : nat -> list R -> B), map (fun ix => f (fst ix) (snd ix)) (combine (range (length x0)) x0) = map (fun i => f i (nth i x0 [])) (seq 0 (length x0))).
  { intros B f. assert (Q : combine (range (length x0)) x0 = map (fun i => (i, nth i x0 [])) (seq 0 (length x0))).
    { rewrite (list_as_map [] x0) at 2. unfold range. generalize (seq 0 (length x0)). intros l. induction l as [|a l IH]; cbn; [reflexivity|now rewrite IH]. }
    rewrite Q, map_map. reflexivity. }
  split; [|split; [reflexivity|]].
  - unfold hmc_generate_sample. f_equal. apply (C _ (fun i x => jit_sample E grad x dt N (map (draw i) (range nBurn)))).
  - intros [|k] Hk Hx; [lia|]. destruct x0 as [|x x0']; [congruence|]. split; [|reflexivity].
    unfold hmc_generate_sample. set (X := x :: x0') in *.
    rewrite (mapM_ok_map _ (fun ix => jit_sample E grad (snd ix) dt N (map (draw (fst ix)) (seq 0 (nBurn + 2))))).
    + f_equal. apply (C _ (fun i x => jit_sample E grad x dt N (map (draw i) (seq 0 (nBurn + 2))))).
    + intros ix _. destruct (C107_sample_transitions E grad dt N nBurn (draw (fst ix)) (snd ix)) as [h [-> _]]. reflexivity.
Qed.
Print Assumptions C107_generate_sample.

(** The initial state should be the first entry of history.  It is overwritten with the final
    position: free motion by 1 per pass from 0, nBurn=0, gives history 2, 1, 2. *)
Theorem C107_history_start_refuted : exists E grad dt N nBurn draw x0 r,
  hmc_sample E grad dt N nBurn draw x0 = Ok r /\ nth 0 (snd r) [] <> x0 /\ r = ([2], [[2]; [1]; [2]]) /\ x0 = [0].
Proof.
  exists (fun _ => 0), (fun _ => [0]), 1, 1%nat, 0%nat, (fun _ => ([1], 0)), [0], ([2], [[2]; [1]; [2]]).
  repeat split; [|cbn; intros HH; injection HH as HH; lra].
  unfold hmc_sample. cbn [plus hmc_sample_loop Nat.ltb Nat.leb]. rewrite free_step. cbn [fst snd app]. rewrite free_step. cbn [fst snd app bind].
  assert (X1 : 0 + 1 = 1) by ring. assert (X2 : 1 + 1 = 2) by ring. rewrite X1, X2. reflexivity.
Qed.
Print Assumptions C107_history_start_refuted.

(** Two starting points in one process without burn-in: returned unchanged. *)
Example C107_example : forall E grad draw, hmc_generate_sample E grad 1 1 0 0 true draw [[1]; [2]] = Ok [[1]; [2]].
Proof. intros. rewrite (proj1 (C107_generate_sample _ _ _ _ _ _ _)). reflexivity. Qed.
Print Assumptions C107_example.

(** ** C108 *)
(** A unit vector of three components. *)
Definition unit3 (v : list R) : Prop := length v = 3%nat /\ inner3 (to3 v) (to3 v) = 1.
Definition on_axis (v : list R) : Prop := nthR v 0 = 0 /\ nthR v 1 = 0.

Lemma nearby_one d v : unit3 v -> (on_axis v /\ sample_nearby_vector (fst d) (snd d) v 1 (3 / 10) = Ok None) \/
  (~ on_axis v /\ exists w, sample_nearby_vector (fst d) (snd d) v 1 (3 / 10) = Ok (Some [w]) /\ unit3 w /\ inner3 (to3 w) (to3 v) = cos (fst d 0%nat * (3 / 10))).
Proof.
  intros [L U]. destruct v as [|a [|b [|c [|? ?]]]]; try discriminate. unfold on_axis, nthR. cbn [nth].
  destruct (Req_EM_T a 0) as [->|Na]; [destruct (Req_EM_T b 0) as [->|Nb]|].
  - left. split; [split; reflexivity|apply C79_pole_refuted].
  - right. split; [tauto|]. destruct (C79_nearby_vector (fst d) (snd d) 0 b c 1 (3 / 10)) as [rows [E1 [E2 E3]]]; [tauto|right; lia|].
    destruct rows as [|w [|? ?]]; try discriminate. exists w. split; [exact E1|]. destruct (E3 0%nat) as [F1 F2]; [lia|]. cbn [nth] in F1, F2.
    unfold to3, nthR in U. cbn [nth] in U. rewrite U, sqrt_1, Rmult_1_l in F2. unfold drawn_angle in F2. destruct (Req_EM_T (3 / 10) 0); [lra|].
    split; [|exact F2]. split; [|exact F1].
    unfold sample_nearby_vector in E1. destruct (polar_angles _) as [[ot op]|]; [|discriminate].
    destruct (nearby_vector _ _ _ _ _ _) as [l|] eqn:En; [|discriminate]. cbn [bind] in E1. injection E1 as ->.
    unfold nearby_vector in En. destruct (mapM _ _) as [rv|]; [|discriminate]. cbn [bind] in En. injection En as En.
    destruct rv as [|r rv]; [discriminate|]. cbn [map] in En. injection En as <- _. apply rod_length.
  - right. split; [tauto|]. destruct (C79_nearby_vector (fst d) (snd d) a b c 1 (3 / 10)) as [rows [E1 [E2 E3]]]; [tauto|right; lia|].
    destruct rows as [|w [|? ?]]; try discriminate. exists w. split; [exact E1|]. destruct (E3 0%nat) as [F1 F2]; [lia|]. cbn [nth] in F1, F2.
    unfold to3, nthR in U. cbn [nth] in U. rewrite U, sqrt_1, Rmult_1_l in F2. unfold drawn_angle in F2. destruct (Req_EM_T (3 / 10) 0); [lra|].
    split; [|exact F2]. split; [|exact F1].
    unfold sample_nearby_vector in E1. destruct (polar_angles _) as [[ot op]|]; [|discriminate].
    destruct (nearby_vector _ _ _ _ _ _) as [l|] eqn:En; [|discriminate]. cbn [bind] in E1. injection E1 as ->.
    unfold nearby_vector in En. destruct (mapM _ _) as [rv|]; [|discriminate]. cbn [bind] in En. injection En as En.
    destruct rv as [|r rv]; [discriminate|]. cbn [map] in En. injection En as <- _. apply rod_length.
Qed.

Lemma nearby_sample draw : forall X i, Forall unit3 X ->
  (Exists on_axis X /\ sample_nearby_sample draw i X (3 / 10) = Ok None) \/
  (Forall (fun v => ~ on_axis v) X /\ exists Y, sample_nearby_sample draw i X (3 / 10) = Ok (Some Y) /\ length Y = length X /\ Forall unit3 Y /\
    forall k, (k < length X)%nat -> inner3 (to3 (nth k Y [])) (to3 (nth k X [])) = cos (fst (draw (i + k)%nat) 0%nat * (3 / 10))).
Proof.
  induction X as [|x X IH]; intros i HX.
  - right. split; [constructor|]. exists []. split; [reflexivity|]. split; [reflexivity|]. split; [constructor|]. intros k Hk. inversion Hk.
  - inversion HX as [|? ? Hx HX']; subst. cbn [sample_nearby_sample].
    destruct (nearby_one (draw i) x Hx) as [[A ->]|[NA [w [-> [Uw Ow]]]]]; destruct (IH (S i) HX') as [[A' ->]|[NA' [Y [-> [LY [UY OY]]]]]]; cbn [bind].
    + left. split; [now apply Exists_cons_hd|reflexivity].
    + left. split; [now apply Exists_cons_hd|reflexivity].
    + left. split; [now apply Exists_cons_tl|reflexivity].
    + right. split; [now constructor|]. exists (w :: Y). split; [reflexivity|]. split; [cbn; now rewrite LY|]. split; [now constructor|].
      intros [|k] Hk; cbn [nth].
      * now rewrite Nat.add_0_r.
      * rewrite OY by (cbn in Hk; lia). now rewrite Nat.add_succ_comm.
Qed.

(** One update of a state of unit vectors, none on the polar axis: a proposal of unit vectors,
    vector k turned by 0.3 times a normal number, is taken with probability min(1, exp(-dE)):
    exactly if the uniform number u is at most it (u < 1); otherwise state and energy are kept. *)
Theorem C108_update : forall calc_e old draw u, Forall unit3 old -> Forall (fun v => ~ on_axis v) old -> 0 <= u < 1 ->
  exists new, length new = length old /\ Forall unit3 new /\
    (forall k, (k < length old)%nat -> inner3 (to3 (nth k new [])) (to3 (nth k old [])) = cos (fst (draw k) 0%nat * (3 / 10))) /\
    let accept := Rmin 1 (exp (- (calc_e new - calc_e old))) in
    (u <= accept -> heis_metropolis calc_e (Some old, Some (calc_e old)) (draw, u) = Ok (Some new, Some (calc_e new))) /\
    (accept < u -> heis_metropolis calc_e (Some old, Some (calc_e old)) (draw, u) = Ok (Some old, Some (calc_e old))).
Proof.
  intros calc_e old draw u U NA Hu. destruct (nearby_sample draw old 0 U) as [[A _]|[_ [Y [EY [LY [UY OY]]]]]].
  { exfalso. apply Exists_exists in A as [v [Hv A]]. rewrite Forall_forall in NA. now apply (NA v). }
  exists Y. split; [exact LY|]. split; [exact UY|]. split; [exact OY|]. cbv zeta.
  unfold heis_metropolis. cbn [fst snd]. rewrite EY. cbn [bind]. set (de := calc_e Y - calc_e old).
  destruct (Rlt_dec 0 de) as [P|P].
  - assert (exp (- de) < 1) by (rewrite <- exp_0; apply exp_increasing; lra). rewrite Rmin_right by lra.
    destruct (Rlt_dec (exp (- de)) u); split; intros; try reflexivity; lra.
  - assert (1 <= exp (- de)). { rewrite <- exp_0. destruct (Req_dec de 0) as [->|]; [right; now rewrite Ropp_0|left; apply exp_increasing; lra]. }
    rewrite Rmin_left by lra. split; intros; [reflexivity|lra].
Qed.
Print Assumptions C108_update.

(** equilibrate_samples never fails; any number of updates leaves either unit vectors, as many
    as before, with the energy of the present state, or a state with nan. *)
Theorem C108_invariant : forall calc_e s rs, Forall unit3 s ->
  exists st, heis_equilibrate calc_e s rs = Ok st /\
    (st = (None, None) \/ exists s', st = (Some s', Some (calc_e s')) /\ length s' = length s /\ Forall unit3 s').
Proof.
  intros calc_e s rs U. unfold heis_equilibrate.
  assert (G : forall rs st, (st = (None, None) \/ exists s', st = (Some s', Some (calc_e s')) /\ length s' = length s /\ Forall unit3 s') ->
    exists st', foldM (heis_metropolis calc_e) rs st = Ok st' /\
    (st' = (None, None) \/ exists s', st' = (Some s', Some (calc_e s')) /\ length s' = length s /\ Forall unit3 s')).
  { clear rs. induction rs as [|r rs IH]; intros st Hst; [exists st; split; [reflexivity|exact Hst]|].
    cbn [foldM]. destruct Hst as [->|[s' [-> [L Us]]]].
    - cbn [heis_metropolis fst bind]. apply IH. now left.
    - unfold heis_metropolis at 1. cbn [fst snd].
      destruct (nearby_sample (fst r) s' 0 Us) as [[_ ->]|[_ [Y [-> [LY [UY _]]]]]]; cbn [bind].
      + apply IH. now left.
      + destruct (Rlt_dec _ _); [destruct (Rlt_dec _ _)|]; cbn [bind]; apply IH; right; eexists; (split; [reflexivity|]); split; try assumption; congruence. }
  apply G. right. exists s. repeat split; assumption.
Qed.
Print Assumptions C108_invariant.

(** A chain should stay in the space of states.  From a state with a vector on the polar axis
    (a legal unit vector) the first update gives nan whatever is drawn; the comparison with
    nan counts as acceptance, and no further update leaves that state. *)
Theorem C108_pole_refuted : forall calc_e s r rs, Forall unit3 s -> Exists on_axis s -> heis_equilibrate calc_e s (r :: rs) = Ok (None, None).
Proof.
  intros calc_e s r rs U A. unfold heis_equilibrate. cbn [foldM].
  assert (X : heis_metropolis calc_e (Some s, Some (calc_e s)) r = Ok (None, None)).
  { unfold heis_metropolis. cbn [fst]. destruct (nearby_sample (fst r) s 0 U) as [[_ ->]|[NA _]]; [reflexivity|].
    exfalso. apply Exists_exists in A as [v [Hv A]]. rewrite Forall_forall in NA. now apply (NA v). }
  rewrite X. cbn [bind]. induction rs as [|r' rs IH]; [reflexivity|]. cbn [foldM heis_metropolis fst bind]. exact IH.
Qed.
Print Assumptions C108_pole_refuted.

(** Two spins along the x and y axes are such a state; one along z is lost at once. *)
Example C108_example :
  (Forall unit3 [[1; 0; 0]; [0; 1; 0]] /\ Forall (fun v => ~ on_axis v) [[1; 0; 0]; [0; 1; 0]]) /\
  forall calc_e r, heis_equilibrate calc_e [[1; 0; 0]; [0; 0; 1]] [r] = Ok (None, None).
Proof.
  split; [split|].
  - repeat constructor; unfold inner3, to3, nthR; cbn; ring.
  - repeat constructor; unfold on_axis, nthR; cbn; intros [H1 H2]; lra.
  - intros. apply C108_pole_refuted; [repeat constructor; unfold inner3, to3, nthR; cbn; ring|].
    apply Exists_cons_tl, Exists_cons_hd. split; reflexivity.
Qed.
Print Assumptions C108_example.
