(** * C119: initial guesses given as integer arrays. *)
From Coquelicot Require Import Coquelicot.
From Coq Require ClassicalEpsilon.
From Coq Require Import R_Ifp Lra Lia FunctionalExtensionality.
From Verif Require Import Prelude Spec PreludeFacts M_Index M_Params M_Energy M_Corr M_Models M_Pseudo M_PottsSolve M_MCH M_IntGuess P_Index P_Unravel P_Energy P_Energy2 P_Params P_Unique P_Corr2 P_MPF P_Pseudo P_Pseudo2 P_Pseudo3 P_Pseudo4 Props_Energy Props_Pseudo Props_Pseudo2.
From Verif Require Props_PottsGauge Props_MCH.
Import ListNotations.
Local Open Scope R_scope.

(** ** Dropping the fraction *)
(** Specification: the integer nearest to zero among those at distance less than one. *)
Definition is_cut (x : R) (z : Z) : Prop := (0 <= x /\ IZR z <= x < IZR z + 1) \/ (x < 0 /\ IZR z - 1 < x <= IZR z).

Lemma cut_spec x : exists z, cut x = IZR z /\ is_cut x z.
Proof.
  unfold cut. destruct (Rle_dec 0 x) as [H|H].
  - exists (Int_part x). split; [reflexivity|]. left. destruct (base_Int_part x). lra.
  - exists (- Int_part (- x))%Z. rewrite opp_IZR. split; [reflexivity|]. right. rewrite opp_IZR. destruct (base_Int_part (- x)). lra.
Qed.

Lemma is_cut_unique x a b : is_cut x a -> is_cut x b -> a = b.
Proof.
  intros [[H1 H2]|[H1 H2]] [[H3 H4]|[H3 H4]]; try lra.
  - assert (A : IZR a < IZR b + 1) by lra. assert (B : IZR b < IZR a + 1) by lra. rewrite <- plus_IZR in A, B. apply lt_IZR in A, B. lia.
  - assert (A : IZR a - 1 < IZR b) by lra. assert (B : IZR b - 1 < IZR a) by lra. rewrite <- minus_IZR in A, B. apply lt_IZR in A, B. lia.
Qed.

Lemma cut_eq x z : is_cut x z -> cut x = IZR z.
Proof. intros H. destruct (cut_spec x) as (w & -> & Hw). f_equal. now apply (is_cut_unique x). Qed.

Lemma cut_IZR z : cut (IZR z) = IZR z.
Proof. apply cut_eq. destruct (Rle_dec 0 (IZR z)); [left|right]; lra. Qed.

Lemma cut_opp x : cut (- x) = - cut x.
Proof.
  destruct (cut_spec x) as (z & -> & H). rewrite <- opp_IZR. apply cut_eq. unfold is_cut in *. rewrite opp_IZR.
  destruct (Req_dec x 0) as [->|]; [|lra]. left. split; [lra|]. rewrite Ropp_0.
  assert (z = 0%Z) as -> by (apply (is_cut_unique 0); [exact H|left; lra]). lra.
Qed.

Lemma cut_small x : Rabs x < 1 -> cut x = 0.
Proof. intros H. apply (cut_eq x 0). unfold is_cut. unfold Rabs in H. destruct (Rcase_abs x); lra. Qed.

Lemma cut_near x : Rabs (cut x - x) < 1.
Proof. destruct (cut_spec x) as (z & -> & H). unfold is_cut in H. unfold Rabs. destruct (Rcase_abs _); lra. Qed.

(** Another number with the same integer part. *)
Lemma cut_other x : exists y, y <> x /\ cut y = cut x.
Proof.
  destruct (cut_spec x) as (z & -> & H). destruct (Req_dec x (IZR z)) as [E|N].
  - destruct (Rle_dec 0 x) as [P|P]; [exists (x + / 2)|exists (x - / 2)]; (split; [lra|]); apply cut_eq; unfold is_cut in *; lra.
  - exists (IZR z). split; [lra|]. apply cut_IZR.
Qed.

(** With a float array the functions are those of M_Pseudo. *)
Theorem C119_float : forall n k m get_r obs_r gp op sample psample guess minimize cost jac params,
  solve_ising_typed FloatGuess get_r obs_r n sample guess minimize = solve_ising get_r obs_r n m sample (Some guess) minimize /\
  pseudo_general_f_typed FloatGuess get_r obs_r n m sample params = pseudo_general_f get_r obs_r n m sample params /\
  pseudo_potts_f_typed FloatGuess gp op n k m psample cost jac params = pseudo_potts_f gp op n k m psample cost jac params.
Proof.
  intros. split; [|split; reflexivity]. unfold solve_ising_typed, solve_ising. destruct (initial_guess_mat n guess); [|reflexivity]. cbn [bind].
  do 2 f_equal. apply functional_extensionality. intros r. destruct (get_r r guess) as [mi|]; [|reflexivity]. cbn [bind]. do 2 f_equal.
  apply functional_extensionality. intros p. unfold pseudo_ising_f_typed. change (map (store FloatGuess) p) with (map (fun x : R => x) p). rewrite map_id. reflexivity.
Qed.
Print Assumptions C119_float.

(** ** Ising *)
Lemma typed_solver t n sample guess minimize :
  solve_ising_typed t (pseudo_ising_get_multipliers_r n) (pseudo_ising_calc_observables_r n) n sample guess minimize =
  solve_ising (pseudo_ising_get_multipliers_r n) (pseudo_ising_calc_observables_r n) n 0 sample (Some guess) (fun f x0 => minimize (fun p => f (map (store t) p)) x0).
Proof. reflexivity. Qed.

(** What the minimiser receives for spin r, whatever it does with it: at y the negative
    log-likelihood of the parameters y without their fractions.  So the function is constant
    between integers; from a zero guess, on the whole cube of side two around it. *)
Theorem C119_ising_objective : forall (n : nat) (sample : list (list R)) (guess : list R) minimize,
  (1 <= n)%nat -> length guess = (n + n * (n - 1) / 2)%nat -> (forall s, In s sample -> spin_state n s) ->
  (forall f x, length x = n -> length (minimize f x) = n) ->
  exists (f : nat -> list R -> result (R * list R)) (x0 : nat -> list R) mult,
    let x := fun r => minimize (f r) (x0 r) in
    solve_ising_typed IntGuess (pseudo_ising_get_multipliers_r n) (pseudo_ising_calc_observables_r n) n sample guess minimize = Ok mult /\
    (forall r, (r < n)%nat -> nthR mult r = nthR (x r) 0) /\
    (forall i j, (i < j)%nat -> (j < n)%nat -> nthR mult (n + pair_index n i j) = (nthR (x i) j + nthR (x j) (S i)) / 2) /\
    (forall r y, (r < n)%nat -> length y = n -> exists params ix grad,
      pseudo_ising_get_multipliers_r n r params = Ok (map cut y, ix) /\ length params = length guess /\
      (forall i, ~ In i ix -> nthR params i = nthR guess i) /\ f r y = Ok (neg_log_pl n params sample r, grad)) /\
    (forall r y, (r < n)%nat -> length y = n -> (forall u, In u y -> Rabs u < 1) -> f r y = f r (repeat 0 n)).
Proof.
  intros n sample guess minimize Hn Hg Hs Hmin.
  set (mz := fun (f : list R -> result (R * list R)) x0 => minimize (fun p => f (map cut p)) x0).
  destruct (C43_solve_ising n 0 sample (Some guess) mz Hn Hg Hs) as (f & x0 & mult & E & _ & H1 & H2 & H3).
  { intros f x Hx. now apply Hmin. }
  exists (fun r y => f r (map cut y)), x0, mult. cbv zeta. split; [rewrite typed_solver; exact E|]. split; [exact H1|]. split; [exact H2|]. split.
  - intros r y Hr Hy. exact (H3 r (map cut y) Hr ltac:(now rewrite map_length)).
  - intros r y Hr Hy Hu. f_equal. rewrite (map_ext_in _ (fun _ => 0)) by (intros u Hin; now apply cut_small, Hu).
    replace (map cut (repeat 0 n)) with (map (fun _ : R => 0) (repeat 0 n)).
    + clear - Hy. subst n. induction y as [|a y IH]; [reflexivity|]. cbn. now rewrite IH.
    + apply map_ext_in. intros u Hin. apply repeat_spec in Hin. subst u. symmetry. apply (cut_IZR 0).
Qed.
Print Assumptions C119_ising_objective.

(** "The parameters found do not depend on the element type of the guess" does not hold, even
    for exact data and a minimiser that finds minima: with it the float guess gives the true
    parameters and the same guess as integers gives another field. *)
Theorem C119_ising_refuted : forall (n : nat) (hJ : list R) (sample : list (list Z)) (guess : list R),
  (1 <= n)%nat -> length hJ = (n + n * (n - 1) / 2)%nat -> length guess = length hJ -> exact_sample n hJ sample ->
  exists minimize q, finds_minimum minimize /\
    (let solve := fun t => solve_ising_typed t (pseudo_ising_get_multipliers_r n) (pseudo_ising_calc_observables_r n) n (map (map IZR) sample) guess minimize in
     solve FloatGuess = Ok hJ /\ solve IntGuess = Ok q /\ nthR q 0 <> nthR hJ 0).
Proof.
  intros n hJ sample guess Hn Hh Hg Hex. set (c := nthR hJ 0).
  set (good := fun (f : list R -> result (R * list R)) (x0 y : list R) => pl_minimum f (length x0) y /\ nthR y 0 <> c).
  set (minimize := fun (f : list R -> result (R * list R)) (x0 : list R) =>
    if ClassicalEpsilon.excluded_middle_informative (exists y, good f x0 y) then ClassicalEpsilon.epsilon (inhabits []) (good f x0)
    else if ClassicalEpsilon.excluded_middle_informative (exists y, pl_minimum f (length x0) y) then ClassicalEpsilon.epsilon (inhabits []) (pl_minimum f (length x0))
    else repeat (c + 1) (length x0)).
  assert (FM : finds_minimum minimize).
  { intros f x0 y H. unfold minimize. destruct (ClassicalEpsilon.excluded_middle_informative _) as [T|T].
    - exact (proj1 (ClassicalEpsilon.epsilon_spec (inhabits []) (good f x0) T)).
    - destruct (ClassicalEpsilon.excluded_middle_informative _) as [U|U]; [exact (ClassicalEpsilon.epsilon_spec (inhabits []) _ U)|]. exfalso. apply U. now exists y. }
  assert (LM : forall f x, length x = n -> length (minimize f x) = n).
  { intros f x Hx. unfold minimize. destruct (ClassicalEpsilon.excluded_middle_informative _) as [T|T].
    - destruct (ClassicalEpsilon.epsilon_spec (inhabits []) (good f x) T) as [[A _] _]. congruence.
    - destruct (ClassicalEpsilon.excluded_middle_informative _) as [U|U]; [destruct (ClassicalEpsilon.epsilon_spec (inhabits []) _ U); congruence|]. now rewrite repeat_length. }
  pose proof (exact_spins n hJ sample Hex) as Hs. assert (Hg' : length guess = (n + n * (n - 1) / 2)%nat) by congruence.
  set (mz := fun (f : list R -> result (R * list R)) x0 => minimize (fun p => f (map cut p)) x0).
  assert (Ls : forall r, length (start n guess r) = n) by (intros r; unfold start; now rewrite map_length, seq_length).
  assert (SO := solve_ising_ok (pseudo_ising_get_multipliers_r n) (pseudo_ising_calc_observables_r n) n 0 (map (map IZR) sample) (Some guess) mz (ising_ix n) Hn Hg').
  cbv zeta in SO. exists minimize. eexists. split; [exact FM|]. cbv zeta. split; [|split].
  - rewrite (proj1 (C119_float n 0 0 _ _ (pseudo_potts_get_multipliers_r 0 0) (pseudo_potts_calc_observables_r 0 0) _ [] guess minimize (fun _ => 0) (fun _ => []) [])).
    apply C69_solve_ising_recovers; assumption.
  - rewrite typed_solver. apply SO.
    + intros r Hr. rewrite ising_get by assumption. eexists. reflexivity.
    + intros r Hr. unfold mz. now apply LM.
  - clear SO. unfold nthR at 1. rewrite app_nth1 by (rewrite map_length, seq_length; lia). rewrite nth_map_seq by lia. unfold mz.
    set (h := fun p => _). fold c. set (st := start n guess 0). assert (Lst : length st = n) by apply Ls. unfold minimize at 1.
    destruct (ClassicalEpsilon.excluded_middle_informative _) as [T|T]; [exact (proj2 (ClassicalEpsilon.epsilon_spec (inhabits []) (good h st) T))|].
    destruct (ClassicalEpsilon.excluded_middle_informative _) as [[y U]|U].
    + exfalso. apply T. destruct (Req_dec (nthR y 0) c) as [Ec|Nc]; [|exists y; now split].
      destruct U as (Ly & v & g & Ev & Min). destruct y as [|a y]; [cbn in Ly; lia|]. change (nthR (a :: y) 0) with a in Ec. subst a.
      destruct (cut_other c) as (b & Nb & Eb). exists (b :: y). split; [|exact Nb]. split; [exact Ly|]. exists v, g. split; [|exact Min].
      rewrite <- Ev. unfold h. cbn [map]. now rewrite Eb.
    + rewrite Lst. destruct n as [|n0]; [lia|]. cbn. unfold nthR. cbn. lra.
Qed.
Print Assumptions C119_ising_refuted.

(** ** Other models, MCH *)
(** _solve_general cannot be used with a guess of integers: wherever the float version of the
    objective has a value, the other one raises TypeError. *)
Theorem C119_general : forall get_r obs_r (n m : nat) sample params r,
  (1 <= n)%nat -> pseudo_general_f_typed FloatGuess get_r obs_r n m sample params = Ok r ->
  pseudo_general_f_typed IntGuess get_r obs_r n m sample params = Err TypeError.
Proof.
  intros get_r obs_r n m sample params r Hn H. unfold pseudo_general_f_typed in *. destruct n as [|n]; [lia|]. unfold range in *. cbn [seq foldM] in *.
  destruct (get_r 0%nat params) as [mi|]; [|discriminate]. cbn [bind] in *. destruct (pl_terms _ _ _) as [l d]. reflexivity.
Qed.
Print Assumptions C119_general.

(** Nor can MCH: wherever solve would succeed with floats, it raises TypeError with the same
    guess as integers. *)
Theorem C119_mch : forall (Smp W : Type) gen (mean_obs : Smp -> list R) approx guess constraints tol tolNorm maxiter c kw size (w : W) out,
  mch_solve gen mean_obs approx (Some constraints) (Some guess) None tol tolNorm maxiter c kw size w = Ok out ->
  mch_solve_typed FloatGuess gen mean_obs approx guess constraints tol tolNorm maxiter c kw size w = Ok out /\
  mch_solve_typed IntGuess gen mean_obs approx guess constraints tol tolNorm maxiter c kw size w = Err TypeError.
Proof.
  intros Smp W gen mean_obs approx guess constraints tol tolNorm maxiter c kw size w out H. unfold mch_solve in H. unfold mch_solve_typed.
  destruct (Nat.eqb (length guess) (length constraints)); [|discriminate]. cbn [bind] in H. split; [exact H|]. unfold mch_run in *.
  destruct (kw_eta _); [|discriminate]. destruct (gen w guess size) as [sw|]; [|discriminate]. cbn [bind] in *.
  destruct (vsub (mean_obs (fst sw)) constraints) as [err|]; [|discriminate]. cbn [bind] in *. cbn [mch_loop] in *. unfold learn_parameters_mch in *.
  destruct (learn_loop _ _ _ _ _ _ _ _ _ _ _) as [dl|]; [|discriminate]. reflexivity.
Qed.
Print Assumptions C119_mch.

Lemma map_snd_combine {A B} : forall (x : list A) (y : list B), length x = length y -> map snd (combine x y) = y.
Proof. induction x as [|a x IH]; intros [|b y] H; cbn in *; try lia; try reflexivity. f_equal. apply IH. lia. Qed.

Lemma NoDup_map_in {A B} (f : A -> B) l : (forall a b, In a l -> In b l -> f a = f b -> a = b) -> NoDup l -> NoDup (map f l).
Proof.
  induction l as [|a l IH]; intros H ND; [constructor|]. apply NoDup_cons_iff in ND. destruct ND as [Na ND]. cbn. constructor.
  - intros Hin. apply in_map_iff in Hin. destruct Hin as (b & Eb & Hb). apply Na. rewrite <- (H b a); [exact Hb|now right|now left|exact Eb].
  - apply IH; [|exact ND]. intros x y Hx Hy. apply H; now right.
Qed.

(** ** Potts *)
Lemma store_store t x : store t (store t x) = store t x.
Proof. destruct t; [reflexivity|]. cbn. destruct (cut_spec x) as (z & -> & _). apply cut_IZR. Qed.

Lemma foldM_add_typed t {A} (pos : A -> result nat) (tgt : A -> nat) (w : A -> R) : forall l dll,
  (forall a, In a l -> pos a = Ok (tgt a) /\ (tgt a < length dll)%nat) -> NoDup (map tgt l) -> (forall j, store t (nthR dll j) = nthR dll j) ->
  exists dll', foldM (fun dll a => bind (pos a) (fun i => add_to_typed t dll i (w a))) l dll = Ok dll' /\ length dll' = length dll /\
    forall j, nthR dll' j = store t (nthR dll j + sumf l (fun a => if Nat.eqb (tgt a) j then w a else 0)).
Proof.
  induction l as [|a l IH]; intros dll H ND Hst.
  - exists dll. split; [reflexivity|]. split; [reflexivity|]. intros j. rewrite sumf_nil, Rplus_0_r. symmetry. apply Hst.
  - destruct (H a (or_introl eq_refl)) as [Ha Hl]. cbn [foldM]. rewrite Ha. cbn [bind]. unfold add_to_typed at 1. rewrite (get_nth 0) by assumption. cbn [bind].
    cbn [map] in ND. apply NoDup_cons_iff in ND. destruct ND as [Na ND].
    destruct (IH (upd dll (tgt a) (store t (nth (tgt a) dll 0 + w a)))) as (dll' & E & L & Hj).
    { intros b Hb. rewrite upd_length. apply H. now right. }
    { exact ND. }
    { intros j. destruct (Nat.eq_dec (tgt a) j) as [<-|Hne]; [rewrite nthR_upd_same by assumption; apply store_store|]. rewrite nthR_upd_other by assumption. apply Hst. }
    exists dll'. split; [exact E|]. split; [now rewrite L, upd_length|]. intros j. rewrite Hj, sumf_cons. destruct (Nat.eqb_spec (tgt a) j) as [<-|Hne].
    + rewrite nthR_upd_same by assumption. rewrite (sumf_zero l).
      * rewrite !Rplus_0_r. apply store_store.
      * intros b Hb. destruct (Nat.eqb_spec (tgt b) (tgt a)) as [Eb|]; [|reflexivity]. exfalso. apply Na. rewrite <- Eb. now apply in_map.
    + rewrite nthR_upd_other by assumption. now rewrite Rplus_0_l.
Qed.

Section Objective.
Variables (t : guess_type) (n k : nat) (sample : list (list nat)) (p : list R).
Hypothesis Hs : forall x, In x sample -> length x = n /\ forall v, In v x -> (v < k)%nat.
Hypothesis Hp : length p = (k * n + n * (n - 1) / 2)%nat.

Definition spin_slope (r j : nat) : R := sumf sample (fun x => potts_dterm n k r x p j).

Lemma potts_typed_ok cost cost_jac : exists grad,
  pseudo_potts_f_typed t (pseudo_potts_get_multipliers_r n k) (pseudo_potts_calc_observables_r n k) n k (length p) sample cost cost_jac p =
    Ok (sumf (seq 0 n) (fun r => sumf sample (fun x => ln (potts_D n k r x p))) + cost p, grad) /\ length grad = length p /\
  forall j, (j < length p)%nat -> nthR grad j = - fold_left (fun d r => store t (d + - spin_slope r j)) (seq 0 n) 0 + nthR (cost_jac p) j.
Proof using Hs Hp.
  unfold pseudo_potts_f_typed.
  set (body := fun (st : R * list R) (r : nat) => _).
  assert (S0 : store t 0 = 0) by (destruct t; [reflexivity|apply (cut_IZR 0)]).
  assert (L : forall m, (m <= n)%nat -> exists dll, foldM body (range m) (0, repeat 0 (length p)) =
     Ok (- sumf (seq 0 m) (fun r => sumf sample (fun x => ln (potts_D n k r x p))), dll) /\ length dll = length p /\
     (forall j, store t (nthR dll j) = nthR dll j) /\
     forall j, nthR dll j = fold_left (fun d r => store t (d + - spin_slope r j)) (seq 0 m) 0).
  { induction m as [|m IH]; intros Hm.
    - exists (repeat 0 (length p)). cbn [range seq foldM fold_left]. rewrite sumf_nil, Ropp_0. split; [reflexivity|]. split; [apply repeat_length|].
      assert (N0 : forall j, nthR (repeat 0 (length p)) j = 0) by (intros j; unfold nthR; apply nth_repeat).
      split; intros j; rewrite N0; [exact S0|reflexivity].
    - destruct (IH ltac:(lia)) as (dll & E & Ld & Hst & H). unfold range in *. rewrite seq_S. change (0 + m)%nat with m. rewrite foldM_app, E. cbn [bind foldM].
      set (ll := - sumf (seq 0 m) _).
      assert (Hr : (m < n)%nat) by lia.
      set (ix := potts_ixs n k m). set (mult := map (nthR p) ix). set (oc := pseudo_potts_calc_observables_r n k m).
      set (den := fun x => - exp (- potts_ll mult (oc x))).
      destruct (foldM_add_typed t (get ix) (fun h => m + n * h)%nat (fun h => sumf sample (fun x => potts_num_field k m h mult x (oc x) / den x)) (seq 0 k) dll) as (d1 & E1 & L1 & H1).
      { intros h Hh. apply in_seq in Hh. split.
        - rewrite (get_nth 0%nat) by (unfold ix, potts_ixs; rewrite app_length, !map_length, seq_length; lia).
          unfold ix, potts_ixs. rewrite app_nth1 by (rewrite map_length, seq_length; lia). rewrite nth_map_seq by lia. reflexivity.
        - rewrite Ld, Hp. nia. }
      { apply FinFun.Injective_map_NoDup; [intros a b Hab; nia|apply seq_NoDup]. }
      { exact Hst. }
      set (tgt := fun i => (k * n + (if Nat.ltb i m then pair_index n i m else pair_index n m i))%nat).
      destruct (foldM_add_typed t (fun ij : nat * nat => get ix (fst ij + k)) (fun ij => tgt (snd ij))
         (fun ij => sumf sample (fun x => potts_num_coupling k m (snd ij) mult x (oc x) / den x)) (combine (seq 0 (n - 1)) (others n m)) d1) as (d2 & E2 & L2 & H2).
      { intros [i j] Hij. cbn [fst snd].
        assert (Hi : (i < n - 1)%nat /\ j = nth i (others n m) 0%nat).
        { destruct (In_nth _ _ (0, 0)%nat Hij) as (q & Hq & Eq). rewrite combine_length, seq_length, others_length in Hq by assumption.
          rewrite nth_combine in Eq by (rewrite seq_length, others_length; lia). injection Eq as <- <-. rewrite seq_nth by lia. split; [lia|reflexivity]. }
        destruct Hi as [Hi ->].
        assert (Li : length ix = (k + (n - 1))%nat) by (unfold ix, potts_ixs; rewrite app_length, !map_length, seq_length, others_length; lia).
        assert (Ei : nth (i + k) ix 0%nat = tgt (nth i (others n m) 0%nat)).
        { unfold ix, potts_ixs. rewrite app_nth2 by (rewrite map_length, seq_length; lia). rewrite map_length, seq_length. replace (i + k - k)%nat with i by lia.
          fold tgt. rewrite (nth_indep _ 0%nat (tgt 0%nat)) by (rewrite map_length, others_length; lia). now rewrite (map_nth tgt). }
        split; [rewrite (get_nth 0%nat) by lia; now rewrite Ei|]. rewrite <- Ei, L1, Ld, Hp. apply (potts_ixs_range n k m); [assumption|]. apply nth_In. fold ix. lia. }
      { rewrite <- (map_map snd tgt). assert (Es : map snd (combine (seq 0 (n - 1)) (others n m)) = others n m).
        { apply map_snd_combine. rewrite seq_length, others_length; lia. }
        rewrite Es. apply NoDup_map_in; [|apply NoDup_filter, seq_NoDup]. intros a b Ha Hb Hab. apply in_others in Ha. apply in_others in Hb.
        apply (pix_inj n m); try lia. unfold pix. unfold tgt in Hab. lia. }
      { intros j. rewrite H1. apply store_store. }
      assert (B : body (ll, dll) m = Ok (ll + sumf sample (fun x => potts_ll mult (oc x)), d2)).
      { unfold body. rewrite potts_get by assumption. cbn [bind fst snd]. fold ix. fold mult. unfold range.
        fold (others n m). fold oc. unfold den in E1, E2. rewrite E1. cbn [bind]. rewrite E2. reflexivity. }
      rewrite B. cbn [bind]. exists d2.
      assert (V : forall x, In x sample -> potts_ll mult (oc x) = - ln (potts_D n k m x p) /\ den x = - potts_D n k m x p).
      { intros x Hx. pose proof (potts_ll_eq n k m x Hr p) as Q. fold ix mult in Q. change (pseudo_potts_calc_observables_r n k m x) with (oc x) in Q.
        split; [exact Q|]. unfold den. rewrite Q, Ropp_involutive, exp_ln; [reflexivity|]. pose proof (potts_D_pos n k m x p). lra. }
      split; [|split; [congruence|]].
      + f_equal. f_equal. rewrite sumf_app, sumf_cons, sumf_nil. unfold ll. rewrite (sumf_ext_in sample _ (fun x => - ln (potts_D n k m x p))) by (intros x Hx; now apply V).
        rewrite sumf_opp. ring.
      + split; [intros j; rewrite H2; apply store_store|].
        intros j. rewrite H2, H1, fold_left_app. cbn [fold_left]. rewrite <- H.
        rewrite (combine_seq_snd_n n m Hr (fun i => if Nat.eqb (tgt i) j then sumf sample (fun x => potts_num_coupling k m i mult x (oc x) / den x) else 0)).
        assert (SP : - spin_slope m j = sumf (seq 0 k) (fun h => if Nat.eqb (m + n * h) j then sumf sample (fun x => potts_num_field k m h mult x (oc x) / den x) else 0) +
          sumf (others n m) (fun i => if Nat.eqb (tgt i) j then sumf sample (fun x => potts_num_coupling k m i mult x (oc x) / den x) else 0)).
        { unfold spin_slope. rewrite (sumf_ext_in sample (fun x => potts_dterm n k m x p j) (fun x =>
            sumf (seq 0 k) (fun h => if Nat.eqb (m + n * h) j then potts_num_field k m h mult x (oc x) / potts_D n k m x p else 0) +
            sumf (others n m) (fun i => if Nat.eqb (tgt i) j then potts_num_coupling k m i mult x (oc x) / potts_D n k m x p else 0))).
          2:{ intros x Hx. apply (potts_dterm_eq n k m x Hr). destruct (Hs x Hx) as [Lx Vx]; apply Vx, nth_In; lia. }
          rewrite sumf_plus, (sumf_swap sample (seq 0 k)), (sumf_swap sample (others n m)).
          assert (G : forall (c : list nat -> R), sumf sample (fun x => c x / den x) = - sumf sample (fun x => c x / potts_D n k m x p)).
          { intros c. rewrite <- sumf_opp. apply sumf_ext_in. intros x Hx. rewrite (proj2 (V x Hx)). pose proof (potts_D_pos n k m x p). field. lra. }
          rewrite (sumf_ext (seq 0 k) (fun h => if Nat.eqb (m + n * h) j then _ else 0) (fun h => - sumf sample (fun x => if Nat.eqb (m + n * h) j then potts_num_field k m h mult x (oc x) / potts_D n k m x p else 0))).
          2:{ intros h. destruct (Nat.eqb _ j); [apply G|]. rewrite sumf_zero by (intros; reflexivity). ring. }
          rewrite (sumf_ext (others n m) (fun i => if Nat.eqb (tgt i) j then sumf sample _ else 0) (fun i => - sumf sample (fun x => if Nat.eqb (tgt i) j then potts_num_coupling k m i mult x (oc x) / potts_D n k m x p else 0))).
          2:{ intros i. destruct (Nat.eqb _ j); [apply G|]. rewrite sumf_zero by (intros; reflexivity). ring. }
          rewrite !sumf_opp. ring. }
        rewrite SP. destruct (Nat.ltb_spec j (k * n)) as [Hj|Hj].
        * rewrite (sumf_zero (others n m)).
          { rewrite !Rplus_0_r. apply store_store. }
          intros i _. destruct (Nat.eqb_spec (tgt i) j) as [Et|]; [unfold tgt in Et; lia|reflexivity].
        * rewrite (sumf_zero (seq 0 k)).
          { rewrite Rplus_0_r, Hst, Rplus_0_l. reflexivity. }
          intros h Hh. apply in_seq in Hh. destruct (Nat.eqb_spec (m + n * h) j) as [Et|]; [nia|reflexivity]. }
  destruct (L n (Nat.le_refl _)) as (dll & E & Ld & _ & H). rewrite E. cbn [bind fst snd]. eexists. split; [rewrite Ropp_involutive; reflexivity|].
  split; [unfold range; now rewrite map_length, seq_length|]. intros j Hj. unfold nthR at 1, range. rewrite nth_map_seq by assumption. rewrite H. ring.
Qed.
End Objective.

Lemma fold_still t (T : nat -> R) : forall l d, (forall r, In r l -> T r = 0) -> store t d = d -> fold_left (fun d r => store t (d + - T r)) l d = d.
Proof.
  induction l as [|r l IH]; intros d HT Hd; [reflexivity|]. cbn [fold_left]. rewrite (HT r (or_introl eq_refl)), Ropp_0, Rplus_0_r, Hd. apply IH; [|exact Hd]. intros q Hq. apply HT. now right.
Qed.

Lemma fold_one t (T : nat -> R) n i : (i < n)%nat -> (forall r, (r < n)%nat -> r <> i -> T r = 0) ->
  fold_left (fun d r => store t (d + - T r)) (seq 0 n) 0 = store t (- T i).
Proof.
  intros Hi HT. assert (S0 : store t 0 = 0) by (destruct t; [reflexivity|apply (cut_IZR 0)]).
  replace n with (i + S (n - 1 - i))%nat by lia. rewrite seq_app, fold_left_app. cbn [Nat.add seq fold_left].
  rewrite (fold_still t T (seq 0 i) 0) by (try exact S0; intros r Hr; apply in_seq in Hr; apply HT; lia).
  rewrite Rplus_0_l. apply fold_still; [|apply store_store]. intros r Hr. apply in_seq in Hr. apply HT; lia.
Qed.

Lemma fold_two t (T : nat -> R) n a b : (a < b)%nat -> (b < n)%nat -> (forall r, (r < n)%nat -> r <> a -> r <> b -> T r = 0) ->
  fold_left (fun d r => store t (d + - T r)) (seq 0 n) 0 = store t (store t (- T a) + - T b).
Proof.
  intros Hab Hb HT.
  replace n with (b + S (n - 1 - b))%nat by lia. rewrite seq_app, fold_left_app. cbn [Nat.add seq fold_left].
  rewrite (fold_one t T b a Hab) by (intros r Hr Hne; apply HT; lia).
  apply fold_still; [|apply store_store]. intros r Hr. apply in_seq in Hr. apply HT; lia.
Qed.

(** Where the derivatives of one spin's term vanish. *)
Lemma slope_field n k sample p r u i : (forall x, In x sample -> length x = n /\ forall v, In v x -> (v < k)%nat) ->
  (r < n)%nat -> (i < n)%nat -> (u < k)%nat -> r <> i -> spin_slope n k sample p r (u * n + i) = 0.
Proof.
  intros Hs Hr Hi Hu Hne. unfold spin_slope. apply sumf_zero. intros x Hx. rewrite (potts_dterm_eq n k r x Hr) by (destruct (Hs x Hx) as [Lx Vx]; apply Vx, nth_In; lia).
  rewrite !sumf_zero; [ring| |].
  - intros j Hj. apply in_others in Hj. destruct (Nat.eqb_spec (k * n + (if Nat.ltb j r then pair_index n j r else pair_index n r j)) (u * n + i)); [nia|reflexivity].
  - intros h Hh. destruct (Nat.eqb_spec (r + n * h) (u * n + i)) as [E|]; [|reflexivity]. exfalso. apply Hne.
    assert (Hm : forall v a, (a < n)%nat -> ((a + n * v) mod n = a)%nat) by (intros v a Ha; rewrite Nat.mul_comm, Nat.mod_add by lia; now apply Nat.mod_small).
    rewrite <- (Hm h r Hr), <- (Hm u i Hi). f_equal. lia.
Qed.

Lemma slope_coupling n k sample p r a b : (forall x, In x sample -> length x = n /\ forall v, In v x -> (v < k)%nat) ->
  (r < n)%nat -> (a < b)%nat -> (b < n)%nat -> r <> a -> r <> b -> spin_slope n k sample p r (k * n + pair_index n a b) = 0.
Proof.
  intros Hs Hr Hab Hb Ha' Hb'. unfold spin_slope. apply sumf_zero. intros x Hx. rewrite (potts_dterm_eq n k r x Hr) by (destruct (Hs x Hx) as [Lx Vx]; apply Vx, nth_In; lia).
  rewrite !sumf_zero; [ring| |].
  - intros j Hj. apply in_others in Hj. destruct (Nat.ltb_spec j r).
    + destruct (Nat.eqb_spec (k * n + pair_index n j r) (k * n + pair_index n a b)); [|reflexivity]. destruct (pair_index_inj n j r a b); lia.
    + destruct (Nat.eqb_spec (k * n + pair_index n r j) (k * n + pair_index n a b)); [|reflexivity]. destruct (pair_index_inj n r j a b); lia.
  - intros h Hh. apply in_seq in Hh. destruct (Nat.eqb_spec (r + n * h) (k * n + pair_index n a b)); [nia|reflexivity].
Qed.

(** _solve_potts with a guess of integers: the value is right, but the gradient is not.  With D
    the derivatives of the spins' terms, the derivative with respect to a field loses its
    fraction, and that with respect to a coupling loses it twice. *)
Theorem C119_potts_gradient : forall (n k : nat) (sample : list (list nat)) (p : list R),
  (forall x, In x sample -> length x = n /\ forall v, In v x -> (v < k)%nat) -> length p = (k * n + n * (n - 1) / 2)%nat ->
  let f := fun t => pseudo_potts_f_typed t (pseudo_potts_get_multipliers_r n k) (pseudo_potts_calc_observables_r n k) n k (length p) sample (fun _ => 0) (fun _ => []) p in
  exists v gf gi (D : nat -> nat -> R), f FloatGuess = Ok (v, gf) /\ f IntGuess = Ok (v, gi) /\ length gf = length p /\ length gi = length p /\
    v = sumf (seq 0 n) (neg_log_pl_potts n k p sample) /\
    (forall r j, (r < n)%nat -> (j < length p)%nat -> is_derive (fun t : R => neg_log_pl_potts n k (upd p j t) sample r) (nthR p j) (D r j)) /\
    (forall i u, (i < n)%nat -> (u < k)%nat -> nthR gf (u * n + i) = D i (u * n + i)%nat /\ nthR gi (u * n + i) = cut (D i (u * n + i)%nat)) /\
    (forall a b, (a < b)%nat -> (b < n)%nat -> let j := (k * n + pair_index n a b)%nat in nthR gf j = D a j + D b j /\ nthR gi j = cut (cut (D a j) + D b j)).
Proof.
  intros n k sample p Hs Hp f.
  destruct (potts_typed_ok FloatGuess n k sample p Hs Hp (fun _ => 0) (fun _ => [])) as (gf & Ef & Lf & Hf).
  destruct (potts_typed_ok IntGuess n k sample p Hs Hp (fun _ => 0) (fun _ => [])) as (gi & Ei & Li & Hi).
  exists (sumf (seq 0 n) (fun r => sumf sample (fun x => ln (potts_D n k r x p))) + 0), gf, gi, (spin_slope n k sample p).
  assert (V : forall q r, (r < n)%nat -> neg_log_pl_potts n k q sample r = sumf sample (fun x => ln (potts_D n k r x q))).
  { intros q r Hr. unfold neg_log_pl_potts. rewrite <- sumf_opp. apply sumf_ext_in. intros x Hx. destruct (Hs x Hx). symmetry. now apply potts_D_cond. }
  assert (N0 : forall j, nthR (@nil R) j = 0) by (intros [|j]; reflexivity).
  split; [exact Ef|]. split; [exact Ei|]. split; [exact Lf|]. split; [exact Li|]. split.
  { rewrite Rplus_0_r. apply sumf_ext_in. intros r Hr. apply in_seq in Hr. symmetry. apply V. lia. }
  split.
  { intros r j Hr Hj. apply (is_derive_ext (fun t : R => sumf sample (fun x => ln (potts_D n k r x (upd p j t))))); [intros t; symmetry; now apply V|].
    apply (is_derive_sumf sample (fun t x => ln (potts_D n k r x (upd p j t)))). intros x Hx. now apply potts_D_derive. }
  split.
  - intros i u Hin Hu. rewrite Hf, Hi by (rewrite Hp; nia). rewrite !N0.
    rewrite !(fold_one _ (fun r => spin_slope n k sample p r (u * n + i)) n i Hin) by (intros r Hr Hne; now apply slope_field). cbn [store]. rewrite cut_opp. split; ring.
  - intros a b Hab Hb j. pose proof (pair_index_lt n a b Hab Hb). rewrite Hf, Hi by (unfold j; lia). rewrite !N0.
    rewrite !(fold_two _ (fun r => spin_slope n k sample p r j) n a b Hab Hb) by (intros r Hr Ha' Hb'; now apply slope_coupling). cbn [store].
    split; [ring|]. rewrite cut_opp. replace (- cut (spin_slope n k sample p a j) + - spin_slope n k sample p b j) with (- (cut (spin_slope n k sample p a j) + spin_slope n k sample p b j)) by ring.
    rewrite cut_opp. ring.
Qed.
Print Assumptions C119_potts_gradient.

(** Size of one row's terms. *)
Section Row.
Variables (n k r : nat) (x : list nat) (p : list R).
Hypothesis Hr : (r < n)%nat.
Hypothesis Hx : (nth r x 0 < k)%nat.
Let E st := exp (dot (obs_st n k r x st) (map (nthR p) (potts_ixs n k r)) - dot (obs_st n k r x (nth r x 0%nat)) (map (nthR p) (potts_ixs n k r))).

Lemma row_ratio (c : nat -> R) : (forall st, Rabs (c st) <= 1) -> Rabs (sumf (others k (nth r x 0%nat)) (fun st => c st * E st) / potts_D n k r x p) < 1.
Proof using.
  intros Hc. pose proof (potts_D_pos n k r x p) as HD. unfold Rdiv. rewrite Rabs_mult, (Rabs_right (/ potts_D n k r x p)) by (left; apply Rinv_0_lt_compat; lra).
  apply (Rmult_lt_reg_r (potts_D n k r x p)); [lra|]. rewrite Rmult_assoc, Rinv_l, Rmult_1_l, Rmult_1_r by lra.
  apply (Rle_lt_trans _ (sumf (others k (nth r x 0%nat)) E)).
  - eapply Rle_trans; [apply sumf_abs_le|]. apply sumf_le. intros st _. rewrite Rabs_mult, (Rabs_right (E st)) by (left; apply exp_pos).
    pose proof (exp_pos (dot (obs_st n k r x st) (map (nthR p) (potts_ixs n k r)) - dot (obs_st n k r x (nth r x 0%nat)) (map (nthR p) (potts_ixs n k r)))). fold (E st) in H. specialize (Hc st). nra.
  - unfold potts_D. fold E. change (sumf (others k (nth r x 0%nat)) E < sumf (others k (nth r x 0%nat)) E + 1). lra.
Qed.

Lemma b2R_diff a b : Rabs (b2R a - b2R b) <= 1.
Proof. destruct a, b; cbn; unfold Rabs; destruct (Rcase_abs _); lra. Qed.

Lemma row_field u : (u < k)%nat -> potts_dterm n k r x p (u * n + r) = potts_num_field k r u (map (nthR p) (potts_ixs n k r)) x (pseudo_potts_calc_observables_r n k r x) / potts_D n k r x p.
Proof using Hr Hx.
  intros Hu. rewrite potts_dterm_eq by assumption. rewrite (sumf_zero (others n r)).
  2:{ intros j _. destruct (Nat.eqb_spec (k * n + (if Nat.ltb j r then pair_index n j r else pair_index n r j)) (u * n + r)); [nia|reflexivity]. }
  rewrite Rplus_0_r. rewrite (sumf_ext _ _ (fun h => if Nat.eqb u h then potts_num_field k r h (map (nthR p) (potts_ixs n k r)) x (pseudo_potts_calc_observables_r n k r x) / potts_D n k r x p else 0)).
  - apply Props_PottsGauge.sum_delta. exact Hu.
  - intros h. destruct (Nat.eqb_spec (r + n * h) (u * n + r)), (Nat.eqb_spec u h); try reflexivity; exfalso; nia.
Qed.

Lemma row_field_small u : (u < k)%nat -> Rabs (potts_dterm n k r x p (u * n + r)) < 1.
Proof using Hr Hx. intros Hu. rewrite row_field by exact Hu. rewrite potts_num_field_eq by assumption. apply (row_ratio (fun st => b2R (Nat.eqb st u) - b2R (Nat.eqb (nth r x 0%nat) u))). intros st. apply b2R_diff. Qed.

Lemma row_own : (2 <= k)%nat -> potts_dterm n k r x p (nth r x 0%nat * n + r) < 0.
Proof using Hr Hx.
  intros Hk. rewrite row_field by exact Hx. rewrite potts_num_field_eq by assumption. rewrite Nat.eqb_refl.
  pose proof (potts_D_pos n k r x p) as HD. unfold Rdiv. apply Ropp_lt_cancel. rewrite Ropp_0, Ropp_mult_distr_l, <- sumf_opp.
  apply Rmult_lt_0_compat; [|apply Rinv_0_lt_compat; lra]. apply sumf_pos.
  - intros En. assert (In (if Nat.eqb (nth r x 0%nat) 0 then 1 else 0)%nat (others k (nth r x 0%nat))) as Hin by (apply in_others; destruct (Nat.eqb_spec (nth r x 0%nat) 0); lia). rewrite En in Hin. destruct Hin.
  - intros st Hst. apply in_others in Hst. destruct (Nat.eqb_spec st (nth r x 0%nat)); [lia|]. cbn [b2R]. pose proof (exp_pos (dot (obs_st n k r x st) (map (nthR p) (potts_ixs n k r)) - dot (obs_st n k r x (nth r x 0%nat)) (map (nthR p) (potts_ixs n k r)))). lra.
Qed.

Lemma row_coupling_small j : (j < n)%nat -> j <> r ->
  Rabs (potts_dterm n k r x p (k * n + (if Nat.ltb j r then pair_index n j r else pair_index n r j))) < 1.
Proof using Hr Hx.
  intros Hj Hne. rewrite potts_dterm_eq by assumption. rewrite (sumf_zero (seq 0 k)).
  2:{ intros h Hh. apply in_seq in Hh. destruct (Nat.eqb_spec (r + n * h) (k * n + (if Nat.ltb j r then pair_index n j r else pair_index n r j))); [nia|reflexivity]. }
  rewrite Rplus_0_l.
  rewrite (sumf_ext_in _ _ (fun i => if Nat.eqb j i then potts_num_coupling k r i (map (nthR p) (potts_ixs n k r)) x (pseudo_potts_calc_observables_r n k r x) / potts_D n k r x p else 0)).
  - rewrite (sumf_filter (fun i => negb (Nat.eqb i r)) (seq 0 n)).
    rewrite (sumf_ext _ _ (fun i => if Nat.eqb j i then (potts_num_coupling k r i (map (nthR p) (potts_ixs n k r)) x (pseudo_potts_calc_observables_r n k r x) / potts_D n k r x p) else 0)).
    + rewrite Props_PottsGauge.sum_delta by exact Hj. rewrite potts_num_coupling_eq by assumption.
      apply (row_ratio (fun st => b2R (Nat.eqb (nth j x 0%nat) st) - b2R (Nat.eqb (nth j x 0%nat) (nth r x 0%nat)))). intros st. apply b2R_diff.
    + intros i. destruct (Nat.eqb_spec i r), (Nat.eqb_spec j i); cbn; try reflexivity; subst; congruence.
  - intros i Hi. apply in_others in Hi. destruct (Nat.eqb_spec j i) as [->|N]; [now rewrite Nat.eqb_refl|].
    destruct (Nat.eqb_spec (k * n + (if Nat.ltb i r then pair_index n i r else pair_index n r i)) (k * n + (if Nat.ltb j r then pair_index n j r else pair_index n r j))) as [Eq|]; [|reflexivity].
    exfalso. apply N. apply (pix_inj n r); try lia. unfold pix. lia.
Qed.
End Row.

(** "The minimiser receives the gradient" does not hold for a guess of integers: for every data
    set of one row and all parameters the gradient is not zero, but the one computed is zero in
    all components, so that every starting point looks like a minimum. *)
Theorem C119_potts_refuted : forall (n k : nat) (x : list nat) (p : list R),
  (1 <= n)%nat -> (2 <= k)%nat -> length x = n -> (forall v, In v x -> (v < k)%nat) -> length p = (k * n + n * (n - 1) / 2)%nat ->
  let f := fun t => pseudo_potts_f_typed t (pseudo_potts_get_multipliers_r n k) (pseudo_potts_calc_observables_r n k) n k (length p) [x] (fun _ => 0) (fun _ => []) p in
  exists v gf gi, f FloatGuess = Ok (v, gf) /\ f IntGuess = Ok (v, gi) /\
    nthR gf (nth 0 x 0%nat * n) < 0 /\
    is_derive (fun t : R => sumf (seq 0 n) (neg_log_pl_potts n k (upd p (nth 0 x 0%nat * n) t) [x])) (nthR p (nth 0 x 0%nat * n)) (nthR gf (nth 0 x 0%nat * n)) /\
    gi = repeat 0 (length p).
Proof.
  intros n k x p Hn Hk Lx Vx Hp f.
  assert (Hs : forall y, In y [x] -> length y = n /\ forall v, In v y -> (v < k)%nat) by (intros y [<-|[]]; now split).
  destruct (potts_typed_ok FloatGuess n k [x] p Hs Hp (fun _ => 0) (fun _ => [])) as (gf & Ef & Lf & Hf).
  destruct (potts_typed_ok IntGuess n k [x] p Hs Hp (fun _ => 0) (fun _ => [])) as (gi & Ei & Li & Hi).
  assert (N0 : forall j, nthR (@nil R) j = 0) by (intros [|j]; reflexivity).
  assert (Vr : forall r, (r < n)%nat -> (nth r x 0 < k)%nat) by (intros r Hr; apply Vx, nth_In; lia).
  assert (SS : forall r j, spin_slope n k [x] p r j = potts_dterm n k r x p j) by (intros r j; unfold spin_slope; rewrite sumf_cons, sumf_nil; ring).
  do 3 eexists. split; [exact Ef|]. split; [exact Ei|].
  set (j0 := (nth 0 x 0%nat * n)%nat). assert (Hj0 : (j0 < length p)%nat) by (specialize (Vr 0%nat ltac:(lia)); unfold j0; rewrite Hp; nia).
  split; [|split].
  - rewrite Hf by exact Hj0. rewrite N0. replace j0 with (nth 0 x 0%nat * n + 0)%nat by (unfold j0; lia).
    rewrite (fold_one FloatGuess (fun r => spin_slope n k [x] p r (nth 0 x 0%nat * n + 0)) n 0 ltac:(lia)).
    + cbn [store]. rewrite SS. pose proof (row_own n k 0 x p ltac:(lia) (Vr 0%nat ltac:(lia)) Hk). lra.
    + intros r Hr Hne. apply slope_field; [exact Hs|lia|lia|apply Vr; lia|lia].
  - destruct (C41_potts_objective n k [x] p (fun _ => 0) (fun _ => []) Hs Hp) as (g & Eg & _ & _ & Dg).
    + intros j Hj. rewrite N0. apply (is_derive_const (V := R_NormedModule) 0 (nthR p j)).
    + assert (Eq : f FloatGuess = Ok (sumf (seq 0 n) (neg_log_pl_potts n k p [x]) + 0, g)) by exact Eg. unfold f in Eq. rewrite Ef in Eq. injection Eq as _ <-.
      apply (is_derive_ext (fun t : R => sumf (seq 0 n) (neg_log_pl_potts n k (upd p j0 t) [x]) + 0)); [intros t; apply Rplus_0_r|]. now apply Dg.
  - apply (list_eq_nth 0); [now rewrite repeat_length|]. intros j Hj. rewrite Li in Hj. rewrite nth_repeat. change (nthR gi j = 0). rewrite Hi by exact Hj. rewrite N0.
    destruct (Nat.ltb_spec j (k * n)) as [Hf'|Hc].
    + pose proof (Nat.div_mod j n ltac:(lia)) as Dj. pose proof (Nat.mod_upper_bound j n ltac:(lia)) as Bj.
      assert (Hu : (j / n < k)%nat) by (apply Nat.div_lt_upper_bound; lia).
      replace j with (j / n * n + j mod n)%nat by lia.
      rewrite (fold_one IntGuess (fun r => spin_slope n k [x] p r (j / n * n + j mod n)) n (j mod n) Bj) by (intros r Hr Hne; now apply slope_field).
      cbn [store]. rewrite SS, cut_small; [ring|]. rewrite Rabs_Ropp. apply row_field_small; [exact Bj|now apply Vr|exact Hu].
    + destruct (pair_index_nth n (j - k * n) ltac:(lia)) as (Ej & Hab & Hb). set (a := fst (nth (j - k * n) (pairs (seq 0 n)) (0, 0)%nat)) in *. set (b := snd (nth (j - k * n) (pairs (seq 0 n)) (0, 0)%nat)) in *.
      replace j with (k * n + pair_index n a b)%nat by lia.
      rewrite (fold_two IntGuess (fun r => spin_slope n k [x] p r (k * n + pair_index n a b)) n a b Hab Hb) by (intros r Hr Ha' Hb'; now apply slope_coupling).
      cbn [store]. rewrite !SS.
      pose proof (row_coupling_small n k a x p ltac:(lia) (Vr a ltac:(lia)) b Hb ltac:(lia)) as Ca. destruct (Nat.ltb_spec b a); [lia|].
      pose proof (row_coupling_small n k b x p Hb (Vr b Hb) a ltac:(lia) ltac:(lia)) as Cb. destruct (Nat.ltb_spec a b); [|lia].
      rewrite (cut_small (- potts_dterm n k a x p _)) by (now rewrite Rabs_Ropp). rewrite Rplus_0_l, cut_small by (now rewrite Rabs_Ropp). ring.
Qed.
Print Assumptions C119_potts_refuted.

(** Casts; the two-spin data of C69 and a guess for them; a run of MCH that succeeds with a float
    guess; a row of Potts data. *)
Example C119_example : cut 1.7 = 1 /\ cut (-1.7) = -1 /\ cut (1 / 2) = 0 /\
  exact_sample 2 [0; 0; ln 2 / 2] [[1; 1]; [1; 1]; [-1; -1]; [-1; -1]; [1; -1]; [-1; 1]]%Z /\ length [0; 0; 1] = length [0; 0; ln 2 / 2] /\
  (exists out, mch_solve (fun (w : unit) (_ : list R) (_ : nat) => Ok (tt, w)) (fun _ => [1]) (fun _ _ => Ok [1]) (Some [0]) (Some [3]) None None None 5
     ConvNone {| kw_maxdlamda := Some 1; kw_maxdlamdaNorm := None; kw_maxLearningSteps := Some 3%nat; kw_eta := Some 1 |} 100 tt = Ok out) /\
  (exists r, pseudo_general_f_typed FloatGuess (pseudo_ising_get_multipliers_r 2) (pseudo_ising_calc_observables_r 2) 2 3 [[1; -1]; [1; 1]] [0; 0; 1] = Ok r) /\
  length [0; 2; 1]%nat = 3%nat /\ (forall v, In v [0; 2; 1]%nat -> (v < 3)%nat).
Proof.
  split; [apply (cut_eq _ 1); left; lra|]. split; [apply (cut_eq _ (-1)); right; lra|]. split; [apply (cut_eq _ 0); left; lra|].
  split; [exact (proj1 C69_example)|]. split; [reflexivity|]. split; [|split; [|split; [reflexivity|]]].
  - apply Props_MCH.C39_solve_terminates.
    + intros w m size _. eexists. reflexivity.
    + reflexivity.
    + intros s d _. eexists. split; reflexivity.
    + intros g Hg. injection Hg as <-. reflexivity.
    + cbn. discriminate.
  - destruct (C40_general_objective 2 [[1; -1]; [1; 1]] [0; 0; 1]) as (g & E & _).
    + intros s Hs. cbn in Hs. destruct Hs as [<-|[<-|[]]]; (split; [reflexivity|]); intros u Hu; cbn in Hu; intuition lra.
    + reflexivity.
    + eexists. exact E.
  - intros v Hv. cbn in Hv. lia.
Qed.
