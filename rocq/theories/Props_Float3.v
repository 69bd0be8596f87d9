(** * C91: rounding in the written equation files *)
From Coq Require Import Ascii String.
From Flocq Require Import Core.
From Verif Require Import Prelude Spec PreludeFacts M_Index M_Enum P_Index P_Enum Props_Enum M_Float P_Float M_FloatEnum P_Float3 P_Float4.
Import ListNotations.
Local Open Scope R_scope.

(** fast_logsumexp of N floats of magnitude at most M: never -inf or NaN, sign 1, and the
    logarithm of the sum of exponentials up to (18 N + M) eps, whatever the size of the
    exponentials themselves.  eps bounds the absolute error of exp on (-inf, 1], the
    relative error of log, and the unit roundoff. *)
Theorem C91_logsumexp : forall (fexp flog : R -> R) (osum odot : list R -> sum_tree) (eps : R),
  u64 <= eps ->
  (forall x, float64 x -> x <= 1 -> float64 (fexp x) /\ Rabs (fexp x - exp x) <= eps) ->
  (forall y, float64 y -> 0 < y -> float64 (flog y) /\ Rabs (flog y - ln y) <= eps * Rabs (ln y)) ->
  sum_order osum ->
  forall (X : list R) (M : R), X <> [] -> Forall float64 X -> Forall (fun x => Rabs x <= M) X ->
  256 * (INR (length X) + M) * eps <= 1 ->
  exists l, fl_fast_logsumexp fexp flog osum odot X None = Ok (Fin l, 1) /\ float64 l /\
    Rabs (l - ln (sumf X exp)) <= (18 * INR (length X) + M) * eps.
Proof.
  intros fexp flog osum odot eps Hu He Hl Ho [|x0 X'] M Hne HX HM Heps; [contradiction|].
  destruct (logZ_err fexp flog osum odot eps Hu He Hl Ho x0 X' M HX HM Heps) as (l & A & B & D). exists l. split; [exact A|]. split; [exact B|].
  assert (E : logZ x0 X' = ln (sumf (x0 :: X') exp)).
  { assert (Z := sumf_exp_pos (x0 :: X') ltac:(discriminate)). unfold logZ. assert (E : Ssum x0 X' = sumf (x0 :: X') exp * exp (- max_from x0 X')) by (unfold Ssum; rewrite <- sumf_scal_r; apply sumf_ext; intros y; unfold Rminus; apply exp_plus).
    rewrite E, ln_mult, ln_exp by (assumption || apply exp_pos). ring. }
  rewrite <- E. eapply Rle_trans; [exact D|]. unfold eL. right. ring.
Qed.
Print Assumptions C91_logsumexp.

(** Any equation file whose coefficients are -1, 0 or 1: if exact arithmetic computes
    averages C, then floats compute averages within 150 (N + m m P) eps of C, for N
    energies of at most m summands and parameters of magnitude at most P. *)
Theorem C91_file_observables : forall (fexp flog : R -> R) (osum odot : list R -> sum_tree) (eps : R),
  u64 <= eps ->
  (forall x, float64 x -> x <= 1 -> float64 (fexp x) /\ Rabs (fexp x - exp x) <= eps) ->
  (forall y, float64 y -> 0 < y -> float64 (flog y) /\ Rabs (flog y - ln y) <= eps * Rabs (ln y)) ->
  sum_order osum -> sum_order odot ->
  forall (f : eqn_file) (params C : list R) (P : R) (m : nat),
  Forall (fun x => float64 x /\ Rabs x <= P) params -> 0 <= P ->
  Forall (fun t => (length t <= m)%nat) (ef_terms f) ->
  Forall (Forall (fun c => c = -1 \/ c = 0 \/ c = 1)%Z) (ef_coeffs f) ->
  512 * (INR (length (ef_terms f)) + INR m + INR m * INR m * P) * eps <= 1 ->
  run_calc_observables f params = Ok C ->
  exists C', fl_run_calc_observables fexp flog osum odot f params = Ok C' /\
    Forall2 (fun c c' => Rabs (c' - c) <= 150 * (INR (length (ef_terms f)) + INR m * INR m * P) * eps) C C'.
Proof.
  intros fexp flog osum odot eps Hu He Hl Ho Hd f params C P m HP HP0 Hm Hc Heps H.
  exact (fl_observables_near fexp flog osum odot eps Hu He Hl Ho Hd f params P m HP HP0 Hm Heps C Hc H).
Qed.
Print Assumptions C91_file_observables.

Lemma expterm_length n sym cts i : (length (expterm n sym cts i) <= length (all_tuples cts) + length cts)%nat.
Proof.
  assert (R0 : forall k l, (length l <= k)%nat -> (length (re_sub0 l) <= length l)%nat).
  { induction k as [|k IH]; intros l Hk; (destruct l as [|[b a] l]; [cbn; lia|]); cbn [length] in Hk; [lia|]. cbn [re_sub0]. destruct b.
    - cbn [length]. assert (T := IH l ltac:(lia)). lia.
    - destruct a as [|c j].
      + destruct l as [|[[|] a'] l']; cbn [length re_sub0] in *; [lia| |].
        * assert (T := IH l' ltac:(lia)). lia.
        * assert (T := IH l' ltac:(lia)). lia.
      + cbn [length]. assert (T := IH l ltac:(lia)). lia. }
  unfold expterm. cbv zeta. eapply Nat.le_trans; [apply (R0 _ _ (le_n _))|].
  assert (G : forall letters (cs : list (list (list nat))), (length (flat_map (fun ci : ascii * list (list nat) => let '(c, subix) := ci in if sym then get_terms11 subix c (binstate n i) else get_terms01 subix c (binstate n i)) (combine letters cs)) <= length (all_tuples cs) + length cs)%nat).
  { induction letters as [|a letters IH]; intros [|subix cs]; cbn [combine flat_map length]; try lia. rewrite app_length. unfold all_tuples. cbn [flat_map]. rewrite app_length, tuples_length. fold (all_tuples cs).
    specialize (IH cs). assert (T : (length (if sym then get_terms11 subix a (binstate n i) else get_terms01 subix a (binstate n i)) <= nterms subix + 1)%nat); [|lia].
    clear IH. unfold get_terms11, get_terms01, nterms. destruct sym, subix as [|k0 subix]; cbn [length hd]; try lia.
    - rewrite map_length. unfold range. rewrite seq_length. lia.
    - assert (L : forall js, (length (flat_map (fun j => if forallb (fun b => b) (ones_at (k0 :: subix) (binstate n i) j) then [(false, AVar a j)] else []) js) <= length js)%nat).
      { induction js as [|j js IHj]; [cbn; lia|]. cbn [flat_map]. rewrite app_length. destruct (forallb _ _); cbn [length]; lia. }
      specialize (L (range (length k0))). assert (RL : length (range (length k0)) = length k0) by (unfold range; apply seq_length). rewrite RL in L. revert L. generalize (flat_map (fun j => if forallb (fun b => b) (ones_at (k0 :: subix) (binstate n i) j) then [(false, AVar a j)] else []) (range (length k0))). intros [|x l] L; cbn [length] in *; unfold term in *; lia. }
  apply G.
Qed.

Lemma file_shape n sym cts f : (length cts <= 23)%nat -> (forall subix, In subix cts -> subix <> []) -> write_eqns n sym cts = Ok f ->
  length (ef_terms f) = (2 ^ n)%nat /\ ef_probs f = ef_terms f /\ Forall (fun t => (length t <= length (all_tuples cts) + length cts)%nat) (ef_terms f) /\
  Forall (Forall (fun c => c = -1 \/ c = 0 \/ c = 1)%Z) (ef_coeffs f).
Proof.
  intros Hl Hne H. rewrite write_eqns_ok in H by assumption. injection H as <-. cbn [ef_terms ef_probs ef_coeffs]. split; [rewrite map_length, seq_length; reflexivity|]. split; [reflexivity|]. split.
  - apply Forall_forall. intros t Ht. apply in_map_iff in Ht. destruct Ht as (i & <- & _). apply expterm_length.
  - apply Forall_forall. intros cs Hcs. apply in_map_iff in Hcs. destruct Hcs as (t & <- & _). apply Forall_forall. intros c Hc. apply in_map_iff in Hc. destruct Hc as (bs & <- & _).
    unfold sign_spec. cbv zeta. destruct sym; [destruct (Nat.eqb _ 1)|destruct (existsb _ _)]; tauto.
Qed.

(** Written files of any constraints: run in floats with float parameters, [p] returns the
    Boltzmann probabilities and [calc_observables] the expectations, all up to
    150 (2^n + (K + k)^2 P) eps, for K parameters in k orders; no NaN is returned. *)
Theorem C91_write_eqns : forall (fexp flog : R -> R) (osum odot : list R -> sum_tree) (eps : R),
  u64 <= eps ->
  (forall x, float64 x -> x <= 1 -> float64 (fexp x) /\ Rabs (fexp x - exp x) <= eps) ->
  (forall y, float64 y -> 0 < y -> float64 (flog y) /\ Rabs (flog y - ln y) <= eps * Rabs (ln y)) ->
  sum_order osum -> sum_order odot ->
  forall (n : nat) (sym : bool) (cts : list (list (list nat))) (params : list R) (P : R),
  (0 < n)%nat -> (length cts <= 23)%nat ->
  (forall subix, In subix cts -> subix <> [] /\
     forall j k, (j < length (hd [] subix))%nat -> In k subix -> (nth j k 0 < n)%nat) ->
  let cs := flat_map (fun subix => map (fun j => map (fun k => nth j k 0%nat) subix) (seq 0 (length (hd [] subix)))) cts in
  length params = length cs ->
  Forall (fun x => float64 x /\ Rabs x <= P) params -> 0 <= P ->
  let m := INR (length cs + length cts) in
  512 * (2 ^ n + m + m * m * P) * eps <= 1 ->
  let states := map (map IZR) (all_states (if sym then [-1; 1]%Z else [0; 1]%Z) n) in
  let prob := boltzmann (subset_energy cs params) states in
  let err := 150 * (2 ^ n + m * m * P) * eps in
  exists f Pout Cout, write_eqns n sym cts = Ok f /\
    fl_run_p fexp flog osum odot f params = Ok (map Some Pout) /\
    Forall2 (fun s p => Rabs (p - prob s) <= err) states Pout /\
    fl_run_calc_observables fexp flog osum odot f params = Ok Cout /\
    Forall2 (fun t c => Rabs (c - expectation prob states (fun s => prodR (map (nthR s) t))) <= err) cs Cout.
Proof.
  intros fexp flog osum odot eps Hu He Hl Ho Hd n sym cts params P Hn Hlen Hok cs Hp HP HP0 m Heps states prob err.
  destruct (C22_write_eqns n sym cts params Hn Hlen Hok Hp) as (f & Q & C & E1 & E2 & E3 & _ & _ & E6 & E7). fold cs in E3, E7. fold states prob in E3, E7.
  destruct (file_shape n sym cts f Hlen (fun s H => proj1 (Hok s H)) E1) as (S1 & S2 & S3 & S4). change (all_tuples cts) with cs in S3.
  assert (NN : INR (length (ef_terms f)) = 2 ^ n) by (rewrite S1, pow_INR; reflexivity).
  assert (Heps' : 512 * (INR (length (ef_terms f)) + INR (length cs + length cts) + INR (length cs + length cts) * INR (length cs + length cts) * P) * eps <= 1) by (rewrite NN; exact Heps).
  destruct (fl_p_near fexp flog osum odot eps Hu He Hl Ho f params P _ HP HP0 S3 Heps' _ S2 E2) as (Q1 & Pout & P1 & P2 & P3).
  destruct (fl_observables_near fexp flog osum odot eps Hu He Hl Ho Hd f params P _ HP HP0 S3 Heps' C S4 E6) as (Cout & C1 & C2).
  assert (EQ : Q1 = Q). { assert (Inj : forall a b : list R, map Some a = map Some b -> a = b) by (induction a as [|x a IH]; intros [|y b] H; try discriminate; [reflexivity|]; cbn in H; injection H as -> H; f_equal; auto). symmetry. now apply Inj. }
  subst Q1. exists f, Pout, Cout. split; [exact E1|]. split; [exact P2|]. 
  assert (G : forall A (g : A -> R) l l', Forall2 (near err) (map g l) l' -> Forall2 (fun s p => Rabs (p - g s) <= err) l l').
  { intros A g. induction l as [|a l IH]; intros l' F; cbn [map] in F; inversion F; subst; constructor; auto. }
  unfold file_err in P3, C2. rewrite NN in P3, C2. split; [rewrite E3 in P3; exact (G _ _ _ _ P3)|]. split; [exact C1|]. rewrite E7 in C2. exact (G _ _ _ _ C2).
Qed.
Print Assumptions C91_write_eqns.
