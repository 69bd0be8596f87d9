(** * Proofs: higher correlations, state counting and reweighting. *)
From Coq Require Import Sorted.
From Verif Require Import Prelude Spec PreludeFacts M_Index M_Energy M_Params M_Corr P_Index P_Unravel P_Energy P_Energy2 P_Params P_Unique P_Corr.
Import ListNotations.
Local Open Scope R_scope.

Notation rows_dec := (list_eq_dec Z.eq_dec).

(** ** k_corr *)
Lemma k_corr_ok X N k w b : spin_data X -> length w = length X ->
  k_corr X N k (Some w) b = Ok (map (fun ijk => wsum X w (fun r => IZR (row_prod r ijk))) (combinations (seq 0 N) k)).
Proof.
  intros HX Hw. unfold k_corr. apply spins_ok_spec in HX. rewrite HX. cbn [negb].
  rewrite Hw, Nat.eqb_refl. cbn [negb]. f_equal.
  set (k0 := if b then _ else _).
  assert (Hk : length k0 = binom N k).
  { unfold k0. destruct b; [|apply repeat_length].
    rewrite write_seq_start by (rewrite repeat_length, combinations_length; unfold range; rewrite seq_length; lia).
    cbn [fst]. rewrite app_length, map_length, skipn_length, repeat_length, combinations_length.
    unfold range. rewrite seq_length. lia. }
  rewrite write_seq_start by (rewrite Hk, combinations_length; unfold range; rewrite seq_length; lia).
  cbn [fst]. rewrite skipn_all2 by (rewrite Hk, combinations_length; unfold range; rewrite seq_length; lia).
  rewrite app_nil_r. unfold range. apply map_ext. intros ijk. unfold wsum, dot.
  clear Hk k0 HX. revert w Hw. induction X as [|r X IH]; intros [|q w] Hw; try discriminate; [reflexivity|].
  cbn [map combine]. rewrite !sumf_cons. rewrite IH by (cbn in Hw; lia). cbn. ring.
Qed.

Lemma k_corr_none X N k b : k_corr X N k None b = k_corr X N k (Some (map (fun _ => 1 / INR (length X)) X)) b.
Proof. reflexivity. Qed.

Lemma write_seq_full {A B} (val : A -> B) L k0 : length k0 = length L -> fst (write_seq val L (k0, 0%nat)) = map val L.
Proof.
  intros H. rewrite write_seq_start by lia. cbn [fst]. rewrite skipn_all2 by lia. apply app_nil_r.
Qed.

Lemma k_corr_flag X N k w : k_corr X N k w true = k_corr X N k w false.
Proof.
  unfold k_corr. destruct (spins_ok X); [|reflexivity]. cbn [negb]. cbv zeta.
  destruct (negb (Nat.eqb _ _)) eqn:E; [reflexivity|].
  assert (L : length (combinations (range N) k) = binom N k) by (rewrite combinations_length; unfold range; now rewrite seq_length).
  assert (W : forall v : list nat -> R, fst (write_seq v (combinations (range N) k) (repeat 0 (binom N k), 0%nat)) = map v (combinations (range N) k))
    by (intros; apply write_seq_full; rewrite repeat_length; auto).
  f_equal. rewrite !W. apply write_seq_full. apply map_length.
Qed.

(** ** Distinct rows *)
Lemma row_eqb_eq a b : row_eqb a b = true <-> a = b.
Proof. unfold row_eqb. destruct (rows_dec a b); split; congruence. Qed.

Lemma row_eqb_refl a : row_eqb a a = true.
Proof. now apply row_eqb_eq. Qed.

Lemma insert_uniq_in lt a l x : In x (insert_uniq lt a l) <-> x = a \/ In x l.
Proof.
  induction l as [|b l IH]; cbn [insert_uniq]; [cbn; intuition congruence|].
  destruct (row_eqb a b) eqn:E.
  - apply row_eqb_eq in E. subst b. cbn. intuition congruence.
  - destruct (lt a b); cbn [In]; [intuition congruence|]. rewrite IH. intuition congruence.
Qed.

Lemma np_unique_in lt X x : In x (np_unique lt X) <-> In x X.
Proof.
  unfold np_unique. induction X as [|r X IH]; [reflexivity|]. cbn [fold_right]. rewrite insert_uniq_in, IH. cbn. intuition congruence.
Qed.

Section Order.
  Context (lt : list Z -> list Z -> bool) (Hlt : strict_total lt).
  Let ltP (a b : list Z) : Prop := lt a b = true.

  Lemma insert_uniq_sorted a l : StronglySorted ltP l -> StronglySorted ltP (insert_uniq lt a l).
  Proof.
    destruct Hlt as (Hi & Ht & Htot).
    induction l as [|b l IH]; intros H; cbn [insert_uniq]; [repeat constructor|].
    destruct (row_eqb a b) eqn:E; [assumption|].
    inversion H as [|? ? Hs Hf]; subst. destruct (lt a b) eqn:El.
    - constructor; [assumption|]. constructor; [exact El|]. rewrite Forall_forall in *. intros x Hx. unfold ltP. eapply Ht; [exact El|]. now apply Hf.
    - constructor; [now apply IH|]. rewrite Forall_forall in *. intros x Hx. apply insert_uniq_in in Hx. destruct Hx as [->|Hx]; [|now apply Hf].
      destruct (Htot a b) as [H1|H1]; [|congruence|exact H1]. intros ->. rewrite row_eqb_refl in E. discriminate.
  Qed.

  Lemma np_unique_sorted X : StronglySorted ltP (np_unique lt X).
  Proof. unfold np_unique. induction X as [|r X IH]; [constructor|]. cbn [fold_right]. now apply insert_uniq_sorted. Qed.

  Lemma np_unique_NoDup X : NoDup (np_unique lt X).
  Proof.
    pose proof (np_unique_sorted X) as H. destruct Hlt as (Hi & _). induction H as [|a l H IH Hf]; constructor; [|assumption].
    intros Hin. rewrite Forall_forall in Hf. specialize (Hf a Hin). unfold ltP in Hf. congruence.
  Qed.
End Order.

Lemma first_index_spec a X : In a X -> (first_index a X < length X)%nat /\ nth (first_index a X) X [] = a.
Proof.
  induction X as [|b X IH]; intros H; [destruct H|]. cbn [first_index]. destruct (row_eqb a b) eqn:E.
  - apply row_eqb_eq in E. subst. split; [cbn; lia|reflexivity].
  - destruct H as [->|H]; [rewrite row_eqb_refl in E; discriminate|]. destruct (IH H). split; [cbn; lia|assumption].
Qed.

Lemma unique_rows_states lt X : map (fun i => nth i X []) (unique_rows lt X) = np_unique lt X.
Proof.
  unfold unique_rows. rewrite map_map. rewrite <- (map_id (np_unique lt X)) at 2. apply map_ext_in.
  intros u Hu. apply np_unique_in in Hu. now apply first_index_spec.
Qed.

Lemma count_filter s X : length (filter (row_eqb s) X) = count_occ rows_dec X s.
Proof.
  induction X as [|r X IH]; [reflexivity|]. cbn [filter count_occ]. destruct (rows_dec r s) as [->|Hne].
  - rewrite row_eqb_refl. cbn [length]. now rewrite IH.
  - destruct (row_eqb s r) eqn:E; [apply row_eqb_eq in E; congruence|assumption].
Qed.

Lemma max_list_spec l m : (forall x, In x l -> (x <= m)%nat) -> In m l -> fold_right Nat.max 0%nat l = m.
Proof.
  intros H Hin. assert (G : (fold_right Nat.max 0 l <= m)%nat).
  { clear Hin. induction l as [|a l IH]; [cbn; lia|]. cbn [fold_right]. pose proof (H a (or_introl eq_refl)).
    assert (fold_right Nat.max 0 l <= m)%nat by (apply IH; intros; apply H; now right). lia. }
  assert (G2 : (m <= fold_right Nat.max 0 l)%nat).
  { clear H G. induction l as [|a l IH]; [destruct Hin|]. cbn [fold_right]. destruct Hin as [->|Hin]; [lia|]. specialize (IH Hin). lia. }
  lia.
Qed.

Lemma bincount_inverse lt X : strict_total lt -> X <> [] ->
  bincount (unique_rows_inverse lt X) = map (count_occ rows_dec X) (np_unique lt X).
Proof.
  intros Hlt HX. unfold bincount, unique_rows_inverse. set (U := np_unique lt X).
  assert (HU : NoDup U) by now apply np_unique_NoDup.
  assert (HUin : forall x, In x U <-> In x X) by (intros; apply np_unique_in).
  assert (HL : U <> []).
  { intros E. destruct X as [|r X]; [congruence|]. assert (In r U) by (apply HUin; now left). rewrite E in *. contradiction. }
  assert (Hm : fold_right Nat.max 0%nat (map S (map (fun r => first_index r U) X)) = length U).
  { apply max_list_spec.
    - intros x Hx. rewrite map_map in Hx. apply in_map_iff in Hx. destruct Hx as (r & <- & Hr).
      destruct (first_index_spec r U); [now apply HUin|]. lia.
    - rewrite map_map. apply in_map_iff. exists (nth (length U - 1) U []).
      assert (Hl : (length U - 1 < length U)%nat) by (destruct U; [congruence|cbn; lia]).
      assert (Hn : In (nth (length U - 1) U []) U) by now apply nth_In.
      split; [|now apply HUin].
      destruct (first_index_spec _ U Hn) as [L1 L2].
      assert (first_index (nth (length U - 1) U []) U = (length U - 1)%nat) as ->; [|lia].
      apply (proj1 (NoDup_nth U []) HU); assumption. }
  rewrite Hm. unfold range.
  rewrite (list_as_map [] U) at 2. rewrite map_map. apply map_ext_in. intros k Hk. apply in_seq in Hk.
  rewrite filter_map, map_length, <- count_filter. f_equal. apply filter_ext_in. intros r Hr.
  destruct (first_index_spec r U) as [L1 L2]; [now apply HUin|].
  destruct (row_eqb (nth k U []) r) eqn:E.
  - apply row_eqb_eq in E. apply Nat.eqb_eq. apply (proj1 (NoDup_nth U []) HU); [lia|assumption|congruence].
  - apply Nat.eqb_neq. intros ->. rewrite L2, row_eqb_refl in E. discriminate.
Qed.

Lemma count_sum {A} (dec : forall a b : A, {a = b} + {a <> b}) X s :
  INR (count_occ dec X s) = sumf X (fun r => if dec r s then 1 else 0).
Proof.
  induction X as [|r X IH]; [reflexivity|]. cbn [count_occ]. rewrite sumf_cons.
  destruct (dec r s); [rewrite S_INR, IH; ring|rewrite IH; ring].
Qed.

(** Sums over a sample as sums over states weighted by counts. *)
Lemma sum_by_counts {A} (dec : forall a b : A, {a = b} + {a <> b}) X U (f : A -> R) :
  NoDup U -> (forall x, In x X -> In x U) ->
  sumf X f = sumf U (fun u => INR (count_occ dec X u) * f u).
Proof.
  intros HU Hin.
  rewrite (sumf_ext U _ (fun u => sumf X (fun r => if dec r u then f u else 0))).
  2:{ intros u. rewrite count_sum, <- sumf_scal_r. apply sumf_ext. intros r. destruct (dec r u); ring. }
  rewrite sumf_swap. apply sumf_ext_in. intros r Hr.
  symmetry. apply (sumf_indic dec U r f HU). now apply Hin.
Qed.

Lemma counts_total {A} (dec : forall a b : A, {a = b} + {a <> b}) X U :
  NoDup U -> (forall x, In x X -> In x U) -> sumf U (fun u => INR (count_occ dec X u)) = INR (length X).
Proof.
  intros HU Hin. rewrite <- (Rmult_1_r (INR (length X))), <- (sumf_const X 1).
  rewrite (sum_by_counts dec X U (fun _ => 1) HU Hin). apply sumf_ext. intros; ring.
Qed.

(** ** Reweighting *)
Lemma map_IZR_nth r i : nthR (map IZR r) i = IZR (xat r i).
Proof. unfold nthR, xat. rewrite <- (map_nth IZR). reflexivity. Qed.

Lemma nthR_map_seq_from (g : nat -> R) m a k : (k < m)%nat -> nthR (map g (seq a m)) k = g (a + k)%nat.
Proof.
  intros H. unfold nthR. rewrite (nth_indep _ 0 (g 0%nat)) by (now rewrite map_length, seq_length).
  rewrite map_nth, seq_nth by assumption. reflexivity.
Qed.

Lemma obs_as_list N M :
  (forall f g, (forall r, length r = N -> f r = g r) -> M f = M g) ->
  means_of N M ++ corrs_of N M =
  map (fun k => M (fun r => nthR (ising_obs (map IZR r)) k)) (seq 0 (N + N * (N - 1) / 2)).
Proof.
  intros HM. rewrite seq_app, map_app. f_equal.
  - apply map_ext_in. intros i Hi. apply in_seq in Hi. apply HM. intros r Hr. unfold ising_obs, nthR.
    rewrite app_nth1 by (rewrite map_length; lia). fold (nthR (map IZR r) i). now rewrite map_IZR_nth.
  - apply (pair_list_ext N); [apply corrs_length|now rewrite map_length, seq_length|].
    intros i j Hij Hj. rewrite corrs_nth by assumption.
    assert (Hp := P_Energy.pair_index_lt N i j Hij Hj).
    rewrite nthR_map_seq_from by assumption. apply HM. intros r Hr. unfold ising_obs, nthR.
    rewrite app_nth2 by (rewrite map_length; lia). rewrite map_length, Hr.
    replace (0 + N + pair_index N i j - N)%nat with (pair_index N i j) by lia.
    rewrite pairs_prod_as_map, map_length, Hr, <- loop_ij_pairs.
    fold (nthR (map (fun p : nat * nat => nthR (map IZR r) (fst p) * nthR (map IZR r) (snd p)) (loop_ij N)) (pair_index N i j)).
    rewrite nthR_map_pairs by assumption. cbn [fst snd]. now rewrite !map_IZR_nth.
Qed.

Lemma exp_logsumexp l : l <> [] -> exp (logsumexp l) = sumf l exp.
Proof.
  intros H. unfold logsumexp. apply exp_ln. apply sumf_pos; [assumption|]. intros; apply exp_pos.
Qed.

Lemma reweighted_bounds {A} (dE : A -> R) S f a b : S <> [] -> (forall s, In s S -> a <= f s <= b) ->
  a <= reweighted dE S f <= b.
Proof.
  intros HS Hf. unfold reweighted.
  assert (P : 0 < sumf S (fun s => exp (- dE s))) by (apply sumf_pos; [assumption|intros; apply exp_pos]).
  split; apply (Rmult_le_reg_r (sumf S (fun s => exp (- dE s)))); try assumption;
    unfold Rdiv; rewrite Rmult_assoc, Rinv_l, Rmult_1_r by lra; rewrite <- sumf_scal_l; apply sumf_le; intros s Hs;
    pose proof (exp_pos (- dE s)); specialize (Hf s Hs); nra.
Qed.

Lemma wsum_reweighted (X : list (list Z)) (dE : list Z -> R) f : X <> [] ->
  wsum X (map (fun e => exp (- e) / INR (length X)) (map dE X)) f * (INR (length X) / sumf X (fun s => exp (- dE s)))
  = reweighted dE X f.
Proof.
  intros HX. unfold reweighted.
  assert (HI : 0 < INR (length X)) by (apply lt_0_INR; destruct X; [congruence|cbn; lia]).
  assert (P : 0 < sumf X (fun s => exp (- dE s))) by (apply sumf_pos; [assumption|intros; apply exp_pos]).
  assert (G : wsum X (map (fun e => exp (- e) / INR (length X)) (map dE X)) f = / INR (length X) * sumf X (fun s => exp (- dE s) * f s)).
  { generalize (INR (length X)) as c. clear. intros c. unfold wsum. induction X as [|r X IH]; [cbn; ring|].
    cbn [map combine]. rewrite !sumf_cons, IH. cbn [fst snd]. unfold Rdiv. ring. }
  rewrite G. field. split; lra.
Qed.

Lemma existsb_false {A} (p : A -> bool) l : (forall a, In a l -> p a = false) -> existsb p l = false.
Proof.
  induction l as [|a l IH]; intros H; [reflexivity|]. cbn [existsb]. rewrite H by now left. apply IH. intros; apply H; now right.
Qed.

Lemma Rltb_false x y : y <= x -> Rltb x y = false.
Proof. intros H. unfold Rltb. destruct (Rlt_dec x y); [lra|reflexivity]. Qed.

Lemma ising_obs_row_bounds X r N k : spin_data X -> In r X -> length r = N -> (k < N + N * (N - 1) / 2)%nat ->
  -1 <= nthR (ising_obs (map IZR r)) k <= 1.
Proof.
  intros HX Hr Hl Hk. unfold nthR.
  assert (Hin : In (nth k (ising_obs (map IZR r)) 0) (ising_obs (map IZR r))).
  { apply nth_In. rewrite ising_obs_length, map_length, Hl. assumption. }
  unfold ising_obs in Hin at 2. apply in_app_iff in Hin.
  assert (HB : forall y, In y (map IZR r) -> -1 <= y <= 1).
  { intros y Hy. apply in_map_iff in Hy. destruct Hy as (z & <- & Hz). destruct (HX r Hr z Hz) as [-> | [-> | ->]]; lra. }
  destruct Hin as [Hin|Hin]; [now apply HB|].
  apply in_map_iff in Hin. destruct Hin as ([a b] & <- & Hab). apply in_pairs_in in Hab. destruct Hab.
  cbn [fst snd]. apply prod_range; now apply HB.
Qed.

Lemma mch_ok X N dl : X <> [] -> spin_data X -> (forall r, In r X -> length r = N) ->
  length dl = (N + N * (N - 1) / 2)%nat ->
  mch_approximation X N dl = Ok (map (fun k =>
     reweighted (fun s => ising_energy N dl (map IZR s)) X (fun r => nthR (ising_obs (map IZR r)) k))
     (seq 0 (N + N * (N - 1) / 2))).
Proof.
  intros HX HS HL Hdl. unfold mch_approximation.
  assert (HE : map (fun s => ising_calc_e_row (map IZR s) dl) X = map (fun s => ising_energy N dl (map IZR s)) X).
  { apply map_ext_in. intros s Hs. rewrite ising_calc_e_row_eq by (rewrite map_length, HL by assumption; assumption).
    rewrite (ising_energy_dot N) by (rewrite ?map_length; auto). reflexivity. }
  rewrite HE. set (dE := fun s => ising_energy N dl (map IZR s)). rewrite !map_length.
  rewrite pair_corr_array by (try assumption; now rewrite !map_length). cbn [bind fst snd].
  assert (EO : exp (logsumexp (map Ropp (map dE X))) = sumf X (fun s => exp (- dE s))).
  { rewrite exp_logsumexp by (destruct X; [congruence|discriminate]). now rewrite !sumf_map. }
  rewrite EO.
  assert (EV : map (fun x => x * (INR (length X) / sumf X (fun s => exp (- dE s))))
     (means_of N (wsum X (map (fun e => exp (- e) / INR (length X)) (map dE X))) ++
      corrs_of N (wsum X (map (fun e => exp (- e) / INR (length X)) (map dE X)))) =
     map (fun k => reweighted dE X (fun r => nthR (ising_obs (map IZR r)) k)) (seq 0 (N + N * (N - 1) / 2))).
  { pose proof (fun f => wsum_reweighted X dE f HX) as HW.
    set (W := wsum X (map (fun e => exp (- e) / INR (length X)) (map dE X))) in *.
    set (Zf := INR (length X) / sumf X (fun s => exp (- dE s))) in *. clearbody W Zf.
    rewrite map_app. unfold means_of, corrs_of. rewrite !map_map.
    rewrite (map_ext _ (fun i => reweighted dE X (fun r => IZR (xat r i)))) by (intros; apply HW).
    rewrite (map_ext (fun x : nat * nat => W _ * Zf) (fun p => reweighted dE X (fun r => IZR (xat r (fst p)) * IZR (xat r (snd p))))) by (intros; apply HW).
    assert (EF : filter (fun r => Nat.eqb (length r) N) X = X).
    { apply filter_ext_all. intros r Hr. apply Nat.eqb_eq. now apply HL. }
    rewrite <- EF.
    apply (obs_as_list N (reweighted dE (filter (fun r => Nat.eqb (length r) N) X))).
    intros f g Hfg. unfold reweighted. f_equal. apply sumf_ext_in. intros r Hr. apply filter_In in Hr. destruct Hr as [_ Hr].
    apply Nat.eqb_eq in Hr. now rewrite Hfg. }
  rewrite EV. rewrite existsb_false; [reflexivity|].
  intros x Hx. apply in_map_iff in Hx. destruct Hx as (k & <- & Hk). apply in_seq in Hk.
  assert (B : -1 <= reweighted dE X (fun r => nthR (ising_obs (map IZR r)) k) <= 1).
  { apply reweighted_bounds; [assumption|]. intros r Hr. apply (ising_obs_row_bounds X r N k HS Hr); auto. lia. }
  rewrite !Rltb_false by lra. reflexivity.
Qed.

Lemma energy_vadd N p q s : length s = N -> length p = (N + N * (N - 1) / 2)%nat -> length q = length p ->
  ising_energy N (vadd p q) s = ising_energy N p s + ising_energy N q s.
Proof.
  intros Hs Hp Hq.
  assert (L : length (vadd p q) = length p) by (unfold vadd; rewrite map_length, combine_length; lia).
  rewrite !(ising_energy_dot N) by congruence.
  assert (G : forall x p q, length q = length p -> dot x (vadd p q) = dot x p + dot x q).
  { clear. induction x as [|a x IH]; intros [|b p] [|c q] H; try discriminate; try (cbn; ring).
    unfold vadd in *. cbn [combine map]. rewrite !dot_cons, IH by (cbn in H; lia). cbn. ring. }
  rewrite G by assumption. ring.
Qed.

(** Reweighting a sample whose frequencies are exactly Boltzmann. *)
Lemma reweighted_exact {A} (dec : forall a b : A, {a = b} + {a <> b}) (E dE E2 : A -> R) X U f :
  NoDup U -> X <> [] -> (forall x, In x X -> In x U) ->
  (forall u, In u U -> frequency dec X u = boltzmann E U u) ->
  (forall u, In u U -> E2 u = E u + dE u) ->
  reweighted dE X f = expectation (boltzmann E2 U) U f.
Proof.
  intros HU HX Hin Hfreq HE.
  assert (HI : 0 < INR (length X)) by (apply lt_0_INR; destruct X; [congruence|cbn; lia]).
  assert (HUne : U <> []) by (intros ->; destruct X as [|x X]; [congruence|apply (Hin x); now left]).
  assert (PZ : 0 < partition E U) by (apply sumf_pos; [assumption|intros; apply exp_pos]).
  assert (PZ2 : 0 < partition E2 U) by (apply sumf_pos; [assumption|intros; apply exp_pos]).
  assert (G : forall g, sumf X g = INR (length X) / partition E U * sumf U (fun u => exp (- E u) * g u)).
  { intros g. rewrite (sum_by_counts dec X U g HU Hin), <- sumf_scal_l. apply sumf_ext_in. intros u Hu.
    specialize (Hfreq u Hu). unfold frequency, boltzmann in Hfreq.
    assert (EC : INR (count_occ dec X u) = INR (length X) * (exp (- E u) / partition E U)) by (rewrite <- Hfreq; field; lra).
    rewrite EC. field. lra. }
  unfold reweighted. rewrite !G.
  assert (E1 : sumf U (fun u => exp (- E u) * (exp (- dE u) * f u)) = sumf U (fun u => exp (- E2 u) * f u)).
  { apply sumf_ext_in. intros u Hu. rewrite HE by assumption. replace (- (E u + dE u)) with (- E u + - dE u) by ring. rewrite exp_plus. ring. }
  assert (E3 : sumf U (fun u => exp (- E u) * exp (- dE u)) = partition E2 U).
  { apply sumf_ext_in. intros u Hu. rewrite HE by assumption. replace (- (E u + dE u)) with (- E u + - dE u) by ring. rewrite exp_plus. ring. }
  rewrite E1, E3. unfold expectation, boltzmann.
  rewrite (sumf_ext U (fun s => exp (- E2 s) / partition E2 U * f s) (fun s => / partition E2 U * (exp (- E2 s) * f s))) by (intros; unfold Rdiv; ring).
  rewrite sumf_scal_l. field. repeat split; lra.
Qed.

Lemma potts_obs_length k s : length (potts_obs k s) = (length s * k + length s * (length s - 1) / 2)%nat.
Proof.
  unfold potts_obs. rewrite app_length, map_length, pairs_length.
  rewrite (length_flat_map_const _ _ (length s)) by (intros; apply map_length). rewrite seq_length. lia.
Qed.

Lemma potts_obs_01 k s c : 0 <= nthR (potts_obs k s) c <= 1.
Proof.
  unfold nthR. destruct (nth_in_or_default c (potts_obs k s) 0) as [H|H]; [|rewrite H; lra].
  unfold potts_obs in H at 2. apply in_app_iff in H.
  assert (B : forall b, 0 <= b2R b <= 1) by (intros []; cbn; lra).
  destruct H as [H|H].
  - apply in_flat_map in H. destruct H as (q & _ & H). apply in_map_iff in H. destruct H as (y & <- & _). apply B.
  - apply in_map_iff in H. destruct H as (y & <- & _). apply B.
Qed.

Lemma potts_mch_ok k X N dl : X <> [] -> (forall r, In r X -> length r = N /\ forall x, In x r -> (x < k)%nat) ->
  length dl = (k * N + N * (N - 1) / 2)%nat ->
  potts_mch_approximation k X N dl = Ok (map (fun c =>
     reweighted (potts_energy N k dl) X (fun r => nthR (potts_obs k r) c)) (seq 0 (N * k + N * (N - 1) / 2))).
Proof.
  intros HX HL Hdl. unfold potts_mch_approximation.
  assert (HO : forall r, potts_calc_observables_row k r = potts_obs k r) by apply potts_obs_eq.
  assert (HE : map (fun s => potts_calc_e_row k s dl) X = map (potts_energy N k dl) X).
  { apply map_ext_in. intros s Hs. destruct (HL s Hs) as [H1 H2]. unfold potts_calc_e_row. rewrite HO, (potts_obs_dot N) by auto. ring. }
  rewrite HE. set (dE := potts_energy N k dl). rewrite !map_length.
  assert (EO : exp (logsumexp (map Ropp (map dE X))) = sumf X (fun s => exp (- dE s))).
  { rewrite exp_logsumexp by (destruct X; [congruence|discriminate]). now rewrite !sumf_map. }
  rewrite EO.
  assert (HI : 0 < INR (length X)) by (apply lt_0_INR; destruct X; [congruence|cbn; lia]).
  assert (P : 0 < sumf X (fun s => exp (- dE s))) by (apply sumf_pos; [assumption|intros; apply exp_pos]).
  assert (EV : map (fun c => sumf (combine X (map dE X)) (fun se => exp (- snd se) / INR (length X) * nthR (potts_calc_observables_row k (fst se)) c)
       * (INR (length X) / sumf X (fun s => exp (- dE s)))) (range (N * k + N * (N - 1) / 2)) =
     map (fun c => reweighted dE X (fun r => nthR (potts_obs k r) c)) (seq 0 (N * k + N * (N - 1) / 2))).
  { apply map_ext. intros c. unfold reweighted.
    assert (G : sumf (combine X (map dE X)) (fun se => exp (- snd se) / INR (length X) * nthR (potts_calc_observables_row k (fst se)) c)
       = / INR (length X) * sumf X (fun s => exp (- dE s) * nthR (potts_obs k s) c)).
    { generalize (INR (length X)) as q. clear - HO. intros q. induction X as [|r X IH]; [cbn; ring|].
      cbn [map combine]. rewrite !sumf_cons, IH. cbn [fst snd]. rewrite HO. unfold Rdiv. ring. }
    rewrite G. field. split; lra. }
  rewrite EV. 
  assert (B : forall x, In x (map (fun c => reweighted dE X (fun r => nthR (potts_obs k r) c)) (seq 0 (N * k + N * (N - 1) / 2))) -> 0 <= x <= 1).
  { intros x Hx. apply in_map_iff in Hx. destruct Hx as (c & <- & _). apply reweighted_bounds; [assumption|]. intros; apply potts_obs_01. }
  rewrite !existsb_false; [reflexivity| |]; intros x Hx; apply Rltb_false; specialize (B x Hx); lra.
Qed.
