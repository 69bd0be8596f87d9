(** * Property theorems C11-C14, C19: correlations, counting, reweighting. *)
From Verif Require Import Prelude Spec PreludeFacts M_Index M_Energy M_Params M_Corr P_Index P_Unravel P_Energy P_Energy2 P_Params P_Unique P_Corr P_Corr2.
Import ListNotations.
Local Open Scope R_scope.

Lemma wsum_weighted X w f : length w = length X -> wsum X w f = weighted X w f.
Proof.
  intros H. unfold wsum, weighted. revert w H. induction X as [|r X IH]; intros [|q w] H; try discriminate; [reflexivity|].
  cbn [combine length]. rewrite sumf_cons, sumf_seq_S, IH by (cbn in H; lia). reflexivity.
Qed.

(** ** C12 *)
Theorem C12_weighted_entries : forall (X : list (list Z)) (N : nat) (w : list R),
  (forall r, In r X -> forall x, In x r -> x = (-1)%Z \/ x = 0%Z \/ x = 1%Z) -> length w = length X ->
  exists si sisj, pair_corr X N (WArray w) false false false = Ok (si, sisj) /\
    length si = N /\ length sisj = (N * (N - 1) / 2)%nat /\
    (forall i, (i < N)%nat -> nthR si i = weighted X w (fun r => IZR (nth i r 0%Z))) /\
    (forall i j, (i < j)%nat -> (j < N)%nat ->
       nthR sisj (pair_index N i j) = weighted X w (fun r => IZR (nth i r 0%Z) * IZR (nth j r 0%Z))).
Proof.
  intros X N w HX Hw. eexists _, _. split; [now apply pair_corr_array|].
  split; [apply means_length|]. split; [apply corrs_length|]. split; intros.
  - rewrite means_nth by assumption. now apply wsum_weighted.
  - rewrite corrs_nth by assumption. now apply wsum_weighted.
Qed.
Print Assumptions C12_weighted_entries.

(** Without weights: plain averages. *)
Theorem C12_mean_entries : forall (X : list (list Z)) (N : nat),
  (forall r, In r X -> forall x, In x r -> x = (-1)%Z \/ x = 0%Z \/ x = 1%Z) ->
  exists si sisj, pair_corr X N WNone false false false = Ok (si, sisj) /\
    length si = N /\ length sisj = (N * (N - 1) / 2)%nat /\
    (forall i, (i < N)%nat -> nthR si i = sumf X (fun r => IZR (nth i r 0%Z)) / INR (length X)) /\
    (forall i j, (i < j)%nat -> (j < N)%nat ->
       nthR sisj (pair_index N i j) = sumf X (fun r => IZR (nth i r 0%Z) * IZR (nth j r 0%Z)) / INR (length X)).
Proof.
  intros X N HX.
  assert (E : pair_corr X N WNone false false false =
              pair_corr X N (WArray (map (fun _ => 1 / INR (length X)) X)) false false false).
  { unfold pair_corr, resolve_weights. cbn [andb negb]. rewrite map_length, Nat.eqb_refl. reflexivity. }
  rewrite E. eexists _, _. split; [apply pair_corr_array; [assumption|now rewrite map_length]|].
  split; [apply means_length|]. split; [apply corrs_length|]. split; intros.
  - rewrite means_nth by assumption. apply wsum_uniform.
  - rewrite corrs_nth by assumption. apply wsum_uniform.
Qed.
Print Assumptions C12_mean_entries.

(** subtract_mean: connected correlations, whatever the weights. *)
Theorem C12_subtract_mean : forall (X : list (list Z)) (N : nat) (w : weights_arg) (ee lc : bool) (si sisj : list R),
  pair_corr X N w ee false lc = Ok (si, sisj) ->
  exists sisj', pair_corr X N w ee true lc = Ok (si, sisj') /\ length sisj' = (N * (N - 1) / 2)%nat /\
    forall i j, (i < j)%nat -> (j < N)%nat ->
      nthR sisj' (pair_index N i j) = nthR sisj (pair_index N i j) - nthR si i * nthR si j.
Proof.
  intros X N w ee lc si sisj. unfold pair_corr. destruct (negb (spins_ok X)); [discriminate|].
  destruct (resolve_weights X N w ee lc) as [wr|]; cbn [bind]; [|discriminate].
  set (c := match wr with PerRow _ => _ | PerObs _ _ => _ end). clearbody c. destruct c as [a b].
  intros E. injection E as -> ->. eexists. split; [reflexivity|]. rewrite subtract_ok. split.
  - rewrite map_length, seq_length, loop_ij_pairs. apply pairs_seq_length.
  - intros i j Hij Hj. rewrite nthR_map_seq by (now apply pair_index_loop). rewrite loop_nth by assumption. reflexivity.
Qed.
Print Assumptions C12_subtract_mean.

(** exclude_empty: each entry averages over the rows in which the spins concerned are
    nonzero (such a row must exist). *)
Theorem C12_exclude_empty : forall (X : list (list Z)) (N : nat) (w : weights_arg),
  (forall r, In r X -> forall x, In x r -> x = (-1)%Z \/ x = 0%Z \/ x = 1%Z) ->
  exists si sisj, pair_corr X N w true false false = Ok (si, sisj) /\
    length si = N /\ length sisj = (N * (N - 1) / 2)%nat /\
    (forall i, (i < N)%nat -> let Y := filter (fun r => negb (Z.eqb (nth i r 0%Z) 0)) X in Y <> [] ->
       nthR si i = sumf Y (fun r => IZR (nth i r 0%Z)) / INR (length Y)) /\
    (forall i j, (i < j)%nat -> (j < N)%nat ->
       let Y := filter (fun r => negb (Z.eqb (nth i r 0%Z) 0) && negb (Z.eqb (nth j r 0%Z) 0)) X in Y <> [] ->
       nthR sisj (pair_index N i j) = sumf Y (fun r => IZR (nth i r 0%Z) * IZR (nth j r 0%Z)) / INR (length Y)).
Proof.
  intros X N w HX. unfold pair_corr. apply spins_ok_spec in HX. rewrite HX. cbn [negb].
  unfold resolve_weights. cbn [andb negb bind].
  eexists _, _. split; [reflexivity|]. split; [unfold range; now rewrite map_length, seq_length|].
  assert (E : forall (f : nat -> nat * nat -> R), map (fun kp => let '(k, p) := kp in f k p) (combine (range (length (loop_ij N))) (loop_ij N)) =
     map (fun k => f k (nth k (loop_ij N) (0, 0)%nat)) (seq 0 (length (loop_ij N)))).
  { intros f. apply (map_combine_index (loop_ij N) f _ (0, 0)%nat). reflexivity. }
  rewrite (E (fun k p => sumf X (fun r => IZR (xat r (fst p)) * IZR (xat r (snd p))) * nthR _ k)).
  split; [rewrite map_length, seq_length, loop_ij_pairs; apply pairs_seq_length|]. split.
  - intros i Hi HY. unfold range. rewrite !nthR_map_seq by assumption. unfold nonzero_count, xat.
    rewrite sumf_filter.
    rewrite (sumf_ext X (fun r => IZR (nth i r 0%Z)) (fun a => if negb (Z.eqb (nth i a 0%Z) 0) then IZR (nth i a 0%Z) else 0)).
    2:{ intros r. destruct (Z.eqb_spec (nth i r 0%Z) 0) as [->|]; reflexivity. }
    unfold Rdiv. ring.
  - intros i j Hij Hj HY. rewrite nthR_map_seq by (now apply pair_index_loop). rewrite loop_nth by assumption.
    rewrite nthR_map_pairs by assumption. cbn [fst snd]. unfold nonzero_count2, xat.
    rewrite sumf_filter.
    rewrite (sumf_ext X (fun r => IZR (nth i r 0%Z) * IZR (nth j r 0%Z))
      (fun a => if negb (Z.eqb (nth i a 0%Z) 0) && negb (Z.eqb (nth j a 0%Z) 0) then IZR (nth i a 0%Z) * IZR (nth j a 0%Z) else 0)).
    2:{ intros r. destruct (Z.eqb_spec (nth i r 0%Z) 0) as [->|], (Z.eqb_spec (nth j r 0%Z) 0) as [->|]; cbn; ring. }
    unfold Rdiv. ring.
Qed.
Print Assumptions C12_exclude_empty.

(** Laplace counting adds 2 (means) or 4 (pairs) pseudo-observations to the divisor. *)
Theorem C12_laplace : forall (X : list (list Z)) (N : nat) (w : weights_arg),
  (forall r, In r X -> forall x, In x r -> x = (-1)%Z \/ x = 0%Z \/ x = 1%Z) ->
  exists si sisj, pair_corr X N w true false true = Ok (si, sisj) /\
    (forall i, (i < N)%nat ->
       nthR si i = sumf X (fun r => IZR (nth i r 0%Z)) /
         INR (length (filter (fun r => negb (Z.eqb (nth i r 0%Z) 0)) X) + 2)) /\
    (forall i j, (i < j)%nat -> (j < N)%nat ->
       nthR sisj (pair_index N i j) = sumf X (fun r => IZR (nth i r 0%Z) * IZR (nth j r 0%Z)) /
         INR (length (filter (fun r => negb (Z.eqb (nth i r 0%Z) 0) && negb (Z.eqb (nth j r 0%Z) 0)) X) + 4)).
Proof.
  intros X N w HX. unfold pair_corr. apply spins_ok_spec in HX. rewrite HX. cbn [negb].
  unfold resolve_weights. cbn [andb negb bind].
  eexists _, _. split; [reflexivity|].
  assert (E : forall (f : nat -> nat * nat -> R), map (fun kp => let '(k, p) := kp in f k p) (combine (range (length (loop_ij N))) (loop_ij N)) =
     map (fun k => f k (nth k (loop_ij N) (0, 0)%nat)) (seq 0 (length (loop_ij N)))).
  { intros f. apply (map_combine_index (loop_ij N) f _ (0, 0)%nat). reflexivity. }
  rewrite (E (fun k p => sumf X (fun r => IZR (xat r (fst p)) * IZR (xat r (snd p))) * nthR _ k)).
  split.
  - intros i Hi. unfold range. rewrite !nthR_map_seq by assumption. unfold nonzero_count, xat, Rdiv. ring.
  - intros i j Hij Hj. rewrite nthR_map_seq by (now apply pair_index_loop). rewrite loop_nth by assumption.
    rewrite nthR_map_pairs by assumption. cbn [fst snd]. unfold nonzero_count2, xat, Rdiv. ring.
Qed.
Print Assumptions C12_laplace.

(** All entries lie in [-1,1] for normalised nonnegative weights. *)
Theorem C12_bounds : forall (X : list (list Z)) (N : nat) (w si sisj : list R),
  (forall r, In r X -> forall x, In x r -> x = (-1)%Z \/ x = 0%Z \/ x = 1%Z) -> length w = length X ->
  (forall q, In q w -> 0 <= q) -> sumR w = 1 ->
  pair_corr X N (WArray w) false false false = Ok (si, sisj) ->
  forall c, In c (si ++ sisj) -> -1 <= c <= 1.
Proof.
  intros X N w si sisj HX Hw H0 H1 E c Hc. rewrite pair_corr_array in E by assumption. injection E as <- <-.
  apply in_app_iff in Hc. destruct Hc as [Hc|Hc]; apply in_map_iff in Hc; destruct Hc as (i & <- & _); apply wsum_bounds; try assumption.
  - intros r Hr. now apply (xat_range X).
  - intros r Hr. apply prod_range; now apply (xat_range X).
Qed.
Print Assumptions C12_bounds.

(** Data outside {-1,0,1}, and weights of the wrong length, are rejected. *)
Theorem C12_rejects : forall (X : list (list Z)) (N : nat) (w : weights_arg) (ee sm lc : bool),
  (exists r x, In r X /\ In x r /\ x <> (-1)%Z /\ x <> 0%Z /\ x <> 1%Z) ->
  pair_corr X N w ee sm lc = Err AssertionError.
Proof.
  intros X N w ee sm lc (r & x & Hr & Hx & H1 & H2 & H3). unfold pair_corr.
  rewrite spin_data_bad; [reflexivity|]. intros H. destruct (H r Hr x Hx) as [|[|]]; congruence.
Qed.
Print Assumptions C12_rejects.

Theorem C12_wrong_weights_raise : forall (X : list (list Z)) (N : nat) (w : list R) (sm lc : bool),
  length w <> length X -> pair_corr X N (WArray w) false sm lc = Err AssertionError.
Proof.
  intros X N w sm lc H. unfold pair_corr. destruct (negb (spins_ok X)); [reflexivity|].
  unfold resolve_weights. cbn [andb]. destruct (Nat.eqb_spec (length w) (length X)); [contradiction|]. reflexivity.
Qed.
Print Assumptions C12_wrong_weights_raise.

Example C12_example : (forall r, In r [[1; -1; 0]; [1; 1; 1]]%Z -> forall x, In x r -> x = (-1)%Z \/ x = 0%Z \/ x = 1%Z) /\
  sumR [/ 3; 2 / 3] = 1 /\ (forall q, In q [/ 3; 2 / 3] -> 0 <= q) /\
  filter (fun r => negb (Z.eqb (nth 2 r 0%Z) 0)) [[1; -1; 0]; [1; 1; 1]]%Z <> [].
Proof.
  split; [|split; [|split]].
  - intros r [<-|[<-|[]]] x Hx; cbn in Hx; intuition.
  - unfold sumR, sumf. cbn. field.
  - intros q [<-|[<-|[]]]; lra.
  - discriminate.
Qed.

(** ** C11 *)
Lemma wsum_obs01 X N : (forall r, In r X -> length r = N /\ forall x, In x r -> x = (-1)%Z \/ x = 1%Z) ->
  forall i, (i < N)%nat ->
  forall r, In r X -> IZR (xat (map (fun x => (x + 1) / 2)%Z r) i) = (IZR (xat r i) + 1) / 2.
Proof.
  intros HX i Hi r Hr. destruct (HX r Hr) as [Hl Hx]. unfold xat.
  rewrite (nth_indep (map _ r) 0%Z ((fun x => (x + 1) / 2)%Z 0%Z)) by (rewrite map_length; lia).
  rewrite (map_nth (fun x => (x + 1) / 2)%Z).
  assert (Hin : In (nth i r 0%Z) r) by (apply nth_In; lia).
  destruct (Hx _ Hin) as [-> | ->]; cbn; field.
Qed.

(** From {-1,1} to {0,1}: converting the correlations = correlations of converted data. *)
Theorem C11_to_01 : forall (X : list (list Z)) (N : nat) (w si sisj : list R),
  (forall r, In r X -> length r = N /\ forall x, In x r -> x = (-1)%Z \/ x = 1%Z) ->
  length w = length X -> sumR w = 1 ->
  pair_corr X N (WArray w) false false false = Ok (si, sisj) ->
  convert_corr si sisj To01 =
  pair_corr (map (map (fun x => (x + 1) / 2)%Z) X) N (WArray w) false false false.
Proof.
  intros X N w si sisj HX Hw H1 E.
  assert (SD : spin_data X) by (intros r Hr x Hx; destruct (proj2 (HX r Hr) x Hx); auto).
  assert (SD2 : spin_data (map (map (fun x => (x + 1) / 2)%Z) X)).
  { intros r Hr x Hx. apply in_map_iff in Hr. destruct Hr as (r0 & <- & Hr0). apply in_map_iff in Hx. destruct Hx as (x0 & <- & Hx0).
    destruct (proj2 (HX r0 Hr0) x0 Hx0) as [-> | ->]; cbn; auto. }
  rewrite pair_corr_array in E by assumption. injection E as <- <-.
  rewrite pair_corr_array by (rewrite ?map_length; assumption).
  rewrite convert_corr_ok by (rewrite means_length; apply corrs_length). cbv zeta. rewrite !means_length.
  f_equal. f_equal.
  - unfold means_of. rewrite map_map. apply map_ext_in. intros i Hi. apply in_seq in Hi.
    rewrite wsum_map. rewrite (wsum_ext X w (fun r => IZR (xat (map _ r) i)) (fun r => / 2 * (IZR (xat r i) + 1))).
    2:{ intros r Hr. rewrite (wsum_obs01 X N) by (try assumption; lia). field. }
    rewrite wsum_scal, wsum_plus, wsum_const, H1 by assumption. field.
  - apply (pair_list_ext N); [rewrite map_length, seq_length, loop_ij_pairs; apply pairs_seq_length|apply corrs_length|].
    intros i j Hij Hj. rewrite nthR_map_seq by (now apply pair_index_loop). rewrite loop_nth by assumption. cbn [fst snd].
    rewrite !corrs_nth, !means_nth by lia. rewrite wsum_map.
    rewrite (wsum_ext X w (fun r => IZR (xat (map _ r) i) * IZR (xat (map _ r) j))
       (fun r => / 4 * (IZR (xat r i) * IZR (xat r j) + (IZR (xat r i) + (IZR (xat r j) + 1))))).
    2:{ intros r Hr. rewrite !(wsum_obs01 X N) by (try assumption; lia). field. }
    rewrite wsum_scal, !wsum_plus, wsum_const, H1 by assumption. field.
Qed.
Print Assumptions C11_to_01.

Theorem C11_to_11 : forall (X : list (list Z)) (N : nat) (w si sisj : list R),
  (forall r, In r X -> length r = N /\ forall x, In x r -> x = 0%Z \/ x = 1%Z) ->
  length w = length X -> sumR w = 1 ->
  pair_corr X N (WArray w) false false false = Ok (si, sisj) ->
  convert_corr si sisj To11 =
  pair_corr (map (map (fun x => 2 * x - 1)%Z) X) N (WArray w) false false false.
Proof.
  intros X N w si sisj HX Hw H1 E.
  assert (SD : spin_data X) by (intros r Hr x Hx; destruct (proj2 (HX r Hr) x Hx); auto).
  assert (SD2 : spin_data (map (map (fun x => 2 * x - 1)%Z) X)).
  { intros r Hr x Hx. apply in_map_iff in Hr. destruct Hr as (r0 & <- & Hr0). apply in_map_iff in Hx. destruct Hx as (x0 & <- & Hx0).
    destruct (proj2 (HX r0 Hr0) x0 Hx0) as [-> | ->]; cbn; auto. }
  assert (HV : forall i, (i < N)%nat -> forall r, In r X -> IZR (xat (map (fun x => 2 * x - 1)%Z r) i) = 2 * IZR (xat r i) - 1).
  { intros i Hi r Hr. destruct (HX r Hr) as [Hl _]. unfold xat.
    rewrite (nth_indep (map _ r) 0%Z ((fun x => 2 * x - 1)%Z 0%Z)) by (rewrite map_length; lia).
    rewrite (map_nth (fun x => 2 * x - 1)%Z). rewrite minus_IZR, mult_IZR. reflexivity. }
  rewrite pair_corr_array in E by assumption. injection E as <- <-.
  rewrite pair_corr_array by (rewrite ?map_length; assumption).
  rewrite convert_corr_ok by (rewrite means_length; apply corrs_length). cbv zeta. rewrite !means_length.
  f_equal. f_equal.
  - unfold means_of. rewrite map_map. apply map_ext_in. intros i Hi. apply in_seq in Hi.
    rewrite wsum_map. rewrite (wsum_ext X w (fun r => IZR (xat (map _ r) i)) (fun r => 2 * IZR (xat r i) + -1)).
    2:{ intros r Hr. rewrite HV by (try assumption; lia). ring. }
    rewrite wsum_plus, wsum_scal, wsum_const, H1 by assumption. ring.
  - apply (pair_list_ext N); [rewrite map_length, seq_length, loop_ij_pairs; apply pairs_seq_length|apply corrs_length|].
    intros i j Hij Hj. rewrite nthR_map_seq by (now apply pair_index_loop). rewrite loop_nth by assumption. cbn [fst snd].
    rewrite !corrs_nth, !means_nth by lia. rewrite wsum_map.
    rewrite (wsum_ext X w (fun r => IZR (xat (map _ r) i) * IZR (xat (map _ r) j))
       (fun r => 4 * (IZR (xat r i) * IZR (xat r j)) + (-2 * IZR (xat r i) + (-2 * IZR (xat r j) + 1)))).
    2:{ intros r Hr. rewrite !HV by (try assumption; lia). ring. }
    rewrite !wsum_plus, !wsum_scal, wsum_const, H1 by assumption. ring.
Qed.
Print Assumptions C11_to_11.

Theorem C11_inverse : forall si sisj : list R, let n := length si in
  length sisj = (n * (n - 1) / 2)%nat ->
  bind (convert_corr si sisj To01) (fun p => convert_corr (fst p) (snd p) To11) = Ok (si, sisj) /\
  bind (convert_corr si sisj To11) (fun p => convert_corr (fst p) (snd p) To01) = Ok (si, sisj).
Proof.
  intros si sisj n H.
  assert (Ln : length (loop_ij n) = (n * (n - 1) / 2)%nat) by (rewrite loop_ij_pairs; apply pairs_seq_length).
  rewrite !(convert_corr_ok si sisj) by assumption. cbv zeta. cbn [bind fst snd]. fold n.
  rewrite !convert_corr_ok by (rewrite !map_length, seq_length; assumption). cbv zeta. rewrite !map_length. fold n.
  assert (HN : forall (f : R -> R) i, (i < n)%nat -> nthR (map f si) i = f (nthR si i)).
  { intros f i Hi. unfold nthR. rewrite (nth_indep _ 0 (f 0)) by (rewrite map_length; assumption). apply map_nth. }
  split; f_equal; f_equal.
  - rewrite map_map. rewrite <- (map_id si) at 2. apply map_ext. intros; field.
  - apply (pair_list_ext n); [now rewrite map_length, seq_length|assumption|]. intros i j Hij Hj.
    rewrite !nthR_map_seq by (now apply pair_index_loop). rewrite loop_nth by assumption. cbn [fst snd]. rewrite !HN by lia. field.
  - rewrite map_map. rewrite <- (map_id si) at 2. apply map_ext. intros; field.
  - apply (pair_list_ext n); [now rewrite map_length, seq_length|assumption|]. intros i j Hij Hj.
    rewrite !nthR_map_seq by (now apply pair_index_loop). rewrite loop_nth by assumption. cbn [fst snd]. rewrite !HN by lia. field.
Qed.
Print Assumptions C11_inverse.

Example C11_example : (forall r, In r [[1; -1; 1]; [-1; -1; 1]]%Z -> length r = 3%nat /\ forall x, In x r -> x = (-1)%Z \/ x = 1%Z)
  /\ sumR [/ 4; 3 / 4] = 1.
Proof.
  split.
  - intros r [<-|[<-|[]]]; (split; [reflexivity|]); intros x Hx; cbn in Hx; intuition.
  - unfold sumR, sumf. cbn. field.
Qed.

(** ** C13 *)
(** Products over all k-subsets of columns, averaged over the data, in combinations
    order: the t-th entry belongs to the t-th combination. *)
Theorem C13_k_corr_entries : forall (X : list (list Z)) (N k : nat) (w : list R) (ee : bool),
  (forall r, In r X -> forall x, In x r -> x = (-1)%Z \/ x = 0%Z \/ x = 1%Z) -> length w = length X ->
  exists c, k_corr X N k (Some w) ee = Ok c /\ length c = binom N k /\
    forall t T, nth_error (combinations (seq 0 N) k) t = Some T ->
      nthR c t = weighted X w (fun r => prodR (map (fun i => IZR (nth i r 0%Z)) T)).
Proof.
  intros X N k w ee HX Hw. eexists. split; [now apply k_corr_ok|].
  split; [now rewrite map_length, combinations_length, seq_length|].
  intros t T E. unfold nthR at 1.
  erewrite nth_error_nth by (rewrite nth_error_map, E; reflexivity).
  rewrite wsum_weighted by assumption. apply sumf_ext. intros u. f_equal.
  unfold row_prod, prodR, xat. clear E. induction T as [|i T IH]; [reflexivity|]. cbn [map fold_right]. rewrite mult_IZR, IH. reflexivity.
Qed.
Print Assumptions C13_k_corr_entries.

Theorem C13_second_order_is_pair_corr : forall (X : list (list Z)) (N : nat) (w si sisj : list R) (ee : bool),
  pair_corr X N (WArray w) false false false = Ok (si, sisj) ->
  k_corr X N 2 (Some w) ee = Ok sisj.
Proof.
  intros X N w si sisj ee E.
  assert (HX : spin_data X).
  { apply spins_ok_spec. unfold pair_corr in E. destruct (spins_ok X); [reflexivity|discriminate]. }
  assert (Hw : length w = length X).
  { destruct (Nat.eq_dec (length w) (length X)) as [|Hne]; [assumption|].
    rewrite C12_wrong_weights_raise in E by assumption. discriminate. }
  rewrite pair_corr_array in E by assumption. injection E as _ <-.
  rewrite k_corr_ok by assumption. f_equal. rewrite combinations_2_pairs, map_map. unfold corrs_of.
  apply map_ext. intros [i j]. apply wsum_ext. intros r _. unfold row_prod. cbn [map fold_right fst snd].
  rewrite Z.mul_1_r, mult_IZR. reflexivity.
Qed.
Print Assumptions C13_second_order_is_pair_corr.

(** The switch exclude_empty never changes the result... *)
Theorem C13_exclude_empty_ignored_refuted : forall (X : list (list Z)) (N k : nat) (w : option (list R)),
  k_corr X N k w true = k_corr X N k w false.
Proof. exact k_corr_flag. Qed.
Print Assumptions C13_exclude_empty_ignored_refuted.

(** ...although the average over the nonzero products is different in general. *)
Theorem C13_exclude_empty_refuted : exists (X : list (list Z)) (N k : nat) (c : list R),
  k_corr X N k None true = Ok c /\
  let Y := filter (fun r => negb (Z.eqb (nth 0 r 0%Z) 0)) X in
  combinations (seq 0 N) k = [[0%nat]] /\
  nthR c 0 <> sumf Y (fun r => IZR (nth 0 r 0%Z)) / INR (length Y).
Proof.
  exists [[1]; [0]]%Z, 1%nat, 1%nat. eexists. split.
  - rewrite k_corr_none. apply k_corr_ok; [|reflexivity].
    apply spins_ok_spec. reflexivity.
  - cbv zeta. split; [reflexivity|]. unfold nthR, wsum, sumf. cbn. lra.
Qed.
Print Assumptions C13_exclude_empty_refuted.

Example C13_example : nth_error (combinations (seq 0 4) 3) 2 = Some [0; 2; 3]%nat.
Proof. reflexivity. Qed.

(** ** C14 *)
(** Each distinct row once, with its frequency, for any total order numpy may use to
    sort the rows. *)
Theorem C14_state_probs : forall (lt : list Z -> list Z -> bool) (X : list (list Z)),
  strict_total lt -> X <> [] ->
  let '(freq, states) := state_probs lt X in
  NoDup states /\ (forall s, In s states <-> In s X) /\ length freq = length states /\
  (forall k, (k < length states)%nat ->
     nthR freq k = frequency (list_eq_dec Z.eq_dec) X (nth k states []) /\ 0 < nthR freq k) /\
  sumR freq = 1.
Proof.
  intros lt X Hlt HX. unfold state_probs. rewrite unique_rows_states, bincount_inverse by assumption.
  set (U := np_unique lt X).
  assert (HU : NoDup U) by now apply np_unique_NoDup.
  assert (HI : forall s, In s U <-> In s X) by (intros; apply np_unique_in).
  assert (HS : sumR (map INR (map (count_occ rows_dec X) U)) = INR (length X)).
  { rewrite map_map, sumR_map. apply counts_total; [assumption|]. intros; now apply HI. }
  rewrite HS.
  assert (PX : 0 < INR (length X)) by (apply lt_0_INR; destruct X; [congruence|cbn; lia]).
  split; [assumption|]. split; [assumption|]. split; [now rewrite !map_length|]. split.
  - intros k Hk.
    assert (E : nthR (map (fun f => f / INR (length X)) (map INR (map (count_occ rows_dec X) U))) k =
       frequency rows_dec X (nth k U [])).
    { unfold nthR. rewrite !map_map.
      rewrite (nth_indep _ 0 ((fun x => INR (count_occ rows_dec X x) / INR (length X)) [])) by (rewrite map_length; assumption).
      now rewrite (map_nth (fun x => INR (count_occ rows_dec X x) / INR (length X))). }
    rewrite E. split; [reflexivity|]. unfold frequency. apply Rdiv_lt_0_compat; [|assumption].
    apply lt_0_INR. apply count_occ_In. apply HI. now apply nth_In.
  - rewrite sumR_map. unfold Rdiv. rewrite sumf_scal_r. fold (sumR (map INR (map (count_occ rows_dec X) U))). rewrite HS. field. lra.
Qed.
Print Assumptions C14_state_probs.

(** allstates given: weighted counts normalised by the counted total. *)
Theorem C14_given_states : forall (X allstates : list (list Z)) (w : list R),
  length w = length X ->
  let count := fun s => sumf (combine X w) (fun rw => if list_eq_dec Z.eq_dec (fst rw) s then snd rw else 0) in
  length (state_probs_given X allstates (Some w) true) = length allstates /\
  forall k, (k < length allstates)%nat ->
    nthR (state_probs_given X allstates (Some w) true) k =
    count (nth k allstates []) / sumf allstates count.
Proof.
  intros X A w Hw count. unfold state_probs_given. rewrite !map_length. split; [reflexivity|]. intros k Hk.
  assert (EC : forall s, sumf (combine X w) (fun rw => b2R (row_eqb s (fst rw)) * snd rw) = count s).
  { intros s. apply sumf_ext. intros [r q]. cbn [fst snd]. unfold row_eqb.
    destruct (rows_dec s r), (rows_dec r s); try congruence; cbn; ring. }
  rewrite sumR_map. rewrite (sumf_ext A _ count EC). rewrite map_map. unfold nthR.
  match goal with |- nth _ (map ?f _) _ = _ => rewrite (nth_indep _ 0 (f [])) by (rewrite map_length; assumption); rewrite (map_nth f) end.
  now rewrite EC.
Qed.
Print Assumptions C14_given_states.

(** Unweighted, every observed row listed once: frequencies in the data. *)
Theorem C14_given_states_complete : forall (X allstates : list (list Z)),
  X <> [] -> NoDup allstates -> (forall r, In r X -> In r allstates) ->
  (forall k, (k < length allstates)%nat ->
    nthR (state_probs_given X allstates None true) k = frequency (list_eq_dec Z.eq_dec) X (nth k allstates [])) /\
  sumR (state_probs_given X allstates None true) = 1.
Proof.
  intros X A HX HA Hin.
  assert (EC : forall s, sumf (combine X (map (fun _ => 1) X)) (fun rw => b2R (row_eqb s (fst rw)) * snd rw) = INR (count_occ rows_dec X s)).
  { intros s. rewrite count_sum. clear. induction X as [|r X IH]; [reflexivity|]. cbn [map combine]. rewrite !sumf_cons, IH. cbn [fst snd].
    unfold row_eqb. destruct (rows_dec s r), (rows_dec r s); try congruence; cbn; ring. }
  assert (HS : sumf A (fun vote => sumf (combine X (map (fun _ => 1) X)) (fun rw => b2R (row_eqb vote (fst rw)) * snd rw)) = INR (length X)).
  { rewrite (sumf_ext A _ _ EC). now apply counts_total. }
  assert (PX : 0 < INR (length X)) by (apply lt_0_INR; destruct X; [congruence|cbn; lia]).
  unfold state_probs_given. rewrite sumR_map. rewrite HS. split.
  - intros k Hk. rewrite map_map. unfold nthR.
    match goal with |- nth _ (map ?f _) _ = _ => rewrite (nth_indep _ 0 (f [])) by (rewrite map_length; assumption); rewrite (map_nth f) end.
    now rewrite EC.
  - rewrite sumR_map. unfold Rdiv. rewrite sumf_scal_r, sumf_map, HS. field. lra.
Qed.
Print Assumptions C14_given_states_complete.

(** A concrete total order on rows (lexicographic with length) exists. *)
Fixpoint lexb (a b : list Z) : bool :=
  match a, b with
  | [], [] => false
  | [], _ => true
  | _, [] => false
  | x :: a', y :: b' => if Z.ltb x y then true else if Z.ltb y x then false else lexb a' b'
  end.

Example C14_example : strict_total lexb.
Proof.
  split; [|split].
  - induction a as [|x a IH]; [reflexivity|]. cbn. now rewrite Z.ltb_irrefl.
  - induction a as [|x a IH]; intros [|y b] [|z c] H1 H2; cbn in *; try reflexivity; try discriminate.
    destruct (Z.ltb_spec x y), (Z.ltb_spec y z), (Z.ltb_spec x z), (Z.ltb_spec y x), (Z.ltb_spec z y), (Z.ltb_spec z x);
      try reflexivity; try discriminate; try lia. eapply IH; eassumption.
  - induction a as [|x a IH]; intros [|y b] H; cbn; try (now left); try (now right).
    destruct (Z.ltb_spec x y), (Z.ltb_spec y x); try (now left); try (now right); try lia.
    assert (x = y) by lia. subst. apply IH. congruence.
Qed.

(** ** C19 *)
Theorem C19_mch_reweights : forall (X : list (list Z)) (N : nat) (dlamda : list R),
  X <> [] -> (forall r, In r X -> length r = N /\ forall x, In x r -> x = (-1)%Z \/ x = 0%Z \/ x = 1%Z) ->
  length dlamda = (N + N * (N - 1) / 2)%nat ->
  exists p, mch_approximation X N dlamda = Ok p /\ length p = (N + N * (N - 1) / 2)%nat /\
    forall k, (k < N + N * (N - 1) / 2)%nat ->
      nthR p k = reweighted (fun s => ising_energy N dlamda (map IZR s)) X (fun s => nthR (ising_obs (map IZR s)) k) /\
      -1 <= nthR p k <= 1.
Proof.
  intros X N dl HX HL Hdl.
  assert (HS : spin_data X) by (intros r Hr; apply HL; assumption).
  eexists. split; [apply mch_ok; try assumption; intros r Hr; now apply HL|].
  split; [now rewrite map_length, seq_length|]. intros k Hk. rewrite nthR_map_seq by assumption. split; [reflexivity|].
  apply reweighted_bounds; [assumption|]. intros r Hr. apply (ising_obs_row_bounds X r N k HS Hr); [now apply HL|assumption].
Qed.
Print Assumptions C19_mch_reweights.

(** No change of parameters: the plain sample mean. *)
Theorem C19_zero_step : forall (X : list (list Z)) (N : nat),
  X <> [] -> (forall r, In r X -> length r = N /\ forall x, In x r -> x = (-1)%Z \/ x = 0%Z \/ x = 1%Z) ->
  exists p, mch_approximation X N (repeat 0 (N + N * (N - 1) / 2)) = Ok p /\
    forall k, (k < N + N * (N - 1) / 2)%nat ->
      nthR p k = sumf X (fun s => nthR (ising_obs (map IZR s)) k) / INR (length X).
Proof.
  intros X N HX HL.
  destruct (C19_mch_reweights X N (repeat 0 (N + N * (N - 1) / 2)) HX HL (repeat_length _ _)) as (p & E & _ & Hp).
  exists p. split; [exact E|]. intros k Hk. destruct (Hp k Hk) as [-> _]. unfold reweighted.
  assert (EZ : forall s, In s X -> exp (- ising_energy N (repeat 0 (N + N * (N - 1) / 2)) (map IZR s)) = 1).
  { intros s Hs. rewrite (ising_energy_dot N) by (rewrite ?map_length, ?repeat_length; try reflexivity; now apply HL).
    replace (dot _ _) with 0; [rewrite !Ropp_0; apply exp_0|]. symmetry.
    generalize (ising_obs (map IZR s)) as x. generalize (N + N * (N - 1) / 2)%nat as m. clear.
    intros m x. revert m. induction x as [|a x IH]; intros [|m]; try reflexivity. cbn [repeat]. rewrite dot_cons, IH. ring. }
  f_equal; [|rewrite <- (Rmult_1_r (INR (length X))), <- (sumf_const X 1)]; apply sumf_ext_in; intros s Hs; rewrite EZ by assumption; ring.
Qed.
Print Assumptions C19_zero_step.

(** Exact when the sample frequencies are exactly the Boltzmann distribution at lamda:
    the result is the expectation at lamda + dlamda. *)
Theorem C19_exact : forall (X : list (list Z)) (N : nat) (lamda dlamda : list R),
  X <> [] -> length lamda = (N + N * (N - 1) / 2)%nat -> length dlamda = (N + N * (N - 1) / 2)%nat ->
  let states := all_states [-1; 1]%Z N in
  (forall r, In r X -> In r states) ->
  (forall s, In s states ->
     frequency (list_eq_dec Z.eq_dec) X s = boltzmann (fun t => ising_energy N lamda (map IZR t)) states s) ->
  exists p, mch_approximation X N dlamda = Ok p /\
    forall k, (k < N + N * (N - 1) / 2)%nat ->
      nthR p k = expectation (boltzmann (fun t => ising_energy N (vadd lamda dlamda) (map IZR t)) states) states
                   (fun s => nthR (ising_obs (map IZR s)) k).
Proof.
  intros X N l dl HX Hl Hdl states Hin Hf.
  assert (HL : forall r, In r X -> length r = N /\ forall x, In x r -> x = (-1)%Z \/ x = 0%Z \/ x = 1%Z).
  { intros r Hr. apply Hin in Hr. apply all_states_spec in Hr. destruct Hr as [H1 H2]. split; [assumption|].
    intros x Hx. destruct (H2 x Hx) as [<-|[<-|[]]]; auto. }
  destruct (C19_mch_reweights X N dl HX HL Hdl) as (p & E & _ & Hp).
  exists p. split; [exact E|]. intros k Hk. destruct (Hp k Hk) as [-> _].
  apply (reweighted_exact (list_eq_dec Z.eq_dec) (fun t => ising_energy N l (map IZR t))); try assumption.
  - apply all_states_NoDup. repeat constructor; cbn; intuition discriminate.
  - intros u Hu. apply all_states_spec in Hu. apply energy_vadd; [rewrite map_length; apply Hu|assumption|congruence].
Qed.
Print Assumptions C19_exact.

(** Potts version: same formula, values in [0,1]. *)
Theorem C19_potts_mch_reweights : forall (k : nat) (X : list (list nat)) (N : nat) (dlamda : list R),
  X <> [] -> (forall r, In r X -> length r = N /\ forall x, In x r -> (x < k)%nat) ->
  length dlamda = (k * N + N * (N - 1) / 2)%nat ->
  exists p, potts_mch_approximation k X N dlamda = Ok p /\ length p = (N * k + N * (N - 1) / 2)%nat /\
    forall c, (c < N * k + N * (N - 1) / 2)%nat ->
      nthR p c = reweighted (potts_energy N k dlamda) X (fun s => nthR (potts_obs k s) c) /\
      0 <= nthR p c <= 1.
Proof.
  intros k X N dl HX HL Hdl. eexists. split; [now apply potts_mch_ok|].
  split; [now rewrite map_length, seq_length|]. intros c Hc. rewrite nthR_map_seq by assumption. split; [reflexivity|].
  apply reweighted_bounds; [assumption|]. intros. apply potts_obs_01.
Qed.
Print Assumptions C19_potts_mch_reweights.

(** The uniform sample over all states has Boltzmann frequencies at lamda = 0. *)
Example C19_example : forall s, In s (all_states [-1; 1]%Z 1) ->
  frequency (list_eq_dec Z.eq_dec) (all_states [-1; 1]%Z 1) s =
  boltzmann (fun t => ising_energy 1 [0] (map IZR t)) (all_states [-1; 1]%Z 1) s.
Proof.
  assert (E : forall z, ising_energy 1 [0] (map IZR [z]) = 0).
  { intros z. unfold ising_energy, sumf, nthR. cbn. ring. }
  intros s [<-|[<-|[]]]; unfold frequency, boltzmann, partition.
  - replace (count_occ _ _ _) with 1%nat by reflexivity.
    change (all_states [-1; 1]%Z 1) with [[-1]; [1]]%Z. rewrite !sumf_cons, sumf_nil, !E, Ropp_0, exp_0. cbn. lra.
  - replace (count_occ _ _ _) with 1%nat by reflexivity.
    change (all_states [-1; 1]%Z 1) with [[-1]; [1]]%Z. rewrite !sumf_cons, sumf_nil, !E, Ropp_0, exp_0. cbn. lra.
Qed.
