(** * Proofs: the Potts pseudolikelihood. *)
From Coquelicot Require Import Coquelicot.
From Verif Require Import Prelude Spec PreludeFacts M_Index M_Params M_Energy M_Corr M_Pseudo P_Index P_Unravel P_Energy P_Energy2 P_Params P_Unique P_Corr2 P_MPF P_Pseudo P_Pseudo2.
Import ListNotations.
Local Open Scope R_scope.

(** ** Additions at computed positions *)
Lemma foldM_add {A} (pos : A -> result nat) (tgt : A -> nat) (w : A -> R) : forall l dll,
  (forall a, In a l -> pos a = Ok (tgt a) /\ (tgt a < length dll)%nat) ->
  exists dll', foldM (fun dll a => bind (pos a) (fun i => add_to dll i (w a))) l dll = Ok dll' /\ length dll' = length dll /\
    forall j, nthR dll' j = nthR dll j + sumf l (fun a => if Nat.eqb (tgt a) j then w a else 0).
Proof.
  induction l as [|a l IH]; intros dll H.
  - exists dll. split; [reflexivity|]. split; [reflexivity|]. intros j. rewrite sumf_nil. ring.
  - destruct (H a (or_introl eq_refl)) as [Ha Hl]. cbn [foldM]. rewrite Ha. cbn [bind]. unfold add_to at 1. rewrite (get_nth 0) by assumption. cbn [bind].
    destruct (IH (upd dll (tgt a) (nth (tgt a) dll 0 + w a))) as (dll' & E & L & Hj).
    { intros b Hb. rewrite upd_length. apply H. now right. }
    exists dll'. split; [exact E|]. split; [now rewrite L, upd_length|]. intros j. rewrite Hj, sumf_cons. destruct (Nat.eqb_spec (tgt a) j) as [<-|Hne].
    + rewrite nthR_upd_same by assumption. unfold nthR. ring.
    + rewrite nthR_upd_other by assumption. ring.
Qed.

(** ** The helpers in explicit form *)
Definition potts_ixs (n k r : nat) : list nat :=
  map (fun i => r + n * i)%nat (seq 0 k) ++
  map (fun i => k * n + (if Nat.ltb i r then pair_index n i r else pair_index n r i))%nat (others n r).
(** Observables of spin r if it were in state st. *)
Definition obs_st (n k r : nat) (x : list nat) (st : nat) : list R :=
  map (fun i => b2R (Nat.eqb st i)) (seq 0 k) ++ map (fun j => b2R (Nat.eqb (nth j x 0%nat) st)) (others n r).

Lemma potts_get n k r p : (r < n)%nat -> pseudo_potts_get_multipliers_r n k r p = Ok (map (nthR p) (potts_ixs n k r), potts_ixs n k r).
Proof. intros Hr. unfold pseudo_potts_get_multipliers_r. rewrite pseudo_potts_ix_eq by assumption. reflexivity. Qed.

Lemma potts_calc n k r x : (r < n)%nat ->
  pseudo_potts_calc_observables_r n k r x = (obs_st n k r x (nth r x 0%nat), map (obs_st n k r x) (others k (nth r x 0%nat)), others k (nth r x 0%nat)).
Proof.
  intros Hr. unfold pseudo_potts_calc_observables_r. rewrite loop_ij_pairs, (filter_pairs_r r n 0) by lia. fold (others n r).
  assert (EO : filter (fun i => negb (Nat.eqb (nth r x 0%nat) i)) (range k) = others k (nth r x 0%nat)).
  { unfold others, range. apply filter_ext. intros i. now rewrite Nat.eqb_sym. }
  rewrite EO. unfold obs_st, range. f_equal. f_equal.
  - f_equal. rewrite map_map. apply map_ext_in. intros i Hi. apply in_others in Hi. destruct (Nat.ltb_spec i r); cbn [fst snd]; [reflexivity|]. now rewrite Nat.eqb_sym.
  - apply map_ext. intros st. f_equal. rewrite map_map. apply map_ext_in. intros i Hi. apply in_others in Hi. destruct (Nat.ltb_spec i r); cbn [fst snd].
    + destruct (Nat.eqb_spec i r); [lia|reflexivity].
    + rewrite Nat.eqb_refl. reflexivity.
Qed.

Lemma obs_st_length n k r x st : length (obs_st n k r x st) = length (potts_ixs n k r).
Proof. unfold obs_st, potts_ixs. now rewrite !app_length, !map_length. Qed.

Lemma potts_ixs_range n k r i : (r < n)%nat -> In i (potts_ixs n k r) -> (i < k * n + n * (n - 1) / 2)%nat.
Proof.
  intros Hr H. unfold potts_ixs in H. apply in_app_or in H. destruct H as [H|H]; apply in_map_iff in H; destruct H as (j & <- & Hj).
  - apply in_seq in Hj. nia.
  - apply in_others in Hj. destruct (Nat.ltb_spec j r).
    + pose proof (pair_index_lt n j r ltac:(lia) Hr). lia.
    + pose proof (pair_index_lt n r j ltac:(lia) ltac:(lia)). lia.
Qed.

(** ** Coefficients *)
Lemma at_ix_app i1 : forall i2 v1 v2 j, length i1 = length v1 -> at_ix (i1 ++ i2) (v1 ++ v2) j = at_ix i1 v1 j + at_ix i2 v2 j.
Proof.
  induction i1 as [|a i1 IH]; intros i2 [|b v1] v2 j H; cbn in H; try lia.
  - cbn [app]. unfold at_ix at 2. cbn [combine]. rewrite sumf_nil. ring.
  - cbn [app]. rewrite !at_ix_cons, IH by lia. ring.
Qed.

Lemma at_ix_map {A} (a : A -> nat) (b : A -> R) l j : at_ix (map a l) (map b l) j = sumf l (fun h => if Nat.eqb (a h) j then b h else 0).
Proof.
  induction l as [|x l IH]; [reflexivity|]. cbn [map]. rewrite at_ix_cons, IH, sumf_cons. reflexivity.
Qed.

Section Term.
Variables (n k r : nat) (x : list nat).
Hypothesis Hr : (r < n)%nat.
Let xr := nth r x 0%nat.
Hypothesis Hx : (xr < k)%nat.
Let ix := potts_ixs n k r.
Let e (p : list R) (st : nat) : R := dot (obs_st n k r x st) (map (nthR p) ix).
Definition potts_D (p : list R) : R := sumf (others k xr) (fun st => exp (e p st - e p xr)) + 1.

Lemma potts_D_pos p : 1 <= potts_D p.
Proof. unfold potts_D. pose proof (sumf_nonneg (others k xr) (fun st => exp (e p st - e p xr))) as H. specialize (H (fun _ _ => Rlt_le _ _ (exp_pos _))). lra. Qed.

Let o := pseudo_potts_calc_observables_r n k r x.

Lemma potts_edelta_eq p : potts_edelta (map (nthR p) ix) o = map (fun st => - e p st - - e p xr) (others k xr).
Proof. unfold potts_edelta, o. rewrite potts_calc by assumption. cbn [fst snd]. now rewrite map_map. Qed.

Lemma potts_ll_eq p : potts_ll (map (nthR p) ix) o = - ln (potts_D p).
Proof.
  unfold potts_ll, logsumexp. rewrite potts_edelta_eq. f_equal. f_equal. unfold potts_D.
  rewrite map_app, map_map, sumf_app, sumf_map. cbn [map]. rewrite sumf_cons, sumf_nil, Ropp_0, exp_0, Rplus_0_r. f_equal.
  apply sumf_ext. intros st. f_equal. ring.
Qed.

Lemma potts_sum (c : nat -> R) p : sumf (range (k - 1)) (fun i => c (nth i (snd o) 0%nat) * exp (- nthR (potts_edelta (map (nthR p) ix) o) i)) =
  sumf (others k xr) (fun st => c st * exp (e p st - e p xr)).
Proof.
  rewrite potts_edelta_eq. unfold o. rewrite potts_calc by assumption. cbn [snd]. fold xr.
  rewrite <- (sumf_seq_nth 0%nat (others k xr)), others_length by assumption. unfold range. apply sumf_ext_in. intros i Hi. apply in_seq in Hi.
  f_equal. f_equal. unfold nthR. set (g := fun st => - e p st - - e p xr).
  rewrite (nth_indep _ 0 (g 0%nat)) by (rewrite map_length, others_length; lia). rewrite (map_nth g). unfold g. ring.
Qed.

Lemma potts_num_field_eq p h : potts_num_field k r h (map (nthR p) ix) x o =
  sumf (others k xr) (fun st => (b2R (Nat.eqb st h) - b2R (Nat.eqb xr h)) * exp (e p st - e p xr)).
Proof.
  unfold potts_num_field. fold xr.
  rewrite (potts_sum (fun st => if Nat.eqb xr h then -1 else if negb (Nat.eqb st h) then 0 else 1)).
  apply sumf_ext_in. intros st Hst. apply in_others in Hst. f_equal.
  destruct (Nat.eqb_spec xr h), (Nat.eqb_spec st h); cbn [negb b2R]; try lia; lra.
Qed.

Lemma potts_num_coupling_eq p j : potts_num_coupling k r j (map (nthR p) ix) x o =
  sumf (others k xr) (fun st => (b2R (Nat.eqb (nth j x 0%nat) st) - b2R (Nat.eqb (nth j x 0%nat) xr)) * exp (e p st - e p xr)).
Proof.
  unfold potts_num_coupling. fold xr.
  rewrite (potts_sum (fun st => if Nat.eqb xr (nth j x 0%nat) then -1 else if Nat.eqb st (nth j x 0%nat) then 1 else 0)).
  apply sumf_ext_in. intros st Hst. apply in_others in Hst. f_equal.
  destruct (Nat.eqb_spec xr (nth j x 0%nat)), (Nat.eqb_spec st (nth j x 0%nat)), (Nat.eqb_spec (nth j x 0%nat) st), (Nat.eqb_spec (nth j x 0%nat) xr); cbn [b2R]; try lia; lra.
Qed.

Let A (st j : nat) : R := at_ix ix (obs_st n k r x st) j.

(** The derivative of the term with respect to parameter j. *)
Definition potts_dterm (p : list R) (j : nat) : R := sumf (others k xr) (fun st => (A st j - A xr j) * exp (e p st - e p xr)) / potts_D p.

Lemma potts_D_derive (p : list R) (j : nat) : (j < length p)%nat -> is_derive (fun t : R => ln (potts_D (upd p j t))) (nthR p j) (potts_dterm p j).
Proof.
  intros Hj.
  assert (E : forall t st, e (upd p j t) st = e p st + A st j * (t - nthR p j)).
  { intros t st. unfold e. now rewrite dot_gather_upd by (try apply obs_st_length; assumption). }
  set (F := fun t : R => sumf (others k xr) (fun st => exp ((e p st - e p xr) + (A st j - A xr j) * (t - nthR p j)))).
  assert (D : is_derive F (nthR p j) (sumf (others k xr) (fun st => (A st j - A xr j) * exp (e p st - e p xr)))).
  { unfold F. apply (is_derive_sumf (others k xr) (fun t st => exp ((e p st - e p xr) + (A st j - A xr j) * (t - nthR p j)))). intros st _.
    set (u := e p st - e p xr). set (v := A st j - A xr j). set (y := nthR p j). auto_derive; [exact I|]. replace (u + v * (y + - y)) with u by ring. ring. }
  assert (F0 : F (nthR p j) + 1 = potts_D p).
  { unfold F, potts_D. f_equal. apply sumf_ext. intros st. f_equal. ring. }
  pose proof (potts_D_pos p) as PD.
  apply (is_derive_ext (fun t : R => ln (F t + 1))).
  { intros t. unfold potts_D, F. do 2 f_equal. apply sumf_ext. intros st. rewrite !E. f_equal. ring. }
  clearbody F. auto_derive.
  - split; [eexists; exact D|]. split; [lra|exact I].
  - change (Derive (fun t => F t) (nthR p j)) with (Derive F (nthR p j)). rewrite (is_derive_unique F _ _ D). rewrite F0. unfold potts_dterm. field. lra.
Qed.

Lemma potts_dterm_eq p j : potts_dterm p j =
  sumf (seq 0 k) (fun h => if Nat.eqb (r + n * h) j then potts_num_field k r h (map (nthR p) ix) x o / potts_D p else 0) +
  sumf (others n r) (fun i => if Nat.eqb (k * n + (if Nat.ltb i r then pair_index n i r else pair_index n r i)) j
     then potts_num_coupling k r i (map (nthR p) ix) x o / potts_D p else 0).
Proof.
  assert (EA : forall st, A st j = sumf (seq 0 k) (fun h => if Nat.eqb (r + n * h) j then b2R (Nat.eqb st h) else 0) +
    sumf (others n r) (fun i => if Nat.eqb (k * n + (if Nat.ltb i r then pair_index n i r else pair_index n r i)) j then b2R (Nat.eqb (nth i x 0%nat) st) else 0)).
  { intros st. unfold A, ix, potts_ixs, obs_st. rewrite at_ix_app by now rewrite !map_length. now rewrite !at_ix_map. }
  unfold potts_dterm.
  rewrite (sumf_ext _ _ (fun st =>
    sumf (seq 0 k) (fun h => if Nat.eqb (r + n * h) j then (b2R (Nat.eqb st h) - b2R (Nat.eqb xr h)) * exp (e p st - e p xr) else 0) +
    sumf (others n r) (fun i => if Nat.eqb (k * n + (if Nat.ltb i r then pair_index n i r else pair_index n r i)) j
      then (b2R (Nat.eqb (nth i x 0%nat) st) - b2R (Nat.eqb (nth i x 0%nat) xr)) * exp (e p st - e p xr) else 0))).
  2:{ intros st. rewrite !EA.
      match goal with |- (?a + ?b - (?c + ?d)) * ?z = _ => replace ((a + b - (c + d)) * z) with ((a - c) * z + (b - d) * z) by ring end.
      rewrite <- !sumf_minus, <- !sumf_scal_r. f_equal.
      - apply sumf_ext. intros h. destruct (Nat.eqb _ _); ring.
      - apply sumf_ext. intros i. destruct (Nat.eqb _ j); ring. }
  rewrite sumf_plus, (sumf_swap (others k xr) (seq 0 k)), (sumf_swap (others k xr) (others n r)).
  unfold Rdiv. rewrite Rmult_plus_distr_r, <- !sumf_scal_r. f_equal.
  - apply sumf_ext. intros h. rewrite potts_num_field_eq. destruct (Nat.eqb _ j); [reflexivity|]. rewrite sumf_zero by (intros; reflexivity). ring.
  - apply sumf_ext. intros i. rewrite potts_num_coupling_eq. destruct (Nat.eqb _ j); [reflexivity|]. rewrite sumf_zero by (intros; reflexivity). ring.
Qed.
End Term.

(** ** The objective *)
Lemma combine_seq_snd {A} (l : list A) : forall b (f : A -> R), sumf (combine (seq b (length l)) l) (fun p => f (snd p)) = sumf l f.
Proof. induction l as [|a l IH]; intros b f; [reflexivity|]. cbn [length seq combine]. rewrite !sumf_cons, IH. reflexivity. Qed.

Lemma combine_seq_snd_n n m : (m < n)%nat -> forall f : nat -> R, sumf (combine (seq 0 (n - 1)) (others n m)) (fun p => f (snd p)) = sumf (others n m) f.
Proof. intros Hm f. rewrite <- (others_length n m Hm). apply combine_seq_snd. Qed.

Section Objective.
Variables (n k : nat) (sample : list (list nat)) (p : list R).
Hypothesis Hs : forall x, In x sample -> length x = n /\ forall v, In v x -> (v < k)%nat.
Hypothesis Hp : length p = (k * n + n * (n - 1) / 2)%nat.

Lemma sample_state x r : In x sample -> (r < n)%nat -> (nth r x 0 < k)%nat.
Proof. intros Hx Hr. destruct (Hs x Hx) as [L V]. apply V, nth_In. lia. Qed.

Lemma potts_f_ok cost cost_jac : exists grad,
  pseudo_potts_f (pseudo_potts_get_multipliers_r n k) (pseudo_potts_calc_observables_r n k) n k (length p) sample cost cost_jac p =
    Ok (sumf (seq 0 n) (fun r => sumf sample (fun x => ln (potts_D n k r x p))) + cost p, grad) /\ length grad = length p /\
  forall j, (j < length p)%nat -> nthR grad j = sumf (seq 0 n) (fun r => sumf sample (fun x => potts_dterm n k r x p j)) + nthR (cost_jac p) j.
Proof.
  unfold pseudo_potts_f.
  set (body := fun (st : R * list R) (r : nat) => _).
  assert (L : forall m, (m <= n)%nat -> exists dll, foldM body (range m) (0, repeat 0 (length p)) =
     Ok (- sumf (seq 0 m) (fun r => sumf sample (fun x => ln (potts_D n k r x p))), dll) /\ length dll = length p /\
     forall j, nthR dll j = - sumf (seq 0 m) (fun r => sumf sample (fun x => potts_dterm n k r x p j))).
  { induction m as [|m IH]; intros Hm.
    - exists (repeat 0 (length p)). cbn [range seq foldM]. rewrite sumf_nil, Ropp_0. split; [reflexivity|]. split; [apply repeat_length|].
      intros j. rewrite sumf_nil, Ropp_0. unfold nthR. apply nth_repeat.
    - destruct (IH ltac:(lia)) as (dll & E & Ld & H). unfold range in *. rewrite seq_S. change (0 + m)%nat with m. rewrite foldM_app, E. cbn [bind foldM].
      set (ll := - sumf (seq 0 m) _).
      assert (Hr : (m < n)%nat) by lia.
      set (ix := potts_ixs n k m). set (mult := map (nthR p) ix). set (oc := pseudo_potts_calc_observables_r n k m).
      set (den := fun x => - exp (- potts_ll mult (oc x))).
      destruct (foldM_add (get ix) (fun h => m + n * h)%nat (fun h => sumf sample (fun x => potts_num_field k m h mult x (oc x) / den x)) (seq 0 k) dll) as (d1 & E1 & L1 & H1).
      { intros h Hh. apply in_seq in Hh. split.
        - rewrite (get_nth 0%nat) by (unfold ix, potts_ixs; rewrite app_length, !map_length, seq_length; lia).
          unfold ix, potts_ixs. rewrite app_nth1 by (rewrite map_length, seq_length; lia). rewrite nth_map_seq by lia. reflexivity.
        - rewrite Ld, Hp. nia. }
      set (tgt := fun i => (k * n + (if Nat.ltb i m then pair_index n i m else pair_index n m i))%nat).
      destruct (foldM_add (fun ij : nat * nat => get ix (fst ij + k)) (fun ij => tgt (snd ij))
         (fun ij => sumf sample (fun x => potts_num_coupling k m (snd ij) mult x (oc x) / den x)) (combine (seq 0 (n - 1)) (others n m)) d1) as (d2 & E2 & L2 & H2).
      { intros [i j] Hij. cbn [fst snd].
        assert (Hi : (i < n - 1)%nat /\ j = nth i (others n m) 0%nat).
        { destruct (In_nth _ _ (0, 0)%nat Hij) as (q & Hq & Eq). rewrite combine_length, seq_length, others_length in Hq by assumption.
          rewrite nth_combine in Eq by (rewrite seq_length, others_length; lia). injection Eq as <- <-. rewrite seq_nth by lia. split; [lia|reflexivity]. }
        destruct Hi as [Hi ->].
        assert (Li : length ix = (k + (n - 1))%nat) by (unfold ix, potts_ixs; rewrite app_length, !map_length, seq_length, others_length; lia).
        assert (Ei : nth (i + k) ix 0%nat = tgt (nth i (others n m) 0%nat)).
        { unfold ix, potts_ixs. rewrite app_nth2 by (rewrite map_length, seq_length; lia). rewrite map_length, seq_length. replace (i + k - k)%nat with i by lia.
          fold tgt. rewrite (nth_indep _ 0%nat (tgt 0%nat)) by (rewrite map_length, others_length; lia). now rewrite (map_nth tgt). }
        split; [rewrite (get_nth 0%nat) by lia; now rewrite Ei|]. rewrite <- Ei, L1, Ld, Hp. apply (potts_ixs_range n k m); [assumption|]. apply nth_In. fold ix. lia. }
      assert (B : body (ll, dll) m = Ok (ll + sumf sample (fun x => potts_ll mult (oc x)), d2)).
      { unfold body. rewrite potts_get by assumption. cbn [bind fst snd]. fold ix. fold mult. unfold range.
        fold (others n m). fold oc. unfold den in E1, E2. rewrite E1. cbn [bind]. rewrite E2. reflexivity. }
      rewrite B. cbn [bind]. exists d2.
      assert (V : forall x, In x sample -> potts_ll mult (oc x) = - ln (potts_D n k m x p) /\ den x = - potts_D n k m x p).
      { intros x Hx. pose proof (potts_ll_eq n k m x Hr p) as Q. fold ix mult in Q. change (pseudo_potts_calc_observables_r n k m x) with (oc x) in Q.
        split; [exact Q|]. unfold den. rewrite Q, Ropp_involutive, exp_ln; [reflexivity|]. pose proof (potts_D_pos n k m x p). lra. }
      split; [|split; [congruence|]].
      + f_equal. f_equal. rewrite sumf_app, sumf_cons, sumf_nil. unfold ll. rewrite (sumf_ext_in sample _ (fun x => - ln (potts_D n k m x p))) by (intros x Hx; now apply V).
        rewrite sumf_opp. ring.
      + intros j. rewrite H2, H1, H, sumf_app, sumf_cons, sumf_nil.
        rewrite (combine_seq_snd_n n m Hr (fun i => if Nat.eqb (tgt i) j then sumf sample (fun x => potts_num_coupling k m i mult x (oc x) / den x) else 0)).
        rewrite (sumf_ext_in sample (fun x => potts_dterm n k m x p j) (fun x =>
          sumf (seq 0 k) (fun h => if Nat.eqb (m + n * h) j then potts_num_field k m h mult x (oc x) / potts_D n k m x p else 0) +
          sumf (others n m) (fun i => if Nat.eqb (tgt i) j then potts_num_coupling k m i mult x (oc x) / potts_D n k m x p else 0))).
        2:{ intros x Hx. apply (potts_dterm_eq n k m x Hr). now apply sample_state. }
        rewrite sumf_plus, (sumf_swap sample (seq 0 k)), (sumf_swap sample (others n m)).
        assert (G : forall (c : list nat -> R), sumf sample (fun x => c x / den x) = - sumf sample (fun x => c x / potts_D n k m x p)).
        { intros c. rewrite <- sumf_opp. apply sumf_ext_in. intros x Hx. rewrite (proj2 (V x Hx)). pose proof (potts_D_pos n k m x p). field. lra. }
        rewrite (sumf_ext (seq 0 k) _ (fun h => - sumf sample (fun x => if Nat.eqb (m + n * h) j then potts_num_field k m h mult x (oc x) / potts_D n k m x p else 0))).
        2:{ intros h. destruct (Nat.eqb _ j); [apply G|]. rewrite sumf_zero by (intros; reflexivity). ring. }
        rewrite (sumf_ext (others n m) _ (fun i => - sumf sample (fun x => if Nat.eqb (tgt i) j then potts_num_coupling k m i mult x (oc x) / potts_D n k m x p else 0))).
        2:{ intros i. destruct (Nat.eqb _ j); [apply G|]. rewrite sumf_zero by (intros; reflexivity). ring. }
        rewrite !sumf_opp. ring. }
  destruct (L n (Nat.le_refl _)) as (dll & E & Ld & H). rewrite E. cbn [bind fst snd]. eexists. split; [rewrite Ropp_involutive; reflexivity|].
  split; [unfold range; now rewrite map_length, seq_length|]. intros j Hj. unfold nthR at 1, range. rewrite nth_map_seq by assumption. rewrite H. ring.
Qed.

Lemma potts_obj_derive j : (j < length p)%nat ->
  is_derive (fun t : R => sumf (seq 0 n) (fun r => sumf sample (fun x => ln (potts_D n k r x (upd p j t))))) (nthR p j)
    (sumf (seq 0 n) (fun r => sumf sample (fun x => potts_dterm n k r x p j))).
Proof.
  intros Hj. apply (is_derive_sumf (seq 0 n) (fun t r => sumf sample (fun x => ln (potts_D n k r x (upd p j t))))). intros r Hr.
  apply (is_derive_sumf sample (fun t x => ln (potts_D n k r x (upd p j t)))). intros x Hx. now apply potts_D_derive.
Qed.
End Objective.
