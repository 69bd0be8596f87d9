(** * Proofs: derivative of the energy, neighbours, conditional energies. *)
From Verif Require Import Prelude Spec PreludeFacts M_Index M_Energy P_Index P_Unravel P_Energy.
Import ListNotations.
Local Open Scope R_scope.

(** ** Splitting off one site *)
Definition others (n r : nat) : list nat := filter (fun i => negb (Nat.eqb i r)) (seq 0 n).

Lemma in_others n r i : In i (others n r) <-> (i < n /\ i <> r)%nat.
Proof.
  unfold others. rewrite filter_In, in_seq, negb_true_iff, Nat.eqb_neq. lia.
Qed.

Lemma sumf_others n r f : (r < n)%nat -> sumf (seq 0 n) f = f r + sumf (others n r) f.
Proof.
  intros Hr. unfold others. rewrite sumf_filter.
  rewrite (sumf_ext (seq 0 n) f (fun i => (if Nat.eq_dec r i then f i else 0) + (if negb (Nat.eqb i r) then f i else 0))).
  - rewrite sumf_plus, sumf_indic; [reflexivity|apply seq_NoDup|apply in_seq; lia].
  - intros i. destruct (Nat.eq_dec r i) as [->|Hne]; [rewrite Nat.eqb_refl; cbn; ring|].
    destruct (Nat.eqb_spec i r); [congruence|]. cbn. ring.
Qed.

Lemma sumf_pairs_split n r (f : nat -> nat -> R) : (r < n)%nat -> (forall i j, f i j = f j i) ->
  sumf (pairs (seq 0 n)) (fun p => f (fst p) (snd p)) =
  sumf (others n r) (fun i => f r i) + sumf (pairs (others n r)) (fun p => f (fst p) (snd p)).
Proof.
  intros Hr Hs.
  pose proof (sumf_double_pairs (seq 0 n) f Hs) as H1.
  pose proof (sumf_double_pairs (others n r) f Hs) as H2.
  rewrite (sumf_others n r (fun a => sumf (seq 0 n) (fun b => f a b)) Hr) in H1.
  rewrite (sumf_others n r (fun b => f r b) Hr) in H1.
  rewrite (sumf_ext (others n r) (fun a => sumf (seq 0 n) (fun b => f a b))
             (fun a => f r a + sumf (others n r) (fun b => f a b))) in H1.
  2:{ intros a. rewrite (sumf_others n r _ Hr), Hs. reflexivity. }
  rewrite sumf_plus, (sumf_others n r (fun a => f a a) Hr), H2 in H1.
  change (sumf (others n r) (f r)) with (sumf (others n r) (fun b => f r b)) in *. lra.
Qed.

Lemma in_pairs_in {A} (l : list A) a b : In (a, b) (pairs l) -> In a l /\ In b l.
Proof.
  induction l as [|x l IH]; cbn [pairs]; [intros []|].
  rewrite in_app_iff, in_map_iff. intros [(y & E & Hy)|H].
  - injection E as <- <-. split; [now left|now right].
  - destruct (IH H). split; now right.
Qed.

(** Local field on site r: h_r + sum_{i<>r} J_ir s_i. *)
Definition local_field (n : nat) (params s : list R) (r : nat) : R :=
  nthR params r + sumf (others n r) (fun i => coupling n params r i * nthR s i).

Lemma coupling_sym n params i j : (i <> j)%nat -> coupling n params i j = coupling n params j i.
Proof.
  intros H. unfold coupling. destruct (Nat.ltb_spec i j), (Nat.ltb_spec j i); try lia; reflexivity.
Qed.

(** Symmetric version used in sums. *)
Definition csym n params i j : R := if Nat.eqb i j then 0 else coupling n params i j.

Lemma csym_sym n params i j : csym n params i j = csym n params j i.
Proof.
  unfold csym. rewrite (Nat.eqb_sym j i). destruct (Nat.eqb_spec i j); [reflexivity|]. now apply coupling_sym.
Qed.

Lemma ising_energy_pairs n params s :
  ising_energy n params s =
  - sumf (seq 0 n) (fun i => nthR params i * nthR s i)
  - sumf (pairs (seq 0 n)) (fun p => csym n params (fst p) (snd p) * (nthR s (fst p) * nthR s (snd p))).
Proof.
  unfold ising_energy. rewrite <- (sumf_pairs_seq n (fun i j => coupling n params i j * (nthR s i * nthR s j))).
  f_equal. apply sumf_ext_in. intros [i j] Hin. apply in_pairs_seq in Hin. cbn [fst snd].
  unfold csym. destruct (Nat.eqb_spec i j); [lia|reflexivity].
Qed.

(** Energy = - s_r * (local field) + part not involving site r. *)
Definition energy_rest (n : nat) (params s : list R) (r : nat) : R :=
  - sumf (others n r) (fun i => nthR params i * nthR s i)
  - sumf (pairs (others n r)) (fun p => csym n params (fst p) (snd p) * (nthR s (fst p) * nthR s (snd p))).

Lemma ising_energy_split n params s r : (r < n)%nat ->
  ising_energy n params s = - nthR s r * local_field n params s r + energy_rest n params s r.
Proof.
  intros Hr. rewrite ising_energy_pairs.
  rewrite (sumf_others n r _ Hr).
  rewrite (sumf_pairs_split n r (fun i j => csym n params i j * (nthR s i * nthR s j)) Hr).
  2:{ intros i j. rewrite csym_sym. ring. }
  unfold local_field, energy_rest.
  rewrite (sumf_ext_in (others n r) (fun i => csym n params r i * (nthR s r * nthR s i))
     (fun i => nthR s r * (coupling n params r i * nthR s i))).
  2:{ intros i Hi. apply in_others in Hi. unfold csym. destruct (Nat.eqb_spec r i); [lia|ring]. }
  rewrite sumf_scal_l. ring.
Qed.

Lemma nthR_upd_other s i j v : (i <> j)%nat -> nthR (upd s i v) j = nthR s j.
Proof. intros H. unfold nthR. now apply nth_upd_other. Qed.

Lemma nthR_upd_same s i v : (i < length s)%nat -> nthR (upd s i v) i = v.
Proof. intros H. unfold nthR. now apply nth_upd_same. Qed.

Lemma local_field_upd n params s r v : local_field n params (upd s r v) r = local_field n params s r.
Proof.
  unfold local_field. f_equal. apply sumf_ext_in. intros i Hi. apply in_others in Hi.
  rewrite nthR_upd_other by lia. reflexivity.
Qed.

Lemma energy_rest_upd n params s r v : energy_rest n params (upd s r v) r = energy_rest n params s r.
Proof.
  unfold energy_rest. f_equal; [f_equal|].
  - apply sumf_ext_in. intros i Hi. apply in_others in Hi. rewrite nthR_upd_other by lia. reflexivity.
  - apply sumf_ext_in. intros [i j] Hin. apply in_pairs_in in Hin. destruct Hin as [Hi Hj].
    apply in_others in Hi, Hj. cbn [fst snd]. rewrite !nthR_upd_other by lia. reflexivity.
Qed.

Lemma ising_energy_upd n params s r v : (r < n)%nat -> length s = n ->
  ising_energy n params (upd s r v) - ising_energy n params s = (nthR s r - v) * local_field n params s r.
Proof.
  intros Hr Hs. rewrite !(ising_energy_split n params _ r Hr), local_field_upd, energy_rest_upd, nthR_upd_same by lia.
  ring.
Qed.

(** ** Derivative *)
Lemma dot_upd x y i v : length x = length y -> (i < length y)%nat ->
  dot x (upd y i v) = dot x y + nthR x i * (v - nthR y i).
Proof.
  revert y i. induction x as [|a x IH]; intros [|b y] i Hl Hi; cbn in Hl, Hi; try lia.
  destruct i as [|i]; cbn [upd]; rewrite !dot_cons.
  - unfold nthR. cbn [nth]. ring.
  - rewrite IH by lia. unfold nthR. cbn [nth]. ring.
Qed.

Lemma ising_obs_length s : length (ising_obs s) = (length s + length s * (length s - 1) / 2)%nat.
Proof. unfold ising_obs. now rewrite app_length, map_length, pairs_length. Qed.

Lemma calc_de_row_obs s i : (i < length s + length s * (length s - 1) / 2)%nat ->
  calc_de_row s i = Ok (- nthR (ising_obs s) i).
Proof.
  intros Hi. unfold calc_de_row, ising_obs. set (n := length s) in *.
  destruct (Nat.ltb_spec i n) as [Hlt|Hge].
  - f_equal. unfold nthR. rewrite app_nth1 by (fold n; assumption). reflexivity.
  - rewrite ind_to_sub_eq. destruct (Z.ltb_spec (Z.of_nat (i - n)) 0); [lia|].
    rewrite Nat2Z.id, pairs_Zrange, nth_error_map.
    set (k := (i - n)%nat) in *.
    assert (Hk : (k < length (pairs (seq 0 n)))%nat) by (rewrite pairs_seq_length; unfold k; lia).
    rewrite (nth_error_nth' _ (0%nat, 0%nat)) by assumption. cbn [option_map].
    destruct (nth k (pairs (seq 0 n)) (0%nat, 0%nat)) as [a b] eqn:E. cbn [fst snd].
    rewrite !Nat2Z.id. f_equal. unfold nthR at 3. rewrite app_nth2 by (fold n; assumption). fold n k.
    rewrite pairs_prod_as_map. fold n.
    rewrite (nth_indep _ 0 ((fun p => nthR s (fst p) * nthR s (snd p)) (0%nat, 0%nat))) by (rewrite map_length; assumption).
    rewrite (map_nth (fun p => nthR s (fst p) * nthR s (snd p))). rewrite E. cbn [fst snd]. ring.
Qed.

Lemma calc_de_row_raises s i : (length s + length s * (length s - 1) / 2 <= i)%nat ->
  calc_de_row s i = Err TypeError.
Proof.
  intros Hi. unfold calc_de_row. set (n := length s) in *.
  destruct (Nat.ltb_spec i n) as [Hlt|Hge]; [lia|].
  assert (E : ind_to_sub (Z.of_nat n) (Z.of_nat (i - n)) = None).
  { apply ind_to_sub_none; [lia|]. right.
    pose proof (pairs_Zrange_length (Z.of_nat n) ltac:(lia)) as L.
    rewrite pairs_Zrange, map_length, pairs_seq_length in L. lia. }
  rewrite E. reflexivity.
Qed.

Lemma derivable_affine a b x : derivable_pt_lim (fun t => a + b * t) x b.
Proof.
  intros eps He. exists (mkposreal 1 Rlt_0_1). intros h Hh _.
  replace ((a + b * (x + h) - (a + b * x)) / h - b) with 0 by (field; assumption).
  rewrite Rabs_R0. assumption.
Qed.

(** ** Neighbours *)
Lemma adj_gen (g : R -> R) (Hg : forall x, g (g x) = x) s :
  fold_left (fun st i =>
      let '(nb, s) := st in
      let s1 := upd s i (g (nthR s i)) in
      let nb := nb ++ [s1] in
      let s2 := upd s1 i (g (nthR s1 i)) in
      (nb, s2)) (seq 0 (length s)) ([], s)
  = (map (fun i => upd s i (g (nthR s i))) (seq 0 (length s)), s).
Proof.
  assert (G : forall l nb, (forall i, In i l -> (i < length s)%nat) ->
    fold_left (fun st i =>
      let '(nb, s) := st in
      let s1 := upd s i (g (nthR s i)) in
      let nb := nb ++ [s1] in
      let s2 := upd s1 i (g (nthR s1 i)) in
      (nb, s2)) l (nb, s) = (nb ++ map (fun i => upd s i (g (nthR s i))) l, s)).
  { induction l as [|i l IH]; intros nb Hl; [cbn; now rewrite app_nil_r|].
    cbn [fold_left map]. cbv zeta.
    assert (E : upd (upd s i (g (nthR s i))) i (g (nthR (upd s i (g (nthR s i))) i)) = s).
    { rewrite nthR_upd_same by (apply Hl; now left). rewrite upd_upd, Hg. unfold nthR. apply upd_same. }
    rewrite E, IH by (intros; apply Hl; now right). rewrite <- app_assoc. reflexivity. }
  apply (G (seq 0 (length s)) []). intros i Hi. apply in_seq in Hi. lia.
Qed.

Lemma adj_eq s : adj s = (map (fun i => upd s i (1 - nthR s i)) (seq 0 (length s)), s).
Proof. apply (adj_gen (fun x => 1 - x)). intros; ring. Qed.

Lemma adj_sym_eq s : adj_sym s = (map (fun i => upd s i (-1 * nthR s i)) (seq 0 (length s)), s).
Proof. apply (adj_gen (fun x => -1 * x)). intros; ring. Qed.

(** ** Pseudo-likelihood helpers *)
Lemma filter_ext_all {A} (p : A -> bool) l : (forall a, In a l -> p a = true) -> filter p l = l.
Proof.
  induction l as [|a l IH]; intros H; [reflexivity|]. cbn [filter]. rewrite H by now left.
  f_equal. apply IH. intros; apply H; now right.
Qed.

Lemma filter_none {A} (p : A -> bool) l : (forall a, In a l -> p a = false) -> filter p l = [].
Proof.
  induction l as [|a l IH]; intros H; [reflexivity|]. cbn [filter]. rewrite H by now left.
  apply IH. intros; apply H; now right.
Qed.

Lemma filter_map {A B} (p : B -> bool) (g : A -> B) l : filter p (map g l) = map g (filter (fun a => p (g a)) l).
Proof. induction l as [|a l IH]; [reflexivity|]. cbn [map filter]. destruct (p (g a)); cbn [map]; now rewrite IH. Qed.

Lemma filter_eq_seq r : forall m a, (a <= r < a + m)%nat -> filter (fun i => Nat.eqb i r) (seq a m) = [r].
Proof.
  induction m as [|m IH]; intros a H; [lia|]. cbn [seq filter].
  destruct (Nat.eqb_spec a r) as [->|Hne].
  - f_equal. apply filter_none. intros i Hi. apply in_seq in Hi. apply Nat.eqb_neq. lia.
  - apply IH. lia.
Qed.

Lemma filter_pairs_r r : forall m a, (a <= r < a + m)%nat ->
  filter (fun p => Nat.eqb (fst p) r || Nat.eqb (snd p) r) (pairs (seq a m)) =
  map (fun i => if Nat.ltb i r then (i, r) else (r, i)) (filter (fun i => negb (Nat.eqb i r)) (seq a m)).
Proof.
  induction m as [|m IH]; intros a H; [lia|].
  cbn [seq pairs]. rewrite filter_app, filter_map. cbn [fst snd].
  destruct (Nat.eq_dec a r) as [->|Hne].
  - rewrite (filter_ext_all _ (seq (S r) m)) by (intros; now rewrite Nat.eqb_refl).
    rewrite (filter_none _ (pairs (seq (S r) m))).
    2:{ intros [i j] Hin. apply in_pairs_seq in Hin. cbn [fst snd]. apply orb_false_iff. rewrite !Nat.eqb_neq. lia. }
    rewrite app_nil_r. cbn [filter]. rewrite Nat.eqb_refl. cbn [negb].
    rewrite (filter_ext_all _ (seq (S r) m)).
    2:{ intros i Hi. apply in_seq in Hi. apply negb_true_iff, Nat.eqb_neq. lia. }
    apply map_ext_in. intros i Hi. apply in_seq in Hi. destruct (Nat.ltb_spec i r); [lia|reflexivity].
  - rewrite (IH (S a)) by lia.
    assert (Ea : Nat.eqb a r = false) by (apply Nat.eqb_neq; assumption).
    rewrite (filter_ext (fun a0 => Nat.eqb a r || Nat.eqb a0 r) (fun a0 => Nat.eqb a0 r)) by (intros; now rewrite Ea).
    rewrite filter_eq_seq by lia. cbn [filter map]. rewrite Ea. cbn [negb map app].
    destruct (Nat.ltb_spec a r); [reflexivity|lia].
Qed.

Lemma pseudo_ising_ix_eq N r : (r < N)%nat ->
  pseudo_ising_ix N r = Ok (r :: map (fun i => N + (if Nat.ltb i r then pair_index N i r else pair_index N r i))%nat (others N r)).
Proof.
  intros Hr. unfold pseudo_ising_ix. fold (others N r).
  rewrite (mapM_eq _ (fun i => (N + (if Nat.ltb i r then pair_index N i r else pair_index N r i))%nat)); [reflexivity|].
  intros i Hi. apply in_others in Hi. destruct (Nat.ltb_spec i r).
  - rewrite pair_index_sub_to_ind by lia. cbn [bind]. rewrite Nat2Z.id. f_equal. lia.
  - rewrite pair_index_sub_to_ind by lia. cbn [bind]. rewrite Nat2Z.id. f_equal. lia.
Qed.

Lemma pseudo_ising_dot N r params s : (r < N)%nat -> length s = N ->
  exists mult ix, pseudo_ising_get_multipliers_r N r params = Ok (mult, ix) /\
    dot (pseudo_ising_calc_observables_r N r s) mult = nthR s r * local_field N params s r.
Proof.
  intros Hr Hs. unfold pseudo_ising_get_multipliers_r. rewrite pseudo_ising_ix_eq by assumption. cbn [bind map].
  eexists _, _. split; [reflexivity|].
  unfold pseudo_ising_calc_observables_r. rewrite loop_ij_pairs, (filter_pairs_r r N 0) by lia. fold (others N r).
  rewrite dot_cons, !map_map. unfold dot, local_field.
  assert (G : forall l, (forall i, In i l -> In i (others N r)) ->
    sumf (combine (map (fun x => nthR s (fst (if Nat.ltb x r then (x, r) else (r, x))) * nthR s (snd (if Nat.ltb x r then (x, r) else (r, x)))) l)
      (map (fun x => nthR params (N + (if Nat.ltb x r then pair_index N x r else pair_index N r x))) l)) (fun p => fst p * snd p)
    = nthR s r * sumf l (fun i => coupling N params r i * nthR s i)).
  { induction l as [|i l IH]; intros Hl; [cbn; ring|].
    cbn [map combine]. rewrite !sumf_cons, IH by (intros; apply Hl; now right). cbn [fst snd].
    specialize (Hl i (or_introl eq_refl)). apply in_others in Hl. unfold coupling.
    destruct (Nat.ltb_spec i r), (Nat.ltb_spec r i); try lia; cbn [fst snd]; ring. }
  rewrite G by auto. ring.
Qed.

(** ** Potts *)
Lemma dot_flat_map n (f : nat -> list R) : (forall c, length (f c) = n) ->
  forall k params, length params = (n * k)%nat ->
  dot (flat_map f (seq 0 k)) params =
  sumf (seq 0 k) (fun c => sumf (seq 0 n) (fun j => nthR (f c) j * nthR params (c * n + j)%nat)).
Proof.
  intros Hf. induction k as [|k IH]; intros params Hp.
  - reflexivity.
  - rewrite seq_S, flat_map_app. change (0 + k)%nat with k. cbn [flat_map]. rewrite app_nil_r.
    rewrite <- (firstn_skipn (n * k) params) at 1.
    rewrite dot_app.
    2:{ rewrite (length_flat_map_const _ _ n) by auto. rewrite firstn_length, seq_length. nia. }
    rewrite IH by (rewrite firstn_length; nia). rewrite sumf_app, sumf_cons, sumf_nil, Rplus_0_r. f_equal.
    + apply sumf_ext_in. intros c Hc. apply in_seq in Hc. apply sumf_ext_in. intros j Hj. apply in_seq in Hj.
      rewrite nthR_firstn by nia. reflexivity.
    + rewrite (dot_seq _ _ n) by (auto; rewrite skipn_length; nia).
      apply sumf_ext. intros j. rewrite nthR_skipn. do 2 f_equal. lia.
Qed.

Lemma potts_obs_dot n k s params : length s = n -> (forall x, In x s -> (x < k)%nat) ->
  length params = (k * n + n * (n - 1) / 2)%nat ->
  dot (potts_obs k s) params = - potts_energy n k params s.
Proof.
  intros Hs Hv Hp. unfold potts_obs.
  pose proof (dot_app (flat_map (fun c => map (fun x => b2R (Nat.eqb x c)) s) (seq 0 k))
     (map (fun p => b2R (Nat.eqb (fst p) (snd p))) (pairs s)) (firstn (n * k) params) (skipn (n * k) params)) as Ed.
  rewrite firstn_skipn in Ed. rewrite Ed; clear Ed.
  2:{ rewrite (length_flat_map_const _ _ n) by (intros; now rewrite map_length). rewrite firstn_length, seq_length. nia. }
  rewrite (dot_flat_map n) by (intros; rewrite ?map_length, ?firstn_length; nia).
  rewrite (pairs_as_map 0%nat s), Hs, map_map. cbn [fst snd].
  rewrite (dot_comm _ (skipn (n * k) params)), dot_pairs_index by (rewrite skipn_length; nia).
  unfold potts_energy.
  rewrite <- (sumf_pairs_seq n (fun i j => nthR params (k * n + pair_index n i j)%nat * b2R (Nat.eqb (nth i s 0%nat) (nth j s 0%nat)))).
  rewrite sumf_swap.
  rewrite (sumf_ext_in (seq 0 n) _ (fun j => nthR params (nth j s 0 * n + j)%nat)).
  2:{ intros j Hj. apply in_seq in Hj.
      rewrite (sumf_ext_in (seq 0 k) _ (fun c => if Nat.eq_dec (nth j s 0%nat) c then nthR params (c * n + j)%nat else 0)).
      2:{ intros c Hc. apply in_seq in Hc. rewrite nthR_firstn by nia.
          unfold nthR at 1. rewrite (nth_indep _ 0 (b2R (Nat.eqb 0%nat c))) by (rewrite map_length; lia).
          rewrite (map_nth (fun x => b2R (Nat.eqb x c)) s 0%nat).
          destruct (Nat.eq_dec (nth j s 0%nat) c) as [->|Hne]; [rewrite Nat.eqb_refl; cbn; ring|].
          apply Nat.eqb_neq in Hne. rewrite Hne. cbn. ring. }
      rewrite (sumf_indic Nat.eq_dec (seq 0 k) (nth j s 0%nat) (fun c => nthR params (c * n + j)%nat)); [reflexivity|apply seq_NoDup|].
      apply in_seq. assert (Hin : (nth j s 0 < k)%nat) by (apply Hv, nth_In; lia). lia. }
  rewrite (sumf_ext_in (pairs (seq 0 n)) _ (fun p => nthR params (k * n + pair_index n (fst p) (snd p))%nat * b2R (Nat.eqb (nth (fst p) s 0%nat) (nth (snd p) s 0%nat)))).
  2:{ intros [i j] _. cbn [fst snd]. rewrite nthR_skipn. do 2 f_equal. lia. }
  ring.
Qed.

(** Potts: energy as a function of the state of one site. *)
Definition pcoupling (n k : nat) (params : list R) (i j : nat) : R :=
  nthR params (k * n + if Nat.ltb i j then pair_index n i j else pair_index n j i)%nat.

Definition potts_local (n k : nat) (params : list R) (s : list nat) (r st : nat) : R :=
  nthR params (r + n * st)%nat + sumf (others n r) (fun i => pcoupling n k params r i * b2R (Nat.eqb (nth i s 0%nat) st)).

Definition psym n k params (s : list nat) i j : R :=
  if Nat.eqb i j then 0 else pcoupling n k params i j * b2R (Nat.eqb (nth i s 0%nat) (nth j s 0%nat)).

Definition potts_rest (n k : nat) (params : list R) (s : list nat) (r : nat) : R :=
  - sumf (others n r) (fun i => nthR params (nth i s 0 * n + i)%nat)
  - sumf (pairs (others n r)) (fun p => psym n k params s (fst p) (snd p)).

Lemma potts_energy_split n k params s r : (r < n)%nat ->
  potts_energy n k params s = - potts_local n k params s r (nth r s 0%nat) + potts_rest n k params s r.
Proof.
  intros Hr. unfold potts_energy.
  rewrite <- (sumf_pairs_seq n (fun i j => nthR params (k * n + pair_index n i j)%nat * b2R (Nat.eqb (nth i s 0%nat) (nth j s 0%nat)))).
  rewrite (sumf_ext_in (pairs (seq 0 n)) _ (fun p => psym n k params s (fst p) (snd p))).
  2:{ intros [i j] Hin. apply in_pairs_seq in Hin. cbn [fst snd]. unfold psym, pcoupling.
      destruct (Nat.eqb_spec i j); [lia|]. destruct (Nat.ltb_spec i j); [reflexivity|lia]. }
  rewrite (sumf_pairs_split n r (psym n k params s) Hr).
  2:{ intros i j. unfold psym, pcoupling. rewrite (Nat.eqb_sym j i). destruct (Nat.eqb_spec i j); [reflexivity|].
      rewrite (Nat.eqb_sym (nth j s 0%nat)). destruct (Nat.ltb_spec i j), (Nat.ltb_spec j i); try lia; reflexivity. }
  rewrite (sumf_others n r _ Hr). unfold potts_local, potts_rest.
  rewrite (sumf_ext_in (others n r) (fun i => psym n k params s r i) (fun i => pcoupling n k params r i * b2R (Nat.eqb (nth i s 0%nat) (nth r s 0%nat)))).
  2:{ intros i Hi. apply in_others in Hi. unfold psym. destruct (Nat.eqb_spec r i); [lia|]. now rewrite (Nat.eqb_sym (nth i s 0%nat)). }
  replace (nth r s 0 * n + r)%nat with (r + n * nth r s 0)%nat by lia. ring.
Qed.

Lemma potts_rest_upd n k params s r v : potts_rest n k params (upd s r v) r = potts_rest n k params s r.
Proof.
  unfold potts_rest. f_equal; [f_equal|].
  - apply sumf_ext_in. intros i Hi. apply in_others in Hi. rewrite nth_upd_other by lia. reflexivity.
  - apply sumf_ext_in. intros [i j] Hin. apply in_pairs_in in Hin. destruct Hin as [Hi Hj].
    apply in_others in Hi, Hj. cbn [fst snd]. unfold psym. rewrite !nth_upd_other by lia. reflexivity.
Qed.

Lemma potts_local_upd n k params s r v st : potts_local n k params (upd s r v) r st = potts_local n k params s r st.
Proof.
  unfold potts_local. f_equal. apply sumf_ext_in. intros i Hi. apply in_others in Hi.
  rewrite nth_upd_other by lia. reflexivity.
Qed.

Lemma pseudo_potts_ix_eq n k r : (r < n)%nat ->
  pseudo_potts_ix n k r = Ok (map (fun i => r + n * i)%nat (seq 0 k) ++
     map (fun i => k * n + (if Nat.ltb i r then pair_index n i r else pair_index n r i))%nat (others n r)).
Proof.
  intros Hr. unfold pseudo_potts_ix. fold (others n r).
  rewrite (mapM_eq _ (fun i => (k * n + (if Nat.ltb i r then pair_index n i r else pair_index n r i))%nat)); [reflexivity|].
  intros i Hi. apply in_others in Hi. destruct (Nat.ltb_spec i r).
  - rewrite pair_index_sub_to_ind by lia. cbn [bind]. rewrite Nat2Z.id. f_equal. lia.
  - rewrite pair_index_sub_to_ind by lia. cbn [bind]. rewrite Nat2Z.id. f_equal. lia.
Qed.

Lemma dot_map_map {A} (f g : A -> R) l : dot (map f l) (map g l) = sumf l (fun a => f a * g a).
Proof.
  induction l as [|a l IH]; [reflexivity|]. cbn [map]. rewrite dot_cons, IH, sumf_cons. reflexivity.
Qed.

Lemma onehot_dot k st (g : nat -> R) : (st < k)%nat ->
  dot (map (fun i => b2R (Nat.eqb st i)) (seq 0 k)) (map g (seq 0 k)) = g st.
Proof.
  intros H. rewrite dot_map_map.
  rewrite (sumf_ext (seq 0 k) _ (fun i => if Nat.eq_dec st i then g i else 0)).
  - apply sumf_indic; [apply seq_NoDup|apply in_seq; lia].
  - intros i. destruct (Nat.eq_dec st i) as [->|Hne]; [rewrite Nat.eqb_refl; cbn; ring|].
    apply Nat.eqb_neq in Hne. rewrite Hne. cbn. ring.
Qed.

Lemma pseudo_potts_dot n k r params s : (r < n)%nat -> length s = n ->
  (forall x, In x s -> (x < k)%nat) ->
  exists mult ix, pseudo_potts_get_multipliers_r n k r params = Ok (mult, ix) /\
    forall obs otherobs otherstates,
    pseudo_potts_calc_observables_r n k r s = (obs, otherobs, otherstates) ->
    dot obs mult = potts_local n k params s r (nth r s 0%nat) /\
    length otherobs = length otherstates /\
    otherstates = filter (fun i => negb (Nat.eqb (nth r s 0%nat) i)) (seq 0 k) /\
    (forall m, (m < length otherstates)%nat ->
       dot (nth m otherobs []) mult = potts_local n k params s r (nth m otherstates 0%nat)).
Proof.
  intros Hr Hs Hv. unfold pseudo_potts_get_multipliers_r. rewrite pseudo_potts_ix_eq by assumption. cbn [bind].
  eexists _, _. split; [reflexivity|]. intros obs otherobs otherstates E.
  unfold pseudo_potts_calc_observables_r in E. rewrite loop_ij_pairs, (filter_pairs_r r n 0) in E by lia.
  fold (others n r) in E. injection E as <- <- <-.
  assert (Hsr : (nth r s 0 < k)%nat) by (apply Hv, nth_In; lia).
  assert (Gen : forall st, (st < k)%nat ->
     dot (map (fun i => b2R (Nat.eqb st i)) (range k) ++
          map (fun i => b2R (Nat.eqb (nth i s 0%nat) st)) (others n r))
         (map (fun i => nthR params i) (map (fun i => (r + n * i)%nat) (seq 0 k) ++
            map (fun i => (k * n + (if Nat.ltb i r then pair_index n i r else pair_index n r i))%nat) (others n r)))
     = potts_local n k params s r st).
  { intros st Hst. rewrite map_app, dot_app by (now rewrite !map_length). unfold potts_local. f_equal.
    - rewrite map_map. unfold range. rewrite (onehot_dot k st (fun x => nthR params (r + n * x)%nat)) by assumption. reflexivity.
    - rewrite map_map, dot_map_map. apply sumf_ext_in. intros i Hi. apply in_others in Hi.
      rewrite Rmult_comm. f_equal. unfold pcoupling. destruct (Nat.ltb_spec i r), (Nat.ltb_spec r i); try lia; reflexivity. }
  split; [|split; [|split]].
  - rewrite <- (Gen _ Hsr). f_equal. f_equal. rewrite map_map. apply map_ext_in. intros i Hi. apply in_others in Hi.
    destruct (Nat.ltb_spec i r); cbn [fst snd]; [reflexivity|]. now rewrite Nat.eqb_sym.
  - now rewrite map_length.
  - reflexivity.
  - intros m Hm.
    set (F := fun st => map (fun i => b2R (Nat.eqb st i)) (range k) ++
        map (fun p => if Nat.eqb (fst p) r then b2R (Nat.eqb (nth (snd p) s 0%nat) st)
                      else b2R (Nat.eqb (nth (fst p) s 0%nat) st))
          (map (fun i => if Nat.ltb i r then (i, r) else (r, i)) (others n r))).
    set (L := filter (fun i => negb (Nat.eqb (nth r s 0%nat) i)) (range k)) in *.
    rewrite (nth_indep (map F L) [] (F 0%nat)) by (rewrite map_length; assumption).
    rewrite map_nth. set (st := nth m L 0%nat).
    assert (Hst : (st < k)%nat).
    { assert (Hin : In st L) by (apply nth_In; assumption). unfold L in Hin. apply filter_In in Hin.
      destruct Hin as [Hin _]. unfold range in Hin. apply in_seq in Hin. lia. }
    rewrite <- (Gen st Hst). f_equal. unfold F. f_equal. rewrite map_map. apply map_ext_in. intros i Hi. apply in_others in Hi.
    destruct (Nat.ltb_spec i r); cbn [fst snd].
    + destruct (Nat.eqb_spec i r); [lia|reflexivity].
    + rewrite Nat.eqb_refl. reflexivity.
Qed.
