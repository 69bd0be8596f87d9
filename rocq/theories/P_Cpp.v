(** * The C++ samplers compute the same energies and decisions as the Python ones *)
From Coq Require Import Sorted.
From Verif Require Import Prelude Spec PreludeFacts M_Index M_Energy M_Sampler P_Energy P_Energy2 P_Sampler.
Import ListNotations.
Local Open Scope R_scope.

Lemma fold_left_ext_in {A B} (f g : A -> B -> A) l : (forall a b, In b l -> f a b = g a b) ->
  forall a, fold_left f l a = fold_left g l a.
Proof.
  intros H. induction l as [|x l IH]; intros a; [reflexivity|]. cbn. rewrite H by now left.
  apply IH. intros a' b Hb. apply H. now right.
Qed.

Lemma inner_counter (v : nat -> nat -> R) len : forall a e c,
  fold_left (fun st j => let '(e, c) := st in (e - v c j, (c + 1)%nat)) (seq a len) (e, c)
  = (e - sumf (seq a len) (fun j => v (c + (j - a))%nat j), (c + len)%nat).
Proof.
  induction len as [|len IH]; intros a e c.
  - cbn [seq fold_left]. rewrite sumf_nil. f_equal; [ring|lia].
  - change (seq a (S len)) with (a :: seq (S a) len). cbn [fold_left]. rewrite IH, sumf_cons.
    rewrite Nat.sub_diag, Nat.add_0_r. f_equal; [|lia].
    rewrite (sumf_ext_in _ (fun j => v (c + 1 + (j - S a))%nat j) (fun j => v (c + (j - a))%nat j)); [ring|].
    intros j Hj. apply in_seq in Hj. f_equal. lia.
Qed.

Lemma row_start_S n i : (S i <= n)%nat -> (S i * (2 * n - S i - 1) / 2 = i * (2 * n - i - 1) / 2 + (n - S i))%nat.
Proof.
  intros H. assert (E : (S i * (2 * n - S i - 1) = i * (2 * n - i - 1) + (n - S i) * 2)%nat) by nia.
  rewrite E, Nat.div_add by lia. reflexivity.
Qed.

Lemma nested_counter n (f : nat -> R) (v : nat -> nat -> nat -> R) m : (m <= n)%nat ->
  fold_left (fun st i => let '(e, c) := st in
      fold_left (fun st j => let '(e, c) := st in (e - v i c j, (c + 1)%nat)) (range2 (i + 1) n) (e - f i, c))
    (seq 0 m) (0, 0%nat)
  = (- sumf (seq 0 m) f - sumf (seq 0 m) (fun i => sumf (seq (S i) (n - S i)) (fun j => v i (pair_index n i j) j)),
     (m * (2 * n - m - 1) / 2)%nat).
Proof.
  induction m as [|m IH]; intros Hm.
  - cbn [seq fold_left]. rewrite !sumf_nil. f_equal. ring.
  - rewrite seq_S, fold_left_app, IH by lia. cbn [fold_left]. rewrite Nat.add_0_l.
    unfold range2. replace (m + 1)%nat with (S m) by lia. rewrite inner_counter.
    rewrite <- seq_S, !sumf_seq_last, row_start_S by lia. f_equal.
    rewrite (sumf_ext_in (seq (S m) (n - S m)) (fun j => v m (m * (2 * n - m - 1) / 2 + (j - S m))%nat j)
               (fun j => v m (pair_index n m j) j)).
    + ring.
    + intros j Hj. unfold pair_index. f_equal. lia.
Qed.

Lemma map_IZR_nth s i : nthR (map IZR s) i = IZR (nth i s 0%Z).
Proof. unfold nthR. change 0 with (IZR 0). apply map_nth. Qed.

Lemma cpp_calc_e_eq n params s : (0 < n)%nat ->
  cpp_calc_e n params s = ising_energy n params (map IZR s).
Proof.
  intros Hn. unfold cpp_calc_e, range.
  rewrite (nested_counter n (fun i => nthR params i * IZR (nth i s 0%Z))
     (fun i c j => nthR params (c + n) * IZR (nth i s 0%Z) * IZR (nth j s 0%Z))) by lia.
  unfold ising_energy. destruct n as [|n]; [lia|]. replace (S n - 1)%nat with n by lia.
  rewrite !(sumf_seq_last n). rewrite Nat.sub_diag. cbn [seq]. rewrite sumf_nil.
  rewrite (sumf_ext (seq 0 n) (fun i => nthR params i * nthR (map IZR s) i) (fun i => nthR params i * IZR (nth i s 0%Z)))
    by (intros i; now rewrite map_IZR_nth).
  rewrite map_IZR_nth.
  rewrite (sumf_ext_in (seq 0 n) (fun i => sumf (seq (S i) (S n - S i)) (fun j =>
        coupling (S n) params i j * (nthR (map IZR s) i * nthR (map IZR s) j)))
     (fun i => sumf (seq (S i) (S n - S i)) (fun j =>
        nthR params (pair_index (S n) i j + S n) * IZR (nth i s 0%Z) * IZR (nth j s 0%Z)))).
  - ring.
  - intros i Hi. apply sumf_ext_in. intros j Hj. apply in_seq in Hi, Hj.
    rewrite !map_IZR_nth. unfold coupling. destruct (Nat.ltb_spec i j); [|lia].
    rewrite (Nat.add_comm (S n)). ring.
Qed.

Lemma cpp_potts_field_eq n params s i : (nth i s 0 < 3)%nat ->
  cpp_potts_field n params s i = nthR params (nth i s 0 * n + i)%nat.
Proof.
  intros H. unfold cpp_potts_field.
  destruct (nth i s 0%nat) as [|[|[|k]]]; cbn [Nat.eqb]; try lia; f_equal; lia.
Qed.

Lemma cpp_potts_calc_e_eq n params s : (0 < n)%nat -> length s = n -> Forall potts3 s ->
  cpp_potts_calc_e n params s = potts_energy n 3 params s.
Proof.
  intros Hn Hl Hs. unfold cpp_potts_calc_e, range.
  assert (Hlt : forall i, (i < n)%nat -> (nth i s 0 < 3)%nat).
  { intros i Hi. apply (Forall_nth_in potts3); [exact Hs|lia]. }
  rewrite (fold_left_ext_in _ (fun st i => let '(e, c) := st in
      fold_left (fun st j => let '(e, c) := st in
         (e - (fun i c j => if Nat.eqb (nth i s 0%nat) (nth j s 0%nat) then nthR params (c + 3 * n) else 0) i c j, (c + 1)%nat))
         (range2 (i + 1) n) (e - cpp_potts_field n params s i, c))).
  2: { intros [e c] i _. apply fold_left_ext_in. intros [e' c'] j _. f_equal. destruct (Nat.eqb _ _); ring. }
  rewrite (nested_counter n (cpp_potts_field n params s)
     (fun i c j => if Nat.eqb (nth i s 0%nat) (nth j s 0%nat) then nthR params (c + 3 * n) else 0)) by lia.
  unfold potts_energy. destruct n as [|n]; [lia|]. replace (S n - 1)%nat with n by lia.
  rewrite !(sumf_seq_last n). rewrite Nat.sub_diag. cbn [seq]. rewrite sumf_nil.
  rewrite (sumf_ext_in (seq 0 n) (cpp_potts_field (S n) params s) (fun i => nthR params (nth i s 0 * S n + i)%nat)).
  2: { intros i Hi. apply in_seq in Hi. apply cpp_potts_field_eq, Hlt. lia. }
  rewrite cpp_potts_field_eq by (apply Hlt; lia).
  rewrite (sumf_ext_in (seq 0 n) (fun i => sumf (seq (S i) (S n - S i)) (fun j =>
       nthR params (3 * S n + pair_index (S n) i j)%nat * b2R (Nat.eqb (nth i s 0%nat) (nth j s 0%nat))))
     (fun i => sumf (seq (S i) (S n - S i)) (fun j =>
       if Nat.eqb (nth i s 0%nat) (nth j s 0%nat) then nthR params (pair_index (S n) i j + 3 * S n) else 0))).
  - ring.
  - intros i Hi. apply sumf_ext_in. intros j Hj. rewrite (Nat.add_comm (3 * S n)).
    destruct (Nat.eqb _ _); cbn; ring.
Qed.

(** ** The coupling matrix *)
Lemma entry_set_entry m i j v a b n :
  length m = n -> (forall r, In r m -> length r = n) -> (i < n)%nat -> (j < n)%nat ->
  entry (set_entry m i j v) a b = if Nat.eqb a i && Nat.eqb b j then v else entry m a b.
Proof.
  intros Hl Hr Hi Hj. unfold entry, set_entry.
  destruct (Nat.eqb_spec a i) as [->|Ha].
  - rewrite nth_upd_same by lia. cbn [andb].
    assert (Hrow : length (nth i m []) = n) by (apply Hr, nth_In; lia).
    destruct (Nat.eqb_spec b j) as [->|Hb]; [now rewrite nth_upd_same by lia | now rewrite nth_upd_other by congruence].
  - rewrite nth_upd_other by congruence. reflexivity.
Qed.

Definition is_mat (n : nat) (m : list (list R)) : Prop := length m = n /\ forall r, In r m -> length r = n.

Lemma in_upd {A} (l : list A) i v x : In x (upd l i v) -> x = v \/ In x l.
Proof. revert i. induction l as [|a l IH]; intros [|i]; cbn; intuition. destruct (IH _ H0); auto. Qed.

Lemma is_mat_set_entry n m i j v : is_mat n m -> (i < n)%nat -> is_mat n (set_entry m i j v).
Proof.
  intros [Hl Hr] Hi. split; [unfold set_entry; now rewrite upd_length|].
  intros r H. apply in_upd in H. destruct H as [-> | H]; [|now apply Hr].
  rewrite upd_length. apply Hr, nth_In. lia.
Qed.

Lemma is_mat_zero n : is_mat n (repeat (repeat 0 n) n).
Proof.
  split; [apply repeat_length|]. intros r H. apply repeat_spec in H. subst. apply repeat_length.
Qed.

Lemma coupling_fold n off params : forall L m c,
  is_mat n m ->
  (forall k p, nth_error L k = Some p -> (fst p < snd p < n)%nat /\ pair_index n (fst p) (snd p) = (c + k)%nat) ->
  let m' := fst (fold_left (fun st p => let '(m, counter) := st in
         let v := nthR params (counter + off) in
         (set_entry (set_entry m (snd p) (fst p) v) (fst p) (snd p) v, (counter + 1)%nat)) L (m, c)) in
  is_mat n m' /\ forall a b, (a < n)%nat -> (b < n)%nat ->
    entry m' a b = if existsb (fun p => (Nat.eqb a (fst p) && Nat.eqb b (snd p)) || (Nat.eqb b (fst p) && Nat.eqb a (snd p))) L
                   then nthR params (pair_index n (Nat.min a b) (Nat.max a b) + off) else entry m a b.
Proof.
  induction L as [|[i j] L IH]; intros m c Hm HL; cbv zeta.
  - split; [exact Hm|]. reflexivity.
  - cbn [fold_left existsb fst snd].
    destruct (HL 0%nat (i, j) eq_refl) as [Hij Hc]. cbn [fst snd] in Hij, Hc. rewrite Nat.add_0_r in Hc.
    set (v := nthR params (c + off)).
    set (m1 := set_entry (set_entry m j i v) i j v).
    assert (Hm0 : is_mat n (set_entry m j i v)) by (apply is_mat_set_entry; [exact Hm|lia]).
    assert (Hm1 : is_mat n m1) by (apply is_mat_set_entry; [exact Hm0|lia]).
    assert (HL' : forall k p, nth_error L k = Some p -> (fst p < snd p < n)%nat /\ pair_index n (fst p) (snd p) = (c + 1 + k)%nat).
    { intros k p Hk. destruct (HL (S k) p Hk) as [H1 H2]. split; [exact H1|lia]. }
    destruct (IH m1 (c + 1)%nat Hm1 HL') as [Q1 Q2]. split; [exact Q1|].
    intros a b Ha Hb. specialize (Q2 a b Ha Hb). etransitivity; [exact Q2|].
    destruct (existsb _ L) eqn:Ex; [now rewrite orb_true_r|]. rewrite orb_false_r.
    unfold m1. destruct Hm as [Hm_l Hm_r], Hm0 as [Hm0_l Hm0_r].
    rewrite (entry_set_entry _ _ _ _ _ _ n Hm0_l Hm0_r), (entry_set_entry _ _ _ _ _ _ n Hm_l Hm_r) by lia.
    destruct (Nat.eqb_spec a i) as [->|Hai]; destruct (Nat.eqb_spec b j) as [->|Hbj]; cbn [andb orb].
    + rewrite Nat.min_l, Nat.max_r by lia. now rewrite Hc.
    + destruct (Nat.eqb_spec i j); [lia|]. rewrite andb_false_r. cbn [andb]. reflexivity.
    + destruct (Nat.eqb_spec j i); [lia|]. cbn [andb]. rewrite andb_false_r. reflexivity.
    + destruct (Nat.eqb_spec a j) as [->|Haj]; destruct (Nat.eqb_spec b i) as [->|Hbi]; cbn [andb]; try reflexivity.
      rewrite Nat.min_r, Nat.max_l by lia. now rewrite Hc.
Qed.

Lemma coupling_mat_entry n off params a b : (a < n)%nat -> (b < n)%nat ->
  entry (coupling_mat n off params) a b =
  if Nat.eqb a b then 0 else nthR params (pair_index n (Nat.min a b) (Nat.max a b) + off).
Proof.
  intros Ha Hb. unfold coupling_mat. rewrite loop_ij_pairs.
  destruct (coupling_fold n off params (pairs (seq 0 n)) (repeat (repeat 0 n) n) 0 (is_mat_zero n)) as [_ Q].
  { intros k p Hk. assert (Hlt : (k < n * (n - 1) / 2)%nat).
    { rewrite <- pairs_seq_length. apply nth_error_Some. congruence. }
    destruct (pair_index_nth n k Hlt) as [H1 H2]. rewrite (nth_error_nth _ _ (0, 0)%nat Hk) in H1, H2.
    split; [exact H2 | now rewrite H1]. }
  rewrite Q by assumption. destruct (existsb _ _) eqn:Ex.
  - apply existsb_exists in Ex. destruct Ex as [[i j] [Hin Hor]]. apply in_pairs_seq in Hin. cbn [fst snd] in Hor.
    apply orb_true_iff in Hor. destruct (Nat.eqb_spec a b) as [->|]; [|reflexivity].
    exfalso. destruct Hor as [Hor|Hor]; apply andb_true_iff in Hor; destruct Hor as [H1 H2]; apply Nat.eqb_eq in H1, H2; lia.
  - destruct (Nat.eqb_spec a b) as [->|Hab].
    + unfold entry. rewrite (nth_indep _ [] (repeat 0 n)) by (rewrite repeat_length; exact Hb).
      rewrite nth_repeat. apply nth_repeat.
    + exfalso. assert (Hex : existsb (fun p => (Nat.eqb a (fst p) && Nat.eqb b (snd p)) || (Nat.eqb b (fst p) && Nat.eqb a (snd p))) (pairs (seq 0 n)) = true).
      { apply existsb_exists. destruct (Nat.lt_ge_cases a b) as [H|H].
        - exists (a, b). split; [apply in_pairs_seq; lia|]. cbn [fst snd]. now rewrite !Nat.eqb_refl.
        - exists (b, a). split; [apply in_pairs_seq; lia|]. cbn [fst snd]. rewrite !Nat.eqb_refl. apply orb_true_r. }
      congruence.
Qed.

Lemma coupling_mat_ising n params a b : (a < n)%nat -> (b < n)%nat ->
  entry (coupling_mat n n params) a b = csym n params a b.
Proof.
  intros Ha Hb. rewrite coupling_mat_entry by assumption. unfold csym, coupling.
  destruct (Nat.eqb_spec a b); [reflexivity|]. destruct (Nat.ltb_spec a b).
  - rewrite Nat.min_l, Nat.max_r by lia. f_equal. lia.
  - rewrite Nat.min_r, Nat.max_l by lia. f_equal. lia.
Qed.

Lemma coupling_mat_potts n params a b : (a < n)%nat -> (b < n)%nat ->
  entry (coupling_mat n (3 * n) params) a b = if Nat.eqb a b then 0 else pcoupling n 3 params a b.
Proof.
  intros Ha Hb. rewrite coupling_mat_entry by assumption. unfold pcoupling.
  destruct (Nat.eqb_spec a b); [reflexivity|]. destruct (Nat.ltb_spec a b).
  - rewrite Nat.min_l, Nat.max_r by lia. f_equal. lia.
  - rewrite Nat.min_r, Nat.max_l by lia. f_equal. lia.
Qed.

(** ** Energy changes *)
Lemma fold_minus {A} (f : A -> R) L : forall e, fold_left (fun de i => de - f i) L e = e - sumf L f.
Proof. induction L as [|a L IH]; intros e; cbn [fold_left]; [rewrite sumf_nil; ring|]. rewrite IH, sumf_cons. ring. Qed.

Lemma map_upd {A B} (f : A -> B) l i v : map f (upd l i v) = upd (map f l) i (f v).
Proof. revert i. induction l as [|a l IH]; intros [|i]; cbn; [reflexivity|reflexivity|reflexivity|]. now rewrite IH. Qed.

Lemma ising_flip_energy n params s i : (i < n)%nat -> length s = n ->
  ising_energy n params (map IZR (flip s i)) - ising_energy n params (map IZR s)
  = 2 * IZR (nth i s 0%Z) * local_field n params (map IZR s) i.
Proof.
  intros Hi Hl. unfold flip. rewrite map_upd, ising_energy_upd by (rewrite ?map_length; assumption).
  rewrite map_IZR_nth, mult_IZR. ring.
Qed.

Lemma cpp_de_eq n params s i : (i < n)%nat -> length s = n ->
  let s1 := flip s i in
  fold_left (fun de k => de - 2 * entry (coupling_mat n n params) i k * IZR (nth i s1 0%Z) * IZR (nth k s1 0%Z))
     (range n) (-2 * nthR params i * IZR (nth i s1 0%Z))
  = cpp_calc_e n params s1 - cpp_calc_e n params s.
Proof.
  intros Hi Hl. cbv zeta. rewrite !cpp_calc_e_eq, ising_flip_energy by lia.
  rewrite (fold_minus (fun k => 2 * entry (coupling_mat n n params) i k * IZR (nth i (flip s i) 0%Z) * IZR (nth k (flip s i) 0%Z))).
  unfold range. rewrite (sumf_others n i _ Hi), coupling_mat_ising by assumption.
  unfold csym at 1. rewrite Nat.eqb_refl.
  assert (Ei : nth i (flip s i) 0%Z = (nth i s 0 * -1)%Z) by (unfold flip; now rewrite nth_upd_same by lia).
  rewrite Ei, mult_IZR. unfold local_field.
  rewrite (sumf_ext_in (others n i) _ (fun k => (-2 * IZR (nth i s 0%Z)) * (coupling n params i k * nthR (map IZR s) k))).
  - rewrite sumf_scal_l. ring.
  - intros k Hk. apply in_others in Hk. rewrite coupling_mat_ising by lia. unfold csym.
    destruct (Nat.eqb_spec i k); [lia|]. rewrite map_IZR_nth. unfold flip. rewrite nth_upd_other by lia. ring.
Qed.

Lemma cpp_sample_metropolis_eq {T} (g : rng T) n params s i t : (i < n)%nat -> length s = n ->
  cpp_sample_metropolis g n params (coupling_mat n n params) s i t
  = sample_metropolis g (cpp_calc_e n params) (Some i) s (cpp_calc_e n params s) t.
Proof.
  intros Hi Hl. unfold cpp_sample_metropolis, sample_metropolis.
  now rewrite (cpp_de_eq n params s i Hi Hl).
Qed.

(** The pure Python helper, when the diagonal of J is zero. *)
Lemma jit_de_eq n params h J s i : (i < n)%nat -> length s = n -> is_mat n J -> length h = n ->
  (forall k, (k < n)%nat -> nthR h k = nthR params k) ->
  (forall a b, (a < n)%nat -> (b < n)%nat -> entry J a b = csym n params a b) ->
  let s1 := flip s i in
  -2 * IZR (nth i s1 0%Z) * nthR h i
   - dot (map (fun x => 2 * x) (nth i J [])) (map (fun z => 1 * IZR (nth i s1 0%Z) * IZR z) s1)
  = ising_energy n params (map IZR s1) - ising_energy n params (map IZR s).
Proof.
  intros Hi Hl [HJl HJr] Hh Hhk HJ. cbv zeta.
  rewrite <- !cpp_calc_e_eq, <- (cpp_de_eq n params s i Hi Hl) by lia. cbv zeta.
  rewrite (fold_minus (fun k => 2 * entry (coupling_mat n n params) i k * IZR (nth i (flip s i) 0%Z) * IZR (nth k (flip s i) 0%Z))).
  assert (Hrow : length (nth i J []) = n) by (apply HJr, nth_In; lia).
  rewrite (dot_seq _ _ n) by (rewrite map_length, ?flip_length; assumption).
  unfold range. rewrite Hhk by exact Hi.
  rewrite (sumf_ext_in (seq 0 n) _ (fun k => 2 * entry (coupling_mat n n params) i k * IZR (nth i (flip s i) 0%Z) * IZR (nth k (flip s i) 0%Z))).
  - ring.
  - intros k Hk. apply in_seq in Hk. rewrite coupling_mat_ising, <- HJ by lia.
    set (c := IZR (nth i (flip s i) 0%Z)). unfold nthR.
    rewrite (nth_indep (map (fun x => 2 * x) (nth i J [])) 0 (2 * 0)) by (rewrite map_length, Hrow; lia).
    rewrite (map_nth (fun x => 2 * x) (nth i J []) 0).
    rewrite (nth_indep (map (fun z => 1 * c * IZR z) (flip s i)) 0 (1 * c * IZR 0)) by (rewrite map_length, flip_length; lia).
    rewrite (map_nth (fun z => 1 * c * IZR z) (flip s i) 0%Z). fold (entry J i k). ring.
Qed.

(** ** Potts *)
Lemma potts_energy_upd n k params s r v : (r < n)%nat -> length s = n ->
  potts_energy n k params (upd s r v) - potts_energy n k params s
  = potts_local n k params s r (nth r s 0%nat) - potts_local n k params s r v.
Proof.
  intros Hr Hl. rewrite !(potts_energy_split n k params _ r Hr), potts_rest_upd, potts_local_upd, nth_upd_same by lia. ring.
Qed.

Lemma cpp_potts_de_eq n params s i v : (i < n)%nat -> length s = n -> nth i s 0%nat <> v ->
  let s1 := upd s i v in
  fold_left (fun de k =>
      let de := if Nat.eqb (nth i s 0%nat) (nth k s1 0%nat) then de + entry (coupling_mat n (3 * n) params) i k else de in
      if Nat.eqb v (nth k s1 0%nat) then de - entry (coupling_mat n (3 * n) params) i k else de)
    (range n) (0 + nthR params (nth i s 0 * n + i)%nat - nthR params (v * n + i)%nat)
  = potts_energy n 3 params s1 - potts_energy n 3 params s.
Proof.
  intros Hi Hl Hv. cbv zeta. rewrite potts_energy_upd by assumption.
  set (o := nth i s 0%nat) in *.
  rewrite (fold_left_ext_in _ (fun de k => de - entry (coupling_mat n (3 * n) params) i k *
             (b2R (Nat.eqb v (nth k (upd s i v) 0%nat)) - b2R (Nat.eqb o (nth k (upd s i v) 0%nat))))).
  2: { intros de k _. destruct (Nat.eqb o _), (Nat.eqb v _); cbn; ring. }
  rewrite (fold_minus (fun k => entry (coupling_mat n (3 * n) params) i k *
             (b2R (Nat.eqb v (nth k (upd s i v) 0%nat)) - b2R (Nat.eqb o (nth k (upd s i v) 0%nat))))).
  unfold range. rewrite (sumf_others n i _ Hi), coupling_mat_potts, Nat.eqb_refl by assumption.
  unfold potts_local.
  rewrite (sumf_ext_in (others n i) (fun k => entry (coupling_mat n (3 * n) params) i k * _)
     (fun k => pcoupling n 3 params i k * b2R (Nat.eqb (nth k s 0%nat) v) - pcoupling n 3 params i k * b2R (Nat.eqb (nth k s 0%nat) o))).
  - rewrite sumf_minus. replace (i + n * o)%nat with (o * n + i)%nat by lia. replace (i + n * v)%nat with (v * n + i)%nat by lia. ring.
  - intros k Hk. apply in_others in Hk. rewrite coupling_mat_potts by lia. destruct (Nat.eqb_spec i k); [lia|].
    rewrite nth_upd_other by lia. rewrite (Nat.eqb_sym v), (Nat.eqb_sym o). ring.
Qed.

Lemma cpp_potts_sample_metropolis_eq {T} (g : rng T) n params s i t :
  rng_ok g -> (i < n)%nat -> length s = n -> Forall potts3 s ->
  cpp_potts_sample_metropolis g n params (coupling_mat n (3 * n) params) s i t
  = potts_sample_metropolis g (cpp_potts_calc_e n params) (Some i) s (cpp_potts_calc_e n params s) t.
Proof.
  intros Hg Hi Hl Hs. unfold cpp_potts_sample_metropolis, potts_sample_metropolis.
  destruct (randint g t 1 3) as [r t1] eqn:Er.
  assert (Hr : (1 <= r < 3)%nat).
  { destruct Hg as [Hg _]. specialize (Hg t 1%nat 3%nat ltac:(lia)). now rewrite Er in Hg. }
  assert (Ho : (nth i s 0 < 3)%nat) by (apply (Forall_nth_in potts3); [exact Hs|lia]).
  rewrite (Nat.add_comm r). set (v := ((nth i s 0 + r) mod 3)%nat).
  assert (Hv : (v < 3)%nat) by (apply Nat.mod_upper_bound; lia).
  assert (Hne : nth i s 0%nat <> v).
  { unfold v. destruct (nth i s 0%nat) as [|[|[|k]]]; try lia; destruct r as [|[|[|r]]]; try lia; cbn; lia. }
  rewrite (nth_upd_same s i v 0%nat) by lia.
  assert (D := cpp_potts_de_eq n params s i v Hi Hl Hne). cbv zeta in D |- *. rewrite D.
  rewrite (cpp_potts_calc_e_eq n params s), (cpp_potts_calc_e_eq n params (upd s i v)) by (rewrite ?upd_length; auto using Forall_upd; lia). reflexivity.
Qed.

(** ** Runs of the C++ sampler *)
Section CppRuns.
Context {V T : Type}.
Variable step : list V -> nat -> T -> list V * R * T.
Variable calc_e : list V -> R.
Variable valid : list V -> Prop.
Variable site_ok : nat -> Prop.
Variable pick : nat -> T -> nat * T.
Hypothesis pick_ok : forall c t, site_ok (fst (pick c t)).
Hypothesis step_ok : forall s i t s' de t', valid s -> site_ok i -> step s i t = (s', de, t') ->
  valid s' /\ de = calc_e s' - calc_e s.

Lemma cpp_run_inv m : forall c s t s' e' t' c',
  valid s -> cpp_run step pick m c s (calc_e s) t = ((s', e', t'), c') -> valid s' /\ e' = calc_e s'.
Proof.
  induction m as [|m IH]; intros c s t s' e' t' c' Hv; cbn.
  - intros E. injection E as <- <- <- <-. auto.
  - destruct (pick c t) as [ix t1] eqn:Ep. destruct (step s ix t1) as [[s1 de] t2] eqn:Es.
    assert (Hok := pick_ok c t). rewrite Ep in Hok. cbn in Hok.
    destruct (step_ok _ _ _ _ _ _ Hv Hok Es) as [Hv1 ->].
    replace (calc_e s + (calc_e s1 - calc_e s)) with (calc_e s1) by ring. apply IH. exact Hv1.
Qed.

Lemma cpp_record_inv n_iters m : forall c s t ss s' e' t',
  valid s -> cpp_record step pick n_iters m c s (calc_e s) t = (ss, (s', e', t')) ->
  length ss = m /\ Forall valid ss /\ valid s' /\ e' = calc_e s'.
Proof.
  induction m as [|m IH]; intros c s t ss s' e' t' Hv; cbn.
  - intros E. injection E as <- <- <- <-. auto.
  - destruct (cpp_run step pick n_iters c s (calc_e s) t) as [[[s1 e1] t1] c1] eqn:R1.
    destruct (cpp_run_inv _ _ _ _ _ _ _ _ Hv R1) as [Hv1 ->].
    destruct (cpp_record step pick n_iters m c1 s1 (calc_e s1) t1) as [ss2 [[s2 e2] t2]] eqn:R2.
    destruct (IH _ _ _ _ _ _ _ Hv1 R2) as [H1 [H2 [H3 ->]]].
    intros E. inversion E; subst. repeat split; auto.
Qed.
End CppRuns.

(** Free indices: exactly those that are not fixed. *)
Lemma non_ix_loop_spec ix : StronglySorted lt ix -> forall m a c,
  (forall k, (k < length ix)%nat -> (k < c <-> nth k ix 0 < a)%nat) ->
  (c <= length ix)%nat ->
  non_ix_loop (seq a m) ix c = filter (fun i => negb (existsb (Nat.eqb i) ix)) (seq a m).
Proof.
  intros Hs. assert (Hmono : forall j k, (j < k)%nat -> (k < length ix)%nat -> (nth j ix 0 < nth k ix 0)%nat).
  { clear -Hs. induction Hs as [|x l Hl IH Hx]; intros j k Hjk Hk; cbn in Hk; [lia|].
    destruct j as [|j], k as [|k]; try lia.
    - cbn. rewrite Forall_forall in Hx. apply Hx, nth_In. lia.
    - cbn. apply IH; lia. }
  induction m as [|m IH]; intros a c Hc Hcl; [reflexivity|].
  change (seq a (S m)) with (a :: seq (S a) m). cbn [non_ix_loop filter].
  assert (Hmem : existsb (Nat.eqb a) ix = true <-> (c < length ix /\ a = nth c ix 0)%nat).
  { rewrite existsb_exists. split.
    - intros [x [Hin He]]. apply Nat.eqb_eq in He. subst x. apply (In_nth _ _ 0%nat) in Hin. destruct Hin as [k [Hk Ek]].
      assert (Hkc : ~ (k < c)%nat) by (intros H; apply Hc in H; lia).
      assert (k = c); [|subst; split; [assumption|congruence]].
      destruct (Nat.lt_ge_cases c k) as [H|H]; [|lia].
      assert (H1 := Hmono c k H Hk). assert (H2 : (c < c)%nat) by (apply Hc; lia). lia.
    - intros [H1 ->]. exists (nth c ix 0%nat). split; [now apply nth_In | apply Nat.eqb_refl]. }
  destruct (Nat.ltb_spec c (length ix)) as [Hlt|Hge]; cbn [andb].
  - destruct (Nat.eqb_spec a (nth c ix 0%nat)) as [Ea|Ea]; cbn [negb].
    + destruct (existsb (Nat.eqb a) ix); [|exfalso; assert (false = true) by (apply Hmem; auto); discriminate].
      cbn [negb]. apply IH; [|lia]. intros k Hk. split.
      * intros H. destruct (Nat.eq_dec k c) as [->|]; [lia|]. assert (k < c)%nat by lia. apply Hc in H0; lia.
      * intros H. destruct (Nat.lt_ge_cases c k) as [Hck|]; [|lia]. assert (H1 := Hmono c k Hck Hk). lia.
    + destruct (existsb (Nat.eqb a) ix); [exfalso; destruct (proj1 Hmem eq_refl); contradiction|].
      cbn [negb]. f_equal. apply IH; [|lia]. intros k Hk. rewrite Hc by exact Hk. split; [lia|].
      intros H. destruct (Nat.eq_dec (nth k ix 0%nat) a) as [E|]; [|lia].
      exfalso. assert (Hkc : ~ (k < c)%nat) by (intros H'; apply Hc in H'; lia).
      destruct (Nat.eq_dec k c) as [->|]; [congruence|].
      assert (H1 := Hmono c k ltac:(lia) Hk). assert (H2 : (c < c)%nat) by (apply Hc; lia). lia.
  - destruct (existsb (Nat.eqb a) ix); [exfalso; destruct (proj1 Hmem eq_refl); lia|].
    cbn [negb]. f_equal. apply IH; [|lia]. intros k Hk. rewrite Hc by exact Hk. split; [lia|].
    intros H. apply Hc; [exact Hk|lia].
Qed.

Lemma filter_count {A} (p : A -> bool) l : (length (filter p l) + length (filter (fun x => negb (p x)) l) = length l)%nat.
Proof. induction l as [|a l IH]; cbn; [reflexivity|]. destruct (p a); cbn; lia. Qed.

Lemma non_ix_spec n ix : StronglySorted lt ix -> Forall (fun i => (i < n)%nat) ix ->
  let non_ix := non_ix_loop (range n) ix 0 in
  (forall i, In i non_ix <-> (i < n)%nat /\ ~ In i ix) /\ length non_ix = (n - length ix)%nat /\ (length ix <= n)%nat.
Proof.
  intros Hs Hb. cbv zeta. unfold range. rewrite (non_ix_loop_spec ix Hs n 0 0) by (intros; lia).
  assert (Hmem : forall i, existsb (Nat.eqb i) ix = true <-> In i ix).
  { intros i. rewrite existsb_exists. split; [intros [x [Hx He]]; apply Nat.eqb_eq in He; now subst |].
    intros H. exists i. split; [exact H | apply Nat.eqb_refl]. }
  assert (HL : length (filter (fun i => existsb (Nat.eqb i) ix) (seq 0 n)) = length ix).
  { assert (Hnd : NoDup ix).
    { clear -Hs. induction Hs as [|x l Hl IH Hx]; constructor; auto. intros Hin. rewrite Forall_forall in Hx. specialize (Hx x Hin). lia. }
    apply Nat.le_antisymm; apply NoDup_incl_length.
    - apply NoDup_filter, seq_NoDup.
    - intros i Hi. apply filter_In in Hi. now apply Hmem.
    - exact Hnd.
    - intros i Hi. apply filter_In. rewrite Forall_forall in Hb. split; [apply in_seq; specialize (Hb i Hi); lia | now apply Hmem]. }
  assert (C := filter_count (fun i => existsb (Nat.eqb i) ix) (seq 0 n)). rewrite HL, seq_length in C.
  split; [|split; lia].
  intros i. rewrite filter_In, in_seq, negb_true_iff. split.
  - intros [H1 H2]. split; [lia|]. intros H. apply Hmem in H. congruence.
  - intros [H1 H2]. split; [lia|]. destruct (existsb (Nat.eqb i) ix) eqn:E; [|reflexivity]. apply Hmem in E. contradiction.
Qed.
