(** * Conditional sampling in Python: re-insertion of the fixed spins *)
From Coq Require Import Sorted.
From Verif Require Import Prelude Spec PreludeFacts M_Index M_Sampler P_Energy P_Unravel P_Sampler.
Import ListNotations.
Local Open Scope nat_scope.

(** [full] has the fixed values at the fixed sites and, at the other sites in
    increasing order, the entries of [state]. *)
Definition completes (n : nat) (fixed : list (nat * Z)) (state full : list Z) : Prop :=
  length full = n /\
  (forall i v, In (i, v) fixed -> nth_error full i = Some v) /\
  map (fun i => nth i full 0%Z) (filter (fun i => negb (existsb (Nat.eqb i) (map fst fixed))) (seq 0 n)) = state.

(** Valid list of fixed spins for a system of n spins. *)
Definition fixed_ok (n : nat) (fixed : list (nat * Z)) : Prop :=
  StronglySorted lt (map fst fixed) /\ Forall (fun i => i < n) (map fst fixed).

Fixpoint complete (fixed : list (nat * Z)) (i0 : nat) (st : list Z) : list Z :=
  match fixed with
  | [] => st
  | (i, v) :: f => firstn (i - i0) st ++ v :: complete f (i + 1) (skipn (i - i0) st)
  end.

(** Remaining fixed sites lie in [i0,n). *)
Definition fixed_from (n i0 : nat) (fixed : list (nat * Z)) : Prop :=
  StronglySorted lt (map fst fixed) /\ Forall (fun i => i0 <= i < n) (map fst fixed).

Lemma fixed_from_cons n i0 i v f : fixed_from n i0 ((i, v) :: f) -> i0 <= i < n /\ fixed_from n (i + 1) f.
Proof.
  intros [H1 H2]. cbn in *. inversion H1 as [|? ? Hs Hf]; subst. inversion H2 as [|? ? Hi Hr]; subst.
  split; [exact Hi|]. split; [exact Hs|]. rewrite Forall_forall in *. intros x Hx. specialize (Hf x Hx). specialize (Hr x Hx). lia.
Qed.

Lemma fixed_ok_from n fixed : fixed_ok n fixed <-> fixed_from n 0 fixed.
Proof. unfold fixed_ok, fixed_from. split; intros [H1 H2]; (split; [exact H1|]); eapply Forall_impl; [|exact H2| |exact H2]; cbn; intros; lia. Qed.

Lemma fixed_from_length n : forall fixed i0, fixed_from n i0 fixed -> length fixed <= n - i0.
Proof.
  induction fixed as [|[i v] f IH]; intros i0 H; [cbn; lia|].
  apply fixed_from_cons in H. destruct H as [Hi H]. apply IH in H. cbn. lia.
Qed.

Lemma complete_length n : forall fixed i0 st, fixed_from n i0 fixed -> i0 <= n -> length st = n - i0 - length fixed ->
  length (complete fixed i0 st) = n - i0.
Proof.
  induction fixed as [|[i v] f IH]; intros i0 st H Hi0 Hl; cbn in *; [lia|].
  apply fixed_from_cons in H. destruct H as [Hi H]. assert (L := fixed_from_length _ _ _ H).
  rewrite app_length. cbn. rewrite firstn_length, IH; [lia|exact H|lia|rewrite skipn_length; lia].
Qed.

Lemma complete_fixed n : forall fixed i0 st, fixed_from n i0 fixed -> i0 <= n -> length st = n - i0 - length fixed ->
  forall i v, In (i, v) fixed -> nth_error (complete fixed i0 st) (i - i0) = Some v.
Proof.
  induction fixed as [|[i v] f IH]; intros i0 st H Hi0 Hl j w Hin; [destruct Hin|].
  apply fixed_from_cons in H. destruct H as [Hi H]. assert (L := fixed_from_length _ _ _ H). cbn [complete]. cbn in Hl.
  assert (Lf : length (firstn (i - i0) st) = i - i0) by (rewrite firstn_length; lia).
  destruct Hin as [E|Hin].
  - injection E as -> ->. rewrite nth_error_app2, Lf, Nat.sub_diag by lia. reflexivity.
  - assert (Hj : i + 1 <= j).
    { destruct H as [_ H]. rewrite Forall_forall in H. apply (H j). apply in_map_iff. exists (j, w). auto. }
    rewrite nth_error_app2, Lf by lia. replace (j - i0 - (i - i0)) with (S (j - (i + 1))) by lia. cbn.
    apply IH; auto; [lia|rewrite skipn_length; lia].
Qed.

Lemma filter_false {A} (p : A -> bool) l : (forall x, In x l -> p x = true) -> filter p l = l.
Proof. induction l as [|a l IH]; intros H; cbn; [reflexivity|]. rewrite H by now left. f_equal. apply IH. intros x Hx. apply H. now right. Qed.

Lemma seq_split3 i0 i n : i0 <= i < n -> seq i0 (n - i0) = seq i0 (i - i0) ++ i :: seq (i + 1) (n - (i + 1)).
Proof.
  intros H. replace (n - i0) with ((i - i0) + (1 + (n - (i + 1)))) by lia.
  rewrite seq_app. f_equal. replace (i0 + (i - i0)) with i by lia. cbn. now rewrite Nat.add_1_r.
Qed.

Lemma nth_map_firstn (st : list Z) i0 i d : i0 <= i -> i - i0 <= length st ->
  map (fun k => nth (k - i0) st d) (seq i0 (i - i0)) = firstn (i - i0) st.
Proof.
  intros H1 H2. apply (list_eq_nth d).
  - rewrite map_length, seq_length, firstn_length. lia.
  - rewrite map_length, seq_length. intros k Hk.
    rewrite (nth_indep _ d (nth (0 - i0) st d)) by (rewrite map_length, seq_length; lia).
    rewrite (map_nth (fun k => nth (k - i0) st d) (seq i0 (i - i0)) 0), seq_nth by lia.
    replace (i0 + k - i0) with k by lia. revert Hk. generalize (i - i0). revert k. clear.
    induction st as [|a st IH]; intros [|k] [|m] H; cbn; try lia; try reflexivity. apply IH. lia.
Qed.

Lemma complete_free n : forall fixed i0 st, fixed_from n i0 fixed -> i0 <= n -> length st = n - i0 - length fixed ->
  map (fun i => nth (i - i0) (complete fixed i0 st) 0%Z)
      (filter (fun i => negb (existsb (Nat.eqb i) (map fst fixed))) (seq i0 (n - i0))) = st.
Proof.
  induction fixed as [|[i v] f IH]; intros i0 st H Hi0 Hl.
  - cbn [map existsb negb complete]. rewrite filter_false by reflexivity.
    cbn in Hl. rewrite nth_map_firstn by lia. apply firstn_all2. lia.
  - apply fixed_from_cons in H. destruct H as [Hi H]. assert (L := fixed_from_length _ _ _ H). cbn in Hl.
    rewrite (seq_split3 i0 i n Hi), filter_app, map_app. cbn [filter map fst existsb].
    rewrite Nat.eqb_refl. cbn [orb negb].
    assert (Lf : length (firstn (i - i0) st) = i - i0) by (rewrite firstn_length; lia).
    assert (Fge : forall x, In x (map fst f) -> i + 1 <= x).
    { destruct H as [_ H]. rewrite Forall_forall in H. intros x Hx. specialize (H x Hx). lia. }
    rewrite filter_false.
    2: { intros x Hx. apply in_seq in Hx. apply negb_true_iff, orb_false_iff. split; [apply Nat.eqb_neq; lia|].
         destruct (existsb (Nat.eqb x) (map fst f)) eqn:E; [|reflexivity]. apply existsb_exists in E.
         destruct E as [y [Hy He]]. apply Nat.eqb_eq in He. subst y. apply Fge in Hy. lia. }
    rewrite (filter_ext_in _ (fun x => negb (existsb (Nat.eqb x) (map fst f)))).
    2: { intros x Hx. apply in_seq in Hx. destruct (Nat.eqb_spec x i); [lia|]. reflexivity. }
    etransitivity; [|apply (firstn_skipn (i - i0) st)]. f_equal.
    + rewrite <- (nth_map_firstn st i0 i 0%Z) by lia. apply map_ext_in. intros k Hk. apply in_seq in Hk.
      cbn [complete]. rewrite app_nth1 by lia.
      rewrite <- (nth_map_firstn st i0 i 0%Z) by lia.
      rewrite (nth_indep _ 0%Z (nth (0 - i0) st 0%Z)) by (rewrite map_length, seq_length; lia).
      rewrite (map_nth (fun k => nth (k - i0) st 0%Z) (seq i0 (i - i0)) 0), seq_nth by lia. f_equal. lia.
    + etransitivity; [|apply (IH (i + 1) (skipn (i - i0) st) H ltac:(lia)); rewrite skipn_length; lia].
      apply map_ext_in. intros k Hk. apply filter_In in Hk. destruct Hk as [Hk _]. apply in_seq in Hk.
      cbn [complete]. rewrite app_nth2 by lia. rewrite Lf.
      replace (k - i0 - (i - i0)) with (S (k - (i + 1))) by lia. reflexivity.
Qed.

Lemma complete_completes n fixed st : fixed_ok n fixed -> length st = n - length fixed ->
  completes n fixed st (complete fixed 0 st).
Proof.
  intros H Hl. apply fixed_ok_from in H. split; [|split].
  - rewrite (complete_length n); auto; lia.
  - intros i v Hin. assert (Q := complete_fixed n fixed 0 st H ltac:(lia) ltac:(lia) i v Hin). now rewrite Nat.sub_0_r in Q.
  - assert (Q := complete_free n fixed 0 st H ltac:(lia) ltac:(lia)). rewrite Nat.sub_0_r in Q.
    etransitivity; [|exact Q]. apply map_ext. intros i. now rewrite Nat.sub_0_r.
Qed.

Lemma complete_spins fixed : Forall (fun p => spin (snd p)) fixed -> forall i0 st, Forall spin st -> Forall spin (complete fixed i0 st).
Proof.
  induction 1 as [|[i v] f Hv Hf IH]; intros i0 st Hs; cbn; [exact Hs|].
  rewrite <- (firstn_skipn (i - i0) st) in Hs. apply Forall_app in Hs. destruct Hs as [H1 H2].
  apply Forall_app. split; [exact H1|]. constructor; [exact Hv|]. now apply IH.
Qed.

(** ** The energy function evaluates the completed state *)
Lemma fill_between_eq state : forall len P m k,
  k + len <= length state -> len <= m ->
  fold_left (fun acc ii => bind acc (fun st : list Z * nat =>
      let '(full, stateix) := st in
      bind (get state stateix) (fun v => Ok (upd full ii v, (stateix + 1)%nat))))
    (seq (length P) len) (Ok (P ++ repeat 0%Z m, k))
  = Ok (P ++ firstn len (skipn k state) ++ repeat 0%Z (m - len), k + len).
Proof.
  induction len as [|len IH]; intros P m k H1 H2.
  - cbn. rewrite Nat.sub_0_r, Nat.add_0_r. reflexivity.
  - change (seq (length P) (S len)) with (length P :: seq (S (length P)) len). cbn [fold_left bind].
    destruct m as [|m]; [lia|]. cbn [repeat].
    destruct (nth_error state k) as [v|] eqn:E; [|apply nth_error_None in E; lia].
    assert (G : get state k = Ok v) by (unfold get; now rewrite E). rewrite G. cbn [bind].
    rewrite (upd_app2 P). cbn [upd].
    change (P ++ v :: repeat 0%Z m) with (P ++ [v] ++ repeat 0%Z m). rewrite app_assoc.
    replace (S (length P)) with (length (P ++ [v])) by (rewrite app_length; cbn; lia).
    rewrite IH by lia.
    assert (Sk : skipn k state = v :: skipn (k + 1) state).
    { clear -E. revert k E. induction state as [|a st IH]; intros [|k] E; cbn in *; try discriminate.
      - injection E as ->. reflexivity.
      - now apply IH. }
    rewrite Sk. cbn [firstn Nat.sub]. rewrite <- !app_assoc. cbn [app]. f_equal. f_equal. lia.
Qed.

Lemma skipn_skipn' {A} a b (l : list A) : skipn a (skipn b l) = skipn (b + a) l.
Proof. revert l. induction b as [|b IH]; intros l; [reflexivity|]. destruct l; cbn; [now rewrite skipn_nil|apply IH]. Qed.

Lemma cond_fill_eq n state : forall fixed i0 P k,
  length P = i0 -> i0 <= n -> fixed_from n i0 fixed -> length state = k + (n - i0 - length fixed) ->
  cond_fill n fixed i0 state (P ++ repeat 0%Z (n - i0), k) = Ok (P ++ complete fixed i0 (skipn k state)).
Proof.
  induction fixed as [|[i v] f IH]; intros i0 P k HP Hi0 Hf Hl.
  - cbn [cond_fill complete]. unfold fill_between, range2. subst i0. rewrite fill_between_eq by (cbn in Hl; lia).
    cbn [bind fst]. rewrite Nat.sub_diag. cbn [repeat]. rewrite app_nil_r. do 2 f_equal. apply firstn_all2.
    rewrite skipn_length. cbn in Hl. lia.
  - apply fixed_from_cons in Hf. destruct Hf as [Hi Hf]. assert (L := fixed_from_length _ _ _ Hf). cbn in Hl.
    cbn [cond_fill complete]. unfold fill_between, range2. subst i0. rewrite fill_between_eq by lia.
    cbn [bind]. destruct (Nat.ltb_spec i n); [|lia]. cbn [fst snd].
    set (F := firstn (i - length P) (skipn k state)).
    assert (LF : length F = i - length P) by (unfold F; rewrite firstn_length, skipn_length; lia).
    replace (n - length P - (i - length P)) with (S (n - (i + 1))) by lia. cbn [repeat].
    rewrite app_assoc.
    assert (U := upd_app2 (P ++ F) (0%Z :: repeat 0%Z (n - (i + 1))) v).
    replace (length (P ++ F)) with i in U by (rewrite app_length; lia).
    rewrite U. cbn [upd]. clear U.
    change ((P ++ F) ++ v :: repeat 0%Z (n - (i + 1))) with ((P ++ F) ++ [v] ++ repeat 0%Z (n - (i + 1))). rewrite app_assoc.
    rewrite IH; [|rewrite !app_length; cbn; lia|lia|exact Hf|lia].
    rewrite skipn_skipn'. rewrite <- !app_assoc. reflexivity.
Qed.

Lemma cond_fullstate_eq n fixed state : fixed_ok n fixed -> length state = n - length fixed ->
  cond_fullstate n fixed state = Ok (complete fixed 0 state).
Proof.
  intros H Hl. apply fixed_ok_from in H. unfold cond_fullstate.
  assert (Q := cond_fill_eq n state fixed 0 [] 0 eq_refl ltac:(lia) H ltac:(lia)).
  rewrite Nat.sub_0_r in Q. exact Q.
Qed.

(** ** Insertion into the flat array *)
Definition ins1 (i : nat) (v : Z) (row : list Z) : list Z := firstn i row ++ v :: skipn i row.

Lemma complete_ins n : forall fixed i0 P st, length P = i0 -> i0 <= n -> fixed_from n i0 fixed -> length st = n - i0 - length fixed ->
  fold_left (fun row p => ins1 (fst p) (snd p) row) fixed (P ++ st) = P ++ complete fixed i0 st.
Proof.
  induction fixed as [|[i v] f IH]; intros i0 P st HP Hi0 Hf Hl; [reflexivity|].
  apply fixed_from_cons in Hf. destruct Hf as [Hi Hf]. assert (L := fixed_from_length _ _ _ Hf). cbn in Hl.
  cbn [fold_left fst snd complete]. unfold ins1 at 2.
  rewrite firstn_app, skipn_app. rewrite firstn_all2, skipn_all2 by lia. subst i0. cbn [app].
  set (F := firstn (i - length P) st).
  assert (LF : length F = i - length P) by (unfold F; rewrite firstn_length; lia).
  replace ((P ++ F) ++ v :: skipn (i - length P) st) with ((P ++ F ++ [v]) ++ skipn (i - length P) st)
    by (rewrite <- !app_assoc; reflexivity).
  rewrite (IH (i + 1)); [|rewrite !app_length; cbn; lia|lia|exact Hf|rewrite skipn_length; lia].
  rewrite <- !app_assoc. reflexivity.
Qed.

Lemma range_step_in step : 0 < step -> forall fuel start stop x, stop <= start + fuel ->
  (In x (range_step fuel start stop step) <-> x < stop /\ exists q, x = start + q * step).
Proof.
  intros Hs. induction fuel as [|fuel IH]; intros start stop x Hf; cbn [range_step].
  - split; [intros []|]. intros [H [q ->]]. nia.
  - destruct (Nat.ltb_spec start stop) as [H|H].
    + change (In x (start :: range_step fuel (start + step) stop step)) with (start = x \/ In x (range_step fuel (start + step) stop step)).
      rewrite IH by lia. split.
      * intros [<- | [H1 [q ->]]]; [split; [exact H|exists 0; lia]|]. split; [exact H1|]. exists (S q). lia.
      * intros [H1 [[|q] ->]]; [left; lia|]. right. split; [exact H1|]. exists q. lia.
    + split; [intros []|]. intros [H1 [q ->]]. nia.
Qed.

Lemma existsb_eqb x l : existsb (Nat.eqb x) l = true <-> In x l.
Proof.
  rewrite existsb_exists. split; [intros [y [Hy He]]; apply Nat.eqb_eq in He; now subst |].
  intros H. exists x. split; [exact H|apply Nat.eqb_refl].
Qed.

(** Inserting before relative position i < length of a row. *)
Lemma insert_before_row idx v : forall l rest k i,
  (forall j, j < length l -> existsb (Nat.eqb (k + j)) idx = Nat.eqb j i) -> i < length l ->
  insert_before k idx v (l ++ rest) = ins1 i v l ++ insert_before (k + length l) idx v rest.
Proof.
  assert (G0 : forall l rest k, (forall j, j < length l -> existsb (Nat.eqb (k + j)) idx = false) ->
            insert_before k idx v (l ++ rest) = l ++ insert_before (k + length l) idx v rest).
  { induction l as [|a l IH]; intros rest k H.
    - cbn. now rewrite Nat.add_0_r.
    - cbn [app insert_before]. assert (H0 := H 0 ltac:(cbn; lia)). rewrite Nat.add_0_r in H0. rewrite H0.
      rewrite IH. + cbn [length app]. do 2 f_equal. f_equal. lia.
      + intros j Hj. replace (S k + j) with (k + S j) by lia. apply H. cbn. lia. }
  induction l as [|a l IH]; intros rest k i H Hi; [cbn in Hi; lia|].
  cbn [app insert_before]. assert (H0 := H 0 ltac:(cbn; lia)). rewrite Nat.add_0_r in H0. rewrite H0.
  destruct i as [|i]; cbn [Nat.eqb].
  - unfold ins1. cbn [firstn skipn app]. do 2 f_equal. rewrite G0.
    + cbn [length]. do 2 f_equal. lia.
    + intros j Hj. replace (S k + j) with (k + S j) by lia. rewrite H by (cbn; lia). reflexivity.
  - rewrite (IH rest (S k) i).
    + unfold ins1. cbn [firstn skipn app length]. replace (S k + length l) with (k + S (length l)) by lia. reflexivity.
    + intros j Hj. replace (S k + j) with (k + S j) by lia. rewrite H by (cbn; lia). reflexivity.
    + cbn in Hi. lia.
Qed.

Lemma insert_before_none idx v : forall l rest k, (forall j, j < length l -> existsb (Nat.eqb (k + j)) idx = false) ->
  insert_before k idx v (l ++ rest) = l ++ insert_before (k + length l) idx v rest.
Proof.
  induction l as [|a l IH]; intros rest k H.
  - cbn. now rewrite Nat.add_0_r.
  - cbn [app insert_before]. assert (H0 := H 0 ltac:(cbn; lia)). rewrite Nat.add_0_r in H0. rewrite H0.
    rewrite IH.
    + cbn [length app]. do 2 f_equal. f_equal. lia.
    + intros j Hj. replace (S k + j) with (k + S j) by lia. apply H. cbn. lia.
Qed.

Lemma insert_rows_inner idx v i r m : i < r -> (forall x, existsb (Nat.eqb x) idx = true <-> x < m * r /\ exists q, x = i + q * r) ->
  forall rows q, Forall (fun row => length row = r) rows -> q + length rows = m ->
  insert_before (q * r) idx v (concat rows) = concat (map (ins1 i v) rows).
Proof.
  intros Hir Hidx. induction rows as [|row rows IH]; intros q Hr Hq.
  - cbn in Hq |- *. replace (existsb (Nat.eqb (q * r)) idx) with false; [reflexivity|].
    symmetry. apply not_true_is_false. intros H. apply Hidx in H. nia.
  - inversion Hr as [|? ? Hrow Hrows]; subst. cbn [concat map]. cbn [length] in *.
    rewrite (insert_before_row idx v row (concat rows) (q * length row) i).
    + f_equal. replace (q * length row + length row) with (S q * length row) by lia. apply IH; [exact Hrows|lia].
    + intros j Hj. destruct (Nat.eqb_spec j i) as [->|Hne].
      * apply Hidx. split; [nia|]. exists q. lia.
      * apply not_true_is_false. intros H. apply Hidx in H. destruct H as [_ [q' E]].
        assert (q = q') by nia. subst q'. lia.
    + exact Hir.
Qed.

Lemma insert_rows_end idx v r m : 0 < r -> (forall x, existsb (Nat.eqb x) idx = true <-> x < m * r + 1 /\ exists q, x = r + q * r) ->
  forall rows q, Forall (fun row => length row = r) rows -> q + length rows = m ->
  insert_before (q * r) idx v (concat rows) = (if Nat.eqb q 0 then [] else [v]) ++ concat (map (fun row => row ++ [v]) rows).
Proof.
  intros Hr0 Hidx. induction rows as [|row rows IH]; intros q Hr Hq.
  - cbn [length concat map] in *. assert (q = m) by lia. subst q. rewrite app_nil_r.
    cbn [insert_before]. destruct (Nat.eqb_spec m 0) as [->|Hm].
    + replace (existsb (Nat.eqb (0 * r)) idx) with false; [reflexivity|].
      symmetry. apply not_true_is_false. intros H. apply Hidx in H. destruct H as [_ [q' E]]. lia.
    + assert (E : existsb (Nat.eqb (m * r)) idx = true) by (apply Hidx; split; [lia|exists (m - 1); nia]). now rewrite E.
  - inversion Hr as [|? ? Hrow Hrows]; subst. cbn [concat map]. cbn [length] in *.
    destruct row as [|a row]; [cbn in Hr0; lia|].
    set (r := length (a :: row)) in *.
    assert (E0 : existsb (Nat.eqb (q * r)) idx = negb (Nat.eqb q 0)).
    { destruct (Nat.eqb_spec q 0) as [->|Hq0]; cbn [negb].
      - apply not_true_is_false. intros H. apply Hidx in H. destruct H as [_ [q' E]]. lia.
      - apply Hidx. split; [nia|]. exists (q - 1). nia. }
    assert (Rest : insert_before (S (q * r)) idx v (row ++ concat rows) = row ++ insert_before (S q * r) idx v (concat rows)).
    { rewrite insert_before_none.
      - do 2 f_equal. unfold r. cbn. lia.
      - intros j Hj. apply not_true_is_false. intros H. apply Hidx in H. destruct H as [_ [q' E]].
        assert (Hr' : r = S (length row)) by reflexivity. assert (S (q * r) + j < S q * r) by (rewrite Hr'; nia).
        assert (q * r < r + q' * r) by lia. assert (q < 1 + q') by nia. assert (r + q' * r < S q * r) by lia. nia. }
    rewrite (IH (S q) Hrows ltac:(lia)) in Rest. cbn [Nat.eqb app] in Rest.
    cbn [app insert_before]. rewrite E0.
    destruct (Nat.eqb q 0); cbn [negb app]; rewrite Rest; rewrite <- ?app_assoc; reflexivity.
Qed.

Lemma concat_length_const {A} r (rows : list (list A)) : Forall (fun row => length row = r) rows -> length (concat rows) = length rows * r.
Proof. induction 1 as [|a l Ha Hl IH]; cbn; [reflexivity|]. rewrite app_length. lia. Qed.

Lemma np_insert_rows i v r rows : 0 < r -> i <= r -> Forall (fun row => length row = r) rows ->
  let flat := concat rows in
  let stop := if Nat.eqb i 0 then length flat else length flat + 1 in
  np_insert (range_step (stop + 1) i stop r) v flat = Ok (concat (map (ins1 i v) rows)).
Proof.
  intros Hr Hi Hrows. cbv zeta. assert (HL := concat_length_const r rows Hrows).
  set (stop := if Nat.eqb i 0 then length (concat rows) else length (concat rows) + 1).
  assert (Hin := fun x => range_step_in r Hr (stop + 1) i stop x ltac:(lia)).
  assert (Hstop : stop <= length rows * r + 1) by (unfold stop; destruct (Nat.eqb i 0); lia).
  unfold np_insert.
  replace (existsb (fun k => Nat.ltb (length (concat rows)) k) (range_step (stop + 1) i stop r)) with false.
  2: { symmetry. apply not_true_is_false. intros H. apply existsb_exists in H. destruct H as [x [Hx Hlt]].
       apply Nat.ltb_lt in Hlt. apply Hin in Hx. lia. }
  f_equal. set (idx := range_step (stop + 1) i stop r) in *.
  destruct (Nat.eq_dec i r) as [->|Hne].
  - assert (C : forall x, existsb (Nat.eqb x) idx = true <-> x < length rows * r + 1 /\ exists q, x = r + q * r).
    { intros x. rewrite existsb_eqb, Hin. unfold stop. destruct (Nat.eqb_spec r 0); [lia|]. rewrite HL. reflexivity. }
    assert (Q := insert_rows_end idx v r (length rows) Hr C rows 0 Hrows eq_refl).
    etransitivity; [exact Q|]. cbn [Nat.eqb app]. f_equal. apply map_ext_in. intros row Hrow. rewrite Forall_forall in Hrows.
    unfold ins1. rewrite firstn_all2, skipn_all2 by (rewrite (Hrows row Hrow); lia). reflexivity.
  - assert (C : forall x, existsb (Nat.eqb x) idx = true <-> x < length rows * r /\ exists q, x = i + q * r).
    { intros x. rewrite existsb_eqb, Hin. unfold stop. destruct (Nat.eqb_spec i 0) as [->|H0]; rewrite HL; [reflexivity|].
      split; intros [H1 [q ->]]; (split; [|exists q; reflexivity]); [|lia].
      assert (q < length rows) by nia. nia. }
    exact (insert_rows_inner idx v i r (length rows) ltac:(lia) C rows 0 Hrows eq_refl).
Qed.

Lemma ins1_length i v row : i <= length row -> length (ins1 i v row) = length row + 1.
Proof. intros H. unfold ins1. rewrite app_length. cbn. rewrite firstn_length, skipn_length. lia. Qed.

Lemma insert_fixed_rows n nSubset : forall fixed i0 counter rows,
  fixed_from n i0 fixed -> 0 < nSubset -> nSubset + counter = n - length fixed -> length fixed <= n ->
  Forall (fun row => length row = nSubset + counter) rows ->
  insert_fixed nSubset counter fixed (concat rows)
  = Ok (concat (map (fun row => fold_left (fun row p => ins1 (fst p) (snd p) row) fixed row) rows)).
Proof.
  induction fixed as [|[i v] f IH]; intros i0 counter rows Hf Hpos Hn Hle Hr.
  - cbn. now rewrite map_id.
  - apply fixed_from_cons in Hf. destruct Hf as [Hi Hf]. assert (L := fixed_from_length _ _ _ Hf). cbn [length] in *.
    cbn [insert_fixed]. destruct (Nat.eqb_spec (nSubset + counter) 0); [lia|].
    rewrite np_insert_rows by (auto; lia). cbn [bind].
    rewrite (IH (i + 1) (counter + 1)); auto; try lia.
    + f_equal. f_equal. rewrite map_map. reflexivity.
    + apply Forall_forall. intros row H. apply in_map_iff in H. destruct H as [row0 [<- H]].
      rewrite Forall_forall in Hr. specialize (Hr row0 H). rewrite ins1_length by lia. lia.
Qed.

Lemma chunks_concat n rows : Forall (fun row : list Z => length row = n) rows -> chunks (length rows) n (concat rows) = rows.
Proof.
  induction 1 as [|a l Ha Hl IH]; cbn; [reflexivity|].
  rewrite firstn_app, skipn_app. rewrite Ha, Nat.sub_diag. cbn [firstn skipn].
  rewrite app_nil_r, firstn_all2, skipn_all2 by lia. cbn. now rewrite IH.
Qed.

Lemma insert_reshape n fixed rows : fixed_ok n fixed -> length fixed < n ->
  Forall (fun row => length row = n - length fixed) rows ->
  bind (insert_fixed (n - length fixed) 0 fixed (concat rows)) (reshape (length rows) n)
  = Ok (map (complete fixed 0) rows).
Proof.
  intros Hf Hlt Hr. apply fixed_ok_from in Hf.
  rewrite (insert_fixed_rows n (n - length fixed) fixed 0 0 rows); auto; try lia.
  2: { now rewrite Nat.add_0_r. }
  cbn [bind]. rewrite (map_ext_in _ (complete fixed 0)).
  2: { intros row Hrow. rewrite Forall_forall in Hr. specialize (Hr row Hrow).
       apply (complete_ins n fixed 0 [] row eq_refl ltac:(lia) Hf). lia. }
  assert (Hc : Forall (fun row : list Z => length row = n) (map (complete fixed 0) rows)).
  { apply Forall_forall. intros row H. apply in_map_iff in H. destruct H as [row0 [<- H]].
    rewrite Forall_forall in Hr. specialize (Hr row0 H). rewrite (complete_length n); auto; lia. }
  unfold reshape. rewrite (concat_length_const n _ Hc), map_length, Nat.eqb_refl. f_equal.
  rewrite <- (map_length (complete fixed 0) rows). now apply chunks_concat.
Qed.
