(** * Facts about coarse_grain_with_func. *)
From Coq Require Import Permutation.
From Verif Require Import Prelude Spec PreludeFacts M_Index M_Params M_Sampler M_Temper P_Params P_Cond P_Energy.
Import ListNotations.
Local Open Scope R_scope.

(** ** argmax *)
Lemma argmax_from_spec l : forall pre best ibest, (ibest < length pre)%nat -> nthR pre ibest = best ->
  (forall j, (j < length pre)%nat -> nthR pre j <= best) ->
  let k := argmax_from best ibest (length pre) l in
  (k < length (pre ++ l))%nat /\ forall j, (j < length (pre ++ l))%nat -> nthR (pre ++ l) j <= nthR (pre ++ l) k.
Proof.
  induction l as [|x l IH]; intros pre best ib Hib Hb Hmax; cbn [argmax_from].
  - cbv zeta. rewrite app_nil_r. split; [exact Hib|]. intros j Hj. rewrite Hb. now apply Hmax.
  - replace (pre ++ x :: l) with ((pre ++ [x]) ++ l) by (now rewrite <- app_assoc).
    assert (L : S (length pre) = length (pre ++ [x])) by (rewrite app_length; cbn; lia).
    assert (Nlast : nthR (pre ++ [x]) (length pre) = x).
    { unfold nthR. rewrite app_nth2 by lia. now rewrite Nat.sub_diag. }
    assert (Nold : forall j, (j < length pre)%nat -> nthR (pre ++ [x]) j = nthR pre j).
    { intros j Hj. unfold nthR. now apply app_nth1. }
    destruct (Rlt_dec best x); rewrite L; apply IH.
    + lia.
    + exact Nlast.
    + intros j Hj. destruct (Nat.eq_dec j (length pre)) as [->|]; [rewrite Nlast; lra|].
      rewrite Nold by lia. apply Rle_trans with best; [apply Hmax; lia|lra].
    + lia.
    + rewrite Nold; auto.
    + intros j Hj. destruct (Nat.eq_dec j (length pre)) as [->|]; [rewrite Nlast; lra|].
      rewrite Nold by lia. apply Hmax; lia.
Qed.

Lemma argmax_spec l : l <> [] -> (argmax l < length l)%nat /\ forall j, (j < length l)%nat -> nthR l j <= nthR l (argmax l).
Proof.
  intros H. destruct l as [|x l]; [congruence|]. unfold argmax.
  apply (argmax_from_spec l [x] x 0); cbn; [lia|reflexivity|].
  intros [|j] Hj; [cbn; lra|lia].
Qed.

(** ** removing elements *)
Lemma remove_at_map {A B} (f : A -> B) : forall i l, remove_at i (map f l) = map f (remove_at i l).
Proof. induction i as [|i IH]; intros [|x l]; cbn; try reflexivity. now rewrite IH. Qed.

Lemma remove_before_map {A B} (f : A -> B) k l : remove_before k (map f l) = map f (remove_before k l).
Proof. destruct k; cbn [remove_before]; rewrite ?map_length; apply remove_at_map. Qed.

Lemma remove_at_perm {A} (d : A) : forall i l, (i < length l)%nat -> Permutation l (nth i l d :: remove_at i l).
Proof.
  induction i as [|i IH]; intros [|x l] H; cbn in *; try lia; [reflexivity|].
  rewrite (IH l) at 1 by lia. apply perm_swap.
Qed.

Lemma remove_at_nth_after {A} (d : A) : forall i j l, (i <= j)%nat -> nth j (remove_at i l) d = nth (S j) l d.
Proof.
  induction i as [|i IH]; intros j [|x l] H; cbn; try reflexivity.
  - now destruct j.
  - now destruct j.
  - destruct j as [|j]; [lia|]. apply IH. lia.
Qed.

Lemma remove_at_length {A} : forall i (l : list A), (i < length l)%nat -> length (remove_at i l) = (length l - 1)%nat.
Proof. induction i as [|i IH]; intros [|x l] H; cbn in *; try lia. rewrite IH by lia. lia. Qed.

(** ** Gram matrices *)
Definition gram (S : nat -> nat -> R) (ix : list nat) : list (list R) := map (fun x => map (S x) ix) ix.

Lemma gram_delete S (del : forall A, list A -> list A) ix :
  (forall A B (f : A -> B) l, del B (map f l) = map f (del A l)) -> delete_rc del (gram S ix) = gram S (del nat ix).
Proof.
  intros H. unfold delete_rc, gram. rewrite H, map_map. apply map_ext. intros x. apply H.
Qed.

Lemma concat_rows_nth {A} (d : A) w : forall (m : list (list A)) i j, Forall (fun r => length r = w) m -> (j < w)%nat -> (i < length m)%nat ->
  nth (i * w + j) (concat m) d = nth j (nth i m []) d.
Proof.
  induction m as [|r m IH]; intros i j HF Hj Hi; [cbn in Hi; lia|].
  inversion HF as [|? ? Hr HF']; subst. cbn [concat]. destruct i as [|i].
  - cbn. apply app_nth1. exact Hj.
  - rewrite app_nth2 by (cbn; lia). cbn [nth]. rewrite <- IH; auto; [|cbn in Hi; lia]. f_equal. cbn. lia.
Qed.

Lemma gram_concat S ix i j : (i < length ix)%nat -> (j < length ix)%nat ->
  nthR (concat (gram S ix)) (i * length ix + j) = S (nth i ix 0%nat) (nth j ix 0%nat).
Proof.
  intros Hi Hj. unfold nthR. rewrite (concat_rows_nth 0 (length ix)).
  - unfold gram. rewrite (nth_indep _ [] (map (S 0%nat) ix)) by (now rewrite map_length).
    rewrite (map_nth (fun x => map (S x) ix)). rewrite (nth_indep _ 0 (S (nth i ix 0%nat) 0%nat)) by (now rewrite map_length).
    apply map_nth.
  - apply Forall_forall. intros r Hr. apply in_map_iff in Hr. destruct Hr as [x [<- _]]. apply map_length.
  - exact Hj.
  - unfold gram. now rewrite map_length.
Qed.

Lemma gram_concat_length S ix : length (concat (gram S ix)) = (length ix * length ix)%nat.
Proof.
  rewrite (concat_length_const (length ix)).
  - unfold gram. now rewrite map_length.
  - apply Forall_forall. intros r Hr. apply in_map_iff in Hr. destruct Hr as [x [<- _]]. apply map_length.
Qed.

(** Similarities: symmetric, zero on the diagonal, positive elsewhere. *)
Definition good_sim (S : nat -> nat -> R) (ix : list nat) : Prop :=
  (forall x y, S x y = S y x) /\ (forall x, S x x = 0) /\ (forall x y, In x ix -> In y ix -> x <> y -> 0 < S x y).

Lemma greedy_step_ok S ix cl : good_sim S ix -> NoDup ix -> (2 <= length ix)%nat ->
  exists x y rest, greedy_step (length ix) (gram S ix, ix, cl) = Ok (gram S rest, rest, cl ++ [(x, y)]) /\
    Permutation ix (x :: y :: rest) /\ (forall u v, In u ix -> In v ix -> u <> v -> S u v <= S x y).
Proof.
  intros [Ssym [Sdiag Spos]] Hnd Hlen. unfold greedy_step.
  set (w := length ix) in *. set (M := concat (gram S ix)). set (k := argmax M).
  assert (HM : M <> []). { intros E. assert (L := gram_concat_length S ix). fold M in L. rewrite E in L. cbn in L. unfold w in Hlen. nia. }
  destruct (argmax_spec M HM) as [Hk Hmax]. fold k in Hk, Hmax. unfold M in Hk at 1. rewrite gram_concat_length in Hk. fold w in Hk.
  set (a := (k / w)%nat). set (b := (k mod w)%nat).
  assert (Hab : k = (a * w + b)%nat) by (unfold a, b; rewrite (Nat.div_mod k w) at 1; lia).
  assert (Hb : (b < w)%nat) by (apply Nat.mod_upper_bound; lia).
  assert (Ha : (a < w)%nat) by (apply Nat.div_lt_upper_bound; lia).
  assert (Val : nthR M k = S (nth a ix 0%nat) (nth b ix 0%nat)) by (rewrite Hab; now apply gram_concat).
  assert (Max : forall i j, (i < w)%nat -> (j < w)%nat -> S (nth i ix 0%nat) (nth j ix 0%nat) <= S (nth a ix 0%nat) (nth b ix 0%nat)).
  { intros i j Hi Hj. rewrite <- Val, <- (gram_concat S ix i j Hi Hj). apply Hmax. unfold M. rewrite gram_concat_length. fold w. nia. }
  assert (Hne : a <> b).
  { intros E. assert (P : 0 < S (nth 0 ix 0%nat) (nth 1 ix 0%nat)).
    { apply Spos; try (apply nth_In; unfold w in Hlen; lia). intros E2.
      rewrite NoDup_nth in Hnd. specialize (Hnd 0%nat 1%nat ltac:(unfold w in Hlen; lia) ltac:(unfold w in Hlen; lia) E2). lia. }
    assert (Q := Max 0%nat 1%nat ltac:(lia) ltac:(lia)). rewrite E, Sdiag in Q. lra. }
  assert (Core : forall a b, (a < b)%nat -> (b < w)%nat ->
     (forall i j, (i < w)%nat -> (j < w)%nat -> S (nth i ix 0%nat) (nth j ix 0%nat) <= S (nth a ix 0%nat) (nth b ix 0%nat)) ->
     exists x y rest,
      bind (get ix a) (fun xa => bind (get ix b) (fun xb =>
        Ok (delete_rc (fun A => @remove_before A b) (delete_rc (fun A => @remove_at A a) (gram S ix)),
            remove_before b (remove_at a ix), cl ++ [(xa, xb)]))) = Ok (gram S rest, rest, cl ++ [(x, y)]) /\
      Permutation ix (x :: y :: rest) /\ (forall u v, In u ix -> In v ix -> u <> v -> S u v <= S x y)).
  { clear a b Hab Hb Ha Val Max Hne. intros a b Hab Hb Max.
    exists (nth a ix 0%nat), (nth b ix 0%nat), (remove_before b (remove_at a ix)).
    unfold get. rewrite (nth_error_nth' ix 0%nat), (nth_error_nth' ix 0%nat) by (fold w; lia). cbn [bind].
    rewrite (gram_delete S (fun A => @remove_at A a)) by (intros; apply remove_at_map).
    rewrite (gram_delete S (fun A => @remove_before A b)) by (intros; apply remove_before_map).
    split; [reflexivity|]. split.
    - destruct b as [|b]; [lia|]. cbn [remove_before].
      rewrite (remove_at_perm 0%nat a ix) at 1 by (fold w; lia). constructor.
      rewrite (remove_at_perm 0%nat b (remove_at a ix)) at 1 by (rewrite remove_at_length; fold w; lia).
      rewrite remove_at_nth_after by lia. reflexivity.
    - intros u v Hu Hv _. destruct (In_nth _ _ 0%nat Hu) as [i [Hi <-]]. destruct (In_nth _ _ 0%nat Hv) as [j [Hj <-]]. now apply Max. }
  destruct (Nat.ltb_spec b a) as [Hlt|Hge].
  - apply Core; auto. intros i j Hi Hj. rewrite (Ssym (nth b ix 0%nat)). now apply Max.
  - apply Core; auto; lia.
Qed.

(** The clusters are greedily chosen: each has the largest similarity among what is left. *)
Definition greedy_choice (S : nat -> nat -> R) (clusters : list (nat * nat)) (rest : list nat) : Prop :=
  forall pre x y post, clusters = pre ++ (x, y) :: post ->
  forall u v, In u (x :: y :: flat_map (fun p => [fst p; snd p]) post ++ rest) ->
              In v (x :: y :: flat_map (fun p => [fst p; snd p]) post ++ rest) -> u <> v -> S u v <= S x y.

Lemma greedy_loop_ok S : forall m ix cl, good_sim S ix -> NoDup ix -> (2 * m <= length ix)%nat ->
  exists rest new, greedy_loop m (length ix) (gram S ix, ix, cl) = Ok (gram S rest, rest, cl ++ new) /\
    length new = m /\ length rest = (length ix - 2 * m)%nat /\
    Permutation ix (flat_map (fun p => [fst p; snd p]) new ++ rest) /\ greedy_choice S new rest.
Proof.
  induction m as [|m IH]; intros ix cl Hg Hnd Hm.
  - exists ix, []. cbn. rewrite app_nil_r, Nat.sub_0_r. repeat split; auto. intros [|? ?] x y post E; discriminate.
  - cbn [greedy_loop]. destruct (greedy_step_ok S ix cl Hg Hnd) as [x [y [r [E [P Max]]]]]; [lia|].
    rewrite E. cbn [bind].
    assert (L : length ix = (2 + length r)%nat) by (apply Permutation_length in P; exact P).
    assert (Hnd2 : NoDup (x :: y :: r)) by (eapply Permutation_NoDup; eauto).
    assert (Hin : forall z, In z (x :: y :: r) -> In z ix) by (intros z Hz; eapply Permutation_in; [symmetry; exact P|exact Hz]).
    destruct (IH r (cl ++ [(x, y)])) as [rest [new [E2 [L1 [L2 [P2 G2]]]]]].
    + destruct Hg as [H1 [H2 H3]]. split; [|split]; auto. intros u v Hu Hv. apply H3; apply Hin; right; now right.
    + inversion Hnd2 as [|? ? _ Hn']; subst. now inversion Hn'.
    + lia.
    + exists rest, ((x, y) :: new). replace (length ix - 2)%nat with (length r) by lia. rewrite E2, <- app_assoc.
      split; [reflexivity|]. split; [cbn; lia|]. split; [lia|]. split.
      * rewrite P. cbn. do 2 constructor. exact P2.
      * intros [|p pre] x' y' post Eq u v Hu Hv Huv.
        -- injection Eq as E1 E3 E4. subst x' y' post. apply Max; auto; apply Hin; (eapply Permutation_in; [|eassumption]); do 2 constructor; now symmetry.
        -- injection Eq as E1 E3. subst p new. now apply (G2 pre x' y' post eq_refl).
Qed.

(** One pass: the clusters partition the columns. *)
Lemma one_pass_ok n sims : (1 <= n)%nat -> length sims = (n * (n - 1) / 2)%nat -> (forall r, In r sims -> 0 < r) ->
  exists cl rest, one_pass_clusters n sims = Ok (map (fun p => [fst p; snd p]) cl ++ map (fun x => [x]) rest) /\
    length cl = (n / 2)%nat /\ length rest = (n mod 2)%nat /\
    Permutation (seq 0 n) (flat_map (fun p => [fst p; snd p]) cl ++ rest) /\
    greedy_choice (symmat n sims) cl rest.
Proof.
  intros Hn Hl Hpos. unfold one_pass_clusters. rewrite (squareform_vec_ok n) by assumption. cbn [bind].
  rewrite mk_mat_length, Nat.eqb_refl. cbn [negb].
  assert (Hg : good_sim (symmat n sims) (seq 0 n)).
  { split; [|split].
    - apply symmat_sym.
    - apply symmat_diag.
    - intros x y Hx Hy Hne. apply in_seq in Hx, Hy. unfold symmat.
      assert (A : forall i j, (i < j)%nat -> (j < n)%nat -> 0 < nthR sims (pair_index n i j)).
      { intros i j Hij Hj. apply Hpos, nth_In. rewrite Hl. now apply P_Energy.pair_index_lt. }
      destruct (Nat.ltb_spec x y); [apply A; lia|]. destruct (Nat.ltb_spec y x); [apply A; lia|lia]. }
  assert (Hdm := Nat.div_mod n 2 ltac:(lia)).
  destruct (greedy_loop_ok (symmat n sims) (n / 2) (seq 0 n) [] Hg (seq_NoDup n 0)) as [rest [new [E [L1 [L2 [P G]]]]]].
  { rewrite seq_length. lia. }
  rewrite seq_length in E, L2. unfold range. change (mk_mat n n (symmat n sims)) with (gram (symmat n sims) (seq 0 n)).
  rewrite E. cbn [bind app]. exists new, rest.
  assert (Lr : length rest = (n mod 2)%nat) by lia.
  split; [|auto].
  rewrite <- Nat.bit0_odd, Nat.bit0_eqb. destruct (Nat.eqb_spec (n mod 2) 1) as [H1|H1].
  - destruct rest as [|x [|? ?]]; cbn [length] in Lr; try lia. reflexivity.
  - assert (M := Nat.mod_upper_bound n 2 ltac:(lia)). destruct rest; [|cbn [length] in Lr; lia]. cbn [map]. now rewrite app_nil_r.
Qed.

Lemma mapM_get_ok {A} (d : A) (l : list A) ks : (forall k, In k ks -> (k < length l)%nat) -> mapM (get l) ks = Ok (map (fun k => nth k l d) ks).
Proof.
  induction ks as [|k ks IH]; intros H; [reflexivity|]. cbn [mapM map]. unfold get at 1.
  rewrite (nth_error_nth' l d) by (apply H; now left). cbn [bind]. rewrite IH by (intros; apply H; now right). reflexivity.
Qed.

Lemma mapM_map {A B} (f : A -> result B) (h : A -> B) l : (forall a, In a l -> f a = Ok (h a)) -> mapM f l = Ok (map h l).
Proof.
  induction l as [|a l IH]; intros H; [reflexivity|]. cbn. rewrite H by (now left). cbn [bind].
  rewrite IH by (intros; apply H; now right). reflexivity.
Qed.

Fixpoint halve (k n : nat) : nat := match k with O => n | S k' => halve k' ((n + 1) / 2)%nat end.

Lemma concat_map_nth_perm {A} (bins : list (list A)) ks : Permutation (seq 0 (length bins)) ks ->
  Permutation (concat bins) (concat (map (fun k => nth k bins []) ks)).
Proof.
  intros P. transitivity (concat (map (fun k => nth k bins []) (seq 0 (length bins)))).
  - replace (map (fun k => nth k bins []) (seq 0 (length bins))) with bins; [reflexivity|].
    clear. induction bins as [|b bins IH]; [reflexivity|]. cbn. f_equal. rewrite <- seq_shift, map_map. exact IH.
  - rewrite <- !flat_map_concat_map. now apply Permutation_flat_map.
Qed.

Section Passes.
Context {C : Type}.
Variable sim_func : list C -> list R.
Variable coarse_func : list C -> C.
Hypothesis sim_len : forall cols, length (sim_func cols) = (length cols * (length cols - 1) / 2)%nat.
Hypothesis sim_pos : forall cols r, In r (sim_func cols) -> 0 < r.

Definition size_ok (k : nat) (b : list nat) : Prop := (1 <= length b <= 2 ^ k)%nat.

Lemma coarse_passes_ok k : forall j cols bins, (1 <= length cols)%nat -> length bins = length cols ->
  Forall (size_ok j) bins ->
  exists cols' bins', coarse_passes sim_func coarse_func k cols bins = Ok (cols', bins') /\
    length cols' = halve k (length cols) /\ length bins' = length cols' /\
    Permutation (concat bins) (concat bins') /\ Forall (size_ok (j + k)) bins' /\
    (forall m, length cols = (2 ^ k * m)%nat -> Forall (fun b => length b = 2 ^ j)%nat bins ->
       Forall (fun b => length b = 2 ^ (j + k))%nat bins').
Proof.
  induction k as [|k IH]; intros j cols bins Hc Hb Hs.
  - exists cols, bins. cbn. rewrite Nat.add_0_r. auto 10.
  - cbn [coarse_passes]. destruct (one_pass_ok (length cols) (sim_func cols) Hc (sim_len cols) (sim_pos cols)) as [cl [rest [E [L1 [L2 [P _]]]]]].
    rewrite E. cbn [bind]. set (clusters := map (fun p => [fst p; snd p]) cl ++ map (fun x => [x]) rest).
    assert (Flat : concat clusters = flat_map (fun p => [fst p; snd p]) cl ++ rest).
    { unfold clusters. rewrite concat_app, <- flat_map_concat_map. f_equal. clear. induction rest as [|x r IH]; cbn; [reflexivity|now rewrite IH]. }
    assert (In_lt : forall c x, In c clusters -> In x c -> (x < length cols)%nat).
    { intros c x Hcl Hx. assert (Hin : In x (concat clusters)) by (apply in_concat; eauto). rewrite Flat in Hin.
      apply (Permutation_in (l' := seq 0 (length cols))) in Hin; [|symmetry; exact P]. apply in_seq in Hin. lia. }
    destruct cols as [|c0 cols0] eqn:Ecols; [cbn in Hc; lia|]. rewrite <- Ecols in *.
    rewrite (mapM_map _ (fun c => map (fun x => nth x cols c0) c)).
    2: { intros c Hcl. apply mapM_get_ok. intros x Hx. eapply In_lt; eauto. }
    cbn [bind].
    rewrite (mapM_map _ (fun c => concat (map (fun x => nth x bins []) c))).
    2: { intros c Hcl. rewrite (mapM_get_ok []); [reflexivity|]. intros x Hx. rewrite Hb. eapply In_lt; eauto. }
    cbn [bind].
    set (cols1 := map coarse_func (map (fun c => map (fun x => nth x cols c0) c) clusters)).
    set (bins1 := map (fun c => concat (map (fun x => nth x bins []) c)) clusters).
    assert (Hdm := Nat.div_mod (length cols) 2 ltac:(lia)).
    assert (Hmu := Nat.mod_upper_bound (length cols) 2 ltac:(lia)).
    assert (Lcl : length clusters = ((length cols + 1) / 2)%nat).
    { unfold clusters. rewrite app_length, !map_length, L1, L2.
      apply (Nat.div_unique _ 2 _ (if Nat.eqb (length cols mod 2) 1 then 0 else 1)%nat); destruct (Nat.eqb_spec (length cols mod 2) 1); lia. }
    assert (Lc1 : length cols1 = ((length cols + 1) / 2)%nat) by (unfold cols1; now rewrite !map_length).
    assert (Lb1 : length bins1 = length cols1) by (unfold bins1; rewrite map_length; lia).
    assert (Sz : forall x, (x < length cols)%nat -> size_ok j (nth x bins [])).
    { intros x Hx. rewrite Forall_forall in Hs. apply Hs, nth_In. lia. }
    destruct (IH (S j) cols1 bins1) as [cols' [bins' [E' [H1 [H2 [H3 [H4 H5]]]]]]].
    + rewrite Lc1. apply Nat.div_le_lower_bound; lia.
    + exact Lb1.
    + apply Forall_forall. intros b Hbin. unfold bins1 in Hbin. apply in_map_iff in Hbin. destruct Hbin as [c [<- Hcl]].
      assert (Hlt := In_lt c). unfold clusters in Hcl. apply in_app_iff in Hcl. unfold size_ok. cbn [Nat.pow].
      destruct Hcl as [Hcl|Hcl]; apply in_map_iff in Hcl; destruct Hcl as [p [<- Hp]].
      * assert (A := Sz (fst p)). assert (B := Sz (snd p)). unfold size_ok in A, B. cbn [map concat]. rewrite app_nil_r, app_length.
        specialize (A ltac:(apply Hlt; [apply in_app_iff; left; apply in_map_iff; exists p; auto | now left])).
        specialize (B ltac:(apply Hlt; [apply in_app_iff; left; apply in_map_iff; exists p; auto | right; now left])). lia.
      * assert (A := Sz p). unfold size_ok in A. cbn [map concat]. rewrite app_nil_r.
        specialize (A ltac:(apply Hlt; [apply in_app_iff; right; apply in_map_iff; exists p; auto | now left])). lia.
    + exists cols', bins'. replace (j + S k)%nat with (S j + k)%nat by lia. rewrite E'. split; [reflexivity|].
      split; [rewrite H1, Lc1; reflexivity|]. split; [exact H2|]. split; [|split; [exact H4|]].
      * rewrite <- H3. unfold bins1.
        rewrite (concat_map_nth_perm bins (concat clusters)) by (rewrite Flat, Hb; exact P).
        clear. induction clusters as [|c l IH]; [reflexivity|]. cbn [concat map]. rewrite map_app, concat_app. now apply Permutation_app_head.
      * intros m Hm Hall. cbn [Nat.pow] in Hm.
        assert (Hev : (length cols mod 2 = 0)%nat).
        { rewrite Hm. replace (2 * 2 ^ k * m)%nat with (2 ^ k * m * 2)%nat by ring. apply Nat.mod_mul. lia. }
        apply (H5 m).
        -- rewrite Lc1. assert (length cols = 2 * (2 ^ k * m))%nat by lia. symmetry.
           apply (Nat.div_unique _ 2 _ 1%nat); lia.
        -- rewrite Hev in L2. destruct rest; [|discriminate]. apply Forall_forall. intros b Hbin. unfold bins1, clusters in Hbin.
           cbn [map] in Hbin. rewrite app_nil_r in Hbin. apply in_map_iff in Hbin. destruct Hbin as [c [<- Hcl]]. apply in_map_iff in Hcl.
           destruct Hcl as [p [<- Hp]]. cbn [map concat]. rewrite app_nil_r, app_length.
           assert (Hx : forall x, In x [fst p; snd p] -> (length (nth x bins []) = 2 ^ j)%nat).
           { intros x Hx. rewrite Forall_forall in Hall. apply Hall, nth_In. rewrite Hb.
             apply (In_lt [fst p; snd p] x); [|exact Hx]. unfold clusters. apply in_app_iff. left. apply in_map_iff. exists p. auto. }
           rewrite (Hx (fst p)), (Hx (snd p)) by (cbn; auto). cbn [Nat.pow]. lia.
Qed.
End Passes.
