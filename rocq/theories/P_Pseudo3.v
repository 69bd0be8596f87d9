(** * Proofs: starting points, symmetrisation and exact data for the pseudolikelihood. *)
From Verif Require Import Prelude Spec PreludeFacts M_Index M_Params M_Energy M_Corr M_Pseudo P_Index P_Unravel P_Energy P_Energy2 P_Params P_Unique P_Enum P_MPF P_MaxEnt P_Corr2 P_Pseudo P_Pseudo2.
Import ListNotations.
Local Open Scope R_scope.

(** ** Rows of the starting matrix *)
Lemma upd_nth_gen {A} (l : list A) i j v d : (i < length l)%nat -> nth j (upd l i v) d = if Nat.eqb i j then v else nth j l d.
Proof.
  revert i j. induction l as [|x l IH]; intros i j Hi; [cbn in Hi; lia|]. destruct i as [|i], j as [|j]; cbn [upd nth Nat.eqb]; try reflexivity.
  apply IH. cbn in Hi. lia.
Qed.

Lemma fold_rows (g : nat -> list R -> list R) : forall k b M, (b + k <= length M)%nat ->
  length (fold_left (fun M i => upd M i (g i (nth i M []))) (seq b k) M) = length M /\
  forall i, nth i (fold_left (fun M i => upd M i (g i (nth i M []))) (seq b k) M) [] =
    if (Nat.leb b i && Nat.ltb i (b + k))%bool then g i (nth i M []) else nth i M [].
Proof.
  induction k as [|k IH]; intros b M H; cbn [seq fold_left].
  - split; [reflexivity|]. intros i. destruct (Nat.leb_spec b i), (Nat.ltb_spec i (b + 0)); cbn [andb]; try reflexivity. lia.
  - destruct (IH (S b) (upd M b (g b (nth b M [])))) as [L E]; [rewrite upd_length; lia|]. split; [now rewrite L, upd_length|].
    intros i. rewrite E, upd_nth_gen by lia. destruct (Nat.leb_spec (S b) i), (Nat.leb_spec b i), (Nat.ltb_spec i (S b + k)), (Nat.ltb_spec i (b + S k)), (Nat.eqb_spec b i); cbn [andb]; try lia; subst; reflexivity.
Qed.

(** Row r of the starting matrix. *)
Definition start (n : nat) (guess : list R) (r : nat) : list R :=
  map (fun j => if Nat.eqb j 0 then nthR guess r else if Nat.eqb j r then coupling n guess r 0 else coupling n guess r j) (seq 0 n).

Lemma initial_guess_mat_ok n guess : (1 <= n)%nat -> length guess = (n + n * (n - 1) / 2)%nat ->
  exists gmat, initial_guess_mat n guess = Ok gmat /\ length gmat = n /\ forall r, (r < n)%nat -> nth r gmat [] = start n guess r.
Proof.
  intros Hn Hg. unfold initial_guess_mat. rewrite (squareform_vec_ok n) by (rewrite ?skipn_length; lia). cbn [bind].
  rewrite replace_diag_ok by (rewrite firstn_length; lia). cbn [bind].
  set (M := mk_mat n n _).
  assert (LM : length M = n) by apply mk_mat_length.
  eexists. split; [reflexivity|]. unfold range2.
  destruct (fold_rows (fun i row => upd (upd row i (nthR row 0)) 0 (nthR row i)) (n - 1) 1 M ltac:(lia)) as [L E].
  change (fold_left _ _ M) with (fold_left (fun M i => upd M i ((fun i row => upd (upd row i (nthR row 0)) 0 (nthR row i)) i (nth i M []))) (seq 1 (n - 1)) M).
  split; [now rewrite L|]. intros r Hr. rewrite E.
  assert (EM : nth r M [] = map (hJmat n guess r) (seq 0 n)).
  { unfold M. rewrite mk_mat_row by assumption. apply map_ext_in. intros j Hj. apply in_seq in Hj. unfold hJmat.
    destruct (Nat.eqb_spec r j) as [->|Hne]; [apply nthR_firstn; lia|]. now apply symmat_coupling. }
  assert (EN : forall j, (j < n)%nat -> nthR (nth r M []) j = hJmat n guess r j).
  { intros j Hj. rewrite EM. unfold nthR. now rewrite nth_map_seq. }
  assert (LR : length (nth r M []) = n) by (rewrite EM, map_length, seq_length; reflexivity).
  replace (1 + (n - 1))%nat with n by lia.
  destruct (Nat.leb_spec 1 r) as [H1|H1]; cbn [andb]; [rewrite (proj2 (Nat.ltb_lt _ _) Hr)|].
  - rewrite !EN by lia. apply (list_eq_nth 0).
    + unfold start. rewrite !upd_length, LR, map_length, seq_length. reflexivity.
    + rewrite !upd_length, LR. intros j Hj. unfold start. rewrite nth_map_seq by assumption.
      rewrite upd_nth_gen by (rewrite upd_length; lia). rewrite upd_nth_gen by lia. unfold hJmat.
      destruct (Nat.eqb_spec 0 j), (Nat.eqb_spec j 0); try lia.
      * rewrite Nat.eqb_refl. reflexivity.
      * destruct (Nat.eqb_spec r j), (Nat.eqb_spec j r); try lia.
        -- destruct (Nat.eqb_spec r 0); [lia|reflexivity].
        -- change (nth j (nth r M []) 0) with (nthR (nth r M []) j). rewrite EN by assumption. unfold hJmat. destruct (Nat.eqb_spec r j); [lia|reflexivity].
  - rewrite EM. unfold start. apply map_ext_in. intros j Hj. apply in_seq in Hj. unfold hJmat. assert (r = 0)%nat as -> by lia.
    destruct (Nat.eqb_spec 0 j), (Nat.eqb_spec j 0); try lia; reflexivity.
Qed.

(** The helper's parameters of spin r: the field, then the couplings with the others. *)
Lemma pix_coupling n p r i : (i <> r)%nat -> nthR p (pix n r i) = coupling n p r i.
Proof.
  intros H. unfold pix, coupling. destruct (Nat.ltb_spec i r), (Nat.ltb_spec r i); try lia; reflexivity.
Qed.

Lemma mult_nth n r p m : (r < n)%nat -> (m < n)%nat ->
  nthR (map (nthR p) (ising_ix n r)) m =
  if Nat.eqb m 0 then nthR p r else coupling n p r (if Nat.leb m r then m - 1 else m).
Proof.
  intros Hr Hm. destruct m as [|m]; [reflexivity|]. cbn [Nat.eqb]. unfold ising_ix, nthR. cbn [map nth].
  rewrite map_map, (nth_indep _ 0 (nthR p (pix n r 0))) by (rewrite map_length, others_length; lia).
  rewrite (map_nth (fun j => nthR p (pix n r j))), others_nth by lia.
  destruct (Nat.ltb_spec m r), (Nat.leb_spec (S m) r); try lia.
  - rewrite pix_coupling by lia. f_equal. lia.
  - rewrite pix_coupling by lia. reflexivity.
Qed.

(** ** Symmetrisation *)
Lemma assemble_ok n Jmat :
  pseudo_assemble n Jmat = Ok (map (fun i => entry Jmat i i) (seq 0 n) ++
    map (fun p => (entry Jmat (fst p) (snd p) + entry Jmat (snd p) (fst p)) / 2) (pairs (seq 0 n))).
Proof.
  unfold pseudo_assemble.
  set (f := fun i j => (entry Jmat i j + entry Jmat j i) / 2).
  assert (Hf : forall i j, (i < n)%nat -> (j < n)%nat -> f i j = f j i) by (intros; unfold f; f_equal; ring).
  pose proof (mat2vec_ok n f Hf) as E. unfold mat2vec in E. rewrite mk_mat_length in E.
  change (mk_mat n n (fun i j => f i j)) with (mk_mat n n f).
  change (fun i j => (entry Jmat i j + entry Jmat j i) / 2) with f. rewrite E. f_equal. f_equal.
  apply map_ext. intros i. unfold f. field.
Qed.

Lemma solve_ising_ok get calc n nobs sample guess minimize ixs :
  let g := match guess with None => repeat 0 nobs | Some g => g end in
  (1 <= n)%nat -> length g = (n + n * (n - 1) / 2)%nat ->
  (forall r, (r < n)%nat -> exists mult, get r g = Ok (mult, ixs r)) ->
  let f := fun r params => bind (pseudo_ising_f get r (map (calc r) sample) (ixs r) g params) (fun t => Ok (fst t)) in
  let x := fun r => minimize (f r) (start n g r) in
  (forall r, (r < n)%nat -> length (x r) = n) ->
  solve_ising get calc n nobs sample guess minimize = Ok (map (fun i => nthR (x i) 0) (seq 0 n) ++
    map (fun p => (nthR (x (fst p)) (snd p) + nthR (x (snd p)) (S (fst p))) / 2) (pairs (seq 0 n))).
Proof.
  intros g Hn Hg Hget f x Lx. unfold solve_ising. fold g.
  destruct (initial_guess_mat_ok n g Hn Hg) as (gmat & E & Lm & Hm). rewrite E. cbn [bind].
  set (row := fun r => match pseudo_row n r (x r) with Ok v => v | Err _ => [] end).
  rewrite (mapM_ok _ row).
  2:{ intros r Hr. apply in_seq in Hr. destruct (Hget r ltac:(lia)) as [mult Eg]. rewrite Eg. cbn [bind snd]. rewrite Hm by lia.
      change (minimize _ (start n g r)) with (x r). unfold row. destruct (pseudo_row_ok n r (x r) ltac:(lia) (Lx r ltac:(lia))) as (v & Ev & _). now rewrite Ev. }
  cbn [bind]. rewrite assemble_ok. unfold range.
  assert (Hent : forall i j, (i < n)%nat -> (j < n)%nat -> entry (map row (seq 0 n)) i j = nthR (row i) j).
  { intros i j Hi Hj. unfold entry. now rewrite nth_map_seq. }
  assert (Hrow : forall r, (r < n)%nat -> nthR (row r) r = nthR (x r) 0 /\
     (forall m, (m < n - 1)%nat -> nthR (row r) (nth m (others n r) 0%nat) = nthR (x r) (S m))).
  { intros r Hr. destruct (pseudo_row_ok n r (x r) Hr (Lx r Hr)) as (v & Ev & _ & H1 & H2). unfold row. rewrite Ev. auto. }
  f_equal. f_equal.
  - apply map_ext_in. intros i Hi. apply in_seq in Hi. rewrite Hent by lia. apply Hrow. lia.
  - apply map_ext_in. intros [i j] Hij. apply in_pairs_seq in Hij. cbn [fst snd]. rewrite !Hent by lia.
    pose proof (proj2 (Hrow i ltac:(lia)) (j - 1)%nat ltac:(lia)) as H1. rewrite others_nth in H1 by lia.
    destruct (Nat.ltb_spec (j - 1) i); [lia|]. replace (S (j - 1)) with j in H1 by lia.
    pose proof (proj2 (Hrow j ltac:(lia)) i ltac:(lia)) as H2. rewrite others_nth in H2 by lia.
    destruct (Nat.ltb_spec i j); [|lia]. now rewrite H1, H2.
Qed.

(** ** Exact data *)
Section Exact.
Variables (n : nat) (hJ : list R) (sample : list (list Z)).
Hypothesis HhJ : length hJ = (n + n * (n - 1) / 2)%nat.
Let St := all_states [-1; 1]%Z n.
Hypothesis Hrows : forall r, In r sample -> In r St.
Variable W : R.
Hypothesis HW : 0 < W.
Hypothesis Hfreq : forall s, In s St -> INR (count_occ rows_dec sample s) = W * exp (- ising_energy n hJ (map IZR s)).

Let flip (r : nat) (u : list Z) : list Z := upd u r (- nth r u 0)%Z.
Let En (p : list R) (u : list Z) : R := ising_energy n p (map IZR u).

Lemma St_spec u : In u St -> length u = n /\ forall x, In x u -> x = (-1)%Z \/ x = 1%Z.
Proof.
  intros H. apply all_states_spec in H. destruct H as [H1 H2]. split; [exact H1|]. intros x Hx. specialize (H2 x Hx). cbn in H2. destruct H2 as [H2|[H2|[]]]; [left|right]; now symmetry.
Qed.

Lemma St_spin u : In u St -> spin_state n (map IZR u).
Proof.
  intros H. apply St_spec in H. destruct H as [H1 H2]. split; [now rewrite map_length|]. intros x Hx. apply in_map_iff in Hx.
  destruct Hx as (z & <- & Hz). destruct (H2 z Hz) as [->| ->]; [right|left]; reflexivity.
Qed.

Lemma flip_ok r : (r < n)%nat -> forall u, In u St -> In (flip r u) St /\ flip r (flip r u) = u.
Proof.
  intros Hr u Hu. destruct (St_spec u Hu) as [L V]. split.
  - apply in_all_states_upd; [assumption|]. destruct (V (nth r u 0%Z)) as [->| ->]; [apply nth_In; lia| |]; cbn; auto.
  - unfold flip. rewrite upd_nth_gen by lia. rewrite Nat.eqb_refl, Z.opp_involutive, upd_upd. apply upd_same.
Qed.

Lemma map_upd_IZR u r v : map IZR (upd u r v) = upd (map IZR u) r (IZR v).
Proof. revert r. induction u as [|x u IH]; intros [|r]; cbn; [reflexivity..|]. now rewrite IH. Qed.

Lemma nth_IZR u r : nthR (map IZR u) r = IZR (nth r u 0%Z).
Proof. unfold nthR. now rewrite (map_nth IZR u 0%Z r). Qed.

Lemma cond_cpair p r u : (r < n)%nat -> In u St ->
  cond_prob (ising_energy n p) [-1; 1] (map IZR u) r (nthR (map IZR u) r) = cpair (flip r) (En p) u.
Proof.
  intros Hr Hu. destruct (St_spec u Hu) as [L V]. unfold cond_prob, cpair, En, flip. rewrite map_upd_IZR, !sumf_cons, sumf_nil, !nth_IZR.
  assert (Same : forall z, nth r u 0%Z = z -> upd (map IZR u) r (IZR z) = map IZR u).
  { intros z <-. rewrite <- map_upd_IZR, upd_same. reflexivity. }
  destruct (V (nth r u 0%Z)) as [Hz|Hz]; [apply nth_In; lia| |]; rewrite Hz; cbn [Z.opp]; rewrite (Same _ Hz), Rplus_0_r.
  - reflexivity.
  - f_equal. apply Rplus_comm.
Qed.

Lemma nlpl_counts p r : (r < n)%nat ->
  - sumf (map (map IZR) sample) (fun s => ln (cond_prob (ising_energy n p) [-1; 1] s r (nthR s r))) =
  sumf St (fun u => INR (count_occ rows_dec sample u) * - ln (cpair (flip r) (En p) u)).
Proof.
  intros Hr. rewrite sumf_map, <- sumf_opp.
  rewrite <- (sumf_count sample St (fun u => - ln (cpair (flip r) (En p) u))); [|apply all_states_NoDup; repeat constructor; cbn; intuition discriminate|assumption].
  apply sumf_ext_in. intros u Hu. rewrite cond_cpair by auto. reflexivity.
Qed.

(** Equal local fields in every state: equal parameters. *)
Lemma local_field_params p r : (r < n)%nat -> length p = length hJ ->
  (forall u, In u St -> local_field n p (map IZR u) r = local_field n hJ (map IZR u) r) ->
  map (nthR p) (ising_ix n r) = map (nthR hJ) (ising_ix n r).
Proof.
  intros Hr Lp H.
  destruct (scatter_spec hJ (ising_ix n r) (map (nthR p) (ising_ix n r))) as (q & E & Lq & H1 & H2).
  { now rewrite map_length. } { now apply ising_ix_NoDup. } { rewrite HhJ. intros i. now apply ising_ix_range. }
  assert (Eq : forall i, In i (ising_ix n r) -> nthR q i = nthR p i).
  { intros i Hi. destruct (In_nth _ _ 0%nat Hi) as (k & Hk & <-). rewrite H1 by assumption. unfold nthR.
    rewrite (nth_indep _ 0 (nth 0%nat p 0)) by (rewrite map_length; assumption). now rewrite (map_nth (fun j => nth j p 0)). }
  assert (q = hJ) as ->.
  { apply (ising_energy_unique (-1) 1 n q hJ 0); [lra|congruence|assumption|].
    intros s Hs. rewrite Rplus_0_r.
    assert (exists u, In u St /\ s = map IZR u) as (u & Hu & ->).
    { change [-1; 1] with (map IZR [-1; 1]%Z) in Hs. apply all_states_spec in Hs. destruct Hs as [L V].
      exists (map (fun x => if Rltb x 0 then (-1)%Z else 1%Z) s). split.
      - apply all_states_spec. rewrite map_length. split; [assumption|]. intros z Hz. apply in_map_iff in Hz. destruct Hz as (y & <- & _). destruct (Rltb y 0); cbn; auto.
      - rewrite map_map, <- (map_id s) at 1. apply map_ext_in. intros y Hy. specialize (V y Hy). cbn in V. unfold Rltb.
        destruct (Rlt_dec y 0); destruct V as [<-|[<-|[]]]; lra. }
    rewrite !(ising_energy_split n _ _ r Hr). rewrite (energy_rest_ext n q hJ) by assumption. f_equal. f_equal.
    rewrite <- H by assumption. apply local_field_ext; assumption. }
  apply map_ext_in. intros i Hi. symmetry. now apply Eq.
Qed.

Lemma exact_spin_min p r : (r < n)%nat -> length p = length hJ ->
  let L := fun p => - sumf (map (map IZR) sample) (fun s => ln (cond_prob (ising_energy n p) [-1; 1] s r (nthR s r))) in
  L hJ <= L p /\ (L p = L hJ -> map (nthR p) (ising_ix n r) = map (nthR hJ) (ising_ix n r)).
Proof.
  intros Hr Lp L. unfold L. rewrite !nlpl_counts by assumption.
  assert (ND : NoDup St) by (apply all_states_NoDup; repeat constructor; cbn; intuition discriminate).
  destruct (cpair_gibbs St (flip r) ND (flip_ok r Hr) (En hJ)
    (fun u => INR (count_occ rows_dec sample u)) W HW Hfreq (En p)) as [G1 G2].
  split; [exact G1|]. intros E. specialize (G2 E). apply local_field_params; [assumption..|].
  intros u Hu. specialize (G2 u Hu). destruct (St_spec u Hu) as [Lu V].
  assert (Lu' : length (map IZR u) = n) by now rewrite map_length.
  pose proof (ising_energy_upd n p (map IZR u) r (- nthR (map IZR u) r) Hr Lu') as E1.
  pose proof (ising_energy_upd n hJ (map IZR u) r (- nthR (map IZR u) r) Hr Lu') as E2.
  assert (Ef : map IZR (flip r u) = upd (map IZR u) r (- nthR (map IZR u) r)).
  { unfold flip. now rewrite map_upd_IZR, opp_IZR, nth_IZR. }
  assert (D : En p u - En p (flip r u) = En hJ u - En hJ (flip r u)).
  { unfold cpair in G2. apply exp_inv. pose proof (exp_pos (- En p u)) as P1. pose proof (exp_pos (- En p (flip r u))) as P2.
    pose proof (exp_pos (- En hJ u)) as P3. pose proof (exp_pos (- En hJ (flip r u))) as P4.
    assert (X : exp (- En p u) * exp (- En hJ (flip r u)) = exp (- En hJ u) * exp (- En p (flip r u))).
    { assert (Y : exp (- En p u) * (exp (- En hJ u) + exp (- En hJ (flip r u))) = exp (- En hJ u) * (exp (- En p u) + exp (- En p (flip r u)))).
      { apply (Rmult_eq_reg_r (/ ((exp (- En p u) + exp (- En p (flip r u))) * (exp (- En hJ u) + exp (- En hJ (flip r u)))))).
        - transitivity (exp (- En p u) / (exp (- En p u) + exp (- En p (flip r u)))); [field; lra|]. rewrite G2. field. lra.
        - apply Rinv_neq_0_compat. apply Rmult_integral_contrapositive_currified; lra. }
      lra. }
    rewrite <- !exp_plus in X. apply exp_inv in X. f_equal. lra. }
  unfold En in D. rewrite Ef in D.
  assert (N0 : nthR (map IZR u) r <> 0) by (destruct (spin_nth n (map IZR u) r (St_spin u Hu) Hr); lra).
  assert (Z0 : nthR (map IZR u) r * (local_field n p (map IZR u) r - local_field n hJ (map IZR u) r) = 0) by lra.
  apply Rmult_integral in Z0. lra.
Qed.
End Exact.
