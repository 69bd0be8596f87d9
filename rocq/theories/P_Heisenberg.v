(** * Proofs: Heisenberg energy, gradient, leapfrog integrator, rotations. *)
From Coq Require Import Nsatz.
From Coquelicot Require Import Coquelicot.
From Verif Require Import Prelude PreludeFacts Spec Spec3 M_Index M_Params M_Heisenberg P_Energy P_Energy2 P_Corr2 P_Params P_Convert P_MPF P_Pseudo3.
Import ListNotations.
Local Open Scope R_scope.

Lemma spin_product_inner x a b : spin_product x (2 * a) (2 * b) = inner3 (spin_of x a) (spin_of x b).
Proof. unfold spin_product, inner3, spin_of, unit_vector. cbn [fst snd]. ring. Qed.

Lemma fold_counter {A} (J : list R) (g : A -> R) L : forall e k,
  fold_left (fun (st : R * nat) p => let '(e, k) := st in (e + nthR J k * g p, (k + 1)%nat)) L (e, k) =
  (e + sumf (combine (seq k (length L)) L) (fun q => nthR J (fst q) * g (snd q)), (k + length L)%nat).
Proof.
  induction L as [|p L IH]; intros e k; cbn [fold_left length seq combine].
  - cbn. f_equal; [ring|lia].
  - rewrite IH, sumf_cons. cbn [fst snd]. rewrite Nat.add_1_r. f_equal; [ring|lia].
Qed.

Lemma sumf_combine_pairs n (J : list R) (g : nat * nat -> R) :
  sumf (combine (seq 0 (length (pairs (seq 0 n)))) (pairs (seq 0 n))) (fun q => nthR J (fst q) * g (snd q)) =
  sumf (pairs (seq 0 n)) (fun p => nthR J (pair_index n (fst p) (snd p)) * g p).
Proof.
  set (L := pairs (seq 0 n)).
  assert (G : forall (L : list (nat * nat)) k, sumf (combine (seq k (length L)) L) (fun q => nthR J (fst q) * g (snd q)) =
     sumf (seq 0 (length L)) (fun i => nthR J (k + i) * g (nth i L (0, 0)%nat))).
  { clear L. induction L as [|p L IH]; intros k; cbn [length seq combine]; [reflexivity|].
    rewrite !sumf_cons, IH. cbn [fst snd nth]. rewrite Nat.add_0_r. f_equal. rewrite (sumf_seq_shift (length L)). apply sumf_ext. intros i.
    cbn [nth]. do 2 f_equal. lia. }
  rewrite G. symmetry. rewrite <- (sumf_seq_nth (0, 0)%nat L). assert (EL : length L = (n * (n - 1) / 2)%nat) by apply pairs_seq_length. rewrite EL. apply sumf_ext_in. intros k Hk. apply in_seq in Hk.
  pose proof (pair_index_nth n k) as P. cbv zeta in P. destruct P as (E & _); [lia|]. cbn [Nat.add]. fold L in E. now rewrite E.
Qed.

Lemma heisenberg_energy_pairs n J x : heisenberg_energy n J x =
  - sumf (pairs (seq 0 n)) (fun p => nthR J (pair_index n (fst p) (snd p)) * inner3 (spin_of x (fst p)) (spin_of x (snd p))).
Proof. unfold heisenberg_energy. now rewrite <- (sumf_pairs_seq n (fun a b => nthR J (pair_index n a b) * inner3 (spin_of x a) (spin_of x b))). Qed.

Lemma calc_e_spec theta x : heis_calc_e theta x = heisenberg_energy (length x / 2) theta x.
Proof.
  unfold heis_calc_e. cbv zeta. rewrite fold_counter. cbn [fst]. rewrite heisenberg_energy_pairs, loop_ij_pairs.
  rewrite (sumf_combine_pairs _ theta (fun ab => spin_product x (2 * fst ab) (2 * snd ab))). f_equal. rewrite Rplus_0_l.
  apply sumf_ext. intros p. now rewrite spin_product_inner.
Qed.

(** ** The gradient *)
(** Contribution of the ordered pair (a,b) to component q, with coupling J. *)
Definition dpart (x : list R) (a b q : nat) : R :=
  if Nat.eqb q (2 * a) then
    cos (nthR x (2 * a)) * sin (nthR x (2 * b)) * (cos (nthR x (2 * a + 1)) * cos (nthR x (2 * b + 1)) + sin (nthR x (2 * a + 1)) * sin (nthR x (2 * b + 1)))
    - sin (nthR x (2 * a)) * cos (nthR x (2 * b))
  else if Nat.eqb q (2 * a + 1) then
    sin (nthR x (2 * a)) * sin (nthR x (2 * b)) * (- sin (nthR x (2 * a + 1)) * cos (nthR x (2 * b + 1)) + cos (nthR x (2 * a + 1)) * sin (nthR x (2 * b + 1)))
  else 0.
Definition cpart (n : nat) (theta x : list R) (q a b : nat) : R :=
  if Nat.eqb a b then 0 else nthR theta (if Nat.ltb a b then pair_index n a b else pair_index n b a) * dpart x a b q.

Lemma sub_to_ind_any n a b : (a < n)%nat -> (b < n)%nat -> a <> b ->
  sub_to_ind (Z.of_nat n) (Z.of_nat a) (Z.of_nat b) = Ok (Z.of_nat (if Nat.ltb a b then pair_index n a b else pair_index n b a)).
Proof.
  intros Ha Hb Hn. destruct (Nat.ltb_spec a b); [apply pair_index_sub_to_ind; lia|].
  rewrite <- pair_index_sub_to_ind by lia. unfold sub_to_ind. destruct (Z.ltb_spec (Z.of_nat a) (Z.of_nat b)); [lia|].
  destruct (Z.ltb_spec (Z.of_nat b) (Z.of_nat a)); [reflexivity|lia].
Qed.

Lemma half_lt m a : (a < m / 2)%nat -> (2 * a + 1 < m)%nat.
Proof. intros H. pose proof (Nat.div_mod m 2 ltac:(lia)). lia. Qed.

Lemma grad_e_comp theta x q : (q < length x)%nat ->
  exists g, heis_grad_e theta x = Ok g /\ length g = length x /\
  nthR g q = - sumf (seq 0 (length x / 2)) (fun a => sumf (seq 0 (length x / 2)) (fun b => cpart (length x / 2) theta x q a b)).
Proof.
  intros Hq. unfold heis_grad_e. cbv zeta. set (n := (length x / 2)%nat).
  match goal with |- context [foldM ?F (range n) (repeat 0 (length x))] => set (f := F) end.
  destruct (foldM_sum f (fun g => length g = length x) (fun g => nthR g q) (fun a => sumf (seq 0 n) (fun b => cpart n theta x q a b)) (range n)) with (st := repeat 0 (length x))
    as (g & E & L & V).
  - intros g a Ha Lg. unfold range in Ha. apply in_seq in Ha. unfold f.
    apply (foldM_sum _ (fun g => length g = length x) (fun g => nthR g q) (fun b => cpart n theta x q a b)); [|assumption].
    clear g Lg. intros g b Hb Lg. unfold range in Hb. apply in_seq in Hb. unfold cpart. destruct (Nat.eqb_spec a b) as [->|Hn].
    + exists g. repeat split; [assumption|ring].
    + rewrite sub_to_ind_any by lia. cbn [bind]. rewrite Nat2Z.id. cbv zeta.
      assert (B := half_lt (length x) a ltac:(lia)).
      eexists. split; [reflexivity|]. split; [now rewrite !upd_length|].
      unfold nthR at 1. rewrite upd_nth_gen by (rewrite upd_length; lia). unfold dpart. fold (nthR g q).
      destruct (Nat.eqb_spec q (2 * a)) as [->|H1]; [|destruct (Nat.eqb_spec q (2 * a + 1)) as [->|H2]].
      * destruct (Nat.eqb_spec (2 * a + 1) (2 * a)); [lia|]. rewrite upd_nth_gen by lia. rewrite Nat.eqb_refl. reflexivity.
      * rewrite Nat.eqb_refl. unfold nthR at 1. rewrite upd_nth_gen by lia. destruct (Nat.eqb_spec (2 * a) (2 * a + 1)); [lia|]. reflexivity.
      * destruct (Nat.eqb_spec (2 * a + 1) q); [lia|]. rewrite upd_nth_gen by lia. destruct (Nat.eqb_spec (2 * a) q); [lia|]. unfold nthR. ring.
  - apply repeat_length.
  - rewrite E. cbn [bind]. exists (map Ropp g). split; [reflexivity|]. split; [now rewrite map_length|].
    unfold nthR. rewrite (nth_indep _ 0 (- 0)) by (rewrite map_length; lia). rewrite (map_nth Ropp). fold (nthR g q). rewrite V.
    replace (nthR (repeat 0 (length x)) q) with 0; [now rewrite Rplus_0_l|]. unfold nthR. symmetry. apply nth_repeat.
Qed.

Lemma cpart_diag n theta x q a : cpart n theta x q a a = 0.
Proof. unfold cpart. now rewrite Nat.eqb_refl. Qed.

Lemma nthR_upd_gen x r w i : (r < length x)%nat -> nthR (upd x r w) i = if Nat.eqb r i then w else nthR x i.
Proof. intros Hr. unfold nthR. now apply upd_nth_gen. Qed.

(** Derivative of the product of two different spins. *)
Lemma inner_derive (x : list R) q a b : (q < length x)%nat -> a <> b ->
  is_derive (fun t : R => inner3 (spin_of (upd x q t) a) (spin_of (upd x q t) b)) (nthR x q) (dpart x a b q + dpart x b a q).
Proof.
  intros Hq Hn. unfold inner3, spin_of, unit_vector, dpart. cbn [fst snd].
  apply (is_derive_ext (fun t : R =>
    let v := fun i => if Nat.eqb q i then t else nthR x i in
    sin (v (2 * a)%nat) * cos (v (2 * a + 1)%nat) * (sin (v (2 * b)%nat) * cos (v (2 * b + 1)%nat)) +
    sin (v (2 * a)%nat) * sin (v (2 * a + 1)%nat) * (sin (v (2 * b)%nat) * sin (v (2 * b + 1)%nat)) +
    cos (v (2 * a)%nat) * cos (v (2 * b)%nat))).
  { intros t. cbv zeta. rewrite !nthR_upd_gen by assumption. reflexivity. }
  cbv zeta.
  destruct (Nat.eqb_spec q (2 * a)) as [H1|H1]; [|destruct (Nat.eqb_spec q (2 * a + 1)) as [H2|H2]];
    [| |destruct (Nat.eqb_spec q (2 * b)) as [H3|H3]; [|destruct (Nat.eqb_spec q (2 * b + 1)) as [H4|H4]]].
  all: repeat match goal with |- context [Nat.eqb ?u ?v] => destruct (Nat.eqb_spec u v); try lia end.
  all: try subst q; generalize (nthR x (2 * a)) (nthR x (2 * a + 1)) (nthR x (2 * b)) (nthR x (2 * b + 1)); intros; auto_derive; [exact I|].
  all: match goal with |- ?l = ?r => change (@eq R l r) end; ring.
Qed.

Lemma energy_derive (theta x : list R) q : (q < length x)%nat ->
  is_derive (fun t : R => heisenberg_energy (length x / 2) theta (upd x q t)) (nthR x q)
    (- sumf (seq 0 (length x / 2)) (fun a => sumf (seq 0 (length x / 2)) (fun b => cpart (length x / 2) theta x q a b))).
Proof.
  intros Hq. set (n := (length x / 2)%nat).
  rewrite <- (sumf_pairs_offdiag n (cpart n theta x q)) by (intros; apply cpart_diag).
  apply (is_derive_ext (fun t : R => - sumf (pairs (seq 0 n)) (fun p => nthR theta (pair_index n (fst p) (snd p)) *
      inner3 (spin_of (upd x q t) (fst p)) (spin_of (upd x q t) (snd p))))); [intros; symmetry; apply heisenberg_energy_pairs|].
  apply @is_derive_opp.
  apply is_derive_sumf. intros [a b] Hp. cbn [fst snd]. apply in_pairs_seq in Hp. unfold cpart.
  destruct (Nat.eqb_spec a b); [lia|]. destruct (Nat.eqb_spec b a); [lia|]. destruct (Nat.ltb_spec a b); [|lia]. destruct (Nat.ltb_spec b a); [lia|].
  rewrite <- Rmult_plus_distr_l. apply is_derive_scal. apply inner_derive; [assumption|lia].
Qed.

(** ** Derivative with respect to the couplings *)
Lemma grad_theta_spec (theta x : list R) : let n := (length x / 2)%nat in length theta = (n * (n - 1) / 2)%nat ->
  heis_grad_e_theta theta x = map (fun p => - inner3 (spin_of x (fst p)) (spin_of x (snd p))) (pairs (seq 0 n)).
Proof.
  intros n H. unfold heis_grad_e_theta. fold n. rewrite loop_ij_pairs.
  transitivity (map Ropp (fst (write_seq (fun ab : nat * nat => spin_product x (2 * fst ab) (2 * snd ab)) (pairs (seq 0 n)) (repeat 0 (length theta), 0%nat)))).
  { reflexivity. }
  rewrite write_seq_full by (rewrite repeat_length, H, pairs_seq_length; reflexivity).
  rewrite map_map. apply map_ext. intros p. now rewrite spin_product_inner.
Qed.

Lemma energy_coupling_derive (theta x : list R) k : let n := (length x / 2)%nat in length theta = (n * (n - 1) / 2)%nat -> (k < length theta)%nat ->
  is_derive (fun t : R => heisenberg_energy n (upd theta k t) x) (nthR theta k) (nthR (heis_grad_e_theta theta x) k).
Proof.
  intros n H Hk. rewrite (grad_theta_spec theta x) by assumption. fold n.
  pose proof (pair_index_nth n k) as P. cbv zeta in P. destruct P as (E & P1 & P2); [lia|].
  set (p0 := nth k (pairs (seq 0 n)) (0, 0)%nat) in *.
  assert (Ek : nthR (map (fun p => - inner3 (spin_of x (fst p)) (spin_of x (snd p))) (pairs (seq 0 n))) k = - inner3 (spin_of x (fst p0)) (spin_of x (snd p0))).
  { unfold nthR. rewrite (nth_indep _ 0 ((fun p => - inner3 (spin_of x (fst p)) (spin_of x (snd p))) (0, 0)%nat)) by (rewrite map_length, pairs_seq_length; lia).
    now rewrite (map_nth (fun p => - inner3 (spin_of x (fst p)) (spin_of x (snd p)))). }
  rewrite Ek.
  apply (is_derive_ext (fun t : R => - sumf (seq 0 (length theta)) (fun i => (if Nat.eqb k i then t else nthR theta i) *
      (let p := nth i (pairs (seq 0 n)) (0, 0)%nat in inner3 (spin_of x (fst p)) (spin_of x (snd p)))))).
  { intros t. symmetry. rewrite heisenberg_energy_pairs. f_equal. rewrite <- (sumf_seq_nth (0, 0)%nat (pairs (seq 0 n))), pairs_seq_length, <- H.
    apply sumf_ext_in. intros i Hi. apply in_seq in Hi. pose proof (pair_index_nth n i) as Q. cbv zeta in Q. destruct Q as (E' & _); [lia|].
    rewrite E', nthR_upd_gen by assumption. reflexivity. }
  apply @is_derive_opp.
  set (c := fun i => let p := nth i (pairs (seq 0 n)) (0, 0)%nat in inner3 (spin_of x (fst p)) (spin_of x (snd p))).
  replace (inner3 (spin_of x (fst p0)) (spin_of x (snd p0))) with (sumf (seq 0 (length theta)) (fun i => if Nat.eqb k i then c i else 0)).
  - apply is_derive_sumf. intros i Hi. apply (is_derive_ext (fun t : R => (if Nat.eqb k i then t else nthR theta i) * c i)); [reflexivity|]. generalize (c i). intros ci. destruct (Nat.eqb_spec k i).
    + auto_derive; [exact I|]. match goal with |- ?l = ?r => change (@eq R l r) end; ring.
    + apply @is_derive_const.
  - assert (S1 := sumf_indic Nat.eq_dec (seq 0 (length theta)) k c (seq_NoDup _ _)).
    transitivity (c k); [|reflexivity]. rewrite <- S1 by (apply in_seq; lia).
    apply sumf_ext. intros i. destruct (Nat.eqb_spec k i), (Nat.eq_dec k i); congruence.
Qed.

(** ** Leapfrog integrator *)
Lemma axpy_length c y x : length y = length x -> length (vec_axpy c y x) = length x.
Proof. intros H. unfold vec_axpy. rewrite map_length, combine_length. lia. Qed.

Lemma axpy_nth c y x i : length y = length x -> nthR (vec_axpy c y x) i = nthR x i + c * nthR y i.
Proof.
  intros H. destruct (Nat.lt_ge_cases i (length x)) as [Hi|Hi].
  - unfold vec_axpy, nthR. rewrite (nth_indep _ 0 (fst (0, 0) + c * snd (0, 0))) by (rewrite map_length, combine_length; lia).
    rewrite (map_nth (fun p => fst p + c * snd p)). rewrite combine_nth by (symmetry; assumption). reflexivity.
  - unfold nthR. rewrite !nth_overflow by (rewrite ?axpy_length; lia). ring.
Qed.

Lemma opp_nth x i : nthR (map Ropp x) i = - nthR x i.
Proof. unfold nthR. rewrite <- (map_nth Ropp). now rewrite Ropp_0. Qed.

Lemma nthR_ext x y : length x = length y -> (forall i, nthR x i = nthR y i) -> x = y.
Proof. intros L H. apply (nth_ext x y 0 0 L). intros i _. apply H. Qed.

Section Leap.
Variable grad : list R -> list R.
Variable n : nat.
Hypothesis grad_length : forall x, length x = n -> length (grad x) = n.
Variable dt : R.

Definition rev_state (st : list R * list R * list R) : list R * list R * list R := let '(x, p, g) := st in (x, map Ropp p, g).
Definition good (st : list R * list R * list R) : Prop := let '(x, p, g) := st in length x = n /\ length p = n /\ g = grad x.

Lemma leapfrog_good st : good st -> good (leapfrog grad dt st).
Proof.
  destruct st as [[x p] g]. intros (Lx & Lp & ->). unfold leapfrog, good.
  assert (G := grad_length x Lx).
  assert (L1 : length (vec_axpy (- (dt / 2)) (grad x) p) = n) by (rewrite axpy_length; lia).
  assert (L2 : length (vec_axpy dt (vec_axpy (- (dt / 2)) (grad x) p) x) = n) by (rewrite axpy_length; lia).
  split; [assumption|]. split; [|reflexivity]. rewrite axpy_length; [assumption|]. rewrite (grad_length _ L2). lia.
Qed.

Lemma rev_good st : good st -> good (rev_state st).
Proof. destruct st as [[x p] g]. intros (A & B & C). unfold good, rev_state. now rewrite map_length. Qed.

Lemma leapfrog_rev st : good st -> leapfrog grad dt (rev_state (leapfrog grad dt st)) = rev_state st.
Proof.
  destruct st as [[x p] g]. intros (Lx & Lp & ->). unfold leapfrog, rev_state.
  assert (G := grad_length x Lx).
  set (p1 := vec_axpy (- (dt / 2)) (grad x) p). assert (L1 : length p1 = n) by (unfold p1; rewrite axpy_length; lia).
  set (x1 := vec_axpy dt p1 x). assert (L2 : length x1 = n) by (unfold x1; rewrite axpy_length; lia).
  assert (G1 := grad_length x1 L2).
  set (p2 := vec_axpy (- (dt / 2)) (grad x1) p1). assert (L3 : length p2 = n) by (unfold p2; rewrite axpy_length; lia).
  assert (E1 : vec_axpy (- (dt / 2)) (grad x1) (map Ropp p2) = map Ropp p1).
  { apply nthR_ext; [rewrite axpy_length; rewrite !map_length; lia|]. intros i. rewrite axpy_nth by (rewrite map_length; lia).
    rewrite !opp_nth. unfold p2. rewrite axpy_nth by lia. ring. }
  rewrite E1.
  assert (E2 : vec_axpy dt (map Ropp p1) x1 = x).
  { apply nthR_ext; [rewrite axpy_length; rewrite ?map_length; lia|]. intros i. rewrite axpy_nth by (rewrite map_length; lia).
    rewrite !opp_nth. unfold x1. rewrite axpy_nth by lia. ring. }
  rewrite E2.
  assert (E3 : vec_axpy (- (dt / 2)) (grad x) (map Ropp p1) = map Ropp p).
  { apply nthR_ext; [rewrite axpy_length; rewrite !map_length; lia|]. intros i. rewrite axpy_nth by (rewrite map_length; lia).
    rewrite !opp_nth. unfold p1. rewrite axpy_nth by lia. ring. }
  now rewrite E3.
Qed.

Lemma leapfrogs_S N st : leapfrogs grad dt (S N) st = leapfrog grad dt (leapfrogs grad dt N st).
Proof. unfold leapfrogs, range. rewrite seq_S, fold_left_app. reflexivity. Qed.

Lemma leapfrogs_iter N st : leapfrogs grad dt N st = Nat.iter N (leapfrog grad dt) st.
Proof. induction N as [|N IH]; [reflexivity|]. rewrite leapfrogs_S, IH. reflexivity. Qed.

Lemma iter_succ_r {A} (f : A -> A) N a : Nat.iter (S N) f a = Nat.iter N f (f a).
Proof. induction N as [|N IH]; [reflexivity|]. cbn [Nat.iter] in *. cbn. f_equal. exact IH. Qed.

Lemma leapfrogs_good N st : good st -> good (leapfrogs grad dt N st).
Proof. induction N as [|N IH]; intros H; [exact H|]. rewrite leapfrogs_S. apply leapfrog_good. now apply IH. Qed.

Lemma rev_rev st : rev_state (rev_state st) = st.
Proof. destruct st as [[x p] g]. unfold rev_state. rewrite map_map. do 2 f_equal. rewrite <- (map_id p) at 2. apply map_ext. apply Ropp_involutive. Qed.

Lemma leapfrogs_rev N st : good st -> leapfrogs grad dt N (rev_state (leapfrogs grad dt N st)) = rev_state st.
Proof.
  revert st. induction N as [|N IH]; intros st H; [reflexivity|].
  rewrite !leapfrogs_iter. rewrite iter_succ_r. rewrite <- leapfrogs_iter.
  change (Nat.iter (S N) (leapfrog grad dt) st) with (leapfrog grad dt (Nat.iter N (leapfrog grad dt) st)). rewrite <- (leapfrogs_iter N st).
  rewrite leapfrog_rev by now apply leapfrogs_good. now apply IH.
Qed.
End Leap.

(** ** Vectors *)
Definition to3 (v : list R) : vec3 := (nthR v 0, nthR v 1, nthR v 2).
Lemma dot3 a b c x y z : dot [a; b; c] [x; y; z] = a * x + b * y + c * z.
Proof. cbn. ring. Qed.

Lemma rodrigues_inner ophi ot u v : length u = 3%nat -> length v = 3%nat ->
  dot (rodrigues ophi ot u) (rodrigues ophi ot v) = dot u v.
Proof.
  intros Hu Hv. destruct u as [|a [|b [|c [|? ?]]]]; try discriminate. destruct v as [|x [|y [|z [|? ?]]]]; try discriminate.
  unfold rodrigues, cross3, range, nthR. cbn [map seq nth]. rewrite !dot3.
  pose proof (sin2_cos2 ot) as T. pose proof (sin2_cos2 ophi) as P. unfold Rsqr in T, P.
  remember (sin ot) as s eqn:Es. remember (cos ot) as k eqn:Ek. remember (sin ophi) as sp eqn:Esp. remember (cos ophi) as cp eqn:Ecp. clear Es Ek Esp Ecp.
  set (q := - sp) in *. assert (P' : q * q + cp * cp = 1) by (unfold q; lra). clearbody q. clear P.
  set (r11 := k + q * q * (1 - k)). set (r12 := q * cp * (1 - k)). set (r13 := cp * s).
  set (r22 := k + cp * cp * (1 - k)). set (r23 := - q * s).
  transitivity ((r11 * a + r12 * b + r13 * c) * (r11 * x + r12 * y + r13 * z) + (r12 * a + r22 * b + r23 * c) * (r12 * x + r22 * y + r23 * z)
     + (- r13 * a - r23 * b + k * c) * (- r13 * x - r23 * y + k * z)); [unfold r11, r12, r13, r22, r23; ring|].
  assert (A11 : r11 * r11 + r12 * r12 + r13 * r13 = 1) by (unfold r11, r12, r13; nsatz).
  assert (A12 : r11 * r12 + r12 * r22 + r13 * r23 = 0) by (unfold r11, r12, r13, r22, r23; nsatz).
  assert (A13 : r11 * r13 + r12 * r23 - r13 * k = 0) by (unfold r11, r12, r13, r22, r23; nsatz).
  assert (A22 : r12 * r12 + r22 * r22 + r23 * r23 = 1) by (unfold r11, r12, r13, r22, r23; nsatz).
  assert (A23 : r12 * r13 + r22 * r23 - r23 * k = 0) by (unfold r11, r12, r13, r22, r23; nsatz).
  assert (A33 : r13 * r13 + r23 * r23 + k * k = 1) by (unfold r13, r23; nsatz).
  transitivity (a * x * (r11 * r11 + r12 * r12 + r13 * r13) + b * y * (r12 * r12 + r22 * r22 + r23 * r23) + c * z * (r13 * r13 + r23 * r23 + k * k)
    + (a * y + b * x) * (r11 * r12 + r12 * r22 + r13 * r23) + (a * z + c * x) * (r11 * r13 + r12 * r23 - r13 * k) + (b * z + c * y) * (r12 * r13 + r22 * r23 - r23 * k)); [ring|].
  rewrite A11, A12, A13, A22, A23, A33. ring.
Qed.
