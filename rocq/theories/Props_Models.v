(** * Properties C34, C35, C36, C58, C59, C60, C64, C65: model constructors, the solver
    base class and the enumeration solvers. *)
From Coq Require Import Sorted.
From Verif Require Import Prelude Spec PreludeFacts M_Index M_Params M_Corr M_Enum M_Models P_Index P_Unravel P_Energy P_Params P_Unique P_Corr P_Corr2 P_Coarse P_Models P_MaxEnt Props_Enum.
Import ListNotations.
Local Open Scope R_scope.

(** ** C34 *)
Lemma upd_map_seq (g : nat -> R) n i v : upd (map g (seq 0 n)) i v = map (fun j => if Nat.eqb i j then v else g j) (seq 0 n).
Proof.
  assert (G : forall b, upd (map g (seq b n)) i v = map (fun j => if Nat.eqb (b + i) j then v else g j) (seq b n)).
  { revert i. induction n as [|n IH]; intros i b; [destruct i; reflexivity|]. cbn [seq map].
    destruct i as [|i]; cbn [upd].
    - rewrite Nat.add_0_r, Nat.eqb_refl. f_equal. apply map_ext_in. intros j Hj. apply in_seq in Hj.
      destruct (Nat.eqb_spec b j); [lia|reflexivity].
    - rewrite IH. destruct (Nat.eqb_spec (b + S i) b); [lia|]. f_equal. replace (S b + i)%nat with (b + S i)%nat by lia. reflexivity. }
  apply (G 0%nat).
Qed.

Lemma read_matrix n f : n <> 2%nat ->
  read_multipliers (MMat (mk_mat n n f)) =
  bind (squareform_mat (mk_mat n n (fun i j => if Nat.eqb i j then 0 else f i j)))
       (fun J => Ok (n, map (fun i => f i i) (seq 0 n) ++ J)).
Proof.
  intros Hn. unfold read_multipliers. cbn [bind arg_len]. rewrite mk_mat_length.
  destruct (Nat.eqb_spec n 2) as [|_]; [contradiction|].
  replace (existsb _ _) with false.
  2: { symmetry. apply not_true_is_false. intros E. apply existsb_exists in E. destruct E as (r & Hr & E). apply Nat.ltb_lt in E.
       unfold mk_mat in Hr. apply in_map_iff in Hr. destruct Hr as (i & <- & _). rewrite map_length, seq_length in E. lia. }
  assert (Ed : map (fun i => entry (mk_mat n n f) i i) (range n) = map (fun i => f i i) (seq 0 n)).
  { apply map_ext_in. intros i Hi. apply in_seq in Hi. apply entry_mk_mat; lia. }
  rewrite Ed. f_equal. f_equal. unfold mk_mat at 2. apply map_ext_in. intros i Hi. apply in_seq in Hi.
  unfold mk_mat. rewrite (nth_map_seq (fun i => map (fun j => f i j) (seq 0 n))) by lia. now rewrite upd_map_seq.
Qed.

(** The three documented formats store the same n and the same vector. *)
Theorem C34_formats : forall (n : nat) (h J : list R), length h = n -> length J = (n * (n - 1) / 2)%nat ->
  read_multipliers (MVecs [h; J]) = Ok (n, h ++ J) /\
  read_multipliers (MVec (h ++ J)) = Ok (n, h ++ J) /\
  (n <> 2%nat -> read_multipliers (MMat (mk_mat n n (fun i j =>
       if Nat.eqb i j then nthR h i else nthR J (if Nat.ltb i j then pair_index n i j else pair_index n j i)))) = Ok (n, h ++ J)).
Proof.
  intros n h J Hh HJ. pose proof (two_tri n) as Ht. split; [|split].
  - unfold read_multipliers. cbn [bind arg_len length Nat.eqb read_pair]. rewrite Hh, HJ, Nat.eqb_refl. reflexivity.
  - unfold read_multipliers. cbn [bind arg_len]. rewrite app_length, Hh, HJ.
    destruct (Nat.eqb_spec (n + n * (n - 1) / 2) 2) as [E|_].
    { exfalso. destruct n as [|[|[|n]]]; cbn in E; discriminate. }
    rewrite vec2mat_size_ok, (Nat.mul_comm (n - 1)), Nat.eqb_refl. reflexivity.
  - intros Hn. rewrite read_matrix by assumption. rewrite squareform_mat_ok.
    + cbn [bind]. do 2 f_equal. f_equal.
      * rewrite (map_ext_in _ (fun i => nthR h i)); [|intros i _; now rewrite Nat.eqb_refl].
        rewrite fields_firstn by lia. rewrite <- Hh. apply firstn_all.
      * transitivity (map (fun p => symmat n J (fst p) (snd p)) (pairs (seq 0 n))); [|now apply symmat_pairs]. apply map_ext_in. intros [i j] Hij. apply in_pairs_seq in Hij. cbn [fst snd].
        unfold symmat. destruct (Nat.eqb_spec i j); [lia|]. destruct (Nat.ltb_spec i j); [reflexivity|lia].
    + intros i j _ _. rewrite (Nat.eqb_sym j i). destruct (Nat.eqb_spec i j); [reflexivity|].
      destruct (Nat.ltb_spec i j), (Nat.ltb_spec j i); try lia; reflexivity.
    + intros i _. now rewrite Nat.eqb_refl.
Qed.
Print Assumptions C34_formats.

(** An integer gives zero parameters; sizes below two are rejected. *)
Theorem C34_int : forall z : Z,
  ((1 < z)%Z -> read_multipliers (MInt z) = Ok (Z.to_nat z, repeat 0 (Z.to_nat z + Z.to_nat z * (Z.to_nat z - 1) / 2))) /\
  ((z <= 1)%Z -> read_multipliers (MInt z) = Err AssertionError).
Proof.
  intros z. split; intros Hz; unfold read_multipliers.
  - destruct (Z.ltb_spec 1 z); [|lia]. cbn [bind arg_len]. set (n := Z.to_nat z). rewrite repeat_length.
    assert (2 <= n)%nat by (unfold n; lia). pose proof (two_tri n).
    destruct (Nat.eqb_spec (n + n * (n - 1) / 2) 2) as [E|_]; [exfalso; nia|].
    rewrite vec2mat_size_ok, (Nat.mul_comm (n - 1)), Nat.eqb_refl. reflexivity.
  - destruct (Z.ltb_spec 1 z); [lia|]. reflexivity.
Qed.
Print Assumptions C34_int.

(** A vector is accepted exactly when its length is n + n(n-1)/2 for some n, and is
    then stored unchanged. *)
Theorem C34_vector_iff : forall (v : list R) (n : nat) (w : list R),
  read_multipliers (MVec v) = Ok (n, w) <-> (length v = (n + n * (n - 1) / 2)%nat /\ w = v).
Proof.
  intros v n w. split.
  - unfold read_multipliers. cbn [bind arg_len]. destruct (Nat.eqb_spec (length v) 2); [discriminate|].
    set (k := vec2mat_size (length v)). destruct (Nat.eqb_spec (length v) (k + (k - 1) * k / 2)) as [E|]; [|discriminate].
    intros H. injection H as <- <-. split; [|reflexivity]. now rewrite (Nat.mul_comm k).
  - intros [E ->]. destruct (C34_formats n (firstn n v) (skipn n v)) as [_ [H _]].
    + apply firstn_length_le. lia.
    + rewrite skipn_length. lia.
    + now rewrite firstn_skipn in H.
Qed.
Print Assumptions C34_vector_iff.

(** A matrix which is not symmetric is rejected (at least three spins). *)
Theorem C34_asymmetric : forall (n : nat) (f : nat -> nat -> R) (i j : nat), n <> 2%nat -> (i < n)%nat -> (j < n)%nat ->
  f i j <> f j i -> read_multipliers (MMat (mk_mat n n f)) = Err ValueError.
Proof.
  intros n f i j Hn Hi Hj Hne. rewrite read_matrix by assumption.
  assert (E := mat2vec_asymmetric n (fun i j => if Nat.eqb i j then 0 else f i j) i j Hi Hj).
  assert (i <> j) by congruence. cbn beta in E. rewrite (Nat.eqb_sym j i) in E. destruct (Nat.eqb_spec i j); [contradiction|]. specialize (E Hne).
  unfold squareform_mat. rewrite is_square_mk_mat, mk_mat_length. cbn [negb].
  replace (forallb _ _) with false; [reflexivity|]. symmetry. apply not_true_is_false. intros A.
  rewrite forallb_forall in A. specialize (A i ltac:(apply in_seq; lia)). cbn beta in A. rewrite forallb_forall in A. specialize (A j ltac:(apply in_seq; lia)). cbn beta in A.
  rewrite !entry_mk_mat in A by assumption. rewrite (Nat.eqb_sym j i) in A. destruct (Nat.eqb_spec i j); [contradiction|].
  unfold Reqb in A. destruct Req_EM_T; [contradiction|discriminate].
Qed.
Print Assumptions C34_asymmetric.

(** The documented matrix format never works for two spins: every 2x2 matrix is taken
    for a pair [fields, couplings] and fails the size check. *)
Theorem C34_refuted : forall (have : nat -> bool) (a b c d : R), ising_new have (MMat [[a; b]; [c; d]]) = Err AssertionError.
Proof. reflexivity. Qed.
Print Assumptions C34_refuted.

(** Triplet: accepted exactly when the three sizes fit; all vectors of the list are
    concatenated, also surplus ones. *)
Theorem C34_triplet : forall (have : nat -> bool) (h J K : list R) (rest : list (list R)),
  (forall o, triplet_new have (h :: J :: K :: rest) = Ok o ->
     length J = binom (length h) 2 /\ length K = binom (length h) 3 /\ m_n o = length h /\ m_multipliers o = h ++ J ++ K ++ concat rest) /\
  (length J = binom (length h) 2 -> length K = binom (length h) 3 -> exists o, triplet_new have (h :: J :: K :: rest) = Ok o).
Proof.
  intros have h J K rest. unfold triplet_new, get. cbn [nth_error bind].
  destruct (Nat.eqb_spec (binom (length h) 2) (length J)); cbn [negb].
  2: { split; [discriminate|intros; congruence]. }
  destruct (Nat.eqb_spec (binom (length h) 3) (length K)); cbn [negb].
  2: { split; [discriminate|intros; congruence]. }
  split; [|intros; eexists; reflexivity]. intros o H. injection H as <-. cbn. repeat split; auto.
Qed.
Print Assumptions C34_triplet.

(** Potts3: a vector is accepted exactly when its length is 3n + n(n-1)/2. *)
Theorem C34_potts : forall (have : nat -> bool) (v : list R) (n : nat),
  (exists o, potts3_new have (MVec v) = Ok o /\ m_n o = n /\ m_multipliers o = v) <-> length v = (3 * n + n * (n - 1) / 2)%nat.
Proof.
  intros have v n. unfold potts3_new. pose proof (two_tri n) as Ht. split.
  - intros (o & H & Hn & _). set (q := (25 + 8 * length v)%nat) in *. set (r := Nat.sqrt q) in *.
    destruct (Nat.eqb_spec (r * r) q) as [E1|]; [|discriminate]. cbn [andb] in H.
    destruct (Nat.eqb_spec ((r - 5) mod 2) 0) as [E2|]; [|discriminate]. cbn [bind] in H. injection H as <-. change (((r - 5) / 2)%nat = n) in Hn.
    assert (Hr : (5 <= r)%nat) by (unfold q in E1; nia).
    assert (E3 := Nat.div_mod (r - 5) 2 ltac:(lia)). rewrite E2, Hn in E3. unfold q in E1.
    assert (Er : r = (2 * n + 5)%nat) by lia. rewrite Er in E1. nia.
  - intros E. set (q := (25 + 8 * length v)%nat).
    assert (Er : Nat.sqrt q = (2 * n + 5)%nat).
    { apply Nat.sqrt_unique. unfold q. nia. }
    rewrite Er. replace ((2 * n + 5) * (2 * n + 5))%nat with q by (unfold q; nia). rewrite Nat.eqb_refl.
    replace (2 * n + 5 - 5)%nat with (n * 2)%nat by lia. rewrite Nat.mod_mul, Nat.div_mul by lia. cbn [andb Nat.eqb bind].
    eexists. repeat split.
Qed.
Print Assumptions C34_potts.

Theorem C34_potts_pair : forall (have : nat -> bool) (h J : list R) (n : nat),
  (exists o, potts3_new have (MVecs [h; J]) = Ok o /\ m_n o = n /\ m_multipliers o = h ++ J) <->
  (length h = (3 * n)%nat /\ length J = binom n 2).
Proof.
  intros have h J n. unfold potts3_new, get. cbn [nth_error bind length Nat.eqb negb]. split.
  - intros (o & H & Hn & _).
    destruct (Nat.eqb_spec (length h mod 3) 0) as [E|]; [|discriminate]. cbn [negb] in H.
    destruct (Nat.eqb_spec (binom (length h / 3) 2) (length J)) as [E2|]; [|discriminate]. cbn [negb bind] in H. injection H as <-. change ((length h / 3)%nat = n) in Hn.
    assert (E3 := Nat.div_mod (length h) 3 ltac:(lia)). rewrite E, Hn in E3. rewrite Hn in E2. split; lia.
  - intros [E1 E2]. rewrite E1. rewrite (Nat.mul_comm 3 n), Nat.mod_mul, Nat.div_mul by lia. cbn [Nat.eqb negb].
    rewrite E2, Nat.eqb_refl. cbn [negb bind concat app]. rewrite app_nil_r. eexists. repeat split.
Qed.
Print Assumptions C34_potts_pair.

Example C34_example : read_multipliers (MMat [[1; 4; 5]; [4; 2; 6]; [5; 6; 3]]) = Ok (3%nat, [1; 2; 3; 4; 5; 6]) /\
  read_multipliers (MVec [1; 2; 3; 4]) = Err AssertionError.
Proof.
  split; [|reflexivity]. destruct (C34_formats 3 [1; 2; 3] [4; 5; 6] eq_refl eq_refl) as [_ [_ H]].
  specialize (H ltac:(lia)). exact H.
Qed.

(** ** C65: default evaluation point *)
Theorem C65_set : forall (have : nat -> bool) (m : mult_arg) (o : model) (xs : list (list R)) (x : list R),
  ising_new have m = Ok o -> have (m_n o) = true ->
  let o' := fold_left set_multipliers xs o in
  eval_point o' None = Ok (m_multipliers o') /\ m_n o' = m_n o /\ m_multipliers o' = last xs (m_multipliers o) /\
  eval_point o' (Some x) = Ok x.
Proof.
  intros have m o xs x H Hh. unfold ising_new in H. destruct (read_multipliers m) as [[n v]|e]; [|discriminate]. cbn in H.
  injection H as <-. cbn in Hh. rewrite Hh.
  assert (G : forall xs o0, m_default o0 = Some (m_multipliers o0) ->
    let o' := fold_left set_multipliers xs o0 in
    m_default o' = Some (m_multipliers o') /\ m_n o' = m_n o0 /\ m_multipliers o' = last xs (m_multipliers o0)).
  { clear. induction xs as [|y xs IH]; intros o0 H0; cbn; [auto|].
    destruct (IH (set_multipliers o0 y)) as [A [B C]].
    - unfold set_multipliers. cbn. now rewrite H0.
    - cbv zeta in *. split; [exact A|]. split; [exact B|]. rewrite C. cbn [set_multipliers m_multipliers].
      destruct xs; [reflexivity|]. clear. revert l. induction xs as [|b xs IH]; intros l; [reflexivity|]. exact (IH b). }
  cbv zeta. set (o := set_multipliers _ _) in *. destruct (G xs o eq_refl) as [A [B C]]. cbv zeta in *.
  unfold eval_point. rewrite A. auto.
Qed.
Print Assumptions C65_set.

(** Assigning the attribute leaves the default evaluation at the old parameters. *)
Theorem C65_refuted : forall (have : nat -> bool) (m : mult_arg) (o : model) (x : list R),
  ising_new have m = Ok o -> have (m_n o) = true -> x <> m_multipliers o ->
  m_multipliers (assign_multipliers o x) = x /\
  eval_point (assign_multipliers o x) None = Ok (m_multipliers o) /\
  eval_point (assign_multipliers o x) None <> Ok (m_multipliers (assign_multipliers o x)).
Proof.
  intros have m o x H Hh Hx. destruct (C65_set have m o [] x H Hh) as [A _]. cbn in A.
  unfold eval_point in *. cbn. destruct (m_default o) as [d|]; [|discriminate]. injection A as ->.
  split; [reflexivity|]. split; [reflexivity|]. congruence.
Qed.
Print Assumptions C65_refuted.

Example C65_example : exists o, ising_new (fun _ => true) (MInt 2) = Ok o /\ eval_point (set_multipliers o [1; 2; 3]) None = Ok [1; 2; 3].
Proof. eexists. split; reflexivity. Qed.

(** ** C35 *)
Theorem C35_fill : forall (A : Type) (v d : A) (N : nat) (ix : list nat) (x : list A),
  ix <> [] -> StronglySorted lt ix -> (forall p, In p ix -> (p < N)%nat) ->
  (2 <= length ix \/ last ix 0 + 1 = N)%nat -> length x = length ix ->
  exists ins y, set_insertion_ix N ix = Ok ins /\ fill_in ins v x = Ok y /\ length y = N /\
    (forall k, (k < length ix)%nat -> nth (nth k ix 0%nat) y d = nth k x d) /\
    (forall j, (j < N)%nat -> ~ In j ix -> nth j y d = v).
Proof. intros A v d N ix x. apply fill_in_ok. Qed.
Print Assumptions C35_fill.

(** The constructor sorts its argument and drops repetitions. *)
Theorem C35_setup : forall (A : Type) (v d : A) (N : nat) (ix : list nat) (i1 i2 : nat),
  In i1 ix -> In i2 ix -> i1 <> i2 -> (forall p, In p ix -> (p < N)%nat) ->
  exists pix ins, sparse_setup N ix = Ok (pix, ins) /\ StronglySorted lt pix /\ (forall k, In k pix <-> In k ix) /\
  forall x, length x = length pix -> exists y, fill_in ins v x = Ok y /\ length y = N /\
    (forall k, (k < length pix)%nat -> nth (nth k pix 0%nat) y d = nth k x d) /\
    (forall j, (j < N)%nat -> ~ In j ix -> nth j y d = v).
Proof.
  intros A v d N ix i1 i2 H1 H2 Hne Hb. destruct (unique_nat_spec ix) as [Hs Hin].
  assert (H2l : (2 <= length (unique_nat ix))%nat).
  { apply Hin in H1, H2. destruct (unique_nat ix) as [|a [|b l]]; cbn in *; try lia. }
  assert (Hne' : unique_nat ix <> []) by (intros E; rewrite E in H2l; cbn in H2l; lia).
  assert (Hb' : forall p, In p (unique_nat ix) -> (p < N)%nat) by (intros p Hp; now apply Hb, Hin).
  destruct (fill_in_ok v N (unique_nat ix) (repeat v (length (unique_nat ix))) d Hne' Hs Hb' (or_introl H2l) (repeat_length _ _)) as (ins & _ & E & _).
  exists (unique_nat ix), ins. unfold sparse_setup. rewrite E. split; [reflexivity|]. split; [exact Hs|]. split; [exact Hin|].
  intros x Hx. destruct (fill_in_ok v N (unique_nat ix) x d Hne' Hs Hb' (or_introl H2l) Hx) as (ins' & y & E' & Ey & Ly & V & O).
  rewrite E in E'. injection E' as <-. exists y. split; [exact Ey|]. split; [exact Ly|]. split; [exact V|].
  intros j Hj Hn. apply O; [exact Hj|]. now rewrite Hin.
Qed.
Print Assumptions C35_setup.

(** One index which is not the last parameter: the constructor crashes. *)
Theorem C35_refuted : forall (N i : nat) (ix : list nat), (i + 1 < N)%nat -> ix <> [] -> (forall k, In k ix -> k = i) ->
  sparse_setup N ix = Err UnboundLocalError.
Proof.
  intros N i ix Hi Hne Ha. destruct (unique_nat_spec ix) as [Hs Hin].
  assert (E : unique_nat ix = [i]).
  { destruct ix as [|k0 ix0]; [congruence|]. assert (H0 : In i (unique_nat (k0 :: ix0))).
    { apply Hin. left. apply Ha. now left. }
    destruct (unique_nat (k0 :: ix0)) as [|a l] eqn:El; [destruct H0|].
    assert (a = i) by (apply Ha, Hin; now left). subst a. destruct l as [|b l]; [reflexivity|exfalso].
    assert (b = i) by (apply Ha, Hin; right; now left). subst b.
    apply StronglySorted_inv in Hs. destruct Hs as [_ F]. inversion F; lia. }
  unfold sparse_setup, set_insertion_ix. rewrite E. cbn [last]. destruct (Nat.ltb_spec (i + 1) N); [reflexivity|lia].
Qed.
Print Assumptions C35_refuted.

Example C35_example : exists ins, set_insertion_ix 6 [1; 4]%nat = Ok ins /\ fill_in ins 0 [7; 8] = Ok [0; 7; 0; 0; 8; 0].
Proof. eexists. split; reflexivity. Qed.

(** ** C36 *)
Lemma sorted_NoDup l : StronglySorted lt l -> NoDup l.
Proof.
  induction 1 as [|a l Hs IH Hf]; constructor; [|assumption]. intros Hin. rewrite Forall_forall in Hf. specialize (Hf a Hin). lia.
Qed.

Theorem C36_all : forall (obs : list Z -> list R) (N : nat) (ncols : nat) (rows : list (list Z)) (ix pix ins : list nat),
  sparse_setup N ix = Ok (pix, ins) -> (forall k, In k ix -> (k < N)%nat) -> (forall k, (k < N)%nat -> In k ix) ->
  exists sv, basic_setup obs N (SData ncols rows) = Ok sv /\
  sparse_start sv pix None None = Ok (repeat 0 N, map (fun k => sumf rows (fun r => nthR (obs r) k) / INR (length rows)) (seq 0 N)).
Proof.
  intros obs N ncols rows ix pix ins Hset Hb Hall. eexists. split; [reflexivity|].
  destruct (unique_nat_spec ix) as [Hs Hin].
  assert (Ep : pix = unique_nat ix).
  { unfold sparse_setup in Hset. destruct set_insertion_ix; [|discriminate]. cbn [bind] in Hset. congruence. }
  assert (El : length pix = N).
  { subst pix. assert (L1 : (length (unique_nat ix) <= length (seq 0 N))%nat).
    { apply NoDup_incl_length; [now apply sorted_NoDup|]. intros k Hk. apply in_seq. apply Hin, Hb in Hk. lia. }
    assert (L2 : (length (seq 0 N) <= length (unique_nat ix))%nat).
    { apply NoDup_incl_length; [apply seq_NoDup|]. intros k Hk. apply in_seq in Hk. apply Hin, Hall. lia. }
    rewrite seq_length in *. lia. }
  unfold sparse_start. cbn [bind sv_constraints]. unfold range. rewrite map_length, seq_length, El, Nat.eqb_refl. reflexivity.
Qed.
Print Assumptions C36_all.

(** Any proper subset of the parameters: the default constraints are rejected. *)
Theorem C36_refuted : forall (obs : list Z -> list R) (N : nat) (ncols : nat) (rows : list (list Z)) (ix pix ins : list nat) (k : nat),
  sparse_setup N ix = Ok (pix, ins) -> (forall k, In k ix -> (k < N)%nat) -> (k < N)%nat -> ~ In k ix ->
  exists sv, basic_setup obs N (SData ncols rows) = Ok sv /\ sparse_start sv pix None None = Err AssertionError.
Proof.
  intros obs N ncols rows ix pix ins k Hset Hb Hk Hn. eexists. split; [reflexivity|].
  destruct (unique_nat_spec ix) as [Hs Hin].
  assert (Ep : pix = unique_nat ix).
  { unfold sparse_setup in Hset. destruct set_insertion_ix; [|discriminate]. cbn [bind] in Hset. congruence. }
  assert (El : (length pix < N)%nat).
  { subst pix. assert (L1 : (length (k :: unique_nat ix) <= length (seq 0 N))%nat).
    { apply NoDup_incl_length; [constructor; [now rewrite Hin|now apply sorted_NoDup]|].
      intros j [<-|Hj]; apply in_seq; [lia|]. apply Hin, Hb in Hj. lia. }
    rewrite seq_length in L1. cbn [length] in L1. lia. }
  unfold sparse_start. cbn [bind sv_constraints]. unfold range. rewrite map_length, seq_length.
  destruct (Nat.eqb_spec N (length pix)); [lia|]. reflexivity.
Qed.
Print Assumptions C36_refuted.

Lemma big_not_zero (c : list R) : c <> [] -> map (fun _ => 0 + 10 ^ 30) c <> map (fun _ => 0) c.
Proof.
  destruct c as [|a c]; [congruence|]. intros _ H. cbn [map] in H. assert (H' : 0 + 10 ^ 30 = 0) by congruence.
  assert (0 < 10 ^ 30) by (apply pow_lt; lra). lra.
Qed.

Lemma nth_map_get (l : list R) ks k : (k < length ks)%nat -> nth k (map (fun k => nth k l 0) ks) 0 = nth (nth k ks 0%nat) l 0.
Proof.
  intros H. rewrite (nth_indep _ 0 (nth 0%nat l 0)) by (now rewrite map_length). apply (map_nth (fun k => nth k l 0)).
Qed.

(** Roots of the sparse equations: the remaining parameters are zero, the chosen
    observables match. *)
Theorem C36_root : forall (calc : list R -> list R) (N : nat) (ix pix ins : list nat) (max : R) (c x : list R),
  sparse_setup N ix = Ok (pix, ins) -> (forall k, In k ix -> (k < N)%nat) ->
  (forall p, length p = N -> length (calc p) = N) -> length x = length pix -> length c = length pix ->
  exists y, length y = N /\ (forall j, (j < N)%nat -> ~ In j ix -> nthR y j = 0) /\
    (forall k, (k < length pix)%nat -> nthR y (nth k pix 0%nat) = nthR x k) /\
    (sparse_root_f calc (Some max) pix ins c x = Ok (map (fun _ => 0) c) <->
     (forall a, In a y -> Rabs a <= max) /\ (forall k, (k < length pix)%nat -> nthR (calc y) (nth k pix 0%nat) = nthR c k)).
Proof.
  intros calc N ix pix ins max c x Hset Hb Hcalc Hx Hc. destruct (unique_nat_spec ix) as [Hs Hin].
  assert (Ep : pix = unique_nat ix /\ set_insertion_ix N (unique_nat ix) = Ok ins).
  { unfold sparse_setup in Hset. destruct set_insertion_ix; [|discriminate]. cbn [bind] in Hset. injection Hset as H1 H2. split; congruence. }
  destruct Ep as [-> Eins].
  assert (Hb' : forall p, In p (unique_nat ix) -> (p < N)%nat) by (intros p Hp; now apply Hb, Hin).
  assert (Hne : unique_nat ix <> []) by (intros E; rewrite E in Eins; discriminate).
  assert (H2 : (2 <= length (unique_nat ix) \/ last (unique_nat ix) 0 + 1 = N)%nat).
  { destruct (unique_nat ix) as [|a [|b l]] eqn:E; [congruence| |left; cbn; lia]. right.
    unfold set_insertion_ix in Eins. cbn [last] in *. destruct (Nat.ltb_spec (a + 1) N); [discriminate|].
    specialize (Hb' a (or_introl eq_refl)). lia. }
  destruct (fill_in_ok 0 N (unique_nat ix) x 0 Hne Hs Hb' H2 Hx) as (ins' & y & E' & Ey & Ly & V & O).
  rewrite Eins in E'. injection E' as <-. exists y. split; [exact Ly|].
  split; [intros j Hj Hn; apply O; [exact Hj|now rewrite Hin]|]. split; [exact V|].
  unfold sparse_root_f. rewrite Ey. cbn [bind].
  assert (Hc0 : c <> []) by (intros ->; cbn [length] in Hc; destruct (unique_nat ix); [congruence|discriminate]).
  destruct (exceeds (Some max) y) eqn:Ex.
  - split.
    + intros H. injection H as H. now apply big_not_zero in H.
    + intros [H _]. apply exceeds_spec in H. congruence.
  - assert (Hbd := proj1 (exceeds_spec max y) Ex).
    rewrite (mapM_get_ok 0) by (intros k Hk; rewrite Hcalc by exact Ly; now apply Hb'). cbn [bind].
    rewrite vsub_zero by (rewrite map_length; now symmetry). split.
    + intros E. split; [exact Hbd|]. intros k Hk. rewrite <- E. unfold nthR.
      now rewrite nth_map_get.
    + intros [_ H]. apply (nth_ext _ _ 0 0); [rewrite map_length; now symmetry|]. intros k Hk. rewrite map_length in Hk.
      rewrite nth_map_get by assumption. now apply H.
Qed.
Print Assumptions C36_root.

Example C36_example : exists pix ins sv, sparse_setup 3 [2; 0]%nat = Ok (pix, ins) /\
  basic_setup (fun r => map IZR r) 3 (SData 3 [[1; 1; -1]]%Z) = Ok sv /\ sparse_start sv pix None None = Err AssertionError.
Proof. do 3 eexists. split; [reflexivity|]. split; reflexivity. Qed.

(** ** C58 *)
(** Row [m] matches the observed spins of [s]. *)
Definition matches (s m : list Z) : Prop := forall i, (i < length s)%nat -> nth i s 0%Z <> 0%Z -> nth i m 0%Z = nth i s 0%Z.

Lemma agrees_matches s m : length m = length s -> (agrees s m = true <-> matches s m).
Proof.
  unfold agrees, matches. revert m. induction s as [|a s IH]; intros [|b m] Hl; cbn in Hl; try discriminate.
  - split; [intros _ i Hi; cbn in Hi; lia|reflexivity].
  - cbn [combine forallb fst snd]. rewrite Bool.andb_true_iff, IH by lia. rewrite Bool.orb_true_iff, !Z.eqb_eq. split.
    + intros [H1 H2] [|i] Hi Hz; cbn [nth length] in *; [destruct H1; congruence|]. apply H2; [lia|exact Hz].
    + intros H. split.
      * destruct (Z.eq_dec a 0); [now left|right]. symmetry. apply (H 0%nat); [cbn; lia|exact n].
      * intros i Hi Hz. apply (H (S i)); [cbn; lia|exact Hz].
Qed.

Theorem C58_logp : forall (lt_ : list Z -> list Z -> bool) (ms sample : list (list Z)) (n : nat) (count : list Z -> nat) (i : nat),
  (forall s m, In s sample -> In m ms -> length s = n /\ length m = n) ->
  (forall s z, In s sample -> In z s -> z = (-1)%Z \/ z = 0%Z \/ z = 1%Z) ->
  (** count s: number of model samples matching the observed spins of s *)
  (forall s, In s sample -> exists l, NoDup l /\ length l = count s /\
      forall t, In t l <-> (t < length ms)%nat /\ matches s (nth t ms [])) ->
  (i < length sample)%nat ->
  exists L, logp lt_ ms sample = Ok L /\ length L = length sample /\
    nth i L NegInf = np_log (INR (count (nth i sample [])) / INR (length ms)).
Proof.
  intros lt_ ms sample n count i Hl Hv Hc Hi.
  rewrite logp_ok.
  2: { apply forallb_forall. intros s Hs. apply forallb_forall. intros z Hz. destruct (Hv s z Hs Hz) as [->|[->| ->]]; reflexivity. }
  eexists. split; [reflexivity|]. rewrite map_length. split; [reflexivity|].
  set (F := fun s => np_log (INR (length (filter (agrees s) ms)) / INR (length ms))).
  rewrite (nth_indep _ NegInf (F [])) by (rewrite map_length; lia). rewrite (map_nth F). unfold F. do 3 f_equal.
  set (s := nth i sample []). assert (Hs : In s sample) by (now apply nth_In).
  destruct (Hc s Hs) as (l & ND & <- & Hin).
  assert (G : forall f (X : list (list Z)), length (filter f X) = length (filter (fun t => f (nth t X [])) (seq 0 (length X)))).
  { clear. intros f X. rewrite (list_as_map (A := list Z) [] X) at 1.
    assert (G : forall l, length (filter f (map (fun t => nth t X []) l)) = length (filter (fun t => f (nth t X [])) l)).
    { induction l as [|a l IH]; cbn; [reflexivity|]. destruct (f (nth a X [])); cbn; now rewrite IH. }
    apply G. }
  rewrite G. apply Permutation.Permutation_length, Permutation.NoDup_Permutation; [apply NoDup_filter, seq_NoDup|exact ND|].
  intros t. rewrite filter_In, Hin, in_seq. split.
  - intros [Ht Ha]. split; [lia|]. apply agrees_matches; [|exact Ha].
    destruct (Hl s (nth t ms []) Hs) as [-> ->]; [apply nth_In; lia|reflexivity].
  - intros [Ht Ha]. split; [lia|]. apply agrees_matches; [|exact Ha].
    destruct (Hl s (nth t ms []) Hs) as [-> ->]; [apply nth_In; lia|reflexivity].
Qed.
Print Assumptions C58_logp.

(** Values outside -1, 0, 1 are rejected; a single state given as a 1-D array always
    raises. *)
Theorem C58_rejects : forall (lt_ : list Z -> list Z -> bool) (ms sample : list (list Z)) s z,
  In s sample -> In z s -> z <> (-1)%Z -> z <> 0%Z -> z <> 1%Z -> logp lt_ ms sample = Err AssertionError.
Proof.
  intros lt_ ms sample s z Hs Hz H1 H2 H3. unfold logp. replace (forallb _ sample) with false; [reflexivity|].
  symmetry. apply not_true_is_false. intros E. rewrite forallb_forall in E. specialize (E s Hs). cbn beta in E. rewrite forallb_forall in E.
  specialize (E z Hz). cbn [existsb] in E. rewrite !Bool.orb_true_iff, !Z.eqb_eq in E. destruct E as [E|[E|[E|E]]]; [congruence|congruence|congruence|discriminate].
Qed.
Print Assumptions C58_rejects.

Theorem C58_one_state_refuted : forall sample : list Z, logp_1d sample = Err UnboundLocalError.
Proof. reflexivity. Qed.
Print Assumptions C58_one_state_refuted.

Example C58_example : forall lt_, exists L, logp lt_ [[1; 1]; [1; -1]; [-1; 1]]%Z [[1; 0]; [1; 0]]%Z = Ok L /\ nth 1 L NegInf = np_log (INR 2 / INR 3).
Proof.
  intros lt_. rewrite logp_ok by reflexivity. eexists. split; reflexivity.
Qed.

(** ** C59, C60 *)
(** The functions calc_observables and p of the pairwise equation file. *)
Definition file_observables (n : nat) (sym : bool) (params : list R) : list R :=
  match pairwise n sym with
  | Ok f => match run_calc_observables f params with Ok C => C | Err _ => [] end
  | Err _ => []
  end.

Definition ising_states (n : nat) (sym : bool) : list (list R) := map (map IZR) (all_states (if sym then [-1; 1]%Z else [0; 1]%Z) n).

Lemma ising_states_length n sym s : In s (ising_states n sym) -> length s = n.
Proof.
  unfold ising_states. intros H. apply in_map_iff in H. destruct H as (r & <- & Hr). rewrite map_length. now apply all_states_spec in Hr.
Qed.

Lemma ising_states_all n sym : ising_states n sym = all_states [if sym then -1 else 0; 1] n.
Proof.
  unfold ising_states. induction n as [|n IH]; [reflexivity|]. cbn [all_states]. rewrite <- IH.
  destruct sym; cbn [flat_map]; rewrite !map_app, !map_map; cbn [map]; reflexivity.
Qed.

Lemma ising_states_ne n sym : ising_states n sym <> [].
Proof.
  rewrite ising_states_all. assert (H : In (repeat 1 n) (all_states [if sym then -1 else 0; 1] n)).
  { apply all_states_spec. rewrite repeat_length. split; [reflexivity|]. intros x Hx. apply repeat_spec in Hx. subst. right. now left. }
  intros E. rewrite E in H. destruct H.
Qed.

Lemma nthR_obs_field s i : (i < length s)%nat -> nthR (ising_obs s) i = nthR s i.
Proof. intros H. unfold nthR, ising_obs. now rewrite app_nth1. Qed.

Lemma nthR_obs_pair s i j : (i < j)%nat -> (j < length s)%nat -> nthR (ising_obs s) (length s + pair_index (length s) i j) = nthR s i * nthR s j.
Proof.
  intros Hij Hj. unfold nthR, ising_obs. rewrite app_nth2 by lia. replace (length s + pair_index (length s) i j - length s)%nat with (pair_index (length s) i j) by lia.
  rewrite (pairs_as_map 0 s), map_map. cbn [fst snd].
  assert (E := pair_index_spec (length s) i j Hij Hj).
  erewrite nth_error_nth; [reflexivity|]. erewrite map_nth_error; [|exact E]. reflexivity.
Qed.

Lemma ising_obs_length s : length (ising_obs s) = (length s + length s * (length s - 1) / 2)%nat.
Proof. unfold ising_obs. rewrite app_length, map_length. rewrite (pairs_as_map 0 s), map_length, pairs_seq_length. reflexivity. Qed.

Lemma file_observables_ok n sym params : (0 < n)%nat -> length params = (n + n * (n - 1) / 2)%nat ->
  length (file_observables n sym params) = (n + n * (n - 1) / 2)%nat /\
  forall k, (k < n + n * (n - 1) / 2)%nat ->
    nthR (file_observables n sym params) k =
    expectation (boltzmann (ising_energy n params) (ising_states n sym)) (ising_states n sym) (fun s => nthR (ising_obs s) k).
Proof.
  intros Hn Hp. destruct (C22_pairwise n sym params Hn Hp) as (f & P & C & E1 & _ & _ & _ & _ & E2 & LC & H1 & H2).
  unfold file_observables. rewrite E1, E2. split; [exact LC|]. intros k Hk. fold (ising_states n sym) in H1, H2.
  destruct (Nat.lt_ge_cases k n) as [Hkn|Hkn].
  - rewrite H1 by assumption. apply sumf_ext_in. intros s Hs. rewrite nthR_obs_field; [reflexivity|]. now rewrite (ising_states_length n sym s Hs).
  - destruct (pair_index_nth n (k - n) ltac:(lia)) as (Ek & Hij & Hj). set (p := nth (k - n) (pairs (seq 0 n)) (0%nat, 0%nat)) in *.
    replace k with (n + pair_index n (fst p) (snd p))%nat by lia. rewrite H2 by assumption.
    apply sumf_ext_in. intros s Hs. pose proof (ising_states_length n sym s Hs) as Ls.
    pose proof (nthR_obs_pair s (fst p) (snd p) Hij ltac:(lia)) as E. rewrite Ls in E. now rewrite E.
Qed.

Lemma sumR_sqr_nonneg (l : list R) : 0 <= sumR (map (fun x => x * x) l).
Proof.
  rewrite sumR_map. apply sumf_nonneg. intros a _. apply Rle_0_sqr.
Qed.

(** A zero of the function handed to the root finder, or a zero of the one handed to
    the minimiser, is exactly a bounded parameter vector whose Boltzmann distribution
    has the given means and pair correlations. *)
Theorem C59_solution : forall (n : nat) (sym : bool) (max : R) (c params : list R),
  (0 < n)%nat -> length params = (n + n * (n - 1) / 2)%nat -> length c = (n + n * (n - 1) / 2)%nat ->
  let states := ising_states n sym in
  let prob := boltzmann (ising_energy n params) states in
  let solved := (forall x, In x params -> Rabs x <= max) /\
    (forall i, (i < n)%nat -> expectation prob states (fun s => nthR s i) = nthR c i) /\
    (forall i j, (i < j)%nat -> (j < n)%nat -> expectation prob states (fun s => nthR s i * nthR s j) = nthR c (n + pair_index n i j)) in
  (enumerate_root_f (file_observables n sym) (Some max) c params = Ok (map (fun _ => 0) c) <-> solved) /\
  (enumerate_min_f (file_observables n sym) (Some max) c params = Ok 0 <-> solved).
Proof.
  intros n sym max c params Hn Hp Hc states prob solved.
  destruct (file_observables_ok n sym params Hn Hp) as [LF HF]. fold states in HF. fold prob in HF.
  assert (Heq : (file_observables n sym params = c) <->
     ((forall i, (i < n)%nat -> expectation prob states (fun s => nthR s i) = nthR c i) /\
      (forall i j, (i < j)%nat -> (j < n)%nat -> expectation prob states (fun s => nthR s i * nthR s j) = nthR c (n + pair_index n i j)))).
  { assert (Q1 : forall i, (i < n)%nat -> expectation prob states (fun s => nthR s i) = nthR (file_observables n sym params) i).
    { intros i Hi. rewrite HF by lia. apply sumf_ext_in. intros s Hs. rewrite nthR_obs_field; [reflexivity|]. now rewrite (ising_states_length n sym s Hs). }
    assert (Q2 : forall i j, (i < j)%nat -> (j < n)%nat -> expectation prob states (fun s => nthR s i * nthR s j) = nthR (file_observables n sym params) (n + pair_index n i j)).
    { intros i j Hij Hj. pose proof (pair_index_lt n i j Hij Hj). rewrite HF by lia. apply sumf_ext_in. intros s Hs.
      pose proof (ising_states_length n sym s Hs) as Ls. pose proof (nthR_obs_pair s i j Hij ltac:(lia)) as E. rewrite Ls in E. now rewrite E. }
    split.
    - intros <-. split; [exact Q1|exact Q2].
    - intros [A1 A2]. apply (nth_ext _ _ 0 0); [lia|]. intros k Hk. rewrite LF in Hk. change (nthR (file_observables n sym params) k = nthR c k).
      destruct (Nat.lt_ge_cases k n) as [Hkn|Hkn]; [now rewrite <- Q1, A1|].
      destruct (pair_index_nth n (k - n) ltac:(lia)) as (Ek & Hij & Hj). set (p := nth (k - n) (pairs (seq 0 n)) (0%nat, 0%nat)) in *.
      replace k with (n + pair_index n (fst p) (snd p))%nat by lia. now rewrite <- Q2, A2. }
  assert (Hc0 : c <> []) by (intros ->; cbn in Hc; lia).
  assert (B30 : 0 < 10 ^ 30) by (apply pow_lt; lra).
  unfold solved. rewrite <- Heq. split.
  - unfold enumerate_root_f. destruct (exceeds (Some max) params) eqn:Ex.
    + split; [intros H; injection H as H; now apply big_not_zero in H|]. intros [H _]. apply exceeds_spec in H. congruence.
    + rewrite vsub_zero by lia. split; [|tauto]. intros ->. split; [now apply exceeds_spec|reflexivity].
  - unfold enumerate_min_f. destruct (exceeds (Some max) params) eqn:Ex.
    + split; [intros H; exfalso; assert (H' : 10 ^ 30 = 0) by congruence; lra|]. intros [H _]. apply exceeds_spec in H. congruence.
    + unfold vsub. rewrite LF, Hc, Nat.eqb_refl. cbn [bind]. split.
      * intros H. split; [now apply exceeds_spec|].
        assert (H' : sqrt (sumR (map (fun x => x * x) (map (fun p => fst p - snd p) (combine (file_observables n sym params) c)))) = 0) by congruence.
        assert (S0 : forall l : list R, 0 <= sumR (map (fun x => x * x) l)) by exact sumR_sqr_nonneg.
        apply sqrt_eq_0 in H'; [|apply S0].
        assert (G : forall x y : list R, length x = length y -> sumR (map (fun x => x * x) (map (fun p => fst p - snd p) (combine x y))) = 0 -> x = y).
        { clear. induction x as [|a x IH]; intros [|b y] Hl H; cbn in Hl; try discriminate; [reflexivity|].
          rewrite map_map, sumR_map in H. cbn [combine] in H. rewrite sumf_cons in H. cbn [fst snd] in H.
          assert (S1 : 0 <= sumf (combine x y) (fun p : R * R => (fst p - snd p) * (fst p - snd p))) by (apply sumf_nonneg; intros; apply Rle_0_sqr).
          pose proof (Rle_0_sqr (a - b)) as Q. unfold Rsqr in Q.
          f_equal; [|apply IH; [lia|rewrite map_map, sumR_map; lra]]. assert (E : (a - b) * (a - b) = 0) by lra. apply Rmult_integral in E. destruct E; lra. }
        apply G; [lia|exact H'].
      * intros [_ ->]. f_equal. rewrite map_map, sumR_map. rewrite sumf_zero; [apply sqrt_0|].
        intros [a b] Hab. assert (a = b) as ->; [|cbn; ring]. clear - Hab. induction c as [|x c IH]; [destruct Hab|]. destruct Hab as [H|H]; [congruence|auto].
Qed.
Print Assumptions C59_solution.

(** At a solution calc_p is the unique distribution of largest entropy with the given
    means and pair correlations. *)
Theorem C59_max_entropy : forall (n : nat) (sym : bool) (max : R) (c params : list R) (q : list R -> R),
  (0 < n)%nat -> length params = (n + n * (n - 1) / 2)%nat -> length c = (n + n * (n - 1) / 2)%nat ->
  let states := ising_states n sym in
  enumerate_root_f (file_observables n sym) (Some max) c params = Ok (map (fun _ => 0) c) ->
  distribution q states ->
  (forall i, (i < n)%nat -> expectation q states (fun s => nthR s i) = nthR c i) ->
  (forall i j, (i < j)%nat -> (j < n)%nat -> expectation q states (fun s => nthR s i * nthR s j) = nthR c (n + pair_index n i j)) ->
  exists f P, pairwise n sym = Ok f /\ run_p f params = Ok (map Some P) /\ length P = length states /\
    entropy q states <= - sumR (map (fun p => p * ln p) P) /\
    (entropy q states = - sumR (map (fun p => p * ln p) P) -> map q states = P).
Proof.
  intros n sym max c params q Hn Hp Hc states Hroot Hq Q1 Q2.
  destruct (C59_solution n sym max c params Hn Hp Hc) as [HS _]. apply HS in Hroot. destruct Hroot as [_ [S1 S2]]. clear HS.
  fold states in S1, S2. set (prob := boltzmann (ising_energy n params) states) in *.
  destruct (C22_pairwise n sym params Hn Hp) as (f & P & C & E1 & E2 & EP & _). fold (ising_states n sym) in EP. fold states in EP. fold prob in EP.
  exists f, P. split; [exact E1|]. split; [exact E2|]. split; [subst P; apply map_length|].
  assert (Hlen : forall s, In s states -> length s = n) by apply ising_states_length.
  assert (EE : forall w : list R -> R, expectation w states (ising_energy n params) = expectation w states (fun s => - dot (ising_obs s) params)).
  { intros w. apply sumf_ext_in. intros s Hs. rewrite ising_energy_dot; auto. }
  assert (HE : expectation q states (ising_energy n params) = expectation prob states (ising_energy n params)).
  { rewrite !EE. assert (Ho : forall s, In s states -> length (ising_obs s) = (n + n * (n - 1) / 2)%nat) by (intros s Hs; rewrite ising_obs_length; now rewrite (Hlen s Hs)).
    rewrite !(expectation_dot _ states ising_obs params _ Hp Ho). f_equal. apply sumf_ext_in. intros k Hk. apply in_seq in Hk. f_equal.
    destruct (Nat.lt_ge_cases k n) as [Hkn|Hkn].
    - assert (G : forall w : list R -> R, expectation w states (fun s => nthR (ising_obs s) k) = expectation w states (fun s => nthR s k)).
      { intros w. apply sumf_ext_in. intros s Hs. rewrite nthR_obs_field; [reflexivity|]. now rewrite (Hlen s Hs). }
      rewrite !G. now rewrite Q1, S1.
    - destruct (pair_index_nth n (k - n) ltac:(lia)) as (Ek & Hij & Hj). set (p := nth (k - n) (pairs (seq 0 n)) (0%nat, 0%nat)) in *.
      replace k with (n + pair_index n (fst p) (snd p))%nat by lia.
      assert (G : forall w : list R -> R, expectation w states (fun s => nthR (ising_obs s) (n + pair_index n (fst p) (snd p))) = expectation w states (fun s => nthR s (fst p) * nthR s (snd p))).
      { intros w. apply sumf_ext_in. intros s Hs. pose proof (nthR_obs_pair s (fst p) (snd p) Hij ltac:(rewrite (Hlen s Hs); lia)) as E. rewrite (Hlen s Hs) in E. now rewrite E. }
      rewrite !G. now rewrite Q2, S2. }
  destruct (boltzmann_max_entropy (ising_energy n params) states (ising_states_ne n sym) q Hq HE) as [M1 M2]. fold prob in M1, M2.
  assert (Ent : - sumR (map (fun p => p * ln p) P) = entropy prob states).
  { unfold entropy. f_equal. rewrite EP, sumR_map, sumf_map. reflexivity. }
  rewrite Ent. split; [exact M1|]. intros E. rewrite EP. apply map_ext_in. now apply M2.
Qed.
Print Assumptions C59_max_entropy.

(** The observables determine the parameters, in both bases. *)
Theorem C60_unique : forall (n : nat) (sym : bool) (p q : list R),
  (0 < n)%nat -> length p = (n + n * (n - 1) / 2)%nat -> length q = (n + n * (n - 1) / 2)%nat ->
  file_observables n sym p = file_observables n sym q -> p = q.
Proof.
  intros n sym p q Hn Hp Hq H. set (states := ising_states n sym).
  destruct (file_observables_ok n sym p Hn Hp) as [_ Fp]. destruct (file_observables_ok n sym q Hn Hq) as [_ Fq]. fold states in Fp, Fq.
  assert (Hlen : forall s, In s states -> length s = n) by apply ising_states_length.
  assert (Ho : forall s, In s states -> length (ising_obs s) = (n + n * (n - 1) / 2)%nat) by (intros s Hs; rewrite ising_obs_length; now rewrite (Hlen s Hs)).
  assert (EE : forall (w : list R -> R) (r : list R), length r = (n + n * (n - 1) / 2)%nat -> expectation w states (ising_energy n r) = expectation w states (fun s => - dot (ising_obs s) r)).
  { intros w r Hr. apply sumf_ext_in. intros s Hs. rewrite ising_energy_dot; auto. }
  assert (G : forall r, length r = (n + n * (n - 1) / 2)%nat ->
    expectation (boltzmann (ising_energy n p) states) states (ising_energy n r) = expectation (boltzmann (ising_energy n q) states) states (ising_energy n r)).
  { intros r Hr. rewrite !EE by exact Hr. rewrite !(expectation_dot _ states ising_obs r _ Hr Ho). f_equal. apply sumf_ext_in.
    intros k Hk. apply in_seq in Hk. f_equal. rewrite <- Fp, <- Fq by lia. now rewrite H. }
  pose proof (boltzmann_unique (ising_energy n p) (ising_energy n q) states (ising_states_ne n sym) (G p Hp) (G q Hq)) as B.
  pose proof (boltzmann_eq_energy _ _ states (ising_states_ne n sym) B) as E.
  unfold states in E at 1. rewrite ising_states_all in E.
  refine (ising_energy_unique (if sym then -1 else 0) 1 n p q _ _ Hp Hq E). destruct sym; lra.
Qed.
Print Assumptions C60_unique.

(** Constraints computed from parameters hJ: every exact solution is hJ. *)
Theorem C60_recovers : forall (n : nat) (sym : bool) (max : R) (hJ params : list R),
  (0 < n)%nat -> length hJ = (n + n * (n - 1) / 2)%nat -> length params = (n + n * (n - 1) / 2)%nat ->
  (forall x, In x hJ -> Rabs x <= max) ->
  let c := file_observables n sym hJ in
  (enumerate_root_f (file_observables n sym) (Some max) c params = Ok (map (fun _ => 0) c) <-> params = hJ).
Proof.
  intros n sym max hJ params Hn Hh Hp Hb c. destruct (file_observables_ok n sym hJ Hn Hh) as [Lc _].
  destruct (file_observables_ok n sym params Hn Hp) as [Lp _]. fold c in Lc.
  unfold enumerate_root_f. split.
  - destruct (exceeds (Some max) params).
    + intros H. injection H as H. apply big_not_zero in H; [destruct H|]. intros E. rewrite E in Lc. cbn in Lc. lia.
    + intros H. apply vsub_zero in H; [|lia]. now apply (C60_unique n sym).
  - intros ->. apply exceeds_spec in Hb. rewrite Hb. now apply vsub_zero.
Qed.
Print Assumptions C60_recovers.

Example C60_example : enumerate_root_f (file_observables 2 true) (Some 50) (file_observables 2 true [1; 2; -3]) [1; 2; -3] = Ok (map (fun _ => 0) (file_observables 2 true [1; 2; -3])).
Proof.
  apply C60_recovers; try reflexivity; [lia|]. intros x [<-|[<-|[<-|[]]]]; unfold Rabs; destruct Rcase_abs; lra.
Qed.

Example C59_example : distribution (fun _ => 1 / 4) (ising_states 2 true) /\
  forall i, (i < 2)%nat -> expectation (fun _ => 1 / 4) (ising_states 2 true) (fun s => nthR s i) = nthR [0; 0; 0] i.
Proof.
  split; [split; [intros; lra|unfold sumf; cbn; lra]|]. intros [|[|i]] Hi; try lia; unfold expectation, sumf; cbn; lra.
Qed.

(** ** C64 *)
(** With data the solver starts at zero, or the given guess, and uses the given
    constraints when there are some. *)
Theorem C64_data : forall (obs : list Z -> list R) (N ncols : nat) (rows : list (list Z)) (g : list R) (c : list R), length g = N ->
  exists sv c0, basic_setup obs N (SData ncols rows) = Ok sv /\ sv_constraints sv = Some c0 /\ length c0 = N /\
    (forall k, (k < N)%nat -> nthR c0 k = sumf rows (fun r => nthR (obs r) k) / INR (length rows)) /\
    enumerate_start sv None None = Ok (repeat 0 N, c0) /\ enumerate_start sv (Some g) None = Ok (g, c0) /\
    enumerate_start sv None (Some c) = Ok (repeat 0 N, c) /\ enumerate_start sv (Some g) (Some c) = Ok (g, c).
Proof.
  intros obs N ncols rows g c Hg. do 2 eexists. split; [reflexivity|]. split; [reflexivity|]. unfold range. rewrite map_length, seq_length.
  split; [reflexivity|]. split; [intros k Hk; unfold nthR at 1; now rewrite nth_map_seq|].
  unfold enumerate_start, range. cbn [sv_constraints bind]. rewrite map_length, seq_length, Hg, Nat.eqb_refl. auto.
Qed.
Print Assumptions C64_data.

(** Built from a system size the solver cannot be run, not even with explicit
    constraints and initial guess. *)
Theorem C64_refuted : forall (obs : list Z -> list R) (N : nat) (z : Z) (sv : solver) (guess constraints : option (list R)),
  basic_setup obs N (SInt z) = Ok sv \/ basic_setup obs N SNone = Ok sv ->
  enumerate_start sv guess constraints = Err AttributeError.
Proof.
  intros obs N z sv guess constraints [H|H]; cbn in H.
  - destruct (1 <? z)%Z; [|discriminate]. injection H as <-. reflexivity.
  - injection H as <-. reflexivity.
Qed.
Print Assumptions C64_refuted.

Example C64_example : exists sv, basic_setup (fun r => map IZR r) 6 (SInt 3) = Ok sv.
Proof. eexists. reflexivity. Qed.
