(** * The Swendsen-Wang sampler (C82). *)
From Coq Require Import Permutation Relations.
From Coquelicot Require Import Coquelicot.
From Verif Require Import Prelude PreludeFacts Spec M_Index M_Params M_Sampler M_Wolff P_Index P_Energy P_Energy2 P_Params P_RMF P_Sampler P_Metro P_Ising P_Lattice P_Wolff P_Wolff2 P_Wolff3 P_Comp Props_Comp P_SW.
Import ListNotations.
Local Open Scope R_scope.

(** ** Specification *)
(** Coupling between two sites, stored for the pair in increasing order. *)
Definition sw_coupling (n : nat) (v : list R) (i j : nat) : R := nthR v (pair_index n (Nat.min i j) (Nat.max i j)).

(** The random number of the pair {i,j} activates its bond: the coupling is satisfied and
    the number is below 1 - exp(-2 |J_ij|). *)
Definition sw_active (n : nat) (v : list R) (s : list Z) (r : list R) (i j : nat) : Prop :=
  (i < n)%nat /\ (j < n)%nat /\ i <> j /\
  0 < sw_coupling n v i j * (IZR (nth i s 0%Z) * IZR (nth j s 0%Z)) /\
  nthR r (pair_index n (Nat.min i j) (Nat.max i j)) < 1 - exp (-2 * Rabs (sw_coupling n v i j)).

(** Python sets may be popped and iterated in any order. *)
Definition any_order (o : set_order) : Prop := (forall k l, l <> [] -> In (pick o k l) l) /\ (forall k l, Permutation (order o k l) l).

(** ** Lemmas *)
Lemma symmat_coupling_sw n v i j : i <> j -> symmat n v i j = sw_coupling n v i j.
Proof.
  intros N. unfold symmat, sw_coupling. destruct (Nat.ltb_spec i j) as [H|H]; [now rewrite Nat.min_l, Nat.max_r by lia|].
  destruct (Nat.ltb_spec j i); [|lia]. now rewrite Nat.min_r, Nat.max_l by lia.
Qed.

Lemma pair_index_lt n i j : (i < j)%nat -> (j < n)%nat -> (pair_index n i j < n * (n - 1) / 2)%nat.
Proof. intros H1 H2. rewrite <- pairs_seq_length. apply nth_error_Some. rewrite pair_index_spec by assumption. discriminate. Qed.

Lemma sample_bonds_at n v s r i j : spins n s -> length v = (n * (n - 1) / 2)%nat -> (i < j)%nat -> (j < n)%nat ->
  let p := map (fun c => 1 - exp (-2 * nthR v c * IZR (nth c (pairwise_prod s) 0%Z))) (range (length v)) in
  (sw_active n v s r i j /\ nthR (sample_bonds p r s v) (pair_index n i j) = 1) \/
  (~ sw_active n v s r i j /\ nthR (sample_bonds p r s v) (pair_index n i j) = 0).
Proof.
  intros [Hs Sp] Hv Hij Hj p. set (k := pair_index n i j). assert (Hk : (k < n * (n - 1) / 2)%nat) by (now apply pair_index_lt).
  assert (En : nth k (pairs (seq 0 n)) (0, 0)%nat = (i, j)) by (apply nth_error_nth; now apply pair_index_spec).
  pose (Fb := fun (counter : nat) (ij : nat * nat) => let '(i, j) := ij in
         let ss := (nth i s 0 * nth j s 0)%Z in
         if Rlt_dec (nthR v counter) 0 then
           if Z.ltb ss 0 then if Rlt_dec (nthR r counter) (nthR p counter) then 1 else 0 else 0
         else if Rlt_dec 0 (nthR v counter) then
           if Z.ltb 0 ss then if Rlt_dec (nthR r counter) (nthR p counter) then 1 else 0 else 0
         else 0).
  assert (E : nthR (sample_bonds p r s v) k = Fb k (i, j)).
  { unfold sample_bonds. rewrite loop_ij_pairs, Hs. replace (length v) with (length (pairs (seq 0 n))) by (rewrite pairs_seq_length; lia).
    rewrite (map_ext _ (fun ck => Fb (fst ck) (snd ck))) by (intros [c [a b]]; reflexivity). rewrite (map_index _ Fb (0, 0)%nat).
    unfold nthR, range. rewrite nth_map_seq by (rewrite pairs_seq_length; assumption). now rewrite En. }
  rewrite E. unfold Fb. assert (Ep : nthR p k = 1 - exp (-2 * nthR v k * (IZR (nth i s 0%Z) * IZR (nth j s 0%Z)))).
  { unfold p, nthR at 1, range. rewrite nth_map_seq by lia. do 3 f_equal. unfold pairwise_prod. rewrite loop_ij_pairs, Hs.
    rewrite (nth_indep _ 0%Z ((fun p => (nth (fst p) s 0 * nth (snd p) s 0)%Z) (0, 0)%nat)) by (rewrite map_length, pairs_seq_length; lia).
    rewrite (map_nth (fun p => (nth (fst p) s 0 * nth (snd p) s 0)%Z)), En. cbn [fst snd]. apply mult_IZR. }
  rewrite Ep. assert (Si : spin (nth i s 0%Z)) by (apply Forall_nth_in; [assumption|lia]). assert (Sj : spin (nth j s 0%Z)) by (apply Forall_nth_in; [assumption|lia]).
  assert (EC : sw_coupling n v i j = nthR v k) by (unfold sw_coupling; now rewrite Nat.min_l, Nat.max_r by lia).
  unfold sw_active. rewrite EC. replace (pair_index n (Nat.min i j) (Nat.max i j)) with k by (unfold k; now rewrite Nat.min_l, Nat.max_r by lia).
  assert (X : IZR (nth i s 0%Z) * IZR (nth j s 0%Z) = 1 /\ (nth i s 0 * nth j s 0)%Z = 1%Z \/ IZR (nth i s 0%Z) * IZR (nth j s 0%Z) = -1 /\ (nth i s 0 * nth j s 0)%Z = (-1)%Z).
  { unfold spin in Si, Sj. destruct Si as [-> | ->], Sj as [-> | ->]; cbn; [left|right|right|left]; split; try reflexivity; lra. }
  set (J := nthR v k). set (u := nthR r k).
  destruct X as [[-> ->]|[-> ->]]; cbn [Z.ltb Z.compare]; destruct (Rlt_dec J 0) as [J0|J0].
  - right. split; [intros (_ & _ & _ & C & _); lra|reflexivity].
  - destruct (Rlt_dec 0 J) as [J1|J1]; [|right; split; [intros (_ & _ & _ & C & _); lra|reflexivity]].
    rewrite Rabs_pos_eq by lra. replace (-2 * J * 1) with (-2 * J) by ring. destruct (Rlt_dec u _) as [C|C]; [left|right]; (split; [|reflexivity]).
    + repeat split; lia || lra.
    + intros (_ & _ & _ & _ & D). contradiction.
  - rewrite Rabs_left by lra. replace (-2 * J * -1) with (-2 * - J) by ring. destruct (Rlt_dec u _) as [C|C]; [left|right]; (split; [|reflexivity]).
    + repeat split; lia || lra.
    + intros (_ & _ & _ & _ & D). contradiction.
  - right. split; [intros (_ & _ & _ & C & _); lra|destruct (Rlt_dec 0 J); reflexivity].
Qed.

Lemma sample_bonds_length n v s r p : length s = n -> length v = (n * (n - 1) / 2)%nat -> length (sample_bonds p r s v) = length v.
Proof. intros Hs Hv. unfold sample_bonds, range. rewrite map_length, combine_length, seq_length, loop_ij_pairs, Hs, pairs_seq_length. lia. Qed.

Lemma sw_active_sym n v s r i j : sw_active n v s r i j -> sw_active n v s r j i.
Proof.
  unfold sw_active, sw_coupling. rewrite (Nat.min_comm j i), (Nat.max_comm j i). intros (H1 & H2 & H3 & H4 & H5). repeat split; try assumption; [congruence|]. now rewrite (Rmult_comm (IZR (nth j s 0%Z))).
Qed.

(** ** C82 *)
(** The bonds drawn in one step, one number per pair: exactly the active ones are set. *)
Theorem C82_bonds : forall (T : Type) (g : rng T) n v s t, spins n s -> length v = (n * (n - 1) / 2)%nat ->
  let r := fst (rand_vec g (length v) t) in
  let b := fst (sw_bonds g v s t) in
  snd (sw_bonds g v s t) = snd (rand_vec g (length v) t) /\ length b = length v /\
  forall i j, (i < j)%nat -> (j < n)%nat ->
    (nthR b (pair_index n i j) = 1 <-> sw_active n v s r i j) /\ (nthR b (pair_index n i j) = 0 <-> ~ sw_active n v s r i j).
Proof.
  intros T g n v s t Hs Hv. unfold sw_bonds. destruct (rand_vec g (length v) t) as [r t'] eqn:E. cbn [fst snd]. split; [reflexivity|]. split.
  - apply (sample_bonds_length n); [apply Hs|assumption].
  - intros i j Hij Hj. destruct (sample_bonds_at n v s r i j Hs Hv Hij Hj) as [[A B]|[A B]]; rewrite B; split; split; intros; try assumption; try reflexivity; try contradiction; lra.
Qed.
Print Assumptions C82_bonds.

(** The clusters contain every site exactly once; two sites share a cluster iff a chain of
    active bonds joins them. *)
Theorem C82_clusters : forall (T : Type) (g : rng T) o n v s t, any_order o -> (1 <= n)%nat -> spins n s -> length v = (n * (n - 1) / 2)%nat ->
  let r := fst (rand_vec g (length v) t) in
  exists cs, sw_get_clusters g o v s t = Ok (cs, snd (rand_vec g (length v) t)) /\ Permutation (concat cs) (range n) /\
    (forall c, In c cs -> c <> []) /\
    forall c i, In c cs -> In i c -> forall j, In j c <-> clos_refl_trans nat (sw_active n v s r) i j.
Proof.
  intros T g o n v s t Ho Hn Hs Hv r. assert (HB := C82_bonds T g n v s t Hs Hv). cbv zeta in HB. unfold sw_get_clusters.
  destruct (sw_bonds g v s t) as [b t'] eqn:EB. cbn [fst snd] in HB. destruct HB as (Et & Lb & HB).
  rewrite (squareform_vec_ok n) by (try assumption; lia). cbn [bind]. rewrite mk_mat_length.
  destruct (clusters_ok n (repeat 0 n) v Hn (repeat_length _ _) Hv o b Ho Lb) as (cs & E & P & _ & _ & C). fold (badj n b). rewrite E. cbn [bind]. exists cs. rewrite Et. split; [reflexivity|]. split; [assumption|].
  rewrite Forall_forall in C. split; [intros c Hc; apply (C c Hc)|]. intros c i Hc Hi j. destruct (C c Hc) as (_ & HR & _ & _ & B). rewrite (B i j Hi).
  assert (Q : forall a b', (a < length (badj n b))%nat /\ (b' < length (badj n b))%nat /\ entry (badj n b) a b' <> 0 <-> sw_active n v s r a b').
  { intros a b'. unfold badj. rewrite mk_mat_length. split.
    - intros (H1 & H2 & H3). rewrite entry_mk_mat in H3 by assumption. unfold symmat in H3. destruct (Nat.ltb_spec a b') as [L|L].
      + destruct (HB a b' L H2) as [HB1 HB2]. destruct (sample_bonds_at n v s r a b' Hs Hv L H2) as [[A _]|[A _]]; [exact A|]. exfalso. apply H3. now apply HB2.
      + destruct (Nat.ltb_spec b' a) as [L'|L']; [|congruence]. apply sw_active_sym. destruct (HB b' a L' H1) as [HB1 HB2].
        destruct (sample_bonds_at n v s r b' a Hs Hv L' H1) as [[A _]|[A _]]; [exact A|]. exfalso. apply H3. now apply HB2.
    - intros A. assert (A' := A). destruct A as (H1 & H2 & H3 & _). split; [assumption|]. split; [assumption|]. rewrite entry_mk_mat by assumption. unfold symmat.
      destruct (Nat.ltb_spec a b') as [L|L]; [rewrite (proj2 (proj1 (HB a b' L H2)) A'); lra|].
      destruct (Nat.ltb_spec b' a) as [L'|L']; [|lia]. rewrite (proj2 (proj1 (HB b' a L' H1)) (sw_active_sym _ _ _ _ _ _ A')). lra. }
  unfold bond_connected. clear - Q. revert i j. assert (M : forall (A B : nat -> nat -> Prop), (forall x y, A x y -> B x y) -> forall x y, clos_refl_trans nat A x y -> clos_refl_trans nat B x y).
  { intros A B H x y R. induction R; [apply rt_step; now apply H|apply rt_refl|eapply rt_trans; eassumption]. }
  intros i j. split; apply M; intros x y; apply Q.
Qed.
Print Assumptions C82_clusters.

(** One step always returns a spin state; every cluster is reversed as a whole or not at
    all. *)
Theorem C82_one_step : forall (T : Type) (g : rng T) o n h v s t, any_order o -> (1 <= n)%nat -> spins n s -> length v = (n * (n - 1) / 2)%nat ->
  let r := fst (rand_vec g (length v) t) in
  exists s' t', sw_one_step g o h v s t = Ok (s', t') /\ spins n s' /\
    forall i j, (i < n)%nat -> clos_refl_trans nat (sw_active n v s r) i j -> (nth i s' 0 * nth j s' 0 = nth i s 0 * nth j s 0)%Z.
Proof.
  intros T g o n h v s t Ho Hn Hs Hv r. destruct (C82_clusters T g o n v s t Ho Hn Hs Hv) as (cs & E & P & Ne & C). fold r in C.
  unfold sw_one_step. rewrite E. cbn [bind]. set (t1 := snd (rand_vec g (length v) t)).
  destruct (flip_clusters g h s cs t1) as [s' t'] eqn:F. exists s', t'. split; [reflexivity|]. split.
  - assert (X := flip_clusters_spins n h g cs s t1 Hs). now rewrite F in X.
  - assert (K : forall cs s0 t0, (forall c i j, In c cs -> clos_refl_trans nat (sw_active n v s r) i j -> (In i c <-> In j c)) ->
      forall i j, clos_refl_trans nat (sw_active n v s r) i j -> (nth i (fst (flip_clusters g h s0 cs t0)) 0 * nth j (fst (flip_clusters g h s0 cs t0)) 0 = nth i s0 0 * nth j s0 0)%Z).
    { clear. induction cs as [|c cs IH]; intros s0 t0 HC i j HR; [reflexivity|]. rewrite flip_clusters_cons. destruct (rand g t0) as [u t1].
      rewrite IH by (try assumption; intros c' a b Hc'; apply HC; now right). destruct (Rlt_dec _ u); [|reflexivity]. rewrite !flip_nth_all.
      assert (HH := HC c i j (or_introl eq_refl) HR). destruct (existsb (Nat.eqb i) c) eqn:Ei, (existsb (Nat.eqb j) c) eqn:Ej; try lia.
      - apply existsb_eqb_In in Ei. apply existsb_eqb_notIn in Ej. tauto.
      - apply existsb_eqb_In in Ej. apply existsb_eqb_notIn in Ei. tauto. }
    intros i j Hi HR. assert (X := K cs s t1). rewrite F in X. cbn [fst] in X. apply X; [|assumption]. intros c a b Hc HAB. split; intros HH.
    + now apply (C c a Hc HH).
    + apply (C c b Hc HH). assert (S : forall x y, clos_refl_trans nat (sw_active n v s r) x y -> clos_refl_trans nat (sw_active n v s r) y x).
      { intros x y R. induction R; [apply rt_step; now apply sw_active_sym|apply rt_refl|eapply rt_trans; eassumption]. }
      now apply S.
Qed.
Print Assumptions C82_one_step.

(** A cluster is reversed with the heat bath probability of its field. *)
Theorem C82_flip_probability : forall h s c F, let a := sumf c (fun i => nthR h i * IZR (nth i s 0%Z)) in
  let q := exp (- a) / (exp a + exp (- a)) in
  Evec 1 (fun r => F (fst (flip_clusters (script 0) h s [c] r))) = q * F (flip_cluster s c) + (1 - q) * F s.
Proof.
  intros h s c F a q. assert (E := Evec_flips h 0 0 (fun st => F (fst st)) [c] s). cbn [length Nat.add Gs] in E.
  change (Evec 1 (fun r => F (fst (flip_clusters (script 0) h s [c] r)))) with (Evec 1 (fun u => (fun st => F (fst st)) (flip_clusters (script 0) h s [c] u))).
  transitivity (Tc h c (fun s' => Evec 0 (fun u => F (fst (s', u)))) s); [exact E|]. unfold Tc. cbn [Evec fst].
  assert (Q : fl h c s = q); [|now rewrite Q]. unfold fl, q. rewrite cluster_field_eq. fold a. unfold sR. fold a.
  replace (-2 * a) with (- a + - a) by ring. rewrite exp_plus. assert (P := exp_pos a). assert (P' := exp_pos (- a)).
  assert (M : exp a * exp (- a) = 1) by (rewrite <- exp_plus; replace (a + - a) with 0 by ring; apply exp_0).
  set (x := exp a) in *. set (y := exp (- a)) in *. apply (Rmult_eq_reg_r ((1 + y * y) * (x + y))); [|nra].
  replace ((1 - 1 / (1 + y * y)) * ((1 + y * y) * (x + y))) with (y * y * (x + y)) by (field; nra).
  replace (y / (x + y) * ((1 + y * y) * (x + y))) with (y * (1 + y * y)) by (field; nra). replace (y * y * (x + y)) with (y * (x * y + y * y)) by ring. now rewrite M.
Qed.
Print Assumptions C82_flip_probability.

(** Expected value after n_iters steps from s, the random numbers being independent and
    uniform (N of them are enough for the run). *)
Definition sw_expect (os : nat -> set_order) (h v : list R) (n_iters : nat) (F : list Z -> R) (s : list Z) : R :=
  Evec (n_iters * (length v + length h)) (fun r => match sw_steps (script 0) os h v n_iters s r with Ok (s', _) => F s' | Err _ => 0 end).

(** Any number of steps leaves the Boltzmann distribution unchanged... *)
Theorem C82_stationary : forall os h v n_iters F, let n := length h in (1 <= n)%nat -> length v = (n * (n - 1) / 2)%nat -> (forall k, any_order (os k)) ->
  sumf (spin_states n) (fun s => exp (- ienergy n (h ++ v) s) * sw_expect os h v n_iters F s) =
  sumf (spin_states n) (fun s => exp (- ienergy n (h ++ v) s) * F s).
Proof.
  intros os h v k F n Hn Hv Ho. rewrite <- (Psteps_stationary n h v Hn eq_refl Hv os F Ho k). apply sumf_ext_in. intros s Hs. f_equal.
  apply (Evec_steps n h v Hn eq_refl Hv); [assumption|now apply spin_states_spec|unfold n; lia].
Qed.
Print Assumptions C82_stationary.

(** ...one step is in detailed balance between any two states... *)
Theorem C82_detailed_balance : forall os h v F G, let n := length h in (1 <= n)%nat -> length v = (n * (n - 1) / 2)%nat -> (forall k, any_order (os k)) ->
  sumf (spin_states n) (fun s => exp (- ienergy n (h ++ v) s) * (G s * sw_expect os h v 1 F s)) =
  sumf (spin_states n) (fun s => exp (- ienergy n (h ++ v) s) * (F s * sw_expect os h v 1 G s)).
Proof.
  intros os h v F G n Hn Hv Ho.
  assert (K : forall F s, In s (spin_states n) -> sw_expect os h v 1 F s = Psw n h v (os 0%nat) F s).
  { intros F0 s Hs. unfold sw_expect. rewrite (Evec_steps n h v Hn eq_refl Hv); [reflexivity|assumption|now apply spin_states_spec|unfold n; lia]. }
  rewrite (sumf_ext_in _ _ (fun s => exp (- ienergy n (h ++ v) s) * (G s * Psw n h v (os 0%nat) F s))) by (intros s Hs; now rewrite K).
  rewrite (Psw_reversible n h v Hn eq_refl Hv (os 0%nat) F G (Ho _)). apply sumf_ext_in. intros s Hs. now rewrite K.
Qed.
Print Assumptions C82_detailed_balance.

(** ...and no other distribution is stationary. *)
Theorem C82_unique : forall os h v p, let n := length h in (1 <= n)%nat -> length v = (n * (n - 1) / 2)%nat -> (forall k, any_order (os k)) ->
  (forall F, sumf (spin_states n) (fun s => p s * sw_expect os h v 1 F s) = sumf (spin_states n) (fun s => p s * F s)) ->
  sumf (spin_states n) p = 1 ->
  forall s, In s (spin_states n) -> p s = exp (- ienergy n (h ++ v) s) / sumf (spin_states n) (fun s => exp (- ienergy n (h ++ v) s)).
Proof.
  intros os h v p n Hn Hv Ho Hp H1 s Hs.
  assert (K : forall F s, In s (spin_states n) -> sw_expect os h v 1 F s = Psw n h v (os 0%nat) F s).
  { intros F0 s0 Hs0. unfold sw_expect. rewrite (Evec_steps n h v Hn eq_refl Hv); [reflexivity|assumption|now apply spin_states_spec|unfold n; lia]. }
  assert (U := Psw_unique n h v Hn eq_refl Hv (os 0%nat) p (Ho _)).
  specialize (U ltac:(intros F; rewrite <- (Hp F); apply sumf_ext_in; intros s0 Hs0; now rewrite K)).
  assert (Z : 0 < sumf (spin_states n) (fun s => exp (- ienergy n (h ++ v) s))).
  { apply sumf_pos; [intros E; rewrite E in Hs; destruct Hs|]. intros x _. apply exp_pos. }
  apply (Rmult_eq_reg_r (sumf (spin_states n) (fun s => exp (- ienergy n (h ++ v) s)))); [|lra].
  replace (exp (- ienergy n (h ++ v) s) / sumf (spin_states n) (fun s0 => exp (- ienergy n (h ++ v) s0)) * sumf (spin_states n) (fun s0 => exp (- ienergy n (h ++ v) s0))) with (exp (- ienergy n (h ++ v) s)) by (field; lra).
  rewrite <- sumf_scal_l. rewrite (sumf_ext_in (spin_states n) _ (fun s' => p s' * exp (- ienergy n (h ++ v) s))) by (intros s' Hs'; now apply U).
  rewrite (sumf_ext _ _ (fun s' => exp (- ienergy n (h ++ v) s) * p s')) by (intros; ring). rewrite sumf_scal_l. change (fun a => p a) with p. rewrite H1. ring.
Qed.
Print Assumptions C82_unique.

(** The samples of generate_sample are independent of each other, each distributed as a
    chain of its own started from its row. *)
Theorem C82_independent : forall os h v n_iters Fs sample N, let n := length h in (1 <= n)%nat -> length v = (n * (n - 1) / 2)%nat ->
  (forall i k, any_order (os i k)) -> length Fs = length sample -> Forall (spins n) sample -> (length sample * (n_iters * (length v + n)) <= N)%nat ->
  Evec N (fun r => match sw_generate (script 0) os h v n_iters sample r with
                   | Ok (rows, _) => prodR (map (fun k => nth k Fs (fun _ => 1) (nth k rows [])) (seq 0 (length sample)))
                   | Err _ => 0 end) =
  prodR (map (fun k => sw_expect (os (length sample - 1 - k)%nat) h v n_iters (nth k Fs (fun _ => 1)) (nth k sample [])) (seq 0 (length sample))).
Proof.
  intros os h v k Fs sample N n Hn Hv Ho HL HS HN.
  assert (R1 : forall Fs rows, length Fs = length rows -> prodR (map (fun k => nth k Fs (fun _ => 1) (nth k rows [])) (seq 0 (length rows))) = rows_prod Fs rows).
  { clear. induction Fs as [|F Fs IH]; intros [|s rows] H; cbn in H; try lia; [reflexivity|]. cbn [length seq map rows_prod]. rewrite prodR_cons. cbn [nth]. f_equal.
    rewrite <- IH by lia. rewrite <- seq_shift, map_map. reflexivity. }
  assert (R2 : forall Fs sample, length Fs = length sample -> Forall (spins n) sample ->
    prodR (map (fun i => sw_expect (os (length sample - 1 - i)%nat) h v k (nth i Fs (fun _ => 1)) (nth i sample [])) (seq 0 (length sample))) = rows_expect n h v os k Fs sample).
  { clear Fs sample N HL HS HN. induction Fs as [|F Fs IH]; intros [|s sample] H HS; cbn in H; try lia; [reflexivity|]. inversion HS; subst.
    cbn [length seq map rows_expect]. rewrite prodR_cons. cbn [nth]. f_equal.
    - replace (S (length sample) - 1 - 0)%nat with (length sample) by lia. apply (Evec_steps n h v Hn eq_refl Hv); [apply Ho|assumption|unfold n; lia].
    - rewrite <- IH by (assumption || lia). rewrite <- seq_shift, map_map. f_equal. apply map_ext. intros i. replace (S (length sample) - 1 - S i)%nat with (length sample - 1 - i)%nat by lia. reflexivity. }
  rewrite R2 by assumption. rewrite <- (Rmult_1_l (rows_expect _ _ _ _ _ _ _)). rewrite <- (Evec_rows n h v Hn eq_refl Hv os k Ho sample Fs N 1 HL HS HN).
  apply Evec_ext. intros r _ _. assert (LR : forall sample t rows t', sw_generate (script 0) os h v k sample t = Ok (rows, t') -> length rows = length sample).
  { clear. induction sample as [|s sample IH]; intros t rows t' H; cbn [sw_generate] in H; [injection H as <- <-; reflexivity|].
    destruct (sw_steps _ _ _ _ _ _ _) as [[s' t1]|e]; [|discriminate]. cbn [bind] in H. destruct (sw_generate _ _ _ _ _ sample t1) as [[rest' t2]|e] eqn:E; [|discriminate].
    cbn [bind] in H. injection H as <- <-. cbn [length]. f_equal. now apply IH in E. }
  destruct (sw_generate (script 0) os h v k sample r) as [[rows r']|e] eqn:E; [|reflexivity]. apply LR in E. rewrite Rmult_1_l, <- E. apply R1. lia.
Qed.
Print Assumptions C82_independent.

(** Two sites with J = 1: numbers 0.5 and 0.9 join them (1 - e^-2 = 0.86) and reverse both
    (without field the threshold is 1/2). *)
Example C82_example : let o := SetOrder (fun _ l => hd 0%nat l) (fun _ l => l) in
  any_order o /\ spins 2 [1; 1]%Z /\ sw_active 2 [1] [1; 1]%Z [/ 2] 0 1 /\
  (forall F, Evec 1 (fun r => F (fst (flip_clusters (script 0) [0; 0] [1; 1]%Z [[0; 1]%nat] r))) = / 2 * F [-1; -1]%Z + / 2 * F [1; 1]%Z) /\
  forall F, sumf (spin_states 2) (fun s => exp (- ienergy 2 ([0; 1] ++ [1]) s) * sw_expect (fun _ => o) [0; 1] [1] 5 F s) =
            sumf (spin_states 2) (fun s => exp (- ienergy 2 ([0; 1] ++ [1]) s) * F s).
Proof.
  intros o. assert (Ho : any_order o).
  { split; [intros k [|a l] H; [congruence|now left]|intros k l; apply Permutation_refl]. }
  split; [assumption|]. split; [split; [reflexivity|repeat (apply Forall_cons; [unfold spin; lia|]); apply Forall_nil]|]. split; [|split].
  - unfold sw_active, sw_coupling, nthR. cbn. repeat split; try lia; [lra|]. rewrite Rabs_R1.
    assert (exp (-2 * 1) < / 2); [|lra]. replace (-2 * 1) with (- (2)) by lra. rewrite exp_Ropp. apply Rinv_lt_contravar; [apply Rmult_lt_0_compat; [lra|apply exp_pos]|]. pose proof (exp_ineq1 2). lra.
  - intros F. rewrite C82_flip_probability. rewrite !sumf_cons, sumf_nil. unfold nthR. cbn [nth]. replace (0 * IZR 1 + (0 * IZR 1 + 0)) with 0 by ring. rewrite Ropp_0, exp_0.
    change (flip_cluster [1; 1]%Z [0; 1]%nat) with [-1; -1]%Z. lra.
  - intros F. apply (C82_stationary (fun _ => o) [0; 1] [1] 5 F); [cbn; lia|reflexivity|intros _; assumption].
Qed.
