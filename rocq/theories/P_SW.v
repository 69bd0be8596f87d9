(** * The Swendsen-Wang step: bonds, clusters, detailed balance. *)
From Coq Require Import Permutation Relations.
From Coquelicot Require Import Coquelicot.
From Verif Require Import Prelude PreludeFacts Spec M_Index M_Params M_Sampler M_Wolff P_Index P_Energy P_Energy2 P_Params P_RMF P_Sampler P_Metro P_Ising P_Lattice P_Wolff P_Wolff2 P_Wolff3 P_Comp Props_Comp.
Import ListNotations.
Local Open Scope R_scope.

(** ** Random bits *)
Lemma RInt_above a x y (f : R -> R) : 0 <= a <= 1 ->
  (forall u, 0 < u < 1 -> f u = if Rlt_dec a u then y else x) -> RInt f 0 1 = (1 - a) * y + a * x.
Proof.
  intros Ha Hf. apply is_RInt_unique. replace ((1 - a) * y + a * x) with (plus (scal (a - 0) x) (scal (1 - a) y)) by (unfold plus, scal; cbn; unfold mult; cbn; ring).
  apply (is_RInt_Chasles f 0 a 1).
  - apply (is_RInt_ext (fun _ => x)); [|apply (is_RInt_const (V := R_NormedModule) 0 a x)].
    intros u Hu. rewrite Rmin_left, Rmax_right in Hu by lra. rewrite Hf by lra. destruct (Rlt_dec a u); [lra|reflexivity].
  - apply (is_RInt_ext (fun _ => y)); [|apply (is_RInt_const (V := R_NormedModule) a 1 y)].
    intros u Hu. rewrite Rmin_left, Rmax_right in Hu by lra. rewrite Hf by lra. destruct (Rlt_dec a u); [reflexivity|lra].
Qed.

Definition bits_of (q r : list R) : list R := map (fun xu => if Rlt_dec (snd xu) (fst xu) then 1 else 0) (combine q r).

(** Probability of a list of bits, bit k being 1 with probability q_k. *)
Definition pbits (q b : list R) : R := prodR (map (fun xy => if Reqb (snd xy) 1 then fst xy else 1 - fst xy) (combine q b)).

Lemma Reqb_11 : Reqb 1 1 = true.
Proof. unfold Reqb. destruct (Req_EM_T 1 1); [reflexivity|lra]. Qed.
Lemma Reqb_01 : Reqb 0 1 = false.
Proof. unfold Reqb. destruct (Req_EM_T 0 1); [lra|reflexivity]. Qed.

Lemma Evec_bits q : Forall (fun x => 0 <= x <= 1) q -> forall Q,
  Evec (length q) (fun r => Q (bits_of q r)) = sumf (all_states [1; 0] (length q)) (fun b => pbits q b * Q b).
Proof.
  induction 1 as [|x q Hx Hq IH]; intros Q; [unfold pbits; cbn [length Evec all_states combine map]; rewrite sumf_cons, sumf_nil; unfold bits_of; cbn; ring|]. cbn [length Evec all_states].
  cbn [flat_map]. rewrite app_nil_r, sumf_app, !sumf_map.
  rewrite (is_RInt_unique _ _ _ (x * sumf (all_states [1; 0] (length q)) (fun b => pbits q b * Q (1 :: b)) + (1 - x) * sumf (all_states [1; 0] (length q)) (fun b => pbits q b * Q (0 :: b)))).
  - rewrite <- !sumf_scal_l. f_equal; apply sumf_ext; intros b; unfold pbits; cbn [combine map fst snd]; rewrite prodR_cons, ?Reqb_11, ?Reqb_01; ring.
  - apply RInt_below; [assumption|]. intros u Hu. unfold bits_of. cbn [combine map fst snd]. destruct (Rlt_dec u x).
    + exact (IH (fun b => Q (1 :: b))).
    + exact (IH (fun b => Q (0 :: b))).
Qed.

Lemma combine_maps {A B C} (f : A -> B) (g : A -> C) l : combine (map f l) (map g l) = map (fun a => (f a, g a)) l.
Proof. induction l as [|a l IH]; [reflexivity|]. cbn. now rewrite IH. Qed.

(** ** Reversing clusters at random *)
Section Flips.
Variables (n : nat) (h : list R).

Definition fl (c : list nat) (s : list Z) : R := 1 - 1 / (1 + exp (-2 * cluster_field h s c)).

Definition Tc (c : list nat) (F : list Z -> R) (s : list Z) : R := fl c s * F (flip_cluster s c) + (1 - fl c s) * F s.

Fixpoint Gs (cs : list (list nat)) (F : list Z -> R) (s : list Z) : R :=
  match cs with [] => F s | c :: cs' => Tc c (Gs cs' F) s end.

Lemma thr_bounds x : 0 < 1 / (1 + exp x) < 1.
Proof.
  assert (P := exp_pos x). split; [apply Rdiv_lt_0_compat; lra|]. apply (Rmult_lt_reg_r (1 + exp x)); [lra|].
  replace (1 / (1 + exp x) * (1 + exp x)) with 1 by (field; lra). lra.
Qed.

Lemma fl_bounds c s : 0 < fl c s < 1.
Proof. unfold fl. pose proof (thr_bounds (-2 * cluster_field h s c)). lra. Qed.

(** The loop over clusters consumes one number per cluster. *)
Lemma flip_clusters_cons {T} (g : rng T) s c cs t : flip_clusters g h s (c :: cs) t =
  let '(u, t) := rand g t in flip_clusters g h (if Rlt_dec (1 / (1 + exp (-2 * cluster_field h s c))) u then flip_cluster s c else s) cs t.
Proof. unfold flip_clusters. cbn [fold_left]. destruct (rand g t) as [u t']. destruct (Rlt_dec _ u); reflexivity. Qed.

Lemma Evec_flips i0 k (H : list Z * list R -> R) : forall cs s,
  Evec (length cs + k) (fun u => H (flip_clusters (script i0) h s cs u)) = Gs cs (fun s' => Evec k (fun u => H (s', u))) s.
Proof.
  induction cs as [|c cs IH]; intros s; [reflexivity|]. cbn [length Nat.add Evec Gs].
  unfold Tc. replace (fl c s) with (1 - (1 / (1 + exp (-2 * cluster_field h s c)))) by reflexivity.
  replace (1 - (1 - 1 / (1 + exp (-2 * cluster_field h s c)))) with (1 / (1 + exp (-2 * cluster_field h s c))) by ring.
  apply RInt_above; [pose proof (thr_bounds (-2 * cluster_field h s c)); lra|]. intros u Hu.
  rewrite <- !IH. destruct (Rlt_dec _ u) as [L|L]; apply Evec_ext; intros r Hr _; rewrite flip_clusters_cons; cbn [rand script hd tl];
    destruct (Rlt_dec _ u); try contradiction; reflexivity.
Qed.

Lemma Gs_ext cs : forall F F' s, length s = n -> (forall s', length s' = n -> F s' = F' s') -> Gs cs F s = Gs cs F' s.
Proof.
  induction cs as [|c cs IH]; intros F F' s Hs HF; cbn [Gs]; [now apply HF|]. unfold Tc.
  rewrite !(IH F F') by (rewrite ?flip_cluster_length; assumption). reflexivity.
Qed.

Lemma Gs_ext_spins cs : forall F F' s, spins n s -> (forall s', spins n s' -> F s' = F' s') -> Gs cs F s = Gs cs F' s.
Proof.
  induction cs as [|c cs IH]; intros F F' s Hs HF; cbn [Gs]; [now apply HF|]. unfold Tc.
  rewrite !(IH F F') by (auto using flip_cluster_spins). reflexivity.
Qed.

Lemma Gs_lin cs a b : forall F F' s, Gs cs (fun s => a * F s + b * F' s) s = a * Gs cs F s + b * Gs cs F' s.
Proof. induction cs as [|c cs IH]; intros F F' s; cbn [Gs]; [reflexivity|]. unfold Tc. rewrite !IH. ring. Qed.

Lemma Gs_const cs a : forall s, Gs cs (fun _ => a) s = a.
Proof. induction cs as [|c cs IH]; intros s; cbn [Gs]; [reflexivity|]. unfold Tc. rewrite !IH. ring. Qed.

Lemma Gs_nonneg cs F : (forall s, spins n s -> 0 <= F s) -> forall s, spins n s -> 0 <= Gs cs F s.
Proof.
  intros HF. induction cs as [|c cs IH]; intros s Hs; cbn [Gs]; [now apply HF|]. unfold Tc. pose proof (fl_bounds c s).
  apply Rplus_le_le_0_compat; apply Rmult_le_pos; try lra; apply IH; auto using flip_cluster_spins.
Qed.

(** States that can be reached. *)
Fixpoint reach (cs : list (list nat)) (s s' : list Z) : Prop :=
  match cs with [] => s = s' | c :: cs' => reach cs' s s' \/ reach cs' (flip_cluster s c) s' end.

Lemma Gs_pos cs F s' : (forall s, spins n s -> 0 <= F s) -> 0 < F s' -> forall s, spins n s -> reach cs s s' -> 0 < Gs cs F s.
Proof.
  intros HF Hp. induction cs as [|c cs IH]; intros s Hs HR; cbn [Gs]; [cbn in HR; now subst|]. unfold Tc. pose proof (fl_bounds c s). cbn [reach] in HR.
  assert (A := Gs_nonneg cs F HF s Hs). assert (B := Gs_nonneg cs F HF (flip_cluster s c) (flip_cluster_spins n s c Hs)). destruct HR as [HR|HR].
  - specialize (IH s Hs HR). apply Rplus_le_lt_0_compat; [apply Rmult_le_pos; lra|apply Rmult_lt_0_compat; lra].
  - specialize (IH (flip_cluster s c) (flip_cluster_spins n s c Hs) HR). apply Rplus_lt_le_0_compat; [apply Rmult_lt_0_compat; lra|apply Rmult_le_pos; lra].
Qed.

Lemma flip_nth_all s c i : nth i (flip_cluster s c) 0%Z = if existsb (Nat.eqb i) c then (- nth i s 0)%Z else nth i s 0%Z.
Proof.
  destruct (Nat.lt_ge_cases i (length s)) as [L|L]; [now apply flip_cluster_nth|].
  rewrite !nth_overflow by (rewrite ?flip_cluster_length; assumption). now destruct (existsb _ c).
Qed.

Definition disjoint (c c' : list nat) : Prop := forall x, In x c -> In x c' -> False.

Lemma field_disjoint s c c' : disjoint c c' -> cluster_field h (flip_cluster s c') c = cluster_field h s c.
Proof.
  intros D. rewrite !cluster_field_eq. apply sumf_ext_in. intros i Hi. unfold sR. rewrite flip_nth_all.
  rewrite (proj2 (existsb_eqb_notIn i c')); [reflexivity|]. intros C. exact (D i Hi C).
Qed.

Lemma flip_comm s c c' : flip_cluster (flip_cluster s c) c' = flip_cluster (flip_cluster s c') c.
Proof.
  apply (nth_ext _ _ 0%Z 0%Z); [now rewrite !flip_cluster_length|]. intros i _. rewrite !flip_nth_all. destruct (existsb _ c), (existsb _ c'); reflexivity.
Qed.

Lemma Tc_comm c c' F s : disjoint c c' -> disjoint c' c -> Tc c (Tc c' F) s = Tc c' (Tc c F) s.
Proof.
  intros D D'. unfold Tc. unfold fl. rewrite !field_disjoint by assumption. rewrite (flip_comm s c c'). ring.
Qed.

Lemma Tc_ext c F F' s : (forall s, F s = F' s) -> Tc c F s = Tc c F' s.
Proof. intros H. unfold Tc. now rewrite !H. Qed.

Lemma Gs_comm c F : forall cs, Forall (fun c' => disjoint c c' /\ disjoint c' c) cs -> forall s, Gs cs (Tc c F) s = Tc c (Gs cs F) s.
Proof.
  induction 1 as [|c' cs [D D'] Hcs IH]; intros s; cbn [Gs]; [reflexivity|]. rewrite (Tc_ext c' _ (Tc c (Gs cs F))) by (intros; apply IH). now apply Tc_comm.
Qed.

(** Weights for which reversing c is in detailed balance. *)
Definition balanced (W : list Z -> R) (c : list nat) : Prop :=
  forall s, spins n s -> W (flip_cluster s c) = exp (-2 * cluster_field h s c) * W s.

Lemma field_flip s c : cluster_field h (flip_cluster s c) c = - cluster_field h s c.
Proof.
  rewrite !cluster_field_eq. rewrite <- sumf_opp. apply sumf_ext_in. intros i Hi. unfold sR. rewrite flip_nth_all.
  rewrite (proj2 (existsb_eqb_In i c) Hi). rewrite opp_IZR. ring.
Qed.

Lemma balanced_fl W c s : balanced W c -> spins n s -> W (flip_cluster s c) * fl c (flip_cluster s c) = W s * fl c s.
Proof.
  intros HB Hs. rewrite HB by assumption. unfold fl. rewrite field_flip. set (a := cluster_field h s c).
  assert (P := exp_pos (-2 * a)). assert (Q := exp_pos (-2 * - a)). assert (E : exp (-2 * a) * exp (-2 * - a) = 1) by (rewrite <- exp_plus; replace (-2 * a + -2 * - a) with 0 by ring; apply exp_0).
  set (x := exp (-2 * a)) in *. set (y := exp (-2 * - a)) in *. replace (1 - 1 / (1 + y)) with (y / (1 + y)) by (field; lra). replace (1 - 1 / (1 + x)) with (x / (1 + x)) by (field; lra).
  apply (Rmult_eq_reg_r ((1 + x) * (1 + y))); [|nra]. replace (x * W s * (y / (1 + y)) * ((1 + x) * (1 + y))) with (x * y * (1 + x) * W s) by (field; lra).
  replace (W s * (x / (1 + x)) * ((1 + x) * (1 + y))) with (W s * (x + x * y)) by (field; lra). rewrite E. ring.
Qed.

Lemma states_flip_perm c (G : list Z -> R) : sumf (spin_states n) (fun s => G (flip_cluster s c)) = sumf (spin_states n) G.
Proof.
  assert (K : forall s, In s (spin_states n) -> In (flip_cluster s c) (spin_states n) /\ flip_cluster (flip_cluster s c) c = s).
  { intros s Hs. split; [|apply flip_cluster_twice]. apply spin_states_spec, (flip_cluster_spins n). now apply spin_states_spec in Hs. }
  rewrite <- (sumf_perm _ _ G (move_perm (spin_states n) (fun s => flip_cluster s c) (fun s => flip_cluster s c) (spin_states_NoDup n) K K)).
  now rewrite sumf_map.
Qed.

Lemma Tc_symmetric W c G F : balanced W c ->
  sumf (spin_states n) (fun s => W s * (G s * Tc c F s)) = sumf (spin_states n) (fun s => W s * (F s * Tc c G s)).
Proof.
  intros HB. unfold Tc.
  rewrite (sumf_ext _ _ (fun s => W s * fl c s * (G s * F (flip_cluster s c)) + W s * (1 - fl c s) * (G s * F s))) by (intros; ring).
  rewrite (sumf_ext _ (fun s => W s * (F s * (fl c s * G (flip_cluster s c) + (1 - fl c s) * G s))) (fun s => W s * fl c s * (F s * G (flip_cluster s c)) + W s * (1 - fl c s) * (G s * F s))) by (intros; ring).
  rewrite !sumf_plus. f_equal. rewrite <- (states_flip_perm c (fun s => W s * fl c s * (F s * G (flip_cluster s c)))).
  apply sumf_ext_in. intros s Hs. apply spin_states_spec in Hs. rewrite (balanced_fl W c s HB Hs), flip_cluster_twice. ring.
Qed.

Lemma Gs_symmetric W F : forall cs, Forall (balanced W) cs -> ForallOrdPairs (fun c c' => disjoint c c' /\ disjoint c' c) cs -> forall G,
  sumf (spin_states n) (fun s => W s * (G s * Gs cs F s)) = sumf (spin_states n) (fun s => W s * (F s * Gs cs G s)).
Proof.
  induction cs as [|c cs IH]; intros HB HD G; cbn [Gs]; [apply sumf_ext; intros; ring|].
  inversion HB; subst. inversion HD; subst. rewrite Tc_symmetric by assumption.
  rewrite (sumf_ext _ _ (fun s => W s * (Tc c G s * Gs cs F s))) by (intros; ring). rewrite IH by assumption.
  apply sumf_ext. intros s. now rewrite Gs_comm by assumption.
Qed.
End Flips.

Lemma map_index {A B} (l : list A) (F : nat -> A -> B) d : map (fun ck => F (fst ck) (snd ck)) (combine (range (length l)) l) = map (fun k => F k (nth k l d)) (range (length l)).
Proof.
  unfold range. assert (G : forall l a, map (fun ck => F (fst ck) (snd ck)) (combine (seq a (length l)) l) = map (fun k => F (a + k)%nat (nth k l d)) (seq 0 (length l))).
  { induction l0 as [|x l0 IH]; intros a; [reflexivity|]. cbn [length seq combine map fst snd nth]. rewrite Nat.add_0_r. f_equal. rewrite IH, <- seq_shift, map_map. apply map_ext. intros k. f_equal. lia. }
  apply (G l 0%nat).
Qed.

Lemma NoDup_app_split {A} (l m : list A) : NoDup (l ++ m) -> NoDup l /\ NoDup m /\ (forall x, In x l -> ~ In x m).
Proof.
  induction l as [|a l IH]; cbn [app]; intros H; [repeat split; [constructor|assumption|intros x []]|]. inversion H as [|? ? Ha Hl]; subst. destruct (IH Hl) as (I1 & I2 & I3).
  rewrite in_app_iff in Ha. split; [constructor; tauto|]. split; [assumption|]. intros x [<-|Hx]; [tauto|now apply I3].
Qed.

Lemma concat_disjoint (cs : list (list nat)) : NoDup (concat cs) -> ForallOrdPairs (fun c c' => disjoint c c' /\ disjoint c' c) cs /\ Forall (@NoDup nat) cs.
Proof.
  induction cs as [|c cs IH]; intros ND; [split; constructor|]. cbn [concat] in ND. apply NoDup_app_split in ND. destruct ND as (N1 & N2 & N3). destruct (IH N2) as [I1 I2]. split.
  - constructor; [|assumption]. apply Forall_forall. intros c' Hc'. split; intros x Hx Hx'.
    + apply (N3 x Hx), in_concat. now exists c'.
    + apply (N3 x Hx'), in_concat. now exists c'.
  - now constructor.
Qed.

(** ** Bonds *)
Section SW.
Variables (n : nat) (h v : list R).
Hypothesis Hn : (1 <= n)%nat.
Hypothesis Hh : length h = n.
Hypothesis Hv : length v = (n * (n - 1) / 2)%nat.

Notation L := (pairs (seq 0 n)).
Definition Jp (p : nat * nat) : R := symmat n v (fst p) (snd p).
Definition ssp (s : list Z) (p : nat * nat) : R := sR s (fst p) * sR s (snd p).
Definition qs (s : list Z) : list R := map (fun p => clampP (exp (-2 * (Jp p * ssp s p)))) L.

Lemma list_by_pairs (b : list R) : length b = (n * (n - 1) / 2)%nat -> b = map (fun p => symmat n b (fst p) (snd p)) L.
Proof. intros Hb. symmetry. now apply symmat_pairs. Qed.

(** Probability 1 - exp(-2 J s s) of a satisfied bond, 0 of the others. *)
Lemma sample_bonds_bits s r : spins n s -> length r = length v -> in01 r ->
  sample_bonds (map (fun c => 1 - exp (-2 * nthR v c * IZR (nth c (pairwise_prod s) 0%Z))) (range (length v))) r s v = bits_of (qs s) r.
Proof.
  intros [Hs Sp] Hr H01. unfold sample_bonds, bits_of, qs. rewrite loop_ij_pairs, Hs, Hv, <- pairs_seq_length.
  set (pv := map (fun c => 1 - exp (-2 * nthR v c * IZR (nth c (pairwise_prod s) 0%Z))) (range (length L))).
  pose (Fb := fun (counter : nat) (ij : nat * nat) => let '(i, j) := ij in
         let ss := (nth i s 0 * nth j s 0)%Z in
         if Rlt_dec (nthR v counter) 0 then
           if Z.ltb ss 0 then if Rlt_dec (nthR r counter) (nthR pv counter) then 1 else 0 else 0
         else if Rlt_dec 0 (nthR v counter) then
           if Z.ltb 0 ss then if Rlt_dec (nthR r counter) (nthR pv counter) then 1 else 0 else 0
         else 0).
  rewrite (map_ext _ (fun ck => Fb (fst ck) (snd ck))) by (intros [c [i j]]; reflexivity).
  rewrite (map_index L Fb (0, 0)%nat). set (q := fun p => clampP (exp (-2 * (Jp p * ssp s p)))).
  assert (Lr : length r = length L) by (rewrite Hr, Hv, pairs_seq_length; reflexivity).
  apply (list_eq_nth 0); [rewrite !map_length, combine_length, map_length; unfold range; rewrite seq_length; lia|].
  intros k Hk. rewrite map_length in Hk. unfold range in Hk at 1. rewrite seq_length in Hk.
  unfold range at 1. rewrite nth_map_seq by assumption.
  rewrite (nth_indep _ 0 ((fun xu => if Rlt_dec (snd xu) (fst xu) then 1 else 0) (0, 0))) by (rewrite map_length, combine_length, map_length; lia).
  rewrite (map_nth (fun xu : R * R => if Rlt_dec (snd xu) (fst xu) then 1 else 0)), combine_nth by (rewrite map_length; lia). cbn [fst snd].
  rewrite (nth_indep (map q L) 0 (q (0, 0)%nat)) by (rewrite map_length; lia). rewrite (map_nth q).
  assert (Hk' : (k < n * (n - 1) / 2)%nat) by (rewrite <- pairs_seq_length; assumption).
  destruct (pair_index_nth n k Hk') as (Ek & Hij & Hj). set (p := nth k L (0, 0)%nat) in *.
  assert (Ep : nth k (pairwise_prod s) 0%Z = (nth (fst p) s 0 * nth (snd p) s 0)%Z).
  { unfold pairwise_prod. rewrite loop_ij_pairs, Hs. rewrite (nth_indep _ 0%Z ((fun p => (nth (fst p) s 0 * nth (snd p) s 0)%Z) (0, 0)%nat)) by (rewrite map_length; lia).
    now rewrite (map_nth (fun p => (nth (fst p) s 0 * nth (snd p) s 0)%Z)). }
  assert (EJ : Jp p = nthR v k) by (unfold Jp, symmat; rewrite (proj2 (Nat.ltb_lt _ _) Hij); now rewrite Ek).
  assert (EP : nthR pv k = 1 - exp (-2 * nthR v k * IZR (nth k (pairwise_prod s) 0%Z))) by (unfold pv, nthR at 1, range; now rewrite nth_map_seq by assumption).
  unfold Fb. rewrite EP, Ep. unfold q, ssp. rewrite EJ. unfold sR.
  assert (H01k : 0 < nth k r 0 < 1) by (apply H01, nth_In; lia). unfold nthR.
  assert (Si : spin (nth (fst p) s 0%Z)) by (apply Forall_nth_in; [assumption|lia]).
  assert (Sj : spin (nth (snd p) s 0%Z)) by (apply Forall_nth_in; [assumption|lia]).
  destruct p as [i j]. cbn [fst snd] in *. set (J := nth k v 0). set (u := nth k r 0) in *.
  rewrite mult_IZR. unfold clampP.
  assert (X : IZR (nth i s 0%Z) * IZR (nth j s 0%Z) = 1 /\ (nth i s 0 * nth j s 0)%Z = 1%Z \/ IZR (nth i s 0%Z) * IZR (nth j s 0%Z) = -1 /\ (nth i s 0 * nth j s 0)%Z = (-1)%Z).
  { unfold spin in Si, Sj. destruct Si as [-> | ->], Sj as [-> | ->]; cbn; [left|right|right|left]; split; try reflexivity; lra. }
  replace (-2 * J * (IZR (nth i s 0%Z) * IZR (nth j s 0%Z))) with (-2 * (J * (IZR (nth i s 0%Z) * IZR (nth j s 0%Z)))) by ring.
  assert (NB : forall x, 0 <= x -> ~ u < Rmax 0 (1 - exp x)).
  { intros x Hx C. assert (1 <= exp x) by (rewrite <- exp_0; destruct Hx as [Hx|<-]; [left; now apply exp_increasing|right; reflexivity]). rewrite Rmax_left in C by lra. lra. }
  assert (YB : forall x, x <= 0 -> Rmax 0 (1 - exp x) = 1 - exp x).
  { intros x Hx. apply Rmax_right. assert (exp x <= 1) by (rewrite <- exp_0; destruct Hx as [Hx| ->]; [left; now apply exp_increasing|right; reflexivity]). lra. }
  destruct X as [[-> ->]|[-> ->]]; cbn [Z.ltb Z.compare]; destruct (Rlt_dec J 0) as [J0|J0].
  - destruct (Rlt_dec u _) as [C|C]; [exfalso; revert C; apply NB; lra|reflexivity].
  - destruct (Rlt_dec 0 J) as [J1|J1].
    + rewrite YB by lra. reflexivity.
    + destruct (Rlt_dec u _) as [C|C]; [exfalso; revert C; apply NB; lra|reflexivity].
  - rewrite YB by lra. reflexivity.
  - destruct (Rlt_dec 0 J) as [J1|J1]; destruct (Rlt_dec u _) as [C|C]; try reflexivity; exfalso; revert C; apply NB; lra.
Qed.

Lemma qs_length s : length (qs s) = length v.
Proof. unfold qs. now rewrite map_length, pairs_seq_length. Qed.

Lemma qs_bounds s : Forall (fun x => 0 <= x <= 1) (qs s).
Proof. apply Forall_forall. intros x Hx. unfold qs in Hx. apply in_map_iff in Hx. destruct Hx as (p & <- & _). apply clampP_bounds. left. apply exp_pos. Qed.

(** ** Joint weight of state and bonds *)
Definition kap (b : R) (x : R) : R := exp x * (if Reqb b 1 then clampP (exp (-2 * x)) else 1 - clampP (exp (-2 * x))).
Definition Kw (b : list R) (s : list Z) : R := prodR (map (fun p => kap (symmat n b (fst p) (snd p)) (Jp p * ssp s p)) L).
Definition Ww (b : list R) (s : list Z) : R := exp (sumf (seq 0 n) (fun i => nthR h i * sR s i)) * Kw b s.

Lemma energy_split s : - ienergy n (h ++ v) s = sumf (seq 0 n) (fun i => nthR h i * sR s i) + sumf L (fun p => Jp p * ssp s p).
Proof.
  unfold ienergy. rewrite ising_energy_pairs. rewrite (sumf_ext_in (seq 0 n) (fun i => nthR (h ++ v) i * nthR (map IZR s) i) (fun i => nthR h i * sR s i)).
  - rewrite (sumf_ext_in L (fun p => csym n (h ++ v) (fst p) (snd p) * (nthR (map IZR s) (fst p) * nthR (map IZR s) (snd p))) (fun p => Jp p * ssp s p)); [ring|].
    intros [i j] Hin. apply in_pairs_seq in Hin. cbn [fst snd]. rewrite !nthR_IZR. unfold csym, Jp, ssp, sR. cbn [fst snd].
    destruct (Nat.eqb_spec i j); [lia|]. rewrite <- (P_Ising.symmat_coupling n h v i j) by (assumption || lia). reflexivity.
  - intros i Hi. apply in_seq in Hi. rewrite nthR_IZR. unfold nthR, sR. rewrite app_nth1 by lia. reflexivity.
Qed.

Lemma joint_weight s b : length b = length v -> exp (- ienergy n (h ++ v) s) * pbits (qs s) b = Ww b s.
Proof.
  intros Hb. rewrite energy_split, exp_plus. unfold Ww. rewrite Rmult_assoc. f_equal.
  unfold pbits, qs. rewrite (list_by_pairs b) at 1 by lia. rewrite combine_maps, map_map. cbn [fst snd]. unfold Kw.
  rewrite <- (prodR_exp (fun p => Jp p * ssp s p) (fun p => kap (symmat n b (fst p) (snd p)) (Jp p * ssp s p))
    (fun p => if Reqb (symmat n b (fst p) (snd p)) 1 then clampP (exp (-2 * (Jp p * ssp s p))) else 1 - clampP (exp (-2 * (Jp p * ssp s p))))); [reflexivity|].
  intros p _. reflexivity.
Qed.

Lemma kap0_even x : kap 0 (- x) = kap 0 x.
Proof.
  unfold kap. rewrite Reqb_01, !one_minus_clamp. rewrite (Rmin_exp (-2 * x)), <- Rmult_assoc, <- exp_plus.
  replace (x + -2 * x) with (- x) by ring. replace (- (-2 * x)) with (-2 * - x) by ring. reflexivity.
Qed.

(** ** Clusters of the bonds *)
Definition badj (b : list R) : list (list R) := mk_mat n n (symmat n b).

(** A set of sites not crossed by a bond. *)
Definition closed (b : list R) (c : list nat) : Prop :=
  forall i j, (i < n)%nat -> (j < n)%nat -> In i c -> symmat n b i j <> 0 -> In j c.

Lemma Kw_flip b c s : Forall (fun x => x = 1 \/ x = 0) b -> closed b c -> Kw b (flip_cluster s c) = Kw b s.
Proof.
  intros Hb Hc. unfold Kw. f_equal. apply map_ext_in. intros [i j] Hin. apply in_pairs_seq in Hin. unfold ssp, sR. cbn [fst snd]. rewrite !flip_nth_all.
  assert (Z01 : symmat n b i j = 1 \/ symmat n b i j = 0).
  { unfold symmat. rewrite Forall_forall in Hb. assert (G : forall k, nthR b k = 1 \/ nthR b k = 0).
    { intros k. unfold nthR. destruct (Nat.lt_ge_cases k (length b)); [apply Hb; now apply nth_In|right; now apply nth_overflow]. }
    destruct (Nat.ltb i j); [apply G|]. destruct (Nat.ltb j i); [apply G|now right]. }
  destruct (existsb (Nat.eqb i) c) eqn:Ei, (existsb (Nat.eqb j) c) eqn:Ej.
  - f_equal. rewrite !opp_IZR. ring.
  - apply existsb_eqb_In in Ei. apply existsb_eqb_notIn in Ej. destruct Z01 as [C|Z0]; [exfalso; apply Ej, (Hc i j); try assumption; try lia; rewrite C; lra|].
    rewrite Z0, opp_IZR. rewrite <- (kap0_even (_ * (IZR (nth i s 0%Z) * _))). f_equal. ring.
  - apply existsb_eqb_notIn in Ei. apply existsb_eqb_In in Ej. destruct Z01 as [C|Z0].
    + exfalso. apply Ei, (Hc j i); try assumption; try lia. rewrite symmat_sym, C. lra.
    + rewrite Z0, opp_IZR. rewrite <- (kap0_even (_ * (IZR (nth i s 0%Z) * _))). f_equal. ring.
  - reflexivity.
Qed.

Lemma Ww_balanced b c : Forall (fun x => x = 1 \/ x = 0) b -> closed b c -> NoDup c -> (forall x, In x c -> (x < n)%nat) -> balanced n h (Ww b) c.
Proof.
  intros Hb Hc ND HR s Hs. unfold Ww. rewrite Kw_flip by assumption. rewrite <- Rmult_assoc. f_equal. rewrite <- exp_plus. f_equal.
  rewrite cluster_field_eq. rewrite !(sumf_split_mem n c) by assumption.
  rewrite (sumf_ext_in c (fun i => nthR h i * sR (flip_cluster s c) i) (fun i => - (nthR h i * sR s i))).
  - rewrite (sumf_ext_in (filter _ _) (fun i => nthR h i * sR (flip_cluster s c) i) (fun i => nthR h i * sR s i)); [rewrite sumf_opp; ring|].
    intros i Hi. apply filter_In in Hi. destruct Hi as [_ Hi]. apply negb_true_iff in Hi. unfold sR. now rewrite flip_nth_all, Hi.
  - intros i Hi. unfold sR. rewrite flip_nth_all, (proj2 (existsb_eqb_In i c) Hi), opp_IZR. ring.
Qed.

Definition good_order (o : set_order) : Prop := (forall k l, l <> [] -> In (pick o k l) l) /\ (forall k l, Permutation (order o k l) l).

Lemma clusters_ok o b : good_order o -> length b = length v -> exists cs, iter_cluster o (badj b) n = Ok cs /\
  Permutation (concat cs) (range n) /\ (length cs <= n)%nat /\ ForallOrdPairs (fun c c' => disjoint c c' /\ disjoint c' c) cs /\
  Forall (fun c => NoDup c /\ (forall x, In x c -> (x < n)%nat) /\ closed b c /\ c <> [] /\
    forall i j, In i c -> (In j c <-> bond_connected (badj b) i j)) cs.
Proof.
  intros [Hp Ho] Hb. assert (Lb : length (badj b) = n) by apply mk_mat_length.
  assert (Ent : forall i j, (i < n)%nat -> (j < n)%nat -> entry (badj b) i j = symmat n b i j) by (intros; now apply entry_mk_mat).
  destruct (C56_components o (badj b) n) as (cs & E & P & Ne & C).
  - rewrite Lb. apply Forall_forall. intros x Hx. destruct (In_nth _ _ [] Hx) as (i & Hi & <-). rewrite Lb in Hi. unfold badj. rewrite mk_mat_row by assumption. now rewrite map_length, seq_length.
  - rewrite Lb. intros i j Hi Hj. rewrite !Ent by assumption. apply symmat_sym.
  - assumption.
  - assumption.
  - lia.
  - rewrite Lb in P. exists cs. split; [assumption|]. split; [assumption|].
    assert (ND : NoDup (concat cs)) by (apply (Permutation_NoDup (Permutation_sym P)), seq_NoDup).
    destruct (concat_disjoint cs ND) as [D1 D2]. split.
    + assert (Lc : (length cs <= length (concat cs))%nat).
      { clear - Ne. induction cs as [|c cs IH]; [cbn; lia|]. cbn [concat length]. rewrite app_length. specialize (IH ltac:(intros c' H; apply Ne; now right)).
        specialize (Ne c (or_introl eq_refl)). destruct c; [congruence|]. cbn [length]. lia. }
      rewrite (Permutation_length P) in Lc. unfold range in Lc. now rewrite seq_length in Lc.
    + split; [assumption|]. apply Forall_forall. intros c Hc. rewrite Forall_forall in D2. split; [now apply D2|].
      assert (HR : forall x, In x c -> (x < n)%nat).
      { intros x Hx. apply (in_range n x), (Permutation_in _ P), in_concat. now exists c. }
      split; [exact HR|]. split; [|split; [now apply Ne|intros i j Hi; now apply C]].
      intros i j Hi Hj Hic N. apply (C c i Hc Hic). apply rt_step. rewrite Lb, Ent by assumption. auto.
Qed.

(** ** The step *)
Definition clusters_of (o : set_order) (b : list R) : list (list nat) := match iter_cluster o (badj b) n with Ok cs => cs | Err _ => [] end.

Lemma bits_of_length q r : length q = length r -> length (bits_of q r) = length q.
Proof. intros H. unfold bits_of. rewrite map_length, combine_length. lia. Qed.

Lemma sw_one_step_eq o s r u : good_order o -> spins n s -> length r = length v -> in01 r ->
  sw_one_step (script 0) o h v s (r ++ u) = Ok (flip_clusters (script 0) h s (clusters_of o (bits_of (qs s) r)) u).
Proof.
  intros Hg Hs Hr H01. unfold sw_one_step, sw_get_clusters, sw_bonds. rewrite rand_vec_script by assumption. rewrite sample_bonds_bits by assumption.
  assert (Lb : length (bits_of (qs s) r) = length v) by (rewrite bits_of_length; rewrite qs_length; lia).
  rewrite (squareform_vec_ok n) by (try assumption; lia). cbn [bind]. fold (badj (bits_of (qs s) r)).
  assert (La : length (badj (bits_of (qs s) r)) = n) by apply mk_mat_length. rewrite La.
  destruct (clusters_ok o (bits_of (qs s) r) Hg Lb) as (cs & E & _). unfold clusters_of. rewrite E. reflexivity.
Qed.

(** Expected value of F after one step. *)
Definition Psw (o : set_order) (F : list Z -> R) (s : list Z) : R :=
  sumf (all_states [1; 0] (length v)) (fun b => pbits (qs s) b * Gs h (clusters_of o b) F s).

Lemma Evec_step o s N (H : list Z * list R -> R) : good_order o -> spins n s -> (length v + n <= N)%nat ->
  (forall k k' s', (N - (length v + n) <= k)%nat -> (N - (length v + n) <= k')%nat -> spins n s' -> Evec k (fun u => H (s', u)) = Evec k' (fun u => H (s', u))) ->
  Evec N (fun r => match sw_one_step (script 0) o h v s r with Ok st => H st | Err _ => 0 end) =
  Psw o (fun s' => Evec (N - (length v + n)) (fun u => H (s', u))) s.
Proof.
  intros Hg Hs HN HH. replace N with (length v + (N - length v))%nat at 1 by lia. rewrite Evec_app.
  pose (Q := fun b => Gs h (clusters_of o b) (fun s' => Evec (N - (length v + n)) (fun u => H (s', u))) s).
  rewrite (Evec_ext (length v) _ (fun r => Q (bits_of (qs s) r))).
  - assert (EB := Evec_bits (qs s) (qs_bounds s) Q). rewrite qs_length in EB. exact EB.
  - intros r Hr H01. unfold Q. assert (Lb : length (bits_of (qs s) r) = length v) by (rewrite bits_of_length; rewrite qs_length; lia).
    destruct (clusters_ok o (bits_of (qs s) r) Hg Lb) as (cs & E & _ & Lc & _).
    assert (Ec : clusters_of o (bits_of (qs s) r) = cs) by (unfold clusters_of; now rewrite E).
    rewrite (Evec_ext _ _ (fun u => H (flip_clusters (script 0) h s cs u))) by (intros u _ _; rewrite sw_one_step_eq by assumption; now rewrite Ec).
    rewrite Ec. replace (N - length v)%nat with (length cs + (N - length v - length cs))%nat at 1 by lia. rewrite Evec_flips.
    apply (Gs_ext_spins n); [assumption|]. intros s' Hs'. apply HH; [lia|lia|assumption].
Qed.

Lemma Psw_ext o F F' s : spins n s -> (forall s', spins n s' -> F s' = F' s') -> Psw o F s = Psw o F' s.
Proof. intros Hs HF. unfold Psw. apply sumf_ext. intros b. f_equal. now apply (Gs_ext_spins n). Qed.

Lemma Psw_reversible o F G : good_order o ->
  sumf (spin_states n) (fun s => exp (- ienergy n (h ++ v) s) * (G s * Psw o F s)) =
  sumf (spin_states n) (fun s => exp (- ienergy n (h ++ v) s) * (F s * Psw o G s)).
Proof.
  intros Hg.
  assert (K : forall F G, sumf (spin_states n) (fun s => exp (- ienergy n (h ++ v) s) * (G s * Psw o F s)) =
    sumf (all_states [1; 0] (length v)) (fun b => sumf (spin_states n) (fun s => Ww b s * (G s * Gs h (clusters_of o b) F s)))).
  { clear F G. intros F G. rewrite sumf_swap. apply sumf_ext. intros s. unfold Psw. rewrite <- sumf_scal_l, <- sumf_scal_l. apply sumf_ext_in. intros b Hb.
    apply all_states_spec in Hb. rewrite <- joint_weight by apply Hb. ring. }
  rewrite !K. apply sumf_ext_in. intros b Hb. apply all_states_spec in Hb. destruct Hb as [Lb Hb].
  destruct (clusters_ok o b Hg Lb) as (cs & E & _ & _ & D & C). unfold clusters_of. rewrite E. apply Gs_symmetric; [|assumption].
  apply Forall_forall. intros c Hc. rewrite Forall_forall in C. destruct (C c Hc) as (C1 & C2 & C3 & _). apply Ww_balanced; try assumption.
  apply Forall_forall. intros x Hx. destruct (Hb x Hx) as [<-|[<-|[]]]; [now left|now right].
Qed.

Lemma pbits_total : forall q, sumf (all_states [1; 0] (length q)) (pbits q) = 1.
Proof.
  induction q as [|x q IH]; [cbn [length all_states]; rewrite sumf_cons, sumf_nil; unfold pbits; cbn; ring|].
  cbn [length all_states flat_map]. rewrite app_nil_r, sumf_app, !sumf_map.
  rewrite (sumf_ext _ (fun b => pbits (x :: q) (1 :: b)) (fun b => x * pbits q b)) by (intros b; unfold pbits; cbn [combine map fst snd]; now rewrite prodR_cons, Reqb_11).
  rewrite (sumf_ext _ (fun b => pbits (x :: q) (0 :: b)) (fun b => (1 - x) * pbits q b)) by (intros b; unfold pbits; cbn [combine map fst snd]; now rewrite prodR_cons, Reqb_01).
  rewrite !sumf_scal_l. change (fun b => pbits q b) with (pbits q). rewrite IH. ring.
Qed.

Lemma Psw_const o a s : Psw o (fun _ => a) s = a.
Proof.
  unfold Psw. rewrite (sumf_ext _ _ (fun b => a * pbits (qs s) b)) by (intros b; rewrite Gs_const; ring).
  rewrite sumf_scal_l, <- (qs_length s). change (fun b => pbits (qs s) b) with (pbits (qs s)). rewrite pbits_total. ring.
Qed.

Lemma Psw_lin o a b F F' s : Psw o (fun s => a * F s + b * F' s) s = a * Psw o F s + b * Psw o F' s.
Proof. unfold Psw. rewrite <- !sumf_scal_l, <- sumf_plus. apply sumf_ext. intros x. rewrite Gs_lin. ring. Qed.

Lemma Psw_stationary o F : good_order o ->
  sumf (spin_states n) (fun s => exp (- ienergy n (h ++ v) s) * Psw o F s) = sumf (spin_states n) (fun s => exp (- ienergy n (h ++ v) s) * F s).
Proof.
  intros Hg. assert (A := Psw_reversible o F (fun _ => 1) Hg). cbv beta in A.
  rewrite (sumf_ext _ _ (fun s => exp (- ienergy n (h ++ v) s) * (1 * Psw o F s))) by (intros; ring). rewrite A. apply sumf_ext. intros s. rewrite Psw_const. ring.
Qed.

(** ** Every state can follow every state *)
Lemma pbits_nonneg q b : Forall (fun x => 0 <= x <= 1) q -> 0 <= pbits q b.
Proof.
  intros H. revert b. unfold pbits. induction H as [|x q Hx Hq IH]; intros b; [cbn; lra|]. destruct b as [|y b]; [cbn; lra|]. cbn [combine map fst snd]. rewrite prodR_cons.
  apply Rmult_le_pos; [|apply IH]. destruct (Reqb y 1); lra.
Qed.

Lemma pbits_zero_pos s : 0 < pbits (qs s) (repeat 0 (length v)).
Proof.
  assert (E : repeat 0 (length v) = map (fun _ => 0) L).
  { rewrite Hv, <- pairs_seq_length. generalize L. intros l. induction l as [|a l IH]; [reflexivity|]. cbn. now rewrite IH. }
  unfold pbits, qs. rewrite E, combine_maps, map_map. cbn [fst snd]. apply prodR_pos. intros p _. rewrite Reqb_01, one_minus_clamp.
  apply Rmin_glb_lt; [lra|apply exp_pos].
Qed.

Lemma symmat_zero m i j : symmat n (repeat 0 m) i j = 0.
Proof. unfold symmat. assert (G : forall k, nthR (repeat 0 m) k = 0) by (intros k; unfold nthR; apply nth_repeat). destruct (Nat.ltb i j); [apply G|]. destruct (Nat.ltb j i); [apply G|reflexivity]. Qed.

Lemma reach_singles : forall cs s s', Forall (fun c => exists i, c = [i]) cs -> length s = length s' -> Forall spin s -> Forall spin s' ->
  (forall k, ~ In k (concat cs) -> nth k s 0%Z = nth k s' 0%Z) -> reach cs s s'.
Proof.
  induction cs as [|c cs IH]; intros s s' HC HL Hs Hs' HA; cbn [reach].
  - apply (nth_ext _ _ 0%Z 0%Z); [assumption|]. intros k _. apply HA. intros [].
  - inversion HC as [|? ? [i ->] HC']; subst. destruct (Z.eq_dec (nth i s 0%Z) (nth i s' 0%Z)) as [E|N].
    + left. apply IH; try assumption. intros k Hk. destruct (Nat.eq_dec k i) as [->|Nk]; [assumption|]. apply HA. cbn [concat app]. intros [C|C]; [congruence|contradiction].
    + right. apply IH; try assumption.
      * now rewrite flip_cluster_length.
      * apply (flip_cluster_spins (length s) s [i]). now split.
      * intros k Hk. rewrite flip_nth_all. cbn [existsb]. rewrite orb_false_r. destruct (Nat.eqb_spec k i) as [->|Nk].
        -- destruct (Nat.lt_ge_cases i (length s)) as [Li|Li]; [|rewrite !nth_overflow in N by lia; congruence].
           assert (S1 : spin (nth i s 0%Z)) by (now apply Forall_nth_in). assert (S2 : spin (nth i s' 0%Z)) by (apply Forall_nth_in; [assumption|lia]).
           unfold spin in *. lia.
        -- apply HA. cbn [concat app]. intros [C|C]; [congruence|contradiction].
Qed.

Lemma zero_clusters o : good_order o -> Forall (fun c => exists i, c = [i]) (clusters_of o (repeat 0 (length v))) /\
  Permutation (concat (clusters_of o (repeat 0 (length v)))) (range n).
Proof.
  intros Hg. destruct (clusters_ok o (repeat 0 (length v)) Hg ltac:(apply repeat_length)) as (cs & E & P & _ & _ & C). unfold clusters_of. rewrite E. split; [|assumption].
  apply Forall_forall. intros c Hc. rewrite Forall_forall in C. destruct (C c Hc) as (ND & HR & _ & Ne & B).
  destruct c as [|i c]; [congruence|]. exists i. destruct c as [|j c]; [reflexivity|]. exfalso.
  assert (Bj := proj1 (B i j (or_introl eq_refl)) (or_intror (or_introl eq_refl))).
  assert (Eq : forall a b, bond_connected (badj (repeat 0 (length v))) a b -> a = b).
  { intros a b R. induction R as [a b (H1 & H2 & H3)|a|a b c0 _ I1 _ I2]; [|reflexivity|congruence].
    exfalso. apply H3. unfold badj in *. rewrite mk_mat_length in H1, H2. rewrite entry_mk_mat by assumption. apply symmat_zero. }
  apply Eq in Bj. subst j. inversion ND as [|? ? N _]. apply N. now left.
Qed.

Lemma Psw_pos o F s s' : good_order o -> spins n s -> spins n s' -> (forall s, spins n s -> 0 <= F s) -> 0 < F s' -> 0 < Psw o F s.
Proof.
  intros Hg Hs Hs' HF Hp. unfold Psw.
  assert (Hin : In (repeat 0 (length v)) (all_states [1; 0] (length v))).
  { apply all_states_spec. split; [apply repeat_length|]. intros x Hx. apply repeat_spec in Hx. subst. cbn. auto. }
  apply in_split in Hin. destruct Hin as (l1 & l2 & E). rewrite E, sumf_app, sumf_cons.
  assert (NN : forall l, 0 <= sumf l (fun b => pbits (qs s) b * Gs h (clusters_of o b) F s)).
  { intros l. apply sumf_nonneg. intros b _. apply Rmult_le_pos; [apply pbits_nonneg, qs_bounds|now apply (Gs_nonneg n)]. }
  assert (A := NN l1). assert (B := NN l2). destruct (zero_clusters o Hg) as [Z1 Z2].
  assert (C : 0 < Gs h (clusters_of o (repeat 0 (length v))) F s).
  { apply (Gs_pos n h _ F s'); try assumption. destruct Hs as [L1 S1], Hs' as [L2 S2]. apply reach_singles; try assumption; [lia|].
    intros k Hk. rewrite !nth_overflow; [reflexivity| |]; destruct (Nat.lt_ge_cases k n) as [Lk|Lk]; try lia; exfalso; apply Hk; apply (Permutation_in _ (Permutation_sym Z2)), in_range; assumption. }
  assert (D := Rmult_lt_0_compat _ _ (pbits_zero_pos s) C). lra.
Qed.

Lemma exists_max (l : list (list Z)) (r : list Z -> R) : l <> [] -> exists s, In s l /\ forall s', In s' l -> r s' <= r s.
Proof.
  induction l as [|a l IH]; intros H; [congruence|]. destruct l as [|b l]; [exists a; split; [now left|]; intros s' [<-|[]]; lra|].
  destruct (IH ltac:(discriminate)) as (m & Hm & Hmax). destruct (Rle_dec (r a) (r m)) as [L|L].
  - exists m. split; [now right|]. intros s' [<-|Hs']; [assumption|now apply Hmax].
  - exists a. split; [now left|]. intros s' [<-|Hs']; [lra|]. specialize (Hmax s' Hs'). lra.
Qed.

Lemma Psw_unique o p : good_order o ->
  (forall F, sumf (spin_states n) (fun s => p s * Psw o F s) = sumf (spin_states n) (fun s => p s * F s)) ->
  forall s s', In s (spin_states n) -> In s' (spin_states n) -> p s * exp (- ienergy n (h ++ v) s') = p s' * exp (- ienergy n (h ++ v) s).
Proof.
  intros Hg Hp. set (E := ienergy n (h ++ v)). set (r := fun s => p s * exp (E s)).
  assert (Hr : forall s, p s = exp (- E s) * r s).
  { intros s. unfold r. replace (exp (- E s) * (p s * exp (E s))) with (p s * (exp (- E s) * exp (E s))) by ring.
    rewrite <- exp_plus. replace (- E s + E s) with 0 by ring. rewrite exp_0. ring. }
  assert (Harm : forall s, In s (spin_states n) -> Psw o r s = r s).
  { set (d := fun s => Psw o r s - r s).
    assert (Z : sumf (spin_states n) (fun s => exp (- E s) * (d s) ^ 2) = 0).
    { assert (A := Psw_reversible o d r Hg). fold E in A. assert (B := Hp d).
      rewrite (sumf_ext _ (fun s => p s * Psw o d s) (fun s => exp (- E s) * (r s * Psw o d s))) in B by (intros s; rewrite (Hr s); ring).
      rewrite (sumf_ext _ (fun s => p s * d s) (fun s => exp (- E s) * (r s * d s))) in B by (intros s; rewrite (Hr s); ring).
      rewrite A in B. rewrite (sumf_ext _ _ (fun s => exp (- E s) * (d s * Psw o r s) - exp (- E s) * (r s * d s))) by (intros s; unfold d; ring).
      rewrite sumf_minus. lra. }
    intros s Hs. assert (Y := sumf_nonneg_zero (spin_states n) _ (fun s _ => Rmult_le_pos _ _ (Rlt_le _ _ (exp_pos _)) (pow2_ge_0 (d s))) Z s Hs). cbv beta in Y.
    apply Rmult_integral in Y. destruct Y as [Y|Y]; [pose proof (exp_pos (- E s)); lra|]. unfold d in Y. nra. }
  intros s s' Hs Hs'.
  destruct (exists_max (spin_states n) r) as (m & Hm & Hmax); [intros C; rewrite C in Hs; destruct Hs|].
  assert (Const : forall s', In s' (spin_states n) -> r s' = r m).
  { intros s1 H1. destruct (Req_EM_T (r s1) (r m)) as [Q|Q]; [assumption|exfalso]. assert (r s1 < r m) by (specialize (Hmax s1 H1); lra).
    assert (P := Psw_pos o (fun s => r m - r s) m s1 Hg ltac:(now apply spin_states_spec) ltac:(now apply spin_states_spec)).
    specialize (P ltac:(intros s2 H2; specialize (Hmax s2 ltac:(now apply spin_states_spec)); lra) ltac:(lra)).
    rewrite (Psw_ext o _ (fun s => 1 * (fun _ => r m) s + (-1) * r s)) in P; [|now apply spin_states_spec|intros; ring].
    rewrite Psw_lin, Psw_const, Harm in P by assumption. lra. }
  fold E. rewrite (Hr s), (Hr s'), (Const s Hs), (Const s' Hs'). ring.
Qed.

(** ** Many steps *)
Fixpoint Psteps (os : nat -> set_order) (k : nat) (F : list Z -> R) : list Z -> R :=
  match k with 0%nat => F | S k' => Psw (os k') (Psteps os k' F) end.

Lemma flip_clusters_spins {T} (g : rng T) : forall cs s t, spins n s -> spins n (fst (flip_clusters g h s cs t)).
Proof.
  induction cs as [|c cs IH]; intros s t Hs; [exact Hs|]. rewrite flip_clusters_cons. destruct (rand g t) as [u t']. apply IH. destruct (Rlt_dec _ u); [now apply flip_cluster_spins|assumption].
Qed.

Lemma Psteps_ext os : forall k F F' s, spins n s -> (forall s', spins n s' -> F s' = F' s') -> Psteps os k F s = Psteps os k F' s.
Proof. induction k as [|k IH]; intros F F' s Hs HF; cbn [Psteps]; [now apply HF|]. apply Psw_ext; [assumption|]. intros s' Hs'. now apply IH. Qed.

Lemma Evec_steps_k os (H : list Z * list R -> R) : (forall k, good_order (os k)) -> forall k N M s, spins n s -> (k * (length v + n) + M <= N)%nat ->
  (forall a b s', (M <= a)%nat -> (M <= b)%nat -> spins n s' -> Evec a (fun u => H (s', u)) = Evec b (fun u => H (s', u))) ->
  Evec N (fun r => match sw_steps (script 0) os h v k s r with Ok st => H st | Err _ => 0 end) = Psteps os k (fun s' => Evec M (fun u => H (s', u))) s.
Proof.
  intros Hg. induction k as [|k IH]; intros N M s Hs HN HH; cbn [sw_steps Psteps]; [apply HH; [lia|lia|assumption]|].
  set (H' := fun st : list Z * list R => match sw_steps (script 0) os h v k (fst st) (snd st) with Ok st => H st | Err _ => 0 end).
  rewrite (Evec_ext N _ (fun r => match sw_one_step (script 0) (os k) h v s r with Ok st => H' st | Err _ => 0 end)).
  - rewrite (Evec_step (os k) s N H' (Hg k) Hs); [|lia|].
    + apply Psw_ext; [assumption|]. intros s' Hs'. unfold H'. cbn [fst snd]. apply IH; [assumption|lia|assumption].
    + intros k1 k2 s' H1 H2 Hs'. unfold H'. cbn [fst snd]. rewrite !(fun N => IH N M) by (assumption || lia). reflexivity.
  - intros r _ _. destruct (sw_one_step (script 0) (os k) h v s r) as [[s' r']|e]; reflexivity.
Qed.

Lemma Evec_steps os F k N s : (forall k, good_order (os k)) -> spins n s -> (k * (length v + n) <= N)%nat ->
  Evec N (fun r => match sw_steps (script 0) os h v k s r with Ok (s', _) => F s' | Err _ => 0 end) = Psteps os k F s.
Proof.
  intros Hg Hs HN. rewrite (Evec_ext N _ (fun r => match sw_steps (script 0) os h v k s r with Ok st => (fun st => F (fst st)) st | Err _ => 0 end)).
  - rewrite (Evec_steps_k os (fun st => F (fst st)) Hg k N 0) by (try assumption; try lia; intros; cbn [fst]; now rewrite !Evec_const). reflexivity.
  - intros r _ _. destruct (sw_steps (script 0) os h v k s r) as [[s' r']|e]; reflexivity.
Qed.

(** Rows of a sample are independent. *)
Fixpoint rows_prod (Fs : list (list Z -> R)) (rows : list (list Z)) : R :=
  match Fs, rows with F :: Fs', s :: rows' => F s * rows_prod Fs' rows' | _, _ => 1 end.

Fixpoint rows_expect (os : nat -> nat -> set_order) (k : nat) (Fs : list (list Z -> R)) (rows : list (list Z)) : R :=
  match Fs, rows with F :: Fs', s :: rows' => Psteps (os (length rows')) k F s * rows_expect os k Fs' rows' | _, _ => 1 end.

Lemma Psw_scal o a F s : Psw o (fun s => F s * a) s = Psw o F s * a.
Proof.
  unfold Psw. rewrite Rmult_comm, <- sumf_scal_l. apply sumf_ext. intros b. assert (E := Gs_lin h (clusters_of o b) a 0 F F s).
  replace (Gs h (clusters_of o b) (fun s0 => F s0 * a) s) with (Gs h (clusters_of o b) (fun s0 => a * F s0 + 0 * F s0) s); [rewrite E; ring|].
  assert (X : forall cs G G' s, (forall s, G s = G' s) -> Gs h cs G s = Gs h cs G' s).
  { induction cs as [|c cs IH]; intros G G' s0 HG; cbn [Gs]; [apply HG|]. apply Tc_ext. intros s1. now apply IH. }
  apply X. intros; ring.
Qed.

Lemma Psteps_scal os a F : forall k s, spins n s -> Psteps os k (fun s => F s * a) s = Psteps os k F s * a.
Proof.
  induction k as [|k IH]; intros s Hs; cbn [Psteps]; [reflexivity|]. rewrite (Psw_ext _ _ (fun s => Psteps os k F s * a)) by assumption. apply Psw_scal.
Qed.

Lemma Evec_rows os k : (forall i k, good_order (os i k)) -> forall sample Fs N c, length Fs = length sample -> Forall (spins n) sample ->
  (length sample * (k * (length v + n)) <= N)%nat ->
  Evec N (fun r => match sw_generate (script 0) os h v k sample r with Ok (rows, _) => c * rows_prod Fs rows | Err _ => 0 end) = c * rows_expect os k Fs sample.
Proof.
  intros Hg. induction sample as [|s sample IH]; intros [|F Fs] N c HL HS HN; cbn in HL; try lia.
  - cbn [sw_generate rows_prod rows_expect]. apply Evec_const.
  - inversion HS; subst. cbn [length] in HN. cbn [sw_generate rows_expect].
    set (H := fun st : list Z * list R => match sw_generate (script 0) os h v k sample (snd st) with Ok (rows, _) => c * F (fst st) * rows_prod Fs rows | Err _ => 0 end).
    rewrite (Evec_ext N _ (fun r => match sw_steps (script 0) (os (length sample)) h v k s r with Ok st => H st | Err _ => 0 end)).
    + rewrite (Evec_steps_k (os (length sample)) H (Hg _) k N (length sample * (k * (length v + n)))); [|assumption|lia|].
      * rewrite (Psteps_ext _ k _ (fun s' => F s' * (c * rows_expect os k Fs sample))).
        -- rewrite Psteps_scal by assumption. ring.
        -- assumption.
        -- intros s' Hs'. unfold H. cbn [fst snd]. rewrite IH by (assumption || lia). ring.
      * intros a b s' Ha Hb Hs'. unfold H. cbn [fst snd]. rewrite !IH by (assumption || lia). reflexivity.
    + intros r _ _. destruct (sw_steps (script 0) (os (length sample)) h v k s r) as [[s' r']|e]; [|reflexivity]. cbn [bind]. unfold H. cbn [fst snd].
      destruct (sw_generate (script 0) os h v k sample r') as [[rows r'']|e]; [|reflexivity]. cbn [bind rows_prod]. ring.
Qed.

Lemma Psteps_stationary os F : (forall k, good_order (os k)) -> forall k,
  sumf (spin_states n) (fun s => exp (- ienergy n (h ++ v) s) * Psteps os k F s) = sumf (spin_states n) (fun s => exp (- ienergy n (h ++ v) s) * F s).
Proof. intros Hg. induction k as [|k IH]; [reflexivity|]. cbn [Psteps]. now rewrite Psw_stationary by apply Hg. Qed.
End SW.
