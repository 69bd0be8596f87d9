(** * Facts about the growth of Wolff clusters. *)
From Coq Require Import Permutation.
From Verif Require Import Prelude PreludeFacts Spec M_Index M_Params M_Sampler M_Wolff P_Index P_Energy P_Energy2 P_Params P_RMF P_Sampler P_Ising.
Import ListNotations.
Local Open Scope R_scope.

Lemma existsb_eqb_In x l : existsb (Nat.eqb x) l = true <-> In x l.
Proof.
  rewrite existsb_exists. split; [intros (y & Hy & E); apply Nat.eqb_eq in E; now subst|]. intros H. exists x. split; [assumption|apply Nat.eqb_refl].
Qed.

Lemma existsb_eqb_notIn x l : existsb (Nat.eqb x) l = false <-> ~ In x l.
Proof. rewrite <- existsb_eqb_In. symmetry. apply not_true_iff_false. Qed.

Lemma mark_nth n marked site i : (i < n)%nat -> nth i (mark n marked site) false = (existsb (Nat.eqb i) marked || Nat.eqb i site)%bool.
Proof. intros H. unfold mark, range. now rewrite nth_map_seq. Qed.

Lemma rand_vec_length {T} (g : rng T) n : forall t, length (fst (rand_vec g n t)) = n.
Proof. induction n as [|n IH]; intros t; [reflexivity|]. cbn [rand_vec]. destruct (rand g t) as [u t1]. specialize (IH t1). destruct (rand_vec g n t1). cbn in *. lia. Qed.

Lemma rand_vec_bounds {T} (g : rng T) n : rng_ok g -> forall t i, (i < n)%nat -> 0 <= nthR (fst (rand_vec g n t)) i < 1.
Proof.
  intros [_ Hr]. induction n as [|n IH]; intros t i Hi; [lia|]. cbn [rand_vec]. pose proof (Hr t) as H. destruct (rand g t) as [u t1]. specialize (IH t1).
  destruct (rand_vec g n t1) as [r t2]. cbn [fst] in *. destruct i as [|i]; [exact H|]. apply (IH i). lia.
Qed.

(** What is known about the sites added in one call. *)
Lemma iterate_neighbors_spec n marked site e r i :
  In i (iterate_neighbors n (mark n marked site) e r) <->
  (i < n)%nat /\ ~ In i marked /\ i <> site /\ nthR r i < 1 - nthR e i.
Proof.
  unfold iterate_neighbors. rewrite filter_In, in_range. split.
  - intros [Hi H]. rewrite mark_nth in H by assumption. apply andb_true_iff in H. destruct H as [H1 H2]. apply negb_true_iff, orb_false_iff in H1.
    destruct H1 as [H1 H3]. apply existsb_eqb_notIn in H1. apply Nat.eqb_neq in H3. destruct (Rlt_dec _ _); [|discriminate]. auto.
  - intros (Hi & H1 & H2 & H3). split; [assumption|]. rewrite mark_nth by assumption. apply existsb_eqb_notIn in H1. apply Nat.eqb_neq in H2. rewrite H1, H2.
    destruct (Rlt_dec _ _); [reflexivity|contradiction].
Qed.

Lemma iterate_neighbors_NoDup n ix e r : NoDup (iterate_neighbors n ix e r).
Proof. unfold iterate_neighbors. apply NoDup_filter, seq_NoDup. Qed.

Lemma NoDup_app_disj {A} (l m : list A) : NoDup l -> NoDup m -> (forall x, In x m -> ~ In x l) -> NoDup (l ++ m).
Proof.
  intros Hl Hm H. induction Hl as [|a l Ha Hl IH]; cbn; [assumption|]. constructor.
  - rewrite in_app_iff. intros [C|C]; [contradiction|]. apply (H a C). now left.
  - apply IH. intros x Hx C. apply (H x Hx). now right.
Qed.

(** The state of the growth: sites distinct and in range, sites to explore are
    marked, every site but the first is bonded to an earlier one. *)
Record growing (n : nat) (bond : nat -> nat -> Prop) (i0 : nat) (newSites marked : list nat) : Prop := {
  gr_nodup : NoDup marked;
  gr_range : forall x, In x marked -> (x < n)%nat;
  gr_new : forall x, In x newSites -> In x marked;
  gr_first : exists l, marked = i0 :: l;
  gr_bond : forall k, (0 < k < length marked)%nat -> exists k', (k' < k)%nat /\ bond (nth k' marked 0%nat) (nth k marked 0%nat) }.

Lemma nodup_le n l : NoDup l -> (forall x, In x l -> (x < n)%nat) -> (length l <= n)%nat.
Proof.
  intros H1 H2. rewrite <- (seq_length n 0). apply NoDup_incl_length; [assumption|]. intros x Hx. apply in_seq. specialize (H2 x Hx). lia.
Qed.

Section Grow.
Context {T : Type}.
Variables (g : rng T) (n : nat) (e : list (list R)).
Hypothesis Hg : rng_ok g.

Definition bonded (i j : nat) : Prop := entry e j i < 1.

Lemma find_neighbors_growing i0 s0 rest marked t : growing n bonded i0 (s0 :: rest) marked ->
  let '(nb, marked', _) := find_neighbors g n e s0 marked t in
  growing n bonded i0 (rest ++ nb) marked' /\ marked' = marked ++ nb.
Proof.
  intros G. unfold find_neighbors. pose proof (rand_vec_bounds g n Hg t) as RB. destruct (rand_vec g n t) as [r t1]. cbn [fst] in RB.
  set (nb := iterate_neighbors n (mark n marked s0) (column e n s0) r). split; [|reflexivity].
  assert (S : forall x, In x nb -> (x < n)%nat /\ ~ In x marked /\ bonded s0 x).
  { intros x Hx. apply iterate_neighbors_spec in Hx. destruct Hx as (H1 & H2 & H3 & H4). split; [assumption|]. split; [assumption|].
    unfold bonded. unfold column, range in H4. rewrite nthR_map_seq in H4 by assumption. specialize (RB x H1). lra. }
  destruct G as [G1 G2 G3 [l G4] G5]. assert (Hs0 : In s0 marked) by (apply G3; now left). constructor.
  - apply NoDup_app_disj; [assumption|apply iterate_neighbors_NoDup|]. intros x Hx. now apply S.
  - intros x Hx. apply in_app_iff in Hx. destruct Hx as [Hx|Hx]; [now apply G2|now apply S].
  - intros x Hx. apply in_app_iff in Hx. apply in_app_iff. destruct Hx as [Hx|Hx]; [left; apply G3; now right|now right].
  - exists (l ++ nb). now rewrite G4.
  - intros k Hk. rewrite app_length in Hk. destruct (Nat.lt_ge_cases k (length marked)) as [H|H].
    + destruct (G5 k ltac:(lia)) as (k' & Hk' & B). exists k'. split; [assumption|]. rewrite !app_nth1 by lia. exact B.
    + destruct (In_nth marked s0 0%nat Hs0) as (k' & Hk' & E). exists k'. split; [lia|]. rewrite app_nth1 by lia. rewrite app_nth2 by lia. rewrite E.
      apply S. apply nth_In. lia.
Qed.

Lemma grow_ok i0 : forall fuel newSites marked t, growing n bonded i0 newSites marked -> (length newSites + n <= fuel + length marked)%nat ->
  exists c t', grow g n e fuel newSites marked t = Ok (c, t') /\ growing n bonded i0 [] c.
Proof.
  induction fuel as [|fuel IH]; intros newSites marked t G Hf.
  - destruct newSites as [|s0 rest]; [exists marked, t; split; [reflexivity|assumption]|].
    pose proof (nodup_le n marked (gr_nodup _ _ _ _ _ G) (gr_range _ _ _ _ _ G)). cbn in Hf. lia.
  - destruct newSites as [|s0 rest]; [exists marked, t; split; [reflexivity|assumption]|]. cbn [grow].
    pose proof (find_neighbors_growing i0 s0 rest marked t G) as F. destruct (find_neighbors g n e s0 marked t) as [[nb marked'] t']. destruct F as [F1 F2].
    apply IH; [assumption|]. rewrite F2, !app_length. cbn in Hf. lia.
Qed.

Lemma build_cluster_ok i0 fuel t : (i0 < n)%nat -> (n <= fuel)%nat ->
  exists c t', build_cluster g n e fuel i0 t = Ok (c, t') /\ growing n bonded i0 [] c.
Proof.
  intros Hi Hf. unfold build_cluster. apply Nat.ltb_lt in Hi as Hb. rewrite Hb. apply grow_ok; [|cbn; lia]. constructor.
  - repeat constructor. intros [].
  - intros x [<-|[]]. assumption.
  - intros x Hx. exact Hx.
  - now exists [].
  - cbn. lia.
Qed.
End Grow.

(** ** The flip *)
Lemma flip_cluster_length s c : length (flip_cluster s c) = length s.
Proof. unfold flip_cluster, range. now rewrite map_length, seq_length. Qed.

Lemma flip_cluster_nth s c i : (i < length s)%nat -> nth i (flip_cluster s c) 0%Z = if existsb (Nat.eqb i) c then (- nth i s 0)%Z else nth i s 0%Z.
Proof. intros H. unfold flip_cluster, range. rewrite nth_map_seq by assumption. destruct (existsb _ c); lia. Qed.

Lemma flip_cluster_spins n s c : spins n s -> spins n (flip_cluster s c).
Proof.
  intros [H1 H2]. split; [now rewrite flip_cluster_length|]. apply Forall_forall. intros z Hz. destruct (In_nth _ _ 0%Z Hz) as (i & Hi & <-).
  rewrite flip_cluster_length in Hi. rewrite flip_cluster_nth by assumption. assert (S : spin (nth i s 0%Z)) by (now apply Forall_nth_in).
  unfold spin in *. destruct (existsb _ c); lia.
Qed.

Lemma flip_cluster_twice s c : flip_cluster (flip_cluster s c) c = s.
Proof.
  apply (nth_ext _ _ 0%Z 0%Z); [now rewrite !flip_cluster_length|]. intros i Hi. rewrite !flip_cluster_length in Hi.
  rewrite !flip_cluster_nth by (rewrite ?flip_cluster_length; assumption). destruct (existsb _ c); lia.
Qed.

(** ** The constructor *)
Lemma wolff_init_vec v h : (1 <= length h)%nat -> length v = (length h * (length h - 1) / 2)%nat ->
  wolff_init (CVec v) h = Ok (MkWolff (length h) (mk_mat (length h) (length h) (symmat (length h) v)) h).
Proof.
  intros Hh Hv. unfold wolff_init. rewrite Hv, Nat.eqb_refl. cbn [negb]. rewrite (squareform_vec_ok (length h)) by assumption. reflexivity.
Qed.

Lemma exp_dJ_entry n J s i j : (i < n)%nat -> (j < n)%nat ->
  entry (exp_dJ n J s) i j = exp (-2 * IZR (nth i s 0%Z) * entry J i j * IZR (nth j s 0%Z)).
Proof. intros. unfold exp_dJ. now rewrite entry_mk_mat. Qed.

(** One step: the cluster is grown, then reversed or not. *)
Lemma one_step_ok {T} (g : rng T) self fuel s ini t : rng_ok g -> (0 < w_n self)%nat -> (w_n self <= fuel)%nat ->
  (forall k, ini = Some k -> (k < w_n self)%nat) ->
  exists i0 c t' s', one_step g self fuel s ini t = Ok (s', t') /\ growing (w_n self) (bonded (exp_dJ (w_n self) (w_J self) s)) i0 [] c /\
    i0 = fst (first_site g (w_n self) ini t) /\ (i0 < w_n self)%nat /\
    (s' = flip_cluster s c \/ (s' = s /\ 0 < cluster_field (w_h self) s c)).
Proof.
  intros Hg Hn Hf Hini. unfold one_step.
  assert (Hi0 : (fst (first_site g (w_n self) ini t) < w_n self)%nat).
  { unfold first_site. destruct Hg as [Hr _]. specialize (Hr t 0%nat (w_n self) Hn). destruct ini as [[|k]|]; [lia|cbn; now apply Hini|lia]. }
  destruct (first_site g (w_n self) ini t) as [i0 t1]. cbn [fst] in Hi0.
  destruct (build_cluster_ok g (w_n self) (exp_dJ (w_n self) (w_J self) s) Hg i0 fuel t1 Hi0 Hf) as (c & t2 & -> & G). cbn [bind].
  pose proof (proj2 Hg t2) as Hu. destruct (rand g t2) as [u t3]. cbn [fst] in Hu. exists i0, c, t3.
  destruct (Rlt_dec u _) as [L|L]; eexists; (split; [reflexivity|]); (split; [assumption|]); (split; [reflexivity|]); (split; [assumption|]).
  - now left.
  - right. split; [reflexivity|]. apply Rnot_lt_le in L. destruct (Rlt_dec 0 (cluster_field (w_h self) s c)); [assumption|exfalso].
    assert (1 <= exp (-2 * cluster_field (w_h self) s c)); [|lra]. rewrite <- exp_0. destruct (Rle_lt_or_eq_dec 0 (-2 * cluster_field (w_h self) s c)) as [H|H]; [lra|left; now apply exp_increasing|rewrite <- H; lra].
Qed.
