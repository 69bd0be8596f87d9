(** * Properties of the Wolff cluster sampler (C57, C76). *)
From Coq Require Import Permutation.
From Coquelicot Require Import Coquelicot.
From Verif Require Import Prelude PreludeFacts Spec M_Index M_Params M_Sampler M_Wolff P_Index P_Energy P_Energy2 P_Params P_RMF P_Sampler P_Metro
  P_Ising P_Lattice P_Wolff P_Wolff2 P_Wolff3.
Import ListNotations.
Local Open Scope R_scope.

(** ** C57 *)
(** What a cluster must be: distinct sites of the system, starting with i0; each of the
    others is linked to an earlier one by a satisfied bond, J_ij s_i s_j > 0. *)
Definition satisfied (J : list (list R)) (s : list Z) (i j : nat) : Prop :=
  0 < entry J j i * (IZR (nth i s 0%Z) * IZR (nth j s 0%Z)).

Definition wolff_cluster (n : nat) (J : list (list R)) (s : list Z) (i0 : nat) (c : list nat) : Prop :=
  NoDup c /\ (forall x, In x c -> (x < n)%nat) /\ hd_error c = Some i0 /\
  (forall k, (0 < k < length c)%nat -> exists k', (k' < k)%nat /\ satisfied J s (nth k' c 0%nat) (nth k c 0%nat)).

Lemma bonded_satisfied n J s i j : (i < n)%nat -> (j < n)%nat -> bonded (exp_dJ n J s) i j -> satisfied J s i j.
Proof.
  intros Hi Hj. unfold bonded, satisfied. rewrite exp_dJ_entry by assumption. rewrite <- exp_0. intros H. apply exp_lt_inv in H. lra.
Qed.

Lemma growing_cluster n J s i0 c : growing n (bonded (exp_dJ n J s)) i0 [] c -> wolff_cluster n J s i0 c.
Proof.
  intros [ND HR _ [l Hl] HB]. split; [assumption|]. split; [assumption|]. split; [now rewrite Hl|]. intros k Hk. destruct (HB k Hk) as (k' & Hk' & B).
  exists k'. split; [assumption|]. apply bonded_satisfied with n; [| |assumption]; apply HR, nth_In; lia.
Qed.

(** Growth terminates: n turns suffice whatever the random numbers. *)
Theorem C57_build_cluster : forall (T : Type) (g : rng T) n J s fuel i0 t, rng_ok g -> (i0 < n)%nat -> (n <= fuel)%nat ->
  exists c t', build_cluster g n (exp_dJ n J s) fuel i0 t = Ok (c, t') /\ wolff_cluster n J s i0 c.
Proof.
  intros T g n J s fuel i0 t Hg Hi Hf. destruct (build_cluster_ok g n (exp_dJ n J s) Hg i0 fuel t Hi Hf) as (c & t' & E & G).
  exists c, t'. split; [assumption|]. now apply growing_cluster.
Qed.
Print Assumptions C57_build_cluster.

(** Without satisfied bonds at the first site nothing is added. *)
Theorem C57_no_bonds : forall (T : Type) (g : rng T) n J s fuel i0 t, rng_ok g -> (i0 < n)%nat -> (n <= fuel)%nat ->
  (forall j, (j < n)%nat -> ~ satisfied J s i0 j) ->
  exists t', build_cluster g n (exp_dJ n J s) fuel i0 t = Ok ([i0], t').
Proof.
  intros T g n J s fuel i0 t Hg Hi Hf HN. destruct (C57_build_cluster T g n J s fuel i0 t Hg Hi Hf) as (c & t' & E & ND & HR & Hh & HB).
  exists t'. rewrite E. destruct c as [|x [|y c]]; [discriminate|injection Hh as <-; reflexivity|]. injection Hh as ->.
  destruct (HB 1%nat ltac:(cbn; lia)) as (k' & Hk' & B). assert (k' = 0%nat) by lia. subst k'. cbn [nth] in B. exfalso. apply (HN y); [apply HR; right; now left|assumption].
Qed.
Print Assumptions C57_no_bonds.

(** A step reverses one such cluster or leaves the state alone; it refuses only clusters
    aligned with the fields. *)
Theorem C57_one_step : forall (T : Type) (g : rng T) self fuel s ini t, rng_ok g -> spins (w_n self) s -> (0 < w_n self)%nat -> (w_n self <= fuel)%nat ->
  (forall k, ini = Some k -> (k < w_n self)%nat) ->
  exists i0 c s' t', one_step g self fuel s ini t = Ok (s', t') /\ spins (w_n self) s' /\
    (forall k, ini = Some (S k) -> i0 = S k) /\
    wolff_cluster (w_n self) (w_J self) s i0 c /\
    ((forall i, (i < w_n self)%nat -> nth i s' 0%Z = if in_dec Nat.eq_dec i c then (- nth i s 0)%Z else nth i s 0%Z) \/
     (s' = s /\ 0 < sumf c (fun i => nthR (w_h self) i * IZR (nth i s 0%Z)))).
Proof.
  intros T g self fuel s ini t Hg Hs Hn Hf Hini. destruct (one_step_ok g self fuel s ini t Hg Hn Hf Hini) as (i0 & c & t' & s' & E & G & Ei & _ & D).
  exists i0, c, s', t'. split; [assumption|]. split; [destruct D as [->|[-> _]]; [now apply flip_cluster_spins|assumption]|].
  split; [intros k ->; now rewrite Ei|]. split; [now apply growing_cluster|]. destruct D as [->|[-> D]]; [left|right].
  - intros i Hi. rewrite flip_cluster_nth by (destruct Hs as [-> _]; assumption). destruct (in_dec Nat.eq_dec i c) as [I|I].
    + now rewrite (proj2 (existsb_eqb_In i c) I).
    + now rewrite (proj2 (existsb_eqb_notIn i c) I).
  - split; [reflexivity|]. rewrite cluster_field_eq in D. exact D.
Qed.
Print Assumptions C57_one_step.

(** Asking for site 0 has no effect: the site is drawn at random. *)
Theorem C57_site_zero_refuted :
  (forall (T : Type) (g : rng T) self fuel s t, one_step g self fuel s (Some 0%nat) t = one_step g self fuel s None t) /\
  exists (g : rng (list R)) self s s' t', rng_ok g /\ w_n self = 2%nat /\ spins 2 s /\
    one_step g self 2 s (Some 0%nat) [0; 0; 0] = Ok (s', t') /\ nth 0 s' 0%Z = nth 0 s 0%Z /\ nth 1 s' 0%Z = (- nth 1 s 0)%Z.
Proof.
  split; [reflexivity|].
  set (g := Rng (list R) (fun r lo hi => (if Nat.ltb lo hi then Nat.pred hi else lo, r)) (fun r => (0, tl r))).
  assert (Hg : rng_ok g).
  { split; [intros t lo hi H; cbn [g randint fst]; rewrite (proj2 (Nat.ltb_lt lo hi) H); lia|intros t; cbn; lra]. }
  set (self := MkWolff 2 [[0;0];[0;0]] [0;0]).
  assert (Hb : exists t', build_cluster g 2 (exp_dJ 2 [[0;0];[0;0]] [1;1]%Z) 2 1 [0;0;0] = Ok ([1%nat], t')).
  { apply C57_no_bonds; [exact Hg|lia|lia|]. intros j Hj. unfold satisfied, entry. destruct j as [|[|j]]; [cbn; lra|cbn; lra|lia]. }
  destruct Hb as (t1 & Hb).
  exists g, self, [1;1]%Z, [1;-1]%Z, (tl t1). split; [exact Hg|]. split; [reflexivity|]. split; [split; [reflexivity|repeat (apply Forall_cons; [unfold spin; lia|]); apply Forall_nil]|].
  split; [|split; reflexivity]. unfold one_step. cbn [w_n w_J w_h self first_site g randint Nat.ltb Nat.leb Nat.pred].
  fold g. rewrite Hb. cbn [bind rand g]. rewrite cluster_field_eq. unfold sR. rewrite sumf_cons, sumf_nil.
  destruct (Rlt_dec 0 _) as [_|N]; [reflexivity|]. exfalso. apply N, exp_pos.
Qed.
Print Assumptions C57_site_zero_refuted.

(** The constructor takes couplings "as vector or matrix"; the vector is accepted and
    means the symmetric matrix, the matrix is rejected for every n except 0 and 3. *)
Theorem C57_vector : forall v h, (1 <= length h)%nat -> length v = (length h * (length h - 1) / 2)%nat ->
  exists self, wolff_init (CVec v) h = Ok self /\ w_n self = length h /\ w_h self = h /\
    forall i j, (i < length h)%nat -> (j < length h)%nat ->
      entry (w_J self) i j = if Nat.eqb i j then 0 else coupling (length h) (h ++ v) i j.
Proof.
  intros v h Hh Hv. eexists. split; [now apply wolff_init_vec|]. cbn [w_n w_h w_J]. split; [reflexivity|]. split; [reflexivity|].
  intros i j Hi Hj. rewrite entry_mk_mat by assumption. destruct (Nat.eqb_spec i j) as [->|N]; [apply symmat_diag|now apply P_Ising.symmat_coupling].
Qed.
Print Assumptions C57_vector.

Theorem C57_matrix_refuted : forall A h, length A = length h -> length h <> 0%nat -> length h <> 3%nat -> wolff_init (CMat A) h = Err AssertionError.
Proof.
  intros A h HA H0 H3. unfold wolff_init. rewrite HA. set (n := length h) in *.
  assert (n <> (n * (n - 1) / 2)%nat).
  { intros C. destruct n as [|[|[|[|m]]]]; try lia; try (cbv in C; lia).
    replace (S (S (S (S m))) * (S (S (S (S m))) - 1))%nat with (S (S (S (S m))) * 2 + (S (S (S (S m))) * (m + 1)))%nat in C by nia.
    rewrite Nat.div_add_l in C by lia. assert (2 <= S (S (S (S m))) * (m + 1))%nat by nia.
    pose proof (Nat.div_le_mono 2 (S (S (S (S m))) * (m + 1)) 2 ltac:(lia) H). change (2 / 2)%nat with 1%nat in H1. lia. }
  destruct (Nat.eqb_spec n (n * (n - 1) / 2)); [contradiction|reflexivity].
Qed.
Print Assumptions C57_matrix_refuted.

(** Histories: they start at the initial state, end at the returned state and move by
    cluster reversals. *)
Definition wolff_move (self : wolff) (s s' : list Z) : Prop :=
  s' = s \/ exists i0 c, wolff_cluster (w_n self) (w_J self) s i0 c /\ s' = flip_cluster s c.

Inductive wolff_path (self : wolff) : list (list Z) -> Prop :=
| path_one s : wolff_path self [s]
| path_cons s s' l : wolff_move self s s' -> wolff_path self (s' :: l) -> wolff_path self (s :: s' :: l).

Lemma path_snoc self l s s' : wolff_path self (l ++ [s]) -> wolff_move self s s' -> wolff_path self (l ++ [s; s']).
Proof.
  induction l as [|a l IH]; intros HP HM; cbn [app] in *.
  - apply path_cons; [assumption|constructor].
  - inversion HP as [|? b l' M P E1]; subst; [destruct l; discriminate|]. destruct l as [|b' l]; cbn [app] in *.
    + injection H as -> ->. apply path_cons; [assumption|]. apply IH; assumption.
    + injection H as -> ->. apply path_cons; [assumption|]. apply IH; assumption.
Qed.

Lemma steps_ok {T} (g : rng T) self fuel given : rng_ok g -> (0 < w_n self)%nat -> (w_n self <= fuel)%nat ->
  forall l s hist t, spins (w_n self) s -> wolff_path self (rev (s :: hist)) ->
  exists s' hist' t', foldM (fun st j =>
           let '(s, hist, t) := st in
           bind (one_step g self fuel s (if given : bool then Some (j mod w_n self)%nat else None) t) (fun st' =>
           Ok (fst st', fst st' :: hist, snd st'))) l (s, s :: hist, t) = Ok (s', s' :: hist', t') /\
    length hist' = (length l + length hist)%nat /\ spins (w_n self) s' /\ wolff_path self (rev (s' :: hist')) /\ (exists pre, s' :: hist' = pre ++ s :: hist).
Proof.
  intros Hg Hn Hf. induction l as [|j l IH]; intros s hist t Hs HP; cbn [foldM].
  - exists s, hist, t. repeat split; try assumption; try apply Hs. now exists [].
  - destruct (one_step_ok g self fuel s (if given then Some (j mod w_n self)%nat else None) t Hg Hn Hf) as (i0 & c & t1 & s1 & E & G & _ & _ & D).
    { intros k. destruct given; [|discriminate]. intros [= <-]. apply Nat.mod_upper_bound. lia. }
    rewrite E. cbn [bind fst snd].
    assert (S1 : spins (w_n self) s1) by (destruct D as [->|[-> _]]; [now apply flip_cluster_spins|assumption]).
    destruct (IH s1 (s :: hist) t1 S1) as (s' & hist' & t' & E' & L' & S' & P' & pre & Q').
    { cbn [rev] in *. rewrite <- app_assoc. apply path_snoc; [assumption|]. destruct D as [->|[-> _]]; [right|now left]. exists i0, c. split; [now apply growing_cluster|reflexivity]. }
    exists s', hist', t'. split; [exact E'|]. split; [cbn [length] in *; lia|]. split; [assumption|]. split; [assumption|].
    exists (pre ++ [s1]). rewrite Q', <- app_assoc. reflexivity.
Qed.

Lemma generate_ok {T} (g : rng T) self fuel n_iters given sample t : rng_ok g -> (0 < w_n self)%nat -> (w_n self <= fuel)%nat ->
  Forall (spins (w_n self)) sample ->
  exists out hist t', wolff_generate g self fuel n_iters given sample t = Ok (out, if given then Some hist else None, t') /\
    length out = length sample /\ length hist = length sample /\ Forall (spins (w_n self)) out /\
    forall i, (i < length sample)%nat -> let l := nth i hist [] in
      length l = S n_iters /\ nth 0 l [] = nth i sample [] /\ nth n_iters l [] = nth i out [] /\ wolff_path self l.
Proof.
  intros Hg Hn Hf HS. unfold wolff_generate.
  set (P := fun (s s' : list Z) (l : list (list Z)) => length l = S n_iters /\ nth 0 l [] = s /\ nth n_iters l [] = s' /\ wolff_path self l /\ spins (w_n self) s').
  assert (K : forall sample out0 hist0 t, Forall (spins (w_n self)) sample -> exists out hist t',
    foldM (fun st s => let '(out, hist, t) := st in bind (steps g self fuel n_iters given s t) (fun r => let '(s', h', t') := r in Ok (out ++ [s'], hist ++ [rev h'], t')))
      sample (out0, hist0, t) = Ok (out0 ++ out, hist0 ++ hist, t') /\ length out = length sample /\ length hist = length sample /\
      forall i, (i < length sample)%nat -> P (nth i sample []) (nth i out []) (nth i hist [])).
  { clear sample t HS. induction sample as [|s sample IH]; intros out0 hist0 t HS; cbn [foldM].
    - exists [], [], t. rewrite !app_nil_r. repeat split; cbn in *; lia.
    - inversion HS as [|? ? Hs HS']; subst.
      destruct (steps_ok g self fuel given Hg Hn Hf (range n_iters) s [] t Hs ltac:(constructor)) as (s' & hist' & t1 & E & L & S' & P' & pre & Q).
      change (steps g self fuel n_iters given s t = Ok (s', s' :: hist', t1)) in E. rewrite E. cbn [bind].
      destruct (IH (out0 ++ [s']) (hist0 ++ [rev (s' :: hist')]) t1 HS') as (out & hist & t' & E' & L1 & L2 & K).
      exists (s' :: out), (rev (s' :: hist') :: hist), t'. rewrite E', <- !app_assoc. split; [reflexivity|]. split; [cbn; lia|]. split; [cbn; lia|].
      intros [|i] Hi; [|cbn [nth]; apply K; cbn in Hi; lia]. cbn [nth]. unfold range in L. rewrite seq_length in L. cbn [length] in L.
      split; [rewrite rev_length; cbn [length]; lia|]. split; [rewrite Q, rev_app_distr; reflexivity|]. split; [|now split].
      rewrite rev_nth by (cbn [length]; lia). cbn [length]. replace (S (length hist') - S n_iters)%nat with 0%nat by lia. reflexivity. }
  destruct (K sample [] [] t HS) as (out & hist & t' & E & L1 & L2 & KK). rewrite E. cbn [bind app]. exists out, hist, t'. split; [reflexivity|]. split; [assumption|]. split; [assumption|]. split.
  - apply Forall_forall. intros x Hx. apply (In_nth _ _ []) in Hx. destruct Hx as (i & Hi & <-). apply KK. lia.
  - intros i Hi. destruct (KK i Hi) as (A & B & C & D & _). now repeat split.
Qed.

(** Histories requested. *)
Theorem C57_history : forall (T : Type) (g : rng T) self fuel n_iters sample t, rng_ok g -> (0 < w_n self)%nat -> (w_n self <= fuel)%nat ->
  Forall (spins (w_n self)) sample ->
  exists out hist t', wolff_generate g self fuel n_iters true sample t = Ok (out, Some hist, t') /\
    length out = length sample /\ length hist = length sample /\ Forall (spins (w_n self)) out /\
    forall i, (i < length sample)%nat -> let l := nth i hist [] in
      length l = S n_iters /\ nth 0 l [] = nth i sample [] /\ nth n_iters l [] = nth i out [] /\ wolff_path self l.
Proof. intros T g self fuel n_iters sample t Hg Hn Hf HS. exact (generate_ok g self fuel n_iters true sample t Hg Hn Hf HS). Qed.
Print Assumptions C57_history.

(** Without the request no history is returned; every row still advances by n_iters
    moves. *)
Theorem C57_no_history : forall (T : Type) (g : rng T) self fuel n_iters sample t, rng_ok g -> (0 < w_n self)%nat -> (w_n self <= fuel)%nat ->
  Forall (spins (w_n self)) sample ->
  exists out t', wolff_generate g self fuel n_iters false sample t = Ok (out, None, t') /\ length out = length sample /\ Forall (spins (w_n self)) out /\
    forall i, (i < length sample)%nat -> exists l, length l = S n_iters /\ nth 0 l [] = nth i sample [] /\ nth n_iters l [] = nth i out [] /\ wolff_path self l.
Proof.
  intros T g self fuel n_iters sample t Hg Hn Hf HS. destruct (generate_ok g self fuel n_iters false sample t Hg Hn Hf HS) as (out & hist & t' & E & L1 & L2 & Sp & K).
  exists out, t'. repeat split; try assumption. intros i Hi. exists (nth i hist []). now apply K.
Qed.
Print Assumptions C57_no_history.


(** Recording a single chain (_generate_sample): row k is the state after
    k*sampleseparation+1 steps, so the first row comes after a single step from the
    random initial state; a separation of 0 raises. *)
Fixpoint after_steps {T} (g : rng T) (self : wolff) (fuel k : nat) (st : list Z * T) : result (list Z * T) :=
  match k with
  | 0%nat => Ok st
  | S k' => bind (one_step g self fuel (fst st) None (snd st)) (after_steps g self fuel k')
  end.

Lemma after_ok {T} (g : rng T) self fuel k : rng_ok g -> (0 < w_n self)%nat -> (w_n self <= fuel)%nat ->
  forall st, exists st', after_steps g self fuel k st = Ok st'.
Proof.
  intros Hg Hn Hf. induction k as [|k IH]; intros st; cbn [after_steps]; [eauto|].
  destruct (one_step_ok g self fuel (fst st) None (snd st) Hg Hn Hf ltac:(discriminate)) as (i0 & c & t1 & s1 & E & _). rewrite E. cbn [bind]. apply IH.
Qed.

Lemma after_snoc {T} (g : rng T) self fuel k : forall st, after_steps g self fuel (S k) st =
  bind (after_steps g self fuel k st) (fun st => one_step g self fuel (fst st) None (snd st)).
Proof.
  induction k as [|k IH]; intros st.
  - cbn [after_steps bind]. destruct (one_step _ _ _ _ _ _); reflexivity.
  - remember (S k) as m. cbn [after_steps]. destruct (one_step g self fuel (fst st) None (snd st)) as [st1|] eqn:E1; cbn [bind].
    + subst m. rewrite IH. cbn [after_steps]. rewrite E1. reflexivity.
    + subst m. cbn [after_steps]. rewrite E1. reflexivity.
Qed.

Theorem C57_single_chain : forall (T : Type) (g : rng T) self fuel iters samplesize sep s t, rng_ok g -> (0 < w_n self)%nat -> (w_n self <= fuel)%nat ->
  (0 < sep)%nat -> (samplesize * sep <= iters)%nat ->
  exists sample t', wolff_chain g self fuel iters samplesize sep s t = Ok (sample, t') /\ length sample = samplesize /\
    forall k, (k < samplesize)%nat -> exists tk, after_steps g self fuel (k * sep + 1) (s, t) = Ok (nth k sample [], tk).
Proof.
  intros T g self fuel iters samplesize sep s t Hg Hn Hf Hsep Hit. unfold wolff_chain.
  set (Rec := fun sample : list (list Z) => forall k, (k < length sample)%nat -> exists tk, after_steps g self fuel (k * sep + 1) (s, t) = Ok (nth k sample [], tk)).
  (* turns left before the last record: (need-1)*sep + distance to the next multiple *)
  assert (K : forall iters need counter s1 t1 sample d, after_steps g self fuel counter (s, t) = Ok (s1, t1) -> Rec sample -> 
     (d < sep)%nat -> (counter + d = length sample * sep)%nat -> (need = 0 \/ (need - 1) * sep + d < iters)%nat ->
     exists sample' t', chain_loop g self fuel sep iters need counter s1 sample t1 = Ok (sample', t') /\ length sample' = (need + length sample)%nat /\ Rec sample').
  { clear iters Hit. induction iters as [|iters IH]; intros need counter s1 t1 sample d HA HR Hd Hc Hi.
    - destruct need as [|need]; [|lia]. cbn [chain_loop]. exists sample, t1. split; [reflexivity|]. split; [reflexivity|assumption].
    - destruct need as [|need]; cbn [chain_loop]; [exists sample, t1; split; [reflexivity|]; split; [reflexivity|assumption]|].
      destruct (one_step_ok g self fuel s1 None t1 Hg Hn Hf ltac:(discriminate)) as (i0 & c & t2 & s2 & E & _). rewrite E. cbn [bind].
      assert (HA' : after_steps g self fuel (S counter) (s, t) = Ok (s2, t2)) by (rewrite after_snoc, HA; exact E).
      destruct sep as [|sep'] eqn:Es; [lia|]. rewrite <- Es in *.
      destruct (Nat.eqb_spec (counter mod sep) 0) as [M|M].
      + assert (d = 0)%nat.
        { destruct (Nat.eq_dec d 0); [assumption|]. exfalso. apply (Nat.mod_divides counter sep) in M; [|lia]. destruct M as [q M]. assert (counter = length sample * sep - d)%nat by lia.
          destruct (Nat.lt_ge_cases q (length sample)) as [Q|Q]; nia. }
        subst d. destruct (IH need (S counter) s2 t2 (sample ++ [s2]) (sep - 1)%nat HA') as (sample' & t' & E1 & L1 & R1).
        * intros k Hk. rewrite app_length in Hk. cbn [length] in Hk. destruct (Nat.lt_ge_cases k (length sample)) as [Hk'|Hk'].
          -- rewrite app_nth1 by assumption. now apply HR.
          -- assert (k = length sample) by lia. subst k. exists t2. rewrite app_nth2, Nat.sub_diag by lia. cbn [nth]. rewrite <- HA'. f_equal. lia.
        * lia.
        * rewrite app_length. cbn [length]. nia.
        * destruct (Nat.eq_dec need 0); [now left|right]. cbn in Hi. nia.
        * exists sample', t'. split; [exact E1|]. split; [|exact R1]. rewrite L1, app_length. cbn [length]. lia.
      + assert (d <> 0)%nat. { intros ->. apply M. replace counter with (length sample * sep)%nat by lia. apply Nat.mod_mul. lia. }
        destruct (IH (S need) (S counter) s2 t2 sample (d - 1)%nat HA' HR) as (sample' & t' & E1 & L1 & R1); [lia|lia|right; cbn; cbn in Hi; lia|].
        exists sample', t'. split; [exact E1|]. split; assumption. }
  destruct (K iters samplesize 0%nat s t [] 0%nat eq_refl) as (sample & t' & E & L & HR).
  - intros k Hk. cbn in Hk. lia.
  - lia.
  - reflexivity.
  - destruct (Nat.eq_dec samplesize 0); [now left|right]. nia.
  - exists sample, t'. cbn [length] in L. rewrite Nat.add_0_r in L. split; [exact E|]. split; [exact L|]. intros k Hk. apply HR. lia.
Qed.
Print Assumptions C57_single_chain.

Theorem C57_zero_separation : forall (T : Type) (g : rng T) self fuel iters samplesize s t, rng_ok g -> (0 < w_n self)%nat -> (w_n self <= fuel)%nat ->
  (0 < samplesize)%nat -> (0 < iters)%nat -> wolff_chain g self fuel iters samplesize 0 s t = Err ZeroDivisionError.
Proof.
  intros T g self fuel [|iters] [|m] s t Hg Hn Hf H1 H2; try lia. unfold wolff_chain. cbn [chain_loop].
  destruct (one_step_ok g self fuel s None t Hg Hn Hf ltac:(discriminate)) as (i0 & c & t2 & s2 & E & _). rewrite E. reflexivity.
Qed.
Print Assumptions C57_zero_separation.

(** SWIsing cannot be constructed. *)
Theorem C57_swendsen_wang_refuted : forall n theta, sw_init n theta = Err NotImplementedError.
Proof. reflexivity. Qed.
Print Assumptions C57_swendsen_wang_refuted.

Example C57_example :
  let g := Rng unit (fun t lo _ => (lo, t)) (fun t => (1/4, t)) in
  rng_ok g /\ exists self, wolff_init (CVec [1]) [0; 0] = Ok self /\ spins (w_n self) [1; 1]%Z /\ satisfied (w_J self) [1; 1]%Z 0 1 /\
    one_step g self 2 [1; 1]%Z None tt = Ok ([-1; -1]%Z, tt).
Proof.
  intros g. assert (Hg : rng_ok g) by (split; [intros t lo hi H; cbn; lia|intros t; cbn; lra]). split; [exact Hg|].
  eexists. split; [apply wolff_init_vec; cbn; [lia|reflexivity]|]. cbn [w_n w_J length]. split; [split; [reflexivity|repeat (apply Forall_cons; [unfold spin; lia|]); apply Forall_nil]|].
  split; [unfold satisfied; rewrite entry_mk_mat by lia; unfold symmat; cbn; lra|].
  assert (X : exp (-2) < 3/4).
  { pose proof (exp_ineq1 2 ltac:(lra)) as Y. assert (Q : exp 2 * exp (-2) = 1) by (rewrite <- exp_plus; replace (2 + -2) with 0 by ring; apply exp_0). pose proof (exp_pos (-2)). nra. }
  assert (E10 : forall i j, (i < 2)%nat -> (j < 2)%nat -> i <> j -> entry (exp_dJ 2 (mk_mat 2 2 (symmat 2 [1])) [1; 1]%Z) i j = exp (-2)).
  { intros i j Hi Hj N. rewrite exp_dJ_entry, entry_mk_mat by assumption. f_equal. unfold symmat. destruct i as [|[|i]], j as [|[|j]]; try lia; cbn; ring. }
  unfold one_step. cbn [w_n w_J w_h]. cbn [first_site randint g]. unfold build_cluster. cbn [Nat.ltb Nat.leb grow find_neighbors rand_vec rand g].
  assert (F1 : iterate_neighbors 2 (mark 2 [0%nat] 0) (column (exp_dJ 2 (mk_mat 2 2 (symmat 2 [1])) [1; 1]%Z) 2 0) [1/4; 1/4] = [1%nat]).
  { unfold iterate_neighbors, column, mark, range. cbn [seq map filter existsb Nat.eqb orb nth negb andb]. unfold nthR. cbn [nth].
    rewrite (E10 1%nat 0%nat) by lia. destruct (Rlt_dec (1/4) (1 - exp (-2))) as [_|N]; [reflexivity|]. exfalso. apply N. lra. }
  rewrite F1. cbn [app]. 
  assert (F2 : iterate_neighbors 2 (mark 2 [0%nat; 1%nat] 1) (column (exp_dJ 2 (mk_mat 2 2 (symmat 2 [1])) [1; 1]%Z) 2 1) [1/4; 1/4] = []) by reflexivity.
  rewrite F2. cbn [app bind]. rewrite cluster_field_eq. rewrite !sumf_cons, sumf_nil. unfold sR. cbn [nth nthR].
  destruct (Rlt_dec _ _) as [_|N]; [reflexivity|]. exfalso. apply N. unfold nthR; cbn. replace (-2 * (0 * 1 + (0 * 1 + 0))) with 0 by ring. rewrite exp_0. lra.
Qed.

(** ** C76 *)
(** Steps of the sampler for couplings v and fields h, the random numbers being
    independent and uniform: the Boltzmann distribution is stationary for every way of
    choosing the first site (drawn, or given as save_history does)... *)
Theorem C76_stationary : forall h v ini i0 F, let n := length h in
  (match ini with Some (S k) => S k | _ => i0 end < n)%nat ->
  sumf (spin_states n) (fun s => exp (- ienergy n (h ++ v) s) *
    Evec (n * n + 1) (fun r => match one_step (script i0) (MkWolff n (mk_mat n n (symmat n v)) h) n s ini r with Ok (s', _) => F s' | Err _ => 0 end)) =
  sumf (spin_states n) (fun s => exp (- ienergy n (h ++ v) s) * F s).
Proof. intros h v ini i0 F n Hi. exact (site_stationary n h v eq_refl ini i0 F Hi). Qed.
Print Assumptions C76_stationary.

(** ...detailed balance holds between any two states... *)
Definition wolff_expect (h v : list R) (F : list Z -> R) (s : list Z) : R :=
  let n := length h in
  sumf (seq 0 n) (fun i0 => Evec (n * n + 1) (fun r =>
    match one_step (script i0) (MkWolff n (mk_mat n n (symmat n v)) h) n s None r with Ok (s', _) => F s' | Err _ => 0 end)) / INR n.

Theorem C76_detailed_balance : forall h v G F, (0 < length h)%nat -> let n := length h in
  sumf (spin_states n) (fun s => exp (- ienergy n (h ++ v) s) * (G s * wolff_expect h v F s)) =
  sumf (spin_states n) (fun s => exp (- ienergy n (h ++ v) s) * (F s * wolff_expect h v G s)).
Proof. intros h v G F Hn n. exact (step_reversible n h v eq_refl G F Hn). Qed.
Print Assumptions C76_detailed_balance.

(** ...and it is the only stationary distribution when the site is drawn. *)
Theorem C76_unique : forall h v p, (0 < length h)%nat -> let n := length h in
  (forall F, sumf (spin_states n) (fun s => p s * wolff_expect h v F s) = sumf (spin_states n) (fun s => p s * F s)) ->
  sumf (spin_states n) p = 1 ->
  forall s, In s (spin_states n) -> p s = exp (- ienergy n (h ++ v) s) / sumf (spin_states n) (fun s => exp (- ienergy n (h ++ v) s)).
Proof.
  intros h v p Hn n Hp H1 s Hs. assert (U := step_unique n h v eq_refl p Hn Hp).
  assert (Z : 0 < sumf (spin_states n) (fun s => exp (- ienergy n (h ++ v) s))).
  { apply sumf_pos; [intros E; rewrite E in Hs; destruct Hs|]. intros x _. apply exp_pos. }
  apply (Rmult_eq_reg_r (sumf (spin_states n) (fun s => exp (- ienergy n (h ++ v) s)))); [|lra].
  replace (exp (- ienergy n (h ++ v) s) / sumf (spin_states n) (fun s0 => exp (- ienergy n (h ++ v) s0)) * sumf (spin_states n) (fun s0 => exp (- ienergy n (h ++ v) s0))) with (exp (- ienergy n (h ++ v) s)) by (field; lra).
  rewrite <- sumf_scal_l. rewrite (sumf_ext_in (spin_states n) _ (fun s' => p s' * exp (- ienergy n (h ++ v) s))) by (intros s' Hs'; now apply U).
  rewrite sumf_scal_r, H1. ring.
Qed.
Print Assumptions C76_unique.

Example C76_example : exists s s', In s (spin_states 2) /\ In s' (spin_states 2) /\ ienergy 2 ([1; 0] ++ [1]) s <> ienergy 2 ([1; 0] ++ [1]) s' /\
  forall F, sumf (spin_states 2) (fun s => exp (- ienergy 2 ([1; 0] ++ [1]) s) * wolff_expect [1; 0] [1] F s) =
            sumf (spin_states 2) (fun s => exp (- ienergy 2 ([1; 0] ++ [1]) s) * F s).
Proof.
  exists [1; 1]%Z, [1; -1]%Z. split; [apply spin_states_spec; split; [reflexivity|repeat (apply Forall_cons; [unfold spin; lia|]); apply Forall_nil]|]. split; [apply spin_states_spec; split; [reflexivity|repeat (apply Forall_cons; [unfold spin; lia|]); apply Forall_nil]|]. split.
  - unfold ienergy, ising_energy. intros C. revert C. cbn. unfold nthR. cbn. lra.
  - intros F. exact (step_stationary 2 [1; 0] [1] eq_refl F ltac:(lia)).
Qed.
