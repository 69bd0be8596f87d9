(** * The Wolff step leaves the Boltzmann distribution unchanged. *)
From Coq Require Import Permutation.
From Coquelicot Require Import Coquelicot.
From Verif Require Import Prelude PreludeFacts Spec M_Index M_Params M_Sampler M_Wolff P_Index P_Energy P_Energy2 P_Params P_RMF P_Sampler P_Metro P_Ising P_Lattice P_Wolff.
Import ListNotations.
Local Open Scope R_scope.

(** ** Averages over independent uniform numbers *)
(** Expected value of F of a list of m independent numbers, uniform on [0,1]. *)
Fixpoint Evec (m : nat) (F : list R -> R) : R :=
  match m with
  | 0%nat => F []
  | S m' => RInt (fun u => Evec m' (fun r => F (u :: r))) 0 1
  end.

Lemma RInt_ext01 (f g : R -> R) : (forall u, 0 < u < 1 -> f u = g u) -> RInt f 0 1 = RInt g 0 1.
Proof. intros H. apply RInt_ext. intros u Hu. rewrite Rmin_left, Rmax_right in Hu by lra. now apply H. Qed.

Definition in01 (r : list R) : Prop := forall u, In u r -> 0 < u < 1.

Lemma Evec_ext m : forall F G, (forall r, length r = m -> in01 r -> F r = G r) -> Evec m F = Evec m G.
Proof.
  induction m as [|m IH]; intros F G H; cbn [Evec]; [apply H; [reflexivity|intros u []]|].
  apply RInt_ext01. intros u Hu. apply IH. intros r Hr Hr01. apply H; [cbn; lia|]. intros v [<-|Hv]; [assumption|now apply Hr01].
Qed.

Lemma RInt_const01 (c : R) : RInt (fun _ => c) 0 1 = c.
Proof. rewrite RInt_const. unfold scal. cbn. unfold mult. cbn. ring. Qed.

Lemma Evec_const m c : Evec m (fun _ => c) = c.
Proof. induction m as [|m IH]; cbn [Evec]; [reflexivity|]. transitivity (RInt (fun _ => c) 0 1); [apply RInt_ext01; intros u _; apply IH|apply RInt_const01]. Qed.

Lemma Evec_app a : forall b F, Evec (a + b) F = Evec a (fun r1 => Evec b (fun r2 => F (r1 ++ r2))).
Proof.
  induction a as [|a IH]; intros b F; cbn [Nat.add Evec app]; [reflexivity|]. apply RInt_ext01. intros u _. apply IH.
Qed.

(** A generator that plays back a list of uniform numbers; the random site is [i]. *)
Definition script (i : nat) : rng (list R) := Rng (list R) (fun r _ _ => (i, r)) (fun r => (hd 0 r, tl r)).

Lemma rand_vec_script i n : forall r1 r2, length r1 = n -> rand_vec (script i) n (r1 ++ r2) = (r1, r2).
Proof.
  induction n as [|n IH]; intros [|u r1] r2 H; cbn in H; try lia; [reflexivity|]. cbn [rand_vec script rand app hd tl].
  fold (script i). rewrite IH by lia. reflexivity.
Qed.

(** ** Random subsets *)
(** Independent coins: site x is skipped when [skip x], otherwise it belongs to the
    subset with probability [p x]. *)
Fixpoint Esub (skip : nat -> bool) (p : nat -> R) (l : list nat) (Q : list nat -> R) : R :=
  match l with
  | [] => Q []
  | x :: l' => if skip x then Esub skip p l' Q
               else p x * Esub skip p l' (fun A => Q (x :: A)) + (1 - p x) * Esub skip p l' Q
  end.

Definition clampP (e : R) : R := Rmax 0 (1 - e).

Lemma Evec_Esub skip (e : nat -> R) : (forall i, 0 <= e i) -> forall m k Q,
  Evec m (fun r => Q (filter (fun i => negb (skip i) && (if Rlt_dec (nthR r (i - k)) (1 - e i) then true else false)) (seq k m))) =
  Esub skip (fun i => clampP (e i)) (seq k m) Q.
Proof.
  intros He. induction m as [|m IH]; intros k Q; [reflexivity|]. cbn [Evec seq Esub].
  set (Rest := fun r => filter (fun i => negb (skip i) && (if Rlt_dec (nthR r (i - S k)) (1 - e i) then true else false)) (seq (S k) m)).
  assert (T : forall u r, filter (fun i => negb (skip i) && (if Rlt_dec (nthR (u :: r) (i - k)) (1 - e i) then true else false)) (seq (S k) m) = Rest r).
  { intros u r. unfold Rest. apply filter_ext_in. intros i Hi. apply in_seq in Hi. replace (i - k)%nat with (S (i - S k)) by lia. reflexivity. }
  destruct (skip k) eqn:Sk.
  - transitivity (RInt (fun _ => Esub skip (fun i => clampP (e i)) (seq (S k) m) Q) 0 1); [|apply RInt_const01].
    apply RInt_ext01. intros u Hu. rewrite <- IH. apply Evec_ext. intros r Hr _. cbn [filter]. rewrite Sk. cbn [negb andb]. now rewrite T.
  - apply is_RInt_unique. apply RInt_below.
    + unfold clampP. split; [apply Rmax_l|]. apply Rmax_lub; [lra|]. specialize (He k). lra.
    + intros u Hu. unfold clampP. destruct (Rlt_dec u (Rmax 0 (1 - e k))) as [L|L].
      * rewrite <- IH. apply Evec_ext. intros r Hr _. cbn [filter]. rewrite Sk, Nat.sub_diag, T. cbn [negb andb]. unfold nthR. cbn [nth].
        destruct (Rlt_dec u (1 - e k)); [reflexivity|]. unfold Rmax in L. destruct (Rle_dec 0 (1 - e k)); lra.
      * rewrite <- IH. apply Evec_ext. intros r Hr _. cbn [filter]. rewrite Sk, Nat.sub_diag, T. cbn [negb andb]. unfold nthR. cbn [nth].
        destruct (Rlt_dec u (1 - e k)); [|reflexivity]. exfalso. apply L. eapply Rlt_le_trans; [eassumption|apply Rmax_r].
Qed.

Lemma Evec_neighbors n marked s0 (e : nat -> R) Q : (forall i, 0 <= e i) ->
  Evec n (fun r => Q (iterate_neighbors n (mark n marked s0) (map e (range n)) r)) =
  Esub (fun i => existsb (Nat.eqb i) marked || Nat.eqb i s0)%bool (fun i => clampP (e i)) (range n) Q.
Proof.
  intros He. unfold range at 2. rewrite <- (Evec_Esub _ e He). apply Evec_ext. intros r Hr _. f_equal. unfold iterate_neighbors, range.
  apply filter_ext_in. intros i Hi. apply in_seq in Hi. rewrite mark_nth by lia. rewrite nthR_map_seq by lia. now rewrite Nat.sub_0_r.
Qed.

Lemma Esub_ext skip p : forall l Q Q', NoDup l ->
  (forall A, NoDup A -> (forall x, In x A -> In x l /\ skip x = false) -> Q A = Q' A) -> Esub skip p l Q = Esub skip p l Q'.
Proof.
  induction l as [|x l IH]; intros Q Q' ND H; cbn [Esub]; [apply H; [constructor|intros x []]|]. inversion ND as [|? ? Hx Hl]. subst.
  assert (E1 : Esub skip p l Q = Esub skip p l Q').
  { apply IH; [assumption|]. intros A NA HA. apply H; [assumption|]. intros y Hy. destruct (HA y Hy). split; [now right|assumption]. }
  destruct (skip x) eqn:Sx; [exact E1|]. rewrite E1. f_equal. f_equal. apply IH; [assumption|]. intros A NA HA. apply H.
  - constructor; [|assumption]. intros C. destruct (HA x C). contradiction.
  - intros y [<-|Hy]; [split; [now left|assumption]|]. destruct (HA y Hy). split; [now right|assumption].
Qed.

Lemma Esub_scal skip p c : forall l Q, Esub skip p l (fun A => c * Q A) = c * Esub skip p l Q.
Proof.
  induction l as [|x l IH]; intros Q; cbn [Esub]; [reflexivity|]. destruct (skip x); [apply IH|]. rewrite !IH. ring.
Qed.

Lemma Esub_plus skip p : forall l Q Q', Esub skip p l (fun A => Q A + Q' A) = Esub skip p l Q + Esub skip p l Q'.
Proof.
  induction l as [|x l IH]; intros Q Q'; cbn [Esub]; [reflexivity|]. destruct (skip x); [apply IH|]. rewrite !IH. ring.
Qed.

Lemma Esub_const skip p c : forall l, Esub skip p l (fun _ => c) = c.
Proof. induction l as [|x l IH]; cbn [Esub]; [reflexivity|]. destruct (skip x); [apply IH|]. rewrite !IH. ring. Qed.

Lemma Esub_zero skip p l : Esub skip p l (fun _ => 0) = 0.
Proof. apply Esub_const. Qed.

(** ** The distribution of the cluster *)
(** Same recursion as the code, every call of the generator replaced by the average
    over its outcomes. *)
Fixpoint Ecl (n : nat) (e : list (list R)) (fuel : nat) (newSites marked : list nat) (H : list nat -> R) : R :=
  match newSites with
  | [] => H marked
  | s0 :: rest =>
    match fuel with
    | 0%nat => 0
    | S fuel' =>
      Esub (fun i => existsb (Nat.eqb i) marked || Nat.eqb i s0)%bool (fun i => clampP (entry e i s0)) (range n)
        (fun A => Ecl n e fuel' (rest ++ A) (marked ++ A) H)
    end
  end.

(** The model run on independent uniform numbers has that distribution: [H c u] is any
    function of the cluster and of the next random number. *)
Lemma Evec_grow i n e (He : forall a b, 0 <= entry e a b) H extra : forall fuel newSites marked,
  Evec (fuel * n + S extra) (fun r => match grow (script i) n e fuel newSites marked r with Ok (c, r') => H c (hd 0 r') | Err _ => 0 end) =
  Ecl n e fuel newSites marked (fun c => RInt (H c) 0 1).
Proof.
  induction fuel as [|fuel IH]; intros newSites marked.
  - destruct newSites as [|s0 rest]; cbn [grow Ecl].
    + rewrite Nat.mul_0_l, Nat.add_0_l. cbn [Evec hd]. apply RInt_ext01. intros u _. apply Evec_const.
    + apply Evec_const.
  - destruct newSites as [|s0 rest]; cbn [grow Ecl].
    + replace (S fuel * n + S extra)%nat with (S (S fuel * n + extra)) by lia. cbn [Evec hd]. apply RInt_ext01. intros u _. apply Evec_const.
    + replace (S fuel * n + S extra)%nat with (n + (fuel * n + S extra))%nat by lia. rewrite Evec_app.
      rewrite <- (Evec_neighbors n marked s0 (fun i => entry e i s0)) by (intros; apply He).
      apply Evec_ext. intros r1 Hr1 _. rewrite <- IH. apply Evec_ext. intros r2 Hr2 _.
      unfold find_neighbors. rewrite rand_vec_script by assumption. fold (column e n s0). reflexivity.
Qed.

Lemma Ecl_ext n e fuel : forall newSites marked H H', 
  (forall c, NoDup marked -> (forall x, In x marked -> (x < n)%nat) -> NoDup c -> (forall x, In x c -> (x < n)%nat) -> H c = H' c) ->
  NoDup marked -> (forall x, In x marked -> (x < n)%nat) ->
  Ecl n e fuel newSites marked H = Ecl n e fuel newSites marked H'.
Proof.
  induction fuel as [|fuel IH]; intros newSites marked H H' HH ND HR; destruct newSites as [|s0 rest]; cbn [Ecl]; try reflexivity; try (now apply HH).
  apply Esub_ext; [apply seq_NoDup|]. intros A NA HA.
  assert (ND' : NoDup (marked ++ A)).
  { apply NoDup_app_disj; [assumption|assumption|]. intros x Hx C. destruct (HA x Hx) as [_ HS]. apply orb_false_iff in HS. destruct HS as [HS _].
    apply existsb_eqb_notIn in HS. contradiction. }
  assert (HR' : forall x, In x (marked ++ A) -> (x < n)%nat).
  { intros x Hx. apply in_app_iff in Hx. destruct Hx as [Hx|Hx]; [now apply HR|]. destruct (HA x Hx) as [Hx' _]. now apply in_range in Hx'. }
  apply IH; auto.
Qed.

Lemma Ecl_plus n e fuel : forall newSites marked H H', Ecl n e fuel newSites marked (fun c => H c + H' c) = Ecl n e fuel newSites marked H + Ecl n e fuel newSites marked H'.
Proof.
  induction fuel as [|fuel IH]; intros newSites marked H H'; destruct newSites as [|s0 rest]; cbn [Ecl]; try ring.
  rewrite <- Esub_plus. apply Esub_ext; [apply seq_NoDup|]. intros A _ _. apply IH.
Qed.

Lemma Ecl_scal n e c0 fuel : forall newSites marked H, Ecl n e fuel newSites marked (fun c => c0 * H c) = c0 * Ecl n e fuel newSites marked H.
Proof.
  induction fuel as [|fuel IH]; intros newSites marked H; destruct newSites as [|s0 rest]; cbn [Ecl]; try ring.
  rewrite <- Esub_scal. apply Esub_ext; [apply seq_NoDup|]. intros A _ _. apply IH.
Qed.

Lemma Ecl_sum {X} n e fuel newSites marked (l : list X) (H : X -> list nat -> R) :
  Ecl n e fuel newSites marked (fun c => sumf l (fun x => H x c)) = sumf l (fun x => Ecl n e fuel newSites marked (H x)).
Proof.
  induction l as [|x l IH].
  - rewrite sumf_nil. transitivity (Ecl n e fuel newSites marked (fun c => 0 * 0)).
    + f_equal. apply FunctionalExtensionality.functional_extensionality. intros c. rewrite sumf_nil. ring.
    + rewrite Ecl_scal. ring.
  - rewrite sumf_cons, <- IH, <- Ecl_plus. reflexivity.
Qed.

(** Enough fuel: the probabilities add up to one. *)
Lemma Ecl_const n e k fuel : forall newSites marked, NoDup marked -> (forall x, In x marked -> (x < n)%nat) ->
  (length newSites + n <= fuel + length marked)%nat -> Ecl n e fuel newSites marked (fun _ => k) = k.
Proof.
  induction fuel as [|fuel IH]; intros newSites marked ND HR Hf; destruct newSites as [|s0 rest]; cbn [Ecl]; try reflexivity.
  - pose proof (nodup_le n marked ND HR). cbn in Hf. lia.
  - transitivity (Esub (fun i => (existsb (Nat.eqb i) marked || Nat.eqb i s0)%bool) (fun i => clampP (entry e i s0)) (range n) (fun _ => k)); [|apply Esub_const].
    apply Esub_ext; [apply seq_NoDup|]. intros A NA HA. apply IH.
    + apply NoDup_app_disj; [assumption|assumption|]. intros x Hx C. destruct (HA x Hx) as [_ HS]. apply orb_false_iff in HS. destruct HS as [HS _].
      apply existsb_eqb_notIn in HS. contradiction.
    + intros x Hx. apply in_app_iff in Hx. destruct Hx as [Hx|Hx]; [now apply HR|]. destruct (HA x Hx) as [Hx' _]. now apply in_range in Hx'.
    + rewrite !app_length. cbn in Hf. lia.
Qed.

(** Clusters that are not reached. *)
Definition hit (c m : list nat) : R := if list_eq_dec Nat.eq_dec m c then 1 else 0.

Lemma Ecl_outside n e c fuel : forall newSites marked x, In x marked -> ~ In x c -> Ecl n e fuel newSites marked (hit c) = 0.
Proof.
  induction fuel as [|fuel IH]; intros newSites marked x Hx Hc; destruct newSites as [|s0 rest]; cbn [Ecl]; try reflexivity.
  - unfold hit. destruct (list_eq_dec Nat.eq_dec marked c); [subst; contradiction|reflexivity].
  - unfold hit. destruct (list_eq_dec Nat.eq_dec marked c); [subst; contradiction|reflexivity].
  - rewrite <- (Esub_zero (fun i => (existsb (Nat.eqb i) marked || Nat.eqb i s0)%bool) (fun i => clampP (entry e i s0)) (range n)).
    apply Esub_ext; [apply seq_NoDup|]. intros A _ _. apply IH with x; [apply in_app_iff; now left|assumption].
Qed.

(** ** Detailed balance of the growth *)
Section Balance.
Variables (n : nat) (e e' : list (list R)) (c : list nat).
Hypothesis Hc_nodup : NoDup c.
Hypothesis Hin : forall i j, In i c -> In j c -> entry e i j = entry e' i j.
Hypothesis Hc_range : forall x, In x c -> (x < n)%nat.

Definition outside : list nat := filter (fun j => negb (existsb (Nat.eqb j) c)) (range n).
(** Probability that site s0 is bonded to nothing outside the cluster. *)
Definition alone (e : list (list R)) (s0 : nat) (l : list nat) : R :=
  prodR (map (fun j => 1 - clampP (entry e j s0)) (filter (fun j => negb (existsb (Nat.eqb j) c)) l)).
Definition boundary (e : list (list R)) (l : list nat) : R := prodR (map (fun s0 => alone e s0 (range n)) l).

Lemma Esub_balance s0 marked : In s0 c -> (forall x, In x marked -> In x c) -> forall l Q,
  (forall A x, In x A -> ~ In x c -> Q A = 0) ->
  let skip := (fun i => existsb (Nat.eqb i) marked || Nat.eqb i s0)%bool in
  Esub skip (fun i => clampP (entry e i s0)) l Q * alone e' s0 l = Esub skip (fun i => clampP (entry e' i s0)) l Q * alone e s0 l.
Proof.
  intros Hs0 Hm l Q HQ skip. revert Q HQ. induction l as [|x l IH]; intros Q HQ; cbn [Esub]; [reflexivity|].
  unfold alone. cbn [filter]. destruct (existsb (Nat.eqb x) c) eqn:Ex; cbn [negb].
  - apply existsb_eqb_In in Ex. fold (alone e s0 l) (alone e' s0 l). destruct (skip x); [now apply IH|].
    rewrite (Hin x s0) by assumption. rewrite !Rmult_plus_distr_r, !Rmult_assoc. rewrite (IH Q HQ). f_equal. f_equal.
    apply IH. intros A y Hy Hyc. apply (HQ (x :: A) y); [now right|assumption].
  - apply existsb_eqb_notIn in Ex. assert (Sx : skip x = false).
    { unfold skip. apply orb_false_iff. split; [apply existsb_eqb_notIn; intros C; apply Ex, Hm, C|apply Nat.eqb_neq; intros ->; contradiction]. }
    rewrite Sx. cbn [map prodR]. fold (alone e s0 l) (alone e' s0 l).
    assert (Z : forall p l', Esub skip p l' (fun A => Q (x :: A)) = 0).
    { intros p l'. rewrite <- (Esub_zero skip p l'). f_equal. apply FunctionalExtensionality.functional_extensionality. intros A. apply (HQ (x :: A) x); [now left|assumption]. }
    rewrite !Z. specialize (IH Q HQ). unfold prodR in *. cbn [fold_right] in *.
    fold (alone e s0 l) (alone e' s0 l). set (A1 := Esub skip _ l Q) in *. set (A2 := Esub skip (fun i => clampP (entry e' i s0)) l Q) in *.
    set (q := clampP (entry e x s0)). set (q' := clampP (entry e' x s0)).
    fold (prodR (map (fun j => 1 - clampP (entry e' j s0)) (filter (fun j => negb (existsb (Nat.eqb j) c)) l))).
    fold (prodR (map (fun j => 1 - clampP (entry e j s0)) (filter (fun j => negb (existsb (Nat.eqb j) c)) l))).
    fold (alone e s0 l) (alone e' s0 l).
    transitivity ((1 - q) * (1 - q') * (A1 * alone e' s0 l)); [unfold alone, prodR; ring|]. rewrite IH. unfold alone, prodR. ring.
Qed.

Lemma boundary_perm e0 l l' : Permutation l l' -> boundary e0 l = boundary e0 l'.
Proof.
  intros P. unfold boundary. induction P as [|x l l' P IH|x y l|l l' l'' P1 IH1 P2 IH2]; cbn [map]; unfold prodR in *; cbn [fold_right] in *; try reflexivity; try (rewrite IH; reflexivity); try (now rewrite IH1, IH2). ring.
Qed.

Lemma boundary_cons e0 x l : boundary e0 (x :: l) = alone e0 x (range n) * boundary e0 l.
Proof. reflexivity. Qed.

Definition unmarked (marked : list nat) : list nat := filter (fun j => negb (existsb (Nat.eqb j) marked)) c.

Lemma unmarked_perm marked A : NoDup A -> (forall x, In x A -> In x c /\ ~ In x marked) -> 
  Permutation (A ++ unmarked (marked ++ A)) (unmarked marked).
Proof.
  intros NA HA. apply NoDup_Permutation.
  - apply NoDup_app_disj; [assumption|apply NoDup_filter; assumption|]. intros x Hx C. unfold unmarked in Hx. apply filter_In in Hx. destruct Hx as [_ Hx].
    apply negb_true_iff, existsb_eqb_notIn in Hx. apply Hx, in_app_iff. now right.
  - apply NoDup_filter. assumption.
  - intros x. unfold unmarked. rewrite in_app_iff, !filter_In. rewrite !negb_true_iff, !existsb_eqb_notIn, in_app_iff. split.
    + intros [H|[H1 H2]]; [now apply HA|]. split; [assumption|tauto].
    + intros [H1 H2]. destruct (in_dec Nat.eq_dec x A); [now left|right]. split; [assumption|tauto].
Qed.

Lemma Ecl_balance fuel : forall newSites marked, (forall x, In x newSites -> In x marked) ->
  Ecl n e fuel newSites marked (hit c) * boundary e' (newSites ++ unmarked marked) =
  Ecl n e' fuel newSites marked (hit c) * boundary e (newSites ++ unmarked marked).
Proof.
  assert (B0 : forall marked, hit c marked * boundary e' (unmarked marked) = hit c marked * boundary e (unmarked marked)).
  { intros marked. unfold hit. destruct (list_eq_dec Nat.eq_dec marked c) as [->|]; [|ring]. replace (unmarked c) with (@nil nat); [reflexivity|].
    unfold unmarked. symmetry. assert (X : forall l, (forall x, In x l -> In x c) -> filter (fun j => negb (existsb (Nat.eqb j) c)) l = []).
    { induction l as [|x l IH]; intros HX; [reflexivity|]. cbn [filter]. rewrite (proj2 (existsb_eqb_In x c)) by (apply HX; now left). cbn [negb]. apply IH. intros y Hy. apply HX. now right. }
    apply X. auto. }
  induction fuel as [|fuel IH]; intros newSites marked Hn; (destruct newSites as [|s0 rest]; cbn [Ecl app]; [apply B0|]); [ring|].
  destruct (Forall_Exists_dec (fun x => In x c) (fun x => in_dec Nat.eq_dec x c) marked) as [Hm|Hm].
  2:{ apply Exists_exists in Hm. destruct Hm as (x & Hx & Hxc).
      assert (Z : forall e0, Esub (fun i => (existsb (Nat.eqb i) marked || Nat.eqb i s0)%bool) (fun i => clampP (entry e0 i s0)) (range n)
          (fun A => Ecl n e0 fuel (rest ++ A) (marked ++ A) (hit c)) = 0).
      { intros e0. rewrite <- (Esub_zero (fun i => (existsb (Nat.eqb i) marked || Nat.eqb i s0)%bool) (fun i => clampP (entry e0 i s0)) (range n)).
        apply Esub_ext; [apply seq_NoDup|]. intros A _ _. apply Ecl_outside with x; [apply in_app_iff; now left|assumption]. }
      rewrite !Z. ring. }
  rewrite Forall_forall in Hm.
  set (skip := fun i => (existsb (Nat.eqb i) marked || Nat.eqb i s0)%bool).
  set (U := rest ++ unmarked marked). rewrite !boundary_cons.
  assert (Hs0 : In s0 c) by (apply Hm, Hn; now left).
  (* exchange the continuation *)
  assert (X : Esub skip (fun i => clampP (entry e i s0)) (range n) (fun A => Ecl n e fuel (rest ++ A) (marked ++ A) (hit c)) * boundary e' U =
              Esub skip (fun i => clampP (entry e i s0)) (range n) (fun A => Ecl n e' fuel (rest ++ A) (marked ++ A) (hit c)) * boundary e U).
  { rewrite !(Rmult_comm (Esub _ _ _ _)). rewrite <- !Esub_scal. apply Esub_ext; [apply seq_NoDup|]. intros A NA HA. rewrite !(Rmult_comm (boundary _ U)).
    destruct (Forall_Exists_dec (fun x => In x c) (fun x => in_dec Nat.eq_dec x c) A) as [HAc|HAc].
    - rewrite Forall_forall in HAc.
      assert (P : Permutation U ((rest ++ A) ++ unmarked (marked ++ A))).
      { unfold U. rewrite <- app_assoc. apply Permutation_app_head. apply Permutation_sym, unmarked_perm; [assumption|]. intros x Hx. split; [now apply HAc|].
        destruct (HA x Hx) as [_ HS]. apply orb_false_iff in HS. now apply existsb_eqb_notIn. }
      rewrite !(boundary_perm _ _ _ P). apply IH. intros x Hx. apply in_app_iff in Hx. apply in_app_iff. destruct Hx as [Hx|Hx]; [left; apply Hn; now right|now right].
    - apply Exists_exists in HAc. destruct HAc as (x & Hx & Hxc). rewrite !(Ecl_outside n _ c fuel _ _ x); try ring; try assumption; apply in_app_iff; now right. }
  pose proof (Esub_balance s0 marked Hs0 Hm (range n) (fun A => Ecl n e' fuel (rest ++ A) (marked ++ A) (hit c))) as Y.
  cbv zeta in Y. fold skip in Y. 
  rewrite <- Rmult_assoc, (Rmult_comm _ (alone e' s0 (range n))), Rmult_assoc, X.
  rewrite <- Rmult_assoc, (Rmult_comm (alone e' s0 (range n))), Y.
  - ring.
  - intros A x Hx Hxc. apply Ecl_outside with x; [apply in_app_iff; now right|assumption].
Qed.
End Balance.
