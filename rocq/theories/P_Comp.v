(** * Connected components found by [iter_cluster]. *)
From Coq Require Import Permutation Relations.
From Verif Require Import Prelude PreludeFacts M_Index M_Params M_Sampler M_Wolff P_RMF P_Wolff.
Import ListNotations.
Local Open Scope R_scope.

Lemma NoDup_lt_length (l m : list nat) s : NoDup l -> incl l m -> In s m -> ~ In s l -> (length l < length m)%nat.
Proof.
  intros ND HI Hs Hn. assert (H : (length (s :: l) <= length m)%nat) by (apply NoDup_incl_length; [now constructor|intros x [<-|Hx]; auto]). cbn in H. lia.
Qed.

Section Comp.
Variables (o : set_order) (adj : list (list R)).
Notation n := (length adj).
Hypothesis Hsq : Forall (fun r => length r = n) adj.
Hypothesis Hpick : forall k l, l <> [] -> In (pick o k l) l.
Hypothesis Horder : forall k l, Permutation (order o k l) l.
Hypothesis Hsym : forall i j, (i < n)%nat -> (j < n)%nat -> entry adj i j <> 0 -> entry adj j i <> 0.

Definition edge (i j : nat) : Prop := (i < n)%nat /\ (j < n)%nat /\ entry adj i j <> 0.
Definition connected : nat -> nat -> Prop := clos_refl_trans nat edge.

Lemma edge_sym i j : edge i j -> edge j i.
Proof. intros (A & B & C). repeat split; auto. Qed.

Lemma connected_sym i j : connected i j -> connected j i.
Proof. induction 1 as [x y H|x|x y z _ IH1 _ IH2]; [apply rt_step, edge_sym, H|apply rt_refl|now apply rt_trans with y]. Qed.

Lemma remove_all_spec x l m : In x (remove_all l m) <-> In x l /\ ~ In x m.
Proof. unfold remove_all. now rewrite filter_In, negb_true_iff, existsb_eqb_notIn. Qed.

Lemma nonzero_row_spec i j : (i < n)%nat -> In j (nonzero_row adj i) <-> edge i j.
Proof.
  intros Hi. unfold nonzero_row, edge. rewrite filter_In. assert (L : length (nth i adj []) = n) by (apply (proj1 (Forall_forall _ _) Hsq), nth_In, Hi).
  rewrite L, in_range, negb_true_iff. split.
  - intros [H1 H2]. repeat split; try assumption. intros C. rewrite C in H2. unfold Reqb in H2. destruct (Req_EM_T 0 0); [discriminate|congruence].
  - intros (_ & H1 & H2). split; [assumption|]. unfold Reqb. destruct (Req_EM_T (entry adj i j) 0); [contradiction|reflexivity].
Qed.

Lemma nonzero_row_NoDup i : NoDup (nonzero_row adj i).
Proof. unfold nonzero_row. apply NoDup_filter, seq_NoDup. Qed.

(** A set of sites without bonds to the outside. *)
Definition closed (l : list nat) : Prop := forall i j, In i l -> edge i j -> In j l.

Lemma closed_connected l i j : closed l -> In i l -> connected i j -> In j l.
Proof. intros Hc Hi H. revert Hi. induction H as [x y H|x|x y z _ IH1 _ IH2]; intros Hi; [now apply Hc with x|assumption|auto]. Qed.

Lemma explore_ok s0 marked0 : closed marked0 -> (forall x, In x marked0 -> (x < n)%nat) ->
  forall fuel this nw marked,
  NoDup (this ++ nw) -> (forall x, In x (this ++ nw) -> (x < n)%nat /\ ~ In x marked0 /\ connected s0 x) ->
  (forall x, In x marked <-> In x (this ++ nw) \/ In x marked0) ->
  (forall i j, In i this -> edge i j -> In j marked) -> (n <= fuel + length this)%nat ->
  exists this' marked', explore o adj fuel this nw marked = Ok (this', marked') /\
    (exists l, this' = this ++ l) /\ incl (this ++ nw) this' /\ NoDup this' /\ (forall x, In x this' -> (x < n)%nat /\ ~ In x marked0 /\ connected s0 x) /\
    (forall x, In x marked' <-> In x this' \/ In x marked0) /\ closed this' /\ closed marked'.
Proof.
  intros Hcl Hrg. induction fuel as [|fuel IH]; intros this nw marked ND HP HM HE HF; destruct nw as [|x nw]; cbn [explore].
  1,3: exists this, marked; split; [reflexivity|]; rewrite app_nil_r in *;
    split; [exists []; now rewrite app_nil_r|]; split; [apply incl_refl|]; split; [assumption|]; split; [assumption|]; split; [assumption|];
    assert (Ct : closed this) by (intros i j Hi He; apply (HE i j Hi) in He as Hj; apply HM in Hj; destruct Hj as [Hj|Hj]; [assumption|];
      exfalso; apply (HP i Hi); apply (Hcl j i Hj), edge_sym, He);
    split; [assumption|]; intros i j Hi He; apply HM in Hi; apply HM; destruct Hi as [Hi|Hi]; [left; now apply Ct with i|right; now apply Hcl with i].
  - exfalso. assert (L : (length (this ++ x :: nw) <= n)%nat) by (apply nodup_le; [assumption|]; intros y Hy; now apply HP).
    rewrite app_length in L. cbn in *. lia.
  - set (nb := remove_all (nonzero_row adj x) marked). set (nb' := order o (S fuel) nb).
    assert (Px : Permutation nb' nb) by apply Horder.
    assert (Hx : (x < n)%nat) by (apply HP, in_app_iff; right; now left).
    assert (Inb : forall y, In y nb' <-> edge x y /\ ~ In y marked).
    { intros y. rewrite (Permutation_in' eq_refl Px). unfold nb. rewrite remove_all_spec, nonzero_row_spec by assumption. reflexivity. }
    assert (Ap : (this ++ [x]) ++ nw ++ nb' = (this ++ x :: nw) ++ nb') by (rewrite <- !app_assoc; reflexivity).
    destruct (IH (this ++ [x]) (nw ++ nb') (nb ++ marked)) as (this' & marked' & E & (l & El) & Inc & ND' & HP' & HM' & C1 & C2).
    + rewrite Ap. apply NoDup_app_disj; [assumption|eapply Permutation_NoDup; [symmetry; exact Px|apply NoDup_filter, nonzero_row_NoDup]|].
      intros y Hy C. apply Inb in Hy. apply (proj2 Hy). apply HM. now left.
    + rewrite Ap. intros y Hy. apply in_app_iff in Hy. destruct Hy as [Hy|Hy]; [now apply HP|]. apply Inb in Hy. destruct Hy as [He Hy]. split; [apply He|]. split.
      * intros C. apply Hy, HM. now right.
      * apply rt_trans with x; [apply HP, in_app_iff; right; now left|now apply rt_step].
    + rewrite Ap. intros y. rewrite in_app_iff, <- (Permutation_in' eq_refl Px), HM, (in_app_iff (this ++ x :: nw)). tauto.
    + intros i j Hi He. apply in_app_iff in Hi. destruct Hi as [Hi|[<-|[]]]; [apply in_app_iff; right; now apply (HE i j)|].
      destruct (in_dec Nat.eq_dec j marked) as [Hj|Hj]; apply in_app_iff; [now right|left]. rewrite <- (Permutation_in' eq_refl Px). apply Inb. now split.
    + rewrite app_length. cbn [length]. lia.
    + exists this', marked'. split; [exact E|]. split; [exists ([x] ++ l); rewrite El, <- app_assoc; reflexivity|]. split; [|repeat (split; [assumption|]); assumption].
      intros y Hy. apply Inc. rewrite Ap. apply in_app_iff. now left.
Qed.

Definition component (c : list nat) : Prop := c <> [] /\ forall i j, In i c -> (In j c <-> connected i j).

Lemma components_ok : forall fuel init marked clusters,
  NoDup init -> (forall x, In x init <-> (x < n)%nat /\ ~ In x marked) -> closed marked -> (forall x, In x marked -> (x < n)%nat) ->
  NoDup (concat clusters) -> (forall x, In x (concat clusters) <-> In x marked) -> Forall component clusters -> (length init <= fuel)%nat ->
  exists cs, components o adj fuel init marked clusters = Ok cs /\ Permutation (concat cs) (range n) /\ Forall component cs.
Proof.
  induction fuel as [|fuel IH]; intros init marked clusters NDi HI Hc Hr NDc HC HF HL; (destruct init as [|a init]; cbn [components];
    [exists clusters; split; [reflexivity|]; split; [|assumption]; apply NoDup_Permutation; [assumption|apply seq_NoDup|]; intros x; rewrite HC, in_range; split; [apply Hr|];
     intros Hx; destruct (in_dec Nat.eq_dec x marked); [assumption|]; exfalso; apply (proj2 (HI x)); now split|]); [cbn in HL; lia|].
  set (s := pick o (S fuel) (a :: init)). assert (Hs : In s (a :: init)) by (apply Hpick; discriminate).
  destruct (proj1 (HI s) Hs) as [Hsn Hsm].
  destruct (explore_ok s marked Hc Hr n [] [s] (s :: marked)) as (this & marked' & E & _ & Inc & NDt & HP & HM & C1 & C2).
  - cbn. repeat constructor. intros [].
  - intros x [<-|[]]. split; [assumption|]. split; [assumption|apply rt_refl].
  - intros x. cbn. tauto.
  - intros i j [].
  - lia.
  - rewrite E. cbn [bind].
    assert (St : In s this) by (apply Inc; now left).
    apply IH.
    + unfold remove_all. now apply NoDup_filter, NoDup_filter.
    + intros x. rewrite !remove_all_spec, HI. split; [tauto|]. intros [H1 H2]. split; [|assumption]. split; [split; [assumption|]|].
      * intros C. apply H2, HM. now right.
      * intros [<-|[]]. apply H2, HM. now left.
    + assumption.
    + intros x Hx. apply HM in Hx. destruct Hx as [Hx|Hx]; [now apply HP|now apply Hr].
    + rewrite concat_app. cbn [concat]. rewrite app_nil_r. apply NoDup_app_disj; [assumption|assumption|]. intros x Hx C. apply HC in C. now apply (HP x Hx).
    + intros x. rewrite concat_app, in_app_iff. cbn [concat]. rewrite app_nil_r, HC, HM. tauto.
    + apply Forall_app. split; [assumption|]. constructor; [|constructor]. split; [intros C; rewrite C in St; destruct St|]. intros i j Hi. split.
      * intros Hj. apply rt_trans with s; [apply connected_sym; now apply HP|now apply HP].
      * now apply closed_connected.
    + assert (HH : (length (remove_all (remove_all (a :: init) [s]) marked') < length (a :: init))%nat).
      { apply NoDup_lt_length with s; [unfold remove_all; now apply NoDup_filter, NoDup_filter| |exact Hs|].
        - intros x Hx. apply remove_all_spec in Hx. destruct Hx as [Hx _]. now apply remove_all_spec in Hx.
        - intros C. apply remove_all_spec in C. destruct C as [_ C]. apply C, HM. now left. }
      lia.
Qed.

Lemma iter_cluster_ok fuel : (n <= fuel)%nat ->
  exists cs, iter_cluster o adj fuel = Ok cs /\ Permutation (concat cs) (range n) /\ Forall component cs.
Proof.
  intros Hf. unfold iter_cluster. apply components_ok.
  - apply seq_NoDup.
  - intros x. rewrite in_range. cbn. tauto.
  - intros i j [].
  - intros x [].
  - constructor.
  - cbn. tauto.
  - constructor.
  - unfold range. now rewrite seq_length.
Qed.
End Comp.
