(** * Connected components of the bond graph (C56). *)
From Coq Require Import Permutation Relations.
From Verif Require Import Prelude PreludeFacts M_Index M_Params M_Sampler M_Wolff P_Index P_RMF P_Wolff P_Comp.
Import ListNotations.
Local Open Scope R_scope.

(** Sites joined by a chain of non zero bonds. *)
Definition bond_connected (adj : list (list R)) : nat -> nat -> Prop :=
  clos_refl_trans nat (fun i j => (i < length adj)%nat /\ (j < length adj)%nat /\ entry adj i j <> 0).

(** Whatever order the sets are popped and iterated in, the clusters contain every site
    exactly once and two sites share a cluster iff they are connected. *)
Theorem C56_components : forall o adj fuel,
  Forall (fun r => length r = length adj) adj ->
  (forall i j, (i < length adj)%nat -> (j < length adj)%nat -> entry adj i j = entry adj j i) ->
  (forall k l, l <> [] -> In (pick o k l) l) -> (forall k l, Permutation (order o k l) l) ->
  (length adj <= fuel)%nat ->
  exists clusters, iter_cluster o adj fuel = Ok clusters /\
    Permutation (concat clusters) (range (length adj)) /\
    (forall c, In c clusters -> c <> []) /\
    (forall c i, In c clusters -> In i c -> forall j, In j c <-> bond_connected adj i j).
Proof.
  intros o adj fuel Hsq Hsym Hp Ho Hf.
  destruct (iter_cluster_ok o adj Hsq Hp Ho ltac:(intros i j Hi Hj H; now rewrite <- Hsym) fuel Hf) as (cs & E & P & F).
  exists cs. split; [exact E|]. split; [exact P|]. rewrite Forall_forall in F. split.
  - intros c Hc. apply (F c Hc).
  - intros c i Hc Hi j. apply (F c Hc); assumption.
Qed.
Print Assumptions C56_components.

(** The order only affects the order of the result: any two runs give the same clusters
    as sets. *)
Theorem C56_order_irrelevant : forall o o' adj fuel cs cs',
  Forall (fun r => length r = length adj) adj ->
  (forall i j, (i < length adj)%nat -> (j < length adj)%nat -> entry adj i j = entry adj j i) ->
  (forall k l, l <> [] -> In (pick o k l) l) -> (forall k l, Permutation (order o k l) l) ->
  (forall k l, l <> [] -> In (pick o' k l) l) -> (forall k l, Permutation (order o' k l) l) ->
  (length adj <= fuel)%nat -> iter_cluster o adj fuel = Ok cs -> iter_cluster o' adj fuel = Ok cs' ->
  forall c, In c cs -> exists c', In c' cs' /\ forall x, In x c <-> In x c'.
Proof.
  intros o o' adj fuel cs cs' Hsq Hsym Hp Ho Hp' Ho' Hf E E' c Hc.
  destruct (C56_components o adj fuel Hsq Hsym Hp Ho Hf) as (a & Ea & Pa & Na & Ca). rewrite E in Ea. injection Ea as <-.
  destruct (C56_components o' adj fuel Hsq Hsym Hp' Ho' Hf) as (b & Eb & Pb & Nb & Cb). rewrite E' in Eb. injection Eb as <-.
  destruct c as [|i c]; [now destruct (Na [] Hc)|].
  assert (Hi : In i (concat cs')).
  { apply (Permutation_in _ (Permutation_sym Pb)), (Permutation_in _ Pa), in_concat. exists (i :: c). split; [assumption|now left]. }
  apply in_concat in Hi. destruct Hi as (c' & Hc' & Hi). exists c'. split; [assumption|]. intros x.
  rewrite (Ca (i :: c) i Hc (or_introl eq_refl) x), (Cb c' i Hc' Hi x). reflexivity.
Qed.
Print Assumptions C56_order_irrelevant.

(** Three sites, one bond. *)
Example C56_example :
  let adj := [[0; 1; 0]; [1; 0; 0]; [0; 0; 0]] in
  let o := SetOrder (fun _ l => last l 0%nat) (fun _ l => rev l) in
  (forall k l, l <> [] -> In (pick o k l) l) /\ (forall k l, Permutation (order o k l) l) /\
  (forall i j, (i < 3)%nat -> (j < 3)%nat -> entry adj i j = entry adj j i) /\
  iter_cluster o adj 3 = Ok [[2%nat]; [1%nat; 0%nat]].
Proof.
  assert (R00 : Reqb 0 0 = true) by (unfold Reqb; destruct (Req_EM_T 0 0); congruence).
  assert (R10 : Reqb 1 0 = false) by (unfold Reqb; destruct (Req_EM_T 1 0); [lra|reflexivity]).
  cbv zeta. split; [intros k l H; cbn; rewrite (app_removelast_last 0%nat H) at 2; apply in_app_iff; right; now left|].
  split; [intros k l; cbn; symmetry; apply Permutation_rev|]. split; [intros i j Hi Hj; destruct i as [|[|[|]]], j as [|[|[|]]]; try lia; reflexivity|].
  assert (N0 : nonzero_row [[0; 1; 0]; [1; 0; 0]; [0; 0; 0]] 0 = [1%nat]) by (unfold nonzero_row; cbn [nth length range seq filter]; unfold entry; cbn; rewrite R00, R10; reflexivity).
  assert (N1 : nonzero_row [[0; 1; 0]; [1; 0; 0]; [0; 0; 0]] 1 = [0%nat]) by (unfold nonzero_row; cbn [nth length range seq filter]; unfold entry; cbn; rewrite R00, R10; reflexivity).
  assert (N2 : nonzero_row [[0; 1; 0]; [1; 0; 0]; [0; 0; 0]] 2 = []) by (unfold nonzero_row; cbn [nth length range seq filter]; unfold entry; cbn; rewrite R00; reflexivity).
  set (A := [[0; 1; 0]; [1; 0; 0]; [0; 0; 0]]) in *. assert (LA : length A = 3%nat) by reflexivity. clearbody A.
  unfold iter_cluster. rewrite LA. change (range 3) with [0%nat; 1%nat; 2%nat].
  repeat (cbn [components explore pick order last rev app remove_all filter existsb Nat.eqb orb negb bind]; rewrite ?LA, ?N0, ?N1, ?N2).
  reflexivity.
Qed.
