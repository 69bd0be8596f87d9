(** * Properties C44-C47, C49 (cluster expansion part): the adaptive cluster expansion. *)
From Coq Require Import Permutation Sorted.
From Verif Require Import Prelude PreludeFacts Spec Spec2 M_Index M_Params M_MeanField M_Cluster P_Index P_Energy P_Params P_Enum P_MaxEnt P_MPF
  P_Unique P_MeanField P_MeanField2 P_Cluster P_Cluster2 P_Cluster3 P_Cluster4 P_Cluster5.
Import ListNotations.

(** ** C44 *)
Theorem C44_subsets_complete : forall (c : list nat) (size : Z), NoDup c -> exists r, subsets c size = Ok r /\
  (forall x, In x r -> NoDup x /\ incl x c /\ Z.of_nat (length x) = size) /\
  (forall t, t <> [] -> NoDup t -> incl t c -> Z.of_nat (length t) = size ->
     exists k x, nth_error r k = Some x /\ Permutation x t /\
       forall k' x', nth_error r k' = Some x' -> Permutation x' t -> k' = k) /\
  ((size <= 0)%Z -> c <> [] -> r = []) /\ ((Z.of_nat (length c) < size)%Z -> r = []) /\
  ((0 < size)%Z -> length r = binom (length c) (Z.to_nat size)).
Proof.
  intros c size Hc. destruct (subsets_ok c Hc size) as (r & E & A & B & D & L). exists r. split; [exact E|]. split; [exact A|]. split; [|split; [|split]].
  - intros t Ht Nt It Lt. assert (Hin : In (nsort t) (map nsort r)).
    { apply B. split; [now apply nsort_lt|]. split; [intros x Hx; apply It; now apply nsort_in|]. split; [now rewrite nsort_length|]. left. destruct t; [congruence|cbn in Lt; lia]. }
    apply in_map_iff in Hin. destruct Hin as (x & Ex & Hx). apply In_nth_error in Hx. destruct Hx as (k & Hk).
    assert (P : Permutation x t) by (eapply Permutation_trans; [apply Permutation_sym, nsort_perm|]; rewrite Ex; apply nsort_perm).
    exists k, x. split; [exact Hk|]. split; [exact P|]. intros k' x' Hk' P'.
    assert (E1 : nth_error (map nsort r) k = Some (nsort t)) by (rewrite nth_error_map, Hk; cbn; now rewrite Ex).
    assert (E2 : nth_error (map nsort r) k' = Some (nsort t)) by (rewrite nth_error_map, Hk'; cbn; rewrite (nsort_perm_eq x' t); [reflexivity|apply A; now apply nth_error_In in Hk'|exact P']).
    apply (proj1 (NoDup_nth_error (map nsort r)) D); [apply nth_error_Some; congruence|congruence].
  - intros Hs Hne. destruct r as [|x r]; [reflexivity|]. exfalso. assert (Hx : In (nsort x) (map nsort (x :: r))) by (now left). apply B in Hx.
    destruct Hx as (_ & _ & _ & [H|H]); [lia|congruence].
  - intros Hs. destruct r as [|x r]; [reflexivity|]. exfalso. destruct (A x (or_introl eq_refl)) as (N & I & Lx). pose proof (NoDup_incl_length N I). lia.
  - exact L.
Qed.
Print Assumptions C44_subsets_complete.

Theorem C44_repeated_elements_raise : forall (c : list nat) (size : Z), ~ NoDup c -> subsets c size = Err GenericException.
Proof. exact subsets_dup. Qed.
Print Assumptions C44_repeated_elements_raise.

(** On list objects: no list that existed before the call is changed, and the returned
    lists are pairwise distinct new objects, except that asking for the full size hands
    back the caller's own list. *)
Theorem C44_caller_lists_untouched : forall fuel hp this size, NoDup (nth this hp []) -> this < length hp ->
  length (nth this hp []) < fuel ->
  exists addrs hp' r, subsets_heap fuel hp this size = Ok (addrs, hp') /\ subsets (nth this hp []) size = Ok r /\
    map (fun a => nth a hp' []) addrs = r /\
    (forall b, b < length hp -> nth b hp' [] = nth b hp []) /\ NoDup addrs /\
    (size <> Z.of_nat (length (nth this hp [])) -> forall a, In a addrs -> length hp <= a) /\
    (size = Z.of_nat (length (nth this hp [])) -> addrs = [this] /\ hp' = hp).
Proof.
  intros fuel hp this size H1 H2 H3. destruct (subsets_heap_ok fuel hp this size H1 H2 H3) as (a & hp' & r & A & B & D & _ & F & G & _ & I & J).
  exists a, hp', r. auto 10.
Qed.
Print Assumptions C44_caller_lists_untouched.

(** sort=True sorts the subsets except on the two early returns. *)
Theorem C44_sort_flag : forall c size r, NoDup c -> subsets c size = Ok r ->
  (size <> Z.of_nat (length c) -> size <> 1%Z -> exists r', subsets_sort c size true = Ok r' /\ length r' = length r /\
     forall k, k < length r -> StronglySorted lt (nth k r' []) /\ Permutation (nth k r' []) (nth k r [])) /\
  (size = Z.of_nat (length c) -> subsets_sort c size true = Ok [c]).
Proof.
  intros c size r Hc E. destruct (subsets_ok c Hc size) as (r0 & E0 & A & _). assert (r0 = r) by congruence. subst r0. unfold subsets_sort. rewrite E. cbn [bind]. split.
  - intros H1 H2. destruct (Z.eqb_spec size (Z.of_nat (length c))); [congruence|]. destruct (Z.eqb_spec size 1); [congruence|]. cbn [andb negb].
    exists (map nsort r). split; [reflexivity|]. split; [apply map_length|]. intros k Hk. change [] with (nsort []) at 1 2. rewrite map_nth.
    split; [apply nsort_lt; apply A; now apply nth_In|apply nsort_perm].
  - intros ->. rewrite Z.eqb_refl. cbn [andb negb]. f_equal. destruct c as [|s c]; cbn [subsets] in E.
    + cbn in E. congruence.
    + rewrite (proj2 (Nat.eqb_eq _ _)) in E by (now apply nunique_length). cbn [negb] in E. rewrite Z.eqb_refl in E. congruence.
Qed.
Print Assumptions C44_sort_flag.

Example C44_example :
  subsets [3; 1; 2] 2 = Ok [[1; 2]; [1; 3]; [2; 3]] /\ subsets [3; 1; 2] 0 = Ok [] /\ subsets [3; 1; 2] 4 = Ok [] /\
  subsets [1; 1] 1 = Err GenericException /\ subsets_sort [3; 1] 2 true = Ok [[3; 1]] /\
  subsets_heap 4 [[3; 1; 2]] 0 2 = Ok ([1; 2; 3], [[3; 1; 2]; [1; 2]; [1; 3]; [2; 3]]).
Proof. repeat split. Qed.

Local Open Scope R_scope.

(** ** C45 *)
(** Entropies and reference entropies that depend on the set of spins only: any history
    of calls starting from empty dicts succeeds, and every call returns the alternating
    sum of S-S0 over the nonempty subsets of its cluster -- whatever was computed before
    and whatever the order of the spins. *)
Theorem C45_history_independent : forall (Sf S0f : list nat -> result val) (N : nat) (dom : list nat),
  (forall c, NoDup c -> c <> [] -> incl c dom -> exists a, Sf c = Ok a /\ length (snd a) = N) ->
  (forall c, NoDup c -> c <> [] -> incl c dom -> exists a, S0f c = Ok a /\ length (snd a) = N) ->
  (forall c c', NoDup c -> c <> [] -> incl c dom -> Permutation c c' -> Sf c = Sf c') ->
  (forall c c', NoDup c -> c <> [] -> incl c dom -> Permutation c c' -> S0f c = S0f c') ->
  forall fuel, (length dom <= fuel)%nat -> forall cs, (forall c, In c cs -> NoDup c /\ c <> [] /\ incl c dom) ->
  exists vs m', calls Sf S0f fuel ([], []) cs = Ok (vs, m') /\ length vs = length cs /\
    forall i, (i < length cs)%nat ->
      let k := nsort (nth i cs []) in let v := nth i vs (0, []) in
      length (snd v) = N /\
      fst v = sumf (parts k) (fun t => (-1) ^ (length k - length t) *
                match Sf t, S0f t with Ok a, Ok b => fst a - fst b | _, _ => 0 end) /\
      forall p q, (p < N)%nat -> (q < N)%nat ->
        entry (snd v) p q = sumf (parts k) (fun t => (-1) ^ (length k - length t) *
                match Sf t, S0f t with Ok a, Ok b => entry (snd a) p q - entry (snd b) p q | _, _ => 0 end).
Proof.
  intros Sf S0f N dom H1 H2 H3 H4 fuel Hf cs Hcs.
  destruct (calls_ok Sf S0f N dom H1 H2 H3 H4 fuel Hf cs ([], []) (good_nil _ _ _ _) Hcs) as (vs & m' & E & _ & L & H).
  exists vs, m'. split; [exact E|]. split; [exact L|]. intros i Hi k v. destruct (H i Hi) as [HL Ho]. split; [exact HL|]. split.
  - exact (Ho None I).
  - intros p q Hp Hq. exact (Ho (Some (p, q)) (conj Hp Hq)).
Qed.
Print Assumptions C45_history_independent.

(** The nonempty subsets of a sorted cluster. *)
Theorem C45_parts_are_the_subsets : forall k, StronglySorted lt k ->
  NoDup (parts k) /\ (forall t, In t (parts k) <-> StronglySorted lt t /\ incl t k /\ t <> []).
Proof. intros k Hk. split; [now apply parts_NoDup, sorted_lt_NoDup|]. intros t. now apply in_parts. Qed.
Print Assumptions C45_parts_are_the_subsets.

(** Without assuming that S depends on the set only: after a first evaluation of a
    cluster c, the memoised contributions of all its nonempty subsets add up to
    S(c)-S0(c), entropy and couplings alike, every one of them is in both dicts, and no
    value memoised earlier has changed. *)
Theorem C45_contributions_add_up : forall (Sf S0f : list nat -> result val) (N : nat) (dom : list nat),
  (forall c, NoDup c -> c <> [] -> incl c dom -> exists a, Sf c = Ok a /\ length (snd a) = N) ->
  (forall c, NoDup c -> c <> [] -> incl c dom -> exists a, S0f c = Ok a /\ length (snd a) = N) ->
  forall fuel m c, good Sf S0f N dom m -> NoDup c -> c <> [] -> incl c dom -> (length c <= fuel)%nat -> mem m (nsort c) = None ->
  exists v m' a b, deltaS fuel Sf S0f m c = Ok (v, m') /\ good Sf S0f N dom m' /\ Sf c = Ok a /\ S0f c = Ok b /\
    (forall k w, mem m k = Some w -> mem m' k = Some w) /\ mem m' (nsort c) = Some v /\
    (forall t, In t (parts (nsort c)) -> exists w, mem m' t = Some w) /\
    sumf (parts (nsort c)) (fun t => fst (mval m' t)) = fst a - fst b /\
    forall p q, (p < N)%nat -> (q < N)%nat ->
      sumf (parts (nsort c)) (fun t => entry (snd (mval m' t)) p q) = entry (snd a) p q - entry (snd b) p q.
Proof.
  intros Sf S0f N dom H1 H2 fuel m c Hg Hc Hne Hi Hf Hm.
  destruct (deltaS_ok Sf S0f N dom H1 H2 fuel m c Hg Hc Hne Hi Hf) as (v & m' & E & Hg' & He & Hv & _ & Ha & _).
  destruct (Ha Hm) as (a & b & Ea & Eb & Hab). exists v, m', a, b. split; [exact E|]. split; [exact Hg'|]. split; [exact Ea|]. split; [exact Eb|].
  split; [exact He|]. split; [exact Hv|]. split; [exact (good_mem_parts _ _ _ _ _ _ _ Hg' Hv)|]. split.
  - exact (Hab None I).
  - intros p q Hp Hq. exact (Hab (Some (p, q)) (conj Hp Hq)).
Qed.
Print Assumptions C45_contributions_add_up.

(** A memoised cluster is looked up, whatever the order of its spins, and nothing else
    happens. *)
Theorem C45_memo_hit : forall Sf S0f fuel m c c' v, (0 < fuel)%nat -> NoDup c -> Permutation c c' -> mem m (nsort c) = Some v ->
  deltaS fuel Sf S0f m c' = Ok (v, m).
Proof.
  intros Sf S0f fuel m c c' v Hf Hc P H. destruct fuel as [|fuel]; [lia|]. cbn [deltaS]. unfold clusterID. rewrite <- (nsort_perm_eq c c' Hc P).
  apply mem_lookup in H. destruct H as [E1 E2]. unfold dget. rewrite E1, E2. cbn [bind]. now destruct v.
Qed.
Print Assumptions C45_memo_hit.

(** The hypotheses of C45_history_independent hold for a "entropy" that is the square of
    the number of spins with reference the number of spins; the pair contribution is
    (4-2)-0-0 = 2, on a repeated and reordered history. *)
Example C45_example :
  let Sf := fun c : list nat => Ok (INR (length c) * INR (length c), mk_mat 3 3 (fun _ _ => INR (length c))) in
  let S0f := fun c : list nat => Ok (INR (length c), mk_mat 3 3 (fun _ _ => 0)) in
  exists vs m', calls Sf S0f 3 ([], []) [[2; 0]; [1; 0; 2]; [0; 2]]%nat = Ok (vs, m') /\
    fst (nth 0 vs (0, [])) = 2 /\ fst (nth 1 vs (0, [])) = 0 /\ fst (nth 2 vs (0, [])) = 2.
Proof.
  intros Sf S0f.
  destruct (C45_history_independent Sf S0f 3 [0; 1; 2]%nat) with (fuel := 3%nat) (cs := [[2; 0]; [1; 0; 2]; [0; 2]]%nat) as (vs & m' & E & L & H).
  - intros c _ _ _. eexists. split; [reflexivity|]. cbn [snd]. apply mk_mat_length.
  - intros c _ _ _. eexists. split; [reflexivity|]. cbn [snd]. apply mk_mat_length.
  - intros c c' _ _ _ P. unfold Sf. now rewrite (Permutation_length P).
  - intros c c' _ _ _ P. unfold S0f. now rewrite (Permutation_length P).
  - cbn. lia.
  - intros c Hc. assert (X : forall l : list nat, forallb (fun x => memb x [0; 1; 2]%nat) l = true -> incl l [0; 1; 2]%nat).
    { intros l Hl x Hx. apply memb_in. rewrite forallb_forall in Hl. now apply Hl. }
    destruct Hc as [<-|[<-|[<-|[]]]]; (split; [repeat constructor; cbn; intuition lia|]; split; [discriminate|]; now apply X).
  - exists vs, m'. split; [exact E|].
    pose proof (H 0%nat ltac:(cbn; lia)) as (_ & E0 & _). pose proof (H 1%nat ltac:(cbn; lia)) as (_ & E1 & _). pose proof (H 2%nat ltac:(cbn; lia)) as (_ & E2 & _).
    rewrite E0, E1, E2. cbn [nth nsort fold_right insert Nat.leb parts powerset app map filter nonempty length Nat.sub pow]. unfold Sf, S0f. cbn [length fst].
    rewrite !sumf_cons, !sumf_nil. cbn [length Nat.sub pow INR]. repeat split; ring.
Qed.
