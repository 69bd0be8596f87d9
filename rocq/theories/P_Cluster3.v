(** * The adaptive expansion: selection of clusters and accumulation. *)
From Coq Require Import Permutation Sorting.Sorted.
From Verif Require Import Prelude PreludeFacts M_Params M_MeanField M_Cluster P_Params P_Energy P_Pseudo P_Corr P_Cluster P_Cluster2.
Import ListNotations.

(** ** Unions of sorted lists *)
Lemma union1d_sorted a b : StronglySorted lt (union1d a b).
Proof. apply nunique_sorted. Qed.
Lemma union1d_in a b x : In x (union1d a b) <-> In x a \/ In x b.
Proof. unfold union1d. now rewrite nunique_in, in_app_iff. Qed.
Lemma gammaU_eq a b : nsort (union1d a b) = union1d a b.
Proof. apply nsort_id, union1d_sorted. Qed.
Lemma union1d_comm a b : union1d a b = union1d b a.
Proof. apply sorted_eq; try apply union1d_sorted. intros x. rewrite !union1d_in. tauto. Qed.

Lemma filter_split_length {A} (f : A -> bool) l : length (filter f l) + length (filter (fun x => negb (f x)) l) = length l.
Proof. induction l as [|x l IH]; cbn; [reflexivity|]. destruct (f x); cbn; lia. Qed.

Lemma union_inter_length a b : StronglySorted lt a -> StronglySorted lt b ->
  length (union1d a b) + length (intersect1d a b) = length a + length b.
Proof.
  intros Ha Hb.
  assert (Na := sorted_lt_NoDup a Ha). assert (Nb := sorted_lt_NoDup b Hb).
  assert (P : Permutation (union1d a b) (a ++ filter (fun x => negb (memb x a)) b)).
  { apply NoDup_Permutation; [apply sorted_lt_NoDup, union1d_sorted| |].
    - apply NoDup_app; [assumption|now apply NoDup_filter|]. intros x H1 H2. apply filter_In in H2. destruct H2 as [_ H2].
      apply memb_in in H1. rewrite H1 in H2. discriminate.
    - intros x. rewrite union1d_in, in_app_iff, filter_In. split; [|tauto]. intros [H|H]; [now left|].
      destruct (memb x a) eqn:E; [left; now apply memb_in|right; now split]. }
  assert (Q : Permutation (intersect1d a b) (filter (fun x => memb x a) b)).
  { apply NoDup_Permutation; [apply NoDup_filter, sorted_lt_NoDup, nunique_sorted|now apply NoDup_filter|].
    intros x. unfold intersect1d. rewrite !filter_In, nunique_in, !memb_in. tauto. }
  apply Permutation_length in P, Q. rewrite P, Q, app_length. pose proof (filter_split_length (fun x => memb x a) b). lia.
Qed.

Lemma two_elements (l : list nat) i : NoDup l -> 2 <= length l -> exists j, In j l /\ j <> i.
Proof.
  intros Hn H2. destruct l as [|a [|b l]]; cbn in H2; try lia. destruct (Nat.eq_dec a i) as [->|].
  - exists b. split; [right; now left|]. intros ->. inversion Hn as [|? ? H _]. apply H. now left.
  - exists a. split; [now left|assumption].
Qed.

Local Open Scope R_scope.

(** Two distinct clusters of [s] spins which together have s+1 spins. *)
Definition candidate (s : nat) (level : list (list nat)) (u : list nat) : Prop :=
  StronglySorted lt u /\ length u = Datatypes.S s /\
  exists g1 g2, In g1 level /\ In g2 level /\ g1 <> g2 /\ forall x, In x u <-> In x g1 \/ In x g2.

(** What the list of levels returned by the loop looks like. *)
Fixpoint chain (m : memo) (T : R) (s : nat) (levels : list (list (list nat))) : Prop :=
  match levels with
  | [] => False
  | l1 :: rest =>
    match rest with
    | [] => l1 = []
    | l2 :: _ =>
      l1 <> [] /\ NoDup l2 /\ (forall u, candidate s l1 u -> exists v, mem m u = Some v) /\
      (forall u, In u l2 <-> candidate s l1 u /\ T < Rabs (fst (mval m u))) /\
      chain m T (Datatypes.S s) rest
    end
  end.

Section Expand.
Variables (Sf S0f : list nat -> result val) (N : nat) (dom : list nat).
Hypothesis Sf_ok : forall c, NoDup c -> c <> [] -> incl c dom -> exists a, Sf c = Ok a /\ length (snd a) = N.
Hypothesis S0f_ok : forall c, NoDup c -> c <> [] -> incl c dom -> exists a, S0f c = Ok a /\ length (snd a) = N.
Hypothesis dom_nodup : NoDup dom.
Variables (dfuel : nat) (T : R).
Hypothesis Hdf : (length dom <= dfuel)%nat.

Let goodm := good Sf S0f N dom.
Let dS := deltaS dfuel Sf S0f.
Let kfull := nsort dom.

(** The largest cluster, if evaluated, was evaluated in sorted order. *)
Definition full_sorted (m : memo) : Prop := forall w, mem m kfull = Some w -> adds_up Sf S0f N m kfull kfull.

Definition level_ok (s : nat) (l : list (list nat)) : Prop :=
  NoDup l /\ forall g, In g l -> StronglySorted lt g /\ incl g dom /\ length g = s.

Lemma adds_up_ext m m' k c : ext m m' -> (forall t, In t (parts k) -> exists v, mem m t = Some v) ->
  adds_up Sf S0f N m k c -> adds_up Sf S0f N m' k c.
Proof.
  intros He Hp (a & b & Ea & Eb & H). exists a, b. split; [assumption|]. split; [assumption|]. intros o Ho.
  rewrite (psum_ext m m' o k He Hp). now apply H.
Qed.

Lemma dS_sorted m c : goodm m -> full_sorted m -> StronglySorted lt c -> c <> [] -> incl c dom ->
  exists v m', dS m c = Ok (v, m') /\ goodm m' /\ ext m m' /\ mem m' c = Some v /\ full_sorted m'.
Proof.
  intros Hg Hfs Hc Hne Hi. assert (Nc := sorted_lt_NoDup c Hc).
  destruct (deltaS_ok Sf S0f N dom Sf_ok S0f_ok dfuel m c Hg Nc Hne Hi) as (v & m' & E & Hg' & He & Hm & Hk & Hadd & Hsame).
  { pose proof (NoDup_incl_length Nc Hi). lia. }
  rewrite (nsort_id c Hc) in *. exists v, m'. split; [exact E|]. split; [exact Hg'|]. split; [exact He|]. split; [exact Hm|].
  intros w Hw. destruct (Hk _ _ Hw) as [K|[Hno K]].
  - apply (adds_up_ext m m'); [assumption|apply (good_mem_parts Sf S0f N dom m kfull w Hg K)|now apply (Hfs w)].
  - destruct K as [K|[K1 K2]].
    + rewrite K. now apply Hadd.
    + unfold kfull in K2. rewrite nsort_length in K2. pose proof (NoDup_incl_length Nc Hi). lia.
Qed.

Lemma cond_length s g1 g2 : (1 <= s)%nat -> StronglySorted lt g1 -> StronglySorted lt g2 -> length g1 = s -> length g2 = s -> g1 <> g2 ->
  Nat.eqb (length (intersect1d g1 g2)) (s - 1) = true <-> length (union1d g1 g2) = Datatypes.S s.
Proof.
  intros Hs H1 H2 L1 L2 Hne. pose proof (union_inter_length g1 g2 H1 H2). rewrite Nat.eqb_eq. lia.
Qed.

(** One turn of the while loop. *)
Lemma level_fold s current : (1 <= s)%nat -> level_ok s current -> forall todo m next seen,
  (forall ij, In ij todo -> (fst ij < snd ij)%nat /\ (snd ij < length current)%nat) ->
  goodm m -> full_sorted m -> level_ok (Datatypes.S s) next ->
  (forall u, In u next -> candidate s current u /\ exists v, mem m u = Some v /\ T < Rabs (fst v)) ->
  (forall i j, In (i, j) seen -> length (union1d (nth i current []) (nth j current [])) = Datatypes.S s ->
     exists v, mem m (union1d (nth i current []) (nth j current [])) = Some v /\
       (T < Rabs (fst v) -> In (union1d (nth i current []) (nth j current [])) next)) ->
  exists m' next', foldM (fun st ij => expand_pair dS T s (nth (fst ij) current []) (nth (snd ij) current []) st) todo (m, next) = Ok (m', next') /\
    goodm m' /\ full_sorted m' /\ ext m m' /\ level_ok (Datatypes.S s) next' /\
    (forall u, In u next' -> candidate s current u /\ exists v, mem m' u = Some v /\ T < Rabs (fst v)) /\
    (forall i j, In (i, j) (seen ++ todo) -> length (union1d (nth i current []) (nth j current [])) = Datatypes.S s ->
       exists v, mem m' (union1d (nth i current []) (nth j current [])) = Some v /\
         (T < Rabs (fst v) -> In (union1d (nth i current []) (nth j current [])) next')).
Proof.
  intros Hs [Hcn Hc] todo. induction todo as [|[i j] todo IH]; intros m next seen Htodo Hg Hfs Hl Hn Hseen; cbn [foldM].
  - exists m, next. rewrite app_nil_r. split; [reflexivity|]. split; [assumption|]. split; [assumption|]. split; [apply ext_refl|].
    split; [assumption|]. split; assumption.
  - cbn [fst snd]. destruct (Htodo (i, j) (or_introl eq_refl)) as [Hij Hj]. cbn [fst snd] in Hij, Hj.
    set (g1 := nth i current []) in *. set (g2 := nth j current []) in *.
    assert (I1 : In g1 current) by (apply nth_In; lia). assert (I2 : In g2 current) by (apply nth_In; lia).
    destruct (Hc g1 I1) as (S1 & D1 & L1). destruct (Hc g2 I2) as (S2 & D2 & L2).
    assert (Hne : g1 <> g2). { intros E. apply (proj1 (NoDup_nth current []) Hcn i j) in E; lia. }
    assert (Hcond := cond_length s g1 g2 Hs S1 S2 L1 L2 Hne).
    unfold expand_pair. rewrite gammaU_eq.
    destruct (Nat.eqb (length (intersect1d g1 g2)) (s - 1)) eqn:Ec.
    + assert (LU : length (union1d g1 g2) = Datatypes.S s) by (now apply Hcond). set (u := union1d g1 g2) in *.
      assert (Su : StronglySorted lt u) by apply union1d_sorted.
      assert (Du : incl u dom) by (intros x Hx; apply union1d_in in Hx; destruct Hx; [now apply D1|now apply D2]).
      assert (Cu : candidate s current u).
      { split; [assumption|]. split; [assumption|]. exists g1, g2. split; [assumption|]. split; [assumption|]. split; [assumption|].
        intros x. apply union1d_in. }
      destruct (dS_sorted m u Hg Hfs Su) as (v & m1 & E1 & Hg1 & He1 & Hm1 & Hfs1); [destruct u; [discriminate|congruence]|assumption|].
      cbn [fst]. rewrite E1. cbn [bind fst snd].
      set (next1 := if _ && _ then next ++ [u] else next).
      assert (Hn1 : forall w, In w next1 <-> In w next \/ (w = u /\ T < Rabs (fst v))).
      { intros w. unfold next1. destruct (Rlt_dec T (Rabs (fst v))) as [Ht|Ht]; cbn [andb]; [|tauto].
        destruct (existsb (leqb u) next) eqn:Ex; cbn [negb].
        - apply existsb_exists in Ex. destruct Ex as (y & Hy & Ey). apply leqb_eq in Ey. subst y. split; [now left|]. intros [H|[-> _]]; assumption.
        - rewrite in_app_iff. cbn [In]. split; [intros [H|[<-|[]]]; [now left|right; now split]|intros [H|[-> _]]; [now left|right; now left]]. }
      assert (Hd1 : NoDup next1).
      { destruct Hl as [Hl _]. unfold next1. destruct (Rlt_dec T (Rabs (fst v))); cbn [andb]; [|assumption].
        destruct (existsb (leqb u) next) eqn:Ex; cbn [negb]; [assumption|]. apply NoDup_app; [assumption|repeat constructor; intros []|].
        intros y Hy [<-|[]]. assert (existsb (leqb u) next = true) by (apply existsb_exists; exists u; split; [assumption|apply leqb_refl]). congruence. }
      destruct (IH m1 next1 (seen ++ [(i, j)])) as (m2 & next2 & E2 & Hg2 & Hfs2 & He2 & Hl2 & Hn2 & Hs2).
      * intros ij Hin. apply Htodo. now right.
      * assumption.
      * assumption.
      * split; [assumption|]. intros g Hg'. apply Hn1 in Hg'. destruct Hg' as [Hg'|[-> _]]; [now apply (proj2 Hl)|]. split; [assumption|]. split; assumption.
      * intros w Hw. apply Hn1 in Hw. destruct Hw as [Hw|[-> Ht]].
        -- destruct (Hn w Hw) as (Cw & x & Hx & Tx). split; [assumption|]. exists x. split; [now apply He1|assumption].
        -- split; [assumption|]. exists v. split; assumption.
      * intros i' j' Hin LU'. apply in_app_or in Hin. destruct Hin as [Hin|[E|[]]].
        -- destruct (Hseen i' j' Hin LU') as (x & Hx & Tx). exists x. split; [now apply He1|]. intros Ht. apply Hn1. left. now apply Tx.
        -- injection E as <- <-. fold g1 g2. fold u. exists v. split; [assumption|]. intros Ht. apply Hn1. right. now split.
      * exists m2, next2. split; [exact E2|]. split; [assumption|]. split; [assumption|]. split; [now apply (ext_trans _ m1)|].
        split; [assumption|]. split; [assumption|]. intros i' j' Hin. apply Hs2. rewrite <- app_assoc. exact Hin.
    + destruct (IH m next (seen ++ [(i, j)])) as (m2 & next2 & E2 & Hg2 & Hfs2 & He2 & Hl2 & Hn2 & Hs2); try assumption.
      * intros ij Hin. apply Htodo. now right.
      * intros i' j' Hin LU'. apply in_app_or in Hin. destruct Hin as [Hin|[E|[]]]; [now apply Hseen|].
        injection E as <- <-. fold g1 g2 in LU'. apply Hcond in LU'. discriminate.
      * exists m2, next2. split; [exact E2|]. split; [assumption|]. split; [assumption|]. split; [assumption|].
        split; [assumption|]. split; [assumption|]. intros i' j' Hin. apply Hs2. rewrite <- app_assoc. exact Hin.
Qed.

Lemma expand_ok : forall fuel s current m, (1 <= s)%nat -> level_ok s current -> goodm m -> full_sorted m ->
  (length dom <= fuel + s - 1)%nat ->
  exists m' levels, expand fuel dS T s current m = Ok (m', current :: levels) /\ goodm m' /\ full_sorted m' /\ ext m m' /\
    chain m' T s (current :: levels) /\ (forall k l, nth_error levels k = Some l -> level_ok (Datatypes.S s + k) l) /\
    (forall l u, In l levels -> In u l -> exists v, mem m' u = Some v).
Proof.
  induction fuel as [|fuel IH]; intros s current m Hs Hl Hg Hfs Hf.
  - destruct current as [|g current].
    + exists m, []. cbn [expand]. split; [reflexivity|]. split; [assumption|]. split; [assumption|]. split; [apply ext_refl|].
      split; [reflexivity|]. split; [intros [|k] l H; discriminate|]. intros l u [].
    + exfalso. destruct Hl as [_ Hl]. destruct (Hl g (or_introl eq_refl)) as (Sg & Dg & Lg).
      pose proof (NoDup_incl_length (sorted_lt_NoDup g Sg) Dg). lia.
  - destruct current as [|g current].
    { exists m, []. cbn [expand]. split; [reflexivity|]. split; [assumption|]. split; [assumption|]. split; [apply ext_refl|].
      split; [reflexivity|]. split; [intros [|k] l H; discriminate|]. intros l u []. }
    set (cur := g :: current) in *.
    change (expand (Datatypes.S fuel) dS T s cur m) with
      (bind (foldM (fun st ij => expand_pair dS T s (nth (fst ij) cur []) (nth (snd ij) cur []) st) (loop_ij (length cur)) (m, [])) (fun r =>
        bind (expand fuel dS T (s + 1) (snd r) (fst r)) (fun r2 => Ok (fst r2, cur :: snd r2)))).
    destruct (level_fold s cur Hs Hl (loop_ij (length cur)) m [] []) as (m1 & next & E1 & Hg1 & Hfs1 & He1 & Hl1 & Hn1 & Hs1).
    + intros [i j] Hin. rewrite loop_ij_pairs in Hin. apply in_pairs_seq in Hin. cbn [fst snd]. lia.
    + assumption.
    + assumption.
    + split; [constructor|intros g' []].
    + intros u [].
    + intros i j [].
    + rewrite E1. cbn [bind fst snd]. replace (s + 1)%nat with (Datatypes.S s) by lia.
      destruct (IH (Datatypes.S s) next m1) as (m2 & levels & E2 & Hg2 & Hfs2 & He2 & Hch & Hlv & Hmem); [lia|assumption|assumption|assumption|lia|].
      rewrite E2. cbn [bind fst snd]. exists m2, (next :: levels). split; [reflexivity|]. split; [assumption|]. split; [assumption|].
      split; [now apply (ext_trans _ m1)|]. split; [|split].
      * cbn [app] in Hs1.
        assert (Hcand : forall u, candidate s cur u -> exists v, mem m1 u = Some v /\ (T < Rabs (fst v) -> In u next)).
        { intros u (Su & Lu & g1 & g2 & I1 & I2 & Hne & Hu).
          destruct (In_nth cur g1 [] I1) as (i & Hi & Ei). destruct (In_nth cur g2 [] I2) as (j & Hj & Ej).
          assert (Eu : u = union1d g1 g2) by (apply sorted_eq; [assumption|apply union1d_sorted|]; intros x; now rewrite union1d_in).
          assert (Hij : (i <> j)%nat) by (intros ->; congruence).
          destruct (Nat.lt_ge_cases i j) as [L|L].
          - destruct (Hs1 i j) as (v & Hv & Hv2); [rewrite loop_ij_pairs; apply in_pairs_seq; lia|rewrite Ei, Ej, <- Eu; assumption|].
            rewrite Ei, Ej, <- Eu in Hv, Hv2. exists v. split; assumption.
          - destruct (Hs1 j i) as (v & Hv & Hv2); [rewrite loop_ij_pairs; apply in_pairs_seq; lia|rewrite Ei, Ej, union1d_comm, <- Eu; assumption|].
            rewrite Ei, Ej, union1d_comm, <- Eu in Hv, Hv2. exists v. split; assumption. }
        cbn [chain]. split; [discriminate|]. split; [apply Hl1|]. split; [|split; [|exact Hch]].
        -- intros u Hu. destruct (Hcand u Hu) as (v & Hv & _). exists v. now apply He2.
        -- intros u. split.
           ++ intros Hu. destruct (Hn1 u Hu) as (Cu & v & Hv & Tv). split; [assumption|]. unfold mval. now rewrite (He2 _ _ Hv).
           ++ intros [Cu Tu]. destruct (Hcand u Cu) as (v & Hv & Hin). apply Hin. unfold mval in Tu. now rewrite (He2 _ _ Hv) in Tu.
      * intros [|k] l Hk; cbn [nth_error] in Hk; [injection Hk as <-; now rewrite Nat.add_0_r|].
        replace (Datatypes.S s + Datatypes.S k)%nat with (Datatypes.S (Datatypes.S s) + k)%nat by lia. now apply Hlv.
      * intros l u [<-|Hin] Hu; [|now apply (Hmem l)]. destruct (Hn1 u Hu) as (_ & v & Hv & _). exists v. now apply He2.
Qed.

(** ** Accumulation *)
Lemma accumulate_ok m : goodm m -> forall cs start, length (snd start) = N ->
  (forall c, In c cs -> StronglySorted lt c /\ exists v, mem m c = Some v) ->
  exists v, foldM (fun acc c => bind (memo_get (clusterID c) m) (fun v => Ok (vplus acc v))) cs start = Ok v /\ length (snd v) = N /\
    forall o, o_in N o -> vobs o v = vobs o start + sumf cs (fun c => vobs o (mval m c)).
Proof.
  intros Hg. induction cs as [|c cs IH]; intros start Hst Hcs; cbn [foldM].
  - exists start. split; [reflexivity|]. split; [assumption|]. intros o _. rewrite sumf_nil. ring.
  - destruct (Hcs c (or_introl eq_refl)) as (Sc & v & Hv). unfold clusterID. rewrite (nsort_id c Sc).
    pose proof (mem_lookup _ _ _ Hv) as [E1 E2]. unfold memo_get at 1, dget. rewrite E1, E2. cbn [bind].
    replace (fst v, snd v) with v by now destruct v.
    destruct (IH (vplus start v)) as (w & Ew & Lw & Hw); [now rewrite vplus_length|intros c' Hc'; apply Hcs; now right|].
    unfold clusterID in Ew. rewrite Ew. exists w. split; [reflexivity|]. split; [assumption|]. intros o Ho.
    rewrite (Hw o Ho), sumf_cons, (vobs_plus N) by assumption. unfold mval at 2. rewrite Hv. ring.
Qed.

Lemma singles_ok : level_ok 1 (map (fun i => [i]) dom).
Proof.
  split.
  - apply FinFun.Injective_map_NoDup; [intros a b E; congruence|assumption].
  - intros g Hg. apply in_map_iff in Hg. destruct Hg as (i & <- & Hi). split; [repeat constructor|]. split; [|reflexivity].
    intros x [<-|[]]. assumption.
Qed.

(** The elements of all levels. *)
Lemma concat_NoDup : forall levels s, (forall k l, nth_error levels k = Some l -> level_ok (s + k) l) ->
  NoDup (concat levels) /\ forall u, In u (concat levels) -> StronglySorted lt u /\ incl u dom /\ (s <= length u)%nat.
Proof.
  induction levels as [|l levels IH]; intros s H; cbn [concat]; [split; [constructor|intros u []]|].
  pose proof (H 0%nat l eq_refl) as Hl. rewrite Nat.add_0_r in Hl. destruct Hl as [Hl1 Hl2].
  destruct (IH (Datatypes.S s)) as [H1 H2]; [intros k l' Hk; replace (Datatypes.S s + k)%nat with (s + Datatypes.S k)%nat by lia; now apply H|].
  split.
  - apply NoDup_app; try assumption. intros u Hu Hu'. destruct (Hl2 u Hu) as (_ & _ & E). destruct (H2 u Hu') as (_ & _ & L). lia.
  - intros u Hu. apply in_app_or in Hu. destruct Hu as [Hu|Hu].
    + destruct (Hl2 u Hu) as (A & B & C). split; [assumption|]. split; [assumption|]. lia.
    + destruct (H2 u Hu) as (A & B & C). split; [assumption|]. split; [assumption|]. lia.
Qed.

(** Everything about a run on at least two spins. *)
Lemma solve_core_ok fuel m start : (2 <= length dom)%nat -> (length dom <= fuel)%nat -> goodm m -> full_sorted m -> length (snd start) = N ->
  exists v levels m', solve_core fuel dS (Ok start) T dom m = Ok (v, map (fun i => [i]) dom :: levels, m') /\
    goodm m' /\ ext m m' /\ full_sorted m' /\ length (snd v) = N /\
    chain m' T 1 (map (fun i => [i]) dom :: levels) /\
    (forall k l, nth_error levels k = Some l -> level_ok (2 + k) l) /\
    (forall u, In u (concat (map (fun i => [i]) dom :: levels)) -> exists w, mem m' u = Some w) /\
    forall o, o_in N o -> vobs o v = vobs o start + sumf (concat (map (fun i => [i]) dom :: levels)) (fun c => vobs o (mval m' c)).
Proof.
  intros H2 Hf Hg Hfs Hst. unfold solve_core.
  destruct (expand_ok fuel 1 (map (fun i => [i]) dom) m) as (m' & levels & E & Hg' & Hfs' & He & Hch & Hlv & Hmem); [lia|apply singles_ok|assumption|assumption|lia|].
  rewrite E. cbn [bind fst snd].
  assert (Hall : forall u, In u (concat (map (fun i => [i]) dom :: levels)) -> StronglySorted lt u /\ exists w, mem m' u = Some w).
  { intros u Hu. cbn [concat] in Hu. apply in_app_or in Hu. destruct Hu as [Hu|Hu].
    - apply in_map_iff in Hu. destruct Hu as (i & <- & Hi). split; [repeat constructor|].
      assert (Hj : exists j, In j dom /\ j <> i).
      { now apply two_elements. }
      destruct Hj as (j & Hj & Nij). set (u := union1d [i] [j]).
      assert (Iu : forall x, In x u <-> x = i \/ x = j) by (intros x; unfold u; rewrite union1d_in; cbn; split; intuition).
      assert (Cu : candidate 1 (map (fun i => [i]) dom) u).
      { split; [apply union1d_sorted|]. split.
        - assert (P : Permutation u [i; j]).
          { apply NoDup_Permutation; [apply sorted_lt_NoDup, union1d_sorted|constructor; [cbn; intros [E'|[]]; congruence|repeat constructor; intros []]|].
            intros x. rewrite Iu. cbn. split; [intros [->| ->]; auto|intros [<-|[<-|[]]]; auto]. }
          apply Permutation_length in P. exact P.
        - exists [i], [j]. split; [apply in_map_iff; now exists i|]. split; [apply in_map_iff; now exists j|]. split; [congruence|].
          intros x. rewrite Iu. cbn. split; [intros [->| ->]; auto|intros [[<-|[]]|[<-|[]]]; auto]. }
      assert (Hcm : exists w, mem m' u = Some w).
      { destruct levels as [|l2 levels]; cbn [chain] in Hch.
        - apply map_eq_nil in Hch. rewrite Hch in H2. cbn in H2. lia.
        - destruct Hch as (_ & _ & Hc & _). now apply Hc. }
      destruct Hcm as [w Hw]. apply (good_mem_parts Sf S0f N dom m' u w Hg' Hw). apply in_parts; [apply union1d_sorted|].
      split; [repeat constructor|]. split; [|discriminate]. intros x [<-|[]]. apply Iu. now left.
    - apply in_concat in Hu. destruct Hu as (l & Hl & Hu). split; [|now apply (Hmem l)].
      apply In_nth_error in Hl. destruct Hl as [k Hk]. apply (proj2 (Hlv k l Hk)). assumption. }
  destruct (accumulate_ok m' Hg' (concat (map (fun i => [i]) dom :: levels)) start Hst Hall) as (v & Ev & Lv & Hv).
  unfold accumulate. rewrite Ev. cbn [bind]. exists v, levels, m'. split; [reflexivity|]. split; [assumption|]. split; [assumption|].
  split; [assumption|]. split; [assumption|]. split; [assumption|]. split; [exact Hlv|]. split; [intros u Hu; now apply Hall|exact Hv].
Qed.

(** ** Nothing discarded *)
(** If every contribution exceeds the threshold, level s lists all clusters of s spins. *)
Lemma chain_all m : (forall u v, StronglySorted lt u -> incl u dom -> (2 <= length u)%nat -> mem m u = Some v -> T < Rabs (fst v)) ->
  forall levels s, (1 <= s)%nat -> chain m T s levels -> (forall k l, nth_error levels k = Some l -> level_ok (s + k) l) ->
  (forall u, In u (hd [] levels) <-> StronglySorted lt u /\ incl u dom /\ length u = s) ->
  forall u, StronglySorted lt u -> incl u dom -> (s <= length u)%nat -> In u (concat levels).
Proof.
  intros HT. induction levels as [|l1 levels IH]; intros s Hs Hch Hlv Hhd u Su Du Lu; [destruct Hch|].
  cbn [hd] in Hhd. cbn [concat]. apply in_or_app.
  destruct (Nat.eq_dec (length u) s) as [E|Ne]; [left; apply Hhd; auto|]. right.
  destruct levels as [|l2 levels].
  - exfalso. cbn [chain] in Hch. subst l1.
    assert (Hin : In (firstn s u) []); [|destruct Hin]. apply Hhd.
    split; [|split].
    + clear - Su. revert s. induction Su as [|x l Hl IHl Hf]; intros [|s]; cbn; [constructor|constructor|constructor|]. constructor; [apply IHl|].
      apply Forall_forall. intros y Hy. rewrite Forall_forall in Hf. apply Hf. rewrite <- (firstn_skipn s l). apply in_or_app. now left.
    + intros x Hx. apply Du. rewrite <- (firstn_skipn s u). apply in_or_app. now left.
    + rewrite firstn_length. lia.
  - cbn [chain] in Hch. destruct Hch as (_ & _ & Hc & Hsel & Hch).
    apply (IH (Datatypes.S s)); [lia|exact Hch| | |assumption|assumption|lia].
    + intros k l Hk. replace (Datatypes.S s + k)%nat with (s + Datatypes.S k)%nat by lia. now apply Hlv.
    + cbn [hd]. intros w. split.
      * intros Hw. pose proof (Hlv 1%nat l2 eq_refl) as [_ Hl2]. replace (Datatypes.S s) with (s + 1)%nat by lia. now apply Hl2.
      * intros (Sw & Dw & Lw). apply Hsel.
        assert (Cw : candidate s l1 w).
        { split; [assumption|]. split; [assumption|].
          destruct w as [|a w]; [discriminate|]. cbn [length] in Lw.
          assert (Lw' : length w = s) by lia.
          inversion Sw as [|x0 y0 Sw' Fw Ex0]; subst x0 y0. rewrite Forall_forall in Fw.
          destruct (exists_last (l := w)) as (w0 & b & Ew); [intros ->; cbn in Lw'; lia|].
          exists w, (a :: w0). subst w. rewrite app_length in Lw'. cbn [length] in Lw'.
          assert (Sw0 : StronglySorted lt w0).
          { clear - Sw'. induction w0 as [|y w0 IHw]; [constructor|]. cbn in Sw'. inversion Sw' as [|? ? H1 H2]; subst. constructor; [now apply IHw|].
            apply Forall_forall. intros z Hz. rewrite Forall_forall in H2. apply H2. apply in_or_app. now left. }
          split; [|split; [|split]].
          - apply Hhd. split; [assumption|]. split; [intros x Hx; apply Dw; now right|rewrite app_length; cbn; lia].
          - apply Hhd. split; [|split].
            + constructor; [assumption|]. apply Forall_forall. intros x Hx. apply Fw. apply in_or_app. now left.
            + intros x [<-|Hx]; apply Dw; [now left|right; apply in_or_app; now left].
            + cbn. lia.
          - intros E. assert (Ha : In a (w0 ++ [b])) by (rewrite E; now left). specialize (Fw a Ha). lia.
          - intros x. cbn [In]. rewrite in_app_iff. cbn [In]. tauto. }
        split; [assumption|]. destruct (Hc w Cw) as [v Hv]. unfold mval. rewrite Hv. apply (HT w v); auto. lia.
Qed.

Lemma all_parts m levels : (forall k l, nth_error levels k = Some l -> level_ok (1 + k) l) ->
  (forall u, StronglySorted lt u -> incl u dom -> (1 <= length u)%nat -> In u (concat levels)) ->
  forall o, sumf (concat levels) (fun c => vobs o (mval m c)) = psum m o kfull.
Proof.
  intros Hlv Hall o. unfold psum. apply sumf_perm. destruct (concat_NoDup levels 1 Hlv) as [Hn Hin].
  apply NoDup_Permutation; [assumption|apply parts_NoDup, sorted_lt_NoDup, nsort_lt, dom_nodup|].
  intros u. unfold kfull. rewrite in_parts by apply nsort_lt, dom_nodup. split.
  - intros Hu. destruct (Hin u Hu) as (A & B & C). split; [assumption|]. split; [|intros ->; cbn in C; lia].
    intros x Hx. apply nsort_in. now apply B.
  - intros (A & B & C). apply Hall; [assumption|intros x Hx; now apply nsort_in, B|]. destruct u; [congruence|cbn; lia].
Qed.

End Expand.
