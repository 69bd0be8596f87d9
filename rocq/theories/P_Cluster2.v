(** * Inclusion-exclusion by the memoised recursion. *)
From Coq Require Import Permutation Sorting.Sorted.
From Verif Require Import Prelude PreludeFacts M_Params M_MeanField M_Cluster P_Params P_Pseudo P_Corr P_Cluster.
Import ListNotations.
Local Open Scope R_scope.

(** One number of a pair (entropy, matrix). *)
Definition vobs (o : option (nat * nat)) (v : val) : R :=
  match o with None => fst v | Some (i, j) => entry (snd v) i j end.
Definition o_in (N : nat) (o : option (nat * nat)) : Prop :=
  match o with None => True | Some (i, j) => (i < N)%nat /\ (j < N)%nat end.

Lemma vobs_sub N o a b : o_in N o -> length (snd a) = N -> vobs o (vsub a b) = vobs o a - vobs o b.
Proof.
  intros Ho Ha. destruct o as [[i j]|]; cbn [vobs vsub fst snd]; [|reflexivity]. destruct Ho. unfold msub. apply entry_mk_mat; lia.
Qed.
Lemma vobs_plus N o a b : o_in N o -> length (snd a) = N -> vobs o (vplus a b) = vobs o a + vobs o b.
Proof.
  intros Ho Ha. destruct o as [[i j]|]; cbn [vobs vplus fst snd]; [|reflexivity]. destruct Ho. unfold madd. apply entry_mk_mat; lia.
Qed.
Lemma vsub_length a b : length (snd (vsub a b)) = length (snd a).
Proof. apply mk_mat_length. Qed.
Lemma vplus_length a b : length (snd (vplus a b)) = length (snd a).
Proof. apply mk_mat_length. Qed.

(** Content of the two dicts. *)
Definition mem (m : memo) (k : list nat) : option val :=
  match lookup k (fst m), lookup k (snd m) with Some s, Some J => Some (s, J) | _, _ => None end.
Definition mval (m : memo) (k : list nat) : val := match mem m k with Some v => v | None => (0, []) end.

Definition nonempty (t : list nat) : bool := match t with [] => false | _ => true end.
(** The nonempty sublists. *)
Definition parts (k : list nat) : list (list nat) := filter nonempty (powerset k).

Lemma in_parts k t : StronglySorted lt k -> In t (parts k) <-> StronglySorted lt t /\ incl t k /\ t <> [].
Proof.
  intros Hk. unfold parts. rewrite filter_In, in_powerset by assumption. split.
  - intros [[H1 H2] H3]. repeat split; auto. intros ->. discriminate.
  - intros (H1 & H2 & H3). repeat split; auto. destruct t; [congruence|reflexivity].
Qed.

Lemma parts_NoDup k : NoDup k -> NoDup (parts k).
Proof. intros H. apply NoDup_filter. now apply powerset_NoDup. Qed.

Lemma lookup_cons {A} k k' (v : A) d : lookup k ((k', v) :: d) = if leqb k k' then Some v else lookup k d.
Proof. reflexivity. Qed.

(** m' knows everything m knows. *)
Definition ext (m m' : memo) : Prop := forall k v, mem m k = Some v -> mem m' k = Some v.

Lemma ext_refl m : ext m m. Proof. intros k v H; exact H. Qed.
Lemma ext_trans a b c : ext a b -> ext b c -> ext a c. Proof. intros H1 H2 k v H. now apply H2, H1. Qed.

Section Delta.
Variables (Sf S0f : list nat -> result val) (N : nat) (dom : list nat).
Hypothesis Sf_ok : forall c, NoDup c -> c <> [] -> incl c dom -> exists a, Sf c = Ok a /\ length (snd a) = N.
Hypothesis S0f_ok : forall c, NoDup c -> c <> [] -> incl c dom -> exists a, S0f c = Ok a /\ length (snd a) = N.

(** Sum over the nonempty parts of [k] of the memoised contributions. *)
Definition psum (m : memo) (o : option (nat * nat)) (k : list nat) : R := sumf (parts k) (fun t => vobs o (mval m t)).

(** The contributions of the parts of [k] add up to S(c)-S0(c). *)
Definition adds_up (m : memo) (k c : list nat) : Prop :=
  exists a b, Sf c = Ok a /\ S0f c = Ok b /\ forall o, o_in N o -> psum m o k = vobs o a - vobs o b.

(** The two dicts have the same keys, which are closed under taking parts, and every
    key adds up for some order of its elements. *)
Definition good (m : memo) : Prop := forall k s, lookup k (fst m) = Some s ->
  exists J, lookup k (snd m) = Some J /\ length J = N /\ StronglySorted lt k /\ k <> [] /\ incl k dom /\
    (forall t, In t (parts k) -> exists v, mem m t = Some v) /\
    exists c, Permutation c k /\ adds_up m k c.

Lemma good_nil : good ([], []).
Proof. intros k s H. discriminate. Qed.

Lemma psum_ext m m' o k : ext m m' -> (forall t, In t (parts k) -> exists v, mem m t = Some v) -> psum m' o k = psum m o k.
Proof.
  intros He Hk. apply sumf_ext_in. intros t Ht. destruct (Hk t Ht) as [v Hv]. unfold mval. now rewrite Hv, (He t v Hv).
Qed.

Lemma good_lookup m k s : good m -> lookup k (fst m) = Some s -> exists J, mem m k = Some (s, J) /\ length J = N.
Proof. intros Hg H. destruct (Hg k s H) as (J & HJ & HN & _). exists J. unfold mem. now rewrite H, HJ. Qed.

Lemma mem_lookup m k v : mem m k = Some v -> lookup k (fst m) = Some (fst v) /\ lookup k (snd m) = Some (snd v).
Proof.
  unfold mem. destruct (lookup k (fst m)) as [s|]; [|discriminate]. destruct (lookup k (snd m)) as [J|]; [|discriminate].
  intros E. injection E as <-. split; reflexivity.
Qed.

Lemma good_mem_parts m k v : good m -> mem m k = Some v -> forall t, In t (parts k) -> exists w, mem m t = Some w.
Proof. intros Hg H. apply mem_lookup in H. destruct H as [H _]. destruct (Hg _ _ H) as (J & _ & _ & _ & _ & _ & Hp & _). exact Hp. Qed.

Lemma good_mem m k v : good m -> mem m k = Some v -> length (snd v) = N /\ StronglySorted lt k /\ k <> [] /\ incl k dom /\ exists c, Permutation c k /\ adds_up m k c.
Proof.
  intros Hg H. apply mem_lookup in H. destruct H as [H1 H2]. destruct (Hg _ _ H1) as (J & HJ & HN & Hs & Hne & Hd & Hp & Hc).
  assert (J = snd v) by congruence. subst J. repeat split; assumption.
Qed.

(** A list of clusters whose sorted versions are the proper nonempty parts. *)
Lemma proper_subsets c : NoDup c -> exists ls, mapM (fun size => subsets c (Z.of_nat size)) (rev (seq 1 (length c - 1))) = Ok ls /\
  (forall x, In x (concat ls) -> NoDup x /\ incl x c /\ x <> [] /\ (length x < length c)%nat) /\
  (forall t, In t (map nsort (concat ls)) <-> StronglySorted lt t /\ incl t c /\ t <> [] /\ (length t < length c)%nat) /\
  NoDup (map nsort (concat ls)).
Proof.
  intros Hc.
  assert (G : forall sizes, NoDup sizes -> (forall z, In z sizes -> (1 <= z < length c)%nat) ->
    exists ls, mapM (fun size => subsets c (Z.of_nat size)) sizes = Ok ls /\
      (forall x, In x (concat ls) -> NoDup x /\ incl x c /\ x <> [] /\ (length x < length c)%nat) /\
      (forall t, In t (map nsort (concat ls)) <-> StronglySorted lt t /\ incl t c /\ In (length t) sizes) /\
      NoDup (map nsort (concat ls))).
  { induction sizes as [|z sizes IH]; intros Hn Hz.
    - exists []. split; [reflexivity|]. split; [intros x []|]. split; [intros t; cbn; tauto|constructor].
    - inversion Hn as [|? ? Hz1 Hz2]; subst. destruct (IH Hz2) as (ls & E & A & B & D); [intros y Hy; apply Hz; now right|].
      pose proof (Hz z (or_introl eq_refl)) as Bz.
      destruct (subsets_ok c Hc (Z.of_nat z)) as (r & E1 & A1 & B1 & D1 & _).
      exists (r :: ls). cbn [mapM concat]. rewrite E1, E. cbn [bind]. split; [reflexivity|]. split; [|split].
      + intros x Hx. apply in_app_or in Hx. destruct Hx as [Hx|Hx]; [|now apply A]. destruct (A1 x Hx) as (H1 & H2 & H3).
        split; [assumption|]. split; [assumption|]. split; [intros ->; cbn in H3; lia|lia].
      + intros t. rewrite map_app, in_app_iff, B1, B. cbn [In]. split.
        * intros [(H1 & H2 & H3 & _)|(H1 & H2 & H3)]; (split; [assumption|split; [assumption|]]); [left; lia|now right].
        * intros (H1 & H2 & [H3|H3]); [left; split; [assumption|split; [assumption|split; [lia|left; lia]]]|right; split; [assumption|split; assumption]].
      + rewrite map_app. apply NoDup_app; try assumption. intros t H1 H2. apply B1 in H1. apply B in H2.
        destruct H1 as (_ & _ & H1 & _). destruct H2 as (_ & _ & H2). apply Hz1. replace z with (length t) by lia. assumption. }
  destruct (G (rev (seq 1 (length c - 1)))) as (ls & E & A & B & D).
  - apply NoDup_rev, seq_NoDup.
  - intros z Hz. apply in_rev, in_seq in Hz. lia.
  - exists ls. split; [exact E|]. split; [exact A|]. split; [|exact D]. intros t. rewrite B, <- in_rev, in_seq. split.
    + intros (H1 & H2 & H3). split; [assumption|]. split; [assumption|]. split; [intros ->; cbn in H3; lia|lia].
    + intros (H1 & H2 & H3 & H4). split; [assumption|]. split; [assumption|]. destruct t; [congruence|cbn in *; lia].
Qed.

Lemma foldM_concat {A B St} (f : A -> result (list B)) (g : St -> B -> result St) : forall xs ls st,
  mapM f xs = Ok ls -> foldM (fun st a => bind (f a) (fun l => foldM g l st)) xs st = foldM g (concat ls) st.
Proof.
  induction xs as [|x xs IH]; intros ls st H; cbn [mapM foldM] in *.
  - injection H as <-. reflexivity.
  - destruct (f x) as [l|e]; [|discriminate]. cbn [bind] in *. destruct (mapM f xs) as [ls'|e] eqn:E; [|discriminate].
    cbn [bind] in H. injection H as <-. cbn [concat]. rewrite foldM_app. destruct (foldM g l st); cbn [bind]; [|reflexivity]. now apply IH.
Qed.

Lemma parts_perm_proper c L : NoDup c -> c <> [] ->
  (forall t, In t (map nsort L) <-> StronglySorted lt t /\ incl t c /\ t <> [] /\ (length t < length c)%nat) ->
  NoDup (map nsort L) -> Permutation (parts (nsort c)) (nsort c :: map nsort L).
Proof.
  intros Hc Hne HL HD. assert (Hs := nsort_lt c Hc). apply NoDup_Permutation.
  - apply parts_NoDup. now apply sorted_lt_NoDup.
  - constructor; [|assumption]. intros H. apply HL in H. rewrite nsort_length in H. lia.
  - intros t. rewrite in_parts by assumption. cbn [In]. rewrite HL. split.
    + intros (H1 & H2 & H3). assert (Hi : incl t c) by (intros x Hx; now apply nsort_in, H2).
      pose proof (NoDup_incl_length (sorted_lt_NoDup _ H1) Hi) as Hle.
      destruct (Nat.eq_dec (length t) (length c)) as [El|Nl]; [left; symmetry; now apply incl_length_eq_sorted|right; repeat split; auto; lia].
    + intros [<-|(H1 & H2 & H3 & H4)].
      * split; [assumption|]. split; [apply incl_refl|]. intros H. apply Hne. apply length_zero_iff_nil. rewrite <- nsort_length, H. reflexivity.
      * split; [assumption|]. split; [|assumption]. intros x Hx. apply nsort_in. now apply H2.
Qed.

Lemma deltaS_ok fuel : forall m c, good m -> NoDup c -> c <> [] -> incl c dom -> (length c <= fuel)%nat ->
  exists v m', deltaS fuel Sf S0f m c = Ok (v, m') /\ good m' /\ ext m m' /\ mem m' (nsort c) = Some v /\
    (forall k w, mem m' k = Some w -> mem m k = Some w \/
       (mem m (nsort c) = None /\ (k = nsort c \/ (incl k c /\ (length k < length c)%nat)))) /\
    (mem m (nsort c) = None -> adds_up m' (nsort c) c) /\
    (forall w, mem m (nsort c) = Some w -> m' = m).
Proof.
  induction fuel as [|fuel IH]; intros m c Hg Hc Hne Hd Hf; [destruct c; [congruence|cbn in Hf; lia]|].
  cbn [deltaS]. unfold clusterID. destruct (lookup (nsort c) (fst m)) as [s|] eqn:El.
  - destruct (good_lookup m _ s Hg El) as (J & HJ & HN). exists (s, J), m. unfold dget.
    pose proof (mem_lookup _ _ _ HJ) as [_ E2]. cbn [snd] in E2. rewrite E2. cbn [bind]. split; [reflexivity|]. split; [assumption|].
    split; [apply ext_refl|]. split; [assumption|]. split; [intros k w Hk; now left|]. split; [intros; congruence|reflexivity].
  - destruct (Sf_ok c Hc Hne Hd) as (a & Ea & La). destruct (S0f_ok c Hc Hne Hd) as (b & Eb & Lb). rewrite Ea, Eb. cbn [bind].
    assert (Hm0 : mem m (nsort c) = None) by (unfold mem; now rewrite El).
    destruct (proper_subsets c Hc) as (ls & E & A & B & D).
    rewrite (foldM_concat _ _ _ _ _ E). set (L := concat ls) in *. clearbody L. clear E ls.
    assert (Hs := nsort_lt c Hc).
    assert (G : forall l (acc : val) m1, (forall x, In x l -> NoDup x /\ incl x c /\ x <> [] /\ (length x < length c)%nat) ->
      good m1 -> length (snd acc) = N -> mem m1 (nsort c) = None ->
      exists acc' m2, foldM (fun (st : val * memo) sub => bind (deltaS fuel Sf S0f (snd st) sub) (fun r => Ok (vsub (fst st) (fst r), snd r))) l (acc, m1) = Ok (acc', m2) /\
        good m2 /\ ext m1 m2 /\ length (snd acc') = N /\ (forall x, In x l -> exists w, mem m2 (nsort x) = Some w) /\
        mem m2 (nsort c) = None /\
        (forall k w, mem m2 k = Some w -> mem m1 k = Some w \/ (incl k c /\ (length k < length c)%nat)) /\
        forall o, o_in N o -> vobs o acc' = vobs o acc - sumf (map nsort l) (fun t => vobs o (mval m2 t))).
    { induction l as [|x l IHl]; intros acc m1 Hl Hg1 Hacc Hnone; cbn [foldM].
      - exists acc, m1. split; [reflexivity|]. split; [assumption|]. split; [apply ext_refl|]. split; [assumption|]. split; [intros x []|].
        split; [assumption|]. split; [intros; now left|]. intros o Ho. cbn [map]. rewrite sumf_nil. ring.
      - destruct (Hl x (or_introl eq_refl)) as (H1 & H2 & H3 & H4).
        destruct (IH m1 x Hg1 H1 H3) as (v & m2 & Ev & Hg2 & He2 & Hv & Hk2 & _); [intros y Hy; now apply Hd, H2|lia|].
        cbn [snd]. rewrite Ev. cbn [bind fst snd].
        assert (Hlk : forall k, (k = nsort x \/ (incl k x /\ (length k < length x)%nat)) -> incl k c /\ (length k < length c)%nat).
        { intros k [->|[K1 K2]]; [rewrite nsort_length; split; [|lia]; intros y Hy; now apply H2, nsort_in|].
          split; [intros y Hy; now apply H2, K1|lia]. }
        destruct (IHl (vsub acc v) m2) as (acc' & m3 & E3 & Hg3 & He3 & Ha3 & Hin3 & Hno3 & Hk3 & Hs3).
        + intros y Hy. apply Hl. now right.
        + assumption.
        + now rewrite vsub_length.
        + destruct (mem m2 (nsort c)) as [w|] eqn:Em; [|reflexivity]. destruct (Hk2 _ _ Em) as [K|[_ K]]; [congruence|].
          apply Hlk in K. rewrite nsort_length in K. lia.
        + exists acc', m3. split; [exact E3|]. split; [assumption|]. split; [now apply (ext_trans _ m2)|]. split; [assumption|].
          split; [intros y [<-|Hy]; [exists v; now apply He3|now apply Hin3]|]. split; [assumption|]. split.
          * intros k w Hk. destruct (Hk3 k w Hk) as [K|K]; [|now right]. destruct (Hk2 k w K) as [K'|[_ K']]; [now left|right; now apply Hlk].
          * intros o Ho. rewrite (Hs3 o Ho). cbn [map]. rewrite sumf_cons, (vobs_sub N) by assumption.
            unfold mval at 2. rewrite (He3 _ _ Hv). ring. }
    destruct (G L (vsub a b) m) as (acc & m2 & E2 & Hg2 & He2 & Ha2 & Hin2 & Hno2 & Hk2 & Hs2);
      [exact A|assumption|now rewrite vsub_length|assumption|].
    rewrite E2. cbn [bind]. eexists _, _. split; [reflexivity|].
    set (m' := ((nsort c, fst acc) :: fst m2, (nsort c, snd acc) :: snd m2) : memo).
    assert (Hmem : forall k, mem m' k = if leqb k (nsort c) then Some acc else mem m2 k).
    { intros k. unfold mem, m'. cbn [fst snd]. rewrite !lookup_cons. destruct (leqb k (nsort c)); [now destruct acc|reflexivity]. }
    assert (He : ext m2 m').
    { intros k w Hk. rewrite Hmem. destruct (leqb k (nsort c)) eqn:Q; [|assumption]. apply leqb_eq in Q. congruence. }
    assert (Hself : mem m' (nsort c) = Some acc) by (rewrite Hmem, leqb_refl; reflexivity).
    assert (P := parts_perm_proper c L Hc Hne B D).
    assert (Hin : forall t, In t (parts (nsort c)) -> exists w, mem m' t = Some w).
    { intros t Ht. apply (Permutation_in _ P) in Ht. destruct Ht as [<-|Ht]; [now exists acc|]. apply in_map_iff in Ht.
      destruct Ht as (x & <- & Hx). destruct (Hin2 x Hx) as [w Hw]. exists w. now apply He. }
    assert (Hadd : adds_up m' (nsort c) c).
    { exists a, b. split; [assumption|]. split; [assumption|]. intros o Ho. unfold psum. rewrite (sumf_perm _ _ _ P), sumf_cons.
      unfold mval at 1. rewrite Hself, (Hs2 o Ho), (vobs_sub N) by assumption.
      rewrite (sumf_ext_in _ (fun t => vobs o (mval m' t)) (fun t => vobs o (mval m2 t))); [ring|].
      intros t Ht. apply in_map_iff in Ht. destruct Ht as (x & <- & Hx). destruct (Hin2 x Hx) as [w Hw]. unfold mval. now rewrite (He _ _ Hw), Hw. }
    split; [|split; [now apply (ext_trans _ m2)|split; [assumption|split; [|split; [intros _; assumption|intros; congruence]]]]].
    + intros k s Hk. unfold m' in Hk. cbn [fst] in Hk. rewrite lookup_cons in Hk. destruct (leqb k (nsort c)) eqn:Q.
      * apply leqb_eq in Q. subst k. injection Hk as <-. exists (snd acc). unfold m'. cbn [snd]. rewrite lookup_cons, leqb_refl.
        split; [reflexivity|]. split; [assumption|]. split; [assumption|]. split; [|split; [intros x Hx; now apply Hd, nsort_in|split; [assumption|]]].
        -- intros H. apply Hne. apply length_zero_iff_nil. rewrite <- nsort_length, H. reflexivity.
        -- exists c. split; [symmetry; apply nsort_perm|assumption].
      * destruct (Hg2 k s Hk) as (J & HJ & HN & Hs' & Hne' & Hd' & Hp' & cc & Hcc & a' & b' & Ea' & Eb' & Hsum').
        exists J. unfold m'. cbn [snd]. rewrite lookup_cons, Q. split; [assumption|]. split; [assumption|]. split; [assumption|]. split; [assumption|].
        split; [assumption|]. split.
        -- intros t Ht. destruct (Hp' t Ht) as [w Hw]. exists w. now apply He.
        -- exists cc. split; [assumption|]. exists a', b'. split; [assumption|]. split; [assumption|]. intros o Ho.
           rewrite (psum_ext m2); [now apply Hsum'|exact He|exact Hp'].
    + intros k w Hk. rewrite Hmem in Hk. destruct (leqb k (nsort c)) eqn:Q.
      * apply leqb_eq in Q. right. split; [assumption|]. now left.
      * destruct (Hk2 k w Hk) as [K|K]; [now left|right; split; [assumption|now right]].
Qed.
End Delta.
