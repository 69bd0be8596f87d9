(** * The whole solve function of the cluster expansion. *)
From Coq Require Import Permutation Sorted.
From Verif Require Import Prelude PreludeFacts Spec Spec2 M_Index M_Params M_MeanField M_Cluster P_Index P_Energy P_Params P_Enum P_MaxEnt P_MPF
  P_Unique P_MeanField P_MeanField2 P_Cluster P_Cluster2 P_Cluster3 P_Cluster4 P_Cluster5.
Import ListNotations.
Local Open Scope R_scope.

(** Memoised matrices are symmetric when all cluster matrices are. *)
Lemma good_symm Sf S0f N dom m k v : good Sf S0f N dom m -> mem m k = Some v ->
  (forall c a, NoDup c -> c <> [] -> incl c dom -> Sf c = Ok a -> symm N (snd a)) ->
  (forall c a, NoDup c -> c <> [] -> incl c dom -> S0f c = Ok a -> symm N (snd a)) -> symm N (snd v).
Proof.
  intros Hg Hk H1 H2 i j Hi Hj. destruct (good_mem Sf S0f N dom m k v Hg Hk) as (_ & Sk & Nk & Ik & _).
  set (D := fun t => match t with [] => 0 | _ => vobs (Some (i, j)) (mval m t) - vobs (Some (j, i)) (mval m t) end).
  assert (ED : D k = 0).
  { rewrite (moebius k (fun _ => 0) D); [apply sumf_zero; intros; ring|]. intros t Ht.
    destruct t as [|x t]; [cbn [powerset]; rewrite sumf_cons, sumf_nil; unfold D; ring|]. remember (x :: t) as u eqn:Eu.
    assert (Hne : u <> []) by (subst; discriminate).
    assert (Hu : In u (parts k)) by (unfold parts; apply filter_In; split; [assumption|subst; reflexivity]).
    destruct (good_mem_parts Sf S0f N dom m k v Hg Hk u Hu) as [w Hw].
    destruct (good_mem Sf S0f N dom m u w Hg Hw) as (_ & Su & _ & Iu & c & Pc & a & b & Ea & Eb & Hab).
    assert (Nc : NoDup c) by (apply (Permutation_NoDup (l := u)); [now apply Permutation_sym|now apply sorted_lt_NoDup]).
    assert (Cn : c <> []) by (intros ->; apply Permutation_nil in Pc; congruence).
    assert (Ci : incl c dom) by (intros y Hy; apply Iu; apply (Permutation_in _ Pc Hy)).
    rewrite <- (parts_powerset u D) by reflexivity.
    rewrite (sumf_ext_in (parts u) D (fun t => vobs (Some (i, j)) (mval m t) - vobs (Some (j, i)) (mval m t))).
    2:{ intros s Hs. apply in_parts in Hs; [|assumption]. destruct Hs as (_ & _ & Hs). unfold D. destruct s; [congruence|reflexivity]. }
    rewrite sumf_minus. pose proof (Hab (Some (i, j)) (conj Hi Hj)) as X1. pose proof (Hab (Some (j, i)) (conj Hj Hi)) as X2.
    unfold psum in X1, X2. rewrite X1, X2. cbn [vobs]. rewrite (H1 c a Nc Cn Ci Ea i j), (H2 c b Nc Cn Ci Eb i j) by assumption. ring. }
  unfold D, mval in ED. rewrite Hk in ED. destruct k; [congruence|]. cbn [vobs] in ED. lra.
Qed.

Lemma nsort_seq n : nsort (seq 0 n) = seq 0 n.
Proof.
  apply nsort_id. generalize 0%nat. induction n as [|n IH]; intros a; cbn [seq]; constructor; [apply IH|].
  apply Forall_forall. intros x Hx. apply in_seq in Hx. lia.
Qed.

Lemma seq_in n x : In x (seq 0 n) -> (x < n)%nat.
Proof. intros H. apply in_seq in H. lia. Qed.

Section Solve.
Variables (fit : list (list R) -> result (list (list R))) (X : list (list R)) (n fuel : nat) (T : R).
Hypothesis fit_ok : forall k C, (1 <= k <= n)%nat -> sq k C -> exists J, fit C = Ok J /\ sq k J /\ symm k J.
Hypothesis Hn : (2 <= n)%nat.
Hypothesis HX : X <> [].
Hypothesis Hrow : forall x, In x X -> length x = n.
Hypothesis Hfuel : (n <= fuel)%nat.

Definition cooc : list (list R) := cooccurrence_matrix (map (map (fun x => (x + 1) / 2)) X) true.

Lemma cooc_sq : sq n cooc.
Proof.
  unfold cooc. rewrite (cooccurrence_ok _ true n).
  - apply mk_mat_sq.
  - clear -HX. destruct X; [congruence|discriminate].
  - intros s Hs. apply in_map_iff in Hs. destruct Hs as (x & <- & Hx). rewrite map_length. now apply Hrow.
Qed.

Lemma fit_at cl : NoDup cl -> cl <> [] -> incl cl (seq 0 n) -> forall C, sq (length cl) C -> exists J, fit C = Ok J /\ sq (length cl) J.
Proof.
  intros Nc Hne Hi C HC. destruct (fit_ok (length cl) C) as (J & E & S & _); [|exact HC|now exists J].
  pose proof (NoDup_incl_length Nc Hi) as L. rewrite seq_length in L. destruct cl; [congruence|cbn in *; lia].
Qed.

Lemma Sc_ok : forall c, NoDup c -> c <> [] -> incl c (seq 0 n) -> exists a, S_cluster fit cooc c = Ok a /\ length (snd a) = n.
Proof.
  intros c Nc Hne Hi. destruct (S_cluster_ok fit n cooc c cooc_sq (fun x Hx => seq_in n x (Hi x Hx)) Nc Hne (fit_at c Nc Hne Hi)) as (J & v & _ & _ & E & S & _).
  exists v. split; [exact E|apply S].
Qed.

Lemma S0_ok : forall c, NoDup c -> c <> [] -> incl c (seq 0 n) -> exists a, Sindependent cooc c = Ok a /\ length (snd a) = n.
Proof.
  intros c Nc Hne Hi. destruct (Sindependent_ok n cooc c cooc_sq (fun x Hx => seq_in n x (Hi x Hx)) Nc Hne) as (v & E & S & _).
  exists v. split; [exact E|apply S].
Qed.

Lemma Sc_symm : forall c a, NoDup c -> c <> [] -> incl c (seq 0 n) -> S_cluster fit cooc c = Ok a -> symm n (snd a).
Proof.
  intros c a Nc Hne Hi Ea. destruct (S_cluster_ok fit n cooc c cooc_sq (fun x Hx => seq_in n x (Hi x Hx)) Nc Hne (fit_at c Nc Hne Hi)) as (J & v & EJ & SJ & E & S & _ & H1 & H2).
  assert (v = a) by congruence. subst v.
  destruct (fit_ok (length c) _ ltac:(split; [destruct c; [congruence|cbn; lia]|pose proof (NoDup_incl_length Nc Hi) as L; rewrite seq_length in L; exact L]) (mk_mat_sq (length c) (fun a b => entry cooc (nth a c 0%nat) (nth b c 0%nat)))) as (J' & EJ' & _ & Sy).
  assert (J' = J) by congruence. subst J'.
  intros i j Hi' Hj'. destruct (in_dec Nat.eq_dec i c) as [Mi|Mi], (in_dec Nat.eq_dec j c) as [Mj|Mj]; try (rewrite !H2 by tauto; reflexivity).
  destruct (nth_pos_of c i Mi) as [Ei Li]. destruct (nth_pos_of c j Mj) as [Ej Lj]. rewrite <- Ei, <- Ej. rewrite !H1 by assumption. now apply Sy.
Qed.

Lemma S0_symm : forall c a, NoDup c -> c <> [] -> incl c (seq 0 n) -> Sindependent cooc c = Ok a -> symm n (snd a).
Proof.
  intros c a Nc Hne Hi Ea. destruct (Sindependent_ok n cooc c cooc_sq (fun x Hx => seq_in n x (Hi x Hx)) Nc Hne) as (v & E & S & _ & H).
  assert (v = a) by congruence. subst v. intros i j Hi' Hj'. rewrite !H by assumption. rewrite (Nat.eqb_sym j i).
  destruct (Nat.eqb_spec i j) as [->|]; reflexivity.
Qed.

Lemma solve_ok : exists mult v levels m J0,
  solve fuel fit X T None ([], []) false true = Ok (mult, fst v, map (fun i => [i]) (seq 0 n) :: levels, m) /\
  Sindependent cooc (seq 0 n) = Ok J0 /\ to_multipliers (snd v) = Ok mult /\ sq n (snd v) /\ symm n (snd v) /\
  good (S_cluster fit cooc) (Sindependent cooc) n (seq 0 n) m /\
  full_sorted (S_cluster fit cooc) (Sindependent cooc) n (seq 0 n) m /\
  chain m T 1 (map (fun i => [i]) (seq 0 n) :: levels) /\
  (forall k l, nth_error levels k = Some l -> level_ok (seq 0 n) (2 + k) l) /\
  (forall u, In u (concat (map (fun i => [i]) (seq 0 n) :: levels)) -> exists w, mem m u = Some w) /\
  forall o, o_in n o -> vobs o v = vobs o J0 + sumf (concat (map (fun i => [i]) (seq 0 n) :: levels)) (fun c => vobs o (mval m c)).
Proof.
  assert (LM : length cooc = n) by apply cooc_sq.
  assert (Nd : NoDup (seq 0 n)) by apply seq_NoDup.
  assert (Hne : seq 0 n <> []) by (destruct n; [lia|discriminate]).
  destruct (Sindependent_ok n cooc (seq 0 n) cooc_sq (seq_in n) Nd Hne) as (J0 & E0 & S0 & _).
  destruct (solve_core_ok (S_cluster fit cooc) (Sindependent cooc) n (seq 0 n) Sc_ok S0_ok Nd fuel T ltac:(now rewrite seq_length) fuel ([], []) J0)
    as (v & levels & m & E & Hg & He & Hfs & Lv & Hch & Hlv & Hmem & Hv); rewrite ?seq_length; try assumption.
  { apply good_nil. }
  { intros w Hw. discriminate. }
  { apply S0. }
  assert (Sv : sq n (snd v)).
  { unfold solve_core in E. destruct (expand _ _ _ _ _ _) as [r|]; [|discriminate]. cbn [bind] in E.
    assert (A : forall cs st w, foldM (fun acc c => bind (memo_get (clusterID c) (fst r)) (fun x => Ok (vplus acc x))) cs st = Ok w -> sq n (snd st) -> sq n (snd w)).
    { induction cs as [|c cs IH]; intros st w Ew Hs; cbn [foldM] in Ew; [injection Ew as <-; exact Hs|].
      destruct (memo_get (clusterID c) (fst r)) as [x|]; [|discriminate]. cbn [bind] in Ew. apply (IH _ _ Ew).
      cbn [vplus snd]. unfold madd. rewrite (proj1 Hs). apply mk_mat_sq. }
    unfold accumulate in E. destruct (foldM _ (concat (snd r)) J0) as [w|] eqn:Ew; [|discriminate]. cbn [bind] in E. injection E as <- _ _. now apply (A _ _ _ Ew). }
  assert (Sy : symm n (snd v)).
  { intros i j Hi Hj. pose proof (Hv (Some (i, j)) (conj Hi Hj)) as X1. pose proof (Hv (Some (j, i)) (conj Hj Hi)) as X2. cbn [vobs] in X1, X2. rewrite X1, X2.
    f_equal; [now apply (S0_symm (seq 0 n) J0 Nd Hne (incl_refl _) E0)|]. apply sumf_ext_in. intros c Hc. destruct (Hmem c Hc) as [w Hw]. unfold mval. rewrite Hw.
    now apply (good_symm (S_cluster fit cooc) (Sindependent cooc) n (seq 0 n) m c w Hg Hw Sc_symm S0_symm). }
  destruct (to_multipliers_ok n (snd v) ltac:(lia) Sv Sy) as (mult & Em & _).
  exists mult, v, levels, m, J0. split; [|split; [exact E0|split; [exact Em|split; [exact Sv|split; [exact Sy|split; [exact Hg|split; [exact Hfs|split; [exact Hch|split; [exact Hlv|split; [exact Hmem|exact Hv]]]]]]]]]].
  unfold solve. fold cooc. cbn [andb]. rewrite LM. unfold range.
  assert (K : deltaS_flags fuel fit cooc true false = deltaS fuel (S_cluster fit cooc) (Sindependent cooc)) by reflexivity. rewrite K. cbv iota zeta beta.
  rewrite E0. refine (eq_trans (f_equal (fun z => bind z _) E) _). cbn [bind]. now rewrite Em.
Qed.

(** Nothing discarded: the fit of the full matrix comes out. *)
Lemma solve_exact : exists mult ent levels m J, fit cooc = Ok J /\ sq n J /\ symm n J /\
    solve fuel fit X T None ([], []) false true = Ok (mult, ent, map (fun i => [i]) (seq 0 n) :: levels, m) /\
    ((forall u w, StronglySorted lt u -> (2 <= length u)%nat -> mem m u = Some w -> T < Rabs (fst w)) ->
    NoDup (concat (map (fun i => [i]) (seq 0 n) :: levels)) /\
    (forall u, In u (concat (map (fun i => [i]) (seq 0 n) :: levels)) <-> StronglySorted lt u /\ incl u (seq 0 n) /\ u <> []) /\
    ent = entropy (boltzmann (energy01 n J) (all_states [0; 1] n)) (all_states [0; 1] n) /\
    exists c, forall y, length y = n -> ising_energy n mult (map (fun x => 2 * x - 1) y) = energy01 n J y + c).
Proof.
  destruct solve_ok as (mult & v & levels & m & J0 & E & E0 & Em & Sv & Sy & Hg & Hfs & Hch & Hlv & Hmem & Hv).
  assert (Nd : NoDup (seq 0 n)) by apply seq_NoDup.
  assert (Hne : seq 0 n <> []) by (destruct n; [lia|discriminate]).
  destruct (fit_ok n cooc ltac:(lia) cooc_sq) as (J & EJ & SJ0 & SyJ).
  exists mult, (fst v), levels, m, J. split; [exact EJ|]. split; [exact SJ0|]. split; [exact SyJ|]. split; [exact E|]. intros HT.
  set (lv := map (fun i => [i]) (seq 0 n) :: levels) in *.
  assert (Hlv1 : forall k l, nth_error lv k = Some l -> level_ok (seq 0 n) (1 + k) l).
  { intros [|k] l Hl; [injection Hl as <-; apply singles_ok; assumption|]. apply Hlv in Hl. replace (1 + Datatypes.S k)%nat with (2 + k)%nat by lia. exact Hl. }
  assert (Hall : forall u, StronglySorted lt u -> incl u (seq 0 n) -> (1 <= length u)%nat -> In u (concat lv)).
  { apply (chain_all (S_cluster fit cooc) (Sindependent cooc) n (seq 0 n) (length (seq 0 n)) T (le_n _) m) with (s := 1%nat); [ |lia|exact Hch|exact Hlv1|].
    - intros u w Su Iu Lu Hw. now apply (HT u w).
    - intros u. cbn [hd lv]. rewrite in_map_iff. split.
      + intros (i & <- & Hi). split; [repeat constructor|]. split; [intros x [<-|[]]; assumption|reflexivity].
      + intros (Su & Iu & Lu). destruct u as [|x [|? ?]]; cbn in Lu; try lia. exists x. split; [reflexivity|]. apply Iu. now left. }
  pose proof (all_parts (seq 0 n) Nd (length (seq 0 n)) (le_n _) m lv Hlv1 Hall) as Hsum.
  assert (Hkf : In (nsort (seq 0 n)) (concat lv)).
  { apply Hall; [now apply nsort_lt|intros x Hx; now apply nsort_in|]. rewrite nsort_length, seq_length. lia. }
  destruct (Hmem _ Hkf) as [w Hw]. destruct (Hfs w Hw) as (a & b & Ea & Eb & Hab). rewrite nsort_seq in Ea, Eb.
  assert (b = J0) by congruence. subst b.
  assert (Hva : forall o, o_in n o -> vobs o v = vobs o a). { intros o Ho. rewrite (Hv o Ho), (Hsum o), (Hab o Ho). ring. }
  destruct (S_cluster_ok fit n cooc (seq 0 n) cooc_sq (seq_in n) Nd Hne (fit_at _ Nd Hne (incl_refl _))) as (J' & v' & EJ' & SJ & E' & S' & F' & H1 & _).
  assert (v' = a) by congruence. subst v'. rewrite seq_length in *.
  assert (EC : mk_mat n n (fun a b => entry cooc (nth a (seq 0 n) 0%nat) (nth b (seq 0 n) 0%nat)) = cooc).
  { symmetry. etransitivity; [apply (sq_mk_mat n cooc cooc_sq)|]. apply mk_mat_ext. intros i j Hi Hj. now rewrite !seq_nth. }
  rewrite EC in EJ'. assert (J' = J) by congruence. subst J'.
  destruct (concat_NoDup (seq 0 n) (length (seq 0 n)) (le_n _) lv 1 Hlv1) as [ND Hin].
  split; [exact ND|]. split.
  { intros u. split; [intros Hu; destruct (Hin u Hu) as (A & B & D); split; [exact A|]; split; [exact B|]; intros ->; cbn in D; lia|].
    intros (A & B & D). apply Hall; auto. destruct u; [congruence|cbn; lia]. }
  split; [rewrite <- F'; exact (Hva None I)|].
  destruct (to_multipliers_ok n (snd v) ltac:(lia) Sv Sy) as (mult' & Em' & _ & c & Hc). assert (mult' = mult) by congruence. subst mult'.
  exists c. intros y Hy. rewrite Hc by assumption. f_equal. apply energy01_ext. intros i j Hi Hj.
  pose proof (Hva (Some (i, j)) (conj Hi Hj)) as V. cbn [vobs] in V. rewrite V. pose proof (H1 i j Hi Hj) as K. rewrite !seq_nth in K by assumption. exact K.
Qed.
End Solve.
