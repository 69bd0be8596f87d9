(** * Moebius inversion for the memoised contributions; exactness of the fit. *)
From Coq Require Import Permutation Sorted.
From Verif Require Import Prelude PreludeFacts Spec Spec2 M_Index M_Params M_MeanField M_Cluster P_Index P_Energy P_Params P_Enum P_MaxEnt P_MPF
  P_Unique P_MeanField P_MeanField2 P_Cluster P_Cluster2 P_Cluster3 P_Cluster4.
Import ListNotations.
Local Open Scope R_scope.

(** ** Moebius inversion *)
Lemma powerset_length_le k t : In t (powerset k) -> (length t <= length k)%nat.
Proof.
  revert t. induction k as [|x k IH]; intros t H; cbn [powerset] in H; [destruct H as [<-|[]]; cbn; lia|].
  apply in_app_or in H. destruct H as [H|H]; [apply IH in H; cbn; lia|]. apply in_map_iff in H. destruct H as (u & <- & H). apply IH in H. cbn. lia.
Qed.

Lemma powerset_trans k : forall t u, In t (powerset k) -> In u (powerset t) -> In u (powerset k).
Proof.
  induction k as [|x k IH]; intros t u H1 H2; cbn [powerset] in *; [destruct H1 as [<-|[]]; exact H2|].
  apply in_app_or in H1. destruct H1 as [H1|H1]; [apply in_or_app; left; now apply (IH t)|].
  apply in_map_iff in H1. destruct H1 as (t' & <- & H1). cbn [powerset] in H2. apply in_app_or in H2. destruct H2 as [H2|H2].
  - apply in_or_app. left. now apply (IH t').
  - apply in_or_app. right. apply in_map_iff in H2. destruct H2 as (u' & <- & H2). apply in_map. now apply (IH t').
Qed.

Lemma moebius k : forall F D : list nat -> R, (forall t, In t (powerset k) -> F t = sumf (powerset t) D) ->
  D k = sumf (powerset k) (fun t => (-1) ^ (length k - length t) * F t).
Proof.
  induction k as [|x k IH]; intros F D H.
  - cbn [powerset length]. rewrite sumf_cons, sumf_nil, H by (now left). cbn [powerset length Nat.sub pow]. rewrite sumf_cons, sumf_nil. ring.
  - assert (H0 : forall t, In t (powerset k) -> F t = sumf (powerset t) D) by (intros t Ht; apply H; cbn [powerset]; apply in_or_app; now left).
    specialize (IH (fun t => F (x :: t) - F t) (fun u => D (x :: u))). cbn beta in IH. rewrite IH.
    + cbn [powerset length]. rewrite sumf_app, sumf_map. rewrite <- sumf_plus. apply sumf_ext_in. intros t Ht. apply powerset_length_le in Ht.
      cbn [length]. replace (Datatypes.S (length k) - length t)%nat with (Datatypes.S (length k - length t)) by lia.
      replace (Datatypes.S (length k) - Datatypes.S (length t))%nat with (length k - length t)%nat by lia. cbn [pow]. ring.
    + intros t Ht. rewrite (H (x :: t)) by (cbn [powerset]; apply in_or_app; right; now apply in_map).
      rewrite (H0 t Ht). cbn [powerset]. rewrite sumf_app, sumf_map. ring.
Qed.

Lemma parts_powerset k (f : list nat -> R) : f [] = 0 -> sumf (parts k) f = sumf (powerset k) f.
Proof.
  intros H0. unfold parts. induction (powerset k) as [|t l IH]; [reflexivity|]. cbn [filter]. destruct t as [|x t]; cbn [nonempty].
  - rewrite sumf_cons, H0, IH. ring.
  - now rewrite !sumf_cons, IH.
Qed.

(** Alternating sum of S-S0 over the nonempty subsets. *)
Definition alternating (F : list nat -> R) (k : list nat) : R := sumf (parts k) (fun t => (-1) ^ (length k - length t) * F t).

Section Hist.
Variables (Sf S0f : list nat -> result val) (N : nat) (dom : list nat).
Hypothesis Sf_ok : forall c, NoDup c -> c <> [] -> incl c dom -> exists a, Sf c = Ok a /\ length (snd a) = N.
Hypothesis S0f_ok : forall c, NoDup c -> c <> [] -> incl c dom -> exists a, S0f c = Ok a /\ length (snd a) = N.
Hypothesis Sf_set : forall c c', NoDup c -> c <> [] -> incl c dom -> Permutation c c' -> Sf c = Sf c'.
Hypothesis S0f_set : forall c c', NoDup c -> c <> [] -> incl c dom -> Permutation c c' -> S0f c = S0f c'.

Definition diff_obs (o : option (nat * nat)) (c : list nat) : R :=
  match Sf c, S0f c with Ok a, Ok b => vobs o a - vobs o b | _, _ => 0 end.

Lemma good_value m k v o : good Sf S0f N dom m -> mem m k = Some v -> o_in N o -> vobs o v = alternating (diff_obs o) k.
Proof.
  intros Hg Hk Ho. destruct (good_mem Sf S0f N dom m k v Hg Hk) as (_ & Sk & Nk & Ik & _).
  set (D := fun t => match t with [] => 0 | _ => vobs o (mval m t) end).
  set (F := fun t => match t with [] => 0 | _ => diff_obs o t end).
  assert (ED : vobs o v = D k). { unfold D, mval. rewrite Hk. destruct k; [congruence|reflexivity]. }
  rewrite ED. rewrite (moebius k F D).
  - unfold alternating. rewrite <- parts_powerset by (unfold F; ring). apply sumf_ext_in. intros t Ht. apply in_parts in Ht; [|assumption].
    destruct Ht as (_ & _ & Ht). unfold F. destruct t; [congruence|reflexivity].
  - intros t Ht. destruct t as [|x t]; [cbn [powerset]; rewrite sumf_cons, sumf_nil; unfold F, D; ring|]. remember (x :: t) as u eqn:Eu.
    assert (Hne : u <> []) by (subst; discriminate).
    assert (Hu : In u (parts k)) by (unfold parts; apply filter_In; split; [assumption|subst; reflexivity]).
    destruct (good_mem_parts Sf S0f N dom m k v Hg Hk u Hu) as [w Hw].
    destruct (good_mem Sf S0f N dom m u w Hg Hw) as (_ & Su & _ & Iu & c & Pc & a & b & Ea & Eb & Hab).
    assert (Nc : NoDup c) by (apply (Permutation_NoDup (l := u)); [now apply Permutation_sym|now apply sorted_lt_NoDup]).
    assert (Cn : c <> []) by (intros ->; apply Permutation_nil in Pc; congruence).
    assert (Ci : incl c dom) by (intros y Hy; apply Iu; apply (Permutation_in _ Pc Hy)).
    replace (F u) with (vobs o a - vobs o b).
    2:{ unfold F, diff_obs. destruct u as [|y u]; [congruence|]. rewrite <- (Sf_set c _ Nc Cn Ci Pc), <- (S0f_set c _ Nc Cn Ci Pc), Ea, Eb. reflexivity. }
    rewrite <- (Hab o Ho). unfold psum. rewrite <- (parts_powerset u D) by reflexivity. apply sumf_ext_in. intros s Hs.
    apply in_parts in Hs; [|assumption]. destruct Hs as (_ & _ & Hs). unfold D. destruct s; [congruence|reflexivity].
Qed.

(** Any history of calls, starting from empty dicts. *)
Fixpoint calls (fuel : nat) (m : memo) (cs : list (list nat)) : result (list val * memo) :=
  match cs with
  | [] => Ok ([], m)
  | c :: cs' => bind (deltaS fuel Sf S0f m c) (fun r => bind (calls fuel (snd r) cs') (fun rs => Ok (fst r :: fst rs, snd rs)))
  end.

Lemma calls_ok fuel : (length dom <= fuel)%nat -> forall cs m, good Sf S0f N dom m ->
  (forall c, In c cs -> NoDup c /\ c <> [] /\ incl c dom) ->
  exists vs m', calls fuel m cs = Ok (vs, m') /\ good Sf S0f N dom m' /\ length vs = length cs /\
    forall i, (i < length cs)%nat -> length (snd (nth i vs (0, []))) = N /\
      forall o, o_in N o -> vobs o (nth i vs (0, [])) = alternating (diff_obs o) (nsort (nth i cs [])).
Proof.
  intros Hf. induction cs as [|c cs IH]; intros m Hg Hcs; cbn [calls].
  - exists [], m. split; [reflexivity|]. split; [assumption|]. split; [reflexivity|]. cbn. lia.
  - destruct (Hcs c (or_introl eq_refl)) as (Nc & Cn & Ci).
    destruct (deltaS_ok Sf S0f N dom Sf_ok S0f_ok fuel m c Hg Nc Cn Ci) as (v & m' & E & Hg' & He & Hm & _ & _).
    { pose proof (NoDup_incl_length Nc Ci). lia. }
    rewrite E. cbn [bind fst snd]. destruct (IH m' Hg') as (vs & m2 & E2 & Hg2 & L2 & H2); [intros d Hd; apply Hcs; now right|].
    rewrite E2. cbn [bind fst snd]. exists (v :: vs), m2. split; [reflexivity|]. split; [assumption|]. split; [cbn; lia|].
    intros [|i] Hi; cbn [nth].
    + destruct (good_mem Sf S0f N dom m' _ v Hg' Hm) as (L & _). split; [exact L|]. intros o Ho. now apply (good_value m').
    + apply H2. cbn in Hi. lia.
Qed.
End Hist.

(** ** The residual of the fit *)
Lemma deltaCooc_ok C k x : let n := length C in (0 < n)%nat -> sq n C -> length x = (n * (n + 1) / 2)%nat -> states01 n k <> [] ->
  exists J r, unflatten x n false = Ok J /\ sq n J /\ deltaCooc C 0 k x = Ok r /\ length r = (n * (n + 1) / 2)%nat /\
    forall i j, (i <= j)%nat -> (j < n)%nat ->
      nthR r (off n (j - i) + i) = expectation (boltzmann (energy01 n J) (states01 n k)) (states01 n k) (fun s => nthR s i * nthR s j) - entry C i j.
Proof.
  intros n Hn HC Hx Hne. destruct (unflatten_ok n x false) as (J & EJ & SJ & HJ); [lia|assumption|].
  assert (LJ : length J = n) by apply SJ.
  pose proof (coocExpectations_ok J 0 true k) as CE. cbv zeta in CE. rewrite LJ in CE. specialize (CE Hn Hne).
  set (D := mk_mat n n (fun i j => entry (mk_mat n n (fun i j => if (true && negb (i <=? j)%nat)%bool then 0 else
    expectation (boltzmann (E01 n J 0) (states01 n k)) (states01 n k) (fun s => nthR s i * nthR s j))) i j - entry C i j)).
  exists J, (flat_map (diagonal D) (seq 0 n)). split; [exact EJ|]. split; [exact SJ|]. split; [|split].
  - unfold deltaCooc. fold n. rewrite EJ. cbn [bind]. rewrite CE. cbn [bind]. fold D.
    rewrite (aboveDiagFlat_ok n) by (try lia; apply mk_mat_length). cbn [bind].
    destruct (Rlt_dec 0 0) as [H|H]; [lra|]. reflexivity.
  - apply flat_length. apply mk_mat_length.
  - intros i j Hij Hj. rewrite flat_nth by (try assumption; apply mk_mat_length). unfold D. rewrite entry_mk_mat by lia. rewrite entry_mk_mat by lia.
    destruct (Nat.leb_spec i j); [|lia]. cbn [negb andb]. f_equal.
    assert (X : forall t, E01 n J 0 t = energy01 n J t) by (intros; unfold E01; ring).
    unfold expectation, boltzmann, partition. rewrite (sumf_ext _ (fun s0 => exp (- E01 n J 0 s0)) (fun s0 => exp (- energy01 n J s0))) by (intros; now rewrite X).
    apply sumf_ext. intros s. now rewrite X.
Qed.

(** The symmetrised matrix has the same energies. *)
Lemma unflatten_sym_energy n x : (1 <= n)%nat -> length x = (n * (n + 1) / 2)%nat ->
  exists J J', unflatten x n false = Ok J /\ unflatten x n true = Ok J' /\ sq n J /\ sq n J' /\ symm n J' /\
    forall y, energy01 n J' y = energy01 n J y.
Proof.
  intros Hn Hx. destruct (unflatten_ok n x false Hn Hx) as (J & E1 & S1 & H1). destruct (unflatten_ok n x true Hn Hx) as (J' & E2 & S2 & H2).
  exists J, J'. split; [exact E1|]. split; [exact E2|]. split; [exact S1|]. split; [exact S2|]. split.
  - intros i j Hi Hj. rewrite !H2 by assumption. field.
  - intros y. apply energy01_sym. intros i j Hi Hj. rewrite !H1, !H2 by assumption. field.
Qed.

Lemma boltzmann_ext {A} (E E' : A -> R) st s : (forall t, E t = E' t) -> boltzmann E st s = boltzmann E' st s.
Proof. intros H. unfold boltzmann, partition. rewrite H. f_equal. apply sumf_ext. intros t. now rewrite H. Qed.

Lemma expectation_ext {A} (p q : A -> R) st f : (forall s, p s = q s) -> expectation p st f = expectation q st f.
Proof. intros H. apply sumf_ext. intros s. now rewrite H. Qed.

Lemma findJ_exact leastsq C numSamples k J : let n := length C in (0 < n)%nat -> sq n C -> states01 n k <> [] ->
  (forall f x0 x, leastsq f x0 = Ok x -> length x = length x0) ->
  findJmatrixAnalytic_CoocMat leastsq C numSamples 0 k = Ok J ->
  sq n J /\ symm n J /\
  exists x r, deltaCooc C 0 k x = Ok r /\ (exists x0, leastsq (deltaCooc C 0 k) x0 = Ok x) /\
    ((forall a, In a r -> a = 0) <->
     forall i j, (i <= j)%nat -> (j < n)%nat ->
       expectation (boltzmann (energy01 n J) (states01 n k)) (states01 n k) (fun s => nthR s i * nthR s j) = entry C i j).
Proof.
  intros n Hn HC Hne Hls HJ. unfold findJmatrixAnalytic_CoocMat in HJ. fold n in HJ. replace (Reqb 0 0) with true in HJ by (symmetry; now apply Reqb_eq).
  set (Ji := mk_mat n n _) in HJ. rewrite (aboveDiagFlat_ok n Ji) in HJ by (try lia; apply mk_mat_length). cbn [bind] in HJ.
  set (x0 := flat_map (diagonal Ji) (seq 0 n)) in HJ. destruct (leastsq (deltaCooc C 0 k) x0) as [x|] eqn:El; [|discriminate]. cbn [bind] in HJ.
  assert (Lx : length x = (n * (n + 1) / 2)%nat) by (rewrite (Hls _ _ _ El); apply flat_length; apply mk_mat_length).
  destruct (deltaCooc_ok C k x Hn HC Lx Hne) as (U & r & EU & SU & Er & Lr & Hr). fold n in EU, SU, Lr, Hr.
  destruct (unflatten_sym_energy n x) as (U' & J' & E1 & E2 & S1 & S2 & Sy & He); [lia|assumption|].
  assert (J' = J) by congruence. assert (U' = U) by congruence. subst J' U'.
  split; [exact S2|]. split; [exact Sy|]. exists x, r. split; [exact Er|]. split; [now exists x0|].
  assert (X : forall i j, expectation (boltzmann (energy01 n J) (states01 n k)) (states01 n k) (fun s => nthR s i * nthR s j) =
    expectation (boltzmann (energy01 n U) (states01 n k)) (states01 n k) (fun s => nthR s i * nthR s j)).
  { intros i j. apply expectation_ext. intros s. now apply boltzmann_ext. }
  split.
  - intros H i j Hij Hj. rewrite X. specialize (Hr i j Hij Hj). rewrite (H (nthR r (off n (j - i) + i))) in Hr; [lra|].
    apply nth_In. rewrite Lr. pose proof (off_mono n (Datatypes.S (j - i)) n ltac:(lia)) as M. rewrite off_full in M. cbn [off] in M. lia.
  - intros H a Ha. apply (In_nth _ _ 0) in Ha. destruct Ha as (p & Hp & <-). rewrite Lr in Hp.
    assert (Q : exists d i, (d < n)%nat /\ (i < n - d)%nat /\ p = (off n d + i)%nat).
    { rewrite <- off_full in Hp. clear - Hp. assert (G : forall d, (d <= n)%nat -> (p < off n d)%nat -> exists e i, (e < n)%nat /\ (i < n - e)%nat /\ p = (off n e + i)%nat).
      { induction d as [|d IH]; intros Hd Hpd; [cbn in Hpd; lia|]. cbn [off] in Hpd. destruct (Nat.lt_ge_cases p (off n d)) as [L|L]; [apply IH; lia|].
        exists d, (p - off n d)%nat. lia. }
      apply (G n); lia. }
    destruct Q as (d & i & Hd & Hi & ->). specialize (Hr i (i + d)%nat ltac:(lia) ltac:(lia)). replace (i + d - i)%nat with d in Hr by lia.
    fold (nthR r (off n d + i)). rewrite Hr. rewrite <- X. rewrite (H i (i + d)%nat) by lia. ring.
Qed.
