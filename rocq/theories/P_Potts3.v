(** * Facts about the Potts3 sampler object: C++ runs with surplus parameters, pure Python runs. *)
From Verif Require Import Prelude PreludeFacts Spec M_Params M_Index M_Sampler M_Front M_Potts3 P_Energy P_Sampler Props_Sampler Props_Front Props_Helpers.
Import ListNotations.

(** ** C++ runs depend on the first n + n(n-1)/2 parameters only *)
Lemma coupling_fold_ext (th th' : list R) off l : forall (m : list (list R)) (c : nat),
  (forall k, (c <= k < c + length l)%nat -> nthR th (k + off) = nthR th' (k + off)) ->
  fold_left (fun st p => let '(m, counter) := st in
         let v := nthR th (counter + off) in
         (set_entry (set_entry m (snd p) (fst p) v) (fst p) (snd p) v, (counter + 1)%nat)) l (m, c) =
  fold_left (fun st p => let '(m, counter) := st in
         let v := nthR th' (counter + off) in
         (set_entry (set_entry m (snd p) (fst p) v) (fst p) (snd p) v, (counter + 1)%nat)) l (m, c).
Proof.
  induction l as [|p l IH]; intros m c H; [reflexivity|]. cbn [fold_left]. cbn [length] in H.
  rewrite (H c) by lia. apply IH. intros k Hk. apply H. lia.
Qed.

Lemma coupling_mat_ext n off th th' : (forall k, (k < n * (n - 1) / 2)%nat -> nthR th (k + off) = nthR th' (k + off)) ->
  coupling_mat n off th = coupling_mat n off th'.
Proof.
  intros H. unfold coupling_mat. f_equal. apply coupling_fold_ext. intros k Hk. apply H.
  rewrite loop_ij_pairs, pairs_seq_length in Hk. lia.
Qed.

Section Ext.
Context {T : Type} (step step' : list Z -> nat -> T -> list Z * R * T) (pick : nat -> T -> nat * T) (n : nat).
Hypothesis Hpick : forall c t, (fst (pick c t) < n)%nat.
Hypothesis Hstep : forall s i t, (i < n)%nat -> step s i t = step' s i t.

Lemma cpp_run_ext m : forall c s e e' t,
  let '((s1, _, t1), c1) := cpp_run step pick m c s e t in
  let '((s2, _, t2), c2) := cpp_run step' pick m c s e' t in
  s1 = s2 /\ t1 = t2 /\ c1 = c2.
Proof.
  induction m as [|m IH]; intros c s e e' t; cbn [cpp_run]; [auto|].
  assert (P := Hpick c t). destruct (pick c t) as [i t1]. cbn [fst] in P. rewrite Hstep by assumption.
  destruct (step' s i t1) as [[s1 de] t2]. apply IH.
Qed.

Lemma cpp_record_ext ni m : forall c s e e' t,
  fst (cpp_record step pick ni m c s e t) = fst (cpp_record step' pick ni m c s e' t).
Proof.
  induction m as [|m IH]; intros c s e e' t; cbn [cpp_record]; [reflexivity|].
  assert (X := cpp_run_ext ni c s e e' t).
  destruct (cpp_run step pick ni c s e t) as [[[s1 e1] t1] c1]. destruct (cpp_run step' pick ni c s e' t) as [[[s2 e2] t2] c2].
  destruct X as (-> & -> & ->). specialize (IH c2 s2 e1 e2 t2).
  destruct (cpp_record step pick ni m c2 s2 e1 t2) as [a b]. destruct (cpp_record step' pick ni m c2 s2 e2 t2) as [a' b']. cbn [fst] in *. now rewrite IH.
Qed.
End Ext.

(** Two parameter vectors that agree in the first n + n(n-1)/2 places give the same sample. *)
Lemma boost_ising_ext {T} (g : rng T) n th th' size b ni sys t : rng_ok g -> (0 < n)%nat ->
  (forall k, (k < ising_params n)%nat -> nthR th k = nthR th' k) ->
  boost_ising_sample g n th size b ni sys t = boost_ising_sample g n th' size b ni sys t.
Proof.
  intros Hg Hn H. unfold boost_ising_sample. destruct (cpp_ising_init g n t) as [s0 t0]. unfold cpp_generate_sample.
  rewrite (coupling_mat_ext n n th th') by (intros k Hk; apply H; unfold ising_params; lia).
  set (M := coupling_mat n n th').
  assert (Hs : forall s i t, (i < n)%nat -> cpp_sample_metropolis g n th M s i t = cpp_sample_metropolis g n th' M s i t).
  { intros s i t1 Hi. unfold cpp_sample_metropolis. rewrite (H i) by (unfold ising_params; lia). reflexivity. }
  assert (X := cpp_run_ext _ _ (pick_all g sys n) n (pick_all_ok g sys n Hg Hn) Hs b 0%nat s0 (cpp_calc_e n th s0) (cpp_calc_e n th' s0) t0).
  destruct (cpp_run _ _ b 0 s0 (cpp_calc_e n th s0) t0) as [[[s1 e1] t1] c1]. destruct (cpp_run _ _ b 0 s0 (cpp_calc_e n th' s0) t0) as [[[s2 e2] t2] c2].
  destruct X as (-> & -> & ->). apply (cpp_record_ext _ _ (pick_all g sys n) n (pick_all_ok g sys n Hg Hn) Hs).
Qed.

Lemma nthR_firstn th k m : (k < m)%nat -> nthR (firstn m th) k = nthR th k.
Proof.
  unfold nthR. revert k m. induction th as [|a th IH]; intros k m H; [now rewrite firstn_nil|].
  destruct m as [|m]; [lia|]. destruct k as [|k]; [reflexivity|]. cbn [firstn nth]. apply IH. lia.
Qed.

(** ** Pure Python runs *)
Section Py.
Context {T : Type} (g : rng T) (mkrng : nat -> T).
Hypothesis Hg : rng_ok g.

Definition pstates (n : nat) (s : list nat) : Prop := length s = n /\ Forall potts3 s.

Lemma potts_worker calc_e n q ni b sys s seed : (0 < n)%nat -> pstates n s ->
  let w := worker (potts_sample_metropolis g calc_e) n q ni b sys mkrng s (calc_e s) seed in
  length (fst (fst w)) = q /\ Forall (pstates n) (fst (fst w)) /\ pstates n (snd (fst w)).
Proof.
  intros Hn [Hl Hs]. cbv zeta. unfold worker.
  destruct (run (potts_sample_metropolis g calc_e) (sites sys n b) s (calc_e s) (mkrng seed)) as [[[s1 E1] t1] h1] eqn:R1.
  destruct (run_inv _ calc_e potts3 n (potts_step_ok g calc_e n Hg Hn) _ (sites_in n sys _ Hn) _ _ _ _ _ _ Hl Hs R1) as [Hl1 [Hv1 [-> _]]].
  destruct (record (potts_sample_metropolis g calc_e) (sites sys n ni) q s1 (calc_e s1) t1) as [[[ss Es] [[s2 E2] t2]] h2] eqn:R2.
  destruct (record_inv _ calc_e potts3 n (potts_step_ok g calc_e n Hg Hn) _ (sites_in n sys _ Hn) _ _ _ _ _ _ _ _ _ Hl1 Hv1 R2)
    as [A [_ [B [H1 [H2 _]]]]]. cbn [fst snd]. split; [exact A|]. split; [exact B|]. split; assumption.
Qed.

Lemma potts_parallel_py calc_e n size ni b sys replicas seeds : (0 < n)%nat -> (0 < length replicas)%nat -> length seeds = length replicas ->
  Forall (pstates n) replicas ->
  let '(sample, final, _) := generate_sample_parallel_py (potts_sample_metropolis g calc_e) calc_e n size ni b sys mkrng replicas seeds in
  length sample = size /\ Forall (pstates n) sample /\ Forall (pstates n) final.
Proof.
  intros Hn Hr Hs Hv. unfold generate_sample_parallel_py. cbv zeta. set (q := ceil_div size (length replicas)). set (bb := burn_in_or b ni).
  set (wk := fun rs : list nat * nat => worker (potts_sample_metropolis g calc_e) n q ni bb sys mkrng (fst rs) (calc_e (fst rs)) (snd rs)).
  assert (W : forall rs, In rs (combine replicas seeds) ->
     length (fst (fst (wk rs))) = q /\ Forall (pstates n) (fst (fst (wk rs))) /\ pstates n (snd (fst (wk rs)))).
  { intros [s seed] Hin. apply in_combine_l in Hin. rewrite Forall_forall in Hv. apply potts_worker; auto. }
  split; [|split].
  - rewrite firstn_length. apply Nat.min_l.
    assert (HL : length (concat (map (fun o => fst (fst o)) (map wk (combine replicas seeds)))) = (length replicas * q)%nat).
    { rewrite <- (combine_lengths replicas seeds) by auto. clear -W. revert W. generalize (combine replicas seeds) as L.
      induction L as [|a L IH]; intros W; cbn; [reflexivity|]. rewrite app_length, IH by (intros; apply W; now right).
      destruct (W a) as [-> _]; [now left|reflexivity]. }
    rewrite HL. now apply ceil_div_ge.
  - apply Forall_forall. intros row Hrow. apply in_firstn in Hrow. apply in_concat in Hrow. destruct Hrow as [l [Hl Hrow]].
    rewrite map_map in Hl. apply in_map_iff in Hl. destruct Hl as [rs [<- Hin]].
    destruct (W rs Hin) as [_ [HF _]]. rewrite Forall_forall in HF. now apply HF.
  - apply Forall_forall. intros row Hrow. rewrite map_map in Hrow. apply in_map_iff in Hrow. destruct Hrow as [rs [<- Hin]]. now apply W.
Qed.

Lemma potts_seq_final calc_e n size ni b sys samples t r : (0 < n)%nat ->
  (forall ss, samples = Some ss -> Forall (pstates n) ss) ->
  potts_generate_sample_py g calc_e n size ni b sys samples None t = Ok r -> Forall (pstates n) (g_samples r).
Proof.
  intros Hn Hss E. unfold potts_generate_sample_py, generate_sample_py in E. cbv zeta in E.
  match type of E with bind ?X _ = _ => assert (Q : forall ss t0, X = Ok (ss, t0) -> Forall (pstates n) ss); [|destruct X as [[ss t0]|]; [|discriminate]] end.
  { intros ss t0. assert (Row := potts_random_row_spec g n Hg t).
    destruct (potts_random_row g n t) as [row t1]. cbn [fst] in Row. destruct samples as [sm|].
    + destruct (Nat.eqb (length sm) size); intros X; injection X as <- <-; [now apply Hss|]. repeat constructor; apply Row.
    + intros X. injection X as <- <-. repeat constructor; apply Row. }
  specialize (Q ss t0 eq_refl). cbn [bind] in E. destruct ss as [|s0 [|? ?]]; try discriminate. inversion Q as [|? ? [Hl0 Hs0] _]; subst.
  destruct (run (potts_sample_metropolis g calc_e) (sites sys (length s0) (burn_in_or b ni)) s0 (calc_e s0) t0) as [[[s1 E1] t1] h1] eqn:R1.
  destruct (run_inv _ calc_e potts3 _ (potts_step_ok g calc_e _ Hg Hn) _ (sites_in _ sys _ Hn) _ _ _ _ _ _ eq_refl Hs0 R1) as [Hl1 [Hv1 [-> _]]].
  destruct (record (potts_sample_metropolis g calc_e) (sites sys (length s0) ni) size s1 (calc_e s1) t1) as [[[sm Es] [[s2 E2] t2]] h2] eqn:R2.
  destruct (record_inv _ calc_e potts3 _ (potts_step_ok g calc_e _ Hg Hn) _ (sites_in _ sys _ Hn) _ _ _ _ _ _ _ _ _ Hl1 Hv1 R2) as [_ [_ [_ [A [B _]]]]].
  injection E as <-. cbn [g_samples]. repeat constructor; assumption.
Qed.
End Py.
