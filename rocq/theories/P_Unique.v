(** * Proofs: an energy function determines its fields and couplings. *)
From Verif Require Import Prelude Spec PreludeFacts M_Index M_Energy M_Params P_Index P_Unravel P_Energy P_Energy2 P_Params.
Import ListNotations.
Local Open Scope R_scope.

Lemma in_all_states_upd {A} (vals : list A) n s i v : In s (all_states vals n) -> In v vals -> In (upd s i v) (all_states vals n).
Proof.
  rewrite !all_states_spec. intros [Hl Hv] H. split; [now rewrite upd_length|].
  intros x Hx. clear Hl. revert i Hx. induction s as [|y s IH]; intros i Hx; [destruct Hx|].
  destruct i as [|i]; cbn [upd] in Hx; destruct Hx as [<-|Hx].
  - assumption.
  - apply Hv. now right.
  - apply Hv. now left.
  - apply (IH (fun z Hz => Hv z (or_intror Hz)) i Hx).
Qed.

Lemma local_field_upd_other n params s r i v : (r <> i)%nat -> (i < n)%nat -> length s = n ->
  local_field n params (upd s i v) r = local_field n params s r + coupling n params r i * (v - nthR s i).
Proof.
  intros Hri Hi Hs. unfold local_field.
  assert (G : sumf (others n r) (fun j => coupling n params r j * nthR (upd s i v) j) =
     sumf (others n r) (fun j => coupling n params r j * nthR s j + (if Nat.eq_dec i j then coupling n params r j * (v - nthR s j) else 0))).
  { apply sumf_ext_in. intros j Hj. apply in_others in Hj. destruct (Nat.eq_dec i j) as [<-|Hne].
    - rewrite nthR_upd_same by lia. ring.
    - rewrite nthR_upd_other by assumption. ring. }
  rewrite G, sumf_plus, sumf_indic; [ring| |].
  - apply NoDup_filter, seq_NoDup.
  - apply in_others. lia.
Qed.

Lemma ising_params_ext n p q : length p = (n + n * (n - 1) / 2)%nat -> length q = (n + n * (n - 1) / 2)%nat ->
  (forall i, (i < n)%nat -> nthR p i = nthR q i) ->
  (forall i j, (i < j)%nat -> (j < n)%nat -> coupling n p i j = coupling n q i j) -> p = q.
Proof.
  intros Hp Hq H1 H2. rewrite <- (firstn_skipn n p), <- (firstn_skipn n q).
  rewrite <- !fields_firstn, <- !coupling_pairs by lia. f_equal.
  - apply map_ext_in. intros i Hi. apply in_seq in Hi. apply H1. lia.
  - apply map_ext_in. intros [i j] Hij. apply in_pairs_seq in Hij. cbn [fst snd]. unfold hJmat.
    destruct (Nat.eqb_spec i j); [lia|]. apply H2; lia.
Qed.

Lemma ising_energy_unique a b n p q c : a <> b ->
  length p = (n + n * (n - 1) / 2)%nat -> length q = (n + n * (n - 1) / 2)%nat ->
  (forall s, In s (all_states [a; b] n) -> ising_energy n p s = ising_energy n q s + c) -> p = q.
Proof.
  intros Hab Hp Hq HE.
  assert (Hlen : forall s, In s (all_states [a; b] n) -> length s = n) by (intros s Hs; now apply all_states_spec in Hs).
  assert (LF : forall s r, In s (all_states [a; b] n) -> (r < n)%nat -> local_field n p s r = local_field n q s r).
  { intros s r Hs Hr.
    assert (Hs' := in_all_states_upd _ _ _ r a Hs (or_introl eq_refl)).
    assert (Hs'' := in_all_states_upd _ _ _ r b Hs' (or_intror (or_introl eq_refl))).
    pose proof (ising_energy_upd n p (upd s r a) r b Hr (Hlen _ Hs')) as E1.
    pose proof (ising_energy_upd n q (upd s r a) r b Hr (Hlen _ Hs')) as E2.
    rewrite !local_field_upd, nthR_upd_same in E1, E2 by (rewrite Hlen; assumption).
    rewrite !HE in E1 by assumption.
    assert (E : (a - b) * (local_field n p s r - local_field n q s r) = 0) by lra.
    apply Rmult_integral in E. destruct E; lra. }
  set (s0 := repeat a n).
  assert (H0 : In s0 (all_states [a; b] n)).
  { apply all_states_spec. unfold s0. rewrite repeat_length. split; [reflexivity|]. intros x Hx. apply repeat_spec in Hx. left. now symmetry. }
  assert (HC : forall i j, (i <> j)%nat -> (i < n)%nat -> (j < n)%nat -> coupling n p i j = coupling n q i j).
  { intros i j Hij Hi Hj.
    pose proof (LF (upd s0 j b) i (in_all_states_upd _ _ _ j b H0 (or_intror (or_introl eq_refl))) Hi) as E1.
    pose proof (LF s0 i H0 Hi) as E2.
    rewrite !local_field_upd_other in E1 by (try apply Hlen; assumption).
    assert (Es : nthR s0 j = a) by (unfold nthR, s0; rewrite (nth_indep _ 0 a) by (rewrite repeat_length; assumption); apply nth_repeat).
    rewrite Es in E1.
    assert (E : (b - a) * (coupling n p i j - coupling n q i j) = 0) by lra.
    apply Rmult_integral in E. destruct E; lra. }
  apply (ising_params_ext n); [assumption|assumption| |].
  - intros i Hi. pose proof (LF s0 i H0 Hi) as E. unfold local_field in E.
    rewrite (sumf_ext_in (others n i) (fun i0 => coupling n p i i0 * nthR s0 i0) (fun i0 => coupling n q i i0 * nthR s0 i0)) in E; [lra|].
    intros j Hj. apply in_others in Hj. rewrite HC by lia. reflexivity.
  - intros i j Hij Hj. apply HC; lia.
Qed.

(** Boltzmann weights under a relabelling of states that shifts the energy. *)
Lemma boltzmann_relabel {A B} (E : A -> R) (E' : B -> R) (phi : A -> B) c states s :
  (forall t, In t states -> E' (phi t) = E t + c) -> In s states ->
  boltzmann E' (map phi states) (phi s) = boltzmann E states s.
Proof.
  intros H Hs. unfold boltzmann, partition. rewrite sumf_map, H by assumption.
  rewrite (sumf_ext_in states (fun a => exp (- E' (phi a))) (fun a => exp (- c) * exp (- E a))).
  2:{ intros a Ha. rewrite H, <- exp_plus by assumption. f_equal. ring. }
  rewrite sumf_scal_l. replace (- (E s + c)) with (- c + - E s) by ring. rewrite exp_plus.
  pose proof (exp_pos (- c)). pose proof (sumf_pos states (fun a => exp (- E a))) as HP.
  assert (0 < sumf states (fun a => exp (- E a))).
  { apply HP; [intros ->; destruct Hs|]. intros; apply exp_pos. }
  field. split; lra.
Qed.

(** The two-order energy is the Ising energy. *)
Lemma corr_obs_1 s : corr_obs 1 s = s.
Proof.
  unfold corr_obs. induction s as [|x s IH]; [reflexivity|].
  cbn [combinations]. destruct s as [|y s]; cbn [combinations map app] in *.
  - unfold prodR. cbn. f_equal. ring.
  - f_equal; [unfold prodR; cbn; ring|]. exact IH.
Qed.

Lemma multi_energy_2 n h J s : length h = n -> length J = (n * (n - 1) / 2)%nat -> length s = n ->
  multi_energy [h; J] s = ising_energy n (h ++ J) s.
Proof.
  intros Hh HJ Hs. unfold multi_energy. cbn [length seq]. rewrite !sumf_cons, sumf_nil. cbn [nth].
  rewrite corr_obs_1, corr_obs_2.
  pose proof (ising_energy_dot n (h ++ J) s) as G.
  assert (G' : dot (ising_obs s) (h ++ J) = - ising_energy n (h ++ J) s).
  { rewrite G; [ring|assumption|rewrite app_length; lia]. }
  unfold ising_obs in G'. rewrite dot_app in G' by lia. lra.
Qed.
