(** Lemmas about the generated Potts equation files. *)
From Coq Require Import Ascii String.
From Verif Require Import Prelude Spec PreludeFacts M_Index M_Enum P_Index P_Energy P_Enum.
Import ListNotations.
Local Open Scope R_scope.

(** ** Text of coefficient lists *)
Fixpoint digs (s : list ctok) : list bool :=
  match s with [] => [] | CDig b :: s' => b :: digs s' | _ :: s' => digs s' end.

Definition no_comma (s : list ctok) : Prop := ~ In CComma s.

Lemma digs_app s1 s2 : digs (s1 ++ s2) = digs s1 ++ digs s2.
Proof. induction s1 as [|[b| |] s1 IH]; cbn; rewrite ?IH; reflexivity. Qed.

Lemma read_join s : no_comma s -> read_list (replace_nl (join_comma s)) = Ok (digs s).
Proof.
  unfold read_list. induction s as [|t s IH]; intros Hn; [reflexivity|].
  assert (Hs : no_comma s) by (intros H; apply Hn; right; exact H). specialize (IH Hs).
  destruct t as [b| |]; [| |exfalso; apply Hn; left; reflexivity].
  - destruct s as [|u s']; [reflexivity|].
    change (join_comma (CDig b :: u :: s')) with (CDig b :: CComma :: join_comma (u :: s')).
    set (rest := u :: s') in *. cbn [replace_nl filter is_nl negb read_elems]. rewrite IH. reflexivity.
  - destruct s as [|u s']; [reflexivity|].
    change (join_comma (CNL :: u :: s')) with (CNL :: CComma :: join_comma (u :: s')).
    set (rest := u :: s') in *. cbn [replace_nl filter is_nl negb]. exact IH.
Qed.

Lemma insert_newlines_ok n f : forall s i, (length s <= i + f)%nat -> no_comma s ->
  exists s', insert_newlines (S f) s n i = Ok s' /\ digs s' = digs s /\ no_comma s'.
Proof.
  induction f as [|f IH]; intros s i Hl Hc.
  - cbn [insert_newlines]. destruct (Nat.ltb_spec i (length s)); [lia|exists s; auto].
  - cbn [insert_newlines]. destruct (Nat.ltb_spec i (length s)); [|exists s; auto].
    destruct (IH (firstn i s ++ CNL :: skipn i s) (i + n + 2)%nat) as (s' & E & Hd & Hc').
    + rewrite app_length. cbn [length]. rewrite firstn_length, skipn_length. lia.
    + intros Hin. apply in_app_or in Hin. apply Hc. destruct Hin as [Hin|[Hin|Hin]]; [|discriminate|];
        rewrite <- (firstn_skipn i s); apply in_or_app; auto.
    + exists s'. split; [exact E|]. split; [|exact Hc']. rewrite Hd, digs_app. cbn [digs].
      rewrite <- digs_app, firstn_skipn. reflexivity.
Qed.

Lemma digs_map l : digs (map CDig l) = l.
Proof. induction l as [|b l IH]; cbn; [|rewrite IH]; reflexivity. Qed.

(** Whatever the wrapping does, Python reads back the coefficients. *)
Lemma coeff_text_read l : exists t, coeff_text l = Ok t /\ read_list t = Ok l.
Proof.
  unfold coeff_text. destruct (insert_newlines_ok 55 (length l) (map CDig l) 55) as (s & E & Hd & Hc).
  - rewrite map_length. lia.
  - intros H. apply in_map_iff in H. destruct H as (x & E & _). discriminate.
  - rewrite E. cbn [bind]. eexists. split; [reflexivity|]. rewrite read_join, Hd, digs_map by assumption. reflexivity.
Qed.

(** ** Digits *)
Lemma int_std d : (d < 10)%nat -> int_of_char (std_digit d) = Ok d.
Proof. intros H. do 10 (destruct d as [|d]; [reflexivity|]). lia. Qed.

Lemma std_digit_eqb a b : (a < 10)%nat -> (b < 10)%nat -> Ascii.eqb (std_digit a) (std_digit b) = Nat.eqb a b.
Proof.
  intros Ha Hb. do 10 (destruct a as [|a]; [do 10 (destruct b as [|b]; [reflexivity|]); lia|]). lia.
Qed.

Lemma char_is_std d c : (d < 10)%nat -> (c < 10)%nat -> char_is (std_digit d) c = Nat.eqb d c.
Proof.
  intros Hd Hc. unfold char_is. destruct (Nat.ltb_spec c 10); [|lia]. cbn [andb].
  replace (ascii_of_nat (48 + c)) with (std_digit c); [apply std_digit_eqb; assumption|].
  unfold std_digit. destruct (Nat.ltb_spec c 10); [reflexivity|lia].
Qed.

(** ** Energies *)
Definition potts_atoms (n : nat) (s : list nat) : list patom :=
  map (fun i => Ph (nth i s 0 * n + i)%nat) (seq 0 n) ++
  flat_map (fun kp => let '(counter, (i, j)) := kp in
              if Nat.eqb (nth i s 0%nat) (nth j s 0%nat) then [PJ counter] else [])
    (combine (seq 0 (length (pairs (seq 0 n)))) (pairs (seq 0 n))).

Definition potts_state (n k : nat) (s : list nat) : Prop := length s = n /\ forall x, In x s -> (x < k)%nat.

Lemma nth_std s i : (i < length s)%nat -> nth i (map std_digit s) "0"%char = std_digit (nth i s 0%nat).
Proof. intros H. change "0"%char with (std_digit 0). apply map_nth. Qed.

Lemma potts_term_eq n k s : potts_state n k s -> (k <= 10)%nat -> potts_term n (map std_digit s) = Ok (potts_atoms n s).
Proof.
  intros [Hs Hv] Hk. unfold potts_term.
  rewrite (mapM_ok _ (fun i => Ph (nth i s 0 * n + i)%nat)).
  - cbn [bind]. f_equal. unfold potts_atoms, range. f_equal. apply flat_map_ext_in. intros [c [i j]] Hin.
    apply in_combine_r in Hin. apply in_pairs_seq in Hin.
    rewrite !nth_std by lia. rewrite std_digit_eqb; [reflexivity| |].
    + specialize (Hv (nth i s 0%nat) ltac:(apply nth_In; lia)). lia.
    + specialize (Hv (nth j s 0%nat) ltac:(apply nth_In; lia)). lia.
  - intros i Hi. unfold range in Hi. apply in_seq in Hi. unfold get. rewrite nth_error_map, (nth_error_nth' s 0%nat) by lia.
    cbn [option_map bind]. rewrite int_std; [reflexivity|].
    specialize (Hv (nth i s 0%nat) ltac:(apply nth_In; lia)). lia.
Qed.

Lemma get_nthR (v : list R) j : (j < length v)%nat -> get v j = Ok (nthR v j).
Proof. intros Hj. unfold get. rewrite (nth_error_nth' v 0 Hj). reflexivity. Qed.

Lemma mapM_app {A B} (f : A -> result B) l1 l2 r1 r2 : mapM f l1 = Ok r1 -> mapM f l2 = Ok r2 -> mapM f (l1 ++ l2) = Ok (r1 ++ r2).
Proof.
  revert r1. induction l1 as [|a l1 IH]; intros r1 H1 H2; cbn [mapM app] in *; [injection H1 as <-; exact H2|].
  destruct (f a) as [b|]; [|discriminate]. cbn [bind] in *. destruct (mapM f l1) as [r|]; [|discriminate].
  cbn [bind] in *. injection H1 as <-. rewrite (IH r eq_refl H2). reflexivity.
Qed.

Lemma sumf_combine_seq0 {A} (L : list A) (d : A) (F : nat -> A -> R) : forall a,
  sumf (combine (seq a (length L)) L) (fun kp => F (fst kp) (snd kp)) =
  sumf (seq 0 (length L)) (fun c => F (a + c)%nat (nth c L d)).
Proof.
  induction L as [|x L IH]; intros a; [reflexivity|]. cbn [length seq combine]. rewrite !sumf_cons. cbn [fst snd nth].
  rewrite Nat.add_0_r, IH. f_equal. rewrite sumf_seq_shift. apply sumf_ext. intros c. replace (S a + c)%nat with (a + S c)%nat by lia. reflexivity.
Qed.

Lemma eval_potts_eq n k s params : potts_state n k s ->
  length params = (n * k + n * (n - 1) / 2)%nat ->
  eval_potts (firstn (n * k) params) (skipn (n * k) params) (potts_atoms n s) = Ok (- potts_energy n k params s).
Proof.
  intros [Hs Hv] Hp. unfold eval_potts, potts_atoms.
  set (h := firstn (n * k) params). set (J := skipn (n * k) params).
  assert (Hh : length h = (n * k)%nat) by (unfold h; rewrite firstn_length; lia).
  assert (HJ : length J = (n * (n - 1) / 2)%nat) by (unfold J; rewrite skipn_length; lia).
  set (P := pairs (seq 0 n)). assert (HP : length P = (n * (n - 1) / 2)%nat) by apply pairs_seq_length.
  assert (E1 : mapM (eval_patom h J) (map (fun i => Ph (nth i s 0 * n + i)%nat) (seq 0 n)) = Ok (map (fun i => nthR params (nth i s 0 * n + i)%nat) (seq 0 n))).
  { assert (G : forall L, (forall i, In i L -> (i < n)%nat) -> mapM (eval_patom h J) (map (fun i => Ph (nth i s 0 * n + i)%nat) L) = Ok (map (fun i => nthR params (nth i s 0 * n + i)%nat) L)).
    { induction L as [|i L IH]; intros HL; [reflexivity|]. cbn [map mapM eval_patom].
      assert (Hi : (nth i s 0 * n + i < n * k)%nat).
      { assert (i < n)%nat by (apply HL; left; reflexivity).
        assert (nth i s 0 < k)%nat by (apply Hv; apply nth_In; lia). nia. }
      rewrite get_nthR by lia. cbn [bind]. rewrite IH by (intros; apply HL; right; assumption). cbn [bind].
      unfold h. rewrite nthR_firstn by assumption. reflexivity. }
    apply G. intros i Hi. apply in_seq in Hi. lia. }
  set (sel := fun kp : nat * (nat * nat) => b2R (Nat.eqb (nth (fst (snd kp)) s 0%nat) (nth (snd (snd kp)) s 0%nat))).
  assert (E2 : exists r, mapM (eval_patom h J) (flat_map (fun kp => let '(counter, (i, j)) := kp in
              if Nat.eqb (nth i s 0%nat) (nth j s 0%nat) then [PJ counter] else []) (combine (seq 0 (length P)) P)) = Ok r /\
          sumR r = sumf (combine (seq 0 (length P)) P) (fun kp => nthR J (fst kp) * sel kp)).
  { assert (G : forall L, (forall kp, In kp L -> (fst kp < length J)%nat) -> exists r, mapM (eval_patom h J) (flat_map (fun kp => let '(counter, (i, j)) := kp in
              if Nat.eqb (nth i s 0%nat) (nth j s 0%nat) then [PJ counter] else []) L) = Ok r /\ sumR r = sumf L (fun kp => nthR J (fst kp) * sel kp)).
    { induction L as [|[c [i j]] L IH]; intros HL; [exists []; split; reflexivity|].
      destruct IH as (r & Er & Es); [intros; apply HL; right; assumption|]. cbn [flat_map].
      rewrite sumf_cons. unfold sel at 1. cbn [fst snd]. destruct (Nat.eqb (nth i s 0%nat) (nth j s 0%nat)).
      - exists (nthR J c :: r). split.
        + apply (mapM_app _ [PJ c] _ [nthR J c] r); [|exact Er]. cbn [mapM eval_patom].
          rewrite get_nthR by (specialize (HL _ (or_introl eq_refl)); exact HL). reflexivity.
        + unfold sumR. rewrite sumf_cons. fold (sumR r). rewrite Es. cbn. lra.
      - exists r. split; [exact Er|]. rewrite Es. cbn. lra. }
    apply G. intros [c p] Hin. apply in_combine_l in Hin. apply in_seq in Hin. cbn [fst]. lia. }
  destruct E2 as (r & Er & Es). rewrite (mapM_app _ _ _ _ _ E1 Er). cbn [bind]. f_equal.
  unfold sumR. rewrite sumf_app. fold (sumR r). rewrite Es, sumf_map. unfold potts_energy.
  rewrite <- (sumf_pairs_seq n (fun i j => nthR params (k * n + pair_index n i j)%nat * b2R (Nat.eqb (nth i s 0%nat) (nth j s 0%nat)))).
  fold P. unfold sel.
  rewrite (sumf_combine_seq0 P (0%nat,0%nat) (fun c p => nthR J c * b2R (Nat.eqb (nth (fst p) s 0%nat) (nth (snd p) s 0%nat))) 0).
  rewrite <- (sumf_seq_nth (0%nat,0%nat) P).
  assert (Q : sumf (seq 0 (length P)) (fun c => nthR J (0 + c) * b2R (Nat.eqb (nth (fst (nth c P (0%nat,0%nat))) s 0%nat) (nth (snd (nth c P (0%nat,0%nat))) s 0%nat)))
    = sumf (seq 0 (length P)) (fun c => nthR params (k * n + pair_index n (fst (nth c P (0%nat,0%nat))) (snd (nth c P (0%nat,0%nat))))%nat * b2R (Nat.eqb (nth (fst (nth c P (0%nat,0%nat))) s 0%nat) (nth (snd (nth c P (0%nat,0%nat))) s 0%nat)))).
  { apply sumf_ext_in. intros c Hc. apply in_seq in Hc. f_equal. cbn [Nat.add]. unfold J. rewrite nthR_skipn. f_equal.
    pose proof (pair_index_nth n c ltac:(lia)) as HQ. fold P in HQ. destruct (nth c P (0%nat,0%nat)) as [i j] eqn:Eij. cbn [fst snd].
    rewrite (Nat.mul_comm n k). f_equal. symmetry. destruct HQ as (HQ & _). exact HQ. }
  cbn [fst snd] in *. rewrite Q. ring.
Qed.

(** ** The whole file *)
Definition potts_obs_fns (n k : nat) : list (list nat -> bool) :=
  flat_map (fun c => map (fun i s => Nat.eqb (nth i s 0%nat) c) (seq 0 n)) (seq 0 k) ++
  map (fun p s => Nat.eqb (nth (fst p) s 0%nat) (nth (snd p) s 0%nat)) (pairs (seq 0 n)).

Lemma potts_obs_as_fns n k s : length s = n -> potts_obs k s = map (fun g => b2R (g s)) (potts_obs_fns n k).
Proof.
  intros Hs. unfold potts_obs, potts_obs_fns. rewrite map_app. f_equal.
  - rewrite flat_map_concat_map, flat_map_concat_map, concat_map, map_map. f_equal. apply map_ext. intros c.
    rewrite map_map, <- Hs, (list_as_map 0%nat s) at 1. rewrite map_map. reflexivity.
  - rewrite map_map, (pairs_as_map 0%nat s), map_map, Hs. reflexivity.
Qed.

Lemma potts_obs_fns_length n k : length (potts_obs_fns n k) = (n * k + n * (n - 1) / 2)%nat.
Proof.
  unfold potts_obs_fns. rewrite app_length, map_length, pairs_seq_length. f_equal.
  rewrite (length_flat_map_const _ _ n); [now rewrite seq_length|]. intros a _. now rewrite map_length, seq_length.
Qed.

Definition good_logest (logest : nat -> nat -> nat) (n k : nat) : Prop :=
  forall i e, (0 < i < k ^ n)%nat -> is_floor_log k i e ->
     logest i k = e \/ (logest i k + 1 = e /\ i < k ^ e + k ^ (logest i k))%nat.

Lemma good_logest_est logest n k : (2 <= k)%nat -> good_logest logest n k ->
  forall i, (0 < i < k ^ n)%nat -> exists e, log_estimate_ok (logest i k) i k e.
Proof.
  intros Hk Hest i Hi. destruct (exponent_exists k n i Hk ltac:(lia) ltac:(lia)) as (e & He & _).
  exists e. split; [assumption|]. apply Hest; [assumption|exact He].
Qed.

Lemma xpotts_std logest n k : (0 < n)%nat -> (2 <= k <= 10)%nat -> good_logest logest n k ->
  xpotts_states logest n k = Ok (map (map std_digit) (all_states (seq 0 k) n)).
Proof.
  intros Hn Hk He. rewrite (xpotts_states_eq logest n k Hn ltac:(lia) (good_logest_est logest n k ltac:(lia) He)).
  f_equal. apply map_ext_in. intros s Hs. apply all_states_spec in Hs. destruct Hs as [_ Hv].
  apply map_ext_in. intros d Hd. specialize (Hv d Hd). apply in_seq in Hv.
  unfold alpha_of. destruct (Nat.leb_spec k 10); [|lia].
  assert (Hd10 : (d < 10)%nat) by lia. clear -Hd10. do 10 (destruct d as [|d]; [reflexivity|]). lia.
Qed.

Lemma all_states_potts n k s : In s (all_states (seq 0 k) n) -> potts_state n k s.
Proof.
  intros H. apply all_states_spec in H. destruct H as [Hl Hv]. split; [exact Hl|].
  intros x Hx. specialize (Hv x Hx). apply in_seq in Hv. lia.
Qed.

Lemma mapM_exists {A B C} (f : A -> result B) (g : A -> C) (rd : B -> result C) L :
  (forall a, In a L -> exists b, f a = Ok b /\ rd b = Ok (g a)) ->
  exists bs, mapM f L = Ok bs /\ mapM rd bs = Ok (map g L).
Proof.
  induction L as [|a L IH]; intros H; [exists []; split; reflexivity|].
  destruct (H a (or_introl eq_refl)) as (b & E1 & E2).
  destruct IH as (bs & E3 & E4); [intros; apply H; right; assumption|].
  exists (b :: bs). cbn [mapM map]. rewrite E1, E2. cbn [bind]. rewrite E3, E4. split; reflexivity.
Qed.

Lemma write_potts_ok logest n k : (2 < n)%nat -> (2 <= k <= 10)%nat -> good_logest logest n k ->
  exists cf, write_potts logest n k = Ok {| pf_n := n; pf_k := k;
     pf_energies := map (potts_atoms n) (all_states (seq 0 k) n); pf_coeffs := cf |} /\
   mapM read_list cf = Ok (map (fun g => map g (all_states (seq 0 k) n)) (potts_obs_fns n k)).
Proof.
  intros Hn Hk He. unfold write_potts. destruct (Nat.ltb_spec 2 n); [|lia]. destruct (Nat.leb_spec 2 k); [|lia]. cbn [negb].
  unfold energy_terms_generator. rewrite xpotts_std by (assumption || lia). cbn [bind].
  set (St := all_states (seq 0 k) n).
  assert (HSt : forall s, In s St -> potts_state n k s) by (intros s; apply all_states_potts).
  assert (E1 : mapM (fun s => bind (potts_term n s) (fun t => Ok (t, s))) (map (map std_digit) St) = Ok (map (fun s => (potts_atoms n s, map std_digit s)) St)).
  { clearbody St. induction St as [|s St IH]; [reflexivity|]. cbn [map mapM].
    rewrite (potts_term_eq n k) by (first [lia | apply HSt; left; reflexivity]). cbn [bind].
    rewrite IH by (intros; apply HSt; right; assumption). reflexivity. }
  rewrite E1. cbn [bind]. rewrite !map_map. cbn [fst snd].
  assert (Hch : forall i s, In s St -> (i < n)%nat -> nth i (map std_digit s) "0"%char = std_digit (nth i s 0%nat) /\ (nth i s 0 < k)%nat).
  { intros i s Hs Hi. destruct (HSt s Hs) as [Hl Hv]. split; [apply nth_std; lia|]. apply Hv, nth_In. lia. }
  destruct (mapM_exists (fun ki : nat * nat => let '(c, i) := ki in
          coeff_text (map (fun s => char_is (nth i s "0"%char) c) (map (fun s => map std_digit s) St)))
       (fun ki => map (fun s => Nat.eqb (nth (snd ki) s 0%nat) (fst ki)) St) read_list
       (flat_map (fun c => map (fun i => (c, i)) (range n)) (range k))) as (m1 & A1 & A2).
  { intros [c i] Hin. apply in_flat_map in Hin. destruct Hin as (c' & Hc & Hin). apply in_map_iff in Hin. destruct Hin as (i' & E & Hi).
    injection E as -> ->. unfold range in *. apply in_seq in Hc, Hi.
    destruct (coeff_text_read (map (fun s => Nat.eqb (nth i s 0%nat) c) St)) as (t & T1 & T2). exists t. cbn [fst snd]. split; [|exact T2].
    rewrite <- T1. f_equal. rewrite map_map. apply map_ext_in. intros s Hs. destruct (Hch i s Hs ltac:(lia)) as [-> Hlt].
    apply char_is_std; lia. }
  rewrite A1. cbn [bind].
  destruct (mapM_exists (fun p : nat * nat => coeff_text (map (fun s => Ascii.eqb (nth (fst p) s "0"%char) (nth (snd p) s "0"%char)) (map (fun s => map std_digit s) St)))
       (fun p => map (fun s => Nat.eqb (nth (fst p) s 0%nat) (nth (snd p) s 0%nat)) St) read_list
       (pairs (range n))) as (m2 & B1 & B2).
  { intros [i j] Hin. unfold range in Hin. apply in_pairs_seq in Hin. cbn [fst snd].
    destruct (coeff_text_read (map (fun s => Nat.eqb (nth i s 0%nat) (nth j s 0%nat)) St)) as (t & T1 & T2). exists t. split; [|exact T2].
    rewrite <- T1. f_equal. rewrite map_map. apply map_ext_in. intros s Hs.
    destruct (Hch i s Hs ltac:(lia)) as [-> Hlt]. destruct (Hch j s Hs ltac:(lia)) as [-> Hlt']. apply std_digit_eqb; lia. }
  rewrite B1. cbn [bind]. exists (m1 ++ m2). split; [reflexivity|]. rewrite (mapM_app _ _ _ _ _ A2 B2). f_equal.
  unfold potts_obs_fns. rewrite map_app. f_equal.
  - rewrite !flat_map_concat_map, !concat_map, !map_map. f_equal. apply map_ext. intros c. rewrite !map_map. reflexivity.
  - rewrite map_map. reflexivity.
Qed.

Section PFile.
Variables (n k : nat) (params : list R) (cf : list (list ctok)).
Hypothesis Hk : (2 <= k)%nat.
Hypothesis Hp : length params = (n * k + n * (n - 1) / 2)%nat.
Let St := all_states (seq 0 k) n.
Let E := potts_energy n k params.
Let f := {| pf_n := n; pf_k := k; pf_energies := map (potts_atoms n) St; pf_coeffs := cf |}.
Hypothesis Hcf : mapM read_list cf = Ok (map (fun g => map g St) (potts_obs_fns n k)).

Lemma potts_energies_ok : potts_energies f params = Ok (map (fun s => - E s) St).
Proof.
  unfold potts_energies. change (potts_nparams f) with (n * k + n * (n - 1) / 2)%nat. rewrite Hp, Nat.eqb_refl. cbn [negb].
  change (pf_n f * pf_k f)%nat with (n * k)%nat. change (pf_energies f) with (map (potts_atoms n) St).
  assert (G : forall L, (forall s, In s L -> potts_state n k s) ->
    mapM (eval_potts (firstn (n * k) params) (skipn (n * k) params)) (map (potts_atoms n) L) = Ok (map (fun s => - E s) L)).
  { induction L as [|s L IH]; intros HL; [reflexivity|]. cbn [map mapM]. rewrite (eval_potts_eq n k) by (try assumption; apply HL; left; reflexivity).
    cbn [bind]. rewrite IH by (intros; apply HL; right; assumption). reflexivity. }
  apply G. intros s. apply all_states_potts.
Qed.

Lemma potts_St_ne : map (fun s => - E s) St <> [].
Proof.
  intros H. apply (f_equal (@length _)) in H. unfold St in H. rewrite map_length, all_states_length, seq_length in H.
  cbn [length] in H. pose proof (Nat.pow_nonzero k n). lia.
Qed.

Lemma potts_Z : sumf (map (fun s => - E s) St) exp = partition E St.
Proof. rewrite sumf_map. reflexivity. Qed.

Lemma potts_Zpos : 0 < partition E St.
Proof. rewrite <- potts_Z. apply sumf_exp_pos, potts_St_ne. Qed.

Lemma potts_file_p : run_potts_p f params = Ok (map (fun s => Some (boltzmann E St s)) St).
Proof.
  unfold run_potts_p. rewrite potts_energies_ok. cbn [bind]. rewrite fast_logsumexp_none by apply potts_St_ne. cbn [bind fst].
  f_equal. rewrite potts_Z, map_map. apply map_ext. intros s. rewrite exp_diff_prob by apply potts_Zpos. reflexivity.
Qed.

Lemma mapM_bind {A B C} (rd : A -> result B) (h : B -> result C) L V : mapM rd L = Ok V ->
  mapM (fun c => bind (rd c) h) L = mapM h V.
Proof.
  revert V. induction L as [|a L IH]; intros V H; cbn [mapM] in *; [injection H as <-; reflexivity|].
  destruct (rd a) as [b|]; [|discriminate]. cbn [bind] in *. destruct (mapM rd L) as [V'|]; [|discriminate].
  cbn [bind] in H. injection H as <-. cbn [mapM]. rewrite (IH V' eq_refl). reflexivity.
Qed.

Lemma potts_file_obs : run_potts_observables f params =
  Ok (map (fun g => Some (expectation (boltzmann E St) St (fun s => b2R (g s)))) (potts_obs_fns n k)).
Proof.
  unfold run_potts_observables. rewrite potts_energies_ok. cbn [bind]. rewrite fast_logsumexp_none by apply potts_St_ne. cbn [bind fst].
  rewrite potts_Z. change (pf_coeffs f) with cf. rewrite (mapM_bind _ _ _ _ Hcf).
  generalize (potts_obs_fns n k). clear Hcf. intros L. induction L as [|g L IH]; [reflexivity|]. cbn [map mapM].
  rewrite fast_logsumexp_some by (first [apply potts_St_ne | rewrite !map_length; reflexivity]). cbn [bind fst].
  rewrite IH. cbn [bind]. f_equal. f_equal. rewrite exp_diff_some by apply potts_Zpos. f_equal.
  assert (Ew : wexp (map (fun s => - E s) St) (map b2R (map g St)) = sumf St (fun s => exp (- E s) * b2R (g s))).
  { unfold wexp. generalize St. intros B. induction B as [|s B IHB]; [reflexivity|]. cbn [map combine]. rewrite !sumf_cons, IHB. cbn [fst snd]. ring. }
  rewrite Ew, Rabs_right.
  - unfold expectation, boltzmann. rewrite <- sumf_div. apply sumf_ext. intros s. unfold Rdiv. ring.
  - apply Rle_ge, sumf_nonneg. intros s _. pose proof (exp_pos (- E s)). apply Rmult_le_pos; [lra|]. unfold b2R. destruct (g s); lra.
Qed.
End PFile.

(** ** Failure for letters *)
Lemma mapM_err {A B} (f : A -> result B) e L : (forall a, In a L -> (exists b, f a = Ok b) \/ f a = Err e) ->
  (exists a, In a L /\ f a = Err e) -> mapM f L = Err e.
Proof.
  induction L as [|a L IH]; intros H (x & Hx & Ex); [destruct Hx|]. cbn [mapM].
  destruct (H a (or_introl eq_refl)) as [(b & Eb)|Ea]; [|rewrite Ea; reflexivity].
  rewrite Eb. cbn [bind]. rewrite IH; [reflexivity|intros; apply H; right; assumption|].
  destruct Hx as [->|Hx]; [congruence|]. exists x. auto.
Qed.

Lemma int_alphanum d : (d < 36)%nat -> (exists v, int_of_char (nth d ALPHANUM "0"%char) = Ok v) \/ int_of_char (nth d ALPHANUM "0"%char) = Err ValueError.
Proof. intros _. unfold int_of_char. destruct (_ && _); [left; eauto|right; reflexivity]. Qed.

Lemma potts_term_err n s : length s = n ->
  (exists t, potts_term n s = Ok t) \/ potts_term n s = Err ValueError.
Proof.
  intros Hs. unfold potts_term.
  assert (G : forall L, (forall i, In i L -> (i < n)%nat) ->
    (exists t, mapM (fun i => bind (get s i) (fun c => bind (int_of_char c) (fun v => Ok (Ph (v * n + i))))) L = Ok t) \/
    mapM (fun i => bind (get s i) (fun c => bind (int_of_char c) (fun v => Ok (Ph (v * n + i))))) L = Err ValueError).
  { induction L as [|i L IH]; intros HL; [left; exists []; reflexivity|]. cbn [mapM].
    unfold get at 1 3. rewrite (nth_error_nth' s "0"%char) by (rewrite Hs; apply HL; left; reflexivity). cbn [bind].
    unfold int_of_char at 1 3. destruct (_ && _); [|right; reflexivity]. cbn [bind].
    destruct IH as [(t & ->)| ->]; [intros; apply HL; right; assumption|left; eexists; reflexivity|right; reflexivity]. }
  destruct (G (range n)) as [(t & ->)| ->]; [intros i Hi; unfold range in Hi; apply in_seq in Hi; lia|left; eexists; reflexivity|right; reflexivity].
Qed.

Lemma potts_term_letter n s : length s = n -> (0 < n)%nat -> int_of_char (nth (n - 1) s "0"%char) = Err ValueError ->
  potts_term n s = Err ValueError.
Proof.
  intros Hs Hn Hc. destruct (potts_term_err n s Hs) as [(t & Et)|]; [|assumption]. exfalso. unfold potts_term in Et.
  rewrite (mapM_err _ ValueError) in Et; [discriminate| |].
  - intros i Hi. unfold range in Hi. apply in_seq in Hi. unfold get. rewrite (nth_error_nth' s "0"%char) by lia. cbn [bind].
    unfold int_of_char. destruct (_ && _); [left; eexists; reflexivity|right; reflexivity].
  - exists (n - 1)%nat. split; [unfold range; apply in_seq; lia|]. unfold get. rewrite (nth_error_nth' s "0"%char) by lia. cbn [bind].
    rewrite Hc. reflexivity.
Qed.

Lemma write_potts_letters logest n k : (2 < n)%nat -> (10 < k <= 36)%nat -> good_logest logest n k ->
  write_potts logest n k = Err ValueError.
Proof.
  intros Hn Hk He. unfold write_potts. destruct (Nat.ltb_spec 2 n); [|lia]. destruct (Nat.leb_spec 2 k); [|lia]. cbn [negb].
  unfold energy_terms_generator. rewrite (xpotts_states_eq logest n k ltac:(lia) ltac:(lia) (good_logest_est logest n k ltac:(lia) He)).
  cbn [bind]. rewrite (mapM_err _ ValueError); [reflexivity| |].
  - intros s Hs. apply in_map_iff in Hs. destruct Hs as (t & <- & Ht). apply all_states_potts in Ht. destruct Ht as [Hl _].
    destruct (potts_term_err n (map (fun d => nth d (alpha_of k) "0"%char) t)) as [(x & ->)| ->]; [rewrite map_length; exact Hl|left; eexists; reflexivity|right; reflexivity].
  - exists (map (fun d => nth d (alpha_of k) "0"%char) (repeat 0%nat (n - 1) ++ [10%nat])). split.
    + apply in_map. apply all_states_spec. split; [rewrite app_length, repeat_length; cbn; lia|].
      intros v Hv. apply in_app_or in Hv. apply in_seq. destruct Hv as [Hv|[<-|[]]]; [apply repeat_spec in Hv|]; lia.
    + rewrite potts_term_letter; [reflexivity|rewrite map_length, app_length, repeat_length; cbn; lia|lia|].
      change "0"%char with ((fun d => nth d (alpha_of k) "0"%char) 50%nat) at 2 || idtac.
      rewrite map_app, app_nth2; rewrite map_length, repeat_length; [|lia]. rewrite Nat.sub_diag. cbn [map nth].
      unfold alpha_of. destruct (Nat.leb_spec k 10); [lia|]. reflexivity.
Qed.

Lemma write_potts_huge logest n k : (2 < n)%nat -> (36 < k)%nat -> write_potts logest n k = Err AssertionError.
Proof.
  intros Hn Hk. unfold write_potts. destruct (Nat.ltb_spec 2 n); [|lia]. destruct (Nat.leb_spec 2 k); [|lia]. cbn [negb].
  unfold energy_terms_generator, xpotts_states. destruct (Nat.leb_spec n 0); [lia|]. destruct (Nat.ltb_spec k 2); [lia|].
  assert (Hpow : (2 <= k ^ n)%nat).
  { destruct n as [|n']; [lia|]. cbn [Nat.pow]. pose proof (Nat.pow_nonzero k n'). nia. }
  destruct (k ^ n)%nat as [|[|m]]; [lia|lia|]. cbn [seq mapM]. unfold base_repr at 1. destruct (Nat.ltb_spec k 2); [lia|]. cbn [Nat.eqb bind].
  unfold base_repr at 1. destruct (Nat.ltb_spec k 2); [lia|]. cbn [Nat.eqb]. destruct (Nat.leb_spec k 10); [lia|]. destruct (Nat.leb_spec k 36); [lia|]. reflexivity.
Qed.
