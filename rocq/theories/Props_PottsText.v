(** * Properties of the text of Potts equation files: C93, C94. *)
From Coq Require Import Ascii String.
From Verif Require Import Prelude Spec PreludeFacts M_Index M_Enum M_EqnText M_PottsText P_Index P_Enum P_EnumPotts P_EqnText P_EqnText2 P_EqnText3 P_EqnText4 P_PyText P_PottsText P_PottsText2 P_PottsText3 Props_Enum.
Import ListNotations.
Local Open Scope list_scope.
Local Open Scope R_scope.

(** The float estimate of a logarithm is the exponent or, just above a power, one less (as in C05
    and C23). *)
Definition good_estimate (logest : nat -> nat -> nat) (n k : nat) : Prop :=
  forall i e, (0 < i < k ^ n)%nat -> is_floor_log k i e -> logest i k = e \/ (logest i k + 1 = e /\ i < k ^ e + k ^ (logest i k))%nat.

(** No newline in a line. *)
Definition one_line (t : text) : Prop := ~ In nl t.
Definition license_lines (lic : option (list text * text)) : Prop :=
  match lic with None => True | Some (ls, r) => (forall l, In l ls -> one_line l) /\ one_line r end.

Lemma one_line_plain t : one_line t -> plain_line t.
Proof. intros H. apply Forall_forall. intros c Hc ->. exact (H Hc). Qed.
Lemma license_ok lic : license_lines lic -> lic_ok lic.
Proof. destruct lic as [[ls r]|]; intros H ls' r' E; [|discriminate]. injection E as <- <-. destruct H as [H1 H2]. split; [apply Forall_forall; intros l Hl; now apply one_line_plain, H1|now apply one_line_plain]. Qed.

Lemma mapM_each {A B} (f : A -> result B) l : forall r, mapM f l = Ok r -> forall a, In a l -> exists b, f a = Ok b /\ In b r.
Proof.
  induction l as [|x l IH]; intros r H a Ha; [destruct Ha|]. cbn [mapM] in H. destruct (f x) as [b|] eqn:E; [|discriminate]. cbn [bind] in H. destruct (mapM f l) as [r'|]; [|discriminate].
  cbn [bind] in H. injection H as <-. destruct Ha as [<-|Ha]; [exists b; split; [exact E|now left]|]. destruct (IH r' eq_refl a Ha) as (b' & E' & Hb). exists b'. split; [exact E'|now right].
Qed.

Lemma lines_until_ok l : (forall r, In r l -> exists t, r = Ok t) -> snd (lines_until l) = Ok tt.
Proof.
  induction l as [|r l IH]; intros H; [reflexivity|]. destruct (H r (or_introl eq_refl)) as (t & ->). cbn [lines_until]. specialize (IH (fun r Hr => H r (or_intror Hr))).
  destruct (lines_until l) as [s x]. exact IH.
Qed.
Lemma lines_until_err e l : (forall r, In r l -> (exists t, r = Ok t) \/ r = Err e) -> snd (lines_until l) = Ok tt \/ snd (lines_until l) = Err e.
Proof.
  induction l as [|r l IH]; intros H; [now left|]. destruct (H r (or_introl eq_refl)) as [(t & ->)| ->]; [|now right]. cbn [lines_until]. specialize (IH (fun r Hr => H r (or_intror Hr))).
  destruct (lines_until l) as [s x]. exact IH.
Qed.

Lemma potts_write_complete logest lic date n k : (2 < n)%nat -> (2 <= k <= 10)%nat -> good_estimate logest n k -> exists f, write_potts logest n k = Ok f /\
  write_potts_file logest lic date n k = (potts_text lic date f, Ok tt) /\ file_ok f /\ pf_n f = n /\ pf_k f = k /\ length (pf_energies f) = (k ^ n)%nat /\ length (pf_coeffs f) = potts_nparam n k.
Proof.
  intros Hn Hk He. destruct (write_potts_ok logest n k Hn Hk He) as (cf & E1 & Hcf). eexists. split; [exact E1|]. split.
  - unfold write_potts_file. assert (Q : snd (lines_until (map (potts_item logest n k) (seq 0 (k ^ n)))) = Ok tt).
    { apply lines_until_ok. intros r Hr. apply in_map_iff in Hr. destruct Hr as (i & <- & Hi).
      assert (X := xpotts_std logest n k ltac:(lia) Hk He). unfold xpotts_states in X. destruct (Nat.leb_spec n 0); [lia|]. destruct (Nat.ltb_spec k 2); [lia|].
      destruct (mapM_each _ _ _ X i Hi) as (s & Es & Hs). unfold potts_item. destruct (base_repr logest i k) as [st|]; [|discriminate]. cbn [bind] in *. injection Es as ->.
      apply in_map_iff in Hs. destruct Hs as (s0 & <- & Hs0). apply all_states_potts in Hs0. exists (potts_atoms n s0). apply (potts_term_eq n k); [exact Hs0|lia]. }
    destruct (lines_until _) as [s r]. cbn [snd] in Q. subst r. rewrite E1. reflexivity.
  - split; [split|]; cbn [pf_energies pf_coeffs pf_n pf_k].
    + apply Forall_map, Forall_forall. intros s Hs. apply all_states_potts in Hs. assert (T := potts_term_eq n k s Hs ltac:(lia)). apply potts_term_ne in T; [exact T|lia].
    + apply Forall_forall. intros c Hc. destruct (mapM_each _ _ _ Hcf c Hc) as (bs & E & _). now exists bs.
    + split; [reflexivity|]. split; [reflexivity|]. split.
      * rewrite map_length, all_states_length, seq_length. reflexivity.
      * apply mapM_size in Hcf. rewrite map_length, potts_obs_fns_length in Hcf. symmetry. exact Hcf.
Qed.

(** C93: the text that is written, imported by Python, defines functions p and calc_observables
    that return the exact probabilities of all states in base-k counting order and the exact
    averages of the indicators and agreements. *)
Theorem C93_potts_text : forall (logest : nat -> nat -> nat) (lic : option (list text * text)) (date : text) (n k : nat) (params : list R),
  (2 < n)%nat -> (2 <= k <= 10)%nat -> good_estimate logest n k -> license_lines lic -> one_line date ->
  length params = (n * k + n * (n - 1) / 2)%nat ->
  let states := all_states (seq 0 k) n in
  let prob := boltzmann (potts_energy n k params) states in
  exists t P C, write_potts_file logest lic date n k = (t, Ok tt) /\
    (forall other_top other, call_potts other_top other t "p" params = Ok (Some (map Some P)) /\
                             call_potts other_top other t "calc_observables" params = Ok (Some (map Some C))) /\
    P = map prob states /\ length C = length params /\
    (forall c, (c < length C)%nat -> nthR C c = expectation prob states (fun s => nthR (potts_obs k s) c)).
Proof.
  intros logest lic date n k params Hn Hk He Hlic Hdate Hp states prob.
  destruct (potts_write_complete logest lic date n k Hn Hk He) as (f & E1 & E2 & Hok & En & Ek & Le & Lc).
  destruct (C23_potts_file logest n k params Hn Hk He Hp) as (f' & P & C & E1' & Hrp & HP & _ & _ & Hro & HlC & HC & _). rewrite E1 in E1'. injection E1' as <-.
  exists (potts_text lic date f), P, C. split; [exact E2|]. split; [|split; [exact HP|split; [exact HlC|exact HC]]].
  intros ot other. assert (Hlex := lexes_potts lic date f (license_ok _ Hlic) (one_line_plain _ Hdate) Hok). destruct (import_potts ot _ f Hlex) as [IC IP].
  assert (ES : forall L : list (list tok), map (fun kl : nat * list tok => parse_pstmt (snd kl)) (map (pair 8%nat) L) = map parse_pstmt L) by (intros; rewrite map_map; reflexivity).
  unfold call_potts. rewrite IC, IP. cbn [bind]. rewrite !ES, parse_p, parse_calc by exact Hok. split.
  - apply prun_probs; [rewrite Le, En, Ek; reflexivity|exact Hrp].
  - apply prun_calc; [rewrite Lc, En, Ek; reflexivity|exact Hro].
Qed.
Print Assumptions C93_potts_text.

(** C93: an array of another size is refused by both functions. *)
Theorem C93_wrong_size : forall (logest : nat -> nat -> nat) (lic : option (list text * text)) (date : text) (n k : nat) (params : list R) other_top other name,
  (2 < n)%nat -> (2 <= k <= 10)%nat -> good_estimate logest n k -> license_lines lic -> one_line date ->
  length params <> (n * k + n * (n - 1) / 2)%nat -> (name = "p" \/ name = "calc_observables")%string ->
  call_potts other_top other (fst (write_potts_file logest lic date n k)) name params = Err AssertionError.
Proof.
  intros logest lic date n k params ot other name Hn Hk He Hlic Hdate Hp Hname.
  destruct (potts_write_complete logest lic date n k Hn Hk He) as (f & E1 & E2 & Hok & En & Ek & Le & Lc). rewrite E2. cbn [fst].
  assert (Hlex := lexes_potts lic date f (license_ok _ Hlic) (one_line_plain _ Hdate) Hok). destruct (import_potts ot _ f Hlex) as [IC IP].
  assert (ES : forall L : list (list tok), map (fun kl : nat * list tok => parse_pstmt (snd kl)) (map (pair 8%nat) L) = map parse_pstmt L) by (intros; rewrite map_map; reflexivity).
  assert (Ha : Nat.eqb (length params) (potts_nparam (pf_n f) (pf_k f)) = false) by (rewrite En, Ek; apply Nat.eqb_neq; exact Hp).
  unfold call_potts. destruct Hname as [-> | ->]; [rewrite IP|rewrite IC]; cbn [bind]; rewrite ES, ?parse_p, ?parse_calc by exact Hok.
  - unfold p_pstmts, open_stmts. cbn [app prun pexec]. rewrite Ha. reflexivity.
  - unfold calc_pstmts, open_stmts. cbn [app prun pexec]. rewrite Ha. reflexivity.
Qed.
Print Assumptions C93_wrong_size.

(** With more than ten states the constructor succeeds and write() raises in the middle: the file,
    whatever it contained before, is left with an open bracket, and every attempt to import it and
    call a function raises. *)
Theorem C93_failed_write_refuted : forall (logest : nat -> nat -> nat) (lic : option (list text * text)) (date : text) (n k : nat),
  (2 < n)%nat -> (10 < k)%nat -> ((k <= 36)%nat -> good_estimate logest n k) -> license_lines lic -> one_line date ->
  snd (write_potts_file logest lic date n k) = Err (if Nat.leb k 36 then ValueError else AssertionError) /\
  forall other_top other name params, call_potts other_top other (fst (write_potts_file logest lic date n k)) name params = Err GenericException.
Proof.
  intros logest lic date n k Hn Hk He Hlic Hdate.
  set (e := if Nat.leb k 36 then ValueError else AssertionError).
  assert (Hw : write_potts logest n k = Err e).
  { unfold e. destruct (Nat.leb_spec k 36); [apply write_potts_letters; [exact Hn|lia|now apply He]|now apply write_potts_huge]. }
  assert (Hi : forall i, In i (seq 0 (k ^ n)) -> (exists t, potts_item logest n k i = Ok t) \/ potts_item logest n k i = Err e).
  { intros i Hi. unfold potts_item, e. destruct (Nat.leb_spec k 36) as [H36|H36].
    - assert (X := xpotts_states_eq logest n k ltac:(lia) ltac:(lia) (good_logest_est logest n k ltac:(lia) (He H36))). unfold xpotts_states in X.
      destruct (Nat.leb_spec n 0); [lia|]. destruct (Nat.ltb_spec k 2); [lia|]. destruct (mapM_each _ _ _ X i Hi) as (s & Es & Hs). destruct (base_repr logest i k) as [st|]; [|discriminate].
      cbn [bind] in *. injection Es as ->. apply in_map_iff in Hs. destruct Hs as (s0 & <- & Hs0). apply all_states_potts in Hs0. destruct Hs0 as [Hl _].
      apply potts_term_err. rewrite map_length. exact Hl.
    - unfold base_repr. destruct (Nat.ltb_spec k 2); [lia|]. destruct (Nat.eqb i 0).
      + cbn [bind]. left. assert (T := potts_term_eq n k (repeat 0%nat n)). exists (potts_atoms n (repeat 0%nat n)).
        replace (repeat "0"%char (n - length ["0"%char]) ++ ["0"%char]) with (map std_digit (repeat 0%nat n)).
        * apply (potts_term_eq n 10); [|lia]. split; [apply repeat_length|]. intros x Hx. apply repeat_spec in Hx. lia.
        * assert (MR : forall m, map std_digit (repeat 0%nat m) = repeat (std_digit 0) m) by (induction m as [|m IHm]; [reflexivity|cbn [repeat map]; now rewrite IHm]).
          rewrite MR. change (std_digit 0) with "0"%char. cbn [length]. change ["0"%char] with (repeat "0"%char 1). rewrite <- repeat_app. f_equal. lia.
      + destruct (Nat.leb_spec k 10); [lia|]. destruct (Nat.leb_spec k 36); [lia|]. right. reflexivity. }
  assert (Hne : Forall (fun r => forall t, r = Ok t -> t <> []) (map (potts_item logest n k) (seq 0 (k ^ n)))).
  { apply Forall_forall. intros r Hr t ->. apply in_map_iff in Hr. destruct Hr as (i & Ei & _). unfold potts_item in Ei. destruct (base_repr logest i k); [|discriminate]. cbn [bind] in Ei.
    apply potts_term_ne in Ei; [exact Ei|lia]. }
  assert (Hu := lines_until_err e (map (potts_item logest n k) (seq 0 (k ^ n)))).
  specialize (Hu ltac:(intros r Hr; apply in_map_iff in Hr; destruct Hr as (i & <- & Hr); now apply Hi)).
  destruct (lines_until_spec _ Hne) as (es & Ees & Hes). unfold write_potts_file. rewrite Hw.
  destruct (lines_until (map (potts_item logest n k) (seq 0 (k ^ n)))) as [s r]. cbn [fst snd] in *. subst s.
  assert (G : forall ot other name params, call_potts ot other (potts_header lic date n k ++ line "def calc_observables(params):" ++ potts_open n k "observables" (potts_nparam n k) ++ flat_map potts_energy_line es) name params = Err GenericException).
  { intros ot other name params. unfold call_potts, import_fun. rewrite left_behind by first [exact Hes | apply license_ok; exact Hlic | apply one_line_plain; exact Hdate]. reflexivity. }
  destruct Hu as [-> | ->]; cbn [fst snd]; (split; [reflexivity|exact G]).
Qed.
Print Assumptions C93_failed_write_refuted.

(** C93: a case that meets the hypotheses; the file that is written. *)
Example C93_example : good_estimate example_logest 3 2 /\ license_lines (Some ([lit "MIT License"], [])) /\ one_line (lit "2020-01-01") /\
  length (lit "2020-01-01") = 10%nat /\
  exists t, write_potts_file example_logest (Some ([lit "MIT License"], [])) (lit "2020-01-01") 3 2 = (t, Ok tt) /\ length t = 1917%nat /\
    firstn 78 t = line "# This file contains equations for the Potts model with 3 spins and 2 states." /\
    skipn (length t - 42) t = tb :: lit "p[7] = exp(energies[7] - logZ)" ++ nl :: tb :: line "return p".
Proof.
  split; [intros i e Hi He; left; now apply C23_example|]. split; [split; [intros l [<-|[]]|]|split].
  - intros H. cbn in H. repeat (destruct H as [H|H]; [discriminate|]). exact H.
  - intros [].
  - intros H. cbn in H. repeat (destruct H as [H|H]; [discriminate|]). exact H.
  - split; [reflexivity|]. eexists. split; [vm_compute; reflexivity|]. repeat split; vm_compute; reflexivity.
Qed.

(** C94: whatever part of the file has reached the disk when writing is interrupted, at any
    character: importing it and calling one of its functions raises, returns None or returns what
    the complete file returns.  ([other_top] and [other] say what Python does with the last,
    incomplete line.) *)
Theorem C94_interrupted_potts : forall (logest : nat -> nat -> nat) (lic : option (list text * text)) (date : text) (n k : nat),
  (2 < n)%nat -> (2 <= k <= 10)%nat -> good_estimate logest n k -> license_lines lic -> one_line date ->
  exists t, write_potts_file logest lic date n k = (t, Ok tt) /\
  forall i other_top other name params value, (name = "p" \/ name = "calc_observables")%string ->
    call_potts other_top other (firstn i t) name params = Ok value ->
    value = None \/ call_potts other_top other t name params = Ok value.
Proof.
  intros logest lic date n k Hn Hk He Hlic Hdate. destruct (potts_write_complete logest lic date n k Hn Hk He) as (f & E1 & E2 & Hok & _).
  exists (potts_text lic date f). split; [exact E2|]. intros i ot other name params [val|] Hname H; [right|now left].
  assert (Hlex := lexes_potts lic date f (license_ok _ Hlic) (one_line_plain _ Hdate) Hok).
  apply (call_cut ot other _ f (firstn i (potts_text lic date f)) (skipn i (potts_text lic date f))); [exact Hlex|symmetry; apply firstn_skipn| |exact H]. tauto.
Qed.
Print Assumptions C94_interrupted_potts.
