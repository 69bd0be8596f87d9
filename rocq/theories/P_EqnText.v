(** Lemmas about the text of equation files: reading back what was printed. *)
From Coq Require Import Ascii String.
From Verif Require Import Prelude Spec PreludeFacts M_Index M_Enum M_EqnText P_Enum.
Import ListNotations.
Local Open Scope list_scope.
Local Open Scope char_scope.

(** ** Lexer *)
Definition brk (s : text) : Prop := match s with [] => True | c :: _ => is_letter c = false /\ is_digit c = false end.

Lemma lex_name a d s : brk s -> lex (LName a) d s = TName (rev a) :: lex LMid d s.
Proof.
  destruct s as [|c r]; [reflexivity|]. intros [H1 H2]. cbn [lex lex_step]. rewrite H1, H2. cbn [orb]. unfold emit.
  destruct (lex_start d c) as [out [st' d']]. reflexivity.
Qed.

Lemma lex_num v d s : brk s -> lex (LNum v) d s = TNum v :: lex LMid d s.
Proof.
  destruct s as [|c r]; [reflexivity|]. intros [H1 H2]. cbn [lex lex_step]. rewrite H2. unfold emit.
  destruct (lex_start d c) as [out [st' d']]. reflexivity.
Qed.

Definition val (v : nat) (ds : text) : nat := fold_left (fun v c => 10 * v + digit_val c)%nat ds v.

Lemma lex_digits ds : forall v d s, Forall (fun c => is_digit c = true) ds -> lex (LNum v) d (ds ++ s) = lex (LNum (val v ds)) d s.
Proof.
  induction ds as [|c ds IH]; intros v d s H; [reflexivity|]. inversion H; subst. cbn [app lex lex_step]. rewrite H2. cbn [app].
  rewrite IH by assumption. reflexivity.
Qed.

Lemma digit_facts k : (k < 10)%nat -> is_digit (digit k) = true /\ digit_val (digit k) = k /\ is_letter (digit k) = false /\
  digit k <> "+" /\ digit k <> "#" /\ digit k <> """" /\ digit k <> "(" /\ digit k <> ")" /\ digit k <> "[" /\ digit k <> "]" /\ digit k <> nl /\ digit k <> " ".
Proof. intros H. do 10 (destruct k as [|k]; [repeat split; discriminate|]). lia. Qed.

Lemma digits_ok f : forall k, (k < f)%nat -> Forall (fun c => exists m, (m < 10)%nat /\ c = digit m) (digits f k) /\ digits f k <> [] /\ val 0 (digits f k) = k.
Proof.
  induction f as [|f IH]; intros k Hk; [lia|]. cbn [digits]. destruct (Nat.ltb_spec k 10) as [Hs|Hs].
  - split; [constructor; [eauto|constructor]|]. split; [discriminate|]. unfold val. cbn [fold_left]. destruct (digit_facts k Hs) as (_ & E & _). rewrite E. lia.
  - assert (D := Nat.div_lt k 10 ltac:(lia) ltac:(lia)). destruct (IH (k / 10)%nat ltac:(lia)) as (A & B & V). assert (M := Nat.mod_upper_bound k 10 ltac:(lia)).
    split; [apply Forall_app; split; [exact A|constructor; [eauto|constructor]]|]. split; [destruct (digits f (k / 10)); discriminate|].
    unfold val in *. rewrite fold_left_app, V. cbn [fold_left]. destruct (digit_facts (k mod 10) M) as (_ & E & _). rewrite E.
    assert (Q := Nat.div_mod k 10 ltac:(lia)). lia.
Qed.

Lemma str_nat_ok k : Forall (fun c => exists m, (m < 10)%nat /\ c = digit m) (str_nat k) /\ str_nat k <> [] /\ val 0 (str_nat k) = k.
Proof. apply digits_ok. lia. Qed.

Lemma str_nat_digit k : Forall (fun c => is_digit c = true) (str_nat k).
Proof. destruct (str_nat_ok k) as (A & _). eapply Forall_impl; [|exact A]. intros c (m & Hm & ->). now apply digit_facts. Qed.

Lemma lex_str_nat k d s : brk s -> lex LMid d (str_nat k ++ s) = TNum k :: lex LMid d s.
Proof.
  intros Hs. destruct (str_nat_ok k) as (A & B & V). assert (A' := str_nat_digit k). destruct (str_nat k) as [|c r]; [congruence|].
  inversion A as [|? ? (m & Hm & ->) A2]; subst. inversion A' as [|? ? D A3]; subst. cbn [app lex lex_step]. unfold lex_start.
  destruct (digit_facts m Hm) as (_ & E & L & H1 & H2 & H3 & H4 & H5 & H6 & H7 & H8 & H9).
  apply Ascii.eqb_neq in H2, H3, H8, H9. rewrite H8, H9, H2, H3, L, D. cbn [app]. rewrite lex_digits by assumption. rewrite lex_num by assumption. f_equal.
Qed.

(** ** Expressions *)
Definition letter_ok (c : ascii) : Prop := is_letter c = true.
Definition term_ok (t : term) : Prop := match snd t with AZero => True | AVar c _ => In c abc end.

Definition sign (neg : bool) : ascii := if neg then "-" else "+".
Definition tok_term (t : term) : list tok :=
  TOp (sign (fst t)) :: match snd t with AZero => [TNum 0] | AVar c i => [TName [c]; TOp "["; TNum i; TOp "]"] end.

Lemma abc_cases (P : ascii -> Prop) : Forall P abc -> forall c, In c abc -> P c.
Proof. intros H c. rewrite Forall_forall in H. apply H. Qed.

Lemma lex_term t d s : term_ok t -> brk s -> lex LMid d (print_term t ++ s) = tok_term t ++ lex LMid d s.
Proof.
  destruct t as [neg [|c i]]; cbn [term_ok snd]; intros Ht Hs.
  - change (print_term (neg, AZero) ++ s) with (sign neg :: "0" :: s).
    assert (E : lex LMid d (sign neg :: "0" :: s) = TOp (sign neg) :: lex (LNum 0) d s) by (destruct neg; reflexivity).
    rewrite E, lex_num by assumption. reflexivity.
  - unfold print_term, tok_term. cbn [fst snd app]. rewrite <- app_assoc. cbn [app].
    assert (E : forall X, lex LMid d (sign neg :: c :: "[" :: X) = TOp (sign neg) :: TName [c] :: TOp "[" :: lex LMid (S d) X).
    { intros X. revert c Ht. apply abc_cases. unfold abc. cbn [list_ascii_of_string]. destruct neg; repeat constructor. }
    rewrite E, lex_str_nat by (split; reflexivity).
    assert (E2 : lex LMid (S d) ("]" :: s) = TOp "]" :: lex LMid (S d - 1) s) by reflexivity. rewrite E2. cbn [Nat.sub]. rewrite Nat.sub_0_r. reflexivity.
Qed.

Lemma brk_terms l s : brk s -> brk (print_terms l ++ s).
Proof. destruct l as [|[neg a] l]; [auto|]. intros _. destruct neg; split; reflexivity. Qed.

Lemma lex_terms l : forall d s, Forall term_ok l -> brk s -> lex LMid d (print_terms l ++ s) = flat_map tok_term l ++ lex LMid d s.
Proof.
  induction l as [|t l IH]; intros d s H Hs; [reflexivity|]. inversion H; subst. unfold print_terms. cbn [flat_map]. fold (print_terms l).
  rewrite <- !app_assoc, lex_term; [|assumption|now apply brk_terms]. rewrite IH by assumption. reflexivity.
Qed.

(** Substitution on text and on expressions. *)
Definition body (a : atom) : text := match a with AZero => ["0"] | AVar c i => c :: "[" :: str_nat i ++ ["]"] end.

Lemma sub_skip c r : c <> "+" -> re_sub_plus0 (c :: r) = c :: re_sub_plus0 r.
Proof. intros H. apply Ascii.eqb_neq in H. cbn [re_sub_plus0]. destruct r as [|c2 [|c3 r]]; try reflexivity. rewrite H. reflexivity. Qed.

Lemma sub_skips u r : Forall (fun c => c <> "+") u -> re_sub_plus0 (u ++ r) = u ++ re_sub_plus0 r.
Proof. induction u as [|c u IH]; intros H; [reflexivity|]. inversion H; subst. cbn [app]. rewrite sub_skip, IH by assumption. reflexivity. Qed.

Lemma str_nat_plain k (P : ascii -> Prop) : (forall m, (m < 10)%nat -> P (digit m)) -> Forall P (str_nat k).
Proof. intros H. destruct (str_nat_ok k) as (A & _). eapply Forall_impl; [|exact A]. intros c (m & Hm & ->). now apply H. Qed.

Lemma body_no_plus a neg : term_ok (neg, a) -> Forall (fun c => c <> "+") (body a).
Proof.
  destruct a as [|c i]; cbn; intros H; [constructor; [discriminate|constructor]|]. constructor.
  - revert c H. apply abc_cases. unfold abc. cbn [list_ascii_of_string]. repeat constructor; discriminate.
  - constructor; [discriminate|]. apply Forall_app. split; [|constructor; [discriminate|constructor]]. apply str_nat_plain. intros m Hm. apply (digit_facts m Hm).
Qed.

Lemma print_term_eq neg a : print_term (neg, a) = sign neg :: body a.
Proof. reflexivity. Qed.

Lemma sub_var neg a r : term_ok (neg, a) -> a <> AZero -> re_sub_plus0 (sign neg :: body a ++ r) = sign neg :: body a ++ re_sub_plus0 r.
Proof.
  intros H Ha. destruct a as [|c i]; [congruence|].
  assert (E : re_sub_plus0 (sign neg :: body (AVar c i) ++ r) = sign neg :: re_sub_plus0 (body (AVar c i) ++ r)).
  { cbn [body app re_sub_plus0]. destruct neg; [reflexivity|]. cbn [sign]. clear Ha. revert c H. unfold term_ok. cbn [snd]. apply abc_cases. unfold abc. cbn [list_ascii_of_string]. repeat constructor. }
  rewrite E, sub_skips; [reflexivity|]. now apply body_no_plus with neg.
Qed.

Lemma sub_zero_end neg r : (r = [] \/ exists neg2 b r', r = sign neg2 :: b :: r' /\ (neg = true \/ neg2 = true)) ->
  re_sub_plus0 (sign neg :: "0" :: r) = sign neg :: "0" :: re_sub_plus0 r.
Proof.
  intros [->|(neg2 & b & r' & -> & H)]; [destruct neg; reflexivity|]. destruct neg, neg2; try reflexivity. destruct H; discriminate.
Qed.

Lemma re_sub_text l : Forall term_ok l -> (forall neg, In (neg, AZero) l -> neg = false) -> re_sub_plus0 (print_terms l) = print_terms (re_sub0 l).
Proof.
  remember (length l) as m eqn:Em. assert (Hm : (length l <= m)%nat) by lia. clear Em. revert l Hm.
  induction m as [|m IH]; intros l Hm H Hz; [destruct l; [reflexivity|cbn in Hm; lia]|].
  destruct l as [|[neg a] l]; [reflexivity|]. inversion H as [|? ? Ht Hl]; subst. cbn [length] in Hm.
  assert (Hz' : forall neg, In (neg, AZero) l -> neg = false) by (intros; apply Hz; right; assumption).
  unfold print_terms. cbn [flat_map]. fold (print_terms l). rewrite print_term_eq. cbn [app].
  destruct a as [|c i].
  - assert (neg = false) by (apply Hz; left; reflexivity). subst neg. cbn [re_sub0 body app sign]. destruct l as [|[neg2 a2] l].
    + reflexivity.
    + inversion Hl as [|? ? Ht2 Hl2]; subst. destruct neg2.
      * cbn [print_terms flat_map]. fold (print_terms l). rewrite print_term_eq. cbn [app].
        change (re_sub_plus0 (sign false :: "0" :: sign true :: body a2 ++ print_terms l) = print_term (false, AZero) ++ print_terms (re_sub0 ((true, a2) :: l))).
        rewrite <- IH by (try assumption; cbn [length] in *; lia). cbn [print_terms flat_map]. fold (print_terms l). rewrite print_term_eq. cbn [app].
        assert (exists b r', body a2 ++ print_terms l = b :: r') as (b & r' & E) by (destruct a2; cbn; eauto). rewrite E.
        rewrite sub_zero_end by (right; eauto 6).
        change (print_term (true, a2) ++ print_terms l) with (sign true :: (body a2 ++ print_terms l)). rewrite E. reflexivity.
      * cbn [print_terms flat_map]. fold (print_terms l). fold (print_terms (re_sub0 l)). rewrite !print_term_eq. cbn [app sign re_sub_plus0]. cbn [Ascii.eqb Bool.eqb andb].
        rewrite sub_skips by (apply body_no_plus with false; assumption). rewrite IH; [reflexivity|cbn [length] in *; lia|assumption|]. intros; apply Hz'; right; assumption.
  - rewrite sub_var by (assumption || discriminate). rewrite IH by (assumption || lia).
    transitivity (print_terms ((neg, AVar c i) :: re_sub0 l)); [reflexivity|destruct neg; reflexivity].
Qed.

Lemma re_sub_paren_id s : Forall (fun c => c <> ")") s -> re_sub_paren s = s.
Proof.
  induction s as [|c s IH]; intros H; [reflexivity|]. inversion H as [|? ? Hc Hs]; subst. apply Ascii.eqb_neq in Hc. specialize (IH Hs).
  cbn [re_sub_paren]. destruct s as [|c2 [|c3 r]]; [reflexivity|now rewrite IH|]. rewrite Hc. cbn [andb]. now rewrite IH.
Qed.

Lemma print_terms_plain l (P : ascii -> Prop) : Forall P abc -> P "+" -> P "-" -> P "0" -> P "[" -> P "]" -> (forall m, (m < 10)%nat -> P (digit m)) ->
  Forall term_ok l -> Forall P (print_terms l).
Proof.
  intros H1 H2 H3 H4 H5 H6 H7. induction 1 as [|[neg a] l Ht _ IH]; [constructor|]. unfold print_terms. cbn [flat_map]. apply Forall_app. split; [|exact IH].
  rewrite print_term_eq. constructor; [destruct neg; assumption|]. destruct a as [|c i]; cbn [body]; [repeat constructor; assumption|].
  constructor; [revert c Ht; now apply abc_cases|]. constructor; [assumption|]. apply Forall_app. split; [now apply str_nat_plain|repeat constructor; assumption].
Qed.

Lemma re_sub0_ok (P : term -> Prop) l : Forall P l -> Forall P (re_sub0 l).
Proof.
  remember (length l) as m eqn:Em. assert (Hm : (length l <= m)%nat) by lia. clear Em. revert l Hm.
  induction m as [|m IH]; intros l Hm H; [destruct l; [constructor|cbn in Hm; lia]|].
  destruct H as [|[neg a] l Ht Hl]; [constructor|]. cbn [length] in Hm. destruct neg, a as [|c i]; cbn [re_sub0]; try (constructor; [assumption|apply IH; [lia|assumption]]).
  destruct l as [|[neg2 a2] l].
  - constructor; [assumption|]. apply IH; [cbn; lia|constructor].
  - inversion Hl; subst. cbn [length] in Hm. destruct neg2; (constructor; [assumption|]); apply IH; cbn [length]; try lia; auto.
Qed.

Lemma re_sub0_ne l : l <> [] -> re_sub0 l <> [].
Proof. destruct l as [|[neg a] l]; [congruence|]. intros _. cbn [re_sub0]. destruct neg, a; try discriminate. destruct l as [|[[|] ?] ?]; discriminate. Qed.

Definition raw_terms (n : nat) (sym : bool) (cts : list (list (list nat))) (state : nat) : list term :=
  flat_map (fun ci => let '(c, subix) := ci in if sym then get_terms11 subix c (binstate n state) else get_terms01 subix c (binstate n state)) (combine abc cts).

Lemma raw_terms_ok n sym cts state : Forall (fun t => term_ok t /\ (snd t = AZero -> fst t = false)) (raw_terms n sym cts state).
Proof.
  apply Forall_forall. intros t Ht. unfold raw_terms in Ht. apply in_flat_map in Ht. destruct Ht as ([c subix] & Hc & Ht). apply in_combine_l in Hc.
  destruct sym, subix as [|k0 rest]; cbn in Ht; try contradiction.
  - apply in_map_iff in Ht. destruct Ht as (j & <- & _). split; [exact Hc|discriminate].
  - set (u := flat_map _ _) in Ht. assert (G : forall t, In t u -> exists j, t = (false, AVar c j)).
    { intros t0 H0. unfold u in H0. apply in_flat_map in H0. destruct H0 as (j & _ & H0). destruct (_ && _)%bool; [|contradiction]. destruct H0 as [<-|[]]. eauto. }
    clearbody u. destruct u as [|t0 u].
    + destruct Ht as [<-|[]]. split; [exact I|reflexivity].
    + destruct (G t Ht) as (j & ->). split; [exact Hc|discriminate].
Qed.

Lemma expterm_text_eq n sym cts state : expterm_text n sym cts state = print_terms (expterm n sym cts state) ++ [","; " "].
Proof.
  unfold expterm_text, expterm. cbv zeta. fold (raw_terms n sym cts state). assert (H := raw_terms_ok n sym cts state).
  assert (Ht : Forall term_ok (raw_terms n sym cts state)) by (eapply Forall_impl; [|exact H]; intros t Q; apply Q).
  rewrite re_sub_text; [|exact Ht|].
  - rewrite re_sub_paren_id; [reflexivity|]. apply print_terms_plain; try discriminate.
    + unfold abc. cbn [list_ascii_of_string]. repeat constructor; discriminate.
    + intros m Hm. apply (digit_facts m Hm).
    + now apply re_sub0_ok.
  - intros neg Hin. rewrite Forall_forall in H. now apply (H _ Hin).
Qed.

Lemma expterm_ok n sym cts state : Forall term_ok (expterm n sym cts state).
Proof.
  unfold expterm. cbv zeta. fold (raw_terms n sym cts state). apply re_sub0_ok. eapply Forall_impl; [|apply raw_terms_ok]. intros t Q; apply Q.
Qed.
