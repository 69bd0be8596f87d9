(** Lemmas about the reader of equation files: complete files and files that are cut off. *)
From Coq Require Import Ascii String.
From Verif Require Import Prelude Spec PreludeFacts M_Index M_Enum M_EqnText M_PottsText P_Enum P_EqnText P_EqnText3.
Import ListNotations.
Local Open Scope char_scope.
Local Open Scope list_scope.

Lemma text_eqb_refl a : text_eqb a a = true.
Proof. induction a as [|c a IH]; [reflexivity|]. cbn [text_eqb]. now rewrite Ascii.eqb_refl, IH. Qed.
Lemma text_eqb_eq a : forall b, text_eqb a b = true -> a = b.
Proof.
  induction a as [|c a IH]; intros [|d b] H; try discriminate; [reflexivity|]. cbn [text_eqb] in H. apply andb_true_iff in H. destruct H as [H1 H2].
  apply Ascii.eqb_eq in H1. subst. f_equal. now apply IH.
Qed.

(** ** The lexer on a prefix *)
Fixpoint outs (st : lstate) (d : nat) (s : text) : list tok * (lstate * nat) :=
  match s with
  | [] => ([], (st, d))
  | c :: r => let '(o, (st', d')) := lex_step st d c in let '(o2, e) := outs st' d' r in (o ++ o2, e)
  end.

Lemma outs_app a : forall st d b, outs st d (a ++ b) =
  (fst (outs st d a) ++ fst (outs (fst (snd (outs st d a))) (snd (snd (outs st d a))) b), snd (outs (fst (snd (outs st d a))) (snd (snd (outs st d a))) b)).
Proof.
  induction a as [|c a IH]; intros st d b; [cbn [app outs fst snd]; now destruct (outs st d b)|]. cbn [app outs]. destruct (lex_step st d c) as [o [st' d']].
  rewrite IH. destruct (outs st' d' a) as [o2 [st2 d2]]. cbn [fst snd]. now rewrite app_assoc.
Qed.
Lemma lex_split a : forall st d s, lex st d (a ++ s) = fst (outs st d a) ++ lex (fst (snd (outs st d a))) (snd (snd (outs st d a))) s.
Proof.
  induction a as [|c a IH]; intros st d s; [reflexivity|]. cbn [app lex outs]. destruct (lex_step st d c) as [o [st' d']]. rewrite IH.
  destruct (outs st' d' a) as [o2 [st2 d2]]. cbn [fst snd]. now rewrite app_assoc.
Qed.

Lemma lexes_end t ls : lexes t ls -> outs (LBol 0) 0 t = (ltoks ls, (LBol 0, 0%nat)).
Proof.
  intros H. unfold lexes in H. assert (G : forall s, fst (outs (LBol 0) 0 t) ++ lex (fst (snd (outs (LBol 0) 0 t))) (snd (snd (outs (LBol 0) 0 t))) s = ltoks ls ++ lex (LBol 0) 0 s)
    by (intros s; rewrite <- lex_split; apply H). clear H.
  destruct (outs (LBol 0) 0 t) as [o [st d]]. cbn [fst snd] in G.
  assert (G0 := G []). change (lex (LBol 0) 0 []) with (@nil tok) in G0. rewrite app_nil_r in G0.
  assert (G1 : forall s, lex st d s = lex st d [] ++ lex (LBol 0) 0 s).
  { intros s. specialize (G s). rewrite <- G0, <- app_assoc in G. now apply app_inv_head in G. }
  clear G. assert (Ga := G1 ["a"]). assert (Gb := G1 ["a"; nl; "b"]). clear G1.
  destruct st as [k| |w|v|b|q|q]; try (cbn in Ga; discriminate); try (cbn in Ga; injection Ga; discriminate).
  - cbn in Ga. injection Ga as ->. cbn in Gb. destruct d as [|d]; [|cbn in Gb; discriminate]. cbn in G0. rewrite app_nil_r in G0. subst. reflexivity.
Qed.

(** Pieces of a line of tokens: some of the tokens and perhaps a beginning of the next one. *)
Definition cut_toks (l q : list tok) : Prop :=
  exists j, q = firstn j l \/ (exists w v r, skipn j l = TName (w ++ v) :: r /\ q = firstn j l ++ [TName w]) \/
            (exists x y r, skipn j l = TNum y :: r /\ q = firstn j l ++ [TNum x]).

Lemma outs_name v : forall s d o, outs (LName s) d v = (o, (LBol 0, 0%nat)) -> exists w o', o = TName (rev s ++ w) :: o'.
Proof.
  induction v as [|c v IH]; intros s d o H; [discriminate|]. cbn [outs lex_step] in H. destruct (is_letter c || is_digit c)%bool.
  - cbn [app] in H. destruct (outs (LName (c :: s)) d v) as [o2 e] eqn:E. injection H as <- ->. destruct (IH _ _ _ E) as (w & o' & ->). exists (c :: w), o'. cbn [rev app]. now rewrite <- app_assoc.
  - unfold emit in H. destruct (lex_start d c) as [o1 [st' d']]. cbn [fst snd] in H. destruct (outs st' d' v) as [o2 e]. injection H as <- _. exists [], (o1 ++ o2). now rewrite app_nil_r.
Qed.
Lemma outs_num v : forall s d o, outs (LNum s) d v = (o, (LBol 0, 0%nat)) -> exists y o', o = TNum y :: o'.
Proof.
  induction v as [|c v IH]; intros s d o H; [discriminate|]. cbn [outs lex_step] in H. destruct (is_digit c).
  - cbn [app] in H. destruct (outs (LNum (10 * s + digit_val c)) d v) as [o2 e] eqn:E. injection H as <- ->. destruct (IH _ _ _ E) as (y & o' & ->). now exists y, o'.
  - unfold emit in H. destruct (lex_start d c) as [o1 [st' d']]. cbn [fst snd] in H. destruct (outs st' d' v) as [o2 e]. injection H as <- _. now exists s, (o1 ++ o2).
Qed.

(** A list of tokens that begins like the tokens of some lines. *)
Lemma ltoks_split ls : forall o o', ltoks ls = o ++ o' -> exists m, (m <= length ls)%nat /\
  (o = ltoks (firstn m ls) \/ exists k l j, nth_error ls m = Some (k, l) /\ o = ltoks (firstn m ls) ++ TLine k :: firstn j l /\ o' = skipn j l ++ ltoks (skipn (S m) ls)).
Proof.
  induction ls as [|[k l] ls IH]; intros o o' H.
  - cbn in H. symmetry in H. apply app_eq_nil in H. destruct H as [-> ->]. exists 0%nat. split; [reflexivity|left; reflexivity].
  - unfold ltoks in H. cbn [flat_map fst snd app] in H. fold (ltoks ls) in H. destruct o as [|t o]; [exists 0%nat; split; [lia|left; reflexivity]|].
    cbn [app] in H. injection H as <- H. destruct (Nat.le_gt_cases (length l) (length o)) as [Hle|Hgt].
    + assert (E : o = l ++ skipn (length l) o).
      { apply (f_equal (firstn (length l))) in H. rewrite firstn_app, Nat.sub_diag, firstn_all, app_nil_r in H. rewrite firstn_app in H.
        replace (length l - length o)%nat with 0%nat in H by lia. cbn [firstn] in H. rewrite app_nil_r in H. rewrite H at 1. symmetry. apply firstn_skipn. }
      rewrite E in H. rewrite <- app_assoc in H. apply app_inv_head in H. destruct (IH _ _ H) as (m & Hm & [E2|(k2 & l2 & j & N & E2 & E3)]); exists (S m); (split; [cbn [length]; lia|]).
      * left. rewrite E, E2. reflexivity.
      * right. exists k2, l2, j. split; [exact N|]. split; [|exact E3]. rewrite E, E2. unfold ltoks. cbn [firstn flat_map fst snd app]. now rewrite <- app_assoc.
    + exists 0%nat. split; [lia|]. right. exists k, l, (length o). split; [reflexivity|].
      assert (E : o = firstn (length o) l).
      { apply (f_equal (firstn (length o))) in H. rewrite (firstn_app (length o) o), Nat.sub_diag, firstn_all in H. cbn [firstn] in H. rewrite app_nil_r in H.
        rewrite firstn_app in H. replace (length o - length l)%nat with 0%nat in H by lia. cbn [firstn] in H. now rewrite app_nil_r in H. }
      split; [cbn [firstn ltoks flat_map app]; f_equal; exact E|].
      rewrite <- (firstn_skipn (length o) l) in H at 1. rewrite <- E, <- app_assoc in H. apply app_inv_head in H. symmetry. exact H.
Qed.

Definition cut_lines (ls ls' : list (nat * list tok)) : Prop :=
  exists m, (m <= length ls)%nat /\ (ls' = firstn m ls \/ exists k l q, nth_error ls m = Some (k, l) /\ cut_toks l q /\ ls' = firstn m ls ++ [(k, q)]).

Lemma ltoks_app a b : ltoks (a ++ b) = ltoks a ++ ltoks b.
Proof. unfold ltoks. apply flat_map_app. Qed.

Lemma untab_app a b : untab (a ++ b) = untab a ++ untab b.
Proof. apply flat_map_app. Qed.

(** The tokens of a beginning of a file. *)
Lemma py_tokens_cut t ls u v ts : lexes (untab t) ls -> t = u ++ v -> py_tokens u = Ok ts -> exists ls', cut_lines ls ls' /\ ts = ltoks ls'.
Proof.
  intros H Ht Hp. apply lexes_end in H. rewrite Ht, untab_app, outs_app in H. unfold py_tokens in Hp. rewrite lex_split in Hp.
  destruct (outs (LBol 0) 0 (untab u)) as [o [st d]]. cbn [fst snd] in *. destruct (outs st d (untab v)) as [o' e] eqn:Eo. cbn [fst snd] in *.
  injection H as H ->. destruct (ltoks_split ls o o' (eq_sym H)) as (m & Hm & C).
  assert (Plain : ts = o -> exists ls', cut_lines ls ls' /\ ts = ltoks ls').
  { intros ->. destruct C as [->|(k & l & j & N & -> & _)].
    - exists (firstn m ls). split; [exists m; split; [exact Hm|left; reflexivity]|reflexivity].
    - exists (firstn m ls ++ [(k, firstn j l)]). split; [exists m; split; [exact Hm|right; exists k, l, (firstn j l); split; [exact N|split; [exists j; left; reflexivity|reflexivity]]]|].
      rewrite ltoks_app. cbn [ltoks flat_map fst snd]. now rewrite app_nil_r. }
  assert (Ext : forall a, ts = o ++ [a] -> (exists o2 b, o' = b :: o2 /\ ((exists w z, b = TName (w ++ z) /\ a = TName w) \/ (exists x y, b = TNum y /\ a = TNum x))) -> exists ls', cut_lines ls ls' /\ ts = ltoks ls').
  { intros a Ea (o2 & b & Eb & K). destruct C as [->|(k & l & j & N & -> & E3)].
    - exfalso. assert (E : o' = ltoks (skipn m ls)). { rewrite <- (firstn_skipn m ls) in H at 2. rewrite ltoks_app in H. now apply app_inv_head in H. }
      rewrite E in Eb. destruct (skipn m ls) as [|[k2 l2] r]; cbn in Eb; [discriminate|]. injection Eb as <- _. destruct K as [(w & z & Q & _)|(x & y & Q & _)]; discriminate.
    - destruct (skipn j l) as [|b2 r] eqn:Es.
      + exfalso. cbn [app] in E3. rewrite E3 in Eb. destruct (skipn (S m) ls) as [|[k2 l2] r2]; cbn in Eb; [discriminate|]. injection Eb as <- _. destruct K as [(w & z & Q & _)|(x & y & Q & _)]; discriminate.
      + assert (b2 = b) by (rewrite E3 in Eb; cbn in Eb; congruence). subst b2.
        exists (firstn m ls ++ [(k, firstn j l ++ [a])]). split.
        * exists m. split; [exact Hm|]. right. exists k, l, (firstn j l ++ [a]). split; [exact N|]. split; [|reflexivity]. exists j. right.
          destruct K as [(w & z & -> & ->)|(x & y & -> & ->)]; [left; exists w, z, r|right; exists x, y, r]; split; auto.
        * rewrite ltoks_app. cbn [ltoks flat_map fst snd]. rewrite app_nil_r, Ea, <- app_assoc. reflexivity. }
  assert (R : forall p a, match rev (o ++ p ++ [TLine 0; TOp "$"; TLine 0; TOp "$"]) with TOp "$" :: TLine 0 :: TOp "$" :: TLine 0 :: r => Ok (rev r) | _ => Err GenericException end = Ok a -> a = o ++ p).
  { intros p a. rewrite app_assoc, rev_app_distr. cbn [rev app]. intros Q. injection Q as <-. apply rev_involutive. }
  assert (B2 : forall p, match rev (o ++ p ++ [TOp "$"; TOp "$"]) with TOp "$" :: TLine 0 :: TOp "$" :: TLine 0 :: r => Ok (rev r) | _ => Err GenericException end = Ok ts -> False).
  { intros p. rewrite app_assoc, rev_app_distr. cbn [rev app]. discriminate. }
  destruct st as [k| |w|n|b|q|q].
  - destruct d as [|d].
    + apply (R []) in Hp. rewrite app_nil_r in Hp. now apply Plain.
    + exfalso. apply (B2 [TLine 0]). exact Hp.
  - destruct d as [|d].
    + apply (R []) in Hp. rewrite app_nil_r in Hp. now apply Plain.
    + exfalso. apply (B2 []). exact Hp.
  - destruct d as [|d].
    + apply (R [TName (rev w)]) in Hp. apply (Ext (TName (rev w))); [exact Hp|]. destruct (outs_name _ _ _ _ Eo) as (z & o2 & ->).
      exists o2, (TName (rev w ++ z)). split; [reflexivity|]. left. now exists (rev w), z.
    + exfalso. apply (B2 [TName (rev w)]). exact Hp.
  - destruct d as [|d].
    + apply (R [TNum n]) in Hp. apply (Ext (TNum n)); [exact Hp|]. destruct (outs_num _ _ _ _ Eo) as (z & o2 & ->).
      exists o2, (TNum z). split; [reflexivity|]. right. now exists n, z.
    + exfalso. apply (B2 [TNum n]). exact Hp.
  - destruct d as [|d].
    + apply (R []) in Hp. rewrite app_nil_r in Hp. now apply Plain.
    + exfalso. apply (B2 []). exact Hp.
  - exfalso. change (lex (LQuote q) d [nl; "$"; nl; "$"]) with (TBad :: lex LMid d ["$"; nl; "$"]) in Hp. destruct d as [|d].
    + change (lex LMid 0 ["$"; nl; "$"]) with [TOp "$"; TLine 0; TOp "$"] in Hp. rewrite rev_app_distr in Hp. cbn [rev app] in Hp. discriminate.
    + apply (B2 [TBad]). exact Hp.
  - exfalso. change (lex (LStr q) d [nl; "$"; nl; "$"]) with [TBad] in Hp. rewrite rev_app_distr in Hp. cbn [rev app] in Hp. discriminate.
Qed.

(** A complete file. *)
Lemma py_tokens_lexes t ls : lexes (untab t) ls -> py_tokens t = Ok (ltoks ls).
Proof.
  intros H. unfold py_tokens. rewrite (H [nl; "$"; nl; "$"]). change (lex (LBol 0) 0 [nl; "$"; nl; "$"]) with [TLine 0; TOp "$"; TLine 0; TOp "$"].
  rewrite rev_app_distr. cbn [rev app]. now rewrite rev_involutive.
Qed.

(** ** Functions of a module *)
Lemma blocks_inv ls : forall h bs, blocks ls = (h, bs) -> ls = h ++ flat_map (fun lb => (0%nat, fst lb) :: snd lb) bs /\
  Forall (fun kl => fst kl <> 0%nat) h /\ Forall (fun lb => Forall (fun kl : nat * list tok => fst kl <> 0%nat) (snd lb)) bs.
Proof.
  induction ls as [|[k l] ls IH]; intros h bs H; cbn [blocks] in H; [injection H as <- <-; repeat split; constructor|].
  destruct (blocks ls) as [h2 bs2]. destruct (IH h2 bs2 eq_refl) as (E & F1 & F2). destruct (Nat.eqb_spec k 0) as [->|Hk]; injection H as <- <-.
  - cbn [flat_map fst snd app]. split; [now rewrite E|]. split; [constructor|]. now constructor.
  - cbn [app]. split; [now rewrite E|]. split; [now constructor|exact F2].
Qed.

Lemma run_module_inv imps other bs : forall i fs j fs', run_module imps other bs i fs = Ok (j, fs') -> forall f b, In (f, b) fs' ->
  In (f, b) fs \/ exists l, In (l, b) bs /\ def_name l = Some f /\ body_ok b = true.
Proof.
  induction bs as [|[l body] bs IH]; intros i fs j fs' H f b Hin; cbn [run_module] in H; [injection H as _ <-; now left|].
  destruct (def_name l) as [g|] eqn:Ed.
  - destruct (body_ok body) eqn:Eb; [|discriminate]. destruct (IH _ _ _ _ H f b Hin) as [[E|E]|(l2 & E1 & E2)]; [|now left|right; exists l2; split; [now right|exact E2]].
    injection E as <- <-. right. exists l. split; [now left|]. now split.
  - destruct body as [|]; [|discriminate].
    destruct (is_import imps l).
    + destruct (IH _ _ _ _ H f b Hin) as [E|(l2 & E1 & E2)]; [now left|right; exists l2; split; [now right|exact E2]].
    + destruct (other l); [discriminate|]. destruct (IH _ _ _ _ H f b Hin) as [E|(l2 & E1 & E2)]; [now left|right; exists l2; split; [now right|exact E2]].
Qed.

Definition top_or_nil (post : list (nat * list tok)) : Prop := match post with [] => True | kl :: _ => fst kl = 0%nat end.

Lemma import_fun_inv imps other t name b ts : py_tokens t = Ok ts -> import_fun imps other t name = Ok b ->
  exists pre l post, snd (tok_lines ts) = pre ++ (0%nat, l) :: b ++ post /\ def_name l = Some (lit name) /\ b <> [] /\
    Forall (fun kl => fst kl <> 0%nat) b /\ top_or_nil post.
Proof.
  intros Et H. unfold import_fun in H. rewrite Et in H. cbn [bind] in H. destruct (blocks (snd (tok_lines ts))) as [[|] bs] eqn:Eb; [|discriminate].
  destruct (blocks_inv _ _ _ Eb) as (E & _ & F). destruct (run_module imps other bs 0 []) as [[j fs]|] eqn:Em; [|discriminate]. cbn [bind fst snd] in H.
  unfold find_fun in H. destruct (find (fun f => text_eqb (fst f) (lit name)) fs) as [[f b0]|] eqn:Ef; [|discriminate]. cbn [option_map snd] in H.
  destruct (Nat.ltb j (length imps)); [discriminate|]. injection H as ->. apply find_some in Ef. destruct Ef as [Hin He]. cbn [fst] in He. apply text_eqb_eq in He. subst f.
  destruct (run_module_inv _ _ _ _ _ _ _ Em _ _ Hin) as [[]|(l & Hl & Hd & Hb)]. apply in_split in Hl. destruct Hl as (b1 & b2 & ->).
  rewrite Forall_forall in F. specialize (F (l, b) ltac:(apply in_or_app; right; left; reflexivity)). cbn [snd] in F.
  exists (flat_map (fun lb => (0%nat, fst lb) :: snd lb) b1), l, (flat_map (fun lb => (0%nat, fst lb) :: snd lb) b2).
  split; [rewrite E; cbn [app]; rewrite flat_map_app; reflexivity|]. split; [exact Hd|]. split; [destruct b; [discriminate|discriminate]|].
  split; [exact F|]. destruct b2; [exact I|reflexivity].
Qed.

Lemma split_unique (a b c d : list (nat * list tok)) : Forall (fun kl => fst kl <> 0%nat) a -> Forall (fun kl => fst kl <> 0%nat) c -> top_or_nil b -> top_or_nil d -> a ++ b = c ++ d -> a = c.
Proof.
  revert c. induction a as [|x a IH]; intros [|y c] Ha Hc Hb Hd H; cbn [app] in H; [reflexivity| | |].
  - rewrite H in Hb. inversion Hc; subst. cbn in Hb. contradiction.
  - rewrite <- H in Hd. inversion Ha; subst. cbn in Hd. contradiction.
  - injection H as <- H. inversion Ha; inversion Hc; subst. f_equal. now apply IH.
Qed.

(** The function [name] of a file that is cut off: the whole body, or a part of it. *)
Lemma cut_fun ls ls' pre0 D B post0 name pre l b post :
  ls = pre0 ++ (0%nat, D) :: B ++ post0 -> Forall (fun kl => fst kl <> 0%nat) B -> top_or_nil post0 ->
  Forall (fun kl => def_name (snd kl) <> Some name) (pre0 ++ B ++ post0) ->
  cut_lines ls ls' -> ls' = pre ++ (0%nat, l) :: b ++ post -> def_name l = Some name -> b <> [] -> Forall (fun kl => fst kl <> 0%nat) b -> top_or_nil post ->
  b = B \/ exists j, b = firstn j B \/ exists k x q, nth_error B j = Some (k, x) /\ cut_toks x q /\ b = firstn j B ++ [(k, q)].
Proof.
  intros Els HB Hpost0 Huniq (m & Hm & C) Els' Hd Hb Hnz Hpost.
  assert (P : exists P, ls' = firstn m ls ++ P /\ (P = [] \/ exists k x q, nth_error ls m = Some (k, x) /\ cut_toks x q /\ P = [(k, q)])).
  { destruct C as [->|(k & x & q & N & K & ->)]; [exists []; split; [now rewrite app_nil_r|now left]|exists [(k, q)]; split; [reflexivity|right; exists k, x, q; auto]]. }
  destruct P as (P & EP & CP). assert (LP : (length P <= 1)%nat) by (destruct CP as [->|(k & x & q & _ & _ & ->)]; cbn; lia).
  rewrite Els' in EP.
  destruct (Nat.lt_ge_cases (length pre) m) as [Hlt|Hge].
  - (* the definition is a line of the complete file *)
    assert (N : nth_error ls (length pre) = Some (0%nat, l)).
    { assert (Q := f_equal (fun X => nth_error X (length pre)) EP). cbv beta in Q. rewrite nth_error_app2, Nat.sub_diag in Q by lia. cbn [nth_error] in Q.
      rewrite nth_error_app1 in Q by (rewrite firstn_length; lia). rewrite Q. clear - Hlt. revert m Hlt. generalize (length pre). induction ls as [|a r IH]; intros i m Hi; [rewrite firstn_nil; reflexivity|].
      destruct m as [|m]; [lia|]. destruct i as [|i]; [reflexivity|]. cbn [nth_error firstn]. symmetry. rewrite <- (IH i m) by lia. reflexivity. }
    assert (Hp : length pre = length pre0).
    { destruct (Nat.lt_trichotomy (length pre) (length pre0)) as [Hl|[He|Hg]]; [|exact He|].
      - exfalso. rewrite Els, nth_error_app1 in N by exact Hl. apply nth_error_In in N. rewrite Forall_forall in Huniq. apply (Huniq (0%nat, l)); [apply in_or_app; now left|exact Hd].
      - exfalso. rewrite Els, nth_error_app2 in N by lia. destruct (length pre - length pre0)%nat as [|i] eqn:Ei; [lia|]. cbn [nth_error] in N. apply nth_error_In in N.
        rewrite Forall_forall in Huniq. apply (Huniq (0%nat, l)); [apply in_or_app; now right|exact Hd]. }
    assert (E : b ++ post = firstn (m - S (length pre0)) (B ++ post0) ++ P).
    { assert (Q := f_equal (skipn (S (length pre0))) EP). replace (pre ++ (0%nat, l) :: b ++ post) with ((pre ++ [(0%nat, l)]) ++ b ++ post) in Q by (rewrite <- app_assoc; reflexivity).
      assert (L1 : length (pre ++ [(0%nat, l)]) = S (length pre0)) by (rewrite app_length; cbn; lia).
      rewrite <- L1 in Q at 1. rewrite skipn_app, skipn_all, Nat.sub_diag, skipn_O, app_nil_l in Q. rewrite Q. rewrite Els.
      replace (pre0 ++ (0%nat, D) :: B ++ post0) with ((pre0 ++ [(0%nat, D)]) ++ B ++ post0) by (rewrite <- app_assoc; reflexivity).
      assert (L2 : length (pre0 ++ [(0%nat, D)]) = S (length pre0)) by (rewrite app_length; cbn; lia).
      rewrite firstn_app, L2, firstn_all2 by (rewrite L2; lia). rewrite <- app_assoc, <- L2, skipn_app, skipn_all, Nat.sub_diag. reflexivity. }
    assert (NP : forall k x q, nth_error ls m = Some (k, x) -> P = [(k, q)] -> nth_error (B ++ post0) (m - S (length pre0)) = Some (k, x)).
    { intros k x q Nm _. rewrite Els, nth_error_app2 in Nm by lia. destruct (m - length pre0)%nat as [|i] eqn:Ei; [lia|]. cbn [nth_error] in Nm.
      replace (m - S (length pre0))%nat with i by lia. exact Nm. }
    destruct (Nat.le_gt_cases (length B) (m - S (length pre0))) as [HB2|HB2].
    + left. rewrite firstn_app, firstn_all2 in E by lia. rewrite <- app_assoc in E. eapply split_unique; [exact Hnz|exact HB|exact Hpost| |exact E].
      destruct post0 as [|[z y] post0].
      * rewrite firstn_nil. cbn [app]. destruct CP as [->|(k & x & q & Nm & _ & ->)]; [exact I|]. specialize (NP k x q Nm eq_refl). rewrite app_nil_r in NP.
        assert (nth_error B (m - S (length pre0)) <> None) by congruence. apply nth_error_Some in H. lia.
      * destruct (m - S (length pre0) - length B)%nat as [|i] eqn:Ei; [|exact Hpost0]. cbn [firstn app].
        destruct CP as [->|(k & x & q & Nm & _ & ->)]; [exact I|]. specialize (NP k x q Nm eq_refl). rewrite nth_error_app2, Ei in NP by lia. cbn [nth_error] in NP. injection NP as <- <-. exact Hpost0.
    + right. rewrite firstn_app in E. replace (m - S (length pre0) - length B)%nat with 0%nat in E by lia. cbn [firstn] in E. rewrite app_nil_r in E.
      exists (m - S (length pre0))%nat. destruct CP as [->|(k & x & q & Nm & K & ->)].
      * left. apply (split_unique _ post _ []); [exact Hnz| |exact Hpost|exact I|exact E].
        apply Forall_forall. intros y Hy. rewrite Forall_forall in HB. apply HB. rewrite <- (firstn_skipn (m - S (length pre0)) B). apply in_or_app. now left.
      * right. specialize (NP k x q Nm eq_refl). rewrite nth_error_app1 in NP by lia. exists k, x, q. split; [exact NP|]. split; [exact K|].
        apply (split_unique _ post _ []); [exact Hnz| |exact Hpost|exact I|rewrite app_nil_r; exact E].
        apply Forall_app. split; [|constructor; [|constructor]].
        -- apply Forall_forall. intros y Hy. rewrite Forall_forall in HB. apply HB. rewrite <- (firstn_skipn (m - S (length pre0)) B). apply in_or_app. now left.
        -- rewrite Forall_forall in HB. apply (HB (k, x)). eapply nth_error_In. exact NP.
  - (* it would be the piece at the end, without a body *)
    exfalso. assert (L := f_equal (@length _) EP). rewrite !app_length in L. cbn [length] in L. rewrite app_length, firstn_length in L.
    apply Hb. destruct b; [reflexivity|]. cbn [length] in L. lia.
Qed.
