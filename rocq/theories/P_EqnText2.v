(** Lemmas about the text of equation files, continued: line breaks and coefficient arrays. *)
From Coq Require Import Ascii String.
From Verif Require Import Prelude Spec PreludeFacts M_Index M_Enum M_EqnText P_Enum P_EqnText.
Import ListNotations.
Local Open Scope list_scope.
Local Open Scope char_scope.

(** ** White space inserted after plus signs inside brackets *)
Definition ws (s : text) : Prop := Forall (fun c => c = " " \/ c = nl) s.

Inductive ins : text -> text -> Prop :=
| ins_nil : ins [] []
| ins_c c a b : ins a b -> ins (c :: a) (c :: b)
| ins_p w a b : ws w -> ins a b -> ins ("+" :: a) ("+" :: w ++ b).

Definition depth_step (d : nat) (c : ascii) : nat :=
  if (Ascii.eqb c "(" || Ascii.eqb c "[")%bool then S d else if (Ascii.eqb c ")" || Ascii.eqb c "]")%bool then (d - 1)%nat else d.
Fixpoint safe (d : nat) (s : text) : Prop :=
  match s with [] => True | c :: r => (1 <= d)%nat /\ c <> "#" /\ c <> """" /\ safe (depth_step d c) r end.
Definition mid (st : lstate) : Prop := match st with LMid | LName _ | LNum _ => True | _ => False end.

Lemma letter_depth d c : is_letter c = true -> depth_step d c = d.
Proof.
  intros H. unfold depth_step. destruct (Ascii.eqb_spec c "("); [subst; discriminate|]. destruct (Ascii.eqb_spec c "["); [subst; discriminate|].
  destruct (Ascii.eqb_spec c ")"); [subst; discriminate|]. destruct (Ascii.eqb_spec c "]"); [subst; discriminate|]. reflexivity.
Qed.
Lemma digit_depth d c : is_digit c = true -> depth_step d c = d.
Proof.
  intros H. unfold depth_step. destruct (Ascii.eqb_spec c "("); [subst; discriminate|]. destruct (Ascii.eqb_spec c "["); [subst; discriminate|].
  destruct (Ascii.eqb_spec c ")"); [subst; discriminate|]. destruct (Ascii.eqb_spec c "]"); [subst; discriminate|]. reflexivity.
Qed.

Lemma start_mid d c : (1 <= d)%nat -> c <> "#" -> c <> """" -> exists out st, lex_start d c = (out, (st, depth_step d c)) /\ mid st.
Proof.
  intros Hd H1 H2. apply Ascii.eqb_neq in H1, H2. unfold lex_start. rewrite H1, H2.
  destruct (Ascii.eqb_spec c nl) as [->|]. { destruct (Nat.eqb_spec d 0); [lia|]. do 2 eexists. split; [reflexivity|exact I]. }
  destruct (Ascii.eqb_spec c " ") as [->|]. { do 2 eexists. split; [reflexivity|exact I]. }
  destruct (is_letter c) eqn:L. { rewrite letter_depth by assumption. do 2 eexists. split; [reflexivity|exact I]. }
  destruct (is_digit c) eqn:D. { rewrite digit_depth by assumption. do 2 eexists. split; [reflexivity|exact I]. }
  unfold depth_step. destruct (Ascii.eqb c "(" || Ascii.eqb c "[")%bool. { do 2 eexists. split; [reflexivity|exact I]. }
  destruct (Ascii.eqb c ")" || Ascii.eqb c "]")%bool; do 2 eexists; (split; [reflexivity|exact I]).
Qed.

Lemma step_mid st d c : mid st -> (1 <= d)%nat -> c <> "#" -> c <> """" -> exists out st', lex_step st d c = (out, (st', depth_step d c)) /\ mid st'.
Proof.
  intros Hst Hd H1 H2. destruct (start_mid d c Hd H1 H2) as (out & st' & E & M).
  destruct st; try contradiction; cbn [lex_step].
  - eauto.
  - destruct (is_letter c || is_digit c)%bool eqn:Q.
    + apply orb_true_iff in Q. assert (D : depth_step d c = d) by (destruct Q; [now apply letter_depth|now apply digit_depth]). rewrite D. do 2 eexists. split; [reflexivity|exact I].
    + unfold emit. rewrite E. cbn [fst snd]. eauto.
  - destruct (is_digit c) eqn:Q.
    + rewrite (digit_depth d c Q). do 2 eexists. split; [reflexivity|exact I].
    + unfold emit. rewrite E. cbn [fst snd]. eauto.
Qed.

Lemma lex_ws w : forall d s, ws w -> (1 <= d)%nat -> lex LMid d (w ++ s) = lex LMid d s.
Proof.
  induction w as [|c w IH]; intros d s H Hd; [reflexivity|]. inversion H as [|? ? Hc Hw]; subst. cbn [app lex lex_step].
  destruct Hc as [->| ->]; unfold lex_start; cbn [Ascii.eqb Bool.eqb nl].
  - now apply IH.
  - destruct (Nat.eqb_spec d 0); [lia|]. now apply IH.
Qed.

Lemma plus_step st d : mid st -> exists out, lex_step st d "+" = (out, (LMid, d)).
Proof. destruct st; intros H; try contradiction; eexists; reflexivity. Qed.

Lemma ins_lex a b : ins a b -> forall st d rest, mid st -> safe d a -> lex st d (b ++ rest) = lex st d (a ++ rest).
Proof.
  induction 1 as [|c a b _ IH|w a b Hw _ IH]; intros st d rest Hst Hs; [reflexivity| |].
  - destruct Hs as (Hd & H1 & H2 & Hs). cbn [app lex]. destruct (step_mid st d c Hst Hd H1 H2) as (out & st' & E & M). rewrite E. f_equal. now apply IH.
  - destruct Hs as (Hd & _ & _ & Hs). change (depth_step d "+") with d in Hs. cbn [app lex]. destruct (plus_step st d Hst) as (out & E). rewrite E, <- app_assoc, lex_ws by assumption. f_equal. now apply IH.
Qed.

Lemma ins_refl a : ins a a.
Proof. induction a; constructor; assumption. Qed.
Lemma ins_app a b c d : ins a b -> ins c d -> ins (a ++ c) (b ++ d).
Proof. induction 1; intros Hc; cbn [app]; [assumption|apply ins_c; auto|]. rewrite <- app_assoc. apply ins_p; auto. Qed.

Lemma extend_spec b : forall a last a' b', a <> [] -> hd " " a = last -> extend_to_plus last a b = (a', b') ->
  rev a ++ b = rev a' ++ b' /\ a' <> [] /\ (b' = [] \/ exists u, a' = "+" :: u) /\ (length b' <= length b)%nat.
Proof.
  induction b as [|c b IH]; intros a last a' b' Ha Hl E; cbn [extend_to_plus] in E.
  - injection E as <- <-. auto.
  - destruct (Ascii.eqb_spec last "+") as [->|].
    + injection E as <- <-. split; [reflexivity|]. split; [assumption|]. split; [|lia]. right. destruct a as [|x a]; [congruence|]. cbn in Hl. subst x. eauto.
    + apply IH in E; [|discriminate|reflexivity]. destruct E as (E & H1 & H2 & H3). cbn [length rev] in *. rewrite <- E, <- app_assoc. cbn [app]. repeat split; auto.
Qed.

Lemma drop_end_app k a b : (k <= length b)%nat -> drop_end k (a ++ b) = a ++ drop_end k b.
Proof.
  intros H. unfold drop_end. rewrite app_length. replace (length a + length b - k)%nat with (length a + (length b - k))%nat by lia. apply firstn_app_2.
Qed.

Definition energy_end : text := line "])" ++ line "    logZ = fast_logsumexp(energyTerms)[0]".

Lemma energy_lines_spec f : forall Z, (length Z < f)%nat -> Z <> [] ->
  exists w Z', energy_lines f Z = Ok (w ++ Z' ++ energy_end) /\ ws w /\ ins (drop_end 1 Z) Z'.
Proof.
  assert (Sp : forall m, ws (repeat " " m)). { intros m. apply Forall_forall. intros c Hc. apply repeat_spec in Hc. auto. }
  induction f as [|f IH]; intros Z Hf HZ; [lia|]. cbn [energy_lines]. destruct Z as [|z0 Z0] eqn:EZ; [congruence|]. rewrite <- EZ in *. clear EZ.
  destruct (extend_to_plus (hd " " (rev (firstn 100 Z))) (rev (firstn 100 Z)) (skipn 100 Z)) as [a b] eqn:E.
  assert (Hne : firstn 100 Z <> []) by (destruct Z; [congruence|discriminate]).
  apply extend_spec in E; [|intros Q; apply Hne; apply (f_equal (@rev _)) in Q; now rewrite rev_involutive in Q|reflexivity].
  rewrite rev_involutive, firstn_skipn in E. destruct E as (E & H1 & H2 & H3).
  destruct b as [|c b].
  - exists (lit "            "), (drop_end 1 Z). split; [reflexivity|]. split; [apply (Sp 12%nat)|apply ins_refl].
  - destruct H2 as [H2|(u & ->)]; [congruence|].
    assert (Lz : (length Z > length (c :: b))%nat). { rewrite E, app_length, rev_length. cbn. lia. }
    destruct (IH (c :: b)) as (w & Z' & E2 & Hw & Hi); [lia|discriminate|]. rewrite E2. cbn [bind].
    exists (lit "    "), (rev ("+" :: u) ++ (nl :: w) ++ Z'). split.
    { f_equal. rewrite <- !app_assoc. reflexivity. }
    split; [apply (Sp 4%nat)|]. rewrite E, drop_end_app by (cbn; lia). cbn [rev]. rewrite <- !app_assoc. apply ins_app; [apply ins_refl|]. cbn [app].
    change ("+" :: nl :: w ++ Z') with ("+" :: (nl :: w) ++ Z'). apply ins_p; [constructor; [auto|assumption]|assumption].
Qed.

Lemma safe_plain u : forall d s, (1 <= d)%nat -> Forall (fun c => c <> "#" /\ c <> """" /\ depth_step d c = d) u -> safe d s -> safe d (u ++ s).
Proof.
  induction u as [|c u IH]; intros d s Hd H Hs; [assumption|]. inversion H as [|? ? (H1 & H2 & H3) Hu]; subst. cbn [app safe]. rewrite H3. repeat split; auto.
Qed.

Lemma safe_term t d s : (1 <= d)%nat -> term_ok t -> safe d s -> safe d (print_term t ++ s).
Proof.
  intros Hd Ht Hs. destruct t as [neg a]. rewrite print_term_eq. cbn [app safe]. split; [assumption|]. split; [destruct neg; discriminate|]. split; [destruct neg; discriminate|].
  replace (depth_step d (sign neg)) with d by (destruct neg; reflexivity). destruct a as [|c i]; cbn [body app].
  - cbn [safe]. repeat split; try discriminate; assumption.
  - cbn [safe]. unfold term_ok in Ht. cbn [snd] in Ht.
    assert (Hc : c <> "#" /\ c <> """" /\ depth_step d c = d). { revert c Ht. apply abc_cases. unfold abc. cbn [list_ascii_of_string]. repeat constructor; discriminate. }
    destruct Hc as (C1 & C2 & C3). rewrite C3. change (depth_step d "[") with (S d).
    split; [assumption|]. split; [assumption|]. split; [assumption|]. split; [assumption|]. split; [discriminate|]. split; [discriminate|].
    rewrite <- app_assoc. apply safe_plain; [lia| |].
    + apply str_nat_plain. intros m Hm. destruct (digit_facts m Hm) as (D & Q). split; [apply Q|]. split; [apply Q|]. now apply digit_depth.
    + cbn [app safe]. change (depth_step (S d) "]") with (S d - 1)%nat. cbn [Nat.sub]. rewrite Nat.sub_0_r. repeat split; (discriminate || lia || assumption).
Qed.

Lemma safe_terms l : forall d s, (1 <= d)%nat -> Forall term_ok l -> safe d s -> safe d (print_terms l ++ s).
Proof.
  induction l as [|t l IH]; intros d s Hd H Hs; [assumption|]. inversion H; subst. unfold print_terms. cbn [flat_map]. fold (print_terms l).
  rewrite <- app_assoc. apply safe_term; auto.
Qed.

(** The text of all energy terms. *)
Definition ztext (ls : list (list term)) : text := concat (map (fun l => print_terms l ++ [","; " "]) ls).

Lemma ztext_end ls : ls <> [] -> drop_end 1 (ztext ls) ++ [" "] = ztext ls.
Proof.
  intros H. destruct (exists_last H) as (u & l & ->). unfold ztext. rewrite map_app, concat_app. cbn [map concat]. rewrite app_nil_r.
  rewrite app_assoc, drop_end_app by (cbn; lia). rewrite <- !app_assoc. reflexivity.
Qed.

Lemma safe_ztext ls : forall d s, (1 <= d)%nat -> Forall (Forall term_ok) ls -> safe d s -> safe d (ztext ls ++ s).
Proof.
  induction ls as [|l ls IH]; intros d s Hd H Hs; [assumption|]. inversion H; subst. unfold ztext. cbn [map concat]. fold (ztext ls).
  rewrite <- !app_assoc. apply safe_terms; [assumption|assumption|]. cbn [app safe]. repeat split; try discriminate; try assumption. now apply IH.
Qed.

Lemma safe_prefix a : forall d b, safe d (a ++ b) -> safe d a.
Proof. induction a as [|c a IH]; intros d b H; [exact I|]. cbn [app safe] in *. destruct H as (H1 & H2 & H3 & H4). repeat split; eauto. Qed.

Lemma lex_ztext ls : forall d s, (1 <= d)%nat -> Forall (Forall term_ok) ls -> lex LMid d (ztext ls ++ s) = flat_map (fun l => flat_map tok_term l ++ [TOp ","]) ls ++ lex LMid d s.
Proof.
  induction ls as [|l ls IH]; intros d s Hd H; [reflexivity|]. inversion H; subst. unfold ztext. cbn [map concat flat_map]. fold (ztext ls).
  rewrite <- !app_assoc, lex_terms; [|assumption|split; reflexivity]. cbn [app].
  assert (E : forall X, lex LMid d ("," :: " " :: X) = TOp "," :: lex LMid d X) by reflexivity. rewrite E, IH by assumption. reflexivity.
Qed.

Lemma write_energy_spec ls : ls <> [] -> Forall (Forall term_ok) ls -> exists t, write_energy_terms (ztext ls) = Ok t /\
  forall rest, lex (LBol 0) 0 (t ++ rest) = TLine 4 :: T "energyTerms = array([" ++ flat_map (fun l => flat_map tok_term l ++ [TOp ","]) ls ++ T "])"
     ++ TLine 4 :: T "logZ = fast_logsumexp(energyTerms)[0]" ++ lex (LBol 0) 0 rest.
Proof.
  intros Hne Hok. unfold write_energy_terms. assert (Z0 : ztext ls <> []). { destruct ls as [|l ls]; [congruence|]. unfold ztext. cbn [map concat]. destruct (print_terms l); discriminate. }
  destruct (energy_lines_spec (S (length (ztext ls))) (ztext ls) ltac:(lia) Z0) as (w & Z' & E & Hw & Hi). rewrite E. cbn [bind]. eexists. split; [reflexivity|].
  intros rest. rewrite <- !app_assoc.
  assert (E1 : forall X, lex (LBol 0) 0 (lit "    energyTerms = array([" ++ X) = TLine 4 :: T "energyTerms = array([" ++ lex LMid 2 X) by reflexivity.
  rewrite E1. f_equal. f_equal. rewrite lex_ws by (assumption || lia).
  assert (Hs : safe 2 (ztext ls)) by (rewrite <- (app_nil_r (ztext ls)); apply safe_ztext; [lia|assumption|exact I]).
  rewrite (ins_lex _ _ Hi LMid 2%nat) by (try exact I; apply safe_prefix with [" "]; now rewrite ztext_end).
  assert (E2 : forall X, lex LMid 2 (drop_end 1 (ztext ls) ++ energy_end ++ X) = flat_map (fun l => flat_map tok_term l ++ [TOp ","]) ls ++ lex LMid 2 (energy_end ++ X)).
  { intros X. destruct (exists_last Hne) as (u & l & ->). apply Forall_app in Hok. destruct Hok as [Hu Hl]. inversion Hl; subst.
    assert (ED : drop_end 1 (ztext (u ++ [l])) = ztext u ++ print_terms l ++ [","]).
    { unfold ztext. rewrite map_app, concat_app. cbn [map concat]. rewrite app_nil_r, app_assoc, drop_end_app by (cbn; lia). rewrite <- app_assoc. reflexivity. }
    rewrite ED. rewrite <- !app_assoc, lex_ztext by (assumption || lia). rewrite flat_map_app, <- app_assoc. f_equal.
    rewrite lex_terms; [|assumption|split; reflexivity]. cbn [flat_map]. rewrite app_nil_r, <- app_assoc. f_equal. }
  rewrite E2. f_equal.
Qed.

(** ** Coefficient arrays *)
(** Printed entries: blanks or sign, digit, separator. *)
Definition cell := (text * ascii * text)%type.
Definition cell_text (x : cell) : text := let '(p, c, s) := x in p ++ c :: s.
Definition glue (l : list cell) : text := flat_map cell_text l.

Definition entry_ok (z : Z) (p : text) (c : ascii) : Prop :=
  (z = 0%Z /\ c = "0" /\ p = []) \/ (z = 1%Z /\ c = "1" /\ (p = [] \/ p = [" "])) \/ (z = (-1)%Z /\ c = "1" /\ p = ["-"]).

(** Separators printed by numpy, and after replacement. *)
Inductive cells (seps : list text) : list Z -> list cell -> Prop :=
| cells_one z p c : entry_ok z p c -> cells seps [z] [(p, c, [])]
| cells_cons z p c s zs l : entry_ok z p c -> In s seps -> cells seps zs l -> cells seps (z :: zs) ((p, c, s) :: l).

Definition np_seps : list text := [[" "]; [nl; " "]].
Definition comma_seps : list text := [[","]; [","; nl; " "]].

Lemma rstrip_word l p c : c <> " " -> rstrip (l ++ p ++ [c; " "]) = l ++ p ++ [c].
Proof.
  intros H. unfold rstrip. change [c; " "] with ([c] ++ [" "]). rewrite !app_assoc, !rev_app_distr. cbn [rev app lstrip].
  replace (Ascii.eqb " " " ") with true by reflexivity. apply Ascii.eqb_neq in H. cbn [lstrip]. rewrite H. cbn [rev]. rewrite !rev_app_distr, !rev_involutive. reflexivity.
Qed.

Lemma np_loop_spec zs : forall words s l, Forall2 (fun z w => exists p c, w = p ++ [c] /\ entry_ok z p c) zs words -> zs <> [] ->
  rstrip (l ++ [" "]) = l ->
  exists sep cs, np_loop s (l ++ [" "]) words = s ++ l ++ sep ++ glue cs /\ (sep = [" "] \/ (l <> [] /\ sep = [nl; " "])) /\ cells np_seps zs cs.
Proof.
  induction zs as [|z zs IH]; intros words s l H Hne Hl; [congruence|]. inversion H as [|? w ? words' (p & c & -> & Hw) Hrest]; subst.
  assert (Hc : c <> " ") by (destruct Hw as [(_ & -> & _)|[(_ & -> & _)|(_ & -> & _)]]; discriminate).
  cbn [np_loop]. destruct (extend_line s (l ++ [" "]) (p ++ [c])) as [s1 line1] eqn:E.
  assert (Q : exists sep, s1 ++ line1 = s ++ l ++ sep ++ p ++ [c] /\ (sep = [" "] \/ (l <> [] /\ sep = [nl; " "])) /\ exists l', line1 = l' ++ p ++ [c]).
  { unfold extend_line in E. rewrite Hl in E. destruct (_ && _)%bool eqn:B.
    - injection E as <- <-. exists [nl; " "]. split; [rewrite <- !app_assoc; reflexivity|]. split.
      + right. split; [|reflexivity]. intros ->. apply andb_true_iff in B. destruct B as [_ B]. discriminate.
      + exists [" "]. reflexivity.
    - injection E as <- <-. exists [" "]. split; [rewrite <- !app_assoc; reflexivity|]. split; [auto|]. eexists. reflexivity. }
  destruct Q as (sep & Q1 & Q2 & l' & Q3). destruct words' as [|w2 words'].
  - inversion Hrest; subst. exists sep, [(p, c, [])]. rewrite Q1. split; [cbn; rewrite app_nil_r; reflexivity|]. split; [assumption|]. now constructor.
  - destruct zs as [|z2 zs]; [inversion Hrest|].
    destruct (IH (w2 :: words') s1 line1 Hrest ltac:(discriminate)) as (sep2 & cs & E2 & S2 & C2).
    { rewrite Q3. rewrite <- !app_assoc. cbn [app]. now apply rstrip_word. }
    rewrite E2. exists sep, ((p, c, sep2) :: cs). split.
    { rewrite app_assoc, Q1. unfold glue. cbn [flat_map cell_text]. rewrite <- !app_assoc. reflexivity. }
    split; [assumption|]. constructor; [assumption| |assumption]. destruct S2 as [->|(_ & ->)]; cbn; auto.
Qed.

Lemma np_str_spec a : a <> [] -> (Forall (fun z => z = 0 \/ z = 1)%Z a \/ Forall (fun z => z = 1 \/ z = -1)%Z a) ->
  exists cs, np_str a = "[" :: glue cs ++ ["]"] /\ cells np_seps a cs.
Proof.
  intros Hne H. unfold np_str. cbv zeta. set (w := list_max (map (@length _) (map str_int a))).
  assert (Hw : forall z, In z a -> (length (str_int z) <= w)%nat).
  { intros z Hz. unfold w. assert (Q := proj1 (list_max_le (map (@length _) (map str_int a)) _) (le_n _)). rewrite Forall_forall in Q. apply Q. apply in_map. now apply in_map. }
  assert (W2 : (w <= 2)%nat /\ (Forall (fun z => z = 0 \/ z = 1)%Z a -> (w <= 1)%nat)).
  { split.
    - unfold w. apply list_max_le. apply Forall_forall. intros k Hk. rewrite map_map in Hk. apply in_map_iff in Hk. destruct Hk as (z & <- & Hz).
      destruct H as [H|H]; rewrite Forall_forall in H; destruct (H z Hz) as [->| ->]; vm_compute; lia.
    - intros H0. unfold w. apply list_max_le. apply Forall_forall. intros k Hk. rewrite map_map in Hk. apply in_map_iff in Hk. destruct Hk as (z & <- & Hz).
      rewrite Forall_forall in H0; destruct (H0 z Hz) as [->| ->]; vm_compute; lia. }
  clearbody w.
  assert (F : Forall2 (fun z x => exists p c, x = p ++ [c] /\ entry_ok z p c) a (map (pad w) (map str_int a))).
  { assert (G : forall z, In z a -> exists p c, pad w (str_int z) = p ++ [c] /\ entry_ok z p c).
    { intros z Hz. assert (L := Hw z Hz). destruct H as [H|H].
      - destruct W2 as [_ W1]. specialize (W1 H). rewrite Forall_forall in H. destruct (H z Hz) as [->| ->]; vm_compute in L; (destruct w as [|[|w]]; [lia| |lia]).
        + exists [], "0". split; [reflexivity|]. left; auto.
        + exists [], "1". split; [reflexivity|]. right; left; auto.
      - destruct W2 as [W1 _]. rewrite Forall_forall in H. destruct (H z Hz) as [->| ->]; vm_compute in L; (destruct w as [|[|[|w]]]; try lia).
        + exists [], "1". split; [reflexivity|]. right; left; auto.
        + exists [" "], "1". split; [reflexivity|]. right; left; auto.
        + exists ["-"], "1". split; [reflexivity|]. right; right; auto. }
    clear -G. induction a as [|z a IH]; [constructor|]. cbn [map]. constructor; [apply G; left; reflexivity|]. apply IH. intros; apply G; right; assumption. }
  destruct (np_loop_spec a _ [] [] F Hne eq_refl) as (sep & cs & E & [->|[Q _]] & C); [|congruence].
  cbn [app] in E. rewrite E. exists cs. split; [reflexivity|assumption].
Qed.

(** Replacement pass over printed entries: the separator after the digit x is rewritten. *)
Definition fix_sep (x y : ascii) (z : text) (k : cell) : cell :=
  let '(p, c, s) := k in match s with h :: s' => if (Ascii.eqb c x && Ascii.eqb h y)%bool then (p, c, z ++ s') else k | [] => k end.

Definition cell_ok (k : cell) : Prop :=
  let '(p, c, s) := k in In p [[]; [" "]; ["-"]] /\ In c ["0"; "1"] /\ In s [[" "]; [nl; " "]; [","]; [","; nl; " "]; []].

Lemma replace_cell x y z k t : In x ["0"; "1"] -> In y [" "; nl] -> cell_ok k -> (snd k = [] -> brk t /\ hd " " t <> " " /\ hd " " t <> nl) ->
  replace2 x y (x :: z) (cell_text k ++ t) = cell_text (fix_sep x y z k) ++ replace2 x y (x :: z) t.
Proof.
  intros Hx Hy Hk Ht. destruct k as [[p c] s]. destruct Hk as (Hp & Hc & Hs). cbn [snd] in Ht.
  destruct Hs as [<-|[<-|[<-|[<-|[<-|[]]]]]].
  5:{ destruct (Ht eq_refl) as (_ & T1 & T2). destruct t as [|h t]; [cbn in T1; congruence|]. cbn [hd] in T1, T2.
      apply Ascii.eqb_neq in T1, T2.
      destruct Hp as [<-|[<-|[<-|[]]]], Hc as [<-|[<-|[]]], Hx as [<-|[<-|[]]], Hy as [<-|[<-|[]]]; cbn [cell_text app replace2 fix_sep]; cbn [Ascii.eqb Bool.eqb andb]; rewrite ?T1, ?T2; reflexivity. }
  all: clear Ht; destruct Hp as [<-|[<-|[<-|[]]]], Hc as [<-|[<-|[]]], Hx as [<-|[<-|[]]], Hy as [<-|[<-|[]]]; destruct t as [|h t]; cbn; rewrite <- ?app_assoc, ?app_nil_r; reflexivity.
Qed.
