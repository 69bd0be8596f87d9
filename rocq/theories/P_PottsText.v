(** Lemmas about the text of Potts equation files. *)
From Coq Require Import Ascii String.
From Verif Require Import Prelude Spec PreludeFacts M_Index M_Enum M_EqnText M_PottsText P_Enum P_EnumPotts P_EqnText P_EqnText2 P_EqnText3 P_EqnText4 P_PyText.
Import ListNotations.
Local Open Scope char_scope.
Local Open Scope list_scope.

(** ** Tabs *)
Lemma untab_id t : Forall (fun c => c <> tb) t -> untab t = t.
Proof. induction 1 as [|c t H _ IH]; [reflexivity|]. unfold untab in *. cbn [flat_map]. replace (Ascii.eqb c tb) with false by (symmetry; now apply Ascii.eqb_neq). cbn [app]. now rewrite IH. Qed.
Lemma untab_str k : untab (str_nat k) = str_nat k.
Proof. apply untab_id, str_nat_plain. intros m Hm. do 10 (destruct m as [|m]; [discriminate|]). lia. Qed.
Lemma untab_flat {A} (f : A -> text) l : untab (flat_map f l) = flat_map (fun a => untab (f a)) l.
Proof. induction l as [|a l IH]; [reflexivity|]. cbn [flat_map]. now rewrite untab_app, IH. Qed.
Lemma untab_plain t : plain_line t -> plain_line (untab t).
Proof.
  induction 1 as [|c t H _ IH]; [constructor|]. unfold untab in *. cbn [flat_map]. apply Forall_app. split; [|exact IH].
  destruct (Ascii.eqb c tb); repeat constructor; (discriminate || exact H).
Qed.
Lemma untab_nl : untab [nl] = [nl].
Proof. reflexivity. Qed.
Lemma untab_tb t : untab (tb :: t) = lit "        " ++ untab t.
Proof. reflexivity. Qed.

(** ** Tokens of the statements *)
Definition patom_toks (a : patom) : list tok := match a with Ph i => [TName ["h"]; TOp "["; TNum i; TOp "]"] | PJ i => [TName ["J"]; TOp "["; TNum i; TOp "]"] end.
Fixpoint patoms_toks (t : list patom) : list tok := match t with [] => [] | [a] => patom_toks a | a :: r => patom_toks a ++ TOp "+" :: patoms_toks r end.
Definition ctok_tok (c : ctok) : tok := match c with CDig true => TNum 1 | CDig false => TNum 0 | _ => TOp "," end.
Definition obs_toks (kc : nat * list ctok) : list tok :=
  T "observables[" ++ TNum (fst kc) :: T "] = exp(fast_logsumexp(energies, [" ++ map ctok_tok (filter (fun t => negb (is_nl t)) (snd kc)) ++ T "])[0] - logZ)".
Definition assert_toks k := T "assert params.size==" ++ [TNum k].
Definition h_toks k := T "h = params[:" ++ TNum k :: T "]".
Definition J_toks k := T "J = params[" ++ TNum k :: T ":]".
Definition zeros_toks (obs : bool) k := T (if obs then "observables = zeros(" else "p = zeros(") ++ TNum k :: T ")".
Definition energies_toks ts := T "energies = [" ++ flat_map (fun t => patoms_toks t ++ [TOp ","]) ts ++ T "]".
Definition logz_toks := T "logZ = fast_logsumexp(energies)[0]".
Definition p_toks k := T "p[" ++ TNum k :: T "] = exp(energies[" ++ TNum k :: T "] - logZ)".

Lemma print_patom_brk a s : exists c r, print_patom a ++ s = c :: "[" :: r /\ is_letter c = true.
Proof. destruct a as [i|i]; cbn; eauto. Qed.

Lemma print_potts_join a t : print_potts_term (a :: t) = print_patom a ++ flat_map (fun b => "+" :: print_patom b) t.
Proof.
  unfold print_potts_term. assert (G : forall t a, flat_map (fun a => print_patom a ++ ["+"]) (a :: t) = (print_patom a ++ flat_map (fun b => "+" :: print_patom b) t) ++ ["+"]).
  { clear. induction t as [|b t IH]; intros a; [cbn [flat_map app]; now rewrite !app_nil_r|]. cbn [flat_map] in *. rewrite (IH b). rewrite <- !app_assoc. reflexivity. }
  rewrite G. rewrite drop_end_app by (cbn; lia). change (drop_end 1 ["+"]) with (@nil ascii). now rewrite app_nil_r.
Qed.

Lemma lex_patom a d s : lex LMid d (untab (print_patom a) ++ s) = patom_toks a ++ lex LMid d s.
Proof.
  destruct a as [i|i]; cbn [print_patom]; rewrite !untab_app, untab_str, <- !app_assoc.
  - assert (E : forall X, lex LMid d (untab (lit "h[") ++ X) = TName ["h"] :: TOp "[" :: lex LMid (S d) X) by reflexivity. rewrite E, lex_str_nat by (split; reflexivity).
    change (untab (lit "]") ++ s) with ("]" :: s). assert (E2 : lex LMid (S d) ("]" :: s) = TOp "]" :: lex LMid d s) by (cbn; now rewrite Nat.sub_0_r).
    rewrite E2. reflexivity.
  - assert (E : forall X, lex LMid d (untab (lit "J[") ++ X) = TName ["J"] :: TOp "[" :: lex LMid (S d) X) by reflexivity. rewrite E, lex_str_nat by (split; reflexivity).
    change (untab (lit "]") ++ s) with ("]" :: s). assert (E2 : lex LMid (S d) ("]" :: s) = TOp "]" :: lex LMid d s) by (cbn; now rewrite Nat.sub_0_r).
    rewrite E2. reflexivity.
Qed.

Lemma lex_patoms t d s : t <> [] -> lex LMid d (untab (print_potts_term t) ++ s) = patoms_toks t ++ lex LMid d s.
Proof.
  destruct t as [|a t]; [congruence|]. intros _. rewrite print_potts_join, untab_app, <- app_assoc, lex_patom, untab_flat. revert a. induction t as [|b t IH]; intros a; [reflexivity|].
  cbn [flat_map]. change (untab ("+" :: print_patom b)) with ("+" :: untab (print_patom b)). rewrite <- app_assoc. cbn [app].
  assert (E : forall X, lex LMid d ("+" :: X) = TOp "+" :: lex LMid d X) by reflexivity. rewrite E, lex_patom, IH. cbn [patoms_toks]. rewrite <- app_assoc. reflexivity.
Qed.

Lemma lex_ctoks d s : forall c, (exists bs, read_elems (filter (fun t => negb (is_nl t)) c) = Ok bs) \/ (exists x bs, filter (fun t => negb (is_nl t)) c = CComma :: x /\ read_elems x = Ok bs) ->
  lex LMid (S d) (untab (map ctok_char c) ++ "]" :: s) = map ctok_tok (filter (fun t => negb (is_nl t)) c) ++ lex LMid (S d) ("]" :: s).
Proof.
  induction c as [|x c IH]; intros H; [reflexivity|]. destruct x as [b| |].
  - assert (Hc : (exists bs, read_elems (filter (fun t => negb (is_nl t)) c) = Ok bs) \/ (exists x bs, filter (fun t => negb (is_nl t)) c = CComma :: x /\ read_elems x = Ok bs)).
    { destruct H as [(bs & H)|(x & bs & H & _)]; [|cbn in H; discriminate]. cbn [filter is_nl negb] in H. destruct (filter _ c) as [|[b2| |] r]; cbn [read_elems] in H; try discriminate.
      - left. exists []. reflexivity.
      - right. destruct (read_elems r) as [l|] eqn:E; [|discriminate]. exists r, l. auto. }
    assert (Hb : brk (untab (map ctok_char c) ++ "]" :: s)).
    { destruct c as [|[b2| |] c]; try (split; reflexivity). exfalso. destruct H as [(bs & H)|(x & bs & H & _)]; cbn in H; discriminate. }
    specialize (IH Hc). cbn [map filter is_nl negb]. destruct b; cbn [ctok_char ctok_tok app].
    + change (lex LMid (S d) (untab ("1" :: map ctok_char c) ++ "]" :: s)) with (lex (LNum 1) (S d) (untab (map ctok_char c) ++ "]" :: s)). rewrite lex_num by exact Hb. now rewrite IH.
    + change (lex LMid (S d) (untab ("0" :: map ctok_char c) ++ "]" :: s)) with (lex (LNum 0) (S d) (untab (map ctok_char c) ++ "]" :: s)). rewrite lex_num by exact Hb. now rewrite IH.
  - cbn [map filter is_nl negb ctok_char].
    first [ change (lex LMid (S d) (untab (nl :: map ctok_char c) ++ "]" :: s)) with (lex LMid (S d) (untab (map ctok_char c) ++ "]" :: s)); now apply IH
          | change (lex LMid (S d) (untab ("," :: map ctok_char c) ++ "]" :: s)) with (TOp "," :: lex LMid (S d) (untab (map ctok_char c) ++ "]" :: s)); rewrite IH; [reflexivity|];
            destruct H as [(bs & H)|(x & bs & H & H2)]; [cbn in H; discriminate|]; cbn [filter is_nl negb] in H; injection H as ->; left; exists bs; exact H2 ].
  - cbn [map filter is_nl negb ctok_char].
    first [ change (lex LMid (S d) (untab (nl :: map ctok_char c) ++ "]" :: s)) with (lex LMid (S d) (untab (map ctok_char c) ++ "]" :: s)); now apply IH
          | change (lex LMid (S d) (untab ("," :: map ctok_char c) ++ "]" :: s)) with (TOp "," :: lex LMid (S d) (untab (map ctok_char c) ++ "]" :: s)); rewrite IH; [reflexivity|];
            destruct H as [(bs & H)|(x & bs & H & H2)]; [cbn in H; discriminate|]; cbn [filter is_nl negb] in H; injection H as ->; left; exists bs; exact H2 ].
Qed.

Definition lexes_u (t : text) (ls : list (nat * list tok)) : Prop := lexes (untab t) ls.
Lemma lexes_u_app t1 l1 t2 l2 : lexes_u t1 l1 -> lexes_u t2 l2 -> lexes_u (t1 ++ t2) (l1 ++ l2).
Proof. unfold lexes_u. intros H1 H2. rewrite untab_app. now apply lexes_app. Qed.
Lemma lexes_u_flat {A} (f : A -> text) g l : (forall a, In a l -> lexes_u (f a) (g a)) -> lexes_u (flat_map f l) (flat_map g l).
Proof. unfold lexes_u. intros H. rewrite untab_flat. now apply lexes_flat. Qed.
Lemma lexes_u_comment c : plain_line c -> lexes_u ("#" :: c ++ [nl]) [].
Proof.
  intros H. unfold lexes_u. change (untab ("#" :: c ++ [nl])) with ("#" :: untab (c ++ [nl])). rewrite untab_app. change (untab [nl]) with [nl]. apply lexes_comment. now apply untab_plain.
Qed.
Lemma plain_str k : plain_line (str_nat k).
Proof. apply str_nat_plain. intros m Hm. apply (digit_facts m Hm). Qed.
Lemma plain_lit s : forallb (fun c => negb (Ascii.eqb c nl)) (lit s) = true -> plain_line (lit s).
Proof. intros H. rewrite forallb_forall in H. apply Forall_forall. intros c Hc E. specialize (H c Hc). subst. discriminate. Qed.
Lemma plain_app a b : plain_line a -> plain_line b -> plain_line (a ++ b).
Proof. intros. apply Forall_app; auto. Qed.

Definition lic_ok (lic : option (list text * text)) : Prop := forall ls r, lic = Some (ls, r) -> Forall plain_line ls /\ plain_line r.

Lemma lexes_u_license lic : lic_ok lic -> lexes_u (print_potts_license lic ++ line "#") [].
Proof.
  intros H. destruct lic as [[ls r]|]; [|intros rest; reflexivity]. destruct (H ls r eq_refl) as [H1 H2]. unfold print_potts_license. rewrite <- app_assoc.
  rewrite <- (app_nil_r (@nil (nat * list tok))). apply lexes_u_app.
  - replace (@nil (nat * list tok)) with (flat_map (fun _ : text => @nil (nat * list tok)) ls) by (clear; induction ls; auto).
    apply lexes_u_flat. intros l Hl. rewrite Forall_forall in H1. apply (lexes_u_comment (" " :: l)). constructor; [discriminate|now apply H1].
  - destruct r as [|c r]; [intros rest; reflexivity|]. replace ((lit "# " ++ c :: r) ++ line "#") with ("#" :: ((" " :: c :: r) ++ ["#"]) ++ [nl]) by (rewrite <- !app_assoc; reflexivity).
    apply lexes_u_comment. apply plain_app; [constructor; [discriminate|exact H2]|constructor; [discriminate|constructor]].
Qed.

Definition potts_imports : list (nat * list tok) := [(0%nat, T "from numpy import zeros, exp"); (0%nat, T "from ..enumerate import fast_logsumexp")].

Lemma lexes_u_header lic date n k : lic_ok lic -> plain_line date -> lexes_u (potts_header lic date n k) potts_imports.
Proof.
  intros Hl Hd. unfold potts_header.
  replace (lit "# This file contains equations for the Potts model with " ++ str_nat n ++ lit " spins and " ++ str_nat k ++ line " states." ++ line "# Provided as part of ConIII package."
    ++ lit "# Written on " ++ date ++ line "." ++ line "#" ++ line "#" ++ print_potts_license lic ++ line "#" ++ line "from numpy import zeros, exp" ++ line "from ..enumerate import fast_logsumexp" ++ [nl])
  with (("#" :: (lit " This file contains equations for the Potts model with " ++ str_nat n ++ lit " spins and " ++ str_nat k ++ lit " states.") ++ [nl])
    ++ line "# Provided as part of ConIII package." ++ ("#" :: (lit " Written on " ++ date ++ lit ".") ++ [nl]) ++ (line "#" ++ line "#") ++ (print_potts_license lic ++ line "#")
    ++ (line "from numpy import zeros, exp" ++ line "from ..enumerate import fast_logsumexp" ++ [nl])) by (unfold line; rewrite <- ?app_assoc; cbn [app]; rewrite <- ?app_assoc; reflexivity).
  change potts_imports with ([] ++ [] ++ [] ++ [] ++ [] ++ potts_imports).
  apply lexes_u_app; [apply lexes_u_comment; repeat apply plain_app; try apply plain_str; apply plain_lit; reflexivity|].
  apply lexes_u_app; [intros rest; reflexivity|].
  apply lexes_u_app; [apply lexes_u_comment; apply plain_app; [apply plain_lit; reflexivity|apply plain_app; [exact Hd|apply plain_lit; reflexivity]]|].
  apply lexes_u_app; [intros rest; reflexivity|]. apply lexes_u_app; [now apply lexes_u_license|]. intros rest. reflexivity.
Qed.

(** The lines of a function up to logZ. *)
Definition open_lines (n k : nat) (obs : bool) (size : nat) (es : list (list patom)) : list (list tok) :=
  [assert_toks (potts_nparam n k); h_toks (n * k); J_toks (n * k); zeros_toks obs size; energies_toks es; logz_toks].

Lemma lex_energy_lines es X : Forall (fun t => t <> []) es -> lex LMid 1 (untab (flat_map potts_energy_line es) ++ X) = flat_map (fun t => patoms_toks t ++ [TOp ","]) es ++ lex LMid 1 X.
Proof.
  rewrite untab_flat. induction 1 as [|t es Ht _ IH]; [reflexivity|]. cbn [flat_map]. unfold potts_energy_line at 1. rewrite !untab_tb, untab_app, <- !app_assoc.
  assert (E : forall Y, lex LMid 1 (lit "        " ++ lit "        " ++ Y) = lex LMid 1 Y) by reflexivity. rewrite E, lex_patoms by exact Ht.
  assert (E2 : forall Y, lex LMid 1 (untab [","; nl] ++ Y) = TOp "," :: lex LMid 1 Y) by reflexivity. rewrite E2, IH. reflexivity.
Qed.

Lemma lexes_u_open n k (obs : bool) size es : Forall (fun t => t <> []) es ->
  lexes_u (potts_open n k (if obs then "observables" else "p") size ++ flat_map potts_energy_line es ++ potts_close) (map (pair 8%nat) (open_lines n k obs size es)).
Proof.
  intros He rest. rewrite !(untab_app (potts_open _ _ _ _)), untab_app. unfold potts_open. repeat (rewrite ?untab_tb, ?untab_app, ?untab_str). rewrite <- !app_assoc.
  assert (E1 : forall X, lex (LBol 0) 0 (lit "        " ++ untab (lit "assert params.size==") ++ X) = TLine 8 :: T "assert params.size==" ++ lex LMid 0 X) by reflexivity.
  rewrite E1, lex_str_nat by (split; reflexivity).
  assert (E2 : forall X, lex LMid 0 (untab [nl] ++ lit "        " ++ untab (lit "h = params[:") ++ X) = TLine 8 :: T "h = params[:" ++ lex LMid 1 X) by reflexivity.
  rewrite E2, lex_str_nat by (split; reflexivity).
  assert (E3 : forall X, lex LMid 1 (untab (line "]") ++ lit "        " ++ untab (lit "J = params[") ++ X) = TOp "]" :: TLine 8 :: T "J = params[" ++ lex LMid 1 X) by reflexivity.
  rewrite E3, lex_str_nat by (split; reflexivity).
  assert (E4 : forall X, lex LMid 1 (untab (line ":]") ++ lit "        " ++ untab (lit (if obs then "observables" else "p")) ++ untab (lit " = zeros(") ++ X)
                         = T ":]" ++ TLine 8 :: T (if obs then "observables = zeros(" else "p = zeros(") ++ lex LMid 1 X) by (intros; destruct obs; reflexivity).
  rewrite E4, lex_str_nat by (split; reflexivity).
  assert (E5 : forall X, lex LMid 1 (untab (line ")") ++ lit "        " ++ untab (lit "energies = [") ++ X) = TOp ")" :: TLine 8 :: T "energies = [" ++ lex LMid 1 X) by reflexivity.
  rewrite E5, lex_energy_lines by exact He.
  assert (E6 : forall X, lex LMid 1 (untab potts_close ++ X) = TOp "]" :: TLine 8 :: logz_toks ++ lex (LBol 0) 0 X) by reflexivity. rewrite E6.
  unfold ltoks, open_lines. cbn [map flat_map fst snd app]. unfold assert_toks, h_toks, J_toks, zeros_toks, energies_toks.
  change (T ")") with [TOp ")"]. change (T "]") with [TOp "]"]. repeat (rewrite <- ?app_assoc; cbn [app]). reflexivity.
Qed.

Lemma lexes_u_obs kc : (exists bs, read_list (snd kc) = Ok bs) -> lexes_u (potts_obs_line kc) [(8%nat, obs_toks kc)].
Proof.
  intros H rest. unfold potts_obs_line. rewrite untab_tb, !untab_app, untab_str, <- !app_assoc.
  assert (E1 : forall X, lex (LBol 0) 0 (lit "        " ++ untab (lit "observables[") ++ X) = TLine 8 :: T "observables[" ++ lex LMid 1 X) by reflexivity.
  rewrite E1, lex_str_nat by (split; reflexivity).
  assert (E2 : forall X, lex LMid 1 (untab (lit "] = exp(fast_logsumexp(energies, [") ++ X) = T "] = exp(fast_logsumexp(energies, [" ++ lex LMid 3 X) by reflexivity. rewrite E2.
  change (untab (line "])[0] - logZ)") ++ rest) with ("]" :: lit ")[0] - logZ)" ++ nl :: rest). rewrite (lex_ctoks 2) by (left; exact H).
  assert (E3 : lex LMid 3 ("]" :: lit ")[0] - logZ)" ++ nl :: rest) = T "])[0] - logZ)" ++ lex (LBol 0) 0 rest) by reflexivity. rewrite E3.
  unfold ltoks, obs_toks. cbn [flat_map fst snd]. rewrite app_nil_r. repeat (rewrite <- ?app_assoc; cbn [app]). reflexivity.
Qed.

Lemma lexes_u_p i : lexes_u (potts_p_line i) [(8%nat, p_toks i)].
Proof.
  intros rest. unfold potts_p_line. rewrite untab_tb, !untab_app, untab_str, <- !app_assoc.
  assert (E1 : forall X, lex (LBol 0) 0 (lit "        " ++ untab (lit "p[") ++ X) = TLine 8 :: T "p[" ++ lex LMid 1 X) by reflexivity.
  rewrite E1, lex_str_nat by (split; reflexivity).
  assert (E2 : forall X, lex LMid 1 (untab (lit "] = exp(energies[") ++ X) = T "] = exp(energies[" ++ lex LMid 2 X) by reflexivity. rewrite E2, lex_str_nat by (split; reflexivity).
  assert (E3 : lex LMid 2 (untab (line "] - logZ)") ++ rest) = T "] - logZ)" ++ lex (LBol 0) 0 rest) by reflexivity. rewrite E3.
  unfold ltoks, p_toks. cbn [flat_map fst snd]. rewrite app_nil_r. repeat (rewrite <- ?app_assoc; cbn [app]). reflexivity.
Qed.

Definition calc_lines (f : potts_file) : list (list tok) :=
  open_lines (pf_n f) (pf_k f) true (potts_nparam (pf_n f) (pf_k f)) (pf_energies f) ++ map obs_toks (number (pf_coeffs f)) ++ [T "return observables"].
Definition p_lines (f : potts_file) : list (list tok) :=
  open_lines (pf_n f) (pf_k f) false (pf_k f ^ pf_n f) (pf_energies f) ++ map p_toks (range (length (pf_energies f))) ++ [T "return p"].
Definition potts_lines (f : potts_file) : list (nat * list tok) :=
  potts_imports ++ (0%nat, T "def calc_observables(params):") :: map (pair 8%nat) (calc_lines f) ++ (0%nat, T "def p(params):") :: map (pair 8%nat) (p_lines f).

Definition file_ok (f : potts_file) : Prop := Forall (fun t => t <> []) (pf_energies f) /\ Forall (fun c => exists bs, read_list c = Ok bs) (pf_coeffs f).

Lemma lexes_potts lic date f : lic_ok lic -> plain_line date -> file_ok f -> lexes_u (potts_text lic date f) (potts_lines f).
Proof.
  intros Hl Hd [He Hc]. unfold potts_text, potts_lines. apply lexes_u_app; [now apply lexes_u_header|].
  match goal with |- lexes_u ?t ?l => assert (G : exists l', lexes_u t l' /\ l' = l) end.
  { eexists. split.
    - eapply lexes_u_app; [instantiate (1 := [(0%nat, T "def calc_observables(params):")]); intros rest; reflexivity|].
      match goal with |- lexes_u (?a ++ ?b ++ ?c ++ ?d) _ => replace (a ++ b ++ c ++ d) with ((a ++ b ++ c) ++ d) by (rewrite <- !app_assoc; reflexivity) end.
      eapply lexes_u_app; [apply (lexes_u_open _ _ true); exact He|].
      eapply lexes_u_app; [apply (lexes_u_flat potts_obs_line (fun kc => [(8%nat, obs_toks kc)])); intros [j c] Hjc; apply number_in in Hjc; apply lexes_u_obs; rewrite Forall_forall in Hc; now apply Hc|].
      match goal with |- lexes_u (?x :: ?a ++ ?b ++ ?c) _ => replace (x :: a ++ b ++ c) with ((x :: a ++ b) ++ c) by (cbn [app]; rewrite <- !app_assoc; reflexivity) end.
      eapply lexes_u_app; [instantiate (1 := [(8%nat, T "return observables")]); intros rest; reflexivity|].
      eapply lexes_u_app; [instantiate (1 := [(0%nat, T "def p(params):")]); intros rest; reflexivity|].
      match goal with |- lexes_u (?a ++ ?b ++ ?c ++ ?d) _ => replace (a ++ b ++ c ++ d) with ((a ++ b ++ c) ++ d) by (rewrite <- !app_assoc; reflexivity) end.
      eapply lexes_u_app; [apply (lexes_u_open _ _ false); exact He|].
      eapply lexes_u_app; [apply (lexes_u_flat potts_p_line (fun i => [(8%nat, p_toks i)])); intros i _; apply lexes_u_p|].
      instantiate (1 := [(8%nat, T "return p")]). intros rest. reflexivity.
    - unfold calc_lines, p_lines. rewrite !map_app, !map_map. cbn [app map].
      assert (F : forall A (g : A -> list tok) l, flat_map (fun a => [(8%nat, g a)]) l = map (fun a => (8%nat, g a)) l) by (clear; intros A g l; induction l as [|a l IH]; [reflexivity|cbn; now rewrite IH]).
      rewrite !F. rewrite <- !app_assoc. reflexivity. }
  destruct G as (l' & G & E). rewrite <- E. exact G.
Qed.
