(** Lemmas about the text of equation files, continued: coefficient lists, lines and statements. *)
From Coq Require Import Ascii String.
From Verif Require Import Prelude Spec PreludeFacts M_Index M_Enum M_EqnText P_Enum P_EqnText P_EqnText2.
Import ListNotations.
Local Open Scope list_scope.
Local Open Scope char_scope.

(** ** Replacement passes *)
Definition all_seps : list text := [[" "]; [nl; " "]; [","]; [","; nl; " "]].

Lemma entry_cell z p c : entry_ok z p c -> In p [[]; [" "]; ["-"]] /\ In c ["0"; "1"].
Proof. intros [(_ & -> & ->)|[(_ & -> & [->| ->])|(_ & -> & ->)]]; cbn; auto. Qed.

Lemma replace_glue x y z zs l : In x ["0"; "1"] -> In y [" "; nl] -> cells all_seps zs l ->
  replace2 x y (x :: z) (glue l ++ ["]"]) = glue (map (fix_sep x y z) l) ++ ["]"].
Proof.
  intros Hx Hy. induction 1 as [zz p c He|zz p c s zs l He Hs Hl IH].
  - unfold glue. cbn [flat_map map]. rewrite <- !app_assoc. destruct (entry_cell _ _ _ He) as [Hp Hc].
    rewrite replace_cell; [|assumption|assumption|repeat split; cbn; auto 10|].
    + reflexivity.
    + intros _. repeat split; discriminate.
  - unfold glue in *. cbn [flat_map map]. rewrite <- !app_assoc. destruct (entry_cell _ _ _ He) as [Hp Hc].
    rewrite replace_cell; [|assumption|assumption| |].
    + rewrite IH. reflexivity.
    + split; [assumption|]. split; [assumption|]. cbn in Hs |- *. tauto.
    + cbn [snd]. intros ->. cbn in Hs. intuition discriminate.
Qed.

Lemma replace_open x y z t : In x ["0"; "1"] -> replace2 x y (x :: z) ("[" :: t) = "[" :: replace2 x y (x :: z) t.
Proof. intros [<-|[<-|[]]]; destruct t; reflexivity. Qed.

Lemma cells_map (P : Z -> Prop) (F : cell -> cell) (A B : list text) : (forall z p c (s : text), P z -> entry_ok z p c -> In s A -> exists s' : text, F (p, c, s) = (p, c, s') /\ In s' B) ->
  (forall p c, F (p, c, [] : text) = (p, c, [] : text)) -> forall zs l, Forall P zs -> cells A zs l -> cells B zs (map F l).
Proof.
  intros H1 H2 zs l HP. induction 1 as [zz p c He|zz p c s zs l He Hs Hl IH]; cbn [map].
  - rewrite H2. now constructor.
  - inversion HP; subst.
    destruct (H1 zz p c s) as (s' & E & Hs'); auto. rewrite E. constructor; auto.
Qed.

Lemma cells_incl A B : incl A B -> forall zs l, cells A zs l -> cells B zs l.
Proof. intros H zs l. induction 1; constructor; auto. Qed.

Lemma fix_all x y z : In x ["0"; "1"] -> (y = " " /\ z = [","]) \/ (y = nl /\ z = [","; nl]) -> forall zs l, cells all_seps zs l -> cells all_seps zs (map (fix_sep x y z) l).
Proof.
  intros Hx Hyz zs l H. apply cells_map with (P := fun _ => True) (A := all_seps); [|reflexivity|apply Forall_forall; auto|assumption].
  intros zz p c s _ _ Hs. cbn [fix_sep]. destruct Hs as [<-|[<-|[<-|[<-|[]]]]]; destruct Hyz as [[-> ->]|[-> ->]]; destruct (Ascii.eqb c x); cbn;
    (eexists; split; [reflexivity|cbn; tauto]).
Qed.

Lemma fix_sep_nil x y z p c : fix_sep x y z (p, c, []) = (p, c, []).
Proof. reflexivity. Qed.

Lemma print_coeffs_spec (sym : bool) a : a <> [] -> Forall (fun z => if sym then z = 1 \/ z = -1 else z = 0 \/ z = 1)%Z a ->
  exists cs, print_coeffs sym a = "[" :: glue cs ++ ["]"] /\ cells comma_seps a cs.
Proof.
  intros Hne Ha. destruct (np_str_spec a Hne) as (cs & E & C). { destruct sym; auto. }
  assert (C0 : cells all_seps a cs) by (apply (cells_incl np_seps); [intros s Hs; cbn in *; tauto|assumption]).
  assert (Z : In "0" ["0"; "1"]) by (left; reflexivity). assert (O : In "1" ["0"; "1"]) by (right; left; reflexivity).
  assert (Sp : In " " [" "; nl]) by (left; reflexivity). assert (Nl : In nl [" "; nl]) by (right; left; reflexivity).
  unfold print_coeffs. rewrite E. destruct sym.
  - eexists. rewrite replace_open by assumption. rewrite (replace_glue _ _ _ a) by assumption. rewrite replace_open by assumption.
    rewrite (replace_glue _ _ _ a) by (try assumption; apply fix_all; auto). split; [reflexivity|]. rewrite map_map.
    apply cells_map with (P := fun z => (z = 1 \/ z = -1)%Z) (A := np_seps); [|reflexivity|assumption|assumption].
    intros z p c s Hz He Hs. assert (c = "1"). { destruct He as [(-> & _)|[(_ & -> & _)|(_ & -> & _)]]; auto. destruct Hz; discriminate. } subst c.
    destruct Hs as [<-|[<-|[]]]; (eexists; split; [reflexivity|cbn; tauto]).
  - eexists. rewrite replace_open by assumption. rewrite (replace_glue _ _ _ a) by assumption. rewrite replace_open by assumption.
    rewrite (replace_glue _ _ _ a) by (try assumption; apply fix_all; auto). rewrite replace_open by assumption.
    rewrite (replace_glue _ _ _ a) by (try assumption; apply fix_all; auto; apply fix_all; auto). rewrite replace_open by assumption.
    rewrite (replace_glue _ _ _ a) by (try assumption; apply fix_all; auto; apply fix_all; auto; apply fix_all; auto).
    split; [reflexivity|]. rewrite !map_map.
    apply cells_map with (P := fun z => (z = 0 \/ z = 1)%Z) (A := np_seps); [|reflexivity|assumption|assumption].
    intros z p c s Hz He Hs. destruct (entry_cell _ _ _ He) as [_ [<-|[<-|[]]]]; destruct Hs as [<-|[<-|[]]]; (eexists; split; [reflexivity|cbn; tauto]).
Qed.

(** ** Tokens of an integer list *)
Definition ztok (z : Z) : list tok := match z with Zneg p => [TOp "-"; TNum (Pos.to_nat p)] | _ => [TNum (Z.to_nat z)] end.
Fixpoint int_toks (l : list Z) : list tok :=
  match l with [] => [] | [z] => ztok z | z :: l' => ztok z ++ TOp "," :: int_toks l' end.

Lemma lex_cells zs cs : cells comma_seps zs cs -> forall d s, lex LMid (S d) (glue cs ++ "]" :: s) = int_toks zs ++ TOp "]" :: lex LMid d s.
Proof.
  induction 1 as [z p c He|z p c sp zs l He Hs Hl IH]; intros d s.
  - unfold glue. cbn [flat_map]. rewrite app_nil_r. cbn [cell_text]. rewrite <- app_assoc. cbn [app].
    transitivity (int_toks [z] ++ TOp "]" :: lex LMid (S d - 1) s); [|replace (S d - 1)%nat with d by lia; reflexivity].
    destruct He as [(-> & -> & ->)|[(-> & -> & [->| ->])|(-> & -> & ->)]]; reflexivity.
  - assert (Q : int_toks (z :: zs) = ztok z ++ TOp "," :: int_toks zs) by (destruct zs; [inversion Hl|reflexivity]). rewrite Q.
    unfold glue. cbn [flat_map]. fold (glue l). rewrite <- !app_assoc. cbn [cell_text]. rewrite <- app_assoc. cbn [app].
    transitivity (ztok z ++ TOp "," :: lex LMid (S d) (glue l ++ "]" :: s)); [|rewrite IH; reflexivity].
    destruct Hs as [<-|[<-|[]]]; destruct He as [(-> & -> & ->)|[(-> & -> & [->| ->])|(-> & -> & ->)]]; reflexivity.
Qed.

Lemma parse_int_toks l r : l <> [] -> Forall (fun z => z = 0 \/ z = 1 \/ z = -1)%Z l -> parse_ints (int_toks l ++ TOp "]" :: r) = Some (l, TOp "]" :: r).
Proof.
  induction l as [|z l IH]; intros Hne H; [congruence|]. inversion H as [|? ? Hz Hl]; subst. destruct l as [|z2 l].
  - destruct Hz as [->|[->| ->]]; reflexivity.
  - change (int_toks (z :: z2 :: l)) with (ztok z ++ TOp "," :: int_toks (z2 :: l)). rewrite <- app_assoc. cbn [app].
    specialize (IH ltac:(discriminate) Hl). destruct Hz as [->|[->| ->]]; cbn [ztok app Z.to_nat parse_ints]; rewrite IH; reflexivity.
Qed.

(** ** Statements *)
Definition stoks (hp : bool) (s : stmt) : list tok :=
  match s with
  | SZeros c k => T (if c then "Cout = zeros((" else "Pout = zeros((") ++ TNum k :: T (if hp then "), dtype=object)" else "))")
  | SSlice c a b => TName [c] :: T "= params[" ++ TNum a :: T ":" ++ TNum b :: T "]"
  | SEnergies ts => T "energyTerms = array([" ++ flat_map (fun l => flat_map tok_term l ++ [TOp ","]) ts ++ T "])"
  | SLogZ => T "logZ = fast_logsumexp(energyTerms)[0]"
  | SNum a => T "num = fast_logsumexp(energyTerms, [" ++ int_toks a ++ T "])"
  | SCout k => T "Cout[" ++ TNum k :: T "] = exp( num[0] - logZ ) * num[1]"
  | SNan => T "Cout[isnan(Cout)] = 0."
  | SPout k t => T "Pout[" ++ TNum k :: T "] = exp(" ++ flat_map tok_term t ++ T "- logZ )"
  | SReverse => T "Pout = Pout[::-1]"
  | SReturn c => T (if c then "return(Cout)" else "return(Pout)")
  | SDoc => [TStr]
  end.
Definition slines (hp : bool) (s : stmt) : list (nat * list tok) :=
  match s with
  | SNan => if hp then [(4, T "for i in range(Cout.size):"); (9, T "if isnan(Cout[i]):"); (13, T "Cout[i] = 0.")]%nat else [(4%nat, stoks hp s)]
  | _ => [(4%nat, stoks hp s)]
  end.
Definition stmt_ok (s : stmt) : Prop :=
  match s with
  | SSlice c _ _ => In c abc
  | SEnergies ts => Forall (fun t => t <> [] /\ Forall term_ok t) ts
  | SNum a => a <> [] /\ Forall (fun z => z = 0 \/ z = 1 \/ z = -1)%Z a
  | SPout _ t => t <> [] /\ Forall term_ok t
  | _ => True
  end.

Lemma parse_terms_toks l r : fst (parse_terms r) = [] -> snd (parse_terms r) = r -> parse_terms (flat_map tok_term l ++ r) = (l, r).
Proof.
  intros H1 H2. induction l as [|[neg a] l IH]; cbn [flat_map app].
  - destruct (parse_terms r); cbn in *; congruence.
  - rewrite <- app_assoc. unfold tok_term at 1. cbn [fst snd]. destruct a as [|c i].
    + cbn [app]. destruct neg; cbn [sign parse_terms Ascii.eqb Bool.eqb orb]; rewrite IH; reflexivity.
    + cbn [app]. destruct neg; cbn [sign parse_terms Ascii.eqb Bool.eqb orb]; rewrite IH; reflexivity.
Qed.

Lemma parse_sums_toks ts : forall f r, Forall (fun t => t <> []) ts -> (length ts < f)%nat ->
  parse_sums f (flat_map (fun l => flat_map tok_term l ++ [TOp ","]) ts ++ TOp "]" :: r) = Some (ts, TOp "]" :: r).
Proof.
  induction ts as [|t ts IH]; intros f r H Hf; (destruct f as [|f]; [cbn in Hf; lia|]).
  - reflexivity.
  - inversion H as [|? ? Ht Hts]; subst. cbn [flat_map]. rewrite <- !app_assoc. cbn [app].
    set (Y := flat_map _ ts ++ _) in *.
    assert (E := parse_terms_toks t (TOp "," :: Y) eq_refl eq_refl).
    assert (Q : parse_sums (S f) (flat_map tok_term t ++ TOp "," :: Y) =
      (let '(ts0, r0) := parse_terms (flat_map tok_term t ++ TOp "," :: Y) in match ts0, r0 with _ :: _, TOp "," :: r' => opt_bind (parse_sums f r') (fun x => Some (ts0 :: fst x, snd x)) | _, _ => None end)).
    { destruct t as [|[[|] a] t]; [congruence| |]; reflexivity. }
    rewrite Q, E. subst Y. rewrite IH; [|assumption|cbn in Hf; lia]. destruct t; [congruence|reflexivity].
Qed.

Lemma parse_stoks hp s : stmt_ok s -> parse_stmt (stoks hp s) = Some s.
Proof.
  destruct s as [c k|c a b|ts| |a|k| |k t| |c|]; cbn [stmt_ok]; intros H.
  - destruct c, hp; reflexivity.
  - revert c H. apply abc_cases. unfold abc. cbn [list_ascii_of_string]. repeat constructor.
  - unfold parse_stmt.
    assert (N : forall X, p_zeros true (T "energyTerms = array([" ++ X) = None /\ p_zeros false (T "energyTerms = array([" ++ X) = None /\
       eat (T "energyTerms = array([") (T "energyTerms = array([" ++ X) = Some X) by (intros; repeat split; reflexivity).
    cbn [stoks]. destruct (N (flat_map (fun l => flat_map tok_term l ++ [TOp ","]) ts ++ T "])")) as (N1 & N2 & N3). rewrite N1, N2. cbn [or_else].
    unfold p_energies. rewrite N3. cbn [opt_bind]. change (T "])") with [TOp "]"; TOp ")"]. rewrite parse_sums_toks; [reflexivity| |].
    + eapply Forall_impl; [|exact H]. intros t Q; apply Q.
    + rewrite app_length. cbn [length]. assert (G : (length ts <= length (flat_map (fun l => flat_map tok_term l ++ [TOp ","]) ts))%nat); [|lia].
      clear. induction ts as [|t ts IH]; [cbn; lia|]. cbn [flat_map length]. rewrite !app_length. cbn [length]. lia.
  - reflexivity.
  - destruct H as [H1 H2]. unfold parse_stmt. cbn [stoks]. set (P := T "num = fast_logsumexp(energyTerms, [").
    assert (N : forall X, p_zeros true (P ++ X) = None /\ p_zeros false (P ++ X) = None /\ p_energies (P ++ X) = None /\ p_logz (P ++ X) = None /\ eat P (P ++ X) = Some X)
      by (intros; repeat split; reflexivity).
    destruct (N (int_toks a ++ T "])")) as (N1 & N2 & N3 & N4 & N5). rewrite N1, N2, N3, N4. cbn [or_else]. unfold p_num. fold P. rewrite N5. cbn [opt_bind].
    change (T "])") with [TOp "]"; TOp ")"]. rewrite parse_int_toks by assumption. reflexivity.
  - reflexivity.
  - reflexivity.
  - destruct H as [H1 H2]. unfold parse_stmt. cbn [stoks]. set (P := T "Pout[").
    assert (N : forall X, p_zeros true (P ++ TNum k :: X) = None /\ p_zeros false (P ++ TNum k :: X) = None /\ p_energies (P ++ TNum k :: X) = None /\ p_logz (P ++ TNum k :: X) = None
       /\ p_num (P ++ TNum k :: X) = None /\ p_cout (P ++ TNum k :: X) = None /\ p_nan (P ++ TNum k :: X) = None /\ eat P (P ++ TNum k :: X) = Some (TNum k :: X))
      by (intros; repeat split; reflexivity).
    destruct (N (T "] = exp(" ++ flat_map tok_term t ++ T "- logZ )")) as (N1 & N2 & N3 & N4 & N5 & N6 & N7 & N8). rewrite N1, N2, N3, N4, N5, N6, N7. cbn [or_else].
    unfold p_pout. fold P. rewrite N8. cbn [opt_bind num].
    assert (N9 : forall X, eat (T "] = exp(") (T "] = exp(" ++ X) = Some X) by reflexivity. rewrite N9. cbn [opt_bind].
    rewrite parse_terms_toks by reflexivity. destruct t as [|x t]; [congruence|]. reflexivity.
  - reflexivity.
  - destruct c; reflexivity.
  - reflexivity.
Qed.

Definition body_end (rest : list (nat * list tok)) : Prop := match rest with [] => True | (k, _) :: _ => k = 0%nat end.

Lemma slines_hd hp ss rest : body_end rest -> match flat_map (slines hp) ss ++ rest with (9%nat, _) :: _ => False | _ => True end.
Proof.
  intros H. destruct ss as [|s ss].
  - destruct rest as [|[k l] rest]; [exact I|]. cbn in *. subst. exact I.
  - destruct s; try exact I. destruct hp; exact I.
Qed.

Lemma parse_body_lines hp ss rest : Forall stmt_ok ss -> body_end rest -> parse_body (flat_map (slines hp) ss ++ rest) = Some (ss, rest).
Proof.
  intros Hs Hr. induction ss as [|s ss IH].
  - cbn [flat_map app]. destruct rest as [|[k l] rest]; [reflexivity|]. cbn in Hr. subst k. reflexivity.
  - inversion Hs; subst. cbn [flat_map]. rewrite <- app_assoc. specialize (IH H2). assert (Hh := slines_hd hp ss rest Hr). set (R := flat_map (slines hp) ss ++ rest) in *.
    assert (One : parse_body ((4%nat, stoks hp s) :: R) = Some (s :: ss, rest)).
    { transitivity (opt_bind (parse_stmt (stoks hp s)) (fun s => opt_bind (parse_body R) (fun x => Some (s :: fst x, snd x)))).
      - destruct R as [|[k l] R]; [reflexivity|]. cbn [parse_body]. do 10 (destruct k as [|k]; [try reflexivity|]); try reflexivity. contradiction.
      - rewrite parse_stoks by assumption. cbn [opt_bind]. rewrite IH. reflexivity. }
    destruct s; try exact One. destruct hp; [|exact One].
    change (slines true SNan ++ R) with ((4%nat, T "for i in range(Cout.size):") :: (9%nat, T "if isnan(Cout[i]):") :: (13%nat, T "Cout[i] = 0.") :: R).
    transitivity (opt_bind (nan_loop (T "for i in range(Cout.size):") (T "if isnan(Cout[i]):") (T "Cout[i] = 0.")) (fun _ => opt_bind (parse_body R) (fun x => Some (SNan :: fst x, snd x)))); [reflexivity|].
    rewrite IH. reflexivity.
Qed.

(** ** Lines *)
Definition ltoks (ls : list (nat * list tok)) : list tok := flat_map (fun kl => TLine (fst kl) :: snd kl) ls.
Definition lexes (t : text) (ls : list (nat * list tok)) : Prop := forall rest, lex (LBol 0) 0 (t ++ rest) = ltoks ls ++ lex (LBol 0) 0 rest.

Lemma lexes_app t1 l1 t2 l2 : lexes t1 l1 -> lexes t2 l2 -> lexes (t1 ++ t2) (l1 ++ l2).
Proof. intros H1 H2 rest. rewrite <- app_assoc, H1, H2. unfold ltoks. rewrite flat_map_app, <- app_assoc. reflexivity. Qed.
Lemma lexes_nil : lexes [] [].
Proof. intros rest. reflexivity. Qed.
Lemma lexes_flat {A} (f : A -> text) g l : (forall a, In a l -> lexes (f a) (g a)) -> lexes (flat_map f l) (flat_map g l).
Proof. induction l as [|a l IH]; intros H; [apply lexes_nil|]. cbn [flat_map]. apply lexes_app; [apply H; left; reflexivity|apply IH; intros; apply H; right; assumption]. Qed.

Lemma comment_skip c r s : Forall (fun x => x <> nl) c -> lex (LComment r) 0 (c ++ nl :: s) = lex (LBol 0) 0 s.
Proof.
  induction c as [|x c IH]; intros H; [reflexivity|]. inversion H; subst. cbn [app lex lex_step]. replace (Ascii.eqb x nl) with false by (symmetry; apply Ascii.eqb_neq; assumption).
  cbn [app]. now apply IH.
Qed.
Lemma lexes_comment c : Forall (fun x => x <> nl) c -> lexes ("#" :: c ++ [nl]) [].
Proof. intros H rest. cbn [app ltoks flat_map]. rewrite <- app_assoc. cbn [app]. change (lex (LBol 0) 0 ("#" :: c ++ nl :: rest)) with (lex (LComment true) 0 (c ++ nl :: rest)). now apply comment_skip. Qed.

Definition no_line (l : list tok) : Prop := Forall (fun t => match t with TLine _ => False | _ => True end) l.
Lemma tok_lines_app h ls : no_line h -> tok_lines (h ++ ltoks ls) = (h ++ fst (tok_lines (ltoks ls)), snd (tok_lines (ltoks ls))).
Proof.
  induction h as [|t h IH]; intros H; [cbn [app]; destruct (tok_lines (ltoks ls)); reflexivity|]. inversion H; subst. cbn [app tok_lines]. rewrite IH by assumption. destruct t; try reflexivity. contradiction.
Qed.
Lemma tok_lines_ltoks ls : Forall (fun kl => no_line (snd kl)) ls -> tok_lines (ltoks ls) = ([], ls).
Proof.
  induction ls as [|[k l] ls IH]; intros H; [reflexivity|]. inversion H; subst. unfold ltoks. cbn [flat_map fst snd app tok_lines]. fold (ltoks ls). cbn [snd] in *.
  rewrite tok_lines_app by assumption. rewrite IH by assumption. cbn [fst snd]. rewrite app_nil_r. reflexivity.
Qed.
Lemma no_line_app a b : no_line a -> no_line b -> no_line (a ++ b).
Proof. intros; apply Forall_app; auto. Qed.
Lemma no_line_terms l : no_line (flat_map tok_term l).
Proof. induction l as [|[neg [|c i]] l IH]; cbn [flat_map]; [constructor| |]; apply no_line_app; auto; repeat constructor. Qed.
Lemma no_line_ints l : no_line (int_toks l).
Proof.
  assert (G : forall z, no_line (ztok z)) by (intros [|p|p]; repeat constructor).
  induction l as [|z l IH]; [constructor|]. destruct l as [|z2 l]; [apply G|]. apply no_line_app; [apply G|]. constructor; [exact I|exact IH].
Qed.
Lemma no_line_sums ts : no_line (flat_map (fun l => flat_map tok_term l ++ [TOp ","]) ts).
Proof. induction ts as [|t ts IH]; [constructor|]. cbn [flat_map]. apply no_line_app; [|exact IH]. apply no_line_app; [apply no_line_terms|repeat constructor]. Qed.
Lemma slines_no_line hp s : Forall (fun kl => no_line (snd kl)) (slines hp s).
Proof.
  destruct s as [c k|c a b|ts| |a|k| |k t| |c|]; cbn [slines]; try (constructor; [cbn [snd stoks]|constructor]).
  - destruct c, hp; repeat constructor.
  - repeat constructor.
  - apply no_line_app; [repeat constructor|]. apply no_line_app; [apply no_line_sums|repeat constructor].
  - repeat constructor.
  - apply no_line_app; [repeat constructor|]. apply no_line_app; [apply no_line_ints|repeat constructor].
  - repeat constructor.
  - destruct hp; repeat constructor.
  - apply no_line_app; [repeat constructor|]. constructor; [exact I|]. apply no_line_app; [repeat constructor|]. apply no_line_app; [apply no_line_terms|repeat constructor].
  - repeat constructor.
  - destruct c; repeat constructor.
  - repeat constructor.
Qed.
