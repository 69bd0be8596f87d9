(** Lemmas about the text of Potts equation files, continued: files that are cut off, and what a failed write leaves behind. *)
From Coq Require Import Ascii String.
From Verif Require Import Prelude Spec PreludeFacts M_Index M_Enum M_EqnText M_PottsText P_Enum P_EnumPotts P_EqnText P_EqnText2 P_EqnText3 P_EqnText4 P_PyText P_PottsText P_PottsText2.
Import ListNotations.
Local Open Scope char_scope.
Local Open Scope list_scope.

Lemma pp_not_return l s : In (Some s) [pp_assert l; pp_h l; pp_J l; pp_zeros true l; pp_zeros false l; pp_energies l; pp_logz l; pp_obs l; pp_p l] -> is_return s = false.
Proof.
  intros H. cbn [In] in H.
  repeat (destruct H as [H|H]; [unfold pp_assert, pp_h, pp_J, pp_zeros, pp_energies, pp_logz, pp_obs, pp_p, opt_bind, num, done in H;
    repeat match type of H with match ?x with _ => _ end = _ => destruct x; try discriminate end; injection H as <-; reflexivity|]). destruct H.
Qed.

Lemma or_else_in {A} (a b : option A) s l : (a = Some s -> In (Some s) l) -> (b = Some s -> In (Some s) l) -> or_else a b = Some s -> In (Some s) l.
Proof. destruct a; cbn; auto. Qed.

Lemma parse_return l : is_return (parse_pstmt l) = true -> exists l', l = TName (lit "return") :: l'.
Proof.
  unfold parse_pstmt. destruct l as [|[r| | | | |] l']; try discriminate. destruct (text_eqb r (lit "return")) eqn:E.
  - intros _. apply text_eqb_eq in E. subst. now exists l'.
  - set (L := TName r :: l'). destruct (or_else (pp_assert L) _) as [s|] eqn:Eo; [|discriminate]. intros H. exfalso.
    assert (Hin : In (Some s) [pp_assert L; pp_h L; pp_J L; pp_zeros true L; pp_zeros false L; pp_energies L; pp_logz L; pp_obs L; pp_p L]).
    { revert Eo. repeat (apply or_else_in; [intros ->; cbn [In]; auto 12|]). intros ->. cbn [In]. auto 12. }
    apply pp_not_return in Hin. congruence.
Qed.

(** A line that does not begin like a return statement. *)
Definition starts_other (l : list tok) : Prop := exists w r, l = TName w :: r /\ forall v, w <> lit "return" ++ v.

Lemma cut_other l q : starts_other l -> cut_toks l q -> is_return (parse_pstmt q) = false.
Proof.
  intros (w & r & -> & Hw) (j & C). destruct (is_return (parse_pstmt q)) eqn:E; [|reflexivity]. exfalso. apply parse_return in E. destruct E as (q' & ->).
  assert (Hw0 : w <> lit "return") by (specialize (Hw []); rewrite app_nil_r in Hw; exact Hw).
  destruct j as [|j]; cbn [firstn skipn app] in C.
  - destruct C as [C|[(a & v & r2 & C1 & C2)|(x & y & r2 & C1 & _)]]; [discriminate| |discriminate]. injection C1 as C1 _. injection C2 as <- _. exact (Hw v C1).
  - destruct C as [C|[(a & v & r2 & _ & C2)|(x & y & r2 & _ & C2)]]; [injection C as C _|injection C2 as C _|injection C2 as C _]; apply Hw0; symmetry; exact C.
Qed.

Lemma parse_return_name w : parse_pstmt [TName (lit "return"); TName w] = PSReturn [TName w].
Proof. reflexivity. Qed.

Lemma cut_return x q : cut_toks [TName (lit "return"); TName x] q ->
  is_return (parse_pstmt q) = false \/ parse_pstmt q = PSReturn [] \/ exists w v, x = w ++ v /\ parse_pstmt q = PSReturn [TName w].
Proof.
  intros (j & C). destruct j as [|[|j]]; cbn [firstn skipn app] in C.
  - destruct C as [->|[(a & v & r & C1 & ->)|(y & z & r & C1 & _)]]; [left; reflexivity| |discriminate].
    destruct (is_return (parse_pstmt [TName a])) eqn:E; [|now left]. apply parse_return in E. destruct E as (l' & E). injection E as -> <-. right. left. reflexivity.
  - destruct C as [->|[(a & v & r & C1 & ->)|(y & z & r & C1 & _)]]; [right; left; reflexivity| |discriminate].
    injection C1 as -> _. right. right. exists a, v. split; reflexivity.
  - assert (q = [TName (lit "return"); TName x]).
    { destruct j; cbn [firstn skipn] in C; (destruct C as [->|[(a & v & r & C1 & _)|(y & z & r & C1 & _)]]; [reflexivity|discriminate|discriminate]). }
    subst q. right. right. exists x, []. split; [now rewrite app_nil_r|reflexivity].
Qed.

Section Cut.
Variable other : list tok -> pframe -> result pframe.
Variable params : list R.

Lemma prun_cut (L : list (list tok)) x b val :
  Forall starts_other L -> (x = lit "observables" \/ x = lit "p") ->
  (b = L ++ [[TName (lit "return"); TName x]] \/ exists j, b = firstn j (L ++ [[TName (lit "return"); TName x]]) \/
     exists y q, nth_error (L ++ [[TName (lit "return"); TName x]]) j = Some y /\ cut_toks y q /\ b = firstn j (L ++ [[TName (lit "return"); TName x]]) ++ [q]) ->
  prun other params pframe0 (map parse_pstmt b) = Ok (Some val) -> prun other params pframe0 (map parse_pstmt (L ++ [[TName (lit "return"); TName x]])) = Ok (Some val).
Proof.
  intros HL Hx Hb H. set (R := [TName (lit "return"); TName x]) in *. destruct Hb as [->|(j & Hb)]; [exact H|].
  assert (HN : forall i, forallb (fun s => negb (is_return s)) (map parse_pstmt (firstn i L)) = true).
  { intros i. apply forallb_forall. intros s Hs. apply in_map_iff in Hs. destruct Hs as (l & <- & Hl). assert (Hl2 : In l L) by (rewrite <- (firstn_skipn i L); apply in_or_app; now left).
    rewrite Forall_forall in HL. apply negb_true_iff, (cut_other l); [now apply HL|]. exists (length l). left. symmetry. apply firstn_all. }
  destruct (Nat.le_gt_cases j (length L)) as [Hj|Hj].
  - assert (EF : firstn j (L ++ [R]) = firstn j L) by (rewrite firstn_app; replace (j - length L)%nat with 0%nat by lia; cbn [firstn]; apply app_nil_r). rewrite EF in Hb.
    destruct Hb as [->|(y & q & N & K & ->)]; [apply prun_stay in H; [discriminate|apply HN]|].
    rewrite map_app in H. cbn [map] in H. destruct (Nat.eq_dec j (length L)) as [->|Hne].
    + rewrite nth_error_app2, Nat.sub_diag in N by lia. cbn [nth_error] in N. injection N as <-. rewrite firstn_all in H. specialize (HN (length L)). rewrite firstn_all in HN.
      destruct (cut_return x q K) as [E|[E|(w & v & Ew & E)]].
      * exfalso. apply prun_stay in H; [discriminate|]. rewrite forallb_app, HN. cbn [forallb]. rewrite E. reflexivity.
      * exfalso. rewrite E in H. destruct (prun_app _ _ _ _ _ _ HN H) as (fr & H1 & _). cbn in H1. discriminate.
      * rewrite E in H. destruct (prun_app _ _ _ _ _ _ HN H) as (fr & H1 & H2). rewrite map_app, H2. cbn [map]. change (parse_pstmt R) with (PSReturn [TName x]).
        assert (Hwx : w = x \/ (text_eqb w (lit "observables") = false /\ text_eqb w (lit "p") = false)).
        { destruct (text_eqb w (lit "observables")) eqn:E1; [|destruct (text_eqb w (lit "p")) eqn:E2; [|right; auto]].
          - apply text_eqb_eq in E1. subst w. destruct Hx as [Hx|Hx]; [left; congruence|]. exfalso. rewrite Hx in Ew. discriminate.
          - apply text_eqb_eq in E2. subst w. destruct Hx as [Hx|Hx]; [exfalso; rewrite Hx in Ew; discriminate|left; congruence]. }
        destruct Hwx as [->|[E1 E2]]; [exact H1|]. exfalso. cbn [prun pexec] in H1. rewrite E1, E2 in H1. discriminate.
    + rewrite nth_error_app1 in N by lia. exfalso. apply prun_stay in H; [discriminate|]. rewrite forallb_app, HN. cbn [forallb]. apply nth_error_In in N. rewrite Forall_forall in HL.
      rewrite (cut_other y q (HL y N) K). reflexivity.
  - assert (EF : firstn j (L ++ [R]) = L ++ [R]) by (apply firstn_all2; rewrite app_length; cbn; lia). rewrite EF in Hb. destruct Hb as [->|(y & q & N & _)]; [exact H|].
    exfalso. assert (nth_error (L ++ [R]) j <> None) by congruence. apply nth_error_Some in H0. rewrite app_length in H0. cbn in H0. lia.
Qed.
End Cut.

Ltac name_line := eexists; eexists; split; [reflexivity|intros v Hv; discriminate].
Lemma open_other n k obs size es : Forall starts_other (open_lines n k obs size es).
Proof.
  unfold open_lines. apply Forall_cons; [name_line|]. apply Forall_cons; [name_line|]. apply Forall_cons; [name_line|]. apply Forall_cons; [destruct obs; name_line|].
  apply Forall_cons; [name_line|]. apply Forall_cons; [name_line|]. apply Forall_nil.
Qed.
Lemma calc_other f : Forall starts_other (open_lines (pf_n f) (pf_k f) true (potts_nparam (pf_n f) (pf_k f)) (pf_energies f) ++ map obs_toks (number (pf_coeffs f))).
Proof. apply Forall_app. split; [apply open_other|]. apply Forall_map, Forall_forall. intros kc _. name_line. Qed.
Lemma p_other f : Forall starts_other (open_lines (pf_n f) (pf_k f) false (pf_k f ^ pf_n f) (pf_energies f) ++ map p_toks (range (length (pf_energies f)))).
Proof. apply Forall_app. split; [apply open_other|]. apply Forall_map, Forall_forall. intros kc _. name_line. Qed.

Lemma def_name_calc f : Forall (fun l => def_name l = None) (calc_lines f).
Proof.
  unfold calc_lines, open_lines. repeat (apply Forall_app; split).
  - repeat (apply Forall_cons; [reflexivity|]). apply Forall_nil.
  - apply Forall_map, Forall_forall. intros kc _. reflexivity.
  - apply Forall_cons; [reflexivity|apply Forall_nil].
Qed.
Lemma def_name_p f : Forall (fun l => def_name l = None) (p_lines f).
Proof.
  unfold p_lines, open_lines. repeat (apply Forall_app; split).
  - repeat (apply Forall_cons; [reflexivity|]). apply Forall_nil.
  - apply Forall_map, Forall_forall. intros kc _. reflexivity.
  - apply Forall_cons; [reflexivity|apply Forall_nil].
Qed.

Lemma cut_pair (B : list (list tok)) (b : list (nat * list tok)) :
  (b = map (pair 8%nat) B \/ exists j, b = firstn j (map (pair 8%nat) B) \/ exists k x q, nth_error (map (pair 8%nat) B) j = Some (k, x) /\ cut_toks x q /\ b = firstn j (map (pair 8%nat) B) ++ [(k, q)]) ->
  map snd b = B \/ exists j, map snd b = firstn j B \/ exists y q, nth_error B j = Some y /\ cut_toks y q /\ map snd b = firstn j B ++ [q].
Proof.
  assert (E : forall L : list (list tok), map snd (map (pair 8%nat) L) = L) by (intros; rewrite map_map; apply map_id).
  intros [->|(j & [->|(k & x & q & N & K & ->)])]; [left; apply E|right; exists j; left; now rewrite firstn_map, E|].
  right. exists j. right. exists x, q. split; [|split; [exact K|rewrite map_app, firstn_map, E; reflexivity]].
  rewrite nth_error_map in N. destruct (nth_error B j) as [y|]; [|discriminate]. cbn in N. congruence.
Qed.

(** A file that is cut off returns nothing else than the complete file. *)
Lemma call_cut ot other t f u v name params val : lexes (untab t) (potts_lines f) -> t = u ++ v -> (name = "calc_observables" \/ name = "p")%string ->
  call_potts ot other u name params = Ok (Some val) -> call_potts ot other t name params = Ok (Some val).
Proof.
  intros Hlex Ht Hname H. unfold call_potts in *. destruct (import_fun potts_imps ot u name) as [b|] eqn:Ei; [|discriminate]. cbn [bind] in H.
  assert (Hts : exists ts, py_tokens u = Ok ts). { unfold import_fun in Ei. destruct (py_tokens u) as [ts|]; [eauto|discriminate]. }
  destruct Hts as (ts & Ets). destruct (py_tokens_cut t _ u v ts Hlex Ht Ets) as (ls' & Hcut & Ets2).
  destruct (import_fun_inv _ _ _ _ _ _ Ets Ei) as (pre & l & post & E1 & E2 & Hb & Hnz & Hpost). rewrite <- (map_map snd parse_pstmt) in H.
  assert (Hnl : Forall (fun kl => no_line (snd kl)) ls').
  { assert (HN := no_line_potts f). destruct Hcut as (m & _ & [->|(k & x & q & N & K & ->)]).
    - rewrite <- (firstn_skipn m (potts_lines f)) in HN. apply Forall_app in HN. apply HN.
    - apply Forall_app. split; [rewrite <- (firstn_skipn m (potts_lines f)) in HN; apply Forall_app in HN; apply HN|]. apply Forall_cons; [|apply Forall_nil]. cbn [snd].
      apply nth_error_In in N. rewrite Forall_forall in HN. specialize (HN _ N). cbn [snd] in HN. unfold no_line in *. destruct K as (j & K).
      assert (HF : Forall (fun t => match t with TLine _ => False | _ => True end) (firstn j x)) by (rewrite <- (firstn_skipn j x) in HN; apply Forall_app in HN; apply HN).
      destruct K as [->|[(w & z & r & _ & ->)|(a & y & r & _ & ->)]]; [exact HF| |]; apply Forall_app; (split; [exact HF|apply Forall_cons; [exact I|apply Forall_nil]]). }
  rewrite Ets2, tok_lines_ltoks in E1 by exact Hnl. cbn [snd] in E1.
  destruct (import_potts ot t f Hlex) as [IC IP].
  assert (Nz : forall L : list (list tok), Forall (fun kl => fst kl <> 0%nat) (map (pair 8%nat) L)) by (intros L; apply Forall_map, Forall_forall; intros; discriminate).
  assert (Hdc := def_name_calc f). assert (Hdp := def_name_p f).
  assert (NN : forall (L : list (list tok)) nm, Forall (fun l => def_name l = None) L -> Forall (fun kl : nat * list tok => def_name (snd kl) <> Some nm) (map (pair 8%nat) L)).
  { intros L nm HL. apply Forall_map. eapply Forall_impl; [|exact HL]. intros a Ha. cbn [snd]. congruence. }
  assert (ES : forall L : list (list tok), map snd (map (pair 8%nat) L) = L) by (intros; rewrite map_map; apply map_id).
  destruct Hname as [-> | ->].
  - rewrite IC. cbn [bind]. rewrite <- map_map, ES. assert (C := cut_fun (potts_lines f) ls' potts_imports (T "def calc_observables(params):") (map (pair 8%nat) (calc_lines f))
      ((0%nat, T "def p(params):") :: map (pair 8%nat) (p_lines f)) (lit "calc_observables") pre l b post eq_refl (Nz _) eq_refl).
    specialize (C ltac:(apply Forall_app; split; [repeat (apply Forall_cons; [discriminate|]); apply Forall_nil|apply Forall_app; split; [now apply NN|apply Forall_cons; [discriminate|now apply NN]]])).
    specialize (C Hcut E1 E2 Hb Hnz Hpost). apply cut_pair in C. revert C. revert H. generalize (map snd b). intros body H C.
    unfold calc_lines in *. rewrite app_assoc in *. change (T "return observables") with [TName (lit "return"); TName (lit "observables")] in *.
    refine (prun_cut other params _ _ body val (calc_other f) _ C H). now left.
  - rewrite IP. cbn [bind]. rewrite <- map_map, ES. assert (C := cut_fun (potts_lines f) ls' (potts_imports ++ (0%nat, T "def calc_observables(params):") :: map (pair 8%nat) (calc_lines f)) (T "def p(params):") (map (pair 8%nat) (p_lines f))
      [] (lit "p") pre l b post). rewrite app_nil_r in C. specialize (C ltac:(unfold potts_lines; rewrite <- app_assoc; reflexivity) (Nz _) I).
    specialize (C ltac:(apply Forall_app; split; [apply Forall_app; split; [repeat (apply Forall_cons; [discriminate|]); apply Forall_nil|apply Forall_cons; [discriminate|now apply NN]]|now apply NN])).
    specialize (C Hcut E1 E2 Hb Hnz Hpost). apply cut_pair in C. revert C. revert H. generalize (map snd b). intros body H C.
    unfold p_lines in *. rewrite app_assoc in *. change (T "return p") with [TName (lit "return"); TName (lit "p")] in *.
    refine (prun_cut other params _ _ body val (p_other f) _ C H). now right.
Qed.

(** ** What a failed write leaves behind *)
Lemma potts_term_ne n s t : (0 < n)%nat -> potts_term n s = Ok t -> t <> [].
Proof.
  intros Hn H. unfold potts_term in H. destruct (mapM _ (range n)) as [hs|] eqn:E; [|discriminate]. cbn [bind] in H. apply mapM_size in E. unfold range in E. rewrite seq_length in E.
  injection H as <-. destruct hs; [cbn in E; lia|discriminate].
Qed.

Lemma lines_until_spec l : Forall (fun r => forall t, r = Ok t -> t <> []) l -> exists es, fst (lines_until l) = flat_map potts_energy_line es /\ Forall (fun t => t <> []) es.
Proof.
  induction l as [|[t|e] l IH]; intros H; [exists []; split; [reflexivity|constructor]| |exists []; split; [reflexivity|constructor]].
  apply Forall_cons_iff in H. destruct H as [H1 H2]. destruct (IH H2) as (es & E & F). exists (t :: es). cbn [lines_until]. destruct (lines_until l) as [s r]. cbn [fst] in *. subst s. split; [reflexivity|].
  apply Forall_cons; [now apply H1|exact F].
Qed.

Lemma left_behind lic date n k es : lic_ok lic -> plain_line date -> Forall (fun t => t <> []) es ->
  py_tokens (potts_header lic date n k ++ line "def calc_observables(params):" ++ potts_open n k "observables" (potts_nparam n k) ++ flat_map potts_energy_line es) = Err GenericException.
Proof.
  intros Hl Hd He. unfold py_tokens. rewrite !(untab_app (potts_header _ _ _ _)), <- app_assoc. rewrite (lexes_u_header lic date n k Hl Hd).
  rewrite (untab_app (line _)), untab_app, <- !app_assoc.
  unfold potts_open. repeat (rewrite ?untab_tb, ?untab_app, ?untab_str). rewrite <- !app_assoc.
  assert (E0 : forall X, lex (LBol 0) 0 (untab (line "def calc_observables(params):") ++ X) = TLine 0 :: T "def calc_observables(params):" ++ lex (LBol 0) 0 X) by reflexivity. rewrite E0.
  assert (E1 : forall X, lex (LBol 0) 0 (lit "        " ++ untab (lit "assert params.size==") ++ X) = TLine 8 :: T "assert params.size==" ++ lex LMid 0 X) by reflexivity.
  rewrite E1, lex_str_nat by (split; reflexivity).
  assert (E2 : forall X, lex LMid 0 (untab [nl] ++ lit "        " ++ untab (lit "h = params[:") ++ X) = TLine 8 :: T "h = params[:" ++ lex LMid 1 X) by reflexivity.
  rewrite E2, lex_str_nat by (split; reflexivity).
  assert (E3 : forall X, lex LMid 1 (untab (line "]") ++ lit "        " ++ untab (lit "J = params[") ++ X) = TOp "]" :: TLine 8 :: T "J = params[" ++ lex LMid 1 X) by reflexivity.
  rewrite E3, lex_str_nat by (split; reflexivity).
  assert (E4 : forall X, lex LMid 1 (untab (line ":]") ++ lit "        " ++ untab (lit "observables") ++ untab (lit " = zeros(") ++ X)
                         = T ":]" ++ TLine 8 :: T "observables = zeros(" ++ lex LMid 1 X) by reflexivity.
  rewrite E4, lex_str_nat by (split; reflexivity).
  assert (E5 : forall X, lex LMid 1 (untab (line ")") ++ lit "        " ++ untab (lit "energies = [") ++ X) = TOp ")" :: TLine 8 :: T "energies = [" ++ lex LMid 1 X) by reflexivity.
  rewrite E5, lex_energy_lines by exact He. change (lex LMid 1 [nl; "$"; nl; "$"]) with [TOp "$"; TOp "$"].
  assert (G : forall p, match rev (p ++ [TOp "$"; TOp "$"]) with TOp "$" :: TLine 0 :: TOp "$" :: TLine 0 :: r => Ok (rev r) | _ => Err GenericException end = Err GenericException).
  { intros p. rewrite rev_app_distr. reflexivity. }
  match goal with |- match rev ?X with _ => _ end = _ => assert (EX : exists p, X = p ++ [TOp "$"; TOp "$"]) end.
  { eexists. rewrite !app_comm_cons, !app_assoc, ?app_comm_cons. repeat (rewrite ?app_comm_cons, ?app_assoc). reflexivity. }
  destruct EX as (p & ->). apply G.
Qed.
