(** Lemmas about the text of Potts equation files, continued: import, execution, files that are cut off. *)
From Coq Require Import Ascii String.
From Verif Require Import Prelude Spec PreludeFacts M_Index M_Enum M_EqnText M_PottsText P_Enum P_EnumPotts P_EqnText P_EqnText2 P_EqnText3 P_EqnText4 P_PyText P_PottsText.
Import ListNotations.
Local Open Scope char_scope.
Local Open Scope list_scope.

(** ** Parsing *)
Lemma parse_patoms_toks t r : t <> [] -> match r with TOp "+" :: _ => False | _ => True end -> parse_patoms (patoms_toks t ++ r) = Some (t, r).
Proof.
  intros Ht Hr. assert (G : forall a, parse_patoms (patom_toks a ++ r) = Some ([a], r)).
  { intros [i|i]; cbn; destruct r as [|[s|v|c| |v|] r]; try reflexivity; destruct c as [[] [] [] [] [] [] [] []]; try reflexivity; contradiction. }
  induction t as [|a t IH]; [congruence|]. destruct t as [|b t]; [apply G|].
  change (patoms_toks (a :: b :: t)) with (patom_toks a ++ TOp "+" :: patoms_toks (b :: t)). rewrite <- app_assoc. cbn [app].
  specialize (IH ltac:(discriminate)). destruct a as [i|i]; cbn [patom_toks app parse_patoms Ascii.eqb Bool.eqb]; rewrite IH; reflexivity.
Qed.

Lemma patoms_toks_hd t : t <> [] -> exists s r, patoms_toks t = TName s :: r.
Proof. destruct t as [|[i|i] [|b t]]; [congruence| | | |]; intros _; cbn; eauto. Qed.

Lemma parse_psums_toks ts r : forall f, Forall (fun t => t <> []) ts -> (length ts < f)%nat ->
  parse_psums f (flat_map (fun t => patoms_toks t ++ [TOp ","]) ts ++ TOp "]" :: r) = Some (ts, TOp "]" :: r).
Proof.
  induction ts as [|t ts IH]; intros f Hts Hf; (destruct f as [|f]; [lia|]); [reflexivity|]. apply Forall_cons_iff in Hts. destruct Hts as [Ht Hts]. cbn [length] in Hf.
  cbn [flat_map]. rewrite <- !app_assoc. cbn [app]. specialize (IH f Hts ltac:(lia)).
  assert (E := parse_patoms_toks t (TOp "," :: flat_map (fun t => patoms_toks t ++ [TOp ","]) ts ++ TOp "]" :: r) Ht I).
  destruct (patoms_toks_hd t Ht) as (s & q & Hq). rewrite Hq in *. cbn [app] in *. cbn [parse_psums]. rewrite E. cbn [opt_bind fst snd]. rewrite IH. reflexivity.
Qed.

Lemma parse_nums_toks r : forall m s bs, (length s <= m)%nat -> read_elems s = Ok bs -> parse_nums (map ctok_tok s ++ TOp "]" :: r) = Some (map Nat.b2n bs, TOp "]" :: r).
Proof.
  induction m as [|m IH]; intros s bs Hm H.
  - destruct s; [|cbn in Hm; lia]. cbn in H. injection H as <-. reflexivity.
  - destruct s as [|[b| |] s]; cbn [read_elems] in H; try discriminate; [injection H as <-; reflexivity|].
    destruct s as [|[b2| |] s]; try discriminate; [injection H as <-; destruct b; reflexivity|].
    destruct (read_elems s) as [l|] eqn:E; [|discriminate]. cbn [bind] in H. injection H as <-. cbn [length] in Hm.
    specialize (IH s l ltac:(lia) E). destruct b; cbn [map ctok_tok app parse_nums]; rewrite IH; reflexivity.
Qed.

Definition bits (c : list ctok) : list nat := match read_list c with Ok bs => map Nat.b2n bs | Err _ => [] end.

Lemma parse_energies es : Forall (fun t => t <> []) es -> parse_pstmt (energies_toks es) = PSEnergies es.
Proof.
  intros H. unfold energies_toks. set (X := flat_map (fun t => patoms_toks t ++ [TOp ","]) es ++ T "]").
  transitivity (match opt_bind (parse_psums (length X) X) (fun x => opt_bind (eat (T "]") (snd x)) (fun l => done l (PSEnergies (fst x)))) with Some s => s | None => PSOther (T "energies = [" ++ X) end).
  - change (T "energies = [" ++ X) with (TName (lit "energies") :: TOp "=" :: TOp "[" :: X). cbv beta iota delta [parse_pstmt text_eqb lit list_ascii_of_string Ascii.eqb Bool.eqb andb].
    assert (E : pp_energies (TName (lit "energies") :: TOp "=" :: TOp "[" :: X) = opt_bind (parse_psums (length X) X) (fun x => opt_bind (eat (T "]") (snd x)) (fun l => done l (PSEnergies (fst x))))) by reflexivity.
    change (TName ["e"; "n"; "e"; "r"; "g"; "i"; "e"; "s"]) with (TName (lit "energies")). rewrite E.
    destruct (opt_bind (parse_psums (length X) X) _) eqn:Eo; reflexivity.
  - assert (L : (length es < length X)%nat).
    { unfold X. rewrite app_length. change (length (T "]")) with 1%nat. assert (length es <= length (flat_map (fun t => patoms_toks t ++ [TOp ","]) es))%nat; [|lia].
      clear. induction es as [|t es IH]; [reflexivity|]. cbn [flat_map length]. rewrite !app_length. cbn [length]. lia. }
    assert (EX : X = flat_map (fun t => patoms_toks t ++ [TOp ","]) es ++ TOp "]" :: []) by reflexivity.
    rewrite EX at 2. rewrite (parse_psums_toks es [] _ H L). reflexivity.
Qed.

Lemma parse_obs j c : (exists bs, read_list c = Ok bs) -> parse_pstmt (obs_toks (j, c)) = PSObs j (bits c).
Proof.
  intros (bs & H). unfold obs_toks, bits. cbn [fst snd]. rewrite H. unfold read_list in H.
  set (Y := map ctok_tok (filter (fun t => negb (is_nl t)) c) ++ T "])[0] - logZ)").
  assert (EY : Y = map ctok_tok (filter (fun t => negb (is_nl t)) c) ++ TOp "]" :: T ")[0] - logZ)") by reflexivity.
  assert (E := parse_nums_toks (T ")[0] - logZ)") _ _ bs (Nat.le_refl _) H). rewrite <- EY in E.
  assert (Q : pp_obs (T "observables[" ++ TNum j :: T "] = exp(fast_logsumexp(energies, [" ++ Y) = opt_bind (parse_nums Y) (fun x => opt_bind (eat (T "])[0] - logZ)") (snd x)) (fun l => done l (PSObs j (fst x))))) by reflexivity.
  rewrite E in Q. cbn [opt_bind fst snd] in Q.
  assert (Q2 : pp_obs (T "observables[" ++ TNum j :: T "] = exp(fast_logsumexp(energies, [" ++ Y) = Some (PSObs j (map Nat.b2n bs))) by exact Q.
  set (Z := T "observables[" ++ TNum j :: T "] = exp(fast_logsumexp(energies, [" ++ Y) in *.
  transitivity (match or_else (pp_obs Z) (pp_p Z) with Some s => s | None => PSOther Z end); [reflexivity|]. rewrite Q2. reflexivity.
Qed.

Definition open_stmts (n k : nat) (obs : bool) (size : nat) (es : list (list patom)) : list pstmt :=
  [PSAssert (potts_nparam n k); PSh (n * k); PSJ (n * k); PSZeros obs size; PSEnergies es; PSLogZ].
Definition calc_pstmts (f : potts_file) : list pstmt :=
  open_stmts (pf_n f) (pf_k f) true (potts_nparam (pf_n f) (pf_k f)) (pf_energies f) ++ map (fun kc => PSObs (fst kc) (bits (snd kc))) (number (pf_coeffs f)) ++ [PSReturn [TName (lit "observables")]].
Definition p_pstmts (f : potts_file) : list pstmt :=
  open_stmts (pf_n f) (pf_k f) false (pf_k f ^ pf_n f) (pf_energies f) ++ map (fun i => PSP i i) (range (length (pf_energies f))) ++ [PSReturn [TName (lit "p")]].

Lemma parse_open n k (obs : bool) size es : Forall (fun t => t <> []) es -> map parse_pstmt (open_lines n k obs size es) = open_stmts n k obs size es.
Proof. intros H. unfold open_lines, open_stmts. cbn [map]. rewrite parse_energies by exact H. destruct obs; reflexivity. Qed.

Lemma parse_calc f : file_ok f -> map parse_pstmt (calc_lines f) = calc_pstmts f.
Proof.
  intros [He Hc]. unfold calc_lines, calc_pstmts. rewrite !map_app, parse_open, map_map by exact He. f_equal. f_equal. apply map_ext_in. intros [j c] Hj. apply number_in in Hj.
  apply parse_obs. rewrite Forall_forall in Hc. now apply Hc.
Qed.
Lemma parse_p f : file_ok f -> map parse_pstmt (p_lines f) = p_pstmts f.
Proof. intros [He Hc]. unfold p_lines, p_pstmts. rewrite !map_app, parse_open, map_map by exact He. reflexivity. Qed.

(** ** Import of a complete file *)
Lemma no_line_patoms t : no_line (patoms_toks t).
Proof.
  assert (G : forall a, no_line (patom_toks a)) by (intros [i|i]; repeat constructor).
  induction t as [|a t IH]; [constructor|]. destruct t as [|b t]; [apply G|]. change (patoms_toks (a :: b :: t)) with (patom_toks a ++ TOp "+" :: patoms_toks (b :: t)).
  apply no_line_app; [apply G|]. constructor; [exact I|exact IH].
Qed.
Lemma no_line_open n k obs size es : Forall no_line (open_lines n k obs size es).
Proof.
  assert (E : no_line (flat_map (fun t => patoms_toks t ++ [TOp ","]) es)).
  { induction es as [|t es IH]; [constructor|]. cbn [flat_map]. apply no_line_app; [|exact IH]. apply no_line_app; [apply no_line_patoms|repeat constructor]. }
  unfold open_lines. apply Forall_cons; [repeat constructor|]. apply Forall_cons; [repeat constructor|]. apply Forall_cons; [repeat constructor|]. apply Forall_cons; [destruct obs; repeat constructor|].
  apply Forall_cons; [|apply Forall_cons; [repeat constructor|apply Forall_nil]]. apply no_line_app; [repeat constructor|]. apply no_line_app; [exact E|repeat constructor].
Qed.
Lemma no_line_obs kc : no_line (obs_toks kc).
Proof.
  apply no_line_app; [repeat constructor|]. constructor; [exact I|]. apply no_line_app; [repeat constructor|]. apply no_line_app; [|repeat constructor].
  apply Forall_map, Forall_forall. intros [[]| |] _; exact I.
Qed.
Lemma no_line_calc f : Forall no_line (calc_lines f).
Proof. apply Forall_app. split; [apply no_line_open|]. apply Forall_app. split; [apply Forall_map, Forall_forall; intros; apply no_line_obs|repeat constructor]. Qed.
Lemma no_line_p f : Forall no_line (p_lines f).
Proof. apply Forall_app. split; [apply no_line_open|]. apply Forall_app. split; [apply Forall_map, Forall_forall; intros; repeat constructor|repeat constructor]. Qed.
Lemma no_line_potts f : Forall (fun kl => no_line (snd kl)) (potts_lines f).
Proof.
  unfold potts_lines. apply Forall_app. split; [repeat constructor|]. constructor; [repeat constructor|]. apply Forall_app. split; [apply Forall_map; cbn [snd]; apply no_line_calc|].
  constructor; [repeat constructor|]. apply Forall_map. cbn [snd]. apply no_line_p.
Qed.

Lemma blocks_body (L : list (list tok)) rest bs : blocks rest = ([], bs) -> blocks (map (pair 8%nat) L ++ rest) = (map (pair 8%nat) L, bs).
Proof. intros H. induction L as [|l L IH]; [exact H|]. cbn [map app blocks]. rewrite IH. reflexivity. Qed.
Lemma body_ok_8 (L : list (list tok)) : L <> [] -> body_ok (map (pair 8%nat) L) = true.
Proof. destruct L as [|l L]; [congruence|]. intros _. cbn [map body_ok]. apply forallb_forall. intros x Hx. apply in_map_iff in Hx. destruct Hx as (y & <- & _). reflexivity. Qed.

Lemma import_potts other t f : lexes (untab t) (potts_lines f) ->
  import_fun potts_imps other t "calc_observables" = Ok (map (pair 8%nat) (calc_lines f)) /\ import_fun potts_imps other t "p" = Ok (map (pair 8%nat) (p_lines f)).
Proof.
  intros H. unfold import_fun. rewrite (py_tokens_lexes _ _ H). cbn [bind]. rewrite tok_lines_ltoks by apply no_line_potts. cbn [snd].
  assert (E : blocks (potts_lines f) = ([], [(T "from numpy import zeros, exp", []); (T "from ..enumerate import fast_logsumexp", []);
     (T "def calc_observables(params):", map (pair 8%nat) (calc_lines f)); (T "def p(params):", map (pair 8%nat) (p_lines f))])).
  { unfold potts_lines, potts_imports. cbn [app blocks].
    rewrite (blocks_body (calc_lines f) _ [(T "def p(params):", map (pair 8%nat) (p_lines f))]); [reflexivity|]. cbn [blocks].
    assert (Q := blocks_body (p_lines f) [] [] eq_refl). rewrite app_nil_r in Q. rewrite Q. reflexivity. }
  rewrite E. set (BC := map (pair 8%nat) (calc_lines f)). set (BP := map (pair 8%nat) (p_lines f)).
  assert (HC : body_ok BC = true) by (apply body_ok_8; discriminate). assert (HP : body_ok BP = true) by (apply body_ok_8; discriminate).
  assert (Er : run_module potts_imps other [(T "from numpy import zeros, exp", []); (T "from ..enumerate import fast_logsumexp", []); (T "def calc_observables(params):", BC); (T "def p(params):", BP)] 0 []
    = Ok (2%nat, [(lit "p", BP); (lit "calc_observables", BC)])).
  { transitivity (if body_ok BC then (if body_ok BP then Ok (2%nat, [(lit "p", BP); (lit "calc_observables", BC)]) else Err GenericException) else Err GenericException); [reflexivity|]. now rewrite HC, HP. }
  rewrite Er. cbn [bind fst snd].
  split.
  - change (find_fun (lit "calc_observables") [(lit "p", BP); (lit "calc_observables", BC)]) with (Some BC). reflexivity.
  - change (find_fun (lit "p") [(lit "p", BP); (lit "calc_observables", BC)]) with (Some BP). reflexivity.
Qed.

(** ** Execution *)
Local Open Scope R_scope.

Lemma INR_b2n b : INR (Nat.b2n b) = b2R b.
Proof. destruct b; reflexivity. Qed.

Lemma mapM_size {A B} (f : A -> result B) l : forall r, mapM f l = Ok r -> length r = length l.
Proof.
  induction l as [|a l IH]; intros r H; cbn [mapM] in H; [injection H as <-; reflexivity|]. destruct (f a); [|discriminate]. cbn [bind] in H. destruct (mapM f l) as [r'|]; [|discriminate].
  cbn [bind] in H. injection H as <-. cbn [length]. now rewrite (IH r' eq_refl).
Qed.

Section Run.
Variable other : list tok -> pframe -> result pframe.
Variable params : list R.

Lemma prun_obs e z cs : forall fr u w vals rest, pv_energies fr = Some e -> pv_logz fr = Some z -> pv_obs fr = Some (u ++ w) -> length w = length cs ->
  mapM (fun c => bind (read_list c) (fun bs => bind (fast_logsumexp e (Some (map b2R bs))) (fun num => Ok (exp_diff (fst num) z)))) cs = Ok vals ->
  exists fr', prun other params fr (map (fun kc => PSObs (fst kc) (bits (snd kc))) (combine (seq (length u) (length cs)) cs) ++ rest) = prun other params fr' rest /\ pv_obs fr' = Some (u ++ vals).
Proof.
  induction cs as [|c cs IH]; intros fr u w vals rest He Hz Hc Hl Hm.
  - destruct w; [|discriminate]. exists fr. cbn in Hm. injection Hm as <-. auto.
  - destruct w as [|x w]; [discriminate|]. cbn [mapM] in Hm. destruct (read_list c) as [bs|] eqn:Er; [|discriminate]. cbn [bind] in Hm.
    destruct (fast_logsumexp e (Some (map b2R bs))) as [nm|] eqn:En; [|discriminate]. cbn [bind] in Hm.
    destruct (mapM _ cs) as [vs|] eqn:Em; [|discriminate]. cbn [bind] in Hm. assert (Hv : vals = exp_diff (fst nm) z :: vs) by congruence. subst vals. clear Hm.
    set (v := exp_diff (fst nm) z) in *.
    destruct (IH {| pv_h := pv_h fr; pv_J := pv_J fr; pv_energies := Some e; pv_logz := Some z; pv_obs := Some ((u ++ [v]) ++ w); pv_p := pv_p fr |} (u ++ [v]) w vs rest)
      as (fr' & E & C); try reflexivity; [cbn in Hl; lia|].
    exists fr'. split.
    { cbn [length seq combine map app prun fst snd pexec]. unfold bits at 1. rewrite Er, map_map. rewrite (map_ext _ b2R) by (intros; apply INR_b2n). rewrite He. cbn [var bind]. rewrite En. cbn [bind].
      rewrite Hz. cbn [var bind]. rewrite Hc. cbn [var bind]. fold v. rewrite set_mid. cbn [bind]. rewrite app_length in E. cbn [length] in E. rewrite Nat.add_1_r, <- app_assoc in E. exact E. }
    rewrite <- app_assoc in C. exact C.
Qed.

Lemma prun_p e z : forall es fr u w rest, (forall j x, nth_error es j = Some x -> get e (length u + j) = Ok x) ->
  pv_energies fr = Some e -> pv_logz fr = Some z -> pv_p fr = Some (u ++ w) -> length w = length es ->
  exists fr', prun other params fr (map (fun i => PSP i i) (seq (length u) (length es)) ++ rest) = prun other params fr' rest /\ pv_p fr' = Some (u ++ map (fun x => exp_diff (Fin x) z) es).
Proof.
  induction es as [|y es IH]; intros fr u w rest Hg He Hz Hp Hl.
  - destruct w; [|discriminate]. exists fr. auto.
  - destruct w as [|x w]; [discriminate|]. set (v := exp_diff (Fin y) z).
    destruct (IH {| pv_h := pv_h fr; pv_J := pv_J fr; pv_energies := Some e; pv_logz := Some z; pv_obs := pv_obs fr; pv_p := Some ((u ++ [v]) ++ w) |} (u ++ [v]) w rest)
      as (fr' & E & C); try reflexivity.
    + intros j x0 Hj. rewrite app_length. cbn [length]. replace (length u + 1 + j)%nat with (length u + S j)%nat by lia. now apply Hg.
    + cbn in Hl. lia.
    + exists fr'. split.
      { cbn [length seq map app prun pexec]. rewrite He. cbn [var bind]. rewrite <- (Nat.add_0_r (length u)) at 1. rewrite (Hg 0%nat y eq_refl). cbn [bind]. rewrite Hz. cbn [var bind]. rewrite Hp. cbn [var bind].
        fold v. rewrite set_mid. cbn [bind]. rewrite app_length in E. cbn [length] in E. rewrite Nat.add_1_r, <- app_assoc in E. exact E. }
      rewrite <- app_assoc in C. exact C.
Qed.

Lemma prun_calc f vals : length (pf_coeffs f) = potts_nparam (pf_n f) (pf_k f) -> run_potts_observables f params = Ok vals -> prun other params pframe0 (calc_pstmts f) = Ok (Some vals).
Proof.
  unfold run_potts_observables, potts_energies. intros Hl H. change (potts_nparams f) with (potts_nparam (pf_n f) (pf_k f)) in H. destruct (Nat.eqb (length params) (potts_nparam (pf_n f) (pf_k f))) eqn:Ea; [|discriminate]. cbn [negb] in H.
  destruct (mapM _ (pf_energies f)) as [e|] eqn:Ee; [|discriminate]. cbn [bind] in H. destruct (fast_logsumexp e None) as [z|] eqn:Ez; [|discriminate]. cbn [bind] in H.
  unfold calc_pstmts, open_stmts. cbn [app prun pexec]. rewrite Ea. cbn [bind prun pexec pframe0 pv_h pv_J pv_energies pv_logz pv_obs pv_p var]. rewrite Ee. cbn [bind prun pexec pv_energies var]. rewrite Ez. cbn [bind].
  unfold number, range.
  match goal with |- prun other params ?fr _ = _ => destruct (prun_obs e (fst z) (pf_coeffs f) fr [] (repeat (Some 0) (potts_nparam (pf_n f) (pf_k f))) vals [PSReturn [TName (lit "observables")]] eq_refl eq_refl eq_refl) as (fr' & E & C) end.
  - rewrite repeat_length. symmetry. exact Hl.
  - exact H.
  - cbn [length app] in E, C. rewrite E. cbn [prun pexec]. rewrite text_eqb_refl, C. reflexivity.
Qed.

Lemma prun_probs f vals : length (pf_energies f) = (pf_k f ^ pf_n f)%nat -> run_potts_p f params = Ok vals -> prun other params pframe0 (p_pstmts f) = Ok (Some vals).
Proof.
  unfold run_potts_p, potts_energies. intros Hl H. change (potts_nparams f) with (potts_nparam (pf_n f) (pf_k f)) in H. destruct (Nat.eqb (length params) (potts_nparam (pf_n f) (pf_k f))) eqn:Ea; [|discriminate]. cbn [negb] in H.
  destruct (mapM _ (pf_energies f)) as [e|] eqn:Ee; [|discriminate]. cbn [bind] in H. destruct (fast_logsumexp e None) as [z|] eqn:Ez; [|discriminate]. cbn [bind] in H. injection H as <-.
  unfold p_pstmts, open_stmts. cbn [app prun pexec]. rewrite Ea. cbn [bind prun pexec pframe0 pv_h pv_J pv_energies pv_logz pv_obs pv_p var]. rewrite Ee. cbn [bind prun pexec pv_energies var]. rewrite Ez. cbn [bind].
  unfold range. assert (Le : length e = length (pf_energies f)) by (eapply mapM_size; exact Ee). rewrite <- Le in *.
  match goal with |- prun other params ?fr _ = _ => destruct (prun_p e (fst z) e fr [] (repeat (Some 0) (pf_k f ^ pf_n f)) [PSReturn [TName (lit "p")]]) as (fr' & E & C) end.
  - intros j x Hj. cbn [length Nat.add]. unfold get. rewrite Hj. reflexivity.
  - reflexivity.
  - reflexivity.
  - reflexivity.
  - rewrite repeat_length. symmetry. exact Hl.
  - cbn [length app] in E, C. rewrite E. cbn [prun pexec]. change (text_eqb (lit "p") (lit "observables")) with false. rewrite text_eqb_refl, C. reflexivity.
Qed.

(** Without a return statement the value is None. *)
Definition is_return (s : pstmt) : bool := match s with PSReturn _ => true | _ => false end.
Lemma pexec_stay fr s x : is_return s = false -> pexec other params fr s = Ok x -> exists fr', x = inl fr'.
Proof.
  destruct s as [k|k|k|[] k|ts| |k cs|k j|l|l]; intros Hr H; try discriminate Hr; cbn [pexec] in H;
    repeat match type of H with
    | (if ?b then _ else _) = _ => destruct b; [|discriminate]
    | bind ?r _ = Ok _ => destruct r; [cbn [bind] in H|discriminate]
    end; injection H as <-; eexists; reflexivity.
Qed.
Lemma prun_stay ss : forall fr v, forallb (fun s => negb (is_return s)) ss = true -> prun other params fr ss = Ok v -> v = None.
Proof.
  induction ss as [|s ss IH]; intros fr v Hs H; cbn [prun] in H; [injection H as <-; reflexivity|]. cbn [forallb] in Hs. apply andb_true_iff in Hs. destruct Hs as [H1 H2].
  apply negb_true_iff in H1. destruct (pexec other params fr s) as [x|] eqn:Ex; [|discriminate]. cbn [bind] in H. destruct (pexec_stay _ _ _ H1 Ex) as (fr' & ->). now apply (IH fr').
Qed.
(** ... and up to a return statement the execution stays in the body. *)
Lemma prun_app ss : forall fr rest v, forallb (fun s => negb (is_return s)) ss = true -> prun other params fr (ss ++ rest) = Ok v -> exists fr', prun other params fr' rest = Ok v /\
  forall rest', prun other params fr (ss ++ rest') = prun other params fr' rest'.
Proof.
  induction ss as [|s ss IH]; intros fr rest v Hs H; [exists fr; split; [exact H|reflexivity]|]. cbn [forallb] in Hs. apply andb_true_iff in Hs. destruct Hs as [H1 H2]. apply negb_true_iff in H1.
  cbn [app prun] in H. destruct (pexec other params fr s) as [x|] eqn:Ex; [|discriminate]. cbn [bind] in H. destruct (pexec_stay _ _ _ H1 Ex) as (fr1 & ->).
  destruct (IH fr1 rest v H2 H) as (fr' & E1 & E2). exists fr'. split; [exact E1|]. intros rest'. cbn [app prun]. rewrite Ex. cbn [bind]. apply E2.
Qed.
End Run.
