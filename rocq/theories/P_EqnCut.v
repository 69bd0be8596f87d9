(** Lemmas about equation files that are cut off. *)
From Coq Require Import Ascii String.
From Verif Require Import Prelude Spec PreludeFacts M_Index M_Enum M_EqnText M_PottsText M_EqnCut P_Enum P_EqnText P_EqnText2 P_EqnText3 P_EqnText4 P_PyText P_PottsText P_PottsText2 P_PottsText3.
Import ListNotations.
Local Open Scope char_scope.
Local Open Scope list_scope.

(** ** Tabs *)
Definition clean (t : tok) : bool := match t with TOp c => negb (Ascii.eqb c tb) | TBad => false | _ => true end.

Lemma outs_untab s : forall st d, forallb clean (fst (outs st d s)) = true -> outs st d (untab s) = outs st d s.
Proof.
  induction s as [|c s IH]; intros st d H; [reflexivity|]. change (untab (c :: s)) with ((if Ascii.eqb c tb then lit "        " else [c]) ++ untab s).
  destruct (Ascii.eqb_spec c tb) as [->|Hc].
  - assert (K : (exists o r, lex_step st d tb = (o, r) /\ forallb clean o = false) \/ (exists st', lex_step st d tb = ([], (st', d)) /\ outs st d (lit "        ") = ([], (st', d)))).
    { destruct st as [k| |w|v|b|k|q]; try (left; eexists _, _; split; [reflexivity|reflexivity]).
      - right. exists (LComment b). split; reflexivity.
      - right. exists (LStr 0). split; [destruct q as [|[|[|q]]]; reflexivity|]. destruct q as [|[|[|q]]]; reflexivity. }
    destruct K as [(o & [st' d'] & E & F)|(st' & E & E8)].
    + exfalso. cbn [outs] in H. rewrite E in H. destruct (outs st' d' s) as [o2 e]. cbn [fst] in H. rewrite forallb_app, F in H. discriminate.
    + rewrite outs_app, E8. cbn [outs fst snd app]. cbn [outs] in H. rewrite E in *. rewrite IH; [now destruct (outs st' d s)|]. destruct (outs st' d s). exact H.
  - cbn [app outs] in *. destruct (lex_step st d c) as [o [st' d']]. specialize (IH st' d'). destruct (outs st' d' s) as [o2 e]. cbn [fst] in H. rewrite forallb_app in H. apply andb_true_iff in H. now rewrite (IH (proj2 H)).
Qed.

Lemma lexes_untab t ls : lexes t ls -> forallb clean (ltoks ls) = true -> lexes (untab t) ls.
Proof.
  intros H C. apply lexes_end in H. intros rest. rewrite lex_split, outs_untab by (rewrite H; exact C). rewrite H. reflexivity.
Qed.

Lemma clean_terms l : forallb clean (flat_map tok_term l) = true.
Proof. induction l as [|[neg [|c i]] l IH]; [reflexivity| |]; cbn [flat_map]; rewrite forallb_app, IH; destruct neg; reflexivity. Qed.
Lemma clean_ints l : forallb clean (int_toks l) = true.
Proof.
  assert (G : forall z, forallb clean (ztok z) = true) by (intros [|p|p]; reflexivity). induction l as [|z l IH]; [reflexivity|]. destruct l as [|z2 l]; [apply G|].
  change (int_toks (z :: z2 :: l)) with (ztok z ++ TOp "," :: int_toks (z2 :: l)). rewrite forallb_app, G. cbn [forallb clean andb]. exact IH.
Qed.
Lemma clean_sums ts : forallb clean (flat_map (fun l => flat_map tok_term l ++ [TOp ","]) ts) = true.
Proof. induction ts as [|t ts IH]; [reflexivity|]. cbn [flat_map]. rewrite !forallb_app, clean_terms, IH. reflexivity. Qed.
Lemma clean_stoks hp s : forallb clean (stoks hp s) = true.
Proof.
  destruct s as [c k|c a b|ts| |a|k| |k t| |c|]; unfold stoks.
  - destruct c, hp; vm_compute; reflexivity.
  - vm_compute; reflexivity.
  - rewrite !forallb_app, clean_sums. vm_compute; reflexivity.
  - vm_compute; reflexivity.
  - rewrite !forallb_app, clean_ints. vm_compute; reflexivity.
  - vm_compute; reflexivity.
  - vm_compute; reflexivity.
  - rewrite forallb_app. change (forallb clean (TNum k :: T "] = exp(" ++ flat_map tok_term t ++ T "- logZ )")) with (forallb clean (T "] = exp(" ++ flat_map tok_term t ++ T "- logZ )")).
    rewrite !forallb_app, clean_terms. vm_compute; reflexivity.
  - vm_compute; reflexivity.
  - destruct c; vm_compute; reflexivity.
  - reflexivity.
Qed.
Lemma clean_slines hp s : forallb clean (ltoks (slines hp s)) = true.
Proof.
  assert (E : forallb clean (ltoks [(4%nat, stoks hp s)]) = true) by (unfold ltoks; cbn [flat_map fst snd]; rewrite app_nil_r; exact (clean_stoks hp s)).
  destruct s; try exact E. destruct hp; [vm_compute; reflexivity|exact E].
Qed.
Lemma clean_stmts hp ss : forallb clean (ltoks (flat_map (slines hp) ss)) = true.
Proof. induction ss as [|s ss IH]; [reflexivity|]. cbn [flat_map]. now rewrite ltoks_app, forallb_app, clean_slines, IH. Qed.
Lemma clean_lines hp n sym sl te co : forallb clean (ltoks (eqn_lines hp n sym sl te co)) = true.
Proof. unfold eqn_lines. rewrite !ltoks_app, !forallb_app, !clean_stmts. destruct hp; vm_compute; reflexivity. Qed.

(** ** Import of a complete file *)
Lemma blocks_nz (B : list (nat * list tok)) r : Forall (fun kl => fst kl <> 0%nat) B -> blocks (B ++ r) = (B ++ fst (blocks r), snd (blocks r)).
Proof.
  induction B as [|[k l] B IH]; intros H; [cbn [app]; destruct (blocks r); reflexivity|]. apply Forall_cons_iff in H. destruct H as [H1 H2]. cbn [app blocks]. rewrite (IH H2).
  cbn [fst] in H1. destruct (Nat.eqb_spec k 0); [contradiction|]. reflexivity.
Qed.

Lemma slines_nz hp ss : Forall (fun kl : nat * list tok => fst kl <> 0%nat) (flat_map (slines hp) ss).
Proof. apply Forall_forall. intros kl H. apply in_flat_map in H. destruct H as (s & _ & H). destruct s; cbn [slines In] in H; try (destruct H as [<-|[]]; discriminate). destruct hp; cbn [In] in H; repeat (destruct H as [<-|H]; [discriminate|]); destruct H. Qed.
Lemma slines_4 hp ss : forallb (fun kl : nat * list tok => Nat.leb 4 (fst kl)) (flat_map (slines hp) ss) = true.
Proof. apply forallb_forall. intros kl H. apply in_flat_map in H. destruct H as (s & _ & H). destruct s; cbn [slines In] in H; try (destruct H as [<-|[]]; reflexivity). destruct hp; cbn [In] in H; repeat (destruct H as [<-|H]; [reflexivity|]); destruct H. Qed.
Lemma body_ok_doc hp ss : body_ok (flat_map (slines hp) (SDoc :: ss)) = true.
Proof. cbn [flat_map slines app body_ok]. apply slines_4. Qed.

Lemma no_line_eqn hp n sym sl te co : Forall (fun kl => no_line (snd kl)) (eqn_lines hp n sym sl te co).
Proof.
  assert (Hnl : forall ss, Forall (fun kl : nat * list tok => no_line (snd kl)) (flat_map (slines hp) ss)).
  { induction ss as [|s ss IH]; [constructor|]. cbn [flat_map]. apply Forall_app. split; [apply slines_no_line|exact IH]. }
  unfold eqn_lines. apply Forall_app. split; [destruct hp; repeat constructor|]. apply Forall_app. split; [repeat constructor|]. apply Forall_app. split; [apply Hnl|].
  apply Forall_app. split; [repeat constructor|apply Hnl].
Qed.

Lemma import_eqn hp other t n sym sl te co : lexes (untab t) (eqn_lines hp n sym sl te co) ->
  import_fun (eqn_imps hp) other t "calc_observables" = Ok (flat_map (slines hp) (calc_stmts sl te co)) /\
  import_fun (eqn_imps hp) other t "p" = Ok (flat_map (slines hp) (p_stmts n sym sl te co)).
Proof.
  intros H. unfold import_fun. rewrite (py_tokens_lexes _ _ H). cbn [bind]. rewrite tok_lines_ltoks by apply no_line_eqn. cbn [snd].
  set (BC := flat_map (slines hp) (calc_stmts sl te co)). set (BP := flat_map (slines hp) (p_stmts n sym sl te co)).
  assert (E : blocks (eqn_lines hp n sym sl te co) = ([], map (fun s => (T s, [])) (eqn_imps hp) ++ [(T "def calc_observables(params):", BC); (T "def p(params):", BP)])).
  { assert (EB : blocks (BC ++ [(0%nat, T "def p(params):")] ++ BP) = (BC, [(T "def p(params):", BP)])).
    { rewrite blocks_nz by apply slines_nz. assert (EP : blocks BP = (BP, [])) by (rewrite <- (app_nil_r BP) at 1; rewrite blocks_nz by apply slines_nz; cbn [blocks fst snd]; now rewrite app_nil_r).
      cbn [app blocks]. rewrite EP. cbn [Nat.eqb fst snd]. now rewrite app_nil_r. }
    unfold eqn_lines. fold BC BP. destruct hp; unfold import_lines, eqn_imps; cbn [app blocks map] in *; rewrite EB; reflexivity. }
  rewrite E. assert (HC : body_ok BC = true) by apply body_ok_doc. assert (HP : body_ok BP = true) by apply body_ok_doc.
  assert (Er : run_module (eqn_imps hp) other (map (fun s => (T s, [])) (eqn_imps hp) ++ [(T "def calc_observables(params):", BC); (T "def p(params):", BP)]) 0 []
    = Ok (length (eqn_imps hp), [(lit "p", BP); (lit "calc_observables", BC)])).
  { transitivity (if body_ok BC then (if body_ok BP then Ok (length (eqn_imps hp), [(lit "p", BP); (lit "calc_observables", BC)]) else Err GenericException) else Err GenericException); [destruct hp; reflexivity|]. now rewrite HC, HP. }
  rewrite Er. cbn [bind fst snd]. rewrite Nat.ltb_irrefl. split; reflexivity.
Qed.

(** ** Execution *)
Lemma return_of_stoks hp s : stmt_ok s -> (forall c, s <> SReturn c) -> return_of (stoks hp s) = None.
Proof.
  intros Hok Hr. destruct s as [c k|c a b|ts| |a|k| |k t| |c|]; try reflexivity.
  - destruct c; reflexivity.
  - cbn [stmt_ok] in Hok. unfold abc in Hok. cbn [stoks return_of]. cbn [text_eqb lit list_ascii_of_string]. now rewrite andb_false_r.
  - exfalso. now apply (Hr c).
Qed.

Lemma xrun_cons other params fr k l rest : return_of l = None -> match rest with (9%nat, _) :: _ => False | _ => True end ->
  xrun other params fr ((k, l) :: rest) = bind (xstep other params fr k l) (fun x => match x with inl fr' => xrun other params fr' rest | inr v => Ok (Some v) end).
Proof.
  intros Hr Hrest. cbn [xrun]. rewrite Hr. cbv zeta. destruct rest as [|[k2 l2] rest]; [reflexivity|]. do 10 (destruct k2 as [|k2]; [first [reflexivity|contradiction]|]). reflexivity.
Qed.

Lemma xrun_lines other params hp ss : Forall stmt_ok ss -> forall fr v, exec_body params fr ss = Ok v -> xrun other params fr (flat_map (slines hp) ss) = Ok (Some v).
Proof.
  intros Hok. induction ss as [|s ss IH]; intros fr v H; [discriminate|]. apply Forall_cons_iff in Hok. destruct Hok as [H1 H2]. specialize (IH H2). cbn [exec_body] in H. cbn [flat_map].
  assert (One : (forall c, s <> SReturn c) -> xrun other params fr ((4%nat, stoks hp s) :: flat_map (slines hp) ss) = Ok (Some v)).
  { intros Hr. rewrite xrun_cons; [|now apply return_of_stoks|].
    - unfold xstep. rewrite parse_stoks by exact H1. destruct (exec params fr s) as [[fr'|v']|]; cbn [bind] in *; [now apply IH|now injection H as ->|discriminate].
    - assert (Q := slines_hd hp ss [] I). rewrite app_nil_r in Q. exact Q. }
  destruct s; try (apply One; congruence).
  - destruct hp; [|apply One; congruence].
    change (slines true SNan ++ flat_map (slines true) ss) with ((4%nat, T "for i in range(Cout.size):") :: (9%nat, T "if isnan(Cout[i]):") :: (13%nat, T "Cout[i] = 0.") :: flat_map (slines true) ss).
    transitivity (bind (exec params fr SNan) (fun x => match x with inl fr' => xrun other params fr' (flat_map (slines true) ss) | inr v => Ok (Some v) end)); [reflexivity|].
    destruct (exec params fr SNan) as [[fr'|v']|]; cbn [bind] in *; [now apply IH|now injection H as ->|discriminate].
  - cbn [slines app]. destruct cout; cbn [stoks].
    + change (xrun other params fr ((4%nat, T "return(Cout)") :: flat_map (slines hp) ss)) with (bind (var (fr_cout fr)) (fun c => Ok (Some c))). cbn [exec] in H. destruct (var (fr_cout fr)); [|discriminate]. cbn [bind] in *. now injection H as ->.
    + change (xrun other params fr ((4%nat, T "return(Pout)") :: flat_map (slines hp) ss)) with (bind (var (fr_pout fr)) (fun c => Ok (Some c))). cbn [exec] in H. destruct (var (fr_pout fr)); [|discriminate]. cbn [bind] in *. now injection H as ->.
Qed.

(** ** Files that are cut off *)
Lemma p_not_return l s : In (Some s) [p_zeros true l; p_zeros false l; p_energies l; p_logz l; p_num l; p_cout l; p_nan l; p_pout l; p_reverse l; p_doc l; p_slice l] -> forall c, s <> SReturn c.
Proof.
  intros H c ->. cbn [In] in H.
  repeat (destruct H as [H|H]; [unfold p_zeros, p_energies, p_logz, p_num, p_cout, p_nan, p_pout, p_reverse, p_doc, p_slice, opt_bind, num, done, or_else in H;
    repeat match type of H with context [match ?x with _ => _ end] => lazymatch x with context [match _ with _ => _ end] => fail | _ => destruct x; try discriminate end end|]). destruct H.
Qed.
Lemma p_return_of c l s : p_return c l = Some s -> return_of l <> None.
Proof.
  unfold p_return. intros H.
  assert (E : exists m, T (if c then "return(Cout)" else "return(Pout)") = TName (lit "return") :: m) by (destruct c; eexists; vm_compute; reflexivity).
  destruct E as (m & E). rewrite E in H. destruct l as [|t l]; [discriminate|]. cbn [eat] in H. destruct t as [r| | | | |]; try discriminate. cbn [tok_eqb] in H.
  destruct (text_eqb (lit "return") r) eqn:X; [|discriminate]. apply text_eqb_eq in X. subst r. cbn [return_of]. rewrite text_eqb_refl. discriminate.
Qed.
Lemma parse_stmt_return l c : parse_stmt l = Some (SReturn c) -> return_of l <> None.
Proof.
  intros H. destruct (p_return true l) as [s1|] eqn:E1; [now apply p_return_of in E1|destruct (p_return false l) as [s2|] eqn:E2; [now apply p_return_of in E2|]].
  - exfalso. revert H. unfold parse_stmt. rewrite E1, E2. intros H. apply (p_not_return l (SReturn c)) with (c := c); [|reflexivity]. revert H.
    cbn [or_else]. repeat (apply or_else_in; [intros ->; cbn [In]; auto 14|]). intros ->. cbn [In]. auto 14.
Qed.

Section Cut.
Variable other : nat -> list tok -> frame -> result frame.
Variable params : list R.

Lemma exec_stay fr s x : (forall c, s <> SReturn c) -> exec params fr s = Ok x -> exists fr', x = inl fr'.
Proof.
  intros Hr H. destruct s as [c k|c a b|ts| |a|k| |k t| |c|]; cbn [exec] in H; try (exfalso; now apply (Hr c)); try destruct c; unfold bind in H;
    repeat match type of H with match ?y with _ => _ end = _ => destruct y; try discriminate end; injection H as <-; eauto.
Qed.
Lemma xstep_stay fr k l x : return_of l = None -> xstep other params fr k l = Ok x -> exists fr', x = inl fr'.
Proof.
  intros Hr H. unfold xstep in H. destruct (parse_stmt l) as [s|] eqn:E.
  - apply exec_stay in H; [exact H|]. intros c ->. now apply parse_stmt_return in E.
  - destruct (other k l fr); [|discriminate]. cbn [bind] in H. injection H as <-. eauto.
Qed.

Definition no_return (kl : nat * list tok) : Prop := return_of (snd kl) = None.

(** Lines without return, followed by one line indented by 4. *)
Lemma xrun_last L : Forall no_return L -> forall fr q v, xrun other params fr (L ++ [(4%nat, q)]) = Ok (Some v) -> exists fr', xrun other params fr' [(4%nat, q)] = Ok (Some v).
Proof.
  remember (length L) as m eqn:Em. assert (Hm : (length L <= m)%nat) by lia. clear Em. revert L Hm. induction m as [|m IH]; intros L Hm HL fr q v H.
  - destruct L; [|cbn in Hm; lia]. eauto.
  - destruct L as [|[k l] L]; [eauto|]. apply Forall_cons_iff in HL. destruct HL as [Hl HL]. cbn [length] in Hm. cbn [app xrun] in H. unfold no_return in Hl. cbn [snd] in Hl. rewrite Hl in H. cbv zeta in H.
    set (one := fun rest' => bind (xstep other params fr k l) (fun x => match x with inl fr' => xrun other params fr' rest' | inr v => Ok (Some v) end)) in H.
    assert (One : one (L ++ [(4%nat, q)]) = Ok (Some v) -> exists fr', xrun other params fr' [(4%nat, q)] = Ok (Some v)).
    { unfold one. intros Ho. destruct (xstep other params fr k l) as [x|] eqn:Ex; [|discriminate]. cbn [bind] in Ho. destruct (xstep_stay _ _ _ _ Hl Ex) as (fr' & ->). apply (IH L ltac:(lia) HL fr' q v Ho). }
    destruct L as [|[k2 l2] L]; [now apply One|]. cbn [app] in H. cbn [app] in One. destruct (Nat.eq_dec k2 9) as [->|N2].
    2:{ apply One. revert H. do 10 (destruct k2 as [|k2]; [first [congruence|intros HH; exact HH]|]). intros HH; exact HH. }
    destruct L as [|[k3 l3] L]; [now apply One|]. cbn [app] in H. cbn [app] in One. destruct (Nat.eq_dec k3 13) as [->|N3].
    2:{ apply One. revert H. do 14 (destruct k3 as [|k3]; [first [congruence|intros HH; exact HH]|]). intros HH; exact HH. }
    destruct (nan_loop l l2 l3); [|now apply One]. cbn [length] in Hm. apply Forall_cons_iff in HL. destruct HL as [_ HL]. apply Forall_cons_iff in HL. destruct HL as [_ HL].
    destruct (exec params fr SNan) as [x|] eqn:Ex; [|discriminate]. cbn [bind] in H. destruct (exec_stay fr SNan x ltac:(intros; discriminate) Ex) as (fr' & ->). apply (IH L ltac:(lia) HL fr' q v H).
Qed.

Lemma xrun_stay L : Forall no_return L -> forall fr v, xrun other params fr L <> Ok (Some v).
Proof.
  remember (length L) as m eqn:Em. assert (Hm : (length L <= m)%nat) by lia. clear Em. revert L Hm. induction m as [|m IH]; intros L Hm HL fr v H.
  - destruct L; [discriminate|cbn in Hm; lia].
  - destruct L as [|[k l] L]; [discriminate|]. apply Forall_cons_iff in HL. destruct HL as [Hl HL]. cbn [length] in Hm. cbn [xrun] in H. unfold no_return in Hl. cbn [snd] in Hl. rewrite Hl in H. cbv zeta in H.
    set (one := fun rest' => bind (xstep other params fr k l) (fun x => match x with inl fr' => xrun other params fr' rest' | inr v => Ok (Some v) end)) in H.
    assert (One : one L = Ok (Some v) -> False).
    { unfold one. intros Ho. destruct (xstep other params fr k l) as [x|] eqn:Ex; [|discriminate]. cbn [bind] in Ho. destruct (xstep_stay _ _ _ _ Hl Ex) as (fr' & ->). apply (IH L ltac:(lia) HL fr' v Ho). }
    destruct L as [|[k2 l2] L]; [now apply One|]. destruct (Nat.eq_dec k2 9) as [->|N2].
    2:{ apply One. revert H. do 10 (destruct k2 as [|k2]; [first [congruence|intros HH; exact HH]|]). intros HH; exact HH. }
    destruct L as [|[k3 l3] L]; [now apply One|]. destruct (Nat.eq_dec k3 13) as [->|N3].
    2:{ apply One. revert H. do 14 (destruct k3 as [|k3]; [first [congruence|intros HH; exact HH]|]). intros HH; exact HH. }
    destruct (nan_loop l l2 l3); [|now apply One]. cbn [length] in Hm. apply Forall_cons_iff in HL. destruct HL as [_ HL]. apply Forall_cons_iff in HL. destruct HL as [_ HL].
    destruct (exec params fr SNan) as [x|] eqn:Ex; [|discriminate]. cbn [bind] in H. destruct (exec_stay fr SNan x ltac:(intros; discriminate) Ex) as (fr' & ->). apply (IH L ltac:(lia) HL fr' v H).
Qed.

(** A line that cannot become a return statement by being cut off. *)
Definition starts_ok (l : list tok) : Prop := l = [TStr] \/ starts_other l.

Lemma cut_no_return l q : starts_ok l -> cut_toks l q -> return_of q = None.
Proof.
  intros [->|(w & r & -> & Hw)] (j & C).
  - assert (E : q = [] \/ q = [TStr]).
    { destruct j as [|[|j]]; cbn [firstn skipn app] in C; (destruct C as [->|[(a & v & r2 & C1 & ->)|(x & y & r2 & C1 & ->)]]; [auto|discriminate|discriminate]). }
    destruct E as [-> | ->]; reflexivity.
  - assert (Hw0 : text_eqb w (lit "return") = false) by (destruct (text_eqb w (lit "return")) eqn:E; [|reflexivity]; apply text_eqb_eq in E; exfalso; apply (Hw []); now rewrite app_nil_r).
    destruct j as [|j]; cbn [firstn skipn app] in C.
    + destruct C as [->|[(a & v & r2 & C1 & ->)|(x & y & r2 & C1 & _)]]; [reflexivity| |discriminate]. injection C1 as -> _. cbn [return_of].
      destruct (text_eqb a (lit "return")) eqn:E; [|reflexivity]. apply text_eqb_eq in E. subst a. exfalso. now apply (Hw v).
    + destruct C as [->|[(a & v & r2 & _ & ->)|(x & y & r2 & _ & ->)]]; cbn [return_of app]; now rewrite Hw0.
Qed.
Lemma full_no_return l : starts_ok l -> return_of l = None.
Proof. intros H. apply (cut_no_return l); [exact H|]. exists (length l). left. symmetry. apply firstn_all. Qed.

Definition ret (x : text) : list tok := [TName (lit "return"); TOp "("; TName x; TOp ")"].
Lemma cut_ret fr x q v : (x = lit "Cout" \/ x = lit "Pout") -> cut_toks (ret x) q -> xrun other params fr [(4%nat, q)] = Ok (Some v) -> q = ret x.
Proof.
  intros Hx (j & C) H. unfold ret in C. destruct j as [|[|[|[|j]]]]; cbn [firstn skipn app] in C.
  - exfalso. assert (E : (exists a, q = [TName a]) \/ q = []) by (destruct C as [->|[(a & w & r & C1 & ->)|(y & z & r & C1 & _)]]; [auto|eauto|discriminate]).
    destruct E as [(a & ->)| ->]; [|refine (xrun_stay [(4%nat, [])] _ fr v H); repeat constructor]. destruct (text_eqb a (lit "return")) eqn:E.
    + cbn [xrun return_of] in H. rewrite E in H. discriminate.
    + apply (xrun_stay [(4%nat, [TName a])]) in H; [exact H|]. apply Forall_cons; [|constructor]. unfold no_return. cbn [snd return_of]. now rewrite E.
  - exfalso. assert (E : q = [TName (lit "return")]) by (destruct C as [->|[(a & w & r & C1 & _)|(y & z & r & C1 & _)]]; [auto|discriminate|discriminate]). subst q. discriminate.
  - exfalso. assert (E : (exists a, q = [TName (lit "return"); TOp "("; TName a]) \/ q = [TName (lit "return"); TOp "("]) by (destruct C as [->|[(a & w & r & C1 & ->)|(y & z & r & C1 & _)]]; [auto|eauto|discriminate]).
    destruct E as [(a & ->)| ->]; discriminate.
  - exfalso. assert (E : q = [TName (lit "return"); TOp "("; TName x]) by (destruct C as [->|[(a & w & r & C1 & _)|(y & z & r & C1 & _)]]; [auto|discriminate|discriminate]). subst q. discriminate.
  - destruct j; cbn [firstn skipn] in C; (destruct C as [->|[(a & w & r & C1 & _)|(y & z & r & C1 & _)]]; [reflexivity|discriminate|discriminate]).
Qed.

Lemma xrun_cut L x b fr v : Forall (fun kl => starts_ok (snd kl)) L -> (x = lit "Cout" \/ x = lit "Pout") ->
  let B := L ++ [(4%nat, ret x)] in
  (b = B \/ exists j, b = firstn j B \/ exists k y q, nth_error B j = Some (k, y) /\ cut_toks y q /\ b = firstn j B ++ [(k, q)]) ->
  xrun other params fr b = Ok (Some v) -> b = B.
Proof.
  intros HL Hx B Hb H. destruct Hb as [->|(j & Hb)]; [reflexivity|].
  assert (HN : forall i, Forall no_return (firstn i L)).
  { intros i. assert (HL' := HL). rewrite <- (firstn_skipn i L) in HL'. apply Forall_app in HL'. destruct HL' as [HL' _]. eapply Forall_impl; [|exact HL']. intros a Ha. now apply full_no_return. }
  destruct (Nat.le_gt_cases j (length L)) as [Hj|Hj].
  - assert (EF : firstn j B = firstn j L) by (unfold B; rewrite firstn_app; replace (j - length L)%nat with 0%nat by lia; cbn [firstn]; apply app_nil_r). rewrite EF in Hb.
    destruct Hb as [->|(k & y & q & N & K & ->)]; [exfalso; exact (xrun_stay _ (HN j) fr v H)|].
    destruct (Nat.eq_dec j (length L)) as [->|Hne].
    + unfold B in N. rewrite nth_error_app2, Nat.sub_diag in N by lia. cbn [nth_error] in N. injection N as <- <-. rewrite firstn_all in *.
      destruct (xrun_last L ltac:(specialize (HN (length L)); now rewrite firstn_all in HN) fr q v H) as (fr' & H'). now rewrite (cut_ret fr' x q v Hx K H').
    + exfalso. unfold B in N. rewrite nth_error_app1 in N by lia. apply nth_error_In in N. refine (xrun_stay (firstn j L ++ [(k, q)]) _ fr v H).
      apply Forall_app. split; [apply HN|]. apply Forall_cons; [|constructor]. unfold no_return. cbn [snd]. rewrite Forall_forall in HL. exact (cut_no_return y q (HL _ N) K).
  - assert (EF : firstn j B = B) by (apply firstn_all2; unfold B; rewrite app_length; cbn; lia). rewrite EF in Hb. destruct Hb as [->|(k & y & q & N & _)]; [reflexivity|].
    exfalso. assert (Q : nth_error B j <> None) by congruence. apply nth_error_Some in Q. unfold B in Q. rewrite app_length in Q. cbn in Q. lia.
Qed.
End Cut.

Definition head_ok (l : list tok) : bool :=
  match l with [TStr] => true | TName w :: _ => negb (text_eqb (firstn 6 w) (lit "return")) | _ => false end.
Lemma head_ok_spec l : head_ok l = true -> starts_ok l.
Proof.
  destruct l as [|[w| | | | |] l]; try discriminate; cbn [head_ok].
  - intros H. right. exists w, l. split; [reflexivity|]. intros v ->. cbn in H. discriminate.
  - destruct l; [left; reflexivity|discriminate].
Qed.
Lemma slines_start hp s : stmt_ok s -> (forall c, s <> SReturn c) -> Forall (fun kl => starts_ok (snd kl)) (slines hp s).
Proof.
  intros Hok Hr. assert (E : Forall (fun kl => head_ok (snd kl) = true) (slines hp s)).
  2:{ eapply Forall_impl; [|exact E]. intros a Ha. now apply head_ok_spec. }
  destruct s as [c k|c a b|ts| |a|k| |k t| |c|]; try (apply Forall_cons; [reflexivity|constructor]).
  - destruct c; apply Forall_cons; [reflexivity|constructor|reflexivity|constructor].
  - apply Forall_cons; [|constructor]. cbn [snd stoks head_ok firstn text_eqb lit list_ascii_of_string]. now rewrite andb_false_r.
  - destruct hp; [do 3 (apply Forall_cons; [reflexivity|]); constructor|apply Forall_cons; [reflexivity|constructor]].
  - exfalso. now apply (Hr c).
Qed.

Lemma stmts_start hp ss : Forall stmt_ok ss -> (forall c, ~ In (SReturn c) ss) -> Forall (fun kl => starts_ok (snd kl)) (flat_map (slines hp) ss).
Proof.
  intros Hok Hr. induction ss as [|s ss IH]; [constructor|]. apply Forall_cons_iff in Hok. destruct Hok as [H1 H2]. cbn [flat_map]. apply Forall_app. split.
  - apply slines_start; [exact H1|]. intros c ->. apply (Hr c). now left.
  - apply IH; [exact H2|]. intros c Hc. apply (Hr c). now right.
Qed.

Definition not_def (l : list tok) : bool := match def_name l with None => true | Some _ => false end.
Lemma slines_def hp s : Forall (fun kl => not_def (snd kl) = true) (slines hp s).
Proof.
  destruct s as [c k|c a b|ts| |a|k| |k t| |c|]; try (apply Forall_cons; [reflexivity|constructor]).
  - destruct c; apply Forall_cons; [reflexivity|constructor|reflexivity|constructor].
  - destruct hp; [do 3 (apply Forall_cons; [reflexivity|]); constructor|apply Forall_cons; [reflexivity|constructor]].
  - destruct c; apply Forall_cons; [reflexivity|constructor|reflexivity|constructor].
Qed.
Lemma stmts_def hp ss nm : Forall (fun kl : nat * list tok => def_name (snd kl) <> Some nm) (flat_map (slines hp) ss).
Proof.
  apply Forall_forall. intros kl H. apply in_flat_map in H. destruct H as (s & _ & H). assert (Q := slines_def hp s). rewrite Forall_forall in Q. specialize (Q _ H).
  unfold not_def in Q. destruct (def_name (snd kl)); congruence.
Qed.

Lemma calc_split sl te co : exists ss, calc_stmts sl te co = ss ++ [SReturn true] /\ forall c, ~ In (SReturn c) ss.
Proof.
  unfold calc_stmts. exists (SDoc :: SZeros true (length co) :: map slice_stmt sl ++ SEnergies te :: SLogZ :: flat_map eqn_stmts (number co) ++ [SNan]). split.
  - cbn [app]. rewrite <- app_assoc. cbn [app]. rewrite <- app_assoc. reflexivity.
  - intros c H. destruct H as [H|[H|H]]; try discriminate. apply in_app_or in H. destruct H as [H|[H|[H|H]]]; try discriminate.
    + apply in_map_iff in H. destruct H as (x & Hx & _). discriminate.
    + apply in_app_or in H. destruct H as [H|[H|[]]]; [|discriminate]. apply in_flat_map in H. destruct H as (x & _ & [H|[H|[]]]); discriminate.
Qed.
Lemma p_split n sym sl te co : exists ss, p_stmts n sym sl te co = ss ++ [SReturn false] /\ forall c, ~ In (SReturn c) ss.
Proof.
  unfold p_stmts. exists (SDoc :: SZeros true (length co) :: map slice_stmt sl ++ map slice_stmt sl ++ SZeros false (2 ^ n) :: SEnergies te :: SLogZ
    :: map (fun kt => SPout (fst kt) (snd kt)) (number te) ++ (if sym then [SReverse] else [])). split.
  - cbn [app]. rewrite <- !app_assoc. cbn [app]. rewrite <- !app_assoc. reflexivity.
  - assert (Q : forall c, ~ In (SReturn c) (map slice_stmt sl)) by (intros c H; apply in_map_iff in H; destruct H as (x & Hx & _); discriminate).
    intros c H. destruct H as [H|[H|H]]; try discriminate. apply in_app_or in H. destruct H as [H|H]; [now apply Q in H|]. apply in_app_or in H. destruct H as [H|[H|[H|[H|H]]]]; try discriminate; [now apply Q in H|].
    apply in_app_or in H. destruct H as [H|H]; [apply in_map_iff in H; destruct H as (x & Hx & _); discriminate|]. destruct sym; [destruct H as [H|[]]; discriminate|destruct H].
Qed.

(** A file that is cut off returns nothing else than the complete file. *)
Lemma call_eqn_cut hp ot other t n sym sl te co u v name params val :
  lexes t (eqn_lines hp n sym sl te co) -> Forall stmt_ok (calc_stmts sl te co) -> Forall stmt_ok (p_stmts n sym sl te co) ->
  t = u ++ v -> (name = "calc_observables" \/ name = "p")%string ->
  call_eqn hp ot other u name params = Ok (Some val) -> call_eqn hp ot other t name params = Ok (Some val).
Proof.
  intros Hlex0 Hs1 Hs2 Ht Hname H. assert (Hlex := lexes_untab _ _ Hlex0 (clean_lines hp n sym sl te co)).
  unfold call_eqn in *. destruct (import_fun (eqn_imps hp) ot u name) as [b|] eqn:Ei; [|discriminate]. cbn [bind] in H.
  assert (Hts : exists ts, py_tokens u = Ok ts). { unfold import_fun in Ei. destruct (py_tokens u) as [ts|]; [eauto|discriminate]. }
  destruct Hts as (ts & Ets). destruct (py_tokens_cut t _ u v ts Hlex Ht Ets) as (ls' & Hcut & Ets2).
  destruct (import_fun_inv _ _ _ _ _ _ Ets Ei) as (pre & l & post & E1 & E2 & Hb & Hnz & Hpost).
  assert (Hnl : Forall (fun kl => no_line (snd kl)) ls').
  { assert (HN := no_line_eqn hp n sym sl te co). destruct Hcut as (m & _ & [->|(k & x & q & N & K & ->)]).
    - rewrite <- (firstn_skipn m (eqn_lines _ _ _ _ _ _)) in HN. apply Forall_app in HN. apply HN.
    - apply Forall_app. split; [rewrite <- (firstn_skipn m (eqn_lines _ _ _ _ _ _)) in HN; apply Forall_app in HN; apply HN|]. apply Forall_cons; [|apply Forall_nil]. cbn [snd].
      apply nth_error_In in N. rewrite Forall_forall in HN. specialize (HN _ N). cbn [snd] in HN. unfold no_line in *. destruct K as (j & K).
      assert (HF : Forall (fun t => match t with TLine _ => False | _ => True end) (firstn j x)) by (rewrite <- (firstn_skipn j x) in HN; apply Forall_app in HN; apply HN).
      destruct K as [->|[(w & z & r & _ & ->)|(a & y & r & _ & ->)]]; [exact HF| |]; apply Forall_app; (split; [exact HF|apply Forall_cons; [exact I|apply Forall_nil]]). }
  rewrite Ets2, tok_lines_ltoks in E1 by exact Hnl. cbn [snd] in E1.
  destruct (import_eqn hp ot t n sym sl te co Hlex) as [IC IP].
  assert (EI : forall nm, nm = lit "calc_observables" \/ nm = lit "p" -> Forall (fun kl : nat * list tok => def_name (snd kl) <> Some nm) (import_lines hp)).
  { intros nm Hnm. destruct hp; repeat (apply Forall_cons; [vm_compute; discriminate|]); constructor. }
  destruct (calc_split sl te co) as (sc & Ec & Rc). destruct (p_split n sym sl te co) as (sp & Ep & Rp).
  destruct Hname as [-> | ->].
  - rewrite IC. cbn [bind]. assert (C := cut_fun (eqn_lines hp n sym sl te co) ls' (import_lines hp) (T "def calc_observables(params):") (flat_map (slines hp) (calc_stmts sl te co))
      ((0%nat, T "def p(params):") :: flat_map (slines hp) (p_stmts n sym sl te co)) (lit "calc_observables") pre l b post eq_refl (slines_nz _ _) eq_refl).
    specialize (C ltac:(apply Forall_app; split; [apply EI; now left|apply Forall_app; split; [apply stmts_def|apply Forall_cons; [vm_compute; discriminate|apply stmts_def]]])).
    specialize (C Hcut E1 E2 Hb Hnz Hpost). rewrite Ec, flat_map_app in *. apply Forall_app in Hs1. destruct Hs1 as [Hs1 _].
    assert (Eb := xrun_cut other params (flat_map (slines hp) sc) (lit "Cout") b frame0 val (stmts_start hp sc Hs1 Rc) (or_introl eq_refl) C H). rewrite Eb in H. exact H.
  - rewrite IP. cbn [bind]. assert (C := cut_fun (eqn_lines hp n sym sl te co) ls' (import_lines hp ++ (0%nat, T "def calc_observables(params):") :: flat_map (slines hp) (calc_stmts sl te co)) (T "def p(params):") (flat_map (slines hp) (p_stmts n sym sl te co))
      [] (lit "p") pre l b post). rewrite app_nil_r in C. specialize (C ltac:(unfold eqn_lines; rewrite <- app_assoc; reflexivity) (slines_nz _ _) I).
    specialize (C ltac:(apply Forall_app; split; [apply Forall_app; split; [apply EI; now right|apply Forall_cons; [vm_compute; discriminate|apply stmts_def]]|apply stmts_def])).
    specialize (C Hcut E1 E2 Hb Hnz Hpost). rewrite Ep, flat_map_app in *. apply Forall_app in Hs2. destruct Hs2 as [Hs2 _].
    assert (Eb := xrun_cut other params (flat_map (slines hp) sp) (lit "Pout") b frame0 val (stmts_start hp sp Hs2 Rp) (or_intror eq_refl) C H). rewrite Eb in H. exact H.
Qed.
