(** Lemmas about the text of equation files, continued: the statements of a written file and their execution. *)
From Coq Require Import Ascii String.
From Verif Require Import Prelude Spec PreludeFacts M_Index M_Enum M_EqnText P_Enum P_EqnText P_EqnText2 P_EqnText3.
Import ListNotations.
Local Open Scope list_scope.
Local Open Scope char_scope.

(** ** The lines of a written file *)
Definition plain_line (l : text) : Prop := Forall (fun x => x <> nl) l.

Lemma lexes_blank : lexes [nl] [].
Proof. intros rest. reflexivity. Qed.

Lemma lexes_zeros c k hp : lexes (print_zeros (if c : bool then "Cout" else "Pout") k hp) (slines hp (SZeros c k)).
Proof.
  intros rest. unfold print_zeros. rewrite <- !app_assoc.
  assert (E : forall X, lex (LBol 0) 0 (lit "    " ++ lit (if c then "Cout" else "Pout") ++ lit " = zeros((" ++ X) = TLine 4 :: T (if c then "Cout = zeros((" else "Pout = zeros((") ++ lex LMid 2 X) by (intros; destruct c; reflexivity).
  rewrite E, lex_str_nat by (destruct hp; split; reflexivity).
  assert (E2 : lex LMid 2 ((if hp then line "), dtype=object)" else line "))") ++ rest) = T (if hp then "), dtype=object)" else "))") ++ lex (LBol 0) 0 rest) by (destruct hp; reflexivity).
  rewrite E2. unfold ltoks. cbn [slines flat_map fst snd stoks]. rewrite app_nil_r. cbn [app]. rewrite <- !app_assoc. reflexivity.
Qed.

Definition slice_stmt (cs : ascii * (nat * nat)) : stmt := SSlice (fst cs) (fst (snd cs)) (snd (snd cs)).

Lemma lexes_slice hp cs : In (fst cs) abc -> lexes (print_slice cs) (slines hp (slice_stmt cs)).
Proof.
  destruct cs as [c [a b]]. cbn [fst snd]. intros Hc rest. unfold print_slice. cbn [fst snd]. rewrite <- !app_assoc.
  assert (E : forall X, lex (LBol 0) 0 (lit "    " ++ [c] ++ lit " = params[" ++ X) = TLine 4 :: TName [c] :: T "= params[" ++ lex LMid 1 X).
  { intros X. revert c Hc. apply abc_cases. unfold abc. cbn [list_ascii_of_string]. repeat constructor. }
  rewrite E, lex_str_nat by (split; reflexivity). assert (E1 : forall X, lex LMid 1 ([":"] ++ X) = T ":" ++ lex LMid 1 X) by reflexivity. rewrite E1, lex_str_nat by (split; reflexivity).
  assert (E2 : lex LMid 1 (line "]" ++ rest) = T "]" ++ lex (LBol 0) 0 rest) by reflexivity. rewrite E2. reflexivity.
Qed.

Lemma lexes_doc1 hp : lexes (line "    """"""" ++ line "    Give all parameters concatenated into one array from lowest to highest order." ++ line "    Returns all correlations." ++ line "    """"""") (slines hp SDoc).
Proof. intros rest. reflexivity. Qed.
Lemma lexes_doc2 hp : lexes (line "    """"""" ++ line "    Give all parameters concatenated into one array from lowest to highest order." ++ line "    Returns probabilities of all configurations." ++ line "    """"""") (slines hp SDoc).
Proof. intros rest. reflexivity. Qed.

Lemma lexes_energies hp ls : ls <> [] -> Forall (Forall term_ok) ls -> exists t, write_energy_terms (ztext ls) = Ok t /\ lexes t (slines hp (SEnergies ls) ++ slines hp SLogZ).
Proof.
  intros H1 H2. destruct (write_energy_spec ls H1 H2) as (t & E & L). exists t. split; [assumption|]. intros rest. rewrite L. unfold ltoks. cbn [slines app flat_map fst snd stoks].
  rewrite <- !app_assoc. cbn [app]. rewrite <- !app_assoc. reflexivity.
Qed.

Lemma lexes_eqn (sym : bool) hp k a : a <> [] -> Forall (fun z => if sym then z = 1 \/ z = -1 else z = 0 \/ z = 1)%Z a ->
  lexes (print_eqn sym (k, a)) (slines hp (SNum a) ++ slines hp (SCout k)).
Proof.
  intros H1 H2 rest. destruct (print_coeffs_spec sym a H1 H2) as (cs & E & C). unfold print_eqn. cbn [fst snd]. rewrite E, <- !app_assoc.
  assert (E1 : forall X, lex (LBol 0) 0 (lit "    num = fast_logsumexp(energyTerms, " ++ ("[" :: glue cs ++ ["]"]) ++ X) = TLine 4 :: T "num = fast_logsumexp(energyTerms, [" ++ lex LMid 2 (glue cs ++ "]" :: X)).
  { intros X. cbn [app]. rewrite <- app_assoc. reflexivity. }
  rewrite E1, (lex_cells _ _ C).
  assert (E2 : forall X, lex LMid 1 (line ")" ++ lit "    Cout[" ++ X) = TOp ")" :: TLine 4 :: T "Cout[" ++ lex LMid 1 X) by reflexivity.
  rewrite E2, lex_str_nat by (split; reflexivity).
  assert (E3 : lex LMid 1 (line "] = exp( num[0] - logZ ) * num[1]" ++ rest) = T "] = exp( num[0] - logZ ) * num[1]" ++ lex (LBol 0) 0 rest) by reflexivity. rewrite E3.
  unfold ltoks. cbn [slines app flat_map fst snd stoks]. rewrite <- !app_assoc. cbn [app]. rewrite <- !app_assoc. cbn [app]. change (T "])") with [TOp "]"; TOp ")"]. rewrite app_nil_r. cbn [app]. rewrite <- ?app_assoc. reflexivity.
Qed.

Lemma lexes_nan (hp : bool) : lexes (if hp then line "    for i in range(Cout.size):" ++ line "         if isnan(Cout[i]):" ++ line "             Cout[i] = 0." else line "    Cout[isnan(Cout)] = 0.") (slines hp SNan).
Proof. intros rest. destruct hp; reflexivity. Qed.

Lemma lexes_pout hp k t : Forall term_ok t ->
  lexes (lit "    Pout[" ++ str_nat k ++ lit "] = exp( " ++ drop_end 2 (print_terms t ++ [","; " "]) ++ line " - logZ )") (slines hp (SPout k t)).
Proof.
  intros Ht rest. rewrite (drop_end_app 2) by (cbn; lia). change (drop_end 2 [","; " "]) with (@nil ascii). rewrite app_nil_r, <- !app_assoc.
  assert (E1 : forall X, lex (LBol 0) 0 (lit "    Pout[" ++ X) = TLine 4 :: T "Pout[" ++ lex LMid 1 X) by reflexivity. rewrite E1, lex_str_nat by (split; reflexivity).
  assert (E2 : forall X, lex LMid 1 (lit "] = exp( " ++ X) = T "] = exp(" ++ lex LMid 1 X) by reflexivity. rewrite E2, lex_terms; [|assumption|split; reflexivity].
  assert (E3 : lex LMid 1 (line " - logZ )" ++ rest) = T "- logZ )" ++ lex (LBol 0) 0 rest) by reflexivity. rewrite E3.
  unfold ltoks. cbn [slines app flat_map fst snd stoks]. rewrite <- !app_assoc. cbn [app]. rewrite <- !app_assoc. reflexivity.
Qed.

Lemma lexes_license lic : (forall ls, lic = Some ls -> Forall plain_line ls) -> lexes (print_license lic) [].
Proof.
  intros H. destruct lic as [ls|]; [|apply lexes_nil]. specialize (H ls eq_refl). unfold print_license. rewrite <- (app_nil_r (@nil (nat * list tok))).
  apply lexes_app; [|apply lexes_blank]. replace (@nil (nat * list tok)) with (flat_map (fun _ : text => @nil (nat * list tok)) ls) by (clear; induction ls; auto).
  apply lexes_flat. intros l Hl. rewrite Forall_forall in H. apply (lexes_comment (" " :: l)). constructor; [discriminate|now apply H].
Qed.

Lemma lexes_date d : plain_line d -> lexes (lit "# " ++ d ++ [nl]) [].
Proof. intros H. apply (lexes_comment (" " :: d)). constructor; [discriminate|exact H]. Qed.

Lemma lexes_title n : lexes (lit "# Equations for " ++ str_nat n ++ line "-spin Ising model.") [].
Proof.
  replace (lit "# Equations for " ++ str_nat n ++ line "-spin Ising model.") with ("#" :: (lit " Equations for " ++ str_nat n ++ lit "-spin Ising model.") ++ [nl])
    by (rewrite <- !app_assoc; reflexivity).
  apply lexes_comment. apply Forall_app. split; [repeat constructor; discriminate|]. apply Forall_app. split; [|repeat constructor; discriminate].
  apply str_nat_plain. intros m Hm. apply (digit_facts m Hm).
Qed.

Definition import_lines (hp : bool) : list (nat * list tok) :=
  if hp then [(0, T "from numpy import zeros, array, prod"); (0, T "from ..enumerate import mp_fast_logsumexp as fast_logsumexp"); (0, T "from mpmath import exp, isnan")]%nat
  else [(0, T "from numpy import zeros, exp, array, prod, isnan"); (0, T "from ..enumerate import fast_logsumexp")]%nat.

Definition eqn_stmts (ka : nat * list Z) : list stmt := [SNum (snd ka); SCout (fst ka)].
Definition calc_stmts (slices : list (ascii * (nat * nat))) (terms : list (list term)) (coeffs : list (list Z)) : list stmt :=
  SDoc :: SZeros true (length coeffs) :: map slice_stmt slices ++ SEnergies terms :: SLogZ :: flat_map eqn_stmts (number coeffs) ++ [SNan; SReturn true].
Definition p_stmts (n : nat) (sym : bool) (slices : list (ascii * (nat * nat))) (terms : list (list term)) (coeffs : list (list Z)) : list stmt :=
  SDoc :: SZeros true (length coeffs) :: map slice_stmt slices ++ map slice_stmt slices ++ SZeros false (2 ^ n) :: SEnergies terms :: SLogZ
    :: map (fun kt => SPout (fst kt) (snd kt)) (number terms) ++ (if sym then [SReverse] else []) ++ [SReturn false].

Lemma lexes_eq t ls ls' : ls = ls' -> lexes t ls -> lexes t ls'.
Proof. now intros ->. Qed.
Lemma flat_map_map {A B C} (f : B -> list C) (g : A -> B) l : flat_map f (map g l) = flat_map (fun a => f (g a)) l.
Proof. induction l as [|a l IH]; [reflexivity|]. cbn. now rewrite IH. Qed.
Lemma flat_map_flat {A B C} (f : B -> list C) (g : A -> list B) l : flat_map f (flat_map g l) = flat_map (fun a => flat_map f (g a)) l.
Proof. induction l as [|a l IH]; [reflexivity|]. cbn. now rewrite flat_map_app, IH. Qed.
Lemma number_map {A B} (f : A -> B) l : number (map f l) = map (fun ka => (fst ka, f (snd ka))) (number l).
Proof.
  unfold number. rewrite map_length. generalize (range (length l)). induction l as [|a l IH]; intros [|k r]; try reflexivity. cbn. now rewrite IH.
Qed.
Lemma number_in {A} (l : list A) k a : In (k, a) (number l) -> In a l.
Proof. apply in_combine_r. Qed.

Lemma lexes_app2 a b X l m : lexes (a ++ b) l -> lexes X m -> lexes (a ++ b ++ X) (l ++ m).
Proof. intros H1 H2. rewrite app_assoc. now apply lexes_app. Qed.
Lemma lexes_app3 a b c X l m : lexes (a ++ b ++ c) l -> lexes X m -> lexes (a ++ b ++ c ++ X) (l ++ m).
Proof. intros H1 H2. assert (Q := lexes_app _ _ _ _ H1 H2). now rewrite <- !app_assoc in Q. Qed.
Lemma lexes_app4 a b c d X l m : lexes (a ++ b ++ c ++ d) l -> lexes X m -> lexes (a ++ b ++ c ++ d ++ X) (l ++ m).
Proof. intros H1 H2. assert (Q := lexes_app _ _ _ _ H1 H2). now rewrite <- !app_assoc in Q. Qed.

(** The lines of a written file. *)
Definition eqn_lines (hp : bool) (n : nat) (sym : bool) (slices : list (ascii * (nat * nat))) (terms : list (list term)) (coeffs : list (list Z)) : list (nat * list tok) :=
  import_lines hp ++ [(0%nat, T "def calc_observables(params):")] ++ flat_map (slines hp) (calc_stmts slices terms coeffs)
    ++ [(0%nat, T "def p(params):")] ++ flat_map (slines hp) (p_stmts n sym slices terms coeffs).

Lemma write_py_spec lic date hp n (sym : bool) slices coeffs terms :
  (forall ls, lic = Some ls -> Forall plain_line ls) -> plain_line date ->
  Forall (fun cs => In (fst cs) abc) slices -> terms <> [] -> Forall (fun t => t <> [] /\ Forall term_ok t) terms ->
  Forall (fun a => a <> [] /\ Forall (fun z => if sym then z = 1 \/ z = -1 else z = 0 \/ z = 1)%Z a) coeffs ->
  exists t, write_py lic date hp n sym slices coeffs (map (fun l => print_terms l ++ [","; " "]) terms) (ztext terms) (if sym then nl :: lit "    Pout = Pout[::-1]" else []) = Ok t /\
    read_file t = Some (calc_stmts slices terms coeffs, p_stmts n sym slices terms coeffs) /\
    lexes t (eqn_lines hp n sym slices terms coeffs) /\ Forall stmt_ok (calc_stmts slices terms coeffs) /\ Forall stmt_ok (p_stmts n sym slices terms coeffs).
Proof.
  intros Hlic Hdate Hsl Htne Hterms Hco.
  assert (Hok : Forall (Forall term_ok) terms) by (eapply Forall_impl; [|exact Hterms]; intros t Q; apply Q).
  destruct (lexes_energies hp terms Htne Hok) as (et & Eet & Let). unfold write_py. rewrite Eet. cbn [bind]. eexists. split; [reflexivity|].
  match goal with |- read_file ?X = _ /\ _ => set (txt := X) end.
  assert (Lsl : lexes (flat_map print_slice slices) (flat_map (slines hp) (map slice_stmt slices))).
  { rewrite flat_map_map. apply lexes_flat. intros cs Hcs. rewrite Forall_forall in Hsl. apply lexes_slice. now apply Hsl. }
  assert (Leq : lexes (flat_map (print_eqn sym) (number coeffs)) (flat_map (slines hp) (flat_map eqn_stmts (number coeffs)))).
  { rewrite flat_map_flat. apply lexes_flat. intros [k a] Hka. apply number_in in Hka. rewrite Forall_forall in Hco. destruct (Hco a Hka) as [H1 H2].
    assert (Q := lexes_eqn sym hp k a H1 H2). unfold eqn_stmts. cbn [fst snd flat_map]. rewrite app_nil_r. exact Q. }
  assert (Lpo : lexes (flat_map (fun ke => lit "    Pout[" ++ str_nat (fst ke) ++ lit "] = exp( " ++ drop_end 2 (snd ke) ++ line " - logZ )") (number (map (fun l => print_terms l ++ [","; " "]) terms)))
                      (flat_map (slines hp) (map (fun kt => SPout (fst kt) (snd kt)) (number terms)))).
  { rewrite number_map, !flat_map_map. apply lexes_flat. intros [k t] Hkt. apply number_in in Hkt. cbn [fst snd]. apply lexes_pout. rewrite Forall_forall in Hok. now apply Hok. }
  assert (L : exists ls, lexes txt ls /\ ls = import_lines hp ++ [(0%nat, T "def calc_observables(params):")] ++ flat_map (slines hp) (calc_stmts slices terms coeffs)
                         ++ [(0%nat, T "def p(params):")] ++ flat_map (slines hp) (p_stmts n sym slices terms coeffs)).
  { unfold txt. clear txt. eexists. split.
    - eapply lexes_app; [now apply lexes_license|]. eapply lexes_app3; [apply lexes_title|]. eapply lexes_app; [apply lexes_blank|].
      eapply lexes_app3; [now apply lexes_date|]. eapply lexes_app; [instantiate (1 := import_lines hp); intros rest; destruct hp; reflexivity|].
      eapply lexes_app; [instantiate (1 := [(0%nat, T "def calc_observables(params):")]); intros rest; reflexivity|].
      eapply lexes_app4; [apply (lexes_doc1 hp)|]. eapply lexes_app; [eapply lexes_app; [apply (lexes_zeros true)|exact Lsl]|].
      eapply lexes_app; [exact Let|]. eapply lexes_app; [exact Leq|]. eapply lexes_app; [apply lexes_nan|].
      eapply lexes_app; [instantiate (1 := slines hp (SReturn true)); intros rest; reflexivity|]. eapply lexes_app; [apply lexes_blank|].
      eapply lexes_app; [instantiate (1 := [(0%nat, T "def p(params):")]); intros rest; reflexivity|].
      eapply lexes_app4; [apply (lexes_doc2 hp)|]. eapply lexes_app; [eapply lexes_app; [apply (lexes_zeros true)|exact Lsl]|]. eapply lexes_app; [exact Lsl|].
      eapply lexes_app; [apply (lexes_zeros false)|]. eapply lexes_app; [exact Let|]. eapply lexes_app; [exact Lpo|].
      eapply lexes_app2; [instantiate (1 := flat_map (slines hp) (if sym then [SReverse] else [])); intros rest; destruct sym; reflexivity|].
      instantiate (1 := slines hp (SReturn false)). intros rest. reflexivity.
    - unfold calc_stmts, p_stmts. cbn [flat_map app]. do 4 (rewrite ?flat_map_app; cbn [flat_map]).
      rewrite ?app_nil_r. rewrite <- ?app_assoc. reflexivity. }
  destruct L as (ls & L & ->). assert (L0 := L). specialize (L []). rewrite app_nil_r in L. change (lex (LBol 0) 0 []) with (@nil tok) in L. rewrite app_nil_r in L.
  assert (Osl : Forall stmt_ok (map slice_stmt slices)). { apply Forall_map. exact Hsl. }
  assert (Hs1 : Forall stmt_ok (calc_stmts slices terms coeffs)).
  { unfold calc_stmts. constructor; [exact I|]. constructor; [exact I|]. apply Forall_app. split; [exact Osl|]. constructor; [exact Hterms|]. constructor; [exact I|].
    apply Forall_app. split; [|repeat constructor]. apply Forall_forall. intros st Hst. apply in_flat_map in Hst. destruct Hst as ([k a] & Hka & Hst). apply number_in in Hka.
    rewrite Forall_forall in Hco. destruct (Hco a Hka) as [H1 H2]. destruct Hst as [<-|[<-|[]]]; [|exact I]. split; [exact H1|]. cbn [snd]. eapply Forall_impl; [|exact H2].
    intros z Hz. destruct sym; tauto. }
  assert (Hs2 : Forall stmt_ok (p_stmts n sym slices terms coeffs)).
  { unfold p_stmts. constructor; [exact I|]. constructor; [exact I|]. apply Forall_app. split; [exact Osl|]. apply Forall_app. split; [exact Osl|].
    constructor; [exact I|]. constructor; [exact Hterms|]. constructor; [exact I|]. apply Forall_app. split; [|destruct sym; repeat constructor].
    apply Forall_map, Forall_forall. intros [k t] Hkt. apply number_in in Hkt. rewrite Forall_forall in Hterms. apply (Hterms t Hkt). }
  assert (Hnl : forall ss, Forall (fun kl : nat * list tok => no_line (snd kl)) (flat_map (slines hp) ss)).
  { induction ss as [|s ss IH]; [constructor|]. cbn [flat_map]. apply Forall_app. split; [apply slines_no_line|exact IH]. }
  split; [|split; [exact L0|split; [exact Hs1|exact Hs2]]].
  unfold read_file. rewrite L, tok_lines_ltoks.
  2:{ apply Forall_app. split; [destruct hp; repeat constructor|]. apply Forall_app. split; [repeat constructor|]. apply Forall_app. split; [apply Hnl|].
      apply Forall_app. split; [repeat constructor|apply Hnl]. }
  cbn [snd].
  match goal with |- context [imports (import_lines hp ++ ?X)] => assert (EI : imports (import_lines hp ++ X) = Some X) by (destruct hp; reflexivity); rewrite EI end.
  cbn [opt_bind]. assert (EH : forall X, header "def calc_observables(params):" ([(0%nat, T "def calc_observables(params):")] ++ X) = Some X) by reflexivity. rewrite EH. cbn [opt_bind].
  rewrite parse_body_lines by (assumption || reflexivity). cbn [opt_bind fst snd].
  assert (EP : forall X, header "def p(params):" ([(0%nat, T "def p(params):")] ++ X) = Some X) by reflexivity. rewrite EP. cbn [opt_bind].
  rewrite <- (app_nil_r (flat_map (slines hp) (p_stmts _ _ _ _ _))), parse_body_lines by (assumption || exact I). reflexivity.
Qed.

(** ** Execution *)
Local Open Scope R_scope.

Lemma exec_slices params slices : forall fr rest, exec_body params fr (map slice_stmt slices ++ rest) =
  exec_body params {| fr_vars := rev (map (fun cs => (fst cs, slice params (fst (snd cs)) (snd (snd cs)))) slices) ++ fr_vars fr; fr_energies := fr_energies fr; fr_logz := fr_logz fr;
    fr_num := fr_num fr; fr_cout := fr_cout fr; fr_pout := fr_pout fr |} rest.
Proof.
  induction slices as [|cs slices IH]; intros fr rest.
  - destruct fr. reflexivity.
  - cbn [map app exec_body slice_stmt exec bind]. rewrite IH. cbn [fr_vars fr_energies fr_logz fr_num fr_cout fr_pout rev]. rewrite <- app_assoc. reflexivity.
Qed.

Lemma upd_mid {A} (u : list A) x v w : upd (u ++ x :: w) (length u) v = u ++ v :: w.
Proof. induction u as [|a u IH]; [reflexivity|]. cbn [app length upd]. now rewrite IH. Qed.

Lemma set_mid {A} (u : list A) x v w : set_item (u ++ x :: w) (length u) v = Ok (u ++ v :: w).
Proof. unfold set_item. rewrite app_length. cbn [length]. destruct (Nat.ltb_spec (length u) (length u + S (length w))); [|lia]. now rewrite upd_mid. Qed.

Lemma exec_eqns params e z cs : forall fr u w vals rest, fr_energies fr = Some e -> fr_logz fr = Some z -> fr_cout fr = Some (u ++ w) -> length w = length cs ->
  mapM (fun c => bind (fast_logsumexp e (Some (map IZR c))) (fun num => Ok (nan_to_0 (option_map (fun x => x * snd num) (exp_diff (fst num) z))))) cs = Ok vals ->
  exists fr' ov, exec_body params fr (flat_map eqn_stmts (combine (seq (length u) (length cs)) cs) ++ rest) = exec_body params fr' rest /\
    fr_cout fr' = Some (u ++ ov) /\ map nan_to_0 ov = vals.
Proof.
  induction cs as [|c cs IH]; intros fr u w vals rest He Hz Hc Hl Hm.
  - destruct w; [|discriminate]. exists fr, []. cbn in Hm. injection Hm as <-. auto.
  - destruct w as [|x w]; [discriminate|]. cbn [mapM] in Hm. destruct (fast_logsumexp e (Some (map IZR c))) as [nm|] eqn:En; [|discriminate]. cbn [bind] in Hm.
    destruct (mapM _ cs) as [vs|] eqn:Em; [|discriminate]. cbn [bind] in Hm.
    assert (Hv : vals = nan_to_0 (option_map (fun x => x * snd nm) (exp_diff (fst nm) z)) :: vs) by congruence. subst vals. clear Hm.
    set (v := option_map (fun x => x * snd nm) (exp_diff (fst nm) z)) in *.
    destruct (IH {| fr_vars := fr_vars fr; fr_energies := Some e; fr_logz := Some z; fr_num := Some nm; fr_cout := Some ((u ++ [v]) ++ w); fr_pout := fr_pout fr |} (u ++ [v]) w vs rest)
      as (fr' & ov & E & C & V); try reflexivity; [cbn in Hl; lia|].
    exists fr', (v :: ov). split.
    { cbn [length seq combine flat_map eqn_stmts app exec_body fst snd exec]. rewrite He. cbn [var bind]. rewrite En. cbn [bind exec_body exec fr_num fr_logz fr_cout var]. rewrite Hz. cbn [var bind]. rewrite Hc. cbn [var bind].
      fold v. rewrite set_mid. cbn [bind]. rewrite app_length in E. cbn [length] in E. rewrite Nat.add_1_r, <- app_assoc in E. exact E. }
    rewrite <- app_assoc in C. split; [exact C|]. cbn [map]. now rewrite V.
Qed.

Lemma exec_pouts params e env z ts : forall fr u w vals rest, fr_energies fr = Some e -> fr_vars fr = env -> fr_logz fr = Some z -> fr_pout fr = Some (u ++ w) -> length w = length ts ->
  mapM (fun t => bind (eval_terms env t) (fun x => Ok (exp_diff (Fin x) z))) ts = Ok vals ->
  exists fr', exec_body params fr (map (fun kt => SPout (fst kt) (snd kt)) (combine (seq (length u) (length ts)) ts) ++ rest) = exec_body params fr' rest /\ fr_pout fr' = Some (u ++ vals).
Proof.
  induction ts as [|t ts IH]; intros fr u w vals rest He Hv Hz Hp Hl Hm.
  - destruct w; [|discriminate]. exists fr. cbn in Hm. injection Hm as <-. auto.
  - destruct w as [|x w]; [discriminate|]. cbn [mapM] in Hm. destruct (eval_terms env t) as [y|] eqn:Ey; [|discriminate]. cbn [bind] in Hm.
    destruct (mapM _ ts) as [vs|] eqn:Em; [|discriminate]. cbn [bind] in Hm. assert (Hw : vals = exp_diff (Fin y) z :: vs) by congruence. subst vals. clear Hm.
    set (v := exp_diff (Fin y) z) in *.
    destruct (IH {| fr_vars := env; fr_energies := Some e; fr_logz := Some z; fr_num := fr_num fr; fr_cout := fr_cout fr; fr_pout := Some ((u ++ [v]) ++ w) |} (u ++ [v]) w vs rest)
      as (fr' & E & C); try reflexivity; [cbn in Hl; lia|].
    exists fr'. split.
    { cbn [length seq combine map app exec_body fst snd exec]. rewrite Hv, Ey. cbn [bind]. rewrite Hz. cbn [var bind]. rewrite Hp. cbn [var bind]. fold v. rewrite set_mid. cbn [bind].
      rewrite He. rewrite app_length in E. cbn [length] in E. rewrite Nat.add_1_r, <- app_assoc in E. exact E. }
    rewrite <- app_assoc in C. exact C.
Qed.

Lemma lookup_app a b c : lookup (a ++ b) c = match lookup a c with Ok v => Ok v | Err _ => lookup b c end.
Proof. induction a as [|[d v] a IH]; [reflexivity|]. cbn [app lookup]. destruct (Ascii.eqb c d); [reflexivity|exact IH]. Qed.
Lemma lookup_twice e c : lookup (e ++ e) c = lookup e c.
Proof. rewrite lookup_app. destruct (lookup e c); reflexivity. Qed.
Lemma eval_twice e l : eval_terms (e ++ e) l = eval_terms e l.
Proof. induction l as [|[neg a] l IH]; [reflexivity|]. cbn [eval_terms]. rewrite IH. f_equal. destruct a as [|c i]; [reflexivity|]. cbn [eval_atom]. now rewrite lookup_twice. Qed.
Lemma mapM_ext {A B} (f g : A -> result B) l : (forall a, f a = g a) -> mapM f l = mapM g l.
Proof. intros H. induction l as [|a l IH]; [reflexivity|]. cbn [mapM]. now rewrite H, IH. Qed.

Lemma exec_calc f params vals : run_calc_observables f params = Ok vals ->
  exec_body params frame0 (calc_stmts (ef_slices f) (ef_terms f) (ef_coeffs f)) = Ok (map Some vals).
Proof.
  unfold run_calc_observables. intros H. destruct (mapM _ (ef_terms f)) as [e|] eqn:Ee; [|discriminate]. cbn [bind] in H.
  destruct (fast_logsumexp e None) as [z|] eqn:Ez; [|discriminate]. cbn [bind] in H.
  unfold calc_stmts. cbn [exec_body exec bind]. rewrite exec_slices. cbn [exec_body exec fr_vars frame0 fr_energies fr_logz fr_num fr_cout fr_pout]. rewrite app_nil_r.
  change (rev (map _ (ef_slices f))) with (make_env f params). rewrite Ee. cbn [bind exec_body exec fr_energies var]. rewrite Ez. cbn [bind].
  unfold number, range.
  match goal with |- exec_body params ?fr _ = _ => destruct (exec_eqns params e (fst z) (ef_coeffs f) fr [] (repeat (Some 0) (length (ef_coeffs f))) vals [SNan; SReturn true] eq_refl eq_refl eq_refl) as (fr' & ov & E & C & V) end.
  - apply repeat_length.
  - exact H.
  - cbn [length app] in E, C. rewrite E. cbn [exec_body exec bind]. rewrite C. cbn [var bind fr_cout]. f_equal. rewrite <- V, map_map. reflexivity.
Qed.

Lemma exec_p n f params vals : ef_probs f = ef_terms f -> length (ef_terms f) = (2 ^ n)%nat -> run_p f params = Ok vals ->
  exec_body params frame0 (p_stmts n (ef_rev f) (ef_slices f) (ef_terms f) (ef_coeffs f)) = Ok vals.
Proof.
  unfold run_p. intros Hpt Hlen H. rewrite Hpt in H. set (env := make_env f params) in *. destruct (mapM (eval_terms env) (ef_terms f)) as [e|] eqn:Ee; [|discriminate]. cbn [bind] in H.
  destruct (fast_logsumexp e None) as [z|] eqn:Ez; [|discriminate]. cbn [bind] in H. destruct (mapM (fun t => bind (eval_terms env t) _) (ef_terms f)) as [P|] eqn:EP; [|discriminate]. cbn [bind] in H.
  assert (HP : (if ef_rev f then rev P else P) = vals) by congruence. clear H.
  unfold p_stmts. cbn [exec_body exec bind]. rewrite exec_slices, exec_slices. cbn [exec_body exec fr_vars frame0 fr_energies fr_logz fr_num fr_cout fr_pout bind]. rewrite app_nil_r.
  change (rev (map _ (ef_slices f))) with env. rewrite (mapM_ext _ (eval_terms env)) by (intros; apply eval_twice). rewrite Ee. cbn [bind exec_body exec fr_energies var]. rewrite Ez. cbn [bind].
  unfold number, range.
  match goal with |- exec_body params ?fr (_ ++ ?rest) = _ => destruct (exec_pouts params e (env ++ env) (fst z) (ef_terms f) fr [] (repeat (Some 0) (2 ^ n)) P rest eq_refl eq_refl eq_refl eq_refl) as (fr' & E & C) end.
  - now rewrite repeat_length.
  - rewrite <- EP. apply mapM_ext. intros t. now rewrite eval_twice.
  - cbn [length app] in E, C. rewrite E. destruct (ef_rev f); cbn [app exec_body exec bind]; rewrite C; cbn [var bind fr_pout exec_body exec]; now rewrite HP.
Qed.

(** ** Files written by write_eqns *)
Lemma raw_terms_ne n (sym : bool) cts state : (length cts <= length abc)%nat -> (exists subix, In subix cts /\ subix <> [] /\ (0 < nterms subix)%nat) -> raw_terms n sym cts state <> [].
Proof.
  intros Hl (subix & Hin & Hne & Hk). assert (Q : exists c, In (c, subix) (combine abc cts)).
  { revert Hl Hin. generalize abc. clear. intros l. revert cts. induction l as [|c l IH]; intros [|s cts] Hl Hin; cbn in *; try lia; try contradiction.
    destruct Hin as [->|Hin]; [eauto|]. destruct (IH cts ltac:(lia) Hin) as (d & Hd). eauto. }
  destruct Q as (c & Hc). intros E. unfold raw_terms in E. assert (G : forall t, ~ In t (if sym then get_terms11 subix c (binstate n state) else get_terms01 subix c (binstate n state))).
  { intros t Ht. assert (In t []); [|contradiction]. rewrite <- E. apply in_flat_map. exists (c, subix). auto. }
  destruct subix as [|k0 rest]; [congruence|]. destruct sym.
  - unfold get_terms11, nterms in *. cbn [hd] in Hk. destruct k0 as [|i0 k0]; [cbn in Hk; lia|]. unfold range in G. cbn [length seq map] in G. eapply G. left. reflexivity.
  - clear E Hc. unfold get_terms01 in G. cbv zeta in G. destruct (flat_map _ (range (length k0))) as [|t u]; eapply G; left; reflexivity.
Qed.

Lemma sign_spec_values (sym : bool) bs t : if sym then (sign_spec sym bs t = 1 \/ sign_spec sym bs t = -1)%Z else (sign_spec sym bs t = 0 \/ sign_spec sym bs t = 1)%Z.
Proof. destruct sym; unfold sign_spec; cbv zeta; [destruct (Nat.eqb _ _)|destruct (existsb _ _)]; auto. Qed.

Theorem text_of_file lic date hp n (sym : bool) cts f :
  (forall ls, lic = Some ls -> Forall plain_line ls) -> plain_line date -> (length cts <= length abc)%nat -> (forall subix, In subix cts -> subix <> []) -> all_tuples cts <> [] ->
  write_eqns n sym cts = Ok f ->
  exists t, write_eqns_text lic date hp n sym cts = Ok t /\
    (forall params vals, run_calc_observables f params = Ok vals -> call_calc_observables t params = Ok (map Some vals)) /\
    (forall params vals, run_p f params = Ok vals -> call_p t params = Ok vals) /\
    exists slices terms coeffs, lexes t (eqn_lines hp n sym slices terms coeffs) /\ Forall stmt_ok (calc_stmts slices terms coeffs) /\ Forall stmt_ok (p_stmts n sym slices terms coeffs) /\
      (forall params vals, run_calc_observables f params = Ok vals -> exec_body params frame0 (calc_stmts slices terms coeffs) = Ok (map Some vals)) /\
      (forall params vals, run_p f params = Ok vals -> exec_body params frame0 (p_stmts n sym slices terms coeffs) = Ok vals).
Proof.
  intros Hlic Hdate Hlen Hne Htup Hf. assert (Hf2 := write_eqns_ok n sym cts Hlen Hne). rewrite Hf in Hf2.
  unfold write_eqns in Hf. unfold write_eqns_text. destruct (Nat.ltb (length abc) (length cts)); [discriminate|]. destruct (mapM (signs_of n sym) cts) as [signs|] eqn:Es; [|discriminate]. cbn [bind] in *.
  set (terms := map (expterm n sym cts) (seq 0 (2 ^ n))) in *.
  assert (ET : map (expterm_text n sym cts) (seq 0 (2 ^ n)) = map (fun l => print_terms l ++ [","; " "]) terms).
  { unfold terms. rewrite map_map. apply map_ext. intros st. apply expterm_text_eq. }
  cbv zeta. rewrite ET. change (concat (map (fun l => print_terms l ++ [","; " "]) terms)) with (ztext terms).
  assert (H2n : (0 < 2 ^ n)%nat) by (apply Nat.neq_0_lt_0, Nat.pow_nonzero; lia).
  assert (Ef : f = {| ef_slices := combine abc (cum_slices 0 (map (@length _) signs)); ef_terms := terms; ef_coeffs := concat signs; ef_probs := terms; ef_rev := sym |}) by congruence.
  assert (Ec : concat signs = map (fun t => map (fun bs => sign_spec sym bs t) (map (binstate n) (seq 0 (2 ^ n)))) (all_tuples cts)).
  { transitivity (ef_coeffs f); [now rewrite Ef|]. injection Hf2 as ->. reflexivity. }
  destruct (write_py_spec lic date hp n sym (combine abc (cum_slices 0 (map (@length _) signs))) (concat signs) terms Hlic Hdate) as (t & E1 & E2 & L0 & Hs1 & Hs2).
  - apply Forall_forall. intros [c ab] H. apply in_combine_l in H. exact H.
  - unfold terms. destruct (2 ^ n)%nat; [lia|discriminate].
  - apply Forall_forall. intros t Ht. unfold terms in Ht. apply in_map_iff in Ht. destruct Ht as (st & <- & _). split; [|apply expterm_ok].
    unfold expterm. cbv zeta. fold (raw_terms n sym cts st). apply re_sub0_ne, raw_terms_ne; [assumption|].
    destruct (all_tuples cts) as [|t0 ts] eqn:Et; [congruence|]. assert (Hin : In t0 (all_tuples cts)) by (rewrite Et; left; reflexivity).
    unfold all_tuples in Hin. apply in_flat_map in Hin. destruct Hin as (subix & H1 & H2). exists subix. split; [assumption|]. split; [now apply Hne|].
    rewrite <- tuples_length. destruct (tuples subix); [contradiction|cbn; lia].
  - rewrite Ec. apply Forall_forall. intros a Ha. apply in_map_iff in Ha. destruct Ha as (t & <- & _). split.
    + destruct (2 ^ n)%nat; [lia|discriminate].
    + apply Forall_forall. intros z Hz. apply in_map_iff in Hz. destruct Hz as (bs & <- & _). assert (Q := sign_spec_values sym bs t). destruct sym; exact Q.
  - assert (Q1 : forall params vals, run_calc_observables f params = Ok vals -> exec_body params frame0 (calc_stmts (combine abc (cum_slices 0 (map (@length _) signs))) terms (concat signs)) = Ok (map Some vals))
      by (intros params vals Hr; rewrite Ef in Hr; apply exec_calc in Hr; exact Hr).
    assert (Q2 : forall params vals, run_p f params = Ok vals -> exec_body params frame0 (p_stmts n sym (combine abc (cum_slices 0 (map (@length _) signs))) terms (concat signs)) = Ok vals)
      by (intros params vals Hr; rewrite Ef in Hr; apply (exec_p n) in Hr; [exact Hr|reflexivity|]; cbn [ef_terms]; unfold terms; now rewrite map_length, seq_length).
    exists t. split; [exact E1|]. unfold call_calc_observables, call_p. rewrite E2. split; [exact Q1|]. split; [exact Q2|].
    eexists _, _, _. split; [exact L0|]. split; [exact Hs1|]. split; [exact Hs2|]. split; [exact Q1|exact Q2].
Qed.
