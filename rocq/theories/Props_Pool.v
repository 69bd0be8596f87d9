(** * C89: parallel sampling and the scheduling of worker processes *)
From Coq Require Import Permutation.
From Verif Require Import Prelude PreludeFacts Spec M_Index M_Sampler M_Wolff M_Temper M_Pool.
Import ListNotations.
Local Open Scope nat_scope.

(** The calls of one chunk, one after the other on the same copy of the objects. *)
Fixpoint calls {K A B} (call : K -> A -> K * result B) (k : K) (c : list A) : result (list B) :=
  match c with
  | [] => Ok []
  | a :: c => let '(k, r) := call k a in bind r (fun b => bind (calls call k c) (fun bs => Ok (b :: bs)))
  end.
Fixpoint after {K A B} (call : K -> A -> K * result B) (k : K) (c : list A) : K :=
  match c with [] => k | a :: c => after call (fst (call k a)) c end.

Lemma calls_app {K A B} (call : K -> A -> K * result B) c c' : forall k bs, calls call k c = Ok bs ->
  calls call k (c ++ c') = bind (calls call (after call k c) c') (fun bs' => Ok (bs ++ bs')).
Proof.
  induction c as [|a c IH]; intros k bs H.
  - cbn in H. injection H as <-. cbn [app after]. destruct (calls call k c'); reflexivity.
  - cbn [app calls after] in *. destruct (call k a) as [k' [b|e]]; [|discriminate]. cbn [bind fst] in *. destruct (calls call k' c) as [bs'|e] eqn:E; [|discriminate]. cbn [bind] in H. injection H as <-.
    rewrite (IH k' bs' E). destruct (calls call (after call k' c) c'); reflexivity.
Qed.

Lemma after_app {K A B} (call : K -> A -> K * result B) c c' : forall k, after call k (c ++ c') = after call (after call k c) c'.
Proof. induction c as [|a c IH]; intros k; [reflexivity|]. cbn. apply IH. Qed.

Lemma mapM_spec {A B} (h : A -> result B) l bs : mapM h l = Ok bs <-> map h l = map Ok bs.
Proof.
  revert bs. induction l as [|a l IH]; intros bs; cbn [mapM map].
  - split; [intros H; now injection H as <-|]. destruct bs; [reflexivity|discriminate].
  - split.
    + destruct (h a) as [b|e]; [|discriminate]. cbn [bind]. destruct (mapM h l) as [bs'|e]; [|discriminate]. cbn [bind]. intros H. injection H as <-. cbn [map]. f_equal. now apply IH.
    + destruct bs as [|b bs]; [discriminate|]. cbn [map]. intros H. injection H as -> H. cbn [bind]. apply IH in H. now rewrite H.
Qed.

Section Facts.
Context {G K A B : Type}.
Variable f : G -> K -> A -> G * K * result B.
Variable k0 : K.
Notation pool := (pool G K A B).
Notation worker := (M_Pool.worker G K A B).

Definition busy_index (w : worker) : list nat := match w with Idle _ => [] | Busy _ i _ _ _ => [i] end.
Definition indices (p : pool) : list nat := map fst (p_queue p) ++ flat_map busy_index (p_workers p) ++ map fst (p_reported p).

Lemma upd_split {X} (l : list X) w x y : nth_error l w = Some x -> exists l1 l2, l = l1 ++ x :: l2 /\ upd l w y = l1 ++ y :: l2 /\ length l1 = w.
Proof.
  revert w. induction l as [|a l IH]; intros [|w] H; try discriminate.
  - cbn in H. injection H as ->. exists [], l. repeat split.
  - cbn in H. destruct (IH w H) as (l1 & l2 & -> & E & L). exists (a :: l1), l2. cbn [app length]. repeat split; [|now f_equal].
    cbn [upd]. now rewrite E.
Qed.

(** A worker's turn does nothing, takes a chunk, makes a call, or reports. *)
Inductive turn (p p' : pool) : Prop :=
| turn_none : p' = p -> turn p p'
| turn_take g i c q l1 l2 : p_queue p = (i, c) :: q -> p_workers p = l1 ++ Idle g :: l2 -> p' = Pool q (l1 ++ Busy g i k0 c [] :: l2) (p_reported p) -> turn p p'
| turn_call g i k a todo done b l1 l2 : p_workers p = l1 ++ Busy g i k (a :: todo) done :: l2 -> snd (f g k a) = Ok b ->
    p' = Pool (p_queue p) (l1 ++ Busy (fst (fst (f g k a))) i (snd (fst (f g k a))) todo (done ++ [b]) :: l2) (p_reported p) -> turn p p'
| turn_fail g i k a todo done e l1 l2 : p_workers p = l1 ++ Busy g i k (a :: todo) done :: l2 -> snd (f g k a) = Err e ->
    p' = Pool (p_queue p) (l1 ++ Idle (fst (fst (f g k a))) :: l2) (p_reported p ++ [(i, Err e)]) -> turn p p'
| turn_report g i k done l1 l2 : p_workers p = l1 ++ Busy g i k [] done :: l2 ->
    p' = Pool (p_queue p) (l1 ++ Idle g :: l2) (p_reported p ++ [(i, Ok done)]) -> turn p p'.

Lemma act_turn w p : turn p (act f k0 w p).
Proof.
  unfold act. destruct (nth_error (p_workers p) w) as [[g|g i k [|a todo] done]|] eqn:E; [| | |now apply turn_none].
  - destruct (p_queue p) as [|[i c] q] eqn:Q; [now apply turn_none|]. destruct (upd_split _ _ _ (Busy g i k0 c []) E) as (l1 & l2 & E1 & E2 & _). eapply turn_take; [exact Q|exact E1|now rewrite E2].
  - destruct (upd_split _ _ _ (Idle g) E) as (l1 & l2 & E1 & E2 & _). eapply turn_report; [exact E1|now rewrite E2].
  - destruct (f g k a) as [[g' k'] [b|e]] eqn:F.
    + destruct (upd_split _ _ _ (Busy g' i k' todo (done ++ [b])) E) as (l1 & l2 & E1 & E2 & _). eapply turn_call; [exact E1|now rewrite F|]. rewrite F. cbn [fst snd]. now rewrite E2.
    + destruct (upd_split _ _ _ (Idle g') E) as (l1 & l2 & E1 & E2 & _). eapply turn_fail; [exact E1|now rewrite F|]. rewrite F. cbn [fst snd]. now rewrite E2.
Qed.

(** ** What a value of map tells about the calls *)
Section Values.
Variable chunks : list (list A).
Variable call : K -> A -> K * result B.
Hypothesis Hf : forall g k a, (snd (fst (f g k a)), snd (f g k a)) = call k a.
Notation m := (length chunks).

Definition worker_ok (w : worker) : Prop := match w with
  | Idle _ => True
  | Busy _ i k todo done => exists pre, nth i chunks [] = pre ++ todo /\ calls call k0 pre = Ok done /\ after call k0 pre = k end.
Definition report_ok (r : nat * result (list B)) : Prop := snd r = calls call k0 (nth (fst r) chunks []).
Definition inv (p : pool) : Prop :=
  NoDup (indices p) /\ Forall (fun i => i < m) (indices p) /\ Forall (fun q => snd q = nth (fst q) chunks []) (p_queue p) /\
  Forall worker_ok (p_workers p) /\ Forall report_ok (p_reported p).

Lemma inv_start globals : inv (start globals chunks).
Proof.
  unfold inv, indices, start. cbn [p_queue p_workers p_reported]. rewrite app_nil_r.
  assert (Z : flat_map busy_index (map Idle globals) = []) by (induction globals; [reflexivity|assumption]). rewrite Z, app_nil_r.
  assert (Q : map fst (combine (range m) chunks) = range m).
  { unfold range. generalize 0. induction chunks as [|c l IH]; intros s; [reflexivity|]. cbn. now rewrite IH. }
  rewrite Q. split; [apply seq_NoDup|]. split; [apply Forall_forall; intros i Hi; apply in_seq in Hi; lia|]. split; [|split; [|constructor]].
  - apply Forall_forall. intros [i c] Hi. cbn [fst snd].
    assert (R : forall s l, In (i, c) (combine (seq s (length l)) l) -> c = nth (i - s) l []).
    { intros s l. revert s. induction l as [|x l IH]; intros s H; [destruct H|]. cbn in H. destruct H as [H|H].
      - injection H as <- <-. now rewrite Nat.sub_diag.
      - assert (L := in_combine_l _ _ _ _ H). apply in_seq in L. rewrite (IH (S s) H). replace (i - s) with (S (i - S s)) by lia. reflexivity. }
    specialize (R 0 chunks Hi). now rewrite Nat.sub_0_r in R.
  - apply Forall_forall. intros w Hw. apply in_map_iff in Hw. destruct Hw as (g & <- & _). exact I.
Qed.

Ltac perm := repeat rewrite ?flat_map_app, ?map_app, ?app_nil_r; cbn [flat_map busy_index map fst app]; repeat rewrite <- ?app_assoc; cbn [app].

Lemma inv_turn p p' : inv p -> turn p p' -> inv p'.
Proof.
  intros (I1 & I2 & I3 & I4 & I5) T. destruct T as [->|g i c q l1 l2 Q W ->|g i k a todo done b l1 l2 W R ->|g i k a todo done e l1 l2 W R ->|g i k done l1 l2 W ->];
    [repeat split; assumption| | | |]; unfold inv, indices in *; cbn [p_queue p_workers p_reported]; rewrite W in *.
  - rewrite Q in *. assert (P : Permutation (map fst ((i, c) :: q) ++ flat_map busy_index (l1 ++ Idle g :: l2) ++ map fst (p_reported p))
      (map fst q ++ flat_map busy_index (l1 ++ Busy g i k0 c [] :: l2) ++ map fst (p_reported p))).
    { perm. rewrite Permutation_middle. apply Permutation_app_head. rewrite Permutation_middle. reflexivity. }
    split; [now apply (Permutation_NoDup P)|]. split; [now apply (Permutation_Forall P)|]. apply Forall_cons_iff in I3. destruct I3 as [I3 I3']. split; [assumption|]. split; [|assumption].
    apply Forall_app in I4. destruct I4 as [I4 I4']. apply Forall_cons_iff in I4'. destruct I4' as [_ I4']. apply Forall_app. split; [assumption|]. constructor; [|assumption].
    exists []. split; [exact (eq_sym I3)|]. now split.
  - assert (P : flat_map busy_index (l1 ++ Busy g i k (a :: todo) done :: l2) = flat_map busy_index (l1 ++ Busy (fst (fst (f g k a))) i (snd (fst (f g k a))) todo (done ++ [b]) :: l2)) by (now rewrite !flat_map_app).
    rewrite <- P. split; [assumption|]. split; [assumption|]. split; [assumption|]. split; [|assumption].
    apply Forall_app in I4. destruct I4 as [I4 I4']. apply Forall_cons_iff in I4'. destruct I4' as [(pre & E1 & E2 & E3) I4']. assert (Ha := Hf g k a).
    apply Forall_app. split; [assumption|]. constructor; [|assumption]. exists (pre ++ [a]). split; [now rewrite E1, <- app_assoc|].
    rewrite (calls_app call pre [a] k0 done E2), after_app, E3. cbn [calls after]. rewrite <- Ha, R. cbn [fst bind]. now split.
  - assert (P : Permutation (map fst (p_queue p) ++ flat_map busy_index (l1 ++ Busy g i k (a :: todo) done :: l2) ++ map fst (p_reported p))
      (map fst (p_queue p) ++ flat_map busy_index (l1 ++ Idle (fst (fst (f g k a))) :: l2) ++ map fst (p_reported p ++ [(i, @Err (list B) e)]))).
    { perm. apply Permutation_app_head, Permutation_app_head. rewrite (app_assoc (flat_map busy_index l2)), <- Permutation_cons_append. reflexivity. }
    split; [now apply (Permutation_NoDup P)|]. split; [now apply (Permutation_Forall P)|]. split; [assumption|].
    apply Forall_app in I4. destruct I4 as [I4 I4']. apply Forall_cons_iff in I4'. destruct I4' as [(pre & E1 & E2 & E3) I4']. assert (Ha := Hf g k a).
    split; [apply Forall_app; split; [assumption|]; constructor; [exact I|assumption]|]. apply Forall_app. split; [assumption|]. constructor; [|constructor].
    unfold report_ok. cbn [fst snd]. rewrite E1, (calls_app call pre _ k0 done E2), E3. cbn [calls]. now rewrite <- Ha, R.
  - assert (P : Permutation (map fst (p_queue p) ++ flat_map busy_index (l1 ++ Busy g i k [] done :: l2) ++ map fst (p_reported p))
      (map fst (p_queue p) ++ flat_map busy_index (l1 ++ Idle g :: l2) ++ map fst (p_reported p ++ [(i, Ok done)]))).
    { perm. apply Permutation_app_head, Permutation_app_head. rewrite (app_assoc (flat_map busy_index l2)), <- Permutation_cons_append. reflexivity. }
    split; [now apply (Permutation_NoDup P)|]. split; [now apply (Permutation_Forall P)|]. split; [assumption|].
    apply Forall_app in I4. destruct I4 as [I4 I4']. apply Forall_cons_iff in I4'. destruct I4' as [(pre & E1 & E2 & E3) I4'].
    split; [apply Forall_app; split; [assumption|]; constructor; [exact I|assumption]|]. apply Forall_app. split; [assumption|]. constructor; [|constructor].
    unfold report_ok. cbn [fst snd]. rewrite E1, app_nil_r. now symmetry.
Qed.

Lemma upd_out {X} (l : list X) w x : nth_error l w = None -> upd l w x = l.
Proof. revert w. induction l as [|a l IH]; intros [|w] H; try discriminate; [reflexivity|reflexivity|]. cbn in *. now rewrite IH. Qed.

Lemma inv_kill p w g : inv p -> inv (Pool (p_queue p) (upd (p_workers p) w (Idle g)) (p_reported p)).
Proof.
  intros (I1 & I2 & I3 & I4 & I5). destruct (nth_error (p_workers p) w) as [x|] eqn:E; [|rewrite upd_out by assumption; repeat split; assumption].
  destruct (upd_split _ _ _ (Idle g) E) as (l1 & l2 & W & -> & _). unfold inv, indices in *. cbn [p_queue p_workers p_reported]. rewrite W in *.
  assert (P : exists d, Permutation (map fst (p_queue p) ++ flat_map busy_index (l1 ++ x :: l2) ++ map fst (p_reported p))
    (d ++ map fst (p_queue p) ++ flat_map busy_index (l1 ++ Idle g :: l2) ++ map fst (p_reported p))).
  { exists (busy_index x). rewrite !flat_map_app. cbn [flat_map busy_index app]. rewrite <- !app_assoc. etransitivity; [apply Permutation_app_head, Permutation_app_swap_app|apply Permutation_app_swap_app]. }
  destruct P as [d P]. assert (N := Permutation_NoDup P I1). assert (L := Permutation_Forall P I2).
  split; [revert N; generalize (map fst (p_queue p) ++ flat_map busy_index (l1 ++ Idle g :: l2) ++ map fst (p_reported p)); clear; intros l; induction d as [|y d IH]; [auto|]; intros N; inversion N; auto|].
  split; [apply Forall_app in L; apply L|]. split; [assumption|]. split; [|assumption]. apply Forall_app in I4. destruct I4 as [I4 I4']. apply Forall_cons_iff in I4'. apply Forall_app. split; [assumption|]. constructor; [exact I|apply I4'].
Qed.

Lemma inv_execute globals es : inv (execute f k0 globals chunks es).
Proof.
  unfold execute. assert (H : forall es p, inv p -> inv (fold_left (happen f k0) es p)); [|apply H, inv_start].
  intros l. induction l as [|e l IH]; intros p Hp; [assumption|]. cbn [fold_left]. apply IH. destruct e as [w|w g]; cbn [happen]; [|now apply inv_kill].
  apply (inv_turn p); [assumption|apply act_turn].
Qed.

Lemma first_failure_spec (l : list (nat * result (list B))) : match first_failure l with Some e => exists i, In (i, Err e) l | None => forall r, In r l -> exists b, snd r = Ok b end.
Proof.
  induction l as [|[i [b|e]] l IH]; [intros r []| |]; cbn [first_failure fold_right snd].
  - fold (first_failure l). destruct (first_failure l) as [e|]; [destruct IH as [j Hj]; exists j; now right|]. intros r [<-|Hr]; [now exists b|now apply IH].
  - exists i. now left.
Qed.

Lemma value_spec p v : inv p -> map_value m p = Some v -> match v with
  | Ok bs => exists bss, mapM (calls call k0) chunks = Ok bss /\ bs = concat bss
  | Err e => exists c, In c chunks /\ calls call k0 c = Err e end.
Proof.
  intros (I1 & I2 & _ & _ & I5) E. unfold map_value in E. destruct (Nat.eqb_spec (length (p_reported p)) m) as [L|]; [|discriminate]. injection E as <-.
  assert (FF := first_failure_spec (p_reported p)).
  assert (I1' : NoDup (map fst (p_reported p))).
  { revert I1. unfold indices. generalize (map fst (p_queue p)) (flat_map busy_index (p_workers p)). clear. intros q b N. rewrite app_assoc in N. induction (q ++ b) as [|x l IH]; [assumption|]. inversion N; auto. }
  assert (I2' : forall i, In i (map fst (p_reported p)) -> i < m) by (intros i Hi; rewrite Forall_forall in I2; apply I2; unfold indices; rewrite !in_app_iff; auto).
  destruct (first_failure (p_reported p)) as [e|].
  - destruct FF as [i Hi]. rewrite Forall_forall in I5. assert (R := I5 _ Hi). unfold report_ok in R. cbn [fst snd] in R. exists (nth i chunks []). split; [|now symmetry].
    apply nth_In, I2'. now apply (in_map fst) in Hi.
  - assert (C : forall i, i < m -> calls call k0 (nth i chunks []) = Ok (chunk_result (p_reported p) i)).
    { intros i Hi. assert (Hin : In i (map fst (p_reported p))).
      { apply (Permutation_in i (l := seq 0 m)); [|apply in_seq; lia]. symmetry. apply NoDup_Permutation_bis; [assumption|rewrite map_length, seq_length; lia|intros x Hx; apply in_seq; specialize (I2' x Hx); lia]. }
      unfold chunk_result. destruct (find (fun r => Nat.eqb (fst r) i) (p_reported p)) as [[j r]|] eqn:F.
      - apply find_some in F. destruct F as [F1 F2]. cbn in F2. apply Nat.eqb_eq in F2. subst j. destruct (FF _ F1) as [b Hb]. cbn in Hb. subst r. rewrite Forall_forall in I5. exact (eq_sym (I5 _ F1)).
      - apply in_map_iff in Hin. destruct Hin as (r & <- & Hr). exfalso. assert (N := find_none _ _ F r Hr). cbn in N. now rewrite Nat.eqb_refl in N. }
    exists (map (chunk_result (p_reported p)) (range m)). split; [|reflexivity]. apply mapM_spec. rewrite map_map. unfold range. clear - C.
    assert (H : forall l s, (forall i, i < length l -> calls call k0 (nth i l []) = Ok (chunk_result (p_reported p) (s + i))) ->
      map (calls call k0) l = map (fun i => Ok (chunk_result (p_reported p) i)) (seq s (length l))).
    { induction l as [|c l IH]; intros s H; [reflexivity|]. cbn [length seq map]. f_equal; [specialize (H 0 ltac:(cbn; lia)); cbn in H; now rewrite Nat.add_0_r in H|].
      apply IH. intros i Hi. specialize (H (S i) ltac:(cbn; lia)). cbn [nth] in H. rewrite H. do 2 f_equal. lia. }
    apply (H chunks 0). exact C.
Qed.
End Values.

(** ** Termination *)
Definition size (p : pool) : nat := length (indices p).
Definition busy_work (w : worker) : nat := match w with Idle _ => 0 | Busy _ _ _ todo _ => 1 + length todo end.
Definition work (p : pool) : nat := sumN (map (fun q => 2 + length (snd q)) (p_queue p)) + sumN (map busy_work (p_workers p)).

Lemma sumN_app l1 l2 : sumN (l1 ++ l2) = sumN l1 + sumN l2.
Proof. induction l1 as [|a l IH]; [reflexivity|]. change (a + sumN (l ++ l2) = a + sumN l + sumN l2). rewrite IH. lia. Qed.

Lemma sumN_cons a l : sumN (a :: l) = a + sumN l.
Proof. reflexivity. Qed.

Lemma size_eq p : size p = length (p_queue p) + length (flat_map busy_index (p_workers p)) + length (p_reported p).
Proof. unfold size, indices. rewrite !app_length, !map_length. lia. Qed.

Lemma turn_measure p p' : turn p p' -> size p' = size p /\ length (p_workers p') = length (p_workers p) /\ (p' = p \/ work p' < work p).
Proof.
  intros T. rewrite !size_eq. destruct T as [->|g i c q l1 l2 Q W ->|g i k a todo done b l1 l2 W R ->|g i k a todo done e l1 l2 W R ->|g i k done l1 l2 W ->];
    [repeat split; now left| | | |]; unfold work; cbn [p_queue p_workers p_reported]; rewrite W; try rewrite Q; rewrite ?map_app, ?flat_map_app, ?sumN_app, ?app_length; cbn [map flat_map busy_index busy_work app length fst snd];
    rewrite ?sumN_cons, ?app_length; cbn [length]; (split; [lia|]); (split; [lia|]); right; lia.
Qed.

Lemma stuck p : (forall w, w < length (p_workers p) -> act f k0 w p = p) -> p_workers p <> [] -> length (p_queue p) = 0 /\ flat_map busy_index (p_workers p) = [].
Proof.
  intros H Hne. assert (B1 : forall w x, nth_error (p_workers p) w = Some x -> busy_index x = []).
  { intros w x Hw. assert (L : w < length (p_workers p)) by (apply nth_error_Some; congruence). specialize (H w L).
    destruct x as [g|g i k [|a todo] done]; [reflexivity| |]; exfalso; unfold act in H; rewrite Hw in H.
    - apply (f_equal (fun q => length (p_reported q))) in H. cbn in H. rewrite app_length in H. cbn in H. lia.
    - destruct (f g k a) as [[g' k'] [b|e]]; [|apply (f_equal (fun q => length (p_reported q))) in H; cbn in H; rewrite app_length in H; cbn in H; lia].
      destruct (upd_split _ _ _ (Busy g' i k' todo (done ++ [b])) Hw) as (l1 & l2 & W & U & Lw). apply (f_equal (fun q => nth_error (p_workers q) w)) in H. cbn [p_workers] in H. rewrite U, Hw in H.
      rewrite nth_error_app2 in H by lia. rewrite Lw, Nat.sub_diag in H. cbn in H. injection H. intros H1 _ _ _. apply (f_equal (@length B)) in H1. rewrite app_length in H1. cbn in H1. lia. }
  split.
  - destruct (p_workers p) as [|x ws] eqn:E; [congruence|]. specialize (H 0 ltac:(cbn; lia)). assert (Bx := B1 0 x eq_refl). unfold act in H. rewrite E in H. cbn [nth_error] in H.
    destruct x as [g|]; [|discriminate]. destruct (p_queue p) as [|[i c] q] eqn:Q; [reflexivity|]. apply (f_equal (fun r => length (p_queue r))) in H. cbn [p_queue] in H. rewrite Q in H. cbn in H. lia.
  - clear - B1. assert (H : forall x, In x (p_workers p) -> busy_index x = []) by (intros x Hx; apply In_nth_error in Hx; destruct Hx as [w Hw]; now apply (B1 w)).
    clear B1. induction (p_workers p) as [|x l IH]; [reflexivity|]. cbn. rewrite H by (now left). apply IH. intros y Hy. apply H. now right.
Qed.

Lemma round_measure r : forall p, let p' := fold_left (happen f k0) (map Act r) p in
  size p' = size p /\ length (p_workers p') = length (p_workers p) /\ (work p' < work p \/ (p' = p /\ forall w, In w r -> act f k0 w p = p)).
Proof.
  induction r as [|w r IH]; intros p p'; [repeat split; right; split; [reflexivity|intros w []]|]. unfold p'. cbn [map fold_left happen]. destruct (turn_measure _ _ (act_turn w p)) as (S1 & W1 & D1).
  specialize (IH (act f k0 w p)). destruct IH as (S2 & W2 & D2). split; [congruence|]. split; [congruence|]. destruct D1 as [D1|D1].
  - rewrite D1 in *. destruct D2 as [D2|[D2 D2']]; [now left|]. right. split; [assumption|]. intros x [<-|Hx]; [assumption|now apply D2'].
  - left. destruct D2 as [D2|[D2 _]]; [lia|]. rewrite D2. assumption.
Qed.

Lemma rounds_finish rounds : forall p N, length rounds > work p -> Forall (fun r => forall w, w < N -> In w r) rounds -> length (p_workers p) = N -> 0 < N ->
  length (p_reported (fold_left (happen f k0) (map Act (concat rounds)) p)) = size p.
Proof.
  induction rounds as [|r rs IH]; intros p N HL HR HN PN; [cbn in HL; lia|]. cbn [concat]. rewrite map_app, fold_left_app. apply Forall_cons_iff in HR. destruct HR as [Hr HR].
  destruct (round_measure r p) as (S1 & W1 & D). set (p' := fold_left (happen f k0) (map Act r) p) in *. rewrite <- S1. destruct D as [D|[D1 D2]].
  - cbn in HL. apply (IH p' N); [lia|assumption|lia|assumption].
  - rewrite D1 in *. destruct (stuck p) as [Q1 Q2]; [intros w Hw; apply D2, Hr; lia|destruct (p_workers p); [cbn in HN; lia|discriminate]|].
    assert (F : forall l, fold_left (happen f k0) (map Act l) p = p).
    { assert (A0 : forall w, act f k0 w p = p).
      { intros w. destruct (Nat.lt_ge_cases w N) as [L|L]; [now apply D2, Hr|]. unfold act. now rewrite (proj2 (nth_error_None (p_workers p) w)) by lia. }
      induction l as [|w l IHl]; [reflexivity|]. cbn [map fold_left happen]. now rewrite A0. }
    rewrite F, size_eq, Q1, Q2. reflexivity.
Qed.

Lemma start_measure globals chunks : size (start globals chunks : pool) = length chunks /\ work (start globals chunks : pool) = length (concat chunks) + 2 * length chunks /\ length (p_workers (start globals chunks : pool)) = length globals.
Proof.
  rewrite size_eq. unfold work, start. cbn [p_queue p_workers p_reported]. rewrite map_length, combine_length. unfold range. rewrite seq_length, Nat.min_id.
  assert (Z1 : length (flat_map busy_index (map Idle globals)) = 0) by (induction globals; [reflexivity|assumption]).
  assert (Z2 : sumN (map busy_work (map Idle globals)) = 0) by (clear; induction globals; [reflexivity|assumption]). rewrite Z1, Z2. split; [cbn; lia|]. split; [|reflexivity].
  rewrite Nat.add_0_r. clear Z1 Z2. assert (H : forall s, sumN (map (fun q => 2 + length (snd q)) (combine (seq s (length chunks)) chunks)) = length (concat chunks) + 2 * length chunks); [|apply H].
  induction chunks as [|c l IH]; intros s; [reflexivity|]. cbn [length seq combine map concat snd]. rewrite sumN_cons, app_length, IH. lia.
Qed.

(** Killing a worker loses its chunk. *)
Lemma event_size p e : size (happen f k0 p e) <= size p.
Proof.
  destruct e as [w|w g]; cbn [happen]; [destruct (turn_measure _ _ (act_turn w p)) as (S1 & _); lia|]. rewrite !size_eq. cbn [p_queue p_workers p_reported].
  destruct (nth_error (p_workers p) w) as [x|] eqn:E; [|rewrite upd_out by assumption; lia]. destruct (upd_split _ _ _ (Idle g) E) as (l1 & l2 & W & -> & _). rewrite W, !flat_map_app, !app_length. cbn. rewrite app_length. lia.
Qed.

Lemma events_size es : forall p, size (fold_left (happen f k0) es p) <= size p.
Proof. induction es as [|e es IH]; intros p; [cbn; lia|]. cbn [fold_left]. eapply Nat.le_trans; [apply IH|apply event_size]. Qed.
End Facts.

(** ** The property for arbitrary functions *)
(** If what a call does to the objects and returns does not depend on the process it runs
    in, then under every schedule and whichever workers are killed, map returns either the
    results of the chunks, each called one argument after the other from a copy of the
    objects, or the exception of one of the chunks. *)
Theorem C89_schedule : forall (G K A B : Type) (f : G -> K -> A -> G * K * result B) (call : K -> A -> K * result B),
  (forall g k a, (snd (fst (f g k a)), snd (f g k a)) = call k a) ->
  forall (k0 : K) (globals : list G) (chunks : list (list A)) (es : list (event G)) v,
  map_value (length chunks) (execute f k0 globals chunks es) = Some v ->
  match v with Ok bs => exists bss, mapM (calls call k0) chunks = Ok bss /\ bs = concat bss | Err e => exists c, In c chunks /\ calls call k0 c = Err e end.
Proof.
  intros G K A B f call Hf k0 globals chunks es v E. assert (I := inv_execute f k0 chunks call Hf globals es). now apply (value_spec k0 chunks call _ v) in E.
Qed.
Print Assumptions C89_schedule.

(** If moreover what a call returns is a function h of its argument, in all states of the
    objects that calls can leave behind, then map returns the results in the order of the
    arguments or the exception of one of the calls. *)
Theorem C89_map : forall (G K A B : Type) (f : G -> K -> A -> G * K * result B) (call : K -> A -> K * result B) (good : K -> Prop) (h : A -> result B),
  (forall g k a, (snd (fst (f g k a)), snd (f g k a)) = call k a) -> (forall k a, good k -> good (fst (call k a)) /\ snd (call k a) = h a) ->
  forall (k0 : K) (globals : list G) (chunks : list (list A)) (es : list (event G)) v, good k0 ->
  map_value (length chunks) (execute f k0 globals chunks es) = Some v ->
  match v with Ok bs => mapM h (concat chunks) = Ok bs | Err e => exists a, In a (concat chunks) /\ h a = Err e end.
Proof.
  intros G K A B f call good h Hf Hg k0 globals chunks es v H0 E. apply (C89_schedule G K A B f call Hf) in E.
  assert (C : forall c k, good k -> match calls call k c with Ok bs => map h c = map Ok bs | Err e => exists a, In a c /\ h a = Err e end).
  { induction c as [|a c IH]; intros k Hk; [reflexivity|]. cbn [calls]. destruct (Hg k a Hk) as [Hk' Ha]. destruct (call k a) as [k' r]. cbn [fst snd] in *. subst r. specialize (IH k' Hk').
    destruct (h a) as [b|e] eqn:Eh; cbn [bind]; [|exists a; split; [now left|assumption]]. destruct (calls call k' c) as [bs|e]; cbn [bind]; [cbn [map]; now rewrite Eh, IH|].
    destruct IH as (x & Hx & Ex). exists x. split; [now right|assumption]. }
  destruct v as [bs|e].
  - destruct E as (bss & E & ->). apply mapM_spec. apply mapM_spec in E. revert bss E. induction chunks as [|c l IH]; intros bss E; [destruct bss; [reflexivity|discriminate]|].
    destruct bss as [|b bss]; [discriminate|]. cbn [map] in E. injection E as E1 E2. cbn [concat]. rewrite !map_app, (IH bss E2). f_equal. specialize (C c k0 H0). now rewrite E1 in C.
  - destruct E as (c & Hc & E). specialize (C c k0 H0). rewrite E in C. destruct C as (a & Ha & Ea). exists a. split; [apply in_concat; now exists c|assumption].
Qed.
Print Assumptions C89_map.

(** If no worker is killed and every worker acts again and again, map returns. *)
Theorem C89_map_returns : forall (G K A B : Type) (f : G -> K -> A -> G * K * result B) (k0 : K) (globals : list G) (chunks : list (list A)) (rounds : list (list nat)),
  globals <> [] -> Forall (fun r => forall w, w < length globals -> In w r) rounds -> length (concat chunks) + 2 * length chunks < length rounds ->
  exists v, map_value (length chunks) (execute f k0 globals chunks (map Act (concat rounds))) = Some v.
Proof.
  intros G K A B f k0 globals chunks rounds Hg HR HL. destruct (start_measure (K := K) (B := B) globals chunks) as (S1 & W1 & L1).
  assert (Q := rounds_finish f k0 rounds (start globals chunks) (length globals) ltac:(lia) HR L1 ltac:(destruct globals; [congruence|cbn; lia])).
  rewrite S1 in Q. unfold map_value, execute. rewrite Q, Nat.eqb_refl. eexists. reflexivity.
Qed.
Print Assumptions C89_map_returns.

(** When a worker that works on a chunk is killed, map never returns, whatever happens
    afterwards. *)
Theorem C89_killed_worker_refuted : forall (G K A B : Type) (f : G -> K -> A -> G * K * result B) (k0 : K) (globals : list G) (chunks : list (list A)) (before after : list (event G)) w fresh g i k todo done,
  nth_error (p_workers (execute f k0 globals chunks before)) w = Some (Busy g i k todo done) ->
  map_value (length chunks) (execute f k0 globals chunks (before ++ Kill w fresh :: after)) = None.
Proof.
  intros G K A B f k0 globals chunks before after w fresh g i k todo done Hw. unfold execute in *. rewrite fold_left_app. cbn [fold_left]. set (p := fold_left (happen f k0) before (start globals chunks)) in *.
  assert (S1 : size p <= length chunks) by (destruct (start_measure (K := K) (B := B) globals chunks) as (<- & _); apply events_size).
  assert (S2 : S (size (happen f k0 p (Kill w fresh))) <= size p).
  { rewrite !size_eq. cbn [happen p_queue p_workers p_reported]. destruct (upd_split _ _ _ (Idle fresh) Hw) as (l1 & l2 & W & -> & _). rewrite W, !flat_map_app, !app_length. cbn. lia. }
  assert (S3 := events_size f k0 after (happen f k0 p (Kill w fresh))). set (q := fold_left (happen f k0) after (happen f k0 p (Kill w fresh))) in *.
  assert (S4 : length (p_reported q) <= size q) by (rewrite size_eq; lia). unfold map_value. destruct (Nat.eqb_spec (length (p_reported q)) (length chunks)); [lia|reflexivity].
Qed.
Print Assumptions C89_killed_worker_refuted.

(** The chunks contain every argument once, in order. *)
Lemma cut_concat {A} size : 0 < size -> forall fuel (l : list A), length l <= fuel -> concat (cut fuel size l) = l.
Proof.
  intros Hs. induction fuel as [|fuel IH]; intros l Hl; [destruct l; [reflexivity|cbn in Hl; lia]|]. destruct l as [|a l]; [reflexivity|]. cbn [cut concat].
  rewrite IH; [apply firstn_skipn|]. rewrite skipn_length. cbn [length] in *. lia.
Qed.

Theorem C89_chunks : forall (A : Type) processes (l : list A), 0 < processes ->
  concat (pool_chunks processes l) = l /\ (length l <= 4 * processes -> pool_chunks processes l = map (fun a => [a]) l).
Proof.
  intros A p l Hp. unfold pool_chunks. destruct l as [|a l]; [split; reflexivity|]. set (s := ceil_div (length (a :: l)) (4 * p)).
  assert (Hs : 0 < s). { unfold s, ceil_div. apply Nat.div_str_pos. cbn [length]. lia. }
  split; [apply cut_concat; [assumption|lia]|]. intros HL. assert (E : s = 1).
  { unfold s, ceil_div. symmetry. apply (Nat.div_unique _ _ 1 (length (a :: l) - 1)); cbn [length] in *; lia. }
  rewrite E. generalize (a :: l). clear. intros l. assert (H : forall n, length l <= n -> cut n 1 l = map (fun a => [a]) l); [|now apply H].
  induction l as [|a l IH]; intros n Hn; [now destruct n|]. destruct n as [|n]; [cbn in Hn; lia|]. cbn [cut firstn skipn map]. f_equal. apply IH. cbn in Hn. lia.
Qed.
Print Assumptions C89_chunks.

(** ** The samplers *)
Lemma map_total {A B} (h : A -> B) l : mapM (fun a => Ok (h a)) l = Ok (map h l).
Proof. apply mapM_spec. now rewrite map_map. Qed.

(** The parallel C++ Ising and Potts samplers, the parallel Python sampler, Wolff's parallel
    sampler and the replicas of parallel tempering: whatever the schedule, the chunks and
    the state of the worker processes, what map returns is the value of the sequential
    model (of which C31, C51 and others speak). *)
Theorem C89_boost : forall (G C : Type) (gc : rng C) (mkcpp : nat -> C) (n : nat) (multipliers : list R) (sample_size n_iters : nat) (burn_in : option nat) (systematic : bool) (seeds : list nat)
    (globals : list G) chunks es v,
  concat chunks = combine (repeat (ceil_div sample_size (length seeds)) (length seeds)) seeds ->
  map_value (length chunks) (execute (boost_task gc mkcpp (burn_in_or burn_in n_iters) n_iters systematic) (n, multipliers) globals chunks es) = Some v ->
  exists rows, v = Ok rows /\ firstn sample_size (concat rows) = generate_sample_parallel_boost gc mkcpp n multipliers sample_size n_iters burn_in systematic seeds.
Proof.
  intros G C gc mk n mult size ni b sys seeds globals chunks es v HC E.
  apply (C89_map G _ _ _ _ (fun k a => (k, Ok (boost_ising_sample gc (fst k) (snd k) (fst a) (burn_in_or b ni) ni sys (mk (snd a))))) (fun k => k = (n, mult)) (fun a => Ok (boost_ising_sample gc n mult (fst a) (burn_in_or b ni) ni sys (mk (snd a))))) in E; [|reflexivity|intros k a ->; now split|reflexivity].
  destruct v as [rows|e]; [|destruct E as (a & _ & E); discriminate]. exists rows. split; [reflexivity|]. rewrite HC, map_total in E. injection E as <-. unfold generate_sample_parallel_boost. f_equal. f_equal.
  generalize (ceil_div size (length seeds)). intros c. clear HC. induction seeds as [|s l IH]; [reflexivity|]. cbn [length repeat combine map fst snd]. f_equal. apply IH.
Qed.
Print Assumptions C89_boost.

Theorem C89_boost_potts : forall (G C : Type) (gc : rng C) (mkcpp : nat -> C) (n : nat) (multipliers : list R) (sample_size n_iters burn_in : nat) (systematic : bool) (seeds : list nat)
    (globals : list G) chunks es v,
  concat chunks = combine (repeat (ceil_div sample_size (length seeds)) (length seeds)) seeds ->
  map_value (length chunks) (execute (boost_potts_task gc mkcpp burn_in n_iters systematic) (n, multipliers) globals chunks es) = Some v ->
  v = Ok (map (fun seed => boost_potts_sample gc n multipliers (ceil_div sample_size (length seeds)) burn_in n_iters systematic (mkcpp seed)) seeds).
Proof.
  intros G C gc mk n mult size ni b sys seeds globals chunks es v HC E.
  apply (C89_map G _ _ _ _ (fun k a => (k, Ok (boost_potts_sample gc (fst k) (snd k) (fst a) b ni sys (mk (snd a))))) (fun k => k = (n, mult)) (fun a => Ok (boost_potts_sample gc n mult (fst a) b ni sys (mk (snd a))))) in E; [|reflexivity|intros k a ->; now split|reflexivity].
  destruct v as [rows|e]; [|destruct E as (a & _ & E); discriminate]. rewrite HC, map_total in E. injection E as <-. f_equal.
  generalize (ceil_div size (length seeds)). intros c. clear HC. induction seeds as [|s l IH]; [reflexivity|]. cbn [length repeat combine map fst snd]. f_equal. apply IH.
Qed.
Print Assumptions C89_boost_potts.

Theorem C89_python : forall (G T : Type) (g : rng T) (mkrng : nat -> T) (calc_e : list Z -> R) (n sample_size n_iters : nat) (burn_in : option nat) (systematic : bool) (replicas : list (list Z)) (seeds : list nat)
    (globals : list G) chunks es v,
  concat chunks = map (fun rs => (fst rs, calc_e (fst rs), ceil_div sample_size (length replicas), snd rs)) (combine replicas seeds) ->
  map_value (length chunks) (execute (py_task (sample_metropolis g) mkrng n n_iters (burn_in_or burn_in n_iters) systematic) calc_e globals chunks es) = Some v ->
  exists out, v = Ok out /\
    (firstn sample_size (concat (map (fun o => fst (fst o)) out)), map (fun o => snd (fst o)) out, map snd out) =
    generate_sample_parallel_py (sample_metropolis g calc_e) calc_e n sample_size n_iters burn_in systematic mkrng replicas seeds.
Proof.
  intros G T g mk ce n size ni b sys reps seeds globals chunks es v HC E.
  apply (C89_map G _ _ _ _ (fun k a => let '(s, E0, m, seed) := a in (k, Ok (M_Sampler.worker (sample_metropolis g k) n m ni (burn_in_or b ni) sys mk s E0 seed))) (fun k => k = ce)
    (fun a => let '(s, E0, m, seed) := a in Ok (M_Sampler.worker (sample_metropolis g ce) n m ni (burn_in_or b ni) sys mk s E0 seed))) in E; [|intros g0 k [[[s E0] m] seed]; reflexivity| |reflexivity].
  2: { intros k [[[s E0] m] seed] ->. now split. }
  destruct v as [out|e]; [|destruct E as ([[[s E0] m] seed] & _ & E); discriminate]. exists out. split; [reflexivity|]. rewrite HC in E.
  unfold generate_sample_parallel_py. cbv zeta.
  assert (O : out = map (fun rs => M_Sampler.worker (sample_metropolis g ce) n (ceil_div size (length reps)) ni (burn_in_or b ni) sys mk (fst rs) (ce (fst rs)) (snd rs)) (combine reps seeds)); [|now rewrite O].
  apply mapM_spec in E. rewrite map_map in E. clear HC. revert out E. induction (combine reps seeds) as [|rs l IH]; intros out E; [destruct out; [reflexivity|discriminate]|].
  destruct out as [|o out]; [discriminate|]. cbn [map] in *. injection E as E1 E2. rewrite E1. f_equal. now apply IH.
Qed.
Print Assumptions C89_python.

Theorem C89_wolff : forall (G T : Type) (gt : rng T) (mkrng : nat -> T) (self : wolff) (t0 : T) (fuel n_iters : nat) (sample : list (list Z)) (seeds : list nat) (globals : list G) chunks es v,
  concat chunks = combine sample seeds ->
  map_value (length chunks) (execute (wolff_task gt mkrng fuel n_iters) (self, t0) globals chunks es) = Some v ->
  match v with
  | Ok rows => wolff_generate_parallel gt mkrng self fuel n_iters sample seeds = Ok rows
  | Err e => exists s seed, In (s, seed) (combine sample seeds) /\ steps gt self fuel n_iters true s (mkrng seed) = Err e end.
Proof.
  intros G T gt mk self t0 fuel ni sample seeds globals chunks es v HC E.
  apply (C89_map G _ _ _ _ (fun k a => match steps gt (fst k) fuel ni true (fst a) (mk (snd a)) with Ok (s, _, t) => ((fst k, t), Ok s) | Err e => ((fst k, mk (snd a)), Err e) end) (fun k => fst k = self) (fun a => bind (steps gt self fuel ni true (fst a) (mk (snd a))) (fun r => Ok (fst (fst r))))) in E; [| | |reflexivity].
  2: { intros g [k t] a. unfold wolff_task. cbn [fst]. destruct (steps gt k fuel ni true (fst a) (mk (snd a))) as [[[s hh] t']|e]; reflexivity. }
  2: { intros [k t] a Hk. cbn in Hk. subst k. cbn [fst]. destruct (steps gt self fuel ni true (fst a) (mk (snd a))) as [[[s hh] t']|e]; now split. }
  rewrite HC in E. destruct v as [rows|e]; [exact E|]. destruct E as ([s seed] & Hin & E). exists s, seed. split; [assumption|]. cbn [fst snd] in E.
  destruct (steps gt self fuel ni true s (mk seed)) as [r|e']; [discriminate|]. cbn [bind] in E. congruence.
Qed.
Print Assumptions C89_wolff.

Theorem C89_replicas : forall (G K T : Type) (k : K) (gt : rng T) (calc_e : list Z -> list R -> R) (n n_iters default : nat) (reps : list (replica T)) (globals : list G) chunks es v,
  concat chunks = combine reps (repeat (match n_iters with O => default | _ => n_iters end) (length reps)) ->
  map_value (length chunks) (execute (replica_task gt calc_e n) k globals chunks es) = Some v ->
  match v with
  | Ok reps' => burn_in_replicas gt calc_e n n_iters default reps = Ok reps'
  | Err e => exists r, In r reps /\ burn_replica gt calc_e n (match n_iters with O => default | _ => n_iters end) r = Err e end.
Proof.
  intros G K T k gt ce n ni def reps globals chunks es v HC E. set (N := match ni with O => def | _ => ni end) in *.
  apply (C89_map G _ _ _ _ (fun k (a : replica T * nat) => (k, burn_replica gt ce n (snd a) (fst a))) (fun _ => True) (fun a : replica T * nat => burn_replica gt ce n (snd a) (fst a))) in E; [|reflexivity|intros; now split|exact I].
  rewrite HC in E. destruct v as [reps'|e].
  - unfold burn_in_replicas. fold N. apply mapM_spec. apply mapM_spec in E. rewrite <- E. clear. induction reps as [|r l IH]; [reflexivity|]. cbn. now rewrite IH.
  - destruct E as ([r m] & Hin & E). exists r. split; [now apply in_combine_l in Hin|]. apply in_combine_r, repeat_spec in Hin. cbn [fst snd] in E. now rewrite Hin in E.
Qed.
Print Assumptions C89_replicas.

(** SWIsing.generate_sample_parallel raises NameError for all arguments. *)
Theorem C89_swendsen_wang_refuted : forall n_samples n_iters initial n_cpus, sw_generate_parallel n_samples n_iters initial n_cpus = Err NameError.
Proof. reflexivity. Qed.
Print Assumptions C89_swendsen_wang_refuted.

(** Where the workers draw from a generator of the objects they share (the conditional
    samples of MCHIncompleteData), every chunk starts from a copy of the same generator.
    With at most four rows per process all rows are drawn from the same stream, and the
    generator of the caller does not advance. *)
Theorem C89_shared_generator_refuted : forall (G T Smp Row : Type) (draw : Row -> T -> Smp * T) (t0 : T) (rows : list Row) (globals : list G) es v,
  globals <> [] -> length rows <= 4 * length globals ->
  let chunks := pool_chunks (length globals) rows in
  map_value (length chunks) (execute (cond_task draw) t0 globals chunks es) = Some v -> v = Ok (map (fun r => fst (draw r t0)) rows).
Proof.
  intros G T Smp Row draw t0 rows globals es v Hg HL chunks E.
  destruct (C89_chunks Row (length globals) rows ltac:(destruct globals; [congruence|cbn; lia])) as [Cc Cs]. specialize (Cs HL). fold chunks in Cc, Cs.
  apply (C89_schedule G T Row Smp _ (fun t a => (snd (draw a t), Ok (fst (draw a t))))) in E; [|intros g k a; unfold cond_task; destruct (draw a k); reflexivity].
  rewrite Cs in E. destruct v as [bs|e].
  - destruct E as (bss & E & ->). f_equal. apply mapM_spec in E. rewrite map_map in E. cbn [calls bind] in E. clear - E. revert bss E. induction rows as [|r l IH]; intros bss E; [destruct bss; [reflexivity|discriminate]|].
    destruct bss as [|b bss]; [discriminate|]. cbn [map] in E. injection E as E1 E2. cbn [concat map]. rewrite <- E1, (IH bss E2). reflexivity.
  - destruct E as (c & Hc & E). apply in_map_iff in Hc. destruct Hc as (a & <- & _). discriminate.
Qed.
Print Assumptions C89_shared_generator_refuted.

(** Two workers and the chunks [5;6] and [7], with a function that fails above 9: two
    schedules give the same list although the second chunk is reported first in one of
    them; with a chunk [10] map raises.  A function that looks at what its process did
    before (here: counts its calls) gives different lists under the two schedules.  For the
    C++ sampler with three seeds, two processes that take turns return. *)
Example C89_example :
  let f := fun (g k a : nat) => (S g, S k, if Nat.ltb 9 a then Err ValueError else Ok (2 * a)) in
  let counting := fun (g k a : nat) => (S g, k, @Ok nat (g + a)) in
  let one := map (@Act nat) [0; 0; 0; 0; 0; 0; 0] in let two := map (@Act nat) [0; 1; 1; 1; 0; 0; 0] in
  map_value 2 (execute f 0 [0; 0] [[5; 6]; [7]] one) = Some (Ok [10; 12; 14]) /\ map_value 2 (execute f 0 [0; 0] [[5; 6]; [7]] two) = Some (Ok [10; 12; 14]) /\
  map fst (p_reported (execute f 0 [0; 0] [[5; 6]; [7]] two)) = [1; 0] /\
  map_value 2 (execute f 0 [0; 0] [[5; 6]; [10]] (map (@Act nat) [0; 1; 1; 0; 0; 0])) = Some (Err ValueError) /\
  map_value 2 (execute counting 0 [0; 0] [[5; 6]; [7]] one) = Some (Ok [5; 7; 9]) /\ map_value 2 (execute counting 0 [0; 0] [[5; 6]; [7]] two) = Some (Ok [5; 7; 7]) /\
  map_value 2 (execute f 0 [0; 0] [[5; 6]; [7]] (Act 0 :: Kill 0 0 :: map (@Act nat) [0; 1; 0; 1; 0; 1; 0; 1])) = None /\
  (forall (C : Type) (gc : rng C) mkcpp multipliers, exists v,
     map_value 3 (execute (boost_task gc mkcpp 10 10 false) (2, multipliers) [tt; tt] (pool_chunks 2 (combine [4; 4; 4] [17; 23; 5])) (map Act (concat (repeat [0; 1] 10)))) = Some v).
Proof.
  cbv zeta. repeat (split; [reflexivity|]). intros C gc mk mult.
  apply (C89_map_returns unit _ _ _ (boost_task gc mk 10 10 false) (2, mult) [tt; tt] (pool_chunks 2 (combine [4; 4; 4] [17; 23; 5])) (repeat [0; 1] 10)); [discriminate| |cbn; lia].
  apply Forall_forall. intros r Hr. apply repeat_spec in Hr. subst r. intros w Hw. cbn in Hw. cbn. lia.
Qed.
