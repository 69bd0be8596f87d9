(** * Several streams of uniform numbers, read in any order *)
From Coq Require Import Permutation FunctionalExtensionality.
From Coquelicot Require Import Coquelicot.
From Verif Require Import Prelude Spec PreludeFacts M_Index M_Sampler M_Temper P_Metro P_Coarse P_Converge3 Props_ScanConv.
Import ListNotations.
Local Open Scope R_scope.

Notation E01 := (Etape unit_draw).
Notation unit_list := (Forall (fun u : R => 0 < u < 1)).

Lemma E01_ext N f f' : (forall l, unit_list l -> length l = N -> f l = f' l) -> E01 N f = E01 N f'.
Proof. apply (Etape_ext unit_draw (fun u => 0 < u < 1) unit_draw_ext). Qed.

(** All integrals of the nested expectation exist. *)
Fixpoint nice (N : nat) (f : list R -> R) : Prop :=
  match N with
  | O => True
  | S N' => ex_RInt (fun u => E01 N' (fun l => f (u :: l))) 0 1 /\ forall u, 0 < u < 1 -> nice N' (fun l => f (u :: l))
  end.

Lemma nice_ext N : forall f f', (forall l, unit_list l -> length l = N -> f l = f' l) -> nice N f -> nice N f'.
Proof.
  induction N as [|N IH]; intros f f' H HN; [exact I|]. destruct HN as [H1 H2]. split.
  - eapply ex_RInt_ext; [|exact H1]. intros u Hu. rewrite Rmin_left, Rmax_right in Hu by lra. apply E01_ext. intros l Hl Ll. apply H; [now constructor|cbn; lia].
  - intros u Hu. apply (IH (fun l => f (u :: l))); [|now apply H2]. intros l Hl Ll. apply H; [now constructor|cbn; lia].
Qed.

Lemma nice_const N c : nice N (fun _ => c) /\ E01 N (fun _ => c) = c.
Proof.
  induction N as [|N [IH1 IH2]]; [split; [exact I|reflexivity]|]. cbn [nice Etape]. rewrite IH2. split; [split|].
  - apply ex_RInt_const.
  - intros u Hu. exact IH1.
  - apply unit_draw_const.
Qed.

(** One of two functions is chosen by comparing number j with p. *)
Lemma pull j p (d : R -> bool) : 0 <= p <= 1 -> (forall u, 0 < u < p -> d u = true) -> (forall u, p < u < 1 -> d u = false) ->
  forall N f1 f2, (j <= N)%nat -> nice N f1 -> nice N f2 ->
  nice (S N) (fun v => if d (nth j v 0) then f1 (remove_at j v) else f2 (remove_at j v)) /\
  E01 (S N) (fun v => if d (nth j v 0) then f1 (remove_at j v) else f2 (remove_at j v)) = p * E01 N f1 + (1 - p) * E01 N f2.
Proof.
  intros Hp D1 D2. induction j as [|j IH]; intros N f1 f2 Hj H1 H2.
  - cbn [nice Etape nth remove_at].
    assert (K : is_RInt (fun u => E01 N (fun l => if d u then f1 l else f2 l)) 0 1 (p * E01 N f1 + (1 - p) * E01 N f2)).
    { assert (V : p * E01 N f1 + (1 - p) * E01 N f2 = plus (scal (p - 0) (E01 N f1)) (scal (1 - p) (E01 N f2))) by (unfold plus, scal; cbn; unfold mult; cbn; ring).
      rewrite V. apply (is_RInt_Chasles (V := R_NormedModule) _ 0 p 1).
      - apply (is_RInt_ext (fun _ => E01 N f1)); [|apply (is_RInt_const (V := R_NormedModule))]. intros u Hu. rewrite Rmin_left, Rmax_right in Hu by lra. now rewrite D1 by lra.
      - apply (is_RInt_ext (fun _ => E01 N f2)); [|apply (is_RInt_const (V := R_NormedModule))]. intros u Hu. rewrite Rmin_left, Rmax_right in Hu by lra. now rewrite D2 by lra. }
    split; [split|].
    + eexists. exact K.
    + intros u Hu. destruct (d u); assumption.
    + unfold unit_draw at 1. now apply is_RInt_unique.
  - destruct N as [|N]; [lia|]. destruct H1 as [H1 H1']. destruct H2 as [H2 H2'].
    assert (S1 : forall u, 0 < u < 1 -> nice (S N) (fun v => if d (nth j v 0) then f1 (u :: remove_at j v) else f2 (u :: remove_at j v)) /\
        E01 (S N) (fun v => if d (nth j v 0) then f1 (u :: remove_at j v) else f2 (u :: remove_at j v)) = p * E01 N (fun l => f1 (u :: l)) + (1 - p) * E01 N (fun l => f2 (u :: l))).
    { intros u Hu. apply (IH N (fun l => f1 (u :: l)) (fun l => f2 (u :: l))); [lia|now apply H1'|now apply H2']. }
    assert (K : is_RInt (fun u => E01 (S N) (fun v => if d (nth j v 0) then f1 (u :: remove_at j v) else f2 (u :: remove_at j v))) 0 1 (p * E01 (S N) f1 + (1 - p) * E01 (S N) f2)).
    { apply (is_RInt_ext (fun u => plus (scal p (E01 N (fun l => f1 (u :: l)))) (scal (1 - p) (E01 N (fun l => f2 (u :: l)))))).
      - intros u Hu. rewrite Rmin_left, Rmax_right in Hu by lra. symmetry. apply (proj2 (S1 u Hu)).
      - apply (is_RInt_plus (V := R_NormedModule)); apply (is_RInt_scal (V := R_NormedModule)); now apply (RInt_correct (V := R_CompleteNormedModule)). }
    split; [split|].
    + eexists. exact K.
    + intros u Hu. apply (proj1 (S1 u Hu)).
    + cbn [Etape nth remove_at]. unfold unit_draw at 1. apply is_RInt_unique. exact K.
Qed.

(** ** Streams of given lengths, one after the other in one list *)
Fixpoint segs (Ns : list nat) (v : list R) : list (list R) :=
  match Ns with [] => [] | N :: Ns' => firstn N v :: segs Ns' (skipn N v) end.

Lemma segs_length Ns : forall v, length (segs Ns v) = length Ns.
Proof. induction Ns as [|N Ns IH]; intros v; cbn; [reflexivity|]. now rewrite IH. Qed.

(** Expectation over streams of the given lengths. *)
Fixpoint Estreams (Ns : list nat) (H : list (list R) -> R) : R :=
  match Ns with [] => H [] | N :: Ns' => E01 N (fun l => Estreams Ns' (fun ls => H (l :: ls))) end.

Lemma E01_app a b f : E01 (a + b) f = E01 a (fun l1 => E01 b (fun l2 => f (l1 ++ l2))).
Proof. revert f. induction a as [|a IH]; intros f; [reflexivity|]. cbn [Nat.add Etape]. f_equal. apply functional_extensionality. intros u. now rewrite IH. Qed.

Lemma Estreams_flat Ns : forall H, Estreams Ns H = E01 (list_sum Ns) (fun v => H (segs Ns v)).
Proof.
  induction Ns as [|N Ns IH]; intros H; [reflexivity|]. cbn [Estreams list_sum fold_right]. fold (list_sum Ns). rewrite E01_app. apply E01_ext. intros l _ Ll. rewrite IH. apply E01_ext. intros l2 _ _.
  cbn [segs]. rewrite firstn_app, skipn_app, Ll, Nat.sub_diag, firstn_O, app_nil_r, firstn_all2, skipn_all2 by lia. reflexivity.
Qed.

Lemma remove_app {A} (a b : list A) j : remove_at (length a + j) (a ++ b) = a ++ remove_at j b.
Proof. induction a as [|x a IH]; [reflexivity|]. cbn [length Nat.add app remove_at]. now rewrite IH. Qed.

(** Taking the first number of stream r. *)
Lemma segs_pop : forall Ns r N' v, nth r Ns 0%nat = S N' -> length v = list_sum Ns -> unit_list v ->
  let j := list_sum (firstn r Ns) in
  (j < length v)%nat /\ list_sum Ns = S (list_sum (upd Ns r N')) /\
  exists l, nth r (segs Ns v) [] = nth j v 0 :: l /\ 0 < nth j v 0 < 1 /\ segs (upd Ns r N') (remove_at j v) = upd (segs Ns v) r l.
Proof.
  induction Ns as [|N Ns IH]; intros [|r] N' v Hr Hl Hu; cbn [nth] in Hr; try discriminate.
  - subst N. cbn [firstn list_sum fold_right]. destruct v as [|u v]; [cbn in Hl; discriminate|]. inversion_clear Hu as [|? ? U1 U2]. split; [cbn; lia|]. split; [reflexivity|]. exists (firstn N' v). cbn. repeat split; auto; tauto.
  - cbn [list_sum fold_right] in Hl. fold (list_sum Ns) in Hl. cbn [firstn list_sum fold_right]. fold (list_sum (firstn r Ns)). fold (list_sum Ns).
    assert (Lf : length (firstn N v) = N) by (rewrite firstn_length; lia).
    destruct (IH r N' (skipn N v) Hr) as (J1 & J2 & l & J3 & J4 & J5); [rewrite skipn_length; lia|rewrite <- (firstn_skipn N v) in Hu; now apply Forall_app in Hu|]. cbv zeta in *. set (j := list_sum (firstn r Ns)) in *. rewrite skipn_length in J1.
    split; [lia|]. cbn [upd list_sum fold_right]. fold (list_sum (upd Ns r N')). split; [lia|]. exists l. cbn [segs nth].
    assert (NJ : nth (N + j) v 0 = nth j (skipn N v) 0) by (rewrite <- (firstn_skipn N v) at 1; rewrite app_nth2, Lf by lia; f_equal; lia).
    rewrite NJ. split; [exact J3|]. split; [exact J4|]. cbn [upd segs].
    assert (RJ : remove_at (N + j) v = firstn N v ++ remove_at j (skipn N v)) by (rewrite <- (firstn_skipn N v) at 1; rewrite <- Lf at 1; apply remove_app).
    rewrite RJ, firstn_app, skipn_app, Lf, Nat.sub_diag, firstn_O, app_nil_r, firstn_all2, (skipn_all2 (firstn N v)) by (rewrite Lf; lia). cbn [skipn app]. now rewrite J5.
Qed.

(** f has expectation x whenever stream r holds at least req_r numbers. *)
Definition slaw (req : list nat) (f : list (list R) -> R) (x : R) : Prop :=
  forall Ns, Forall2 le req Ns -> nice (list_sum Ns) (fun v => f (segs Ns v)) /\ E01 (list_sum Ns) (fun v => f (segs Ns v)) = x.

Lemma slaw_Estreams req f x : slaw req f x -> Estreams req f = x.
Proof. intros H. rewrite Estreams_flat. apply (H req). clear. induction req; constructor; auto. Qed.

Lemma slaw_const req c : slaw req (fun _ => c) c.
Proof. intros Ns _. apply nice_const. Qed.

Lemma slaw_ext req f f' x : (forall ls, length ls = length req -> Forall unit_list ls -> Forall2 (fun N l => (N <= length l)%nat) req ls -> f ls = f' ls) -> slaw req f x -> slaw req f' x.
Proof.
  intros H HL Ns HN. assert (LN : length req = length Ns) by (clear -HN; induction HN; cbn; congruence).
  assert (K : forall v, unit_list v -> length v = list_sum Ns -> f (segs Ns v) = f' (segs Ns v)).
  { intros v Hv Lv. apply H; [now rewrite segs_length| |].
    - clear -Hv. revert v Hv. induction Ns as [|N Ns IH]; intros v Hv; cbn; constructor.
      + rewrite <- (firstn_skipn N v) in Hv. now apply Forall_app in Hv.
      + apply IH. rewrite <- (firstn_skipn N v) in Hv. now apply Forall_app in Hv.
    - clear -HN Lv. revert v Lv. induction HN as [|a N req Ns H HN IH]; intros v Lv; cbn [segs]; constructor.
      + cbn in Lv. rewrite firstn_length. lia.
      + apply IH. rewrite skipn_length. cbn in Lv. fold (list_sum Ns) in Lv. lia. }
  destruct (HL Ns HN) as [H1 H2]. split.
  - now apply (nice_ext _ _ _ K).
  - rewrite <- H2. apply E01_ext. intros v Hv Lv. symmetry. now apply K.
Qed.

Lemma slaw_le req req' f x : Forall2 le req req' -> slaw req f x -> slaw req' f x.
Proof. intros H HL Ns HN. apply HL. clear -H HN. revert Ns HN. induction H as [|a b req req' Hab H IH]; intros Ns HN; inversion HN; subst; constructor; [lia|auto]. Qed.

Lemma Forall2_nth_le req Ns : Forall2 le req Ns -> forall r, (nth r req 0 <= nth r Ns 0)%nat.
Proof. induction 1 as [|a b req Ns H _ IH]; intros [|r]; cbn; auto. Qed.

Lemma Forall2_upd_le req Ns r a b : Forall2 le req Ns -> (a <= b)%nat -> Forall2 le (upd req r a) (upd Ns r b).
Proof. intros H Hab. revert r. induction H as [|x y req Ns H HR IH]; intros [|r]; cbn; constructor; auto. Qed.

Lemma upd_id {A} (l : list A) r d : upd l r (nth r l d) = l.
Proof. revert r. induction l as [|x l IH]; intros [|r]; cbn; try reflexivity. now rewrite IH. Qed.

Lemma upd_upd {A} (l : list A) r x y : upd (upd l r x) r y = upd l r y.
Proof. revert r. induction l as [|z l IH]; intros [|r]; cbn; try reflexivity. now rewrite IH. Qed.

(** One number of stream r decides. *)
Lemma slaw_pull req r p (d : R -> bool) f1 f2 x1 x2 F : (r < length req)%nat -> 0 <= p <= 1 -> (forall u, 0 < u < p -> d u = true) -> (forall u, p < u < 1 -> d u = false) ->
  slaw req f1 x1 -> slaw req f2 x2 ->
  (forall ls u l, length ls = length req -> nth r ls [] = u :: l -> 0 < u < 1 -> F ls = if d u then f1 (upd ls r l) else f2 (upd ls r l)) ->
  slaw (upd req r (S (nth r req 0%nat))) F (p * x1 + (1 - p) * x2).
Proof.
  intros Hr Hp D1 D2 L1 L2 HF Ns HN.
  assert (HL : length Ns = length req) by (clear -HN; rewrite <- (upd_length req r (S (nth r req 0%nat))); symmetry; induction HN; cbn; congruence).
  assert (Q : (S (nth r req 0) <= nth r Ns 0)%nat) by (rewrite <- (nth_upd_same req r (S (nth r req 0%nat)) 0%nat) by assumption; now apply Forall2_nth_le).
  destruct (nth r Ns 0%nat) as [|N'] eqn:EN; [lia|].
  assert (HN' : Forall2 le req (upd Ns r N')).
  { rewrite <- (upd_id req r 0%nat). rewrite <- (upd_upd req r (S (nth r req 0%nat)) (nth r req 0%nat)). apply Forall2_upd_le; [assumption|lia]. }
  destruct (L1 _ HN') as [A1 A2]. destruct (L2 _ HN') as [B1 B2].
  set (j := list_sum (firstn r Ns)).
  assert (ES : list_sum Ns = S (list_sum (upd Ns r N')) /\ (j < list_sum Ns)%nat).
  { set (v := repeat (1/2) (list_sum Ns)). destruct (segs_pop Ns r N' v EN) as (J1 & J2 & _).
    - unfold v. apply repeat_length.
    - apply Forall_forall. intros u Hu. apply repeat_spec in Hu. subst u. lra.
    - split; [exact J2|]. unfold v in J1. now rewrite repeat_length in J1. }
  destruct ES as [ES Hj]. set (M := list_sum (upd Ns r N')) in *.
  destruct (pull j p d Hp D1 D2 M (fun v => f1 (segs (upd Ns r N') v)) (fun v => f2 (segs (upd Ns r N') v)) ltac:(lia) A1 B1) as [C1 C2]. rewrite A2, B2 in C2.
  assert (K : forall v, unit_list v -> length v = S M -> (if d (nth j v 0) then f1 (segs (upd Ns r N') (remove_at j v)) else f2 (segs (upd Ns r N') (remove_at j v))) = F (segs Ns v)).
  { intros v Hv Lv. destruct (segs_pop Ns r N' v EN ltac:(congruence) Hv) as (_ & _ & l & J3 & J4 & J5). rewrite (HF (segs Ns v) _ l ltac:(rewrite segs_length; assumption) J3 J4). now rewrite <- J5. }
  rewrite ES. split.
  - now apply (nice_ext _ _ _ K).
  - rewrite <- C2. apply E01_ext. intros v Hv Lv. symmetry. now apply K.
Qed.
