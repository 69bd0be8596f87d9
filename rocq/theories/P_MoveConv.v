(** * Products of Metropolis moves *)
From Coq Require Import Permutation Classical FunctionalExtensionality.
From Coquelicot Require Import Coquelicot.
From Verif Require Import Prelude Spec PreludeFacts M_Index M_Sampler P_Energy P_Energy2 P_Sampler P_Metro P_Converge P_Converge2 P_Converge3 P_ScanConv.
Import ListNotations.
Local Open Scope R_scope.

Section Moves.
Context {X : Type} (dec : forall a b : X, {a = b} + {a <> b}).
Variable St : list X.
Hypothesis Hnd : NoDup St.
Hypothesis Hne : St <> [].
Variable E : X -> R.

(** The move tau is accepted with the Metropolis probability. *)
Definition mv (tau : X -> X) (G : X -> R) (s : X) : R :=
  let a := accept_prob (E (tau s) - E s) in a * G (tau s) + (1 - a) * G s.

Definition invol (tau : X -> X) : Prop := forall s, In s St -> In (tau s) St /\ tau (tau s) = s.

Lemma mv_averaging tau : invol tau -> averaging St (mv tau).
Proof.
  intros HI. repeat split.
  - intros F G H s Hs. unfold mv. rewrite (H s Hs), (H (tau s)); [reflexivity|]. now apply HI.
  - intros a b F G s Hs. unfold mv. ring.
  - intros c s Hs. unfold mv. ring.
  - intros F H s Hs. unfold mv.
    assert (A := accept_prob_pos (E (tau s) - E s)). assert (B := accept_prob_le (E (tau s) - E s)).
    assert (H1 := H s Hs). assert (H2 := H (tau s) ltac:(now apply HI)). nra.
Qed.

Lemma mv_stationary tau G : invol tau -> sumf St (fun x => boltzmann E St x * mv tau G x) = sumf St (fun x => boltzmann E St x * G x).
Proof.
  intros HI. apply (boltzmann_stationary E St (mv tau)). intros F. assert (Flow := move_flow St tau tau Hnd HI HI E F).
  rewrite (sumf_ext _ _ (fun s => exp (- E s) * F s + (exp (- E s) * accept_prob (E (tau s) - E s) * F (tau s) - exp (- E s) * accept_prob (E (tau s) - E s) * F s))) by (intros; unfold mv; ring).
  rewrite sumf_plus, sumf_minus, Flow. ring.
Qed.

Definition mseq (taus : list (X -> X)) (G : X -> R) : X -> R := fold_right mv G taus.
Definition run_moves (taus : list (X -> X)) (s : X) : X := fold_left (fun s tau => tau s) taus s.

Lemma mseq_app a b G : mseq (a ++ b) G = mseq a (mseq b G).
Proof. unfold mseq. apply fold_right_app. Qed.

Lemma mseq_averaging taus : Forall invol taus -> averaging St (mseq taus).
Proof.
  induction 1 as [|tau taus HI _ IH].
  - repeat split; cbn; auto; lra.
  - destruct (mv_averaging tau HI) as (A1 & A2 & A3 & A4). destruct IH as (B1 & B2 & B3 & B4). repeat split; cbn [mseq fold_right].
    + intros F G H s Hs. apply A1; [|assumption]. intros x Hx. now apply B1.
    + intros a b F G s Hs. rewrite <- A2 by assumption. apply A1; [|assumption]. intros x Hx. now apply B2.
    + intros c s Hs. transitivity (mv tau (fun _ => c) s); [|now apply A3]. apply A1; [|assumption]. intros x Hx. now apply B3.
    + intros F H s Hs. apply A4; [|assumption]. intros x Hx. now apply B4.
Qed.

Lemma mseq_stationary taus G : Forall invol taus -> sumf St (fun x => boltzmann E St x * mseq taus G x) = sumf St (fun x => boltzmann E St x * G x).
Proof. induction 1 as [|tau taus HI _ IH]; [reflexivity|]. cbn [mseq fold_right]. rewrite mv_stationary by assumption. exact IH. Qed.

Lemma mv_ge0 tau G s : (forall s, 0 <= G s) -> 0 <= mv tau G s.
Proof.
  intros H. unfold mv. assert (A := accept_prob_pos (E (tau s) - E s)). assert (B := accept_prob_le (E (tau s) - E s)). assert (H1 := H s). assert (H2 := H (tau s)). nra.
Qed.

Lemma mseq_ge0 taus G s : (forall s, 0 <= G s) -> 0 <= mseq taus G s.
Proof. intros H. revert s. induction taus as [|tau taus IH]; intros s; [apply H|]. cbn [mseq fold_right]. now apply mv_ge0. Qed.

Lemma go_pos tau G s : (forall s, 0 <= G s) -> 0 < G (tau s) -> 0 < mv tau G s.
Proof.
  intros HG Hs. unfold mv. assert (P := accept_prob_pos (E (tau s) - E s)). assert (B := accept_prob_le (E (tau s) - E s)). assert (N := HG s).
  apply Rplus_lt_le_0_compat; [now apply Rmult_lt_0_compat|apply Rmult_le_pos; [lra|assumption]].
Qed.

Lemma keep_pos tau G s : (forall s, 0 <= G s) -> E s < E (tau s) -> 0 < G s -> 0 < mv tau G s.
Proof.
  intros HG HE Hs. unfold mv. assert (A : accept_prob (E (tau s) - E s) < 1).
  { unfold accept_prob. apply Rle_lt_trans with (exp (- (E (tau s) - E s))); [apply Rmin_r|]. rewrite <- exp_0. apply exp_increasing. lra. }
  assert (P := accept_prob_pos (E (tau s) - E s)). assert (N := HG (tau s)). nra.
Qed.

Lemma all_moves_pos taus s G : (forall s, 0 <= G s) -> 0 < G (run_moves taus s) -> 0 < mseq taus G s.
Proof.
  intros HG. revert s. induction taus as [|tau taus IH]; intros s H; [exact H|]. cbn [mseq fold_right]. apply go_pos; [intros x; now apply mseq_ge0|]. now apply IH.
Qed.

Notation I := (ind dec).

Lemma one_keep_pos t1 t2 tau s : E (run_moves t1 s) < E (tau (run_moves t1 s)) -> 0 < mseq (t1 ++ tau :: t2) (I (run_moves t2 (run_moves t1 s))) s.
Proof.
  intros H. rewrite mseq_app. apply all_moves_pos; [intros x; apply mseq_ge0; intros; apply ind_ge0|]. cbn [mseq fold_right]. apply keep_pos; [intros x; apply mseq_ge0; intros; apply ind_ge0|assumption|].
  apply all_moves_pos; [intros; apply ind_ge0|]. rewrite (ind_self dec). lra.
Qed.

Lemma run_moves_in taus s : Forall invol taus -> In s St -> In (run_moves taus s) St.
Proof. intros H. revert s. induction H as [|tau taus HI _ IH]; intros s Hs; [assumption|]. cbn. apply IH. now apply HI. Qed.

Lemma run_moves_commute taus tau s : Forall invol taus -> invol tau -> (forall sg x, In sg taus -> In x St -> sg (tau x) = tau (sg x)) -> In s St ->
  run_moves taus (tau s) = tau (run_moves taus s).
Proof.
  intros H Ht. revert s. induction H as [|sg taus HI _ IH]; intros s HC Hs; [reflexivity|]. cbn. rewrite (HC sg s) by (assumption || now left). apply IH; [|now apply HI].
  intros sg' x Hsg. apply HC. now right.
Qed.

Lemma boltzmann_pos y : 0 < boltzmann E St y.
Proof. unfold boltzmann. apply Rdiv_lt_0_compat; [apply exp_pos|]. apply sumf_pos; [exact Hne|intros; apply exp_pos]. Qed.

(** A move without ties that commutes with all earlier ones leads to a state that can be reached. *)
Lemma reach_move t1 t2 tau s : Forall invol (t1 ++ tau :: t2) -> (forall sg x, In sg t1 -> In x St -> sg (tau x) = tau (sg x)) ->
  (forall x, In x St -> E (tau x) <> E x) -> In s St -> reach dec (mseq (t1 ++ tau :: t2)) s (tau s).
Proof.
  intros HI HC NT Hs. set (ms := t1 ++ tau :: t2) in *. assert (HP := mseq_averaging ms HI).
  assert (H1 : Forall invol t1) by (now apply Forall_app in HI). assert (Ht : invol tau) by (apply Forall_app in HI; destruct HI as [_ HI]; now inversion HI). assert (H2 : Forall invol t2) by (apply Forall_app in HI; destruct HI as [_ HI]; now inversion HI).
  assert (One : forall a b, 0 < mseq ms (I b) a -> reach dec (mseq ms) a b) by (intros a b H; now exists 1%nat).
  assert (Back : forall a b, In a St -> In b St -> reach dec (mseq ms) a b -> reach dec (mseq ms) b a).
  { intros a b Ha Hb. apply (reach_back dec St Hnd (mseq ms) HP (boltzmann E St)); try assumption; [intros; apply boltzmann_pos|]. intros G. now apply mseq_stationary. }
  assert (All : forall a, In a St -> reach dec (mseq ms) (run_moves ms a) a).
  { intros a Ha. apply Back; [assumption|now apply run_moves_in|]. apply One, all_moves_pos; [intros; apply ind_ge0|]. rewrite (ind_self dec). lra. }
  assert (K : forall a, In a St -> E (run_moves t1 a) < E (tau (run_moves t1 a)) -> reach dec (mseq ms) a (tau a)).
  { intros a Ha HE. assert (Hta : In (tau a) St) by (now apply Ht).
    apply (reach_trans dec St Hnd _ HP a (run_moves ms (tau a))); [assumption|now apply run_moves_in| |now apply All].
    assert (EQ : run_moves ms (tau a) = run_moves t2 (run_moves t1 a)).
    { unfold ms, run_moves at 1. rewrite fold_left_app. cbn [fold_left]. fold (run_moves t1 (tau a)). rewrite (run_moves_commute t1 tau a) by assumption.
      assert (Q : tau (tau (run_moves t1 a)) = run_moves t1 a) by (apply Ht; now apply run_moves_in). now rewrite Q. }
    rewrite EQ. apply One. now apply one_keep_pos. }
  assert (Hts : In (tau s) St) by (now apply Ht). assert (Hr : In (run_moves t1 s) St) by (now apply run_moves_in).
  destruct (Rtotal_order (E (run_moves t1 s)) (E (tau (run_moves t1 s)))) as [L|[L|L]].
  - now apply K.
  - exfalso. apply (NT (run_moves t1 s) Hr). congruence.
  - apply Back; try assumption. assert (Q : tau (tau s) = s) by (now apply Ht). rewrite <- Q at 2. apply K; [assumption|].
    rewrite (run_moves_commute t1 tau s) by assumption. assert (Q2 : tau (tau (run_moves t1 s)) = run_moves t1 s) by (now apply Ht). now rewrite Q2.
Qed.

(** A state that no move changes without raising the energy can be kept. *)
Lemma stay_put taus a : (forall tau, In tau taus -> tau a = a \/ E a < E (tau a)) -> 0 < mseq taus (I a) a.
Proof.
  induction taus as [|tau taus IH]; intros H; [cbn; rewrite (ind_self dec); lra|]. cbn [mseq fold_right]. assert (K := IH (fun t Ht => H t (or_intror Ht))).
  destruct (H tau (or_introl eq_refl)) as [Q|Q].
  - apply go_pos; [intros; apply mseq_ge0; intros; apply ind_ge0|]. rewrite Q. exact K.
  - apply keep_pos; [intros; apply mseq_ge0; intros; apply ind_ge0|assumption|exact K].
Qed.
End Moves.
