(** * Replica exchange on independent streams of uniform numbers *)
From Coq Require Import Permutation FunctionalExtensionality.
From Coquelicot Require Import Coquelicot.
From Verif Require Import Prelude Spec PreludeFacts M_Index M_Energy M_Params M_Sampler M_Temper P_Energy P_Energy2 P_Sampler P_Metro P_Params P_Ising P_Temper P_Coarse
  P_Converge P_Converge2 P_Converge3 P_ScanConv P_MoveConv P_Streams Props_Sampler Props_ScanConv.
Import ListNotations.
Local Open Scope R_scope.

(** A generator is the list of uniform numbers it will return; sites are never drawn. *)
Definition ntape : rng (list R) :=
  Rng _ (fun t lo hi => (lo, t)) (fun t => match t with u :: l => (clampu u, l) | [] => (0, []) end).

Section Scan.
Variable E : list Z -> R.
Variable n : nat.

(** Updates of the sites js. *)
Fixpoint scan (js : list nat) (s : list Z) (t : list R) : list Z * list R :=
  match js with
  | [] => (s, t)
  | j :: js' => let '(s1, _, t1) := sample_metropolis ntape E (Some j) s (E s) t in scan js' s1 t1
  end.

Lemma metropolis_energy j s t : let '(s1, de, _) := sample_metropolis ntape E (Some j) s (E s) t in E s + de = E s1.
Proof.
  unfold sample_metropolis. destruct (Rlt_dec 0 _); [|ring]. destruct (rand ntape t) as [u t1]. destruct (Rlt_dec _ u); [rewrite flip_flip; ring|ring].
Qed.

Lemma run_scan js : forall s t, exists h, run (sample_metropolis ntape E) (map Some js) s (E s) t = ((fst (scan js s t), E (fst (scan js s t)), snd (scan js s t)), h).
Proof.
  induction js as [|j js IH]; intros s t; [eexists; reflexivity|]. cbn [map run scan]. assert (M := metropolis_energy j s t).
  destruct (sample_metropolis ntape E (Some j) s (E s) t) as [[s1 de] t1]. rewrite M. destruct (IH s1 t1) as [h Eh]. rewrite Eh. eexists. reflexivity.
Qed.

Lemma scan_app a b s t : scan (a ++ b) s t = scan b (fst (scan a s t)) (snd (scan a s t)).
Proof. revert s t. induction a as [|j a IH]; intros s t; [reflexivity|]. cbn [app scan]. destruct (sample_metropolis ntape E (Some j) s (E s) t) as [[s1 de] t1]. apply IH. Qed.

Lemma scan_law req r (f : list Z -> list (list R) -> R) psi : (r < length req)%nat -> (forall s, In s (spin_states n) -> slaw req (f s) (psi s)) ->
  forall js s, In s (spin_states n) ->
  slaw (upd req r (length js + nth r req 0)%nat) (fun ls => f (fst (scan js s (nth r ls []))) (upd ls r (snd (scan js s (nth r ls []))))) (kseq (kernel E) js psi s).
Proof.
  intros Hr Hf. induction js as [|j js IH]; intros s Hs.
  - cbn [length Nat.add scan fst snd kseq fold_right]. rewrite upd_id. apply (slaw_ext req (f s)); [|now apply Hf]. intros ls _ _ _. now rewrite upd_id.
  - destruct (flip_in_states n s j Hs) as [Hf' _]. set (s1 := flip s j) in *. set (de := E s1 - E s). cbn [kseq fold_right]. fold (kseq (kernel E) js).
    set (req1 := upd req r (length js + nth r req 0)%nat) in *. assert (Lr : length req1 = length req) by apply upd_length.
    assert (Nr : nth r req1 0%nat = (length js + nth r req 0)%nat) by (unfold req1; now rewrite nth_upd_same).
    assert (RE : upd req r (length (j :: js) + nth r req 0)%nat = upd req1 r (S (nth r req1 0%nat))) by (unfold req1 at 1; rewrite upd_upd; rewrite Nr; reflexivity).
    rewrite RE. set (g := fun x ls => f (fst (scan js x (nth r ls []))) (upd ls r (snd (scan js x (nth r ls []))))).
    unfold kernel. fold s1. fold de. destruct (Rlt_dec 0 de) as [Hd|Hd].
    + assert (A1 : exp (- de) < 1) by (rewrite <- exp_0; apply exp_increasing; lra). assert (A0 := exp_pos (- de)).
      assert (AP : accept_prob de = exp (- de)) by (unfold accept_prob; apply Rmin_right; lra). rewrite AP.
      apply (slaw_pull req1 r (exp (- de)) (fun u => if Rlt_dec (exp (- de)) u then false else true) (g s1) (g s)); try lia; try lra.
      * intros u Hu. destruct (Rlt_dec _ u); [lra|reflexivity].
      * intros u Hu. destruct (Rlt_dec _ u); [reflexivity|lra].
      * now apply IH.
      * now apply IH.
      * intros ls u l Ll Hn Hu. rewrite Hn. unfold g. rewrite nth_upd_same by lia. rewrite !upd_upd. cbn [scan]. unfold sample_metropolis. fold s1. fold de. destruct (Rlt_dec 0 de) as [_|C]; [|contradiction].
        cbn [ntape rand]. rewrite clampu_in by assumption. destruct (Rlt_dec (exp (- de)) u); [unfold s1; rewrite flip_flip; reflexivity|reflexivity].
    + assert (AP : accept_prob de = 1). { unfold accept_prob. apply Rmin_left. rewrite <- exp_0. destruct (Rle_lt_or_eq_dec de 0 ltac:(lra)) as [L|L]; [left; apply exp_increasing; lra|rewrite L, Ropp_0; lra]. }
      rewrite AP. rewrite Rmult_1_l, Rminus_diag_eq, Rmult_0_l, Rplus_0_r by reflexivity. apply (slaw_le req1).
      * rewrite <- (upd_id req1 r 0%nat) at 1. apply Forall2_upd_le; [|lia]. clear. induction req1; constructor; auto.
      * apply (slaw_ext req1 (g s1)); [|now apply IH]. intros ls _ _ _. unfold g. cbn [scan]. unfold sample_metropolis. fold s1. fold de. destruct (Rlt_dec 0 de) as [C|_]; [contradiction|]. reflexivity.
Qed.
End Scan.

Lemma nth_mid {A} (l : list A) x r d : nth (length l) (l ++ x :: r) d = x.
Proof. rewrite app_nth2, Nat.sub_diag by lia. reflexivity. Qed.

Lemma upd_mid {A} (l : list A) x r y : upd (l ++ x :: r) (length l) y = l ++ y :: r.
Proof. induction l as [|a l IH]; cbn; [reflexivity|]. now rewrite IH. Qed.

Lemma nth_mid' {A} (l : list A) x r d k : length l = k -> nth k (l ++ x :: r) d = x.
Proof. intros <-. apply nth_mid. Qed.

Lemma upd_mid' {A} (l : list A) x r y k : length l = k -> upd (l ++ x :: r) k y = l ++ y :: r.
Proof. intros <-. apply upd_mid. Qed.

Section Tempering.
Variable calc_e : list Z -> list R -> R.
Variable theta : list R.
Variable n : nat.
Hypothesis Hn : (0 < n)%nat.
Hypothesis linear : forall s b, calc_e s (scale theta b) = b * calc_e s theta.
Notation Et := (Etot calc_e theta).
Notation ebb := (eb calc_e theta).

(** ** Burn in *)
(** The sites visited by generate_sample(1, k, systematic_iter=True). *)
Definition visits (k : nat) : list nat := cyc n 0 k ++ cyc n 0 k.

Lemma burn_replica_scan k b s idx t : length s = n ->
  burn_replica ntape calc_e n k (mk calc_e theta b s idx t) = Ok (mk calc_e theta b (fst (scan (ebb b) (visits k) s t)) idx (snd (scan (ebb b) (visits k) s t))).
Proof.
  intros Ls. unfold burn_replica, mk. cbn [r_theta r_samples r_rng r_index]. unfold ising_generate_sample_py, generate_sample_py. cbn [length Nat.eqb bind burn_in_or]. rewrite sites_cyc.
  change (fun s0 => calc_e s0 (scale theta b)) with (ebb b). change (calc_e s (scale theta b)) with (ebb b s).
  destruct (run_scan (ebb b) (cyc n 0 k) s t) as [h Eh]. rewrite Eh. set (s1 := fst (scan (ebb b) (cyc n 0 k) s t)) in *. set (t1 := snd (scan (ebb b) (cyc n 0 k) s t)) in *.
  cbn [record]. destruct (run_scan (ebb b) (cyc n 0 k) s1 t1) as [h2 E2]. rewrite E2. unfold visits. rewrite scan_app. fold s1. fold t1. reflexivity.
Qed.

Fixpoint burnf (k : nat) (bs : list R) (ss : list (list Z)) (ts : list (list R)) : list (list Z) * list (list R) :=
  match bs, ss, ts with
  | b :: bs', s :: ss', t :: ts' =>
    let st := scan (ebb b) (visits k) s t in let rest := burnf k bs' ss' ts' in (fst st :: fst rest, snd st :: snd rest)
  | _, _, _ => ([], [])
  end.

Lemma burn_burnf k bs : forall ss idx ts, length ss = length bs -> length idx = length bs -> length ts = length bs -> Forall (fun s => length s = n) ss ->
  mapM (burn_replica ntape calc_e n k) (mk_reps calc_e theta bs ss idx ts) = Ok (mk_reps calc_e theta bs (fst (burnf k bs ss ts)) idx (snd (burnf k bs ss ts))).
Proof.
  induction bs as [|b bs IH]; intros [|s ss] [|i idx] [|t ts] H1 H2 H3 HF; cbn [length] in *; try discriminate; [reflexivity|].
  inversion_clear HF as [|? ? F1 F2]. cbn [mk_reps mapM burnf fst snd]. rewrite burn_replica_scan by assumption. cbn [bind]. rewrite (IH ss idx ts) by (assumption || lia). reflexivity.
Qed.

(** ** Moves of tuples of states *)
Definition flip_at (r j : nat) (ss : list (list Z)) : list (list Z) := upd ss r (flip (nth r ss []) j).

Lemma Etot_flip : forall pre ss s, length pre = length ss -> forall b post_b s' post, Et (pre ++ b :: post_b) (ss ++ s' :: post) - Et (pre ++ b :: post_b) (ss ++ s :: post) = ebb b s' - ebb b s.
Proof.
  induction pre as [|a pre IH]; intros [|x ss] s H b post_b s' post; cbn [length] in H; try discriminate.
  - cbn [app Etot]. ring.
  - cbn [app Etot]. assert (K := IH ss s ltac:(lia) b post_b s' post). lra.
Qed.

Lemma scan_moves pre_b b post_b pre post G js : length pre_b = length pre -> forall s,
  kseq (kernel (ebb b)) js (fun x => G (pre ++ x :: post)) s = mseq (Et (pre_b ++ b :: post_b)) (map (flip_at (length pre)) js) G (pre ++ s :: post).
Proof.
  intros HL. induction js as [|j js IH]; intros s; [reflexivity|]. 
  change (kernel (ebb b) j (kseq (kernel (ebb b)) js (fun x => G (pre ++ x :: post))) s = mv (Et (pre_b ++ b :: post_b)) (flip_at (length pre) j) (mseq (Et (pre_b ++ b :: post_b)) (map (flip_at (length pre)) js) G) (pre ++ s :: post)).
  unfold kernel, mv. assert (EF : flip_at (length pre) j (pre ++ s :: post) = pre ++ flip s j :: post) by (unfold flip_at; now rewrite nth_mid, upd_mid). rewrite EF. rewrite (Etot_flip pre_b pre s HL b post_b (flip s j) post). rewrite !IH. reflexivity.
Qed.

Definition burn_moves (k r m : nat) : list (list (list Z) -> list (list Z)) := flat_map (fun r => map (flip_at r) (visits k)) (seq r m).

Lemma burn_law k : forall bs ss pre_b pre req (phi : list (list Z) -> list (list R) -> R) (psi : list (list Z) -> R),
  length ss = length bs -> length pre_b = length pre -> length req = S (length pre + length bs) ->
  Forall (fun s => In s (spin_states n)) ss -> Forall (fun s => In s (spin_states n)) pre ->
  (forall x, Forall (fun s => In s (spin_states n)) x -> length x = (length pre + length bs)%nat -> slaw req (phi x) (psi x)) ->
  slaw (firstn (S (length pre)) req ++ map (fun a => length (visits k) + a)%nat (skipn (S (length pre)) req))
    (fun ls => phi (pre ++ fst (burnf k bs ss (skipn (S (length pre)) ls))) (firstn (S (length pre)) ls ++ snd (burnf k bs ss (skipn (S (length pre)) ls))))
    (mseq (Et (pre_b ++ bs)) (burn_moves k (length pre) (length bs)) psi (pre ++ ss)).
Proof.
  induction bs as [|b bs IH]; intros ss pre_b pre req phi psi H1 H2 H3 HS HP HL.
  - destruct ss; [|discriminate]. cbn [length] in H3. rewrite Nat.add_0_r in H3. rewrite firstn_all2, skipn_all2 by lia. cbn [map]. rewrite !app_nil_r. unfold burn_moves. cbn [length seq flat_map mseq fold_right burnf fst snd].
    apply (slaw_ext req (phi pre)); [|apply HL; [assumption|cbn; lia]]. intros ls Ll _ _. rewrite !app_nil_r, firstn_all2 by lia. reflexivity.
  - destruct ss as [|s ss]; [discriminate|]. cbn [length] in *. inversion_clear HS as [|? ? S1 S2]. set (r := S (length pre)).
    set (v := length (visits k)).
    (* the remaining replicas *)
    assert (K : forall x, In x (spin_states n) -> slaw (firstn (S r) req ++ map (fun a => v + a)%nat (skipn (S r) req))
        (fun ls => phi (pre ++ x :: fst (burnf k bs ss (skipn (S r) ls))) (firstn (S r) ls ++ snd (burnf k bs ss (skipn (S r) ls))))
        (mseq (Et (pre_b ++ b :: bs)) (burn_moves k r (length bs)) psi (pre ++ x :: ss))).
    { intros x Hx. assert (Lx : length (pre ++ [x]) = r) by (rewrite app_length; cbn; unfold r; lia).
      assert (Q := IH ss (pre_b ++ [b]) (pre ++ [x]) req phi psi ltac:(lia) ltac:(rewrite !app_length; cbn; lia) ltac:(rewrite Lx; unfold r; lia) S2).
      rewrite !Lx in Q. rewrite <- !app_assoc in Q. cbn [app] in Q. assert (Q' := Q ltac:(apply Forall_app; split; [assumption|now constructor])).
      assert (Q'' := Q' ltac:(intros y Hy Ly; apply HL; [assumption|unfold r in Ly; lia])). clear Q Q'.
      eapply slaw_ext; [|exact Q'']. intros ls _ _ _. cbv beta. rewrite <- app_assoc. reflexivity. }
    set (req1 := firstn (S r) req ++ map (fun a => v + a)%nat (skipn (S r) req)) in *.
    destruct (skipn r req) as [|q0 qs] eqn:Eq; [apply (f_equal (@length nat)) in Eq; rewrite skipn_length in Eq; cbn in Eq; unfold r in Eq; lia|].
    assert (Hreq : req = firstn r req ++ q0 :: qs) by (rewrite <- Eq; symmetry; apply firstn_skipn). assert (Lf : length (firstn r req) = r) by (rewrite firstn_length; unfold r; lia).
    assert (F1 : firstn (S r) req = firstn r req ++ [q0]).
    { rewrite Hreq at 1. rewrite firstn_app, Lf. replace (S r - r)%nat with 1%nat by lia. rewrite firstn_all2 by lia. reflexivity. }
    assert (K1 : skipn (S r) req = qs) by (rewrite Hreq at 1; rewrite skipn_app, Lf; replace (S r - r)%nat with 1%nat by lia; rewrite skipn_all2 by lia; reflexivity).
    assert (R1 : req1 = firstn r req ++ q0 :: map (fun a => v + a)%nat qs) by (unfold req1; rewrite F1, K1, <- app_assoc; reflexivity).
    assert (N1 : nth r req1 0%nat = q0) by (rewrite R1; apply nth_mid'; exact Lf).
    assert (L1 : length req1 = length req) by (rewrite R1, app_length; cbn [length]; rewrite map_length; rewrite Hreq at 2; rewrite app_length; reflexivity).
    assert (SL := scan_law (ebb b) n req1 r
       (fun x ls => phi (pre ++ x :: fst (burnf k bs ss (skipn (S r) ls))) (firstn (S r) ls ++ snd (burnf k bs ss (skipn (S r) ls))))
       (fun x => mseq (Et (pre_b ++ b :: bs)) (burn_moves k r (length bs)) psi (pre ++ x :: ss)) ltac:(rewrite L1; unfold r; lia) K (visits k) s S1).
    rewrite (scan_moves pre_b b bs pre ss (mseq (Et (pre_b ++ b :: bs)) (burn_moves k r (length bs)) psi) (visits k) H2 s) in SL. rewrite N1 in SL. fold v in SL.
    assert (R2 : upd req1 r (v + q0)%nat = firstn r req ++ map (fun a => v + a)%nat (q0 :: qs)) by (rewrite R1; apply upd_mid'; exact Lf).
    rewrite R2 in SL. unfold burn_moves. cbn [seq flat_map]. rewrite mseq_app. fold r. fold (burn_moves k r (length bs)).
    eapply slaw_ext; [|exact SL]. intros ls Ll _ _. cbv beta.
    assert (Lls : length ls = length req). { rewrite Ll, app_length, map_length. cbn [length]. rewrite Hreq at 2. rewrite app_length. reflexivity. }
    destruct (skipn r ls) as [|t ts] eqn:Et0; [apply (f_equal (@length (list R))) in Et0; rewrite skipn_length in Et0; cbn in Et0; unfold r in *; lia|].
    assert (Hls : ls = firstn r ls ++ t :: ts) by (rewrite <- Et0; symmetry; apply firstn_skipn). assert (Lfl : length (firstn r ls) = r) by (rewrite firstn_length; unfold r in *; lia).
    assert (Nt : nth r ls [] = t) by (rewrite Hls; apply nth_mid'; exact Lfl).
    rewrite Nt. set (st := scan (ebb b) (visits k) s t). assert (U1 : upd ls r (snd st) = firstn r ls ++ snd st :: ts) by (rewrite Hls at 1; apply upd_mid'; exact Lfl).
    rewrite U1. assert (SK : forall y, skipn (S r) (firstn r ls ++ y :: ts) = ts) by (intros y; rewrite skipn_app, Lfl; replace (S r - r)%nat with 1%nat by lia; rewrite skipn_all2 by lia; reflexivity).
    assert (FK : forall y, firstn (S r) (firstn r ls ++ y :: ts) = firstn r ls ++ [y]) by (intros y; rewrite firstn_app, Lfl; replace (S r - r)%nat with 1%nat by lia; rewrite (firstn_all2 (firstn r ls)) by lia; reflexivity).
    rewrite SK, FK, <- app_assoc. cbn [app burnf fst snd]. fold st. reflexivity.
Qed.

(** ** Exchange *)
Lemma exch_law bs (f : list (list Z) -> list nat -> list (list R) -> R) psi req : (0 < length req)%nat ->
  (forall ss idx, In ss (tuples n (length bs)) -> length idx = length bs -> slaw req (f ss idx) (psi ss)) ->
  forall is ss idx, In ss (tuples n (length bs)) -> length idx = length bs ->
  slaw (upd req 0 (length is + nth 0 req 0)%nat)
    (fun ls => let '(st, t) := exch calc_e theta ntape bs is (ss, idx) (nth 0 ls []) in f (fst st) (snd st) (upd ls 0 t))
    (mseq (Et bs) (map swap_at is) psi ss).
Proof.
  intros Hr Hf. induction is as [|i is IH]; intros ss idx Hs Hi.
  - cbn [length Nat.add exch map mseq fold_right fst snd]. rewrite upd_id. apply (slaw_ext req (f ss idx)); [|now apply Hf]. intros ls _ _ _. now rewrite upd_id.
  - cbn [map mseq fold_right]. fold (mseq (Et bs) (map swap_at is)). unfold mv. set (p := accept_prob (Et bs (swap_at i ss) - Et bs ss)).
    assert (P0 : 0 < p) by apply accept_prob_pos. assert (P1 : p <= 1) by apply accept_prob_le.
    set (req1 := upd req 0 (length is + nth 0 req 0)%nat) in *. assert (Lr : length req1 = length req) by apply upd_length.
    assert (Nr : nth 0 req1 0%nat = (length is + nth 0 req 0)%nat) by (unfold req1; now rewrite nth_upd_same).
    assert (RE : upd req 0 (length (i :: is) + nth 0 req 0)%nat = upd req1 0 (S (nth 0 req1 0%nat))) by (unfold req1 at 1; rewrite upd_upd; rewrite Nr; reflexivity).
    rewrite RE. destruct (swap_tuples n (length bs) i ss Hs) as [Hsw _].
    apply (slaw_pull req1 0 p (fun u => if Rlt_dec u p then true else false)
      (fun ls => let '(st, t) := exch calc_e theta ntape bs is (swap_at i ss, swap_at i idx) (nth 0 ls []) in f (fst st) (snd st) (upd ls 0 t))
      (fun ls => let '(st, t) := exch calc_e theta ntape bs is (ss, idx) (nth 0 ls []) in f (fst st) (snd st) (upd ls 0 t))); try lia; try lra.
    + intros u Hu. destruct (Rlt_dec u p); [reflexivity|lra].
    + intros u Hu. destruct (Rlt_dec u p); [lra|reflexivity].
    + apply IH; [assumption|now rewrite swap_at_length].
    + now apply IH.
    + intros ls u l Ll Hnt Hu. destruct ls as [|l0 ls]; [cbn in Ll; lia|]. cbn [nth] in Hnt. subst l0. cbn [nth upd exch fst snd ntape rand]. rewrite clampu_in by assumption. fold p.
      destruct (Rlt_dec u p); cbn [fst snd]; destruct (exch calc_e theta ntape bs is _ l) as [st t]; reflexivity.
Qed.

(** ** Rounds *)
Definition round_moves (k m : nat) : list (list (list Z) -> list (list Z)) := burn_moves k 0 m ++ map swap_at (range (m - 1)).

Lemma visits_length k : length (visits k) = (2 * k)%nat.
Proof. unfold visits, cyc. rewrite app_length, map_length, seq_length. lia. Qed.

Lemma burnf_length k bs : forall ss ts, length ss = length bs -> length ts = length bs -> length (fst (burnf k bs ss ts)) = length bs /\ length (snd (burnf k bs ss ts)) = length bs.
Proof. induction bs as [|b bs IH]; intros [|s ss] [|t ts] H1 H2; cbn [length] in *; try discriminate; [split; reflexivity|]. cbn [burnf fst snd length]. destruct (IH ss ts); lia. Qed.

Lemma tuples_spec m ss : In ss (tuples n m) <-> length ss = m /\ Forall (fun s => In s (spin_states n)) ss.
Proof. unfold tuples. rewrite all_states_spec, Forall_forall. tauto. Qed.

Lemma samples_mk bs : forall ss idx (ts : list (list R)), length ss = length bs -> length idx = length bs -> length ts = length bs ->
  mapM (fun r => get (r_sample r) 0) (mk_reps calc_e theta bs ss idx ts) = Ok ss.
Proof.
  induction bs as [|b bs IH]; intros [|s ss] [|i idx] [|t ts] H1 H2 H3; cbn [length] in *; try discriminate; [reflexivity|].
  cbn [mk_reps mapM]. unfold mk at 1. cbn [r_sample get nth_error bind]. rewrite (IH ss idx ts) by lia. reflexivity.
Qed.

Lemma map_rep {A B} (f : A -> B) x k : map f (repeat x k) = repeat (f x) k.
Proof. induction k as [|k IH]; cbn; [reflexivity|]. now rewrite IH. Qed.

Lemma rounds_law bs repEx default (z : R) : (forall b, In b bs -> b <> 0) -> (0 < length bs)%nat ->
  let k := match repEx with O => default | _ => repEx end in let m := length bs in
  forall M ss idx (H : list (list (list Z)) -> R), In ss (tuples n m) -> length idx = m ->
  slaw ((M * (m - 1))%nat :: repeat (M * (2 * k))%nat m)
    (fun ls => match tempering_sample ntape calc_e n M repEx default bs (mk_reps calc_e theta bs ss idx (tl ls)) (hd [] ls) with Ok (rows, _, _) => H rows | Err _ => z end)
    (rows_exp (mseq (Et bs) (round_moves k m)) M H ss).
Proof.
  intros Hb Hm k m. induction M as [|M IH]; intros ss idx H Hs Hi.
  - cbn [tempering_sample rows_exp]. apply slaw_const.
  - cbn [rows_exp]. unfold round_moves at 1. rewrite mseq_app. set (psi := fun s1 => rows_exp (mseq (Et bs) (round_moves k m)) M (fun rows => H (s1 :: rows)) s1).
    set (cont := fun ss1 idx1 ls => match tempering_sample ntape calc_e n M repEx default bs (mk_reps calc_e theta bs ss1 idx1 (tl ls)) (hd [] ls) with Ok (rows, _, _) => H (ss1 :: rows) | Err _ => z end).
    (* after the exchanges *)
    set (req0 := ((M * (m - 1))%nat :: repeat (M * (2 * k))%nat m)).
    assert (X := exch_law bs cont psi req0 ltac:(unfold req0; cbn; lia) (fun ss1 idx1 H1 H2 => IH ss1 idx1 (fun rows => H (ss1 :: rows)) H1 H2) (range (m - 1))).
    (* after the burn in *)
    set (req1 := upd req0 0 (length (range (m - 1)) + nth 0 req0 0)%nat) in *.
    set (phi := fun x ls => let '(st, t) := exch calc_e theta ntape bs (range (m - 1)) (x, idx) (nth 0 ls []) in cont (fst st) (snd st) (upd ls 0 t)).
    assert (B := burn_law k bs ss [] [] req1 phi (mseq (Et bs) (map swap_at (range (m - 1))) psi) ltac:(now apply tuples_spec in Hs) eq_refl
      ltac:(unfold req1; rewrite upd_length; unfold req0; cbn [length]; rewrite repeat_length; reflexivity) ltac:(now apply tuples_spec in Hs) ltac:(constructor)
      ltac:(intros x Hx Lx; apply X; [apply tuples_spec; now split|assumption])).
    cbn [length app] in B.
    assert (RE : firstn 1 req1 ++ map (fun a => length (visits k) + a)%nat (skipn 1 req1) = ((S M * (m - 1))%nat :: repeat (S M * (2 * k))%nat m)).
    { unfold req1, req0. cbn [upd nth firstn skipn app]. unfold range. rewrite seq_length. f_equal. rewrite map_rep, visits_length. f_equal. }
    rewrite RE in B. eapply slaw_ext; [|exact B]. intros ls Ll _ _. cbv beta. destruct ls as [|t ts]; [cbn in Ll; discriminate|]. cbn [length] in Ll. rewrite repeat_length in Ll.
    cbn [skipn firstn app tl hd]. assert (Lss : length ss = m) by (now apply tuples_spec in Hs).
    destruct (burnf_length k bs ss ts Lss ltac:(fold m; lia)) as [B1 B2]. unfold phi. cbn [nth upd].
    cbn [tempering_sample]. unfold burn_and_exchange, burn_in_replicas. fold k.
    rewrite burn_burnf; [|assumption|assumption|fold m; lia|]. 2: { apply Forall_forall. intros x Hx. apply tuples_spec in Hs. destruct Hs as [_ Hs]. rewrite Forall_forall in Hs. specialize (Hs x Hx). now apply spin_states_spec in Hs. }
    cbn [bind]. rewrite (exchange_eq calc_e theta linear); [| |assumption|assumption|assumption|assumption].
    2: { intros i Hin. unfold range in Hin. apply in_seq in Hin. lia. }
    fold m. set (x := fst (burnf k bs ss ts)) in *. set (ts' := snd (burnf k bs ss ts)) in *.
    assert (XP := exch_perm calc_e theta ntape bs (range (m - 1)) x idx t ltac:(unfold m in *; lia)). destruct (exch calc_e theta ntape bs (range (m - 1)) (x, idx) t) as [st t'] eqn:EX. destruct XP as (XL1 & XL2 & _).
    cbn [bind fst snd]. rewrite samples_mk by (unfold m in *; lia). cbn [bind]. unfold cont. cbn [tl hd].
    destruct (tempering_sample ntape calc_e n M repEx default bs (mk_reps calc_e theta bs (fst st) (snd st) ts') t') as [[[rows hist] fin]|]; reflexivity.
Qed.
End Tempering.

(** ** Every tuple of states is reached *)
Lemma tuples_ne n m : tuples n m <> [].
Proof.
  destruct (spin_states n) as [|s l] eqn:E; [exfalso; now apply (spin_states_ne n)|]. intros C.
  assert (H : In (repeat s m) (tuples n m)). { apply tuples_spec. rewrite repeat_length. split; [reflexivity|]. apply Forall_forall. intros x Hx. apply repeat_spec in Hx. subst. rewrite E. now left. }
  rewrite C in H. destruct H.
Qed.

Section Mixing.
Variable calc_e : list Z -> list R -> R.
Variable theta : list R.
Variable n : nat.
Hypothesis Hn : (0 < n)%nat.
Hypothesis linear : forall s b, calc_e s (scale theta b) = b * calc_e s theta.
Hypothesis NT : forall s i, In s (spin_states n) -> (i < n)%nat -> calc_e (flip s i) theta <> calc_e s theta.
Variable bs : list R.
Hypothesis Hb : forall b, In b bs -> b <> 0.
Variable k : nat.
Hypothesis Hk : (n <= k)%nat.
Notation m := (length bs).
Notation St := (tuples n m).
Notation Et := (Etot calc_e theta bs).
Notation moves := (round_moves n k m).
Notation V := (Forall (fun s => In s (spin_states n))).

Definition tuple_eq_dec : forall a b : list (list Z), {a = b} + {a <> b} := list_eq_dec state_eq_dec.

Lemma Forall_upd {A} (P : A -> Prop) l : Forall P l -> forall i x, P x -> Forall P (upd l i x).
Proof. induction 1 as [|a l Ha Hl IH]; intros [|i] x Hx; cbn; constructor; auto. Qed.

Lemma flip_at_invol r j : (r < m)%nat -> invol St (flip_at r j).
Proof.
  intros Hr ss Hs. apply tuples_spec in Hs. destruct Hs as [L F]. unfold flip_at. split.
  - apply tuples_spec. rewrite upd_length. split; [assumption|]. apply Forall_upd; [assumption|]. apply flip_in_states. rewrite Forall_forall in F. apply F, nth_In. lia.
  - rewrite nth_upd_same by lia. rewrite upd_upd, flip_flip. apply upd_id.
Qed.

Lemma flip_at_comm r j r' j' ss : flip_at r j (flip_at r' j' ss) = flip_at r' j' (flip_at r j ss).
Proof.
  unfold flip_at. destruct (Nat.eq_dec r r') as [<-|N].
  - destruct (Nat.lt_ge_cases r (length ss)) as [L|L].
    + rewrite !nth_upd_same by assumption. rewrite !upd_upd. now rewrite flip_swap.
    + assert (U : forall x, upd ss r x = ss) by (intros x; clear -L; revert r L; induction ss as [|y l IH]; intros [|r] L; cbn in *; try lia; auto; now rewrite IH by lia). now rewrite !U.
  - rewrite !nth_upd_other by congruence. generalize (flip (nth r ss []) j), (flip (nth r' ss []) j'). intros x y. clear -N. revert r r' N. induction ss as [|z l IH]; intros [|r] [|r'] N; cbn; try reflexivity; [lia|]. now rewrite IH by congruence.
Qed.

Lemma burn_moves_in f : In f (burn_moves n k 0 m) <-> exists r j, (r < m)%nat /\ In j (visits n k) /\ f = flip_at r j.
Proof.
  unfold burn_moves. rewrite in_flat_map. split.
  - intros (r & Hr & Hf). apply in_seq in Hr. apply in_map_iff in Hf. destruct Hf as (j & <- & Hj). exists r, j. split; [lia|]. now split.
  - intros (r & j & Hr & Hj & ->). exists r. split; [apply in_seq; lia|]. now apply in_map.
Qed.

Lemma visits_lt j : In j (visits n k) -> (j < n)%nat.
Proof. intros H. unfold visits in H. apply in_app_iff in H. assert (F := cyc_lt n 0 k Hn). rewrite Forall_forall in F. destruct H; now apply F. Qed.

Lemma visits_cover j : (j < n)%nat -> In j (visits n k).
Proof. intros H. unfold visits. apply in_app_iff. left. now apply cyc_covers. Qed.

Lemma moves_invol : Forall (invol St) moves.
Proof.
  apply Forall_app. split; apply Forall_forall; intros f Hf.
  - apply burn_moves_in in Hf. destruct Hf as (r & j & Hr & _ & ->). now apply flip_at_invol.
  - apply in_map_iff in Hf. destruct Hf as (i & <- & _). intros ss Hs. now apply swap_tuples.
Qed.

Lemma Etot_flip_at r j ss : length ss = m -> (r < m)%nat -> Et (flip_at r j ss) - Et ss = nth r bs 0 * (calc_e (flip (nth r ss []) j) theta - calc_e (nth r ss []) theta).
Proof.
  intros L Hr. destruct (nth_split ss [] (n := r) ltac:(lia)) as (pre & post & E1 & L1). destruct (nth_split bs 0 Hr) as (pb & qb & E2 & L2).
  assert (EF : flip_at r j ss = pre ++ flip (nth r ss []) j :: post) by (unfold flip_at; rewrite E1 at 1; now apply upd_mid'). 
  assert (EK := Etot_flip calc_e theta n Hn pb pre (nth r ss []) ltac:(lia) (nth r bs 0) qb (flip (nth r ss []) j) post). rewrite <- E2, <- E1 in EK.
  rewrite EF, EK. unfold eb. rewrite !linear. ring.
Qed.

Notation P := (mseq Et moves).

Lemma flip_reach r j ss : (r < m)%nat -> (j < n)%nat -> In ss St -> reach tuple_eq_dec P ss (flip_at r j ss).
Proof.
  intros Hr Hj Hs. assert (Hin : In (flip_at r j) (burn_moves n k 0 m)) by (apply burn_moves_in; exists r, j; split; [assumption|]; split; [now apply visits_cover|reflexivity]).
  destruct (in_split _ _ Hin) as (t1 & t2 & E). assert (EM : moves = t1 ++ flip_at r j :: (t2 ++ map swap_at (range (m - 1)))) by (unfold round_moves; rewrite E, <- app_assoc; reflexivity).
  assert (MI := moves_invol). rewrite EM in MI |- *. apply (reach_move tuple_eq_dec St (tuples_NoDup n m) (tuples_ne n m)); [assumption| | |assumption].
  - intros sg x Hsg _. assert (Hs' : In sg (burn_moves n k 0 m)) by (rewrite E; apply in_app_iff; now left). apply burn_moves_in in Hs'. destruct Hs' as (r' & j' & _ & _ & ->). apply flip_at_comm.
  - intros x Hx C. apply tuples_spec in Hx. destruct Hx as [L F]. assert (D := Etot_flip_at r j x L Hr). rewrite C in D. rewrite Forall_forall in F.
    assert (Lx : (r < length x)%nat) by lia. assert (N1 := NT (nth r x []) j (F _ (nth_In x [] Lx)) Hj). assert (N2 := Hb (nth r bs 0) (nth_In _ _ Hr)). apply N1. apply Rminus_diag_uniq. apply (Rmult_eq_reg_l (nth r bs 0)); [|assumption]. lra.
Qed.

Lemma tuple_reach : forall post post' pre, length post = length post' -> (length pre + length post)%nat = m -> V pre -> V post -> V post' -> reach tuple_eq_dec P (pre ++ post) (pre ++ post').
Proof.
  assert (HP := mseq_averaging St Et moves moves_invol).
  induction post as [|s post IH]; intros [|s' post'] pre L LM VP V1 V2; cbn [length] in *; try discriminate; [apply reach_refl|].
  inversion_clear V1 as [|? ? A1 A2]. inversion_clear V2 as [|? ? B1 B2].
  assert (TI : forall x, In x (spin_states n) -> In (pre ++ x :: post) St) by (intros x Hx; apply tuples_spec; split; [rewrite app_length; cbn; lia|apply Forall_app; split; [assumption|now constructor]]).
  apply (reach_trans tuple_eq_dec St (tuples_NoDup n m) P HP (pre ++ s :: post) (pre ++ s' :: post)).
  - now apply TI.
  - now apply TI.
  - rewrite <- (flip_to n s s' A1 B1). assert (Ls : length s = n) by (now apply spin_states_spec in A1). assert (D := diff_sites_lt n s s' Ls).
    revert D. clear Ls B1. generalize (diff_sites s s'). intros l. revert s A1. induction l as [|j l IHl]; intros s A1 D; [apply reach_refl|]. inversion_clear D as [|? ? Dj Dl]. cbn [fold_left].
    assert (Hf : In (flip s j) (spin_states n)) by (now apply flip_in_states).
    apply (reach_trans tuple_eq_dec St (tuples_NoDup n m) P HP _ (pre ++ flip s j :: post)); [now apply TI|now apply TI| |now apply IHl].
    assert (FR := flip_reach (length pre) j (pre ++ s :: post) ltac:(lia) Dj (TI s A1)). unfold flip_at in FR. rewrite nth_mid, upd_mid in FR. exact FR.
  - assert (K := IH post' (pre ++ [s']) ltac:(lia) ltac:(rewrite app_length; cbn; lia) ltac:(apply Forall_app; split; [assumption|now constructor]) A2 B2). rewrite <- !app_assoc in K. exact K.
Qed.

Lemma round_minor : exists m0 eps, (0 < m0)%nat /\ 0 < eps <= 1 /\ minor St eps (fun F => iterf m0 P F).
Proof.
  assert (HP := mseq_averaging St Et moves moves_invol).
  destruct (lowest (fun s => calc_e s theta) (spin_states n) (spin_states_ne n)) as (lo & Hlo & Mlo). destruct (lowest (fun s => - calc_e s theta) (spin_states n) (spin_states_ne n)) as (hi & Hhi & Mhi). cbv beta in Mlo, Mhi.
  assert (LH : calc_e lo theta < calc_e hi theta).
  { assert (Hf : In (flip lo 0) (spin_states n)) by (now apply flip_in_states). assert (N := NT lo 0%nat Hlo Hn). assert (A := Mlo _ Hf). assert (B := Mhi _ Hf). assert (B' := Mhi _ Hlo). lra. }
  set (pick := fun b => if Rlt_dec 0 b then lo else hi). assert (Hpick : forall b, In (pick b) (spin_states n)) by (intros b; unfold pick; destruct (Rlt_dec 0 b); assumption).
  set (a := map pick bs). assert (Ha : In a St) by (apply tuples_spec; unfold a; rewrite map_length; split; [reflexivity|]; apply Forall_forall; intros x Hx; apply in_map_iff in Hx; destruct Hx as (b & <- & _); apply Hpick).
  apply (ergodic_minor tuple_eq_dec St (tuples_NoDup n m) P HP a Ha).
  - apply stay_put. intros tau Ht. apply in_app_iff in Ht. destruct Ht as [Ht|Ht].
    + right. apply burn_moves_in in Ht. destruct Ht as (r & j & Hr & Hj & ->). apply visits_lt in Hj. assert (D := Etot_flip_at r j a ltac:(unfold a; apply map_length) Hr).
      assert (Nr : nth r a [] = pick (nth r bs 0)) by (unfold a; rewrite (nth_indep _ [] (pick 0)) by (rewrite map_length; assumption); apply map_nth). rewrite Nr in D.
      assert (Nb := Hb (nth r bs 0) (nth_In _ _ Hr)). set (b := nth r bs 0) in *. assert (Hf : In (flip (pick b) j) (spin_states n)) by (now apply flip_in_states). assert (Nt := NT (pick b) j (Hpick b) Hj).
      unfold pick in D, Hf, Nt. destruct (Rlt_dec 0 b) as [Q|Q].
      * assert (A := Mlo _ Hf). assert (0 < b * (calc_e (flip lo j) theta - calc_e lo theta)) by (apply Rmult_lt_0_compat; lra). lra.
      * assert (A := Mhi _ Hf). assert (0 < (- b) * (calc_e hi theta - calc_e (flip hi j) theta)) by (apply Rmult_lt_0_compat; lra). lra.
    + apply in_map_iff in Ht. destruct Ht as (i & <- & _). unfold a. clear - linear Hb LH. revert i. induction bs as [|b0 l IH]; intros i; [left; destruct i; reflexivity|]. destruct i as [|i].
      * destruct l as [|b1 l]; [now left|]. cbn [map swap_at]. assert (N0 := Hb b0 (or_introl eq_refl)). assert (N1 := Hb b1 (or_intror (or_introl eq_refl))).
        cbn [Etot]. unfold eb at 1 2 3 4. rewrite !linear. generalize (Etot calc_e theta l (map pick l)). generalize (map pick l). intros x y. unfold pick. destruct (Rlt_dec 0 b0), (Rlt_dec 0 b1); try (now left); right.
        -- assert (0 < (b0 - b1) * (calc_e hi theta - calc_e lo theta)) by (apply Rmult_lt_0_compat; lra). lra.
        -- assert (0 < (b1 - b0) * (calc_e hi theta - calc_e lo theta)) by (apply Rmult_lt_0_compat; lra). lra.
      * cbn [map swap_at Etot]. destruct (IH (fun b H => Hb b (or_intror H)) i) as [Q|Q]; [left; congruence|right; lra].
  - intros s s' Hs Hs'. apply tuples_spec in Hs. apply tuples_spec in Hs'. destruct Hs as [L1 V1]. destruct Hs' as [L2 V2]. apply (tuple_reach s s' []); cbn [length]; try assumption; [congruence|constructor].
Qed.
End Mixing.
