(** * Samples drawn with independent random numbers *)
From Coq Require Import Permutation.
From Coquelicot Require Import Coquelicot.
From Verif Require Import Prelude Spec PreludeFacts M_Index M_Sampler P_Energy P_Energy2 P_Sampler P_Metro P_Cpp P_Converge P_Converge2.
Import ListNotations.
Local Open Scope R_scope.

(** Expected value of H over N independent draws, Ee being the expectation over one. *)
Fixpoint Etape {Ev} (Ee : (Ev -> R) -> R) (N : nat) (H : list Ev -> R) : R :=
  match N with O => H [] | S N' => Ee (fun e => Etape Ee N' (fun l => H (e :: l))) end.

Section Tape.
Context {V Ev : Type}.
Variable Ee : (Ev -> R) -> R.
Variable okev : Ev -> Prop.
Hypothesis Ee_ext : forall H H', (forall e, okev e -> H e = H' e) -> Ee H = Ee H'.
Variable calc_e : list V -> R.
Variable ok : list V -> Prop.
Variable next : Ev -> list V -> list V * R.
Hypothesis next_ok : forall e s, okev e -> ok s -> ok (fst (next e s)) /\ calc_e s + snd (next e s) = calc_e (fst (next e s)).

(** The generator's state: draws to come and the current one. *)
Definition tstate : Type := (list Ev * Ev)%type.

Definition Pnext (G : list V -> R) (s : list V) : R := Ee (fun e => G (fst (next e s))).

Lemma Etape_ext N : forall H H', (forall l, Forall okev l -> length l = N -> H l = H' l) -> Etape Ee N H = Etape Ee N H'.
Proof.
  induction N as [|N IH]; intros H H' HH; cbn [Etape]; [apply HH; [constructor|reflexivity]|].
  apply Ee_ext. intros e He. apply IH. intros l Hl LN. apply HH; [now constructor|cbn; lia].
Qed.

Lemma iter_Pnext_ext : forall k G G' s, ok s -> (forall x, ok x -> G x = G' x) -> iterf k Pnext G s = iterf k Pnext G' s.
Proof.
  induction k as [|k IH]; intros G G' s Hs H; [now apply H|]. cbn [iterf]. unfold Pnext. apply Ee_ext. intros e He. apply IH; [|assumption]. now apply next_ok.
Qed.

(** ** generate_sample_py *)
Section Py.
Variable step : option nat -> list V -> R -> tstate -> list V * R * tstate.
Hypothesis step_next : forall s e l c, ok s -> okev e -> step None s (calc_e s) (e :: l, c) = (fst (next e s), snd (next e s), (l, e)).

Lemma run_tape (N : nat) (Phi : list V -> R -> tstate -> R) (Psi : list V -> R) :
  (forall s c, ok s -> Etape Ee N (fun l => Phi s (calc_e s) (l, c)) = Psi s) ->
  forall k s c, ok s ->
  Etape Ee (k + N) (fun l => let '((s', E', t'), _) := run step (repeat None k) s (calc_e s) (l, c) in Phi s' E' t') = iterf k Pnext Psi s.
Proof.
  intros HP. induction k as [|k IH]; intros s c Hs; [now apply HP|]. cbn [Nat.add Etape iterf repeat]. unfold Pnext at 1. apply Ee_ext. intros e He.
  destruct (next_ok e s He Hs) as [Ho HE]. rewrite <- (IH (fst (next e s)) e Ho). apply Etape_ext. intros l _ _. cbn [run].
  rewrite step_next, HE by assumption. destruct (run step (repeat None k) (fst (next e s)) (calc_e (fst (next e s))) (l, e)) as [[[s' E'] t'] h]. reflexivity.
Qed.

Lemma record_tape k : forall m (G : list (list V) -> R) s c, ok s ->
  Etape Ee (m * k) (fun l => let '((ss, _), _, _) := record step (repeat None k) m s (calc_e s) (l, c) in G ss) = rows_exp (fun F => iterf k Pnext F) m G s.
Proof.
  induction m as [|m IH]; intros G s c Hs; [reflexivity|]. cbn [Nat.mul rows_exp].
  rewrite <- (run_tape (m * k) (fun s1 E1 t1 => let '((ss, _), _, _) := record step (repeat None k) m s1 E1 t1 in G (s1 :: ss)) (fun s1 => rows_exp (fun F => iterf k Pnext F) m (fun rows => G (s1 :: rows)) s1)) with (c := c); [|intros s1 c1 H1; now apply (IH (fun rows => G (s1 :: rows)))|assumption].
  apply Etape_ext. intros l _ _. cbn [record]. destruct (run step (repeat None k) s (calc_e s) (l, c)) as [[[s1 E1] t1] h1].
  destruct (record step (repeat None k) m s1 E1 t1) as [[[ss Es] fin] h2]. reflexivity.
Qed.

Lemma sites_random n m : sites false n m = repeat None m.
Proof. unfold sites, range. generalize 0%nat. induction m as [|m IH]; intros a; [reflexivity|]. cbn [seq map repeat]. now rewrite IH. Qed.

Lemma generate_tape random_row n sample_size n_iters burn_in samples (G : list (list V) -> R) s0 c z : ok s0 -> length s0 = n ->
  Etape Ee (burn_in_or burn_in n_iters + sample_size * n_iters) (fun l =>
    match generate_sample_py step random_row calc_e n sample_size n_iters burn_in false samples (Some [s0]) (l, c) with Ok r => G (g_sample r) | Err _ => z end) =
  iterf (burn_in_or burn_in n_iters) Pnext (rows_exp (fun F => iterf n_iters Pnext F) sample_size G) s0.
Proof.
  intros Hs Hl. set (b := burn_in_or burn_in n_iters).
  rewrite <- (run_tape (sample_size * n_iters) (fun s1 E1 t1 => let '((ss, _), _, _) := record step (repeat None n_iters) sample_size s1 E1 t1 in G ss)) with (c := c); [|intros s1 c1 H1; now apply record_tape|assumption].
  apply Etape_ext. intros l _ _. unfold generate_sample_py. cbn [length Nat.eqb forallb andb]. rewrite Hl, Nat.eqb_refl. cbn [andb bind]. fold b. rewrite !sites_random.
  destruct (run step (repeat None b) s0 (calc_e s0) (l, c)) as [[[s1 E1] t1] h1].
  destruct (record step (repeat None n_iters) sample_size s1 E1 t1) as [[[ss Es] [[s2 E2] t2]] h2]. reflexivity.
Qed.
End Py.

(** ** Sampler::generate_sample (C++) *)
Section Cpp.
Variable g : rng tstate.
Variable step : list V -> nat -> tstate -> list V * R * tstate.
Variable n : nat.
Hypothesis step_next : forall s e l c, ok s -> okev e ->
  (let '(i, t) := randint g (e :: l, c) 0%nat n in step s i t) = (fst (next e s), snd (next e s), (l, e)).

Lemma cpp_run_tape (N : nat) (Phi : list V -> R -> tstate -> R) (Psi : list V -> R) :
  (forall s c, ok s -> Etape Ee N (fun l => Phi s (calc_e s) (l, c)) = Psi s) ->
  forall k s c ctr, ok s ->
  Etape Ee (k + N) (fun l => let '((s', E', t'), _) := cpp_run step (pick_all g false n) k ctr s (calc_e s) (l, c) in Phi s' E' t') = iterf k Pnext Psi s.
Proof.
  intros HP. induction k as [|k IH]; intros s c ctr Hs; [now apply HP|]. cbn [Nat.add Etape iterf]. unfold Pnext at 1. apply Ee_ext. intros e He.
  destruct (next_ok e s He Hs) as [Ho HE]. rewrite <- (IH (fst (next e s)) e (ctr + 1)%nat Ho). apply Etape_ext. intros l _ _. cbn [cpp_run].
  assert (SN := step_next s e l c Hs He). unfold pick_all at 1. destruct (randint g (e :: l, c) 0%nat n) as [i t]. rewrite SN, HE.
  destruct (cpp_run step (pick_all g false n) k (ctr + 1) (fst (next e s)) (calc_e (fst (next e s))) (l, e)) as [[[s' E'] t'] h]. reflexivity.
Qed.

Lemma cpp_counter k : forall ctr s E t, snd (cpp_run step (pick_all g false n) k ctr s E t) = (ctr + k)%nat.
Proof.
  induction k as [|k IH]; intros ctr s E t; cbn [cpp_run]; [cbn; lia|]. destruct (pick_all g false n ctr t) as [i t1]. destruct (step s i t1) as [[s1 de] t2]. rewrite IH. lia.
Qed.

Lemma cpp_record_tape k : forall m (G : list (list V) -> R) s c ctr, ok s ->
  Etape Ee (m * k) (fun l => G (fst (cpp_record step (pick_all g false n) k m ctr s (calc_e s) (l, c)))) = rows_exp (fun F => iterf k Pnext F) m G s.
Proof.
  induction m as [|m IH]; intros G s c ctr Hs; [reflexivity|]. cbn [Nat.mul rows_exp].
  rewrite <- (cpp_run_tape (m * k) (fun s1 E1 t1 => G (s1 :: fst (cpp_record step (pick_all g false n) k m (ctr + k) s1 E1 t1))) (fun s1 => rows_exp (fun F => iterf k Pnext F) m (fun rows => G (s1 :: rows)) s1)) with (c := c) (ctr := ctr); [|intros s1 c1 H1; now apply (IH (fun rows => G (s1 :: rows)))|assumption].
  apply Etape_ext. intros l _ _. cbn [cpp_record]. assert (C := cpp_counter k ctr s (calc_e s) (l, c)). destruct (cpp_run step (pick_all g false n) k ctr s (calc_e s) (l, c)) as [[[s1 E1] t1] h1].
  cbn [snd] in C. subst h1. destruct (cpp_record step (pick_all g false n) k m (ctr + k) s1 E1 t1) as [ss fin]. reflexivity.
Qed.

Lemma cpp_generate_tape n_samples burn n_iters (G : list (list V) -> R) s0 c : ok s0 ->
  Etape Ee (burn + n_samples * n_iters) (fun l => G (fst (cpp_generate_sample g step calc_e n n_samples burn n_iters false s0 (l, c)))) =
  iterf burn Pnext (rows_exp (fun F => iterf n_iters Pnext F) n_samples G) s0.
Proof.
  intros Hs.
  rewrite <- (cpp_run_tape (n_samples * n_iters) (fun s1 E1 t1 => G (fst (cpp_record step (pick_all g false n) n_iters n_samples (0 + burn) s1 E1 t1)))) with (c := c) (ctr := 0%nat); [|intros s1 c1 H1; now apply cpp_record_tape|assumption].
  apply Etape_ext. intros l _ _. unfold cpp_generate_sample. assert (C := cpp_counter burn 0 s0 (calc_e s0) (l, c)). destruct (cpp_run step (pick_all g false n) burn 0 s0 (calc_e s0) (l, c)) as [[[s1 E1] t1] h1].
  cbn [snd] in C. subst h1. reflexivity.
Qed.
End Cpp.
End Tape.

(** ** Ising: an event is a site and a uniform number *)
Definition clampi (x lo hi : nat) : nat := if Nat.leb lo x && Nat.ltb x hi then x else lo.
Definition clampu (u : R) : R := if Rle_dec 0 u then if Rlt_dec u 1 then u else 0 else 0.

Definition tape : rng (@tstate (nat * R)) :=
  Rng _ (fun t lo hi => match fst t with e :: l => (clampi (fst e) lo hi, (l, e)) | [] => (lo, t) end)
        (fun t => (clampu (snd (snd t)), t)).

Lemma tape_ok : rng_ok tape.
Proof.
  split; cbn.
  - intros [[|e l] c] lo hi H; cbn; [lia|]. unfold clampi. destruct (Nat.leb_spec lo (fst e)), (Nat.ltb_spec (fst e) hi); cbn; lia.
  - intros t. unfold clampu. destruct (Rle_dec 0 _); [destruct (Rlt_dec _ 1)|]; lra.
Qed.

(** Expectation over a site below n and a number in [0,1]. *)
Definition draw (n : nat) (H : nat * R -> R) : R := sumf (seq 0 n) (fun i => RInt (fun u => H (i, u)) 0 1) / INR n.

Definition okdraw (n : nat) (e : nat * R) : Prop := (fst e < n)%nat /\ 0 < snd e < 1.

Lemma draw_ext n H H' : (forall e, okdraw n e -> H e = H' e) -> draw n H = draw n H'.
Proof.
  intros HH. unfold draw. f_equal. apply sumf_ext_in. intros i Hi. apply in_seq in Hi. apply RInt_ext. intros u Hu. rewrite Rmin_left, Rmax_right in Hu by lra. apply HH. split; cbn; [lia|lra].
Qed.

Definition inext (E : list Z -> R) (e : nat * R) (s : list Z) : list Z * R := outcome E None (fst e) s (E s) (snd e).

Lemma clampu_in u : 0 < u < 1 -> clampu u = u.
Proof. intros H. unfold clampu. destruct (Rle_dec 0 u); [destruct (Rlt_dec u 1)|]; lra. Qed.

Lemma clampi_in i n : (i < n)%nat -> clampi i 0 n = i.
Proof. intros H. unfold clampi. destruct (Nat.leb_spec 0 i), (Nat.ltb_spec i n); cbn; lia. Qed.

Lemma ising_tape_step E n s i u l c : length s = n -> okdraw n (i, u) ->
  sample_metropolis tape E None s (E s) ((i, u) :: l, c) = (fst (inext E (i, u) s), snd (inext E (i, u) s), (l, (i, u))).
Proof.
  intros Hl [Hi Hu]. cbn in Hi, Hu. unfold sample_metropolis, inext, outcome. cbn [tape randint rand fst snd]. rewrite Hl, clampi_in by assumption. unfold sample_metropolis. cbn [const_rng randint rand fst snd Nat.eqb]. rewrite clampu_in by assumption.
  destruct (Rlt_dec 0 (E (flip s i) - E s)); [destruct (Rlt_dec _ u)|]; reflexivity.
Qed.

Lemma inext_ok E n e s : okdraw n e -> In s (spin_states n) -> In (fst (inext E e s)) (spin_states n) /\ E s + snd (inext E e s) = E (fst (inext E e s)).
Proof.
  intros [Hi Hu] Hs. cbn [fst snd] in *. unfold inext. rewrite outcome_eq. cbv zeta. destruct (Rlt_dec 1 (snd e)); [lra|].
  destruct (Rlt_dec _ _); cbn [fst snd]; split; try ring; try assumption; now apply flip_in_states.
Qed.

Lemma draw_next E n G s : Pnext (draw n) (inext E) G s = rs_step E n G s.
Proof.
  unfold Pnext, draw, rs_step. f_equal. apply sumf_ext. intros i. apply is_RInt_unique.
  assert (A := update_average E None i s (fun p => G (fst p))). cbv zeta in A. cbn [fst site_or] in A. exact A.
Qed.

(** ** Potts: an event is a site, an increment and a uniform number *)
Definition ptape : rng (@tstate (nat * nat * R)) :=
  Rng _ (fun t lo hi => if Nat.eqb lo 0 then match fst t with e :: l => (clampi (fst (fst e)) lo hi, (l, e)) | [] => (lo, t) end
                        else (clampi (snd (fst (snd t))) lo hi, t))
        (fun t => (clampu (snd (snd t)), t)).

Lemma ptape_ok : rng_ok ptape.
Proof.
  split; cbn.
  - assert (C : forall x lo hi, (lo < hi)%nat -> (lo <= clampi x lo hi < hi)%nat) by (intros x lo hi H; unfold clampi; destruct (Nat.leb_spec lo x), (Nat.ltb_spec x hi); cbn; lia).
    intros [[|e l] c] lo hi H; cbn; destruct (Nat.eqb lo 0); cbn; try lia; now apply C.
  - intros t. unfold clampu. destruct (Rle_dec 0 _); [destruct (Rlt_dec _ 1)|]; lra.
Qed.

(** Expectation over a site below n, an increment 1 or 2 and a number in [0,1]. *)
Definition pdraw (n : nat) (H : nat * nat * R -> R) : R :=
  sumf (seq 0 n) (fun i => sumf [1; 2]%nat (fun r => RInt (fun u => H (i, r, u)) 0 1) / 2) / INR n.

Definition okpdraw (n : nat) (e : nat * nat * R) : Prop := (fst (fst e) < n)%nat /\ In (snd (fst e)) [1; 2]%nat /\ 0 < snd e < 1.

Lemma pdraw_ext n H H' : (forall e, okpdraw n e -> H e = H' e) -> pdraw n H = pdraw n H'.
Proof.
  intros HH. unfold pdraw. f_equal. apply sumf_ext_in. intros i Hi. apply in_seq in Hi. f_equal. apply sumf_ext_in. intros r Hr. apply RInt_ext. intros u Hu. rewrite Rmin_left, Rmax_right in Hu by lra.
  apply HH. split; [cbn; lia|split; [exact Hr|cbn; lra]].
Qed.

Definition pnext (E : list nat -> R) (e : nat * nat * R) (s : list nat) : list nat * R := poutcome E None (fst (fst e)) (snd (fst e)) s (E s) (snd e).

Lemma clampi_12 r : In r [1; 2]%nat -> clampi r 1 3 = r.
Proof. intros [<-|[<-|[]]]; reflexivity. Qed.

Lemma potts_tape_step E n s i r u l c : length s = n -> okpdraw n (i, r, u) ->
  potts_sample_metropolis ptape E None s (E s) ((i, r, u) :: l, c) = (fst (pnext E (i, r, u) s), snd (pnext E (i, r, u) s), (l, (i, r, u))).
Proof.
  intros Hl (Hi & Hr & Hu). cbn [fst snd] in Hi, Hr, Hu. unfold potts_sample_metropolis, pnext, poutcome. cbn [ptape randint rand fst snd Nat.eqb]. rewrite Hl, clampi_in by assumption. rewrite clampi_12 by assumption.
  unfold potts_sample_metropolis. cbn [const_rng randint rand fst snd Nat.eqb]. rewrite clampu_in by assumption.
  destruct (Rlt_dec 0 _); [destruct (Rlt_dec _ u)|]; reflexivity.
Qed.

Lemma pnext_ok E n e s : okpdraw n e -> In s (potts_states n) -> In (fst (pnext E e s)) (potts_states n) /\ E s + snd (pnext E e s) = E (fst (pnext E e s)).
Proof.
  intros (_ & Hr & Hu) Hs. unfold pnext. rewrite poutcome_eq by assumption. cbv zeta. destruct (Rlt_dec _ _); cbn [fst snd]; split; try ring; try assumption.
  apply shift3_back; [now apply in_12|assumption].
Qed.

Lemma pdraw_next E n G s : Pnext (pdraw n) (pnext E) G s = rs_potts E n G s.
Proof.
  unfold Pnext, pdraw, rs_potts. f_equal. apply sumf_ext. intros i. f_equal. apply sumf_ext. intros r. apply is_RInt_unique.
  assert (A := potts_update_average E None i r s (fun p => G (fst p))). cbv zeta in A. cbn [fst site_or] in A. exact A.
Qed.
