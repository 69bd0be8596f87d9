(** * Samples of the Wolff cluster sampler (C96). *)
From Coq Require Import Permutation Classical.
From Coquelicot Require Import Coquelicot.
From Verif Require Import Prelude PreludeFacts Spec M_Index M_Params M_Sampler M_Wolff P_Index P_Energy P_Energy2 P_Params P_RMF P_Sampler P_Metro
  P_Ising P_Lattice P_Wolff P_Wolff2 P_Wolff3 P_Converge P_Converge2 P_Converge3 P_WolffConv Props_Energy Props_Wolff Props_Converge Props_Converge2.
Import ListNotations.
Local Open Scope R_scope.

Lemma nonzero_cases n h v : length h = n -> length v = (n * (n - 1) / 2)%nat -> (exists k, (k < length (h ++ v))%nat /\ nthR (h ++ v) k <> 0) ->
  (exists i, (i < n)%nat /\ nthR h i <> 0) \/ (exists i j, (i < n)%nat /\ (j < n)%nat /\ i <> j /\ symmat n v j i <> 0).
Proof.
  intros Hh Hv NZ. assert (Hp : length (h ++ v) = (n + n * (n - 1) / 2)%nat) by (rewrite app_length; lia).
  apply (energy_zero_iff n (h ++ v) Hp) in NZ. destruct NZ as (s & s' & Hs & Hs' & NE). apply NNPP. intros C. apply NE.
  rewrite (proj1 (C15_ising_energy n (map IZR s) (h ++ v) ltac:(rewrite map_length; now apply spin_states_spec in Hs) Hp)).
  rewrite (proj1 (C15_ising_energy n (map IZR s') (h ++ v) ltac:(rewrite map_length; now apply spin_states_spec in Hs') Hp)).
  assert (Y : forall x, ising_energy n (h ++ v) x = 0); [|now rewrite !Y]. intros x. rewrite energy_symmetric.
  rewrite (sumf_zero (seq 0 n) (fun i => nthR (h ++ v) i * nthR x i)).
  - rewrite sumf_zero; [ring|]. intros i Hi. apply in_seq in Hi. apply sumf_zero. intros j Hj. apply in_seq in Hj. unfold csym. destruct (Nat.eqb_spec i j) as [E|N]; [ring|].
    rewrite <- (symmat_coupling n h v i j) by (assumption || lia). destruct (Req_EM_T (symmat n v i j) 0) as [Z|Z]; [rewrite Z; ring|]. exfalso. apply C. right. exists j, i. repeat split; try lia; try congruence.
  - intros i Hi. apply in_seq in Hi. unfold nthR. rewrite app_nth1 by lia. fold (nthR h i). destruct (Req_EM_T (nthR h i) 0) as [Z|Z]; [rewrite Z; ring|]. exfalso. apply C. left. exists i. split; [lia|assumption].
Qed.

(** ** C96 *)
(** WolffIsing.generate_sample without histories: every row of the initial sample advances
    by n_iters cluster steps, the random site and the uniform numbers of every step being
    uniform and independent (wtape hands them out; z is counted for a run that raises).  If
    some field or coupling is not zero, the expectation of F in every returned row
    approaches the Boltzmann one at a geometric rate, and the mean square error of the
    average of F over the m returned rows is at most 4 B^2 / m plus the square of that
    bias, whatever the initial sample. *)
Theorem C96_rate : forall (h v : list R) (self : wolff), let n := length h in (1 <= n)%nat ->
  wolff_init (CVec v) h = Ok self -> (exists k, (k < length (h ++ v))%nat /\ nthR (h ++ v) k <> 0) ->
  let E := fun s => ising_energy n (h ++ v) (map IZR s) in let states := all_states [-1; 1]%Z n in
  exists rho, 0 <= rho < 1 /\ forall (F : list Z -> R) (B : R), (forall s, In s states -> Rabs (F s) <= B) ->
  forall sample n_iters c z, Forall (fun s => In s states) sample ->
  let mean := fun G => Etape (wdraw n) (length sample * n_iters) (fun l =>
      match wolff_generate wtape self n n_iters false sample (l, c) with Ok (out, _, _) => G out | Err _ => z end) in
  let target := expectation (boltzmann E states) states F in
  let bias := 2 * B * rho ^ (n_iters / (2 * n + 2)) in
  (forall i, (i < length sample)%nat -> Rabs (mean (fun out => F (nth i out [])) - target) <= bias) /\
  ((0 < length sample)%nat -> mean (fun out => (sumf out F / INR (length sample) - target) ^ 2) <= 4 * B ^ 2 / INR (length sample) + bias ^ 2).
Proof.
  intros h v self n Hn HI NZ E states.
  assert (Hv : length v = (n * (n - 1) / 2)%nat).
  { unfold wolff_init in HI. cbn [length] in HI. fold n in HI. destruct (Nat.eqb_spec (length v) (n * (n - 1) / 2)); [assumption|discriminate]. }
  rewrite (wolff_init_vec v h Hn Hv) in HI. injection HI as <-. fold n.
  assert (Hn0 : (0 < n)%nat) by lia.
  destruct (wolff_minor n h v Hn0 eq_refl (nonzero_cases n h v eq_refl Hv NZ)) as (eps & He & HM). exists (1 - eps). split; [lra|].
  intros F B HF sample k c z HS mean target bias.
  assert (AV := wolff_averaging n h v Hn0 eq_refl).
  assert (Q : forall G, mean G = indep n h v k sample G) by (intros G; apply (generate_indep n h v Hn0 k z sample G c HS)).
  assert (CV : forall x, In x states -> Rabs (iterf k (Estep n h v n) F x - target) <= bias).
  { intros x Hx. unfold target, expectation, bias. rewrite Rmult_comm. replace (2 * B) with (B - - B) by ring.
    apply (iter_converges (spin_states n) (spin_states_NoDup n) (spin_states_ne n) (Estep n h v n) (2 * n + 2) eps (boltzmann E states)); try assumption; try lra; try lia.
    - apply boltzmann_dist, spin_states_ne.
    - apply (wolff_stationary n h v Hn0 eq_refl).
    - intros y Hy. apply Rabs_le_between. now apply HF. }
  assert (BP : 0 <= B).
  { destruct (spin_states n) as [|y l] eqn:ES; [now apply spin_states_ne in ES|]. specialize (HF y). unfold states in HF. fold (spin_states n) in HF. rewrite ES in HF. specialize (HF (or_introl eq_refl)).
    eapply Rle_trans; [apply Rabs_pos|exact HF]. }
  split.
  - intros i Hi. rewrite Q, (indep_row n h v Hn0 eq_refl k F sample i HS Hi). apply CV. rewrite Forall_forall in HS. apply HS, nth_In, Hi.
  - intros Hm. rewrite Q. set (m := length sample) in *. assert (Pm : 0 < INR m) by (now apply lt_0_INR).
    set (D := fun x => F x - target).
    assert (TB : Rabs target <= B).
    { assert (M := mean_between (spin_states n) (boltzmann E states) F (- B) B (boltzmann_dist _ _ (spin_states_ne n)) (fun x Hx => proj1 (Rabs_le_between _ _) (HF x Hx))). apply Rabs_le_between. exact M. }
    assert (A := avg_iter (spin_states n) (Estep n h v n) k AV). destruct A as (A1 & A2 & A3 & A4).
    assert (K := indep_square n h v Hn0 eq_refl k D bias (4 * B ^ 2)).
    rewrite (indep_ext n h v Hn0 eq_refl k sample _ (fun out => / INR m ^ 2 * sumf out D ^ 2 + 0 * sumf out D ^ 2)); [|assumption|].
    + rewrite (indep_lin n h v Hn0 eq_refl k sample (/ INR m ^ 2) 0 (fun out => sumf out D ^ 2) (fun out => sumf out D ^ 2) HS), Rmult_0_l, Rplus_0_r.
      apply Rle_trans with (/ INR m ^ 2 * (INR m * (4 * B ^ 2) + (INR m * bias) ^ 2)); [|right; field; lra].
      apply Rmult_le_compat_l; [left; apply Rinv_0_lt_compat, pow_lt, Pm|]. apply K; [| | |assumption].
      * unfold bias. apply Rmult_le_pos; [lra|]. apply pow_le. lra.
      * intros x Hx. replace (iterf k (Estep n h v n) D x) with (iterf k (Estep n h v n) F x - target); [now apply CV|].
        unfold D. rewrite (A1 (fun x => F x - target) (fun x => 1 * F x + (- target) * (fun _ => 1) x)); [|intros; ring|assumption]. rewrite A2, A3 by assumption. ring.
      * intros x Hx. rewrite <- (A3 (4 * B ^ 2) x Hx). apply (avg_ge (spin_states n) (fun F => iterf k (Estep n h v n) F)); [now apply avg_iter| |assumption].
        intros y Hy. unfold D. rewrite <- (pow2_abs (F y - target)). assert (Rabs (F y - target) <= 2 * B).
        { eapply Rle_trans; [apply Rabs_triang|]. rewrite Rabs_Ropp. specialize (HF y Hy). lra. }
        assert (0 <= Rabs (F y - target)) by apply Rabs_pos. nra.
    + intros out _ Lo. unfold D. rewrite sumf_minus, sumf_const, Lo. fold m. field. lra.
Qed.
Print Assumptions C96_rate.

(** ** All parameters zero *)
Lemma zero_step {T} (g : rng T) self fuel s ini t s' t' : rng_ok g -> spins (w_n self) s -> (0 < w_n self)%nat -> (w_n self <= fuel)%nat ->
  (forall k, ini = Some k -> (k < w_n self)%nat) -> (forall i j, entry (w_J self) i j = 0) -> (forall i, nthR (w_h self) i = 0) ->
  one_step g self fuel s ini t = Ok (s', t') -> spins (w_n self) s' /\ spin_product s' = (- spin_product s)%Z.
Proof.
  intros Hg Hs Hn Hf Hini HJ Hh E.
  destruct (C57_one_step T g self fuel s ini t Hg Hs Hn Hf Hini) as (i0 & c & s1 & t1 & E1 & S1 & _ & (ND & HR & Hhd & HB) & D).
  rewrite E in E1. injection E1 as <- <-. split; [assumption|]. destruct c as [|x [|y c]]; [discriminate| |].
  - injection Hhd as ->. destruct D as [D|[_ D]].
    + assert (Hi : (i0 < w_n self)%nat) by (apply HR; now left). destruct Hs as [Ls _], S1 as [L1 _].
      assert (ES : s' = flip s i0).
      { apply (list_eq_nth 0%Z); [rewrite flip_length; congruence|]. intros k Hk. rewrite D by lia. unfold flip. destruct (in_dec Nat.eq_dec k [i0]) as [[<-|[]]|N].
        - rewrite nth_upd_same by lia. lia.
        - rewrite nth_upd_other; [reflexivity|]. intros ->. apply N. now left. }
      rewrite ES. apply product_flip. lia.
    + exfalso. rewrite sumf_cons, sumf_nil, Hh in D. lra.
  - exfalso. destruct (HB 1%nat ltac:(cbn; lia)) as (k' & _ & B). unfold satisfied in B. rewrite HJ in B. lra.
Qed.

Lemma zero_steps {T} (g : rng T) self fuel given : rng_ok g -> (0 < w_n self)%nat -> (w_n self <= fuel)%nat ->
  (forall i j, entry (w_J self) i j = 0) -> (forall i, nthR (w_h self) i = 0) ->
  forall js s hist t s' h' t', spins (w_n self) s ->
  foldM (fun st j => let '(s, hist, t) := st in
           bind (one_step g self fuel s (if given : bool then Some (j mod w_n self)%nat else None) t) (fun st' =>
           Ok (fst st', fst st' :: hist, snd st'))) js (s, hist, t) = Ok (s', h', t') ->
  spin_product s' = ((-1) ^ Z.of_nat (length js) * spin_product s)%Z.
Proof.
  intros Hg Hn Hf HJ Hh. induction js as [|j js IH]; intros s hist t s' h' t' Hs H; cbn [foldM] in H.
  - injection H as <- _ _. cbn [length]. change (Z.of_nat 0) with 0%Z. rewrite Z.pow_0_r. lia.
  - destruct (one_step g self fuel s (if given then Some (j mod w_n self)%nat else None) t) as [[s1 t1]|] eqn:E; [|discriminate]. cbn [bind fst snd] in H.
    assert (HK : forall k, (if given then Some (j mod w_n self)%nat else None) = Some k -> (k < w_n self)%nat).
    { intros k. destruct given; [|discriminate]. intros [= <-]. apply Nat.mod_upper_bound. lia. }
    destruct (zero_step g self fuel s _ t s1 t1 Hg Hs Hn Hf HK HJ Hh E) as [S1 P1].
    rewrite (IH _ _ _ _ _ _ S1 H), P1. cbn [length]. rewrite Nat2Z.inj_succ, Z.pow_succ_r by lia. ring.
Qed.

(** Expected: rows drawn with all parameters zero take every spin vector equally often in
    the long run.  Every step then reverses exactly one spin, so for every generator the
    product of the spins of a returned row is that of the initial row times (-1)^n_iters:
    started from equal rows, its average over the sample is 1 or -1 for every number of
    steps, while its expectation is 0. *)
Theorem C96_zero_parameters_refuted : forall (T : Type) (g : rng T) (self : wolff) (h v : list R) fuel n_iters save_history sample (t : T) out hist t', let n := length h in
  rng_ok g -> (1 <= n)%nat -> wolff_init (CVec v) h = Ok self -> (forall k, nthR (h ++ v) k = 0) -> (n <= fuel)%nat -> Forall (spins n) sample ->
  wolff_generate g self fuel n_iters save_history sample t = Ok (out, hist, t') ->
  map spin_product out = map (fun s => ((-1) ^ Z.of_nat n_iters * spin_product s)%Z) sample /\
  let E := fun s => ising_energy n (h ++ v) (map IZR s) in let states := all_states [-1; 1]%Z n in
  expectation (boltzmann E states) states (fun s => IZR (spin_product s)) = 0.
Proof.
  intros T g self h v fuel k sv sample t out hist t' n Hg Hn HI HZ Hf HS HW. split.
  - assert (Hv : length v = (n * (n - 1) / 2)%nat).
    { unfold wolff_init in HI. fold n in HI. destruct (Nat.eqb_spec (length v) (n * (n - 1) / 2)); [assumption|discriminate]. }
    rewrite (wolff_init_vec v h Hn Hv) in HI. injection HI as <-. fold n in HW |- *. set (self := MkWolff n (mk_mat n n (symmat n v)) h) in *.
    assert (HJ : forall i j, entry (w_J self) i j = 0).
    { intros i j. cbn [w_J self]. destruct (Nat.lt_ge_cases i n) as [Li|Li]; [destruct (Nat.lt_ge_cases j n) as [Lj|Lj]|].
      - rewrite entry_mk_mat by assumption. destruct (Nat.eq_dec i j) as [->|N]; [apply symmat_diag|]. rewrite (symmat_coupling n h v i j) by (assumption || reflexivity). unfold coupling. apply HZ.
      - unfold entry. apply nth_overflow. destruct (nth_in_or_default i (mk_mat n n (symmat n v)) []) as [I|I]; [|fold (mk_mat n n (symmat n v)); rewrite I; cbn; lia].
        unfold mk_mat in I at 2. apply in_map_iff in I. destruct I as (x & <- & _). rewrite map_length, seq_length. assumption.
      - unfold entry. rewrite (nth_overflow (mk_mat _ _ _)); [now destruct j|]. unfold mk_mat. rewrite map_length, seq_length. assumption. }
    assert (HH : forall i, nthR (w_h self) i = 0).
    { intros i. cbn [w_h self]. destruct (Nat.lt_ge_cases i n) as [L|L]; [|unfold nthR; now apply nth_overflow]. specialize (HZ i). unfold nthR in HZ. rewrite app_nth1 in HZ by exact L. exact HZ. }
    clear HZ. unfold wolff_generate in HW.
    assert (K : forall sample o0 h0 t o1 h1 t1, Forall (spins n) sample -> foldM (fun st s => let '(out, hist, t) := st in
        bind (steps g self fuel k sv s t) (fun r => let '(s', h', t') := r in Ok (out ++ [s'], hist ++ [rev h'], t'))) sample (o0, h0, t) = Ok (o1, h1, t1) ->
        map spin_product o1 = map spin_product o0 ++ map (fun s => ((-1) ^ Z.of_nat k * spin_product s)%Z) sample).
    { clear sample HS t HW t' out hist. induction sample as [|s sample IH]; intros o0 h0 t o1 h1 t1 HS H; cbn [foldM] in H.
      - injection H as <- _ _. now rewrite app_nil_r.
      - apply Forall_cons_iff in HS. destruct HS as [Hs HS]. destruct (steps g self fuel k sv s t) as [[[s' h'] t2]|] eqn:ES; [|discriminate]. cbn [bind] in H.
        rewrite (IH _ _ _ _ _ _ HS H), map_app, <- app_assoc. cbn [map app]. f_equal. f_equal.
        unfold steps in ES. assert (Z1 := zero_steps g self fuel sv Hg Hn Hf HJ HH (range k) s [s] t s' h' t2 Hs ES). unfold range in Z1. rewrite seq_length in Z1. exact Z1. }
    destruct (foldM _ sample ([], [], t)) as [[[o1 h1] t1]|] eqn:EF; [|discriminate]. cbn [bind] in HW. injection HW as <- _ _. exact (K sample [] [] t o1 h1 t1 HS EF).
  - cbv zeta. apply product_mean_zero; [lia|]. intros (s & s' & _ & _ & NE). apply NE. assert (Y : forall x, ising_energy n (h ++ v) x = 0); [|now rewrite !Y].
    intros x. unfold ising_energy. rewrite (sumf_zero (seq 0 n)) by (intros; rewrite HZ; ring). rewrite sumf_zero; [ring|]. intros i _. apply sumf_zero. intros j _. unfold coupling. rewrite HZ. ring.
Qed.
Print Assumptions C96_zero_parameters_refuted.

(** Two coupled spins, five rows started from the same state; and the same without
    coupling. *)
Example C96_example :
  (exists self, wolff_init (CVec [1]) [0; 0] = Ok self /\ (exists k, (k < length ([0; 0] ++ [1]))%nat /\ nthR ([0; 0] ++ [1]) k <> 0)) /\
  Forall (fun s => In s (all_states [-1; 1]%Z 2)) (repeat [1; 1]%Z 5) /\
  (forall s, In s (all_states [-1; 1]%Z 2) -> Rabs (IZR (nth 0 s 0%Z * nth 1 s 0%Z)) <= 1) /\
  exists self out t', wolff_init (CVec [0]) [0; 0] = Ok self /\ Forall (spins 2) [[1; 1]%Z] /\
    wolff_generate (Rng unit (fun t lo _ => (lo, t)) (fun t => (1/4, t))) self 2 3 false [[1; 1]%Z] tt = Ok (out, None, t') /\ map spin_product out = [(-1)%Z].
Proof.
  split; [|split; [|split]].
  - eexists. split; [apply wolff_init_vec; cbn; [lia|reflexivity]|]. exists 2%nat. split; [cbn; lia|]. unfold nthR. cbn. lra.
  - apply Forall_forall. intros x Hx. apply repeat_spec in Hx. subst x. apply spin_states_spec. split; [reflexivity|repeat (apply Forall_cons; [unfold spin; lia|]); apply Forall_nil].
  - intros s Hs. cbn in Hs. repeat destruct Hs as [<-|Hs]; try destruct Hs; cbn; apply Rabs_le; lra.
  - set (g := Rng unit (fun t lo _ => (lo, t)) (fun t => (1/4, t))).
    assert (Hg : rng_ok g) by (split; [intros t lo hi H; cbn; lia|intros t; cbn; lra]).
    assert (HI : wolff_init (CVec [0]) [0; 0] = Ok (MkWolff 2 (mk_mat 2 2 (symmat 2 [0])) [0; 0])) by (apply wolff_init_vec; cbn; [lia|reflexivity]).
    assert (HS : Forall (spins 2) [[1; 1]%Z]) by (apply Forall_cons; [split; [reflexivity|repeat (apply Forall_cons; [unfold spin; lia|]); apply Forall_nil]|apply Forall_nil]).
    destruct (C57_no_history unit g (MkWolff 2 (mk_mat 2 2 (symmat 2 [0])) [0; 0]) 2 3 [[1; 1]%Z] tt Hg ltac:(cbn; lia) ltac:(cbn; lia) HS) as (out & t' & E & _).
    exists (MkWolff 2 (mk_mat 2 2 (symmat 2 [0])) [0; 0]), out, t'. split; [exact HI|]. split; [exact HS|]. split; [exact E|].
    refine (eq_trans (proj1 (C96_zero_parameters_refuted unit g _ [0; 0] [0] 2 3 false [[1; 1]%Z] tt out None t' Hg ltac:(cbn; lia) HI _ ltac:(cbn; lia) HS E)) _); [|reflexivity].
    intros [|[|[|k]]]; unfold nthR; cbn; try reflexivity. now destruct k.
Qed.
