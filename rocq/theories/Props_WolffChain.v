(** * Averages over the states of one Wolff chain (C104). *)
From Coq Require Import Permutation FunctionalExtensionality.
From Coquelicot Require Import Coquelicot.
From Verif Require Import Prelude PreludeFacts Spec M_Index M_Params M_Sampler M_Wolff P_Index P_Energy P_Energy2 P_Params P_RMF P_Sampler P_Metro
  P_Ising P_Lattice P_Wolff P_Wolff2 P_Wolff3 P_Converge P_Converge2 P_Converge3 P_WolffConv Props_Energy Props_Wolff Props_Converge Props_Converge2 Props_WolffConv.
Import ListNotations.
Local Open Scope R_scope.

(** The first row is drawn by any averaging operator, the others follow it. *)
Lemma first_then_rows {X} (dec : forall a b : X, {a = b} + {a <> b}) (St : list X) (P P0 : (X -> R) -> X -> R) m0 eps w F B :
  NoDup St -> St <> [] -> 0 < eps <= 1 -> (0 < m0)%nat -> averaging St P -> averaging St P0 -> minor St eps (fun F => iterf m0 P F) -> dist St w ->
  (forall G, sumf St (fun x => w x * P G x) = sumf St (fun x => w x * G x)) -> (forall x, In x St -> Rabs (F x) <= B) ->
  forall k m s, (0 < k)%nat -> In s St ->
  let mu := sumf St (fun x => w x * F x) in let C := 8 + 8 * (1 + 2 * INR m0 / eps) in
  P0 (fun s1 => rows_exp (fun F => iterf k P F) m (fun rows => (sumf (s1 :: rows) F / INR (S m) - mu) ^ 2) s1) s <= C * B ^ 2 / INR (S m).
Proof.
  intros Hnd Hne He Hm0 HA HA0 HM HW Hst HF k m s Hk Hs mu C. assert (PM : 0 < INR (S m)) by (apply lt_0_INR; lia).
  assert (B2 := pow2_ge_0 B). assert (Q0 : 0 <= INR m0 / eps) by (apply Rmult_le_pos; [apply pos_INR|left; apply Rinv_0_lt_compat; lra]).
  assert (MB : Rabs mu <= B). { apply Rabs_le_between. apply (mean_between St w F (- B) B HW). intros x Hx. apply Rabs_le_between. now apply HF. }
  assert (HQ : averaging St (fun F => iterf k P F)) by (now apply avg_iter).
  destruct HA0 as (Z1 & Z2 & Z3 & Z4). rewrite <- (Z3 (C * B ^ 2 / INR (S m)) s Hs). apply (avg_ge St P0); [now repeat split| |assumption]. intros x Hx.
  assert (DX : (F x - mu) ^ 2 <= 4 * B ^ 2).
  { rewrite <- (pow2_abs (F x - mu)). assert (Rabs (F x - mu) <= 2 * B).
    { eapply Rle_trans; [apply Rabs_triang|]. rewrite Rabs_Ropp. specialize (HF x Hx). lra. }
    assert (0 <= Rabs (F x - mu)) by apply Rabs_pos. nra. }
  assert (I2 : 0 < / INR (S m) ^ 2) by (apply Rinv_0_lt_compat, pow_lt, PM).
  set (S2 := fun rows => sumf rows (fun y => F y - mu) ^ 2).
  apply Rle_trans with (rows_exp (fun F => iterf k P F) m (fun rows => (2 * / INR (S m) ^ 2 * (F x - mu) ^ 2) * (fun _ => 1) rows + (2 * / INR (S m) ^ 2) * S2 rows) x).
  - apply (rows_exp_le St _ m HQ); [assumption|]. intros l _ Ll. unfold S2. rewrite sumf_cons, sumf_minus, sumf_const, Ll.
    replace ((F x + sumf l F) / INR (S m) - mu) with (((F x - mu) + (sumf l F - INR m * mu)) / INR (S m)) by (rewrite S_INR in *; field; lra).
    unfold Rdiv at 1. rewrite Rpow_mult_distr, pow_inv. set (a := F x - mu). set (b := sumf l F - INR m * mu). replace (2 * / INR (S m) ^ 2 * a ^ 2 * 1 + 2 * / INR (S m) ^ 2 * b ^ 2) with ((2 * a ^ 2 + 2 * b ^ 2) * / INR (S m) ^ 2) by ring.
    apply Rmult_le_compat_r; [now left|]. assert (0 <= (a - b) ^ 2) by apply pow2_ge_0. lra.
  - rewrite (rows_exp_lin St _ m HQ (2 * / INR (S m) ^ 2 * (F x - mu) ^ 2) (2 * / INR (S m) ^ 2) (fun _ => 1) S2 x Hx), (rows_exp_const St _ m HQ) by assumption.
    assert (K : rows_exp (fun F => iterf k P F) m S2 x <= INR m * (4 * B ^ 2 * (1 + 2 * INR m0 / eps))).
    { destruct m as [|m]; [cbn [rows_exp]; unfold S2; rewrite sumf_nil; cbn [INR]; lra|]. assert (Pm : 0 < INR (S m)) by (apply lt_0_INR; lia).
      rewrite (rows_exp_ext St _ (S m) HQ S2 (fun l => INR (S m) ^ 2 * (sumf l F / INR (S m) - mu) ^ 2 + 0 * S2 l)); [| assumption |].
      - rewrite (rows_exp_lin St _ (S m) HQ), Rmult_0_l, Rplus_0_r by assumption.
        apply Rle_trans with (INR (S m) ^ 2 * (4 * B ^ 2 * (1 + 2 * INR m0 / eps) / INR (S m))); [|right; field; lra].
        apply Rmult_le_compat_l; [apply pow2_ge_0|]. apply (average_converges dec St P m0 eps w F B); try assumption; lia.
      - intros l _ Ll. unfold S2. rewrite sumf_minus, sumf_const, Ll. field. lra. }
    set (c := 1 + 2 * INR m0 / eps) in *. assert (Pc : 1 <= c) by (unfold c; unfold Rdiv in *; lra).
    apply Rle_trans with (2 * / INR (S m) ^ 2 * (4 * B ^ 2) + 2 * / INR (S m) ^ 2 * (INR m * (4 * B ^ 2 * c))).
    + rewrite Rmult_1_r. apply Rplus_le_compat; apply Rmult_le_compat_l; try assumption; lra.
    + apply Rle_trans with ((8 * B ^ 2 + INR m * (8 * B ^ 2 * c)) * / INR (S m) ^ 2); [right; ring|].
      apply Rle_trans with ((INR (S m) * (C * B ^ 2)) * / INR (S m) ^ 2); [|right; field; lra]. apply Rmult_le_compat_r; [now left|]. unfold C. fold c. rewrite S_INR. assert (0 <= INR m) by apply pos_INR. 
      assert (0 <= INR m * B ^ 2) by (now apply Rmult_le_pos). assert (0 <= B ^ 2 * c) by (apply Rmult_le_pos; lra). nra.
Qed.

(** The loop: d further steps until the next one whose state is recorded. *)
Lemma chain_tape n h v : (0 < n)%nat -> forall sep z, (0 < sep)%nat ->
  forall iters need counter d s sample c (H : list (list Z) -> R), In s (spin_states n) -> (d < sep)%nat -> ((counter + d) mod sep = 0)%nat -> (need * sep + d < iters)%nat ->
  Etape (wdraw n) (need * sep + S d) (fun l => match chain_loop wtape (MkWolff n (mk_mat n n (symmat n v)) h) n sep iters (S need) counter s sample (l, c) with Ok (rows, _) => H rows | Err _ => z end) =
  iterf (S d) (Estep n h v n) (fun s1 => rows_exp (fun F => iterf sep (Estep n h v n) F) need (fun rows => H (sample ++ s1 :: rows)) s1) s.
Proof.
  intros Hn sep z Hsep. induction iters as [|iters IH]; intros need counter d s sample c H Hs Hd Hc Hi; [lia|].
  replace (need * sep + S d)%nat with (S (need * sep + d)) by lia. cbn [iterf].
  rewrite <- (wdraw_step n h v Hn (need * sep + d) (fun s1 t1 => match (if Nat.eqb (counter mod sep) 0 then chain_loop wtape (MkWolff n (mk_mat n n (symmat n v)) h) n sep iters need (S counter) s1 (sample ++ [s1]) t1
        else chain_loop wtape (MkWolff n (mk_mat n n (symmat n v)) h) n sep iters (S need) (S counter) s1 sample t1) with Ok (rows, _) => H rows | Err _ => z end)
      (iterf d (Estep n h v n) (fun s1 => rows_exp (fun F => iterf sep (Estep n h v n) F) need (fun rows => H (sample ++ s1 :: rows)) s1)) z s c Hs).
  - f_equal. apply functional_extensionality. intros l. cbn [chain_loop]. destruct (one_step _ _ _ _ _ _) as [[s1 t1]|]; [|reflexivity]. cbn [bind]. destruct sep as [|sep']; [lia|]. reflexivity.
  - intros s1 c1 Hs1. destruct d as [|d].
    + rewrite Nat.add_0_r in Hc. rewrite Hc. cbn [Nat.eqb iterf]. destruct need as [|need].
      * cbn [Nat.mul Nat.add Etape rows_exp]. destruct iters; reflexivity.
      * rewrite Nat.add_0_r. replace (S need * sep)%nat with (need * sep + S (sep - 1))%nat by lia. cbn [rows_exp].
        rewrite (IH need (S counter) (sep - 1)%nat s1 (sample ++ [s1]) c1 H Hs1).
        -- replace (S (sep - 1)) with sep by lia. f_equal. apply functional_extensionality. intros s2. f_equal. apply functional_extensionality. intros rows. now rewrite <- app_assoc.
        -- lia.
        -- replace (S counter + (sep - 1))%nat with (counter + 1 * sep)%nat by lia. rewrite Nat.mod_add by lia. assumption.
        -- nia.
    + assert (CM : Nat.eqb (counter mod sep) 0 = false).
      { apply Nat.eqb_neq. intros C0. rewrite Nat.add_mod, C0, Nat.add_0_l, Nat.mod_mod, Nat.mod_small in Hc by lia. discriminate. }
      rewrite CM. apply (IH need (S counter) d s1 sample c1 H Hs1); [lia| |lia]. rewrite <- Hc. f_equal. lia.
Qed.

(** ** C104 *)
(** WolffIsing._generate_sample: one state evolves, the states after cluster steps 1,
    1+sep, 1+2*sep, ... are the sample.  The random site and the uniform numbers of every
    step are uniform and independent; z is counted for a run that raises.  If some field or
    coupling is not zero, the mean square error of the average of F over the m states is at
    most C B^2 / m from every initial state and for every separation, and the probability
    that it exceeds d is at most C B^2 / (m d^2). *)
Theorem C104_single_chain : forall (h v : list R) (self : wolff), let n := length h in (1 <= n)%nat ->
  wolff_init (CVec v) h = Ok self -> (exists k, (k < length (h ++ v))%nat /\ nthR (h ++ v) k <> 0) ->
  let E := fun s => ising_energy n (h ++ v) (map IZR s) in let states := all_states [-1; 1]%Z n in
  exists C, forall (F : list Z -> R) (B : R), (forall s, In s states -> Rabs (F s) <= B) ->
  forall s0 sep m iters c z, In s0 states -> (0 < sep)%nat -> (0 < m)%nat -> (m * sep <= iters)%nat ->
  let err := fun rows => sumf rows F / INR m - expectation (boltzmann E states) states F in
  let mean := fun H => Etape (wdraw n) ((m - 1) * sep + 1) (fun l =>
      match wolff_chain wtape self n iters m sep s0 (l, c) with Ok (rows, _) => H rows | Err _ => z end) in
  mean (fun rows => err rows ^ 2) <= C * B ^ 2 / INR m /\
  forall d, 0 < d -> mean (fun rows => if Rlt_dec d (Rabs (err rows)) then 1 else 0) <= C * B ^ 2 / (INR m * d ^ 2).
Proof.
  intros h v self n Hn HI NZ E states.
  assert (Hv : length v = (n * (n - 1) / 2)%nat).
  { unfold wolff_init in HI. cbn [length] in HI. fold n in HI. destruct (Nat.eqb_spec (length v) (n * (n - 1) / 2)); [assumption|discriminate]. }
  rewrite (wolff_init_vec v h Hn Hv) in HI. injection HI as <-. fold n.
  assert (Hn0 : (0 < n)%nat) by lia.
  destruct (wolff_minor n h v Hn0 eq_refl (nonzero_cases n h v eq_refl Hv NZ)) as (eps & He & HM). exists (8 + 8 * (1 + 2 * INR (2 * n + 2) / eps)).
  intros F B HF s0 sep m iters c z Hs Hsep Hm Hit err mean. destruct m as [|m]; [lia|].
  assert (AV := wolff_averaging n h v Hn0 eq_refl). set (P := Estep n h v n) in *.
  assert (HQ : averaging (spin_states n) (fun F => iterf sep P F)) by (now apply avg_iter).
  assert (Q : forall H, mean H = P (fun s1 => rows_exp (fun F => iterf sep P F) m (fun rows => H (s1 :: rows)) s1) s0).
  { intros H. unfold mean, wolff_chain. replace ((S m - 1) * sep + 1)%nat with (m * sep + 1)%nat by lia.
    rewrite (chain_tape n h v Hn0 sep z Hsep iters m 0 0 s0 [] c H Hs); [reflexivity|lia|apply Nat.mod_0_l; lia|lia]. }
  assert (K : mean (fun rows => err rows ^ 2) <= (8 + 8 * (1 + 2 * INR (2 * n + 2) / eps)) * B ^ 2 / INR (S m)).
  { rewrite Q. apply (first_then_rows state_eq_dec (spin_states n) P P (2 * n + 2) eps (boltzmann E states) F B (spin_states_NoDup n) (spin_states_ne n) He ltac:(lia) AV AV HM
      (boltzmann_dist _ _ (spin_states_ne n)) (wolff_stationary n h v Hn0 eq_refl) HF sep m s0 Hsep Hs). }
  split; [exact K|]. intros d Hd. assert (D2 : 0 < d ^ 2) by (now apply pow_lt). assert (I0 : 0 < / d ^ 2) by (now apply Rinv_0_lt_compat). assert (Pm : 0 < INR (S m)) by (apply lt_0_INR; lia).
  apply Rle_trans with (/ d ^ 2 * mean (fun rows => err rows ^ 2)).
  - rewrite !Q. assert (AV' := AV). destruct AV' as (A1 & A2 & A3 & A4).
    set (G := fun s1 => rows_exp (fun F => iterf sep P F) m (fun rows => err (s1 :: rows) ^ 2) s1).
    apply Rle_trans with (P (fun s1 => / d ^ 2 * G s1 + 0 * G s1) s0); [|rewrite A2 by assumption; lra].
    apply (avg_ge (spin_states n) P); [assumption| |assumption]. intros x Hx. rewrite Rmult_0_l, Rplus_0_r.
    apply Rle_trans with (rows_exp (fun F => iterf sep P F) m (fun rows => / d ^ 2 * err (x :: rows) ^ 2 + 0 * err (x :: rows) ^ 2) x).
    + apply (rows_exp_le (spin_states n) _ m HQ); [assumption|]. intros l _ _. rewrite Rmult_0_l, Rplus_0_r. assert (S0 : 0 <= err (x :: l) ^ 2) by apply pow2_ge_0.
      destruct (Rlt_dec d (Rabs (err (x :: l)))) as [L|L]; [|now apply Rmult_le_pos; [left|]].
      apply (Rmult_le_reg_l (d ^ 2)); [assumption|]. rewrite <- Rmult_assoc, Rinv_r, Rmult_1_l, Rmult_1_r by lra. rewrite <- (pow2_abs (err (x :: l))). apply pow_incr. lra.
    + rewrite (rows_exp_lin (spin_states n) _ m HQ (/ d ^ 2) 0) by assumption. unfold G. lra.
  - apply Rle_trans with (/ d ^ 2 * ((8 + 8 * (1 + 2 * INR (2 * n + 2) / eps)) * B ^ 2 / INR (S m))); [apply Rmult_le_compat_l; [now left|assumption]|]. right. field. repeat split; lra.
Qed.
Print Assumptions C104_single_chain.

(** Two coupled spins, ten states three steps apart. *)
Example C104_example : (exists self, wolff_init (CVec [1]) [0; 0] = Ok self) /\ (exists k, (k < length ([0; 0] ++ [1]))%nat /\ nthR ([0; 0] ++ [1]) k <> 0) /\
  In [1; -1]%Z (all_states [-1; 1]%Z 2) /\ (10 * 3 <= 30)%nat /\ forall s, In s (all_states [-1; 1]%Z 2) -> Rabs (IZR (nth 0 s 0%Z * nth 1 s 0%Z)) <= 1.
Proof.
  split; [|split; [|split; [|split]]].
  - eexists. apply wolff_init_vec; cbn; [lia|reflexivity].
  - exists 2%nat. split; [cbn; lia|]. unfold nthR. cbn. lra.
  - cbn. tauto.
  - lia.
  - intros s Hs. cbn in Hs. repeat destruct Hs as [<-|Hs]; try destruct Hs; cbn; apply Rabs_le; lra.
Qed.
