(** * C78, C79: continuous spins. *)
From Coquelicot Require Import Coquelicot.
From Verif Require Import Prelude PreludeFacts Spec Spec3 M_Index M_Params M_Heisenberg P_Energy P_Energy2 P_Params P_Pseudo3 P_Heisenberg.
Import ListNotations.
Local Open Scope R_scope.

(** ** C78: Heisenberg energy, its derivatives, Hamiltonian Monte Carlo *)
(** calc_e is minus the sum of the couplings times the products of unit vectors; it lies between
    minus and plus the sum of the absolute couplings and does not change when all spins are turned
    about the polar axis. *)
Theorem C78_energy : forall theta x, heis_calc_e theta x = heisenberg_energy (length x / 2) theta x.
Proof. exact calc_e_spec. Qed.
Print Assumptions C78_energy.

Lemma unit_inner t f t' f' : -1 <= inner3 (unit_vector t f) (unit_vector t' f') <= 1.
Proof.
  unfold inner3, unit_vector. cbn [fst snd].
  pose proof (sin2_cos2 t). pose proof (sin2_cos2 f). pose proof (sin2_cos2 t'). pose proof (sin2_cos2 f'). unfold Rsqr in *.
  set (a := sin t * cos f). set (b := sin t * sin f). set (c := cos t). set (x := sin t' * cos f'). set (y := sin t' * sin f'). set (z := cos t').
  assert (A : a * a + b * b + c * c = 1).
  { unfold a, b, c. transitivity (sin t * sin t * (sin f * sin f + cos f * cos f) + cos t * cos t); [ring|]. rewrite H0. lra. }
  assert (B : x * x + y * y + z * z = 1).
  { unfold x, y, z. transitivity (sin t' * sin t' * (sin f' * sin f' + cos f' * cos f') + cos t' * cos t'); [ring|]. rewrite H2. lra. }
  pose proof (pow2_ge_0 (a - x)). pose proof (pow2_ge_0 (b - y)). pose proof (pow2_ge_0 (c - z)).
  pose proof (pow2_ge_0 (a + x)). pose proof (pow2_ge_0 (b + y)). pose proof (pow2_ge_0 (c + z)). nra.
Qed.

Theorem C78_energy_bounds : forall theta x, length theta = (length x / 2 * (length x / 2 - 1) / 2)%nat ->
  Rabs (heis_calc_e theta x) <= sumf theta Rabs.
Proof.
  intros theta x H. rewrite calc_e_spec, heisenberg_energy_pairs, Rabs_Ropp. set (n := (length x / 2)%nat) in *.
  eapply Rle_trans; [apply sumf_abs_le|].
  rewrite <- (sumf_seq_nth 0 theta Rabs), H, <- pairs_seq_length.
  rewrite <- (sumf_seq_nth (0, 0)%nat (pairs (seq 0 n))). apply sumf_le. intros k Hk. apply in_seq in Hk. rewrite pairs_seq_length in Hk.
  pose proof (pair_index_nth n k) as P. cbv zeta in P. destruct P as (E & _); [lia|]. rewrite E, Rabs_mult.
  set (p := nth k (pairs (seq 0 n)) (0, 0)%nat). fold (nthR theta k).
  pose proof (unit_inner (nthR x (2 * fst p)) (nthR x (2 * fst p + 1)) (nthR x (2 * snd p)) (nthR x (2 * snd p + 1))) as U.
  fold (spin_of x (fst p)) in U. fold (spin_of x (snd p)) in U. apply Rabs_le in U.
  rewrite <- (Rmult_1_r (Rabs (nthR theta k))) at 2. apply Rmult_le_compat_l; [apply Rabs_pos|exact U].
Qed.
Print Assumptions C78_energy_bounds.

Theorem C78_energy_turned : forall theta x y c, length y = length x ->
  (forall a, (a < length x / 2)%nat -> nthR y (2 * a) = nthR x (2 * a) /\ nthR y (2 * a + 1) = nthR x (2 * a + 1) + c) ->
  heis_calc_e theta y = heis_calc_e theta x.
Proof.
  intros theta x y c L H. rewrite !calc_e_spec, L, !heisenberg_energy_pairs. f_equal. apply sumf_ext_in. intros [a b] Hp. cbn [fst snd].
  apply in_pairs_seq in Hp. f_equal. unfold inner3, spin_of, unit_vector. cbn [fst snd].
  destruct (H a ltac:(lia)) as [-> ->]. destruct (H b ltac:(lia)) as [-> ->].
  generalize (nthR x (2 * a)) (nthR x (2 * a + 1)) (nthR x (2 * b)) (nthR x (2 * b + 1)). intros t f t' f'.
  pose proof (cos_minus (f + c) (f' + c)) as C1. pose proof (cos_minus f f') as C2. replace (f + c - (f' + c)) with (f - f') in C1 by ring.
  rewrite C1 in C2.
  transitivity (sin t * sin t' * (cos (f + c) * cos (f' + c) + sin (f + c) * sin (f' + c)) + cos t * cos t'); [ring|]. rewrite C2. ring.
Qed.
Print Assumptions C78_energy_turned.

(** grad_e succeeds and is the gradient of the energy in the angles. *)
Theorem C78_gradient : forall theta x, exists g, heis_grad_e theta x = Ok g /\ length g = length x /\
  forall q, (q < length x)%nat -> is_derive (fun t : R => heis_calc_e theta (upd x q t)) (nthR x q) (nthR g q).
Proof.
  intros theta x.
  assert (D : forall q g, (q < length x)%nat -> heis_grad_e theta x = Ok g -> is_derive (fun t : R => heis_calc_e theta (upd x q t)) (nthR x q) (nthR g q)).
  { intros q g Hq Hg. destruct (grad_e_comp theta x q Hq) as (g' & E & L & V). rewrite E in Hg. injection Hg as ->. rewrite V.
    eapply is_derive_ext; [|apply energy_derive; exact Hq]. intros t. cbv beta. rewrite calc_e_spec, upd_length. reflexivity. }
  destruct x as [|x0 x'].
  - exists []. split; [reflexivity|]. split; [reflexivity|]. intros q Hq. cbn in Hq. lia.
  - destruct (grad_e_comp theta (x0 :: x') 0 ltac:(cbn; lia)) as (g & E & L & _). exists g. split; [exact E|]. split; [exact L|]. intros q Hq. now apply D.
Qed.
Print Assumptions C78_gradient.

(** grad_e_theta is the gradient in the couplings. *)
Theorem C78_coupling_gradient : forall theta x, length theta = (length x / 2 * (length x / 2 - 1) / 2)%nat ->
  length (heis_grad_e_theta theta x) = length theta /\
  forall k, (k < length theta)%nat -> is_derive (fun t : R => heis_calc_e (upd theta k t) x) (nthR theta k) (nthR (heis_grad_e_theta theta x) k).
Proof.
  intros theta x H. split.
  - rewrite grad_theta_spec by assumption. rewrite map_length, pairs_seq_length. lia.
  - intros k Hk. apply (is_derive_ext (fun t : R => heisenberg_energy (length x / 2) (upd theta k t) x)); [intros; symmetry; apply calc_e_spec|].
    now apply energy_coupling_derive.
Qed.
Print Assumptions C78_coupling_gradient.

(** The leapfrog integrator is reversible: reverse the momenta after N steps, take N more steps,
    and the start is reached with reversed momenta; for every gradient, step and N. *)
Theorem C78_leapfrog_reversible : forall grad n dt N x p, (forall y, length y = n -> length (grad y) = n) -> length x = n -> length p = n ->
  let '(x', p', g') := leapfrogs grad dt N (x, p, grad x) in
  g' = grad x' /\ leapfrogs grad dt N (x', map Ropp p', g') = (x, map Ropp p, grad x).
Proof.
  intros grad n dt N x p G Lx Lp.
  assert (H0 : good grad n (x, p, grad x)) by (unfold good; auto).
  pose proof (leapfrogs_good grad n G dt N _ H0) as H1. pose proof (leapfrogs_rev grad n G dt N _ H0) as H2.
  destruct (leapfrogs grad dt N (x, p, grad x)) as [[x' p'] g']. destruct H1 as (_ & _ & ->). split; [reflexivity|]. exact H2.
Qed.
Print Assumptions C78_leapfrog_reversible.

(** For a number u drawn from [0,1), energy and gradient are replaced by those of the proposal
    exactly if u < min(1, exp(-dH)), dH the change of p.p/2 + E over the leapfrog steps
    (the Metropolis rule), and otherwise kept. *)
Theorem C78_acceptance : forall E grad dt N x e g p u, 0 <= u < 1 ->
  let '(xn, pn, gn) := leapfrogs grad dt N (x, p, g) in
  let hamiltonian (q : list R) (v : R) := dot q q / 2 + v in
  let dH := hamiltonian pn (E xn) - hamiltonian p e in
  (u < Rmin 1 (exp (- dH)) -> hmc_step E grad dt N (x, e, g) (p, u) = (xn, E xn, gn)) /\
  (Rmin 1 (exp (- dH)) <= u -> snd (fst (hmc_step E grad dt N (x, e, g) (p, u))) = e /\ snd (hmc_step E grad dt N (x, e, g) (p, u)) = g).
Proof.
  intros E grad dt N x e g p u Hu. destruct (leapfrogs grad dt N (x, p, g)) as [[xn pn] gn] eqn:El. cbv zeta. unfold hmc_step. cbn [fst snd]. rewrite El. cbv zeta.
  set (dH := dot pn pn / 2 + E xn - (dot p p / 2 + e)).
  split; intros H.
  - destruct (Rlt_dec dH 0); [reflexivity|]. assert (u < exp (- dH)) by (eapply Rlt_le_trans; [exact H|apply Rmin_r]).
    destruct (Rlt_dec u (exp (- dH))); [reflexivity|contradiction].
  - destruct (Rlt_dec dH 0) as [L|L].
    { exfalso. assert (1 < exp (- dH)) by (rewrite <- exp_0; apply exp_increasing; lra). rewrite Rmin_left in H by lra. lra. }
    destruct (Rlt_dec u (exp (- dH))) as [L2|L2]; [|auto]. exfalso.
    unfold Rmin in H. destruct (Rle_dec 1 (exp (- dH))); lra.
Qed.
Print Assumptions C78_acceptance.

(** Metropolis rule for Hamiltonian Monte Carlo: the array holds the proposal if the test
    succeeds and the old position otherwise.  jit_sample does not follow it: after one step the
    position does not depend on the uniform number at all; it is the proposal even if the test fails. *)
Theorem C78_rejected_proposals_are_kept_refuted : forall E grad x dt N p u u',
  jit_sample E grad x dt N [(p, u)] = fst (fst (leapfrogs grad dt N (x, p, grad x))) /\
  jit_sample E grad x dt N [(p, u)] = jit_sample E grad x dt N [(p, u')].
Proof.
  intros E grad x dt N p u u'.
  assert (H : forall w, jit_sample E grad x dt N [(p, w)] = fst (fst (leapfrogs grad dt N (x, p, grad x)))).
  { intros w. unfold jit_sample. cbn [fold_left]. unfold hmc_step. cbn [fst snd].
    destruct (leapfrogs grad dt N (x, p, grad x)) as [[x' p'] g'].
    destruct (Rlt_dec _ 0); [reflexivity|]. destruct (Rlt_dec w _); reflexivity. }
  split; [apply H|]. now rewrite !H.
Qed.
Print Assumptions C78_rejected_proposals_are_kept_refuted.

Lemma const_grad_run E c dt N : forall rs rs' x e e', map fst rs = map fst rs' ->
  fst (fst (fold_left (hmc_step E (fun _ => c) dt N) rs (x, e, c))) = fst (fst (fold_left (hmc_step E (fun _ => c) dt N) rs' (x, e', c))).
Proof.
  assert (Q : forall N st, snd st = c -> snd (leapfrogs (fun _ => c) dt N st) = c).
  { intros M st H. induction M as [|M IH]; [exact H|]. rewrite leapfrogs_S. destruct (leapfrogs (fun _ => c) dt M st) as [[a b] d]. reflexivity. }
  induction rs as [|[p u] rs IH]; intros [|[p' u'] rs'] x e e' H; try discriminate; [reflexivity|].
  cbn [map fst] in H. injection H as -> H. cbn [fold_left].
  assert (S1 : forall e u, exists e1, hmc_step E (fun _ => c) dt N (x, e, c) (p', u) = (fst (fst (leapfrogs (fun _ => c) dt N (x, p', c))), e1, c)).
  { intros e0 u0. unfold hmc_step. cbn [fst snd]. specialize (Q N (x, p', c) eq_refl). destruct (leapfrogs (fun _ => c) dt N (x, p', c)) as [[a b] d]. cbn [snd fst] in *. subst d.
    destruct (Rlt_dec _ 0); [eexists; reflexivity|]. destruct (Rlt_dec u0 _); eexists; reflexivity. }
  destruct (S1 e u) as [e1 ->]. destruct (S1 e' u') as [e2 ->]. now apply IH.
Qed.
(** With a constant gradient (a linear energy) the whole run ignores the tests: the position after
    any number of steps is the start moved by all proposals. *)
Theorem C78_linear_energy_never_rejects_refuted : forall E c x dt N rs rs', map fst rs = map fst rs' ->
  jit_sample E (fun _ => c) x dt N rs = jit_sample E (fun _ => c) x dt N rs'.
Proof. intros. unfold jit_sample. now apply const_grad_run. Qed.
Print Assumptions C78_linear_energy_never_rejects_refuted.

(** The two sampler classes cannot be constructed. *)
Theorem C78_classes_unavailable : (forall n theta dt N, HamiltonianMC_new n theta dt N = Err NotImplementedError) /\ (forall J, Heisenberg3DSampler_new J = Err NotImplementedError).
Proof. split; reflexivity. Qed.
Print Assumptions C78_classes_unavailable.

(** A rejected step: energy x^2/2 of one coordinate from 0 with momentum 4, one leapfrog step of
    size 1: the energy rises (dH = 2), the test with u=1/2 fails, and the array holds 4. *)
Example C78_example :
  let E := fun x => nthR x 0 ^ 2 / 2 in
  let grad := fun x => [nthR x 0] in
  jit_sample E grad [0] 1 1 [([4], / 2)] = [4] /\
  (let '(x', p', _) := leapfrogs grad 1 1 ([0], [4], grad [0]) in dot p' p' / 2 + E x' - (dot [4] [4] / 2 + E [0]) = 2) /\
  exp (- 2) < / 2.
Proof.
  cbv zeta. split; [|split].
  - rewrite (proj1 (C78_rejected_proposals_are_kept_refuted _ _ _ _ _ _ _ 0)). unfold leapfrogs, range, leapfrog, vec_axpy. cbn [seq fold_left combine map fst snd nthR nth]. unfold nthR. cbn [nth].
    f_equal. field.
  - unfold leapfrogs, range, leapfrog, vec_axpy, dot, nthR. cbn. field.
  - replace (-2) with (Ropp 2) by ring. rewrite exp_Ropp. assert (H := exp_ineq1 2 ltac:(lra)). apply Rinv_lt_contravar; nra.
Qed.
Print Assumptions C78_example.

(** ** C79: vectors near a given one; the energy gradient of the Heisenberg sampler *)
Lemma list3_eq (a b c x y z : R) : a = x -> b = y -> c = z -> [a; b; c] = [x; y; z].
Proof. now intros -> -> ->. Qed.

(** cross is the vector product: orthogonal to both factors, of the right length and orientation. *)
Theorem C79_cross : forall a b, length a = 3%nat -> length b = 3%nat ->
  length (cross3 a b) = 3%nat /\ dot (cross3 a b) a = 0 /\ dot (cross3 a b) b = 0 /\
  dot (cross3 a b) (cross3 a b) = dot a a * dot b b - dot a b ^ 2 /\ cross3 b a = map Ropp (cross3 a b) /\
  cross3 [1; 0; 0] [0; 1; 0] = [0; 0; 1].
Proof.
  intros a b Ha Hb. destruct a as [|a0 [|a1 [|a2 [|? ?]]]]; try discriminate. destruct b as [|b0 [|b1 [|b2 [|? ?]]]]; try discriminate.
  unfold cross3, nthR. cbn [nth map length]. rewrite !dot3. split; [reflexivity|]. repeat split; try ring; apply list3_eq; ring.
Qed.
Print Assumptions C79_cross.

Lemma rod_z ophi ot : rodrigues ophi ot [0; 0; 1] = [sin ot * cos ophi; sin ot * sin ophi; cos ot].
Proof. unfold rodrigues, cross3, range, nthR. cbn [map seq nth]. rewrite dot3. apply list3_eq; ring. Qed.

Lemma rod_lin ophi ot a b c : rodrigues ophi ot [a; b; c] =
  map (fun j => a * nthR (rodrigues ophi ot [1; 0; 0]) j + b * nthR (rodrigues ophi ot [0; 1; 0]) j + c * nthR (rodrigues ophi ot [0; 0; 1]) j) (range 3).
Proof. unfold rodrigues, cross3, range, nthR. cbn [map seq nth]. rewrite !dot3. apply list3_eq; ring. Qed.

Lemma rod_length ophi ot r : length (rodrigues ophi ot r) = 3%nat.
Proof. reflexivity. Qed.

Lemma dot_to3 u v : length u = 3%nat -> length v = 3%nat -> dot u v = inner3 (to3 u) (to3 v).
Proof.
  intros Hu Hv. destruct u as [|a [|b [|c [|? ?]]]]; try discriminate. destruct v as [|x [|y [|z [|? ?]]]]; try discriminate. rewrite dot3. reflexivity.
Qed.

Lemma mapM_ok_map {A B} (f : A -> result B) (g : A -> B) l : (forall a, In a l -> f a = Ok (g a)) -> mapM f l = Ok (map g l).
Proof.
  induction l as [|a l IH]; intros H; cbn [mapM map]; [reflexivity|]. rewrite (H a (or_introl eq_refl)). cbn [bind].
  rewrite IH by (intros; apply H; now right). reflexivity.
Qed.

(** Polar angle drawn for sample i. *)
Definition drawn_angle (randn : nat -> R) (sigma : R) (i : nat) : R := if Req_EM_T sigma 0 then 0 else randn i * sigma.

(** There are two directions e1, e2 which with v (the direction with the given angles) form an
    orthonormal frame, such that sample i is cos t v + sin t (cos f e1 + sin f e2) with t the drawn
    polar angle and f the drawn azimuth: a unit vector at angle t from v. *)
Theorem C79_nearby : forall randn rand nSamples otheta ophi sigma, sigma <> 0 \/ (nSamples <= 1)%nat ->
  let v := unit_vector otheta ophi in
  exists rows e1 e2, nearby_vector randn rand nSamples otheta ophi sigma = Ok rows /\ length rows = nSamples /\
  inner3 e1 e1 = 1 /\ inner3 e2 e2 = 1 /\ inner3 v v = 1 /\ inner3 e1 e2 = 0 /\ inner3 e1 v = 0 /\ inner3 e2 v = 0 /\
  forall i, (i < nSamples)%nat -> let r := to3 (nth i rows []) in let t := drawn_angle randn sigma i in let f := 2 * PI * rand i in
    length (nth i rows []) = 3%nat /\
    inner3 r r = 1 /\ inner3 r v = cos t /\ inner3 r e1 = sin t * cos f /\ inner3 r e2 = sin t * sin f.
Proof.
  intros randn rand N ot ophi sigma H v.
  set (w := fun i => let t := drawn_angle randn sigma i in let f := 2 * PI * rand i in [sin t * cos f; sin t * sin f; cos t]).
  exists (map (fun i => rodrigues ophi ot (w i)) (range N)), (to3 (rodrigues ophi ot [1; 0; 0])), (to3 (rodrigues ophi ot [0; 1; 0])).
  assert (Ev : v = to3 (rodrigues ophi ot [0; 0; 1])) by (rewrite rod_z; reflexivity).
  assert (IP : forall a b, length a = 3%nat -> length b = 3%nat -> inner3 (to3 (rodrigues ophi ot a)) (to3 (rodrigues ophi ot b)) = dot a b).
  { intros a b Ha Hb. rewrite <- dot_to3 by reflexivity. now apply rodrigues_inner. }
  split.
  { unfold nearby_vector. rewrite (mapM_ok_map _ w).
    - cbn [bind]. now rewrite map_map.
    - intros i Hi. unfold range in Hi. apply in_seq in Hi. unfold w, drawn_angle, Reqb. destruct (Req_EM_T sigma 0) as [->|Hs].
      + assert (i = 0)%nat as -> by (destruct H as [H|H]; [congruence|lia]). cbn [get nth_error bind].
        unfold get, range. rewrite nth_error_map, nth_error_nth' with (d := 0%nat) by (rewrite seq_length; lia). cbn [option_map bind]. rewrite seq_nth by lia.
        cbn [Nat.add]. replace (rand 0%nat * 2 * PI) with (2 * PI * rand 0%nat) by ring. reflexivity.
      + unfold get, range. rewrite !nth_error_map, nth_error_nth' with (d := 0%nat) by (rewrite seq_length; lia). cbn [option_map bind]. rewrite seq_nth by lia.
        cbn [Nat.add]. replace (rand i * 2 * PI) with (2 * PI * rand i) by ring. reflexivity. }
  split; [unfold range; now rewrite map_length, seq_length|].
  rewrite Ev, !IP by reflexivity. rewrite !dot3. do 6 (split; [ring|]).
  intros i Hi. cbv zeta.
  assert (En : nth i (map (fun i => rodrigues ophi ot (w i)) (range N)) [] = rodrigues ophi ot (w i)) by (unfold range; now rewrite nth_map_seq by assumption).
  rewrite En. split; [reflexivity|]. rewrite !IP by reflexivity. unfold w. cbv zeta. rewrite !dot3.
  set (t := drawn_angle randn sigma i). set (f := 2 * PI * rand i).
  pose proof (sin2_cos2 t) as T. pose proof (sin2_cos2 f) as F. unfold Rsqr in *. split; [|repeat split; ring].
  transitivity (sin t * sin t * (sin f * sin f + cos f * cos f) + cos t * cos t); [ring|]. rewrite F. lra.
Qed.
Print Assumptions C79_nearby.

(** sigma = 0 asks for copies of v; with more than one sample the array of angles is read out of
    bounds. *)
Theorem C79_no_width_refuted : forall randn rand nSamples otheta ophi, (2 <= nSamples)%nat ->
  nearby_vector randn rand nSamples otheta ophi 0 = Err IndexError.
Proof.
  intros randn rand N ot ophi H. unfold nearby_vector, Reqb. destruct (Req_EM_T 0 0) as [_|]; [|congruence].
  destruct N as [|[|N]]; [lia|lia|]. unfold range. cbn [seq map mapM]. unfold get. cbn [nth_error bind]. reflexivity.
Qed.
Print Assumptions C79_no_width_refuted.

(** The polar angles computed for a vector off the polar axis are its polar angles. *)
Lemma sin_2PI_minus y : sin (2 * PI - y) = - sin y.
Proof. rewrite sin_minus, sin_2PI, cos_2PI. ring. Qed.
Lemma cos_2PI_minus y : cos (2 * PI - y) = cos y.
Proof. rewrite cos_minus, sin_2PI, cos_2PI. ring. Qed.

Theorem C79_polar_angles : forall a b c, a <> 0 \/ b <> 0 ->
  exists theta phi, polar_angles [a; b; c] = Some (theta, phi) /\ 0 < theta < PI /\ 0 <= phi <= 2 * PI /\
  (let m := sqrt (inner3 (a, b, c) (a, b, c)) in
   let u := unit_vector theta phi in a = m * fst (fst u) /\ b = m * snd (fst u) /\ c = m * snd u).
Proof.
  intros a b c H. unfold polar_angles, nthR. cbn [nth]. set (r2 := a * a + b * b).
  assert (R2 : 0 < r2) by (unfold r2; destruct H; nra). set (r := sqrt r2).
  assert (Hr : 0 < r) by (now apply sqrt_lt_R0). assert (Er : r * r = r2) by (apply sqrt_sqrt; lra).
  unfold Reqb. destruct (Req_EM_T r 0); [lra|]. eexists _, _. split; [reflexivity|].
  pose proof (atan_bound (c / r)) as AB. pose proof (acos_bound (a / r)) as CB.
  split; [lra|]. split; [destruct (Rle_dec 0 b); lra|]. cbv zeta.
  unfold inner3, unit_vector. cbn [fst snd].
  rewrite sin_minus, cos_minus, sin_PI2, cos_PI2, sin_atan, cos_atan.
  set (m := sqrt (a * a + b * b + c * c)).
  assert (Hm : 0 < m) by (apply sqrt_lt_R0; unfold r2 in R2; nra).
  assert (Em : sqrt (1 + (c / r)²) = m / r).
  { apply sqrt_lem_1; [unfold Rsqr; pose proof (pow2_ge_0 (c / r)); nra|apply Rlt_le, Rdiv_lt_0_compat; assumption|].
    assert (E2 : m * m = a * a + b * b + c * c) by (apply sqrt_sqrt; unfold r2 in R2; nra).
    unfold Rsqr. replace (m / r * (m / r)) with (m * m / (r * r)) by (field; lra). rewrite E2, Er. fold r2.
    replace (c / r * (c / r)) with (c * c / (r * r)) by (field; lra). rewrite Er. field. lra. }
  rewrite Em.
  assert (Bd : -1 <= a / r <= 1).
  { assert (Q : a * a <= r * r) by (rewrite Er; unfold r2; nra). split.
    - apply (Rmult_le_reg_r r); [assumption|]. unfold Rdiv. rewrite Rmult_assoc, Rinv_l by lra. nra.
    - apply (Rmult_le_reg_r r); [assumption|]. unfold Rdiv. rewrite Rmult_assoc, Rinv_l by lra. nra. }
  assert (Es : sqrt (1 - (a / r)²) = Rabs b / r).
  { apply sqrt_lem_1.
    - unfold Rsqr. nra.
    - unfold Rdiv. apply Rmult_le_pos; [apply Rabs_pos|]. apply Rlt_le, Rinv_0_lt_compat; assumption.
    - unfold Rsqr. replace (Rabs b / r * (Rabs b / r)) with (Rabs b * Rabs b / (r * r)) by (field; lra).
      rewrite <- Rabs_mult, Rabs_pos_eq by nra. replace (a / r * (a / r)) with (a * a / (r * r)) by (field; lra). rewrite Er. unfold r2. field. unfold r2 in R2. lra. }
  destruct (Rle_dec 0 b) as [Hb|Hb].
  - rewrite cos_acos, sin_acos, Es by assumption. rewrite Rabs_pos_eq by assumption. repeat split; field; lra.
  - rewrite sin_2PI_minus, cos_2PI_minus, cos_acos, sin_acos, Es by assumption. rewrite Rabs_left by lra. repeat split; field; lra.
Qed.
Print Assumptions C79_polar_angles.

(** A vector on the polar axis (a legal spin) gives nan. *)
Theorem C79_pole_refuted : forall randn rand c nSamples sigma, sample_nearby_vector randn rand [0; 0; c] nSamples sigma = Ok None.
Proof.
  intros. unfold sample_nearby_vector, polar_angles, nthR. cbn [nth]. replace (0 * 0 + 0 * 0) with 0 by ring. rewrite sqrt_0. unfold Reqb.
  destruct (Req_EM_T 0 0); [reflexivity|congruence].
Qed.
Print Assumptions C79_pole_refuted.

(** sample_nearby_vector of a vector off the axis: nSamples unit vectors, at the drawn angles from v. *)
Theorem C79_nearby_vector : forall randn rand a b c nSamples sigma, a <> 0 \/ b <> 0 -> sigma <> 0 \/ (nSamples <= 1)%nat ->
  let m := sqrt (inner3 (a, b, c) (a, b, c)) in
  exists rows, sample_nearby_vector randn rand [a; b; c] nSamples sigma = Ok (Some rows) /\ length rows = nSamples /\
  forall i, (i < nSamples)%nat -> let r := to3 (nth i rows []) in
    inner3 r r = 1 /\ inner3 r (a, b, c) = m * cos (drawn_angle randn sigma i).
Proof.
  intros randn rand a b c N sigma Hv Hs m.
  destruct (C79_polar_angles a b c Hv) as (t & f & E & _ & _ & U). fold m in U.
  destruct (C79_nearby randn rand N t f sigma Hs) as (rows & e1 & e2 & En & L & _ & _ & _ & _ & _ & _ & Q).
  exists rows. unfold sample_nearby_vector. rewrite E, En. cbn [bind]. split; [reflexivity|]. split; [assumption|]. intros i Hi. cbv zeta.
  destruct (Q i Hi) as (_ & A & B & _). split; [assumption|]. rewrite <- B. cbv zeta in U. destruct U as (Ua & Ub & Uc).
  unfold inner3 at 1. cbn [fst snd]. rewrite Ua, Ub, Uc at 1. unfold inner3. ring.
Qed.
Print Assumptions C79_nearby_vector.

(** Width zero, one sample: the vector itself, normalised. *)
Theorem C79_no_width_one_sample : forall randn rand a b c, a <> 0 \/ b <> 0 -> inner3 (a, b, c) (a, b, c) = 1 ->
  sample_nearby_vector randn rand [a; b; c] 1 0 = Ok (Some [[a; b; c]]).
Proof.
  intros randn rand a b c Hv Hu.
  destruct (C79_polar_angles a b c Hv) as (t & f & E & _ & _ & U). rewrite Hu, sqrt_1 in U. cbv zeta in U. destruct U as (Ua & Ub & Uc).
  unfold sample_nearby_vector. rewrite E. unfold nearby_vector, Reqb. destruct (Req_EM_T 0 0) as [_|]; [|congruence].
  unfold range. cbn [seq map mapM]. unfold get. cbn [nth_error bind]. rewrite sin_0, cos_0, !Rmult_0_l. cbn [map]. rewrite rod_z.
  unfold unit_vector in Ua, Ub, Uc. cbn [fst snd] in Ua, Ub, Uc. rewrite Rmult_1_l in Ua, Ub, Uc. now rewrite <- Ua, <- Ub, <- Uc.
Qed.
Print Assumptions C79_no_width_one_sample.

(** The gradient of the Heisenberg sampler.  Angles X (rows theta, phi), couplings J. *)
Lemma concat_nth2 (X : list (list R)) i k : (forall r, In r X -> length r = 2%nat) -> (i < length X)%nat -> (k < 2)%nat ->
  nthR (concat X) (2 * i + k) = entry X i k.
Proof.
  revert i. induction X as [|r X IH]; intros i H Hi Hk; [cbn in Hi; lia|].
  assert (Lr := H r (or_introl eq_refl)). destruct i as [|i]; cbn [concat].
  - unfold nthR, entry. rewrite app_nth1 by lia. reflexivity.
  - unfold nthR. rewrite app_nth2 by lia. replace (2 * S i + k - length r)%nat with (2 * i + k)%nat by lia.
    change (nthR (concat X) (2 * i + k) = entry X i k). apply IH; [intros; apply H; now right|cbn in Hi; lia|assumption].
Qed.

Lemma concat_length2 (X : list (list R)) : (forall r, In r X -> length r = 2%nat) -> length (concat X) = (2 * length X)%nat.
Proof.
  induction X as [|r X IH]; intros H; [reflexivity|]. cbn [concat length]. rewrite app_length, (H r (or_introl eq_refl)), IH by (intros; apply H; now right). lia.
Qed.

Lemma fold_two i (a b : nat -> R) l : forall g, length g = 2%nat ->
  let r := fold_left (fun g j => if Nat.eqb i j then g else [nthR g 0 + a j; nthR g 1 + b j]) l g in
  nthR r 0 = nthR g 0 + sumf l (fun j => if Nat.eqb i j then 0 else a j) /\ nthR r 1 = nthR g 1 + sumf l (fun j => if Nat.eqb i j then 0 else b j).
Proof.
  induction l as [|j l IH]; intros g Hg; cbn [fold_left].
  - split; cbn; ring.
  - rewrite !sumf_cons. destruct (Nat.eqb_spec i j).
    + destruct (IH g Hg) as [-> ->]. split; ring.
    + destruct (IH [nthR g 0 + a j; nthR g 1 + b j] eq_refl) as [-> ->]. unfold nthR. cbn [nth]. split; ring.
Qed.

Lemma only_row n (J x : list R) q i : (i < n)%nat -> (q = 2 * i \/ q = 2 * i + 1)%nat ->
  sumf (seq 0 n) (fun a => sumf (seq 0 n) (fun b => cpart n J x q a b)) = sumf (seq 0 n) (fun b => cpart n J x q i b).
Proof.
  intros Hi Hq. rewrite (sumf_ext_in _ _ (fun a => if Nat.eq_dec i a then sumf (seq 0 n) (fun b => cpart n J x q a b) else 0)).
  - rewrite (sumf_indic Nat.eq_dec (seq 0 n) i (fun a => sumf (seq 0 n) (fun b => cpart n J x q a b)) (seq_NoDup _ _)) by (apply in_seq; lia). reflexivity.
  - intros a Ha. destruct (Nat.eq_dec i a) as [|Hn]; [reflexivity|]. apply sumf_zero. intros b _. unfold cpart, dpart. destruct (Nat.eqb a b); [reflexivity|].
    destruct (Nat.eqb_spec q (2 * a)); [lia|]. destruct (Nat.eqb_spec q (2 * a + 1)); [lia|]. ring.
Qed.

Theorem C79_gradient : forall J Jmat X i, let n := length X in length J = (n * (n - 1) / 2)%nat -> squareform_vec J = Ok Jmat ->
  (forall r, In r X -> length r = 2%nat) -> (i < n)%nat ->
  let g := heis_grad_E Jmat X in
  is_derive (fun t : R => heisenberg_energy n J (upd (concat X) (2 * i) t)) (entry X i 0) (entry g i 0) /\
  is_derive (fun t : R => heisenberg_energy n J (upd (concat X) (2 * i + 1) t)) (entry X i 1) (sin (entry X i 0) * entry g i 1).
Proof.
  intros J Jmat X i n HJ HM HX Hi g.
  rewrite (squareform_vec_ok n) in HM by (assumption || lia). injection HM as <-.
  assert (Lc := concat_length2 X HX). fold n in Lc.
  assert (Hn : (length (concat X) / 2 = n)%nat) by (rewrite Lc, Nat.mul_comm; apply Nat.div_mul; lia).
  assert (V : forall k a, (k < 2)%nat -> (a < n)%nat -> nthR (concat X) (2 * a + k) = entry X a k) by (intros; now apply concat_nth2).
  assert (V0 : forall a, (a < n)%nat -> nthR (concat X) (2 * a) = entry X a 0) by (intros a Ha; rewrite <- (V 0%nat a) by lia; f_equal; lia).
  assert (V1 : forall a, (a < n)%nat -> nthR (concat X) (2 * a + 1) = entry X a 1) by (intros a Ha; now rewrite <- (V 1%nat a) by lia).
  assert (Eg : forall k, entry g i k = nthR (fold_left (fun g j => if Nat.eqb i j then g else
        [nthR g 0 + - (entry (mk_mat n n (symmat n J)) i j * (cos (entry X i 0) * sin (entry X j 0) * cos (entry X i 1 - entry X j 1)
                                      - sin (entry X i 0) * cos (entry X j 0)));
         nthR g 1 + entry (mk_mat n n (symmat n J)) i j * sin (entry X j 0) * sin (entry X i 1 - entry X j 1)]) (range n) [0; 0]) k).
  { intros k. unfold g, heis_grad_E. unfold entry at 1. fold n. unfold range at 2. rewrite nth_map_seq by assumption. reflexivity. }
  match type of Eg with forall k, _ = nthR (fold_left (fun g j => if _ then _ else [_ + @?A j; _ + @?B j]) _ _) k => pose proof (fold_two i A B (range n) [0; 0] eq_refl) as F end.
  cbv zeta in F. destruct F as [F0 F1]. rewrite <- Eg in F0, F1. cbn [nthR nth] in F0, F1.
  split.
  - pose proof (energy_derive J (concat X) (2 * i) ltac:(lia)) as D. rewrite Hn, V0, (only_row n J _ _ i) in D by (assumption || lia).
    replace (entry g i 0) with (- sumf (seq 0 n) (fun b => cpart n J (concat X) (2 * i) i b)); [exact D|].
    rewrite F0, Rplus_0_l, <- sumf_opp. apply sumf_ext_in. intros b Hb. apply in_seq in Hb. unfold cpart, dpart.
    destruct (Nat.eqb_spec i b) as [E|Hne]; [now rewrite Ropp_0|]. rewrite Nat.eqb_refl, !V0, !V1 by lia.
    rewrite entry_mk_mat by lia. unfold symmat. rewrite cos_minus.
    destruct (Nat.ltb_spec i b); [ring|]. destruct (Nat.ltb_spec b i); [ring|lia].
  - pose proof (energy_derive J (concat X) (2 * i + 1) ltac:(lia)) as D. rewrite Hn, V1, (only_row n J _ _ i) in D by (assumption || lia).
    replace (sin (entry X i 0) * entry g i 1) with (- sumf (seq 0 n) (fun b => cpart n J (concat X) (2 * i + 1) i b)); [exact D|].
    rewrite F1, Rplus_0_l, <- sumf_opp, <- sumf_scal_l. apply sumf_ext_in. intros b Hb. apply in_seq in Hb. unfold cpart, dpart.
    destruct (Nat.eqb_spec i b) as [E|Hne]; [ring|]. destruct (Nat.eqb_spec (2 * i + 1) (2 * i)); [lia|]. rewrite Nat.eqb_refl, !V0, !V1 by lia.
    rewrite entry_mk_mat by lia. unfold symmat. rewrite sin_minus.
    destruct (Nat.ltb_spec i b); [ring|]. destruct (Nat.ltb_spec b i); [ring|lia].
Qed.
Print Assumptions C79_gradient.

(** Hence the second column ("Gradient wrt theta and phi") is not the derivative in phi: it lacks the
    factor sin theta, and is wrong whenever it is not zero and the spin is not on the equator. *)
Theorem C79_azimuth_gradient_refuted : forall J Jmat X i, let n := length X in length J = (n * (n - 1) / 2)%nat -> squareform_vec J = Ok Jmat ->
  (forall r, In r X -> length r = 2%nat) -> (i < n)%nat ->
  let g := heis_grad_E Jmat X in
  sin (entry X i 0) <> 1 -> entry g i 1 <> 0 ->
  ~ is_derive (fun t : R => heisenberg_energy n J (upd (concat X) (2 * i + 1) t)) (entry X i 1) (entry g i 1).
Proof.
  intros J Jmat X i n HJ HM HX Hi g Hs Hg D. destruct (C79_gradient J Jmat X i HJ HM HX Hi) as [_ D2]. fold n g in D2.
  apply is_derive_unique in D. apply is_derive_unique in D2. rewrite D in D2. apply Hs. apply (Rmult_eq_reg_r (entry g i 1)); [|assumption]. lra.
Qed.
Print Assumptions C79_azimuth_gradient_refuted.

(** Two spins, coupling 1, polar angles pi/6 and pi/2, azimuths pi/2 and 0: the column holds 1,
    the derivative is 1/2. *)
Example C79_example :
  let X := [[PI / 6; PI / 2]; [PI / 2; 0]] in let J := [1] in
  exists Jmat, squareform_vec J = Ok Jmat /\ length J = (2 * (2 - 1) / 2)%nat /\ entry (heis_grad_E Jmat X) 0 1 = 1 /\ sin (entry X 0 0) = / 2 /\
  ~ is_derive (fun t : R => heisenberg_energy 2 J (upd (concat X) 1 t)) (PI / 2) 1.
Proof.
  cbv zeta. exists (mk_mat 2 2 (symmat 2 [1])).
  assert (E : squareform_vec [1] = Ok (mk_mat 2 2 (symmat 2 [1]))) by (apply squareform_vec_ok; [lia|reflexivity]).
  assert (G : entry (heis_grad_E (mk_mat 2 2 (symmat 2 [1])) [[PI / 6; PI / 2]; [PI / 2; 0]]) 0 1 = 1).
  { unfold heis_grad_E, range. cbn [length seq map fold_left Nat.eqb]. unfold entry at 1. cbn [nth]. unfold nthR. cbn [nth].
    rewrite entry_mk_mat by lia. unfold entry. cbn [nth]. rewrite Rminus_0_r, sin_PI2. unfold symmat, pair_index. cbn. ring. }
  assert (Sn : sin (PI / 6) = / 2) by (rewrite sin_PI6; field).
  split; [exact E|]. split; [reflexivity|]. split; [exact G|]. split; [exact Sn|].
  pose proof (C79_azimuth_gradient_refuted [1] _ [[PI / 6; PI / 2]; [PI / 2; 0]] 0 eq_refl E) as H. cbv zeta in H. rewrite G in H. cbn [length] in H.
  apply H; [intros r [<-|[<-|[]]]; reflexivity|lia| |lra].
  change (entry [[PI / 6; PI / 2]; [PI / 2; 0]] 0 0) with (PI / 6). rewrite Sn. lra.
Qed.
Print Assumptions C79_example.
