(** * Integrals of Gaussians over the real line. *)
From Coq Require Import Reals Lra List.
From Coquelicot Require Import Coquelicot.
Local Open Scope R_scope.

(** The integral over the real line. *)
Definition over_line (f : R -> R) (v : R) : Prop :=
  is_RInt_gen f (Rbar_locally m_infty) (Rbar_locally p_infty) v.

Lemma over_line_unique f u v : over_line f u -> over_line f v -> u = v.
Proof.
  unfold over_line. intros A B. apply (is_RInt_gen_unique (V := R_CompleteNormedModule)) in A.
  apply (is_RInt_gen_unique (V := R_CompleteNormedModule)) in B. congruence.
Qed.

Lemma over_line_ext f g v : (forall x, f x = g x) -> over_line f v -> over_line g v.
Proof. intros H. apply is_RInt_gen_ext. apply filter_forall. intros ab x _. apply H. Qed.

Lemma over_line_plus f g u v : over_line f u -> over_line g v -> over_line (fun x => f x + g x) (u + v).
Proof. intros A B. exact (is_RInt_gen_plus (V := R_NormedModule) f g u v A B). Qed.

Lemma over_line_scal k f u : over_line f u -> over_line (fun x => k * f x) (k * u).
Proof. intros A. exact (is_RInt_gen_scal (V := R_NormedModule) f k u A). Qed.

Lemma over_line_prim (f G : R -> R) (lm lp : R) : (forall x, is_derive G x (f x)) -> (forall x, continuous f x) ->
  is_lim G m_infty lm -> is_lim G p_infty lp -> over_line f (lp - lm).
Proof.
  intros D C Lm Lp. apply over_line_ext with (f := Derive G).
  { intros x. apply is_derive_unique. apply D. }
  apply (is_RInt_gen_Derive G lm lp).
  - apply filter_forall. intros ab x _. exists (f x). apply D.
  - apply filter_forall. intros ab x _. apply continuous_ext with (f := f); [| apply C].
    intros y. symmetry. apply is_derive_unique. apply D.
  - exact Lm.
  - exact Lp.
Qed.

(** ** The Gauss integral *)
Definition gauss (t : R) : R := exp (- t ^ 2).
Definition G0 (x : R) : R := RInt gauss 0 x.

Lemma gauss_continuous x : continuous gauss x.
Proof. apply (ex_derive_continuous gauss). unfold gauss. auto_derive. exact I. Qed.

Lemma gauss_int a b : ex_RInt gauss a b.
Proof. apply (ex_RInt_continuous (V := R_CompleteNormedModule)). intros. apply gauss_continuous. Qed.

Lemma G0_derive x : is_derive G0 x (gauss x).
Proof.
  apply (is_derive_RInt (V := R_NormedModule) gauss G0 0 x).
  - apply filter_forall. intros y. apply (RInt_correct (V := R_CompleteNormedModule)). apply gauss_int.
  - apply gauss_continuous.
Qed.

Definition K (x t : R) : R := exp (- x ^ 2 * (1 + t ^ 2)) / (1 + t ^ 2).
Definition B0 (x : R) : R := RInt (K x) 0 1.

Lemma pos1 t : 0 < 1 + t ^ 2. Proof. nra. Qed.

Lemma K_int x a b : ex_RInt (K x) a b.
Proof.
  apply (ex_RInt_continuous (V := R_CompleteNormedModule)). intros t _. apply (ex_derive_continuous (K x)).
  unfold K. auto_derive. pose proof (pos1 t). nra.
Qed.

Lemma K_derive x t : is_derive (fun u => K u t) x (- 2 * x * exp (- x ^ 2 * (1 + t ^ 2))).
Proof. unfold K. auto_derive; [pose proof (pos1 t); nra |]. pose proof (pos1 t). simpl. field. nra. Qed.

Lemma B0_derive x : is_derive B0 x (- 2 * gauss x * G0 x).
Proof.
  assert (D := is_derive_RInt_param K 0 1 x).
  assert (E : RInt (fun t => Derive (fun u => K u t) x) 0 1 = - 2 * gauss x * G0 x).
  { transitivity (RInt (fun t => scal (- 2 * gauss x) (x * gauss (x * t + 0))) 0 1).
    - apply RInt_ext. intros t _. replace (Derive (fun u : R => K u t) x) with (- 2 * x * exp (- x ^ 2 * (1 + t ^ 2))) by (symmetry; apply is_derive_unique; apply K_derive). unfold gauss, scal; simpl. unfold mult; simpl.
      rewrite Rplus_0_r.
      replace (- (x * (x * 1)) * (1 + t * (t * 1))) with (- (x * (x * 1)) + - (x * t * (x * t * 1))) by ring.
      rewrite exp_plus. ring.
    - rewrite (RInt_scal (V := R_CompleteNormedModule)).
      + unfold scal; simpl; unfold mult; simpl. f_equal. unfold G0.
        assert (C := RInt_comp_lin (V := R_CompleteNormedModule) gauss x 0 0 1). cbv [scal] in C; simpl in C; cbv [mult] in C; simpl in C.
        rewrite C; [f_equal; ring | apply gauss_int].
      + apply (ex_RInt_continuous (V := R_CompleteNormedModule)). intros t _.
        apply (ex_derive_continuous (fun t => x * gauss (x * t + 0))). unfold gauss. auto_derive. exact I. }
  rewrite <- E. apply D.
  - apply filter_forall. intros y t _. eexists. apply K_derive.
  - intros t _. apply continuity_2d_pt_ext with (f := fun u v => - 2 * u * exp (- u ^ 2 * (1 + v ^ 2))).
    { intros u v. symmetry. apply is_derive_unique. apply K_derive. }
    apply continuity_2d_pt_mult.
    + apply continuity_2d_pt_mult; [apply continuity_2d_pt_const | apply continuity_2d_pt_id1].
    + apply (continuity_1d_2d_pt_comp exp (fun u v => - u ^ 2 * (1 + v ^ 2))).
      * apply derivable_continuous_pt, derivable_pt_exp.
      * apply continuity_2d_pt_mult.
        -- apply continuity_2d_pt_opp. simpl.
           apply continuity_2d_pt_mult; [apply continuity_2d_pt_id1 |].
           apply continuity_2d_pt_mult; [apply continuity_2d_pt_id1 | apply continuity_2d_pt_const].
        -- apply continuity_2d_pt_plus; [apply continuity_2d_pt_const |]. simpl.
           apply continuity_2d_pt_mult; [apply continuity_2d_pt_id2 |].
           apply continuity_2d_pt_mult; [apply continuity_2d_pt_id2 | apply continuity_2d_pt_const].
  - apply filter_forall. intros y. apply K_int.
Qed.

Lemma B0_zero : B0 0 = PI / 4.
Proof.
  unfold B0. rewrite <- atan_1.
  assert (H : is_RInt (fun t => / (1 + t ^ 2)) 0 1 (atan 1 - atan 0)).
  { apply (is_RInt_derive (V := R_CompleteNormedModule) atan).
    - intros t _. apply is_derive_Reals. apply derivable_pt_lim_atan.
    - intros t _. apply (ex_derive_continuous (fun t => / (1 + t ^ 2))). auto_derive. pose proof (pos1 t). nra. }
  rewrite atan_0, Rminus_0_r in H.
  apply is_RInt_unique. apply (is_RInt_ext (V := R_NormedModule) (fun t => / (1 + t ^ 2))); [| exact H].
  intros t _. unfold K. replace (- 0 ^ 2 * (1 + t ^ 2)) with 0 by ring. rewrite exp_0. unfold Rdiv. symmetry. apply Rmult_1_l.
Qed.

Lemma AB x : G0 x ^ 2 + B0 x = PI / 4.
Proof.
  assert (H : forall y, is_derive (fun x => G0 x ^ 2 + B0 x) y 0).
  { intros y. evar_last.
    - apply (is_derive_plus (fun x => G0 x ^ 2) B0 y); [| apply B0_derive].
      apply (is_derive_pow G0 2 y). apply G0_derive.
    - simpl. unfold plus; simpl. ring. }
  destruct (Req_dec x 0) as [-> | Nz].
  { rewrite B0_zero. unfold G0. rewrite RInt_point. unfold zero; simpl. ring. }
  destruct (MVT_gen (fun x => G0 x ^ 2 + B0 x) 0 x (fun _ => 0)) as [c [_ Hc]].
  - intros; apply H.
  - intros y _. apply continuity_pt_filterlim. apply (ex_derive_continuous (fun x => G0 x ^ 2 + B0 x)). eexists; apply H.
  - rewrite Rmult_0_l in Hc. assert (E0 : G0 0 = 0) by (unfold G0; rewrite RInt_point; reflexivity).
    rewrite E0, B0_zero in Hc. simpl in Hc. simpl. lra.
Qed.

Lemma B0_bounds x : 0 <= B0 x <= exp (- x ^ 2).
Proof.
  split.
  - replace 0 with (RInt (fun _ => 0) 0 1) by (rewrite RInt_const; unfold scal; simpl; unfold mult; simpl; ring).
    apply RInt_le; [lra | apply ex_RInt_const | apply K_int |].
    intros t _. unfold K. apply Rlt_le, Rdiv_lt_0_compat; [apply exp_pos | apply pos1].
  - replace (exp (- x ^ 2)) with (RInt (fun _ => exp (- x ^ 2)) 0 1) by (rewrite RInt_const; unfold scal; simpl; unfold mult; simpl; ring).
    apply RInt_le; [lra | apply K_int | apply ex_RInt_const |].
    intros t _. unfold K. apply Rle_trans with (exp (- x ^ 2) / 1).
    2: right; field.
    unfold Rdiv. apply Rmult_le_compat; [left; apply exp_pos | left; apply Rinv_0_lt_compat, pos1 | | apply Rinv_le_contravar; nra].
    destruct (Req_dec (- x ^ 2 * (1 + t ^ 2)) (- x ^ 2)) as [-> | N]; [lra |]. left. apply exp_increasing.
    assert (0 <= x ^ 2 * t ^ 2) by (apply Rmult_le_pos; apply pow2_ge_0). lra.
Qed.

Lemma G0_pos x : 0 <= x -> 0 <= G0 x.
Proof.
  intros H. unfold G0. apply RInt_ge_0; [exact H | apply gauss_int |]. intros; left; apply exp_pos.
Qed.

Lemma G0_odd x : G0 (- x) = - G0 x.
Proof.
  unfold G0. assert (C := RInt_comp_lin (V := R_CompleteNormedModule) gauss (-1) 0 0 x (gauss_int _ _)).
  replace (-1 * 0 + 0) with 0 in C by ring. replace (-1 * x + 0) with (- x) in C by ring. rewrite <- C.
  rewrite (RInt_scal (V := R_CompleteNormedModule)).
  - unfold scal; simpl; unfold mult; simpl. rewrite (RInt_ext (fun y => gauss (-1 * y + 0)) gauss).
    + ring.
    + intros t _. unfold gauss. f_equal. ring.
  - apply (ex_RInt_continuous (V := R_CompleteNormedModule)). intros t _.
    apply (ex_derive_continuous (fun y => gauss (-1 * y + 0))). unfold gauss. auto_derive. exact I.
Qed.

Lemma lim_gauss_p : is_lim (fun x => exp (- x ^ 2)) p_infty 0.
Proof.
  apply (is_lim_comp exp (fun x => - x ^ 2) p_infty 0 m_infty).
  - apply is_lim_exp_m.
  - replace m_infty with (Rbar_opp p_infty) by reflexivity. apply (is_lim_opp (fun x => x ^ 2)).
    apply is_lim_spec. intros M. exists (Rabs M + 1). intros x Hx. pose proof (Rle_abs M). pose proof (Rabs_pos M). nra.
  - exists 0. intros; discriminate.
Qed.

Lemma G0_lim_p : is_lim G0 p_infty (sqrt PI / 2).
Proof.
  apply is_lim_ext_loc with (f := fun x => sqrt (PI / 4 - B0 x)).
  { exists 0. intros x Hx. rewrite <- (AB x). replace (G0 x ^ 2 + B0 x - B0 x) with (G0 x * G0 x) by ring. apply sqrt_square, G0_pos. lra. }
  assert (S : sqrt PI / 2 = sqrt (PI / 4)).
  { rewrite sqrt_div_alt by lra. replace 4 with (2 * 2) by ring. rewrite sqrt_square by lra. reflexivity. }
  rewrite S.
  assert (L : is_lim (fun x => PI / 4 - B0 x) p_infty (PI / 4)).
  { evar_last.
    - apply (is_lim_minus (fun _ => PI / 4) B0 p_infty (PI / 4) 0 (PI / 4)).
      + apply is_lim_const.
      + apply (is_lim_le_le_loc (fun _ => 0) (fun x => exp (- x ^ 2))).
        * exists 0. intros x _. apply B0_bounds.
        * apply is_lim_const.
        * apply lim_gauss_p.
      + unfold is_Rbar_minus, is_Rbar_plus; simpl. f_equal. f_equal. ring.
    - reflexivity. }
  apply (is_lim_comp_continuous (fun x => PI / 4 - B0 x) sqrt p_infty (PI / 4)); [exact L |].
  apply continuity_pt_filterlim. apply continuity_pt_sqrt. pose proof PI_RGT_0. lra.
Qed.

Lemma G0_lim_m : is_lim G0 m_infty (- (sqrt PI / 2)).
Proof.
  apply is_lim_ext with (f := fun x => - G0 (- x)).
  { intros x. rewrite G0_odd. ring. }
  change (Finite (- (sqrt PI / 2))) with (Rbar_opp (sqrt PI / 2)). apply is_lim_opp.
  apply (is_lim_comp G0 (fun x => - x) m_infty (sqrt PI / 2) p_infty).
  - apply G0_lim_p.
  - replace p_infty with (Rbar_opp m_infty) by reflexivity. apply (is_lim_opp (fun x => x)). apply is_lim_id.
  - exists 0. intros; discriminate.
Qed.

Theorem gauss_integral : over_line gauss (sqrt PI).
Proof.
  replace (sqrt PI) with (sqrt PI / 2 - - (sqrt PI / 2)) by field.
  apply (over_line_prim gauss G0); [apply G0_derive | apply gauss_continuous | apply G0_lim_m | apply G0_lim_p].
Qed.

(** ** Shifted and scaled Gaussians *)
Lemma lim_gauss_m : is_lim gauss m_infty 0.
Proof.
  apply is_lim_ext with (f := fun x => gauss (- x)).
  { intros x. unfold gauss. f_equal. ring. }
  apply (is_lim_comp gauss (fun x => - x) m_infty 0 p_infty).
  - apply lim_gauss_p.
  - replace p_infty with (Rbar_opp m_infty) by reflexivity. apply (is_lim_opp (fun x => x)). apply is_lim_id.
  - exists 0. intros; discriminate.
Qed.

Lemma lim_xgauss_p : is_lim (fun x => x * gauss x) p_infty 0.
Proof.
  apply (is_lim_le_le_loc (fun _ => 0) (fun x => / x)).
  - exists 0. intros x Hx. split.
    + apply Rmult_le_pos; [lra | left; apply exp_pos].
    + unfold gauss. rewrite exp_Ropp. apply Rle_trans with (x * / (x * x)).
      * apply Rmult_le_compat_l; [lra |]. apply Rinv_le_contravar; [nra |].
        pose proof (exp_ineq1_le (x ^ 2)). simpl in *. lra.
      * right. field. lra.
  - apply is_lim_const.
  - apply (is_lim_inv (fun x => x) p_infty p_infty); [apply is_lim_id | discriminate].
Qed.

Lemma lim_xgauss_m : is_lim (fun x => x * gauss x) m_infty 0.
Proof.
  apply is_lim_ext with (f := fun x => - ((- x) * gauss (- x))).
  { intros x. unfold gauss. replace ((- x) ^ 2) with (x ^ 2) by ring. ring. }
  replace (Finite 0) with (Rbar_opp (Finite 0)) by (simpl; f_equal; ring). apply is_lim_opp.
  apply (is_lim_comp (fun x => x * gauss x) (fun x => - x) m_infty 0 p_infty).
  - apply lim_xgauss_p.
  - replace p_infty with (Rbar_opp m_infty) by reflexivity. apply (is_lim_opp (fun x => x)). apply is_lim_id.
  - exists 0. intros; discriminate.
Qed.

Lemma lim_affine_p f k c l : 0 < k -> is_lim f p_infty (Finite l) -> is_lim (fun m => f (k * (m - c))) p_infty l.
Proof.
  intros Hk H. apply (is_lim_comp f (fun m => k * (m - c)) p_infty l p_infty); [exact H | |].
  - apply is_lim_spec. intros M. exists (M / k + c). intros x Hx.
    apply Rmult_lt_reg_l with (/ k); [apply Rinv_0_lt_compat; exact Hk |].
    replace (/ k * (k * (x - c))) with (x - c) by (field; lra). unfold Rdiv in Hx. lra.
  - exists 0. intros; discriminate.
Qed.

Lemma lim_affine_m f k c l : 0 < k -> is_lim f m_infty (Finite l) -> is_lim (fun m => f (k * (m - c))) m_infty l.
Proof.
  intros Hk H. apply (is_lim_comp f (fun m => k * (m - c)) m_infty l m_infty); [exact H | |].
  - apply is_lim_spec. intros M. exists (M / k + c). intros x Hx.
    apply Rmult_lt_reg_l with (/ k); [apply Rinv_0_lt_compat; exact Hk |].
    replace (/ k * (k * (x - c))) with (x - c) by (field; lra). unfold Rdiv in Hx. lra.
  - exists 0. intros; discriminate.
Qed.

Section Moments.
Variables a c : R.
Hypothesis Ha : 0 < a.
Let k := sqrt a.
Lemma kpos : 0 < k. Proof. apply sqrt_lt_R0. exact Ha. Qed.
Lemma ksq : k * k = a. Proof. apply sqrt_sqrt. lra. Qed.
Definition bell (m : R) : R := exp (- a * (m - c) ^ 2).
Lemma bell_gauss m : bell m = gauss (k * (m - c)).
Proof. unfold bell, gauss. f_equal. simpl. rewrite <- ksq at 1. ring. Qed.

Lemma bell_derive m : is_derive bell m (- 2 * a * (m - c) * bell m).
Proof.
  unfold bell. evar_last.
  - apply (is_derive_comp exp (fun m => - a * (m - c) ^ 2) m).
    + apply is_derive_exp.
    + auto_derive; [exact I | reflexivity].
  - unfold scal; simpl; unfold mult; simpl. ring.
Qed.
Lemma bell_ex m : ex_derive bell m.
Proof. eexists. apply bell_derive. Qed.

Lemma bell0 : over_line bell (sqrt (PI / a)).
Proof.
  pose proof kpos as Kp.
  replace (sqrt (PI / a)) with (sqrt PI / 2 * / k - (- (sqrt PI / 2)) * / k).
  2:{ rewrite sqrt_div_alt by exact Ha. fold k. field. lra. }
  apply (over_line_prim bell (fun m => G0 (k * (m - c)) * / k)).
  - intros m. rewrite bell_gauss. evar_last.
    + apply (is_derive_scal_l (fun m => G0 (k * (m - c))) m (k * gauss (k * (m - c))) (/ k)).
      apply (is_derive_comp G0 (fun m => k * (m - c)) m); [apply G0_derive |].
      auto_derive; [exact I | ring].
    + unfold scal; simpl; unfold mult; simpl. field. lra.
  - intros m. apply (ex_derive_continuous bell). unfold bell. auto_derive. exact I.
  - apply (is_lim_scal_r (fun m => G0 (k * (m - c))) (/ k) m_infty (- (sqrt PI / 2))). apply lim_affine_m; [exact Kp | apply G0_lim_m].
  - apply (is_lim_scal_r (fun m => G0 (k * (m - c))) (/ k) p_infty (sqrt PI / 2)). apply lim_affine_p; [exact Kp | apply G0_lim_p].
Qed.

Lemma bell1 : over_line (fun m => (m - c) * bell m) 0.
Proof.
  pose proof kpos as Kp.
  replace 0 with (0 * (- / (2 * a)) - 0 * (- / (2 * a))) by ring.
  apply (over_line_prim _ (fun m => gauss (k * (m - c)) * (- / (2 * a)))).
  - intros m. apply (is_derive_ext (fun m => bell m * (- / (2 * a)))). { intros t. rewrite bell_gauss. reflexivity. }
    evar_last; [apply (is_derive_scal_l bell m (- 2 * a * (m - c) * bell m) (- / (2 * a))); apply bell_derive |].
    unfold scal; simpl; unfold mult; simpl. field. lra.
  - intros m. apply (ex_derive_continuous (fun m => (m - c) * bell m)). unfold bell. auto_derive. exact I.
  - apply (is_lim_scal_r (fun m => gauss (k * (m - c))) (- / (2 * a)) m_infty 0). apply lim_affine_m; [exact Kp | apply lim_gauss_m].
  - apply (is_lim_scal_r (fun m => gauss (k * (m - c))) (- / (2 * a)) p_infty 0). apply lim_affine_p; [exact Kp | apply lim_gauss_p].
Qed.

Lemma bell2 : over_line (fun m => (m - c) ^ 2 * bell m) (/ (2 * a) * sqrt (PI / a)).
Proof.
  pose proof kpos as Kp.
  assert (H : over_line (fun m => bell m - 2 * a * ((m - c) ^ 2 * bell m)) (0 * / k - 0 * / k)).
  { apply (over_line_prim _ (fun m => (k * (m - c)) * gauss (k * (m - c)) * / k)).
    - intros m. apply (is_derive_ext (fun m => (m - c) * bell m)). { intros t. rewrite bell_gauss. change (((t - c) * gauss (k * (t - c))) = k * (t - c) * gauss (k * (t - c)) * / k :> R). field. lra. }
      evar_last; [apply (is_derive_mult (fun m => m - c) bell m 1 (- 2 * a * (m - c) * bell m)); [auto_derive; [exact I | ring] | apply bell_derive | intros; apply Rmult_comm] |].
      unfold plus, mult; simpl. ring.
    - intros m. apply (ex_derive_continuous (fun m => bell m - 2 * a * ((m - c) ^ 2 * bell m))). unfold bell. auto_derive. exact I.
    - apply (is_lim_scal_r (fun m => (k * (m - c)) * gauss (k * (m - c))) (/ k) m_infty 0). apply (lim_affine_m (fun x => x * gauss x)); [exact Kp | apply lim_xgauss_m].
    - apply (is_lim_scal_r (fun m => (k * (m - c)) * gauss (k * (m - c))) (/ k) p_infty 0). apply (lim_affine_p (fun x => x * gauss x)); [exact Kp | apply lim_xgauss_p]. }
  assert (H2 := over_line_scal (/ (2 * a)) _ _ (over_line_plus _ _ _ _ bell0 (over_line_scal (-1) _ _ H))).
  replace (/ (2 * a) * sqrt (PI / a)) with (/ (2 * a) * (sqrt (PI / a) + -1 * (0 * / k - 0 * / k))) by ring.
  eapply over_line_ext; [| exact H2]. intros m. cbv beta. field. lra.
Qed.

(** The mean of any polynomial of second degree under a Gaussian. *)
Lemma bell_poly u v w : over_line (fun m => (u + v * m + w * m ^ 2) * (/ sqrt (PI / a) * bell m)) (u + v * c + w * (c ^ 2 + / (2 * a))).
Proof.
  assert (Hs : 0 < sqrt (PI / a)) by (apply sqrt_lt_R0, Rdiv_lt_0_compat; [apply PI_RGT_0 | exact Ha]).
  assert (H := over_line_scal (/ sqrt (PI / a)) _ _
    (over_line_plus _ _ _ _ (over_line_scal (u + v * c + w * c ^ 2) _ _ bell0)
      (over_line_plus _ _ _ _ (over_line_scal (v + 2 * w * c) _ _ bell1) (over_line_scal w _ _ bell2)))).
  replace (u + v * c + w * (c ^ 2 + / (2 * a))) with
    (/ sqrt (PI / a) * ((u + v * c + w * c ^ 2) * sqrt (PI / a) + ((v + 2 * w * c) * 0 + w * (/ (2 * a) * sqrt (PI / a))))) by (field; lra).
  eapply over_line_ext; [| exact H]. intros m. cbv beta. ring.
Qed.
End Moments.
