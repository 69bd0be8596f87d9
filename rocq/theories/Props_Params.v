(** * Property theorems C08-C10: parameter vectors, matrices and bases. *)
From Verif Require Import Prelude Spec PreludeFacts M_Index M_Energy M_Params P_Index P_Unravel P_Energy P_Energy2 P_Params P_Unique P_Convert.
Import ListNotations.
Local Open Scope R_scope.

(** ** C08 *)
(** Entries of the matrix: fields on the diagonal, x[n + position of (i,j)] off it. *)
Theorem C08_vec2mat_entries : forall (n : nat) (x : list R),
  (1 <= n)%nat -> length x = (n + n * (n - 1) / 2)%nat ->
  exists A, vec2mat x = Ok A /\ length A = n /\ (forall r, In r A -> length r = n) /\
    (forall i, (i < n)%nat -> entry A i i = nthR x i) /\
    (forall i j, (i < j)%nat -> (j < n)%nat ->
       entry A i j = nthR x (n + pair_index n i j)%nat /\ entry A j i = entry A i j).
Proof.
  intros n x Hn Hx. eexists. split; [apply (vec2mat_ok n x Hn Hx)|].
  split; [apply mk_mat_length|]. split; [|split].
  - intros r Hr. unfold mk_mat in Hr. apply in_map_iff in Hr. destruct Hr as (i & <- & _).
    now rewrite map_length, seq_length.
  - intros i Hi. rewrite entry_mk_mat by assumption. unfold hJmat. now rewrite Nat.eqb_refl.
  - intros i j Hij Hj. rewrite !entry_mk_mat by lia. split; [|apply hJmat_sym].
    unfold hJmat, coupling. destruct (Nat.eqb_spec i j); [lia|]. destruct (Nat.ltb_spec i j); [reflexivity|lia].
Qed.
Print Assumptions C08_vec2mat_entries.

(** The position used by vec2mat is the one sub_to_ind computes. *)
Theorem C08_position_is_sub_to_ind : forall (n i j : nat), (i < j)%nat -> (j < n)%nat ->
  sub_to_ind (Z.of_nat n) (Z.of_nat i) (Z.of_nat j) = Ok (Z.of_nat (pair_index n i j)).
Proof. intros. now apply pair_index_sub_to_ind. Qed.
Print Assumptions C08_position_is_sub_to_ind.

Theorem C08_mat2vec_vec2mat : forall (n : nat) (x : list R),
  (1 <= n)%nat -> length x = (n + n * (n - 1) / 2)%nat ->
  bind (vec2mat x) mat2vec = Ok x.
Proof. intros n x Hn Hx. rewrite (vec2mat_ok n) by assumption. now apply (mat2vec_vec2mat n). Qed.
Print Assumptions C08_mat2vec_vec2mat.

Theorem C08_vec2mat_mat2vec : forall (n : nat) (A : list (list R)),
  (1 <= n)%nat -> length A = n -> (forall r, In r A -> length r = n) ->
  (forall i j, (i < n)%nat -> (j < n)%nat -> entry A i j = entry A j i) ->
  bind (mat2vec A) vec2mat = Ok A.
Proof.
  intros n A Hn HA Hr Hs.
  assert (E : A = mk_mat n n (entry A)).
  { rewrite <- HA. apply square_as_mk_mat. apply is_square_spec. intros i Hi. rewrite HA. apply Hr, nth_In, Hi. }
  rewrite E. rewrite mat2vec_ok by assumption. cbn [bind]. apply vec2mat_mat2vec; assumption.
Qed.
Print Assumptions C08_vec2mat_mat2vec.

Theorem C08_separate_fields : forall (n : nat) (x : list R),
  (1 <= n)%nat -> length x = (n + n * (n - 1) / 2)%nat ->
  exists A, vec2mat_separate x = Ok (firstn n x, A) /\ length A = n /\
    (forall i, (i < n)%nat -> entry A i i = 0) /\
    (forall i j, (i < j)%nat -> (j < n)%nat ->
       entry A i j = nthR x (n + pair_index n i j)%nat /\ entry A j i = entry A i j).
Proof.
  intros n x Hn Hx. eexists. split; [apply (vec2mat_separate_ok n x Hn Hx)|].
  split; [apply mk_mat_length|]. split.
  - intros i Hi. rewrite entry_mk_mat by assumption. now rewrite Nat.eqb_refl.
  - intros i j Hij Hj. rewrite !entry_mk_mat by lia. unfold coupling.
    destruct (Nat.eqb_spec i j), (Nat.eqb_spec j i), (Nat.ltb_spec i j), (Nat.ltb_spec j i); try lia. split; reflexivity.
Qed.
Print Assumptions C08_separate_fields.

(** Malformed input is rejected: asymmetric matrices, and vectors of impossible length. *)
Theorem C08_asymmetric_raises : forall (n : nat) (A : list (list R)) (i j : nat),
  length A = n -> (forall r, In r A -> length r = n) -> (i < n)%nat -> (j < n)%nat ->
  entry A i j <> entry A j i -> mat2vec A = Err ValueError.
Proof.
  intros n A i j HA Hr Hi Hj Hne.
  assert (E : A = mk_mat n n (entry A)).
  { rewrite <- HA. apply square_as_mk_mat. apply is_square_spec. intros k Hk. rewrite HA. apply Hr, nth_In, Hk. }
  rewrite E. now apply (mat2vec_asymmetric n (entry A) i j).
Qed.
Print Assumptions C08_asymmetric_raises.

Theorem C08_bad_length_raises : forall x : list R,
  (forall n, (1 <= n)%nat -> length x <> (n + n * (n - 1) / 2)%nat) ->
  forall A, vec2mat x <> Ok A.
Proof. intros x H A. destruct (vec2mat_bad_length x H) as [e ->]. discriminate. Qed.
Print Assumptions C08_bad_length_raises.

(** ... but separate_fields=True accepts lengths that fit no n: the couplings then
    describe one spin more than the fields. *)
Theorem C08_separate_bad_length_refuted : forall (n : nat) (x : list R),
  (1 <= n)%nat -> length x = (n + n * (n + 1) / 2)%nat ->
  exists h A, vec2mat_separate x = Ok (h, A) /\ length h = n /\ length A = (n + 1)%nat.
Proof. intros. now apply vec2mat_separate_bad. Qed.
Print Assumptions C08_separate_bad_length_refuted.

Example C08_example : length [1; 2; 3; 4; 5; 6] = (3 + 3 * (3 - 1) / 2)%nat /\
  nthR [1; 2; 3; 4; 5; 6] (3 + pair_index 3 0 2) = 5.
Proof. split; reflexivity. Qed.

Example C08_example_bad : forall n, (1 <= n)%nat -> length [1; 2; 3; 4] <> (n + n * (n - 1) / 2)%nat.
Proof.
  intros n Hn. pose proof (two_tri n). cbn [length]. intros E.
  destruct n as [|[|[|[|n]]]]; try lia; cbn in *; try lia.
Qed.

(** ** C09 *)
(** Conversion to {0,1}: same energy at (s+1)/2 up to a constant, for every real
    vector s (in particular every spin state). *)
Theorem C09_to_01 : forall (h J : list R), let n := length h in
  (1 <= n)%nat -> length J = (n * (n - 1) / 2)%nat ->
  exists h' J', convert_params h J To01 = Ok (h', J') /\ length h' = n /\ length J' = length J /\
    exists c, forall s, length s = n ->
      ising_energy n (h' ++ J') (map (fun y => (y + 1) / 2) s) = ising_energy n (h ++ J) s + c.
Proof.
  intros h J n Hn HJ. rewrite convert_params_ok by assumption. fold n.
  eexists _, _. split; [reflexivity|]. rewrite !map_length, seq_length. split; [reflexivity|]. split; [reflexivity|].
  eexists. intros s Hs.
  rewrite <- (energy_affine n h J 2 (-1) (map (fun y => (y + 1) / 2) s) s eq_refl HJ).
  - f_equal. f_equal; apply map_ext; intros; ring.
  - intros i Hi. unfold nthR. rewrite (nth_indep (map _ s) 0 ((fun y => (y + 1) / 2) 0)) by (rewrite map_length; lia).
    rewrite (map_nth (fun y => (y + 1) / 2)). lra.
Qed.
Print Assumptions C09_to_01.

Theorem C09_to_11 : forall (h J : list R), let n := length h in
  (1 <= n)%nat -> length J = (n * (n - 1) / 2)%nat ->
  exists h' J', convert_params h J To11 = Ok (h', J') /\ length h' = n /\ length J' = length J /\
    exists c, forall s, length s = n ->
      ising_energy n (h' ++ J') (map (fun y => 2 * y - 1) s) = ising_energy n (h ++ J) s + c.
Proof.
  intros h J n Hn HJ. rewrite convert_params_ok by assumption. fold n.
  eexists _, _. split; [reflexivity|]. rewrite !map_length, seq_length. split; [reflexivity|]. split; [reflexivity|].
  eexists. intros s Hs.
  rewrite <- (energy_affine n h J (/ 2) (/ 2) (map (fun y => 2 * y - 1) s) s eq_refl HJ).
  - f_equal. f_equal; apply map_ext; intros; field.
  - intros i Hi. unfold nthR. rewrite (nth_indep (map _ s) 0 ((fun y => 2 * y - 1) 0)) by (rewrite map_length; lia).
    rewrite (map_nth (fun y => 2 * y - 1)). lra.
Qed.
Print Assumptions C09_to_11.

(** Boltzmann probabilities agree state by state, both directions. *)
Theorem C09_probabilities_to_01 : forall (h J h' J' : list R), let n := length h in
  (1 <= n)%nat -> length J = (n * (n - 1) / 2)%nat ->
  convert_params h J To01 = Ok (h', J') ->
  forall s, In s (all_states [-1; 1] n) ->
  boltzmann (ising_energy n (h' ++ J')) (all_states [0; 1] n) (map (fun y => (y + 1) / 2) s) =
  boltzmann (ising_energy n (h ++ J)) (all_states [-1; 1] n) s.
Proof.
  intros h J h' J' n Hn HJ E s Hs.
  destruct (C09_to_01 h J Hn HJ) as (h2 & J2 & E2 & _ & _ & c & Hc). rewrite E in E2. injection E2 as <- <-.
  replace [0; 1] with (map (fun y => (y + 1) / 2) [-1; 1]) by (cbn [map]; f_equal; [field|f_equal; field]).
  rewrite all_states_map. apply (boltzmann_relabel _ _ _ c); [|assumption].
  intros t Ht. apply Hc. now apply all_states_spec in Ht.
Qed.
Print Assumptions C09_probabilities_to_01.

Theorem C09_probabilities_to_11 : forall (h J h' J' : list R), let n := length h in
  (1 <= n)%nat -> length J = (n * (n - 1) / 2)%nat ->
  convert_params h J To11 = Ok (h', J') ->
  forall s, In s (all_states [0; 1] n) ->
  boltzmann (ising_energy n (h' ++ J')) (all_states [-1; 1] n) (map (fun y => 2 * y - 1) s) =
  boltzmann (ising_energy n (h ++ J)) (all_states [0; 1] n) s.
Proof.
  intros h J h' J' n Hn HJ E s Hs.
  destruct (C09_to_11 h J Hn HJ) as (h2 & J2 & E2 & _ & _ & c & Hc). rewrite E in E2. injection E2 as <- <-.
  replace [-1; 1] with (map (fun y => 2 * y - 1) [0; 1]) by (cbn [map]; f_equal; [field|f_equal; field]).
  rewrite all_states_map. apply (boltzmann_relabel _ _ _ c); [|assumption].
  intros t Ht. apply Hc. now apply all_states_spec in Ht.
Qed.
Print Assumptions C09_probabilities_to_11.

(** The two conversions are inverse of each other. *)
Theorem C09_inverse : forall (h J : list R), let n := length h in
  (1 <= n)%nat -> length J = (n * (n - 1) / 2)%nat ->
  bind (convert_params h J To01) (fun p => convert_params (fst p) (snd p) To11) = Ok (h, J) /\
  bind (convert_params h J To11) (fun p => convert_params (fst p) (snd p) To01) = Ok (h, J).
Proof.
  intros h J n Hn HJ. rewrite !(convert_params_ok h J) by assumption. cbn [bind fst snd]. fold n.
  rewrite !convert_params_ok; rewrite ?map_length, ?seq_length; try assumption.
  assert (RS : forall (f : R -> R) i, (forall x y, f (x + y) = f x + f y) -> f 0 = 0 -> rowsum n (map f J) i = f (rowsum n J i)).
  { intros f i Hf H0. unfold rowsum. induction (seq 0 n) as [|j l IH]; [symmetry; exact H0|].
    rewrite !sumf_cons, IH, Hf, symmat_map by assumption. reflexivity. }
  assert (HH : map (fun i => nthR h i) (seq 0 n) = h) by (symmetry; apply (list_as_map 0 h)).
  split; f_equal; f_equal.
  - transitivity (map (fun i => nthR h i) (seq 0 n)); [|exact HH]. apply map_ext_in. intros i Hi. apply in_seq in Hi. rewrite nthR_map_seq by lia.
    rewrite RS; [field|intros; ring|ring].
  - transitivity (map (fun x => x) J); [rewrite map_map; apply map_ext; intros; field|apply map_id].
  - transitivity (map (fun i => nthR h i) (seq 0 n)); [|exact HH]. apply map_ext_in. intros i Hi. apply in_seq in Hi. rewrite nthR_map_seq by lia.
    rewrite RS; [field|intros; field|field].
  - transitivity (map (fun x => x) J); [rewrite map_map; apply map_ext; intros; field|apply map_id].
Qed.
Print Assumptions C09_inverse.

(** Couplings may be given as a symmetric zero-diagonal matrix. *)
Theorem C09_matrix_form : forall (h J : list R) (b : basis) (A : list (list R)), let n := length h in
  (1 <= n)%nat -> length J = (n * (n - 1) / 2)%nat -> squareform_vec J = Ok A ->
  convert_params_mat h A b = convert_params h J b.
Proof.
  intros h J b A n Hn HJ HA. unfold convert_params_mat, convert_params. rewrite HA. cbn [bind].
  rewrite (squareform_vec_ok n) in HA by assumption. injection HA as <-.
  rewrite squareform_mat_ok; [|intros; apply symmat_sym|intros; apply symmat_diag].
  cbn [bind]. rewrite symmat_pairs by assumption. reflexivity.
Qed.
Print Assumptions C09_matrix_form.

Theorem C09_unknown_basis_raises : forall h J r, convert_params h J ToOther <> Ok r.
Proof.
  intros h J r. unfold convert_params, bind, convert_params_core.
  destruct (squareform_vec J); [|discriminate]. destruct (negb _); discriminate.
Qed.
Print Assumptions C09_unknown_basis_raises.

Example C09_example : let h := [1; 2; 3] in let J := [4; 5; 6] in
  (1 <= length h)%nat /\ length J = (length h * (length h - 1) / 2)%nat /\ In [-1; 1; -1] (all_states [-1; 1] 3).
Proof. cbv zeta. split; [cbn; lia|]. split; [reflexivity|]. cbn. tauto. Qed.

(** ** C10 *)
Theorem C10_to_01 : forall (n : nat) (ps : list (list R)),
  ps <> [] -> (forall k, (k < length ps)%nat -> length (nth k ps []) = binom n (S k)) ->
  exists ps', ising_convert_params ps To01 = Ok ps' /\ length ps' = length ps /\
    (forall k, (k < length ps)%nat -> length (nth k ps' []) = binom n (S k)) /\
    exists c, forall s, length s = n ->
      multi_energy ps' (map (fun y => (y + 1) / 2) s) = multi_energy ps s + c.
Proof.
  intros n ps H0 Hl. destruct (convert_any n ps To01 (conj H0 Hl) ltac:(discriminate)) as (ps' & E & L & Hl' & c & Hc).
  exists ps'. split; [exact E|]. split; [exact L|]. split; [now rewrite <- L|]. exists c. intros s Hs.
  rewrite Hc by (now rewrite map_length). rewrite map_map. f_equal. f_equal.
  rewrite <- (map_id s) at 2. apply map_ext. intros; field.
Qed.
Print Assumptions C10_to_01.

Theorem C10_to_11 : forall (n : nat) (ps : list (list R)),
  ps <> [] -> (forall k, (k < length ps)%nat -> length (nth k ps []) = binom n (S k)) ->
  exists ps', ising_convert_params ps To11 = Ok ps' /\ length ps' = length ps /\
    (forall k, (k < length ps)%nat -> length (nth k ps' []) = binom n (S k)) /\
    exists c, forall s, length s = n ->
      multi_energy ps' (map (fun y => 2 * y - 1) s) = multi_energy ps s + c.
Proof.
  intros n ps H0 Hl. destruct (convert_any n ps To11 (conj H0 Hl) ltac:(discriminate)) as (ps' & E & L & Hl' & c & Hc).
  exists ps'. split; [exact E|]. split; [exact L|]. split; [now rewrite <- L|]. exists c. intros s Hs.
  rewrite Hc by (now rewrite map_length). rewrite map_map. f_equal. f_equal.
  rewrite <- (map_id s) at 2. apply map_ext. intros; field.
Qed.
Print Assumptions C10_to_11.

(** In the pairwise case the result is the one of convert_params. *)
Theorem C10_agrees_with_convert_params : forall (h J : list R) (b : basis), let n := length h in
  (1 <= n)%nat -> length J = (n * (n - 1) / 2)%nat -> b <> ToOther ->
  ising_convert_params [h; J] b = bind (convert_params h J b) (fun p => Ok [fst p; snd p]).
Proof.
  intros h J b n Hn HJ Hb.
  assert (B2 : binom n 2 = (n * (n - 1) / 2)%nat).
  { rewrite <- (seq_length n 0) at 1. rewrite <- combinations_length, combinations_2_pairs, map_length.
    apply pairs_seq_length. }
  assert (Hg : good_params n [h; J]).
  { split; [discriminate|]. intros [|[|k]] Hk; cbn [nth length] in *; [now rewrite binom_n_1|now rewrite B2|lia]. }
  destruct (convert_any n [h; J] b Hg Hb) as (ps' & E & L & Hl' & c & Hc). rewrite E.
  destruct ps' as [|h2 [|J2 [|]]]; try discriminate.
  pose proof (Hl' 0%nat ltac:(cbn; lia)) as L1. pose proof (Hl' 1%nat ltac:(cbn; lia)) as L2. cbn [nth] in L1, L2.
  rewrite binom_n_1 in L1. rewrite B2 in L2.
  assert (G : exists h3 J3, convert_params h J b = Ok (h3, J3) /\ length h3 = n /\ length J3 = length J /\
    exists c', forall x, length x = n -> ising_energy n (h3 ++ J3) x =
      ising_energy n (h ++ J) (map (fun y => match b with To01 => 2 * y + -1 | _ => / 2 * y + / 2 end) x) + c').
  { destruct b; [| |congruence].
    - destruct (C09_to_11 h J Hn HJ) as (h3 & J3 & E3 & A1 & A2 & c' & Hc'). exists h3, J3. repeat split; try assumption.
      exists c'. intros x Hx. rewrite <- Hc' by (now rewrite map_length). f_equal. rewrite map_map.
      rewrite <- (map_id x) at 1. apply map_ext. intros; field.
    - destruct (C09_to_01 h J Hn HJ) as (h3 & J3 & E3 & A1 & A2 & c' & Hc'). exists h3, J3. repeat split; try assumption.
      exists c'. intros x Hx. rewrite <- Hc' by (now rewrite map_length). f_equal. rewrite map_map.
      rewrite <- (map_id x) at 1. apply map_ext. intros; field. }
  destruct G as (h3 & J3 & E3 & A1 & A2 & c' & Hc'). rewrite E3. cbn [bind fst snd].
  assert (EE : h2 ++ J2 = h3 ++ J3).
  { apply (ising_energy_unique 0 1 n _ _ (c - c')); [lra|rewrite app_length; lia|rewrite app_length; lia|].
    intros s Hs. apply all_states_spec in Hs. destruct Hs as [Hs _].
    rewrite Hc' by assumption. rewrite <- (multi_energy_2 n h2 J2 s L1 L2 Hs), Hc by assumption.
    rewrite (multi_energy_2 n h J) by (rewrite ?map_length; auto). ring. }
  assert (EH : h2 = h3 /\ J2 = J3).
  { assert (Hf : firstn n (h2 ++ J2) = firstn n (h3 ++ J3)) by now rewrite EE.
    assert (Hk : skipn n (h2 ++ J2) = skipn n (h3 ++ J3)) by now rewrite EE.
    rewrite !firstn_app, !skipn_app in *. rewrite L1, A1, Nat.sub_diag in *. cbn [firstn skipn] in *.
    rewrite !app_nil_r in Hf. rewrite !firstn_all2 in Hf by lia. rewrite !skipn_all2 in Hk by lia. auto. }
  destruct EH as [-> ->]. reflexivity.
Qed.
Print Assumptions C10_agrees_with_convert_params.

(** Three spins with couplings of all three orders. *)
Example C10_example : [[1; 2; 3]; [4; 5; 6]; [7]] <> [] /\
  forall k, (k < 3)%nat -> length (nth k [[1; 2; 3]; [4; 5; 6]; [7%R]] []) = binom 3 (S k).
Proof. split; [discriminate|]. intros [|[|[|k]]] H; try reflexivity; lia. Qed.
