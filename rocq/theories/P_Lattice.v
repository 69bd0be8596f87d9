(** * Facts about the lattice simulation: periodic energy, Metropolis sweeps and block
    spins. *)
From Coq Require Import Permutation Lra.
From Coquelicot Require Import Coquelicot.
From Verif Require Import Prelude PreludeFacts Spec M_Index M_Params M_RMF M_Sampler M_Ising P_Index P_Energy P_Energy2 P_Params P_RMF P_Sampler P_Metro P_Ising.
Import ListNotations.

(** ** Shapes *)
Definition rect (d0 d1 : nat) (L : list (list Z)) : Prop := length L = d0 /\ forall r, In r L -> length r = d1.

Lemma rect_row d0 d1 L i : rect d0 d1 L -> i < d0 -> length (nth i L []) = d1.
Proof. intros [H1 H2] Hi. apply H2, nth_In. lia. Qed.

Lemma rect_dims d0 d1 L : rect d0 d1 L -> 0 < d0 -> dim0 L = d0 /\ dim1 L = d1.
Proof. intros H Hd. split; [apply H|]. unfold dim1. now apply (rect_row d0 d1). Qed.

Lemma rect_flip d0 d1 L i j : rect d0 d1 L -> i < d0 -> rect d0 d1 (flip_site L i j).
Proof.
  intros [H1 H2] Hi. split; [unfold flip_site; now rewrite upd_length|]. intros r Hr. unfold flip_site in Hr.
  destruct (In_nth _ _ [] Hr) as (k & Hk & <-). rewrite upd_length in Hk. destruct (Nat.eq_dec i k) as [->|N].
  - rewrite nth_upd_same by assumption. rewrite flip_length. apply H2, nth_In. lia.
  - rewrite nth_upd_other by assumption. apply H2, nth_In. lia.
Qed.

Lemma site_flip d0 d1 L i j a b : rect d0 d1 L -> i < d0 -> j < d1 ->
  site (flip_site L i j) a b = if (Nat.eqb a i && Nat.eqb b j)%bool then (- site L a b)%Z else site L a b.
Proof.
  intros H Hi Hj. unfold site, flip_site. destruct H as [H1 H2] eqn:HH. destruct (Nat.eqb_spec a i) as [->|N]; cbn [andb].
  - rewrite nth_upd_same by lia. unfold flip. destruct (Nat.eqb_spec b j) as [->|N].
    + rewrite nth_upd_same by (rewrite (rect_row d0 d1); [assumption|now split|assumption]). lia.
    + rewrite nth_upd_other by congruence. reflexivity.
  - rewrite nth_upd_other by congruence. reflexivity.
Qed.

Lemma flip_site_twice L i j : flip_site (flip_site L i j) i j = L.
Proof.
  unfold flip_site. destruct (Nat.lt_ge_cases i (length L)) as [H|H].
  - rewrite nth_upd_same by assumption. rewrite upd_upd, flip_flip. apply upd_same.
  - rewrite !upd_oob; rewrite ?upd_length; auto.
Qed.

Lemma pred_mod_eq i d : i < d -> pred_mod i d = if Nat.eqb i 0 then d - 1 else i - 1.
Proof.
  intros H. unfold pred_mod. destruct (Nat.eqb_spec i 0) as [->|N].
  - replace (Z.of_nat 0 - 1)%Z with (-1)%Z by lia. replace ((-1) mod Z.of_nat d)%Z with (Z.of_nat d - 1)%Z; [lia|].
    apply Z.mod_unique with (-1)%Z; lia.
  - rewrite Z.mod_small by lia. lia.
Qed.

Lemma succ_mod_eq i d : i < d -> (i + 1) mod d = if Nat.eqb (i + 1) d then 0 else i + 1.
Proof.
  intros H. destruct (Nat.eqb_spec (i + 1) d) as [E|N]; [rewrite E; apply Nat.mod_same; lia|apply Nat.mod_small; lia].
Qed.

Local Open Scope R_scope.

(** ** Energy of a periodic lattice (independent specification)
    E(s) = -J sum over sites of s(i,j) (s(i+1,j) + s(i,j+1)) - sum of h(i,j) s(i,j). *)
Definition lattice_energy (d0 d1 : nat) (J : R) (h s : nat -> nat -> R) : R :=
  - J * sumf (seq 0 d0) (fun i => sumf (seq 0 d1) (fun j => s i j * (s ((i + 1) mod d0)%nat j + s i ((j + 1) mod d1)%nat)))
  - sumf (seq 0 d0) (fun i => sumf (seq 0 d1) (fun j => h i j * s i j)).

(** One ring. *)
Definition ring_sum (d : nat) (f : nat -> R) : R := sumf (seq 0 d) (fun a => f a * f ((a + 1) mod d)%nat).

Definition fneg (i : nat) (f : nat -> R) (a : nat) : R := if Nat.eqb a i then - f a else f a.

Lemma sumf_at n i f : (i < n)%nat -> (forall a, (a < n)%nat -> a <> i -> f a = 0) -> sumf (seq 0 n) f = f i.
Proof.
  intros Hi H. rewrite (sumf_others n i) by assumption. rewrite (sumf_zero (others n i)); [ring|]. intros a Ha. apply in_others in Ha. apply H; lia.
Qed.

Lemma sumf_eqb n i c : (i < n)%nat -> sumf (seq 0 n) (fun a => if Nat.eqb a i then c else 0) = c.
Proof.
  intros H. rewrite (sumf_at n i); [now rewrite Nat.eqb_refl|assumption|]. intros a _ N. destruct (Nat.eqb_spec a i); [congruence|reflexivity].
Qed.

Lemma ring_flip d f i : (2 <= d)%nat -> (i < d)%nat ->
  ring_sum d (fneg i f) - ring_sum d f = - 2 * f i * (f ((i + 1) mod d)%nat + f (pred_mod i d)).
Proof.
  intros Hd Hi. unfold ring_sum. rewrite <- sumf_minus.
  rewrite (sumf_ext_in _ _ (fun a => (if Nat.eqb a i then - 2 * f i * f ((i + 1) mod d)%nat else 0)
     + (if Nat.eqb a (pred_mod i d) then - 2 * f i * f (pred_mod i d) else 0))).
  - assert (Hp : (pred_mod i d < d)%nat) by (rewrite pred_mod_eq by assumption; destruct (Nat.eqb_spec i 0); lia).
    rewrite sumf_plus, !sumf_eqb by assumption. ring.
  - intros a Ha. apply in_seq in Ha. unfold fneg. rewrite pred_mod_eq by assumption.
    rewrite (succ_mod_eq a) by lia. rewrite (succ_mod_eq i) by lia.
    destruct (Nat.eqb_spec a i) as [->|Nai].
    + destruct (Nat.eqb_spec (i + 1) d), (Nat.eqb_spec i 0); subst;
        repeat match goal with |- context [Nat.eqb ?x ?y] => destruct (Nat.eqb_spec x y); try lia end; ring.
    + destruct (Nat.eqb_spec (a + 1) d), (Nat.eqb_spec i 0); subst;
        repeat match goal with |- context [Nat.eqb ?x ?y] => destruct (Nat.eqb_spec x y); try lia end; try ring;
        try (match goal with H : a = _ |- _ => rewrite <- H end; try (replace (a + 1)%nat with i by lia); ring).
Qed.

Lemma lattice_energy_rings d0 d1 J h s : lattice_energy d0 d1 J h s =
  - J * (sumf (seq 0 d1) (fun j => ring_sum d0 (fun i => s i j)) + sumf (seq 0 d0) (fun i => ring_sum d1 (s i)))
  - sumf (seq 0 d0) (fun i => sumf (seq 0 d1) (fun j => h i j * s i j)).
Proof.
  unfold lattice_energy, ring_sum. rewrite (sumf_swap (seq 0 d1)). rewrite <- sumf_plus. f_equal. f_equal.
  apply sumf_ext. intros i. rewrite <- sumf_plus. apply sumf_ext. intros j. ring.
Qed.

Definition sneg (i j : nat) (s : nat -> nat -> R) (a b : nat) : R := if (Nat.eqb a i && Nat.eqb b j)%bool then - s a b else s a b.

Lemma ring_ext d f g : (forall a, f a = g a) -> ring_sum d f = ring_sum d g.
Proof. intros H. unfold ring_sum. apply sumf_ext. intros a. now rewrite !H. Qed.

Lemma lattice_energy_ext d0 d1 J h h' s s' : (0 < d0)%nat -> (0 < d1)%nat ->
  (forall i j, (i < d0)%nat -> (j < d1)%nat -> h i j = h' i j) -> (forall i j, (i < d0)%nat -> (j < d1)%nat -> s i j = s' i j) ->
  lattice_energy d0 d1 J h s = lattice_energy d0 d1 J h' s'.
Proof.
  intros H0 H1 Hh Hs. unfold lattice_energy. f_equal; [f_equal|]; apply sumf_ext_in; intros i Hi; apply in_seq in Hi;
    apply sumf_ext_in; intros j Hj; apply in_seq in Hj.
  - rewrite !Hs; try lia; try reflexivity; apply Nat.mod_upper_bound; lia.
  - rewrite Hh, Hs by lia. reflexivity.
Qed.

Lemma lattice_energy_flip d0 d1 J h s i j : (2 <= d0)%nat -> (2 <= d1)%nat -> (i < d0)%nat -> (j < d1)%nat ->
  lattice_energy d0 d1 J h (sneg i j s) - lattice_energy d0 d1 J h s =
  2 * J * s i j * (s ((i + 1) mod d0)%nat j + s (pred_mod i d0) j + s i ((j + 1) mod d1)%nat + s i (pred_mod j d1)) + 2 * h i j * s i j.
Proof.
  intros H0 H1 Hi Hj. rewrite !lattice_energy_rings.
  assert (C : sumf (seq 0 d1) (fun b => ring_sum d0 (fun a => sneg i j s a b)) - sumf (seq 0 d1) (fun b => ring_sum d0 (fun a => s a b))
              = - 2 * s i j * (s ((i + 1) mod d0)%nat j + s (pred_mod i d0) j)).
  { rewrite <- sumf_minus, (sumf_at d1 j); [|assumption|].
    - rewrite <- (ring_flip d0 (fun a => s a j) i) by assumption. f_equal. apply ring_ext. intros a. unfold sneg, fneg. rewrite Nat.eqb_refl, andb_true_r. reflexivity.
    - intros b _ N. rewrite (ring_ext d0 (fun a => sneg i j s a b) (fun a => s a b)); [ring|]. intros a. unfold sneg.
      destruct (Nat.eqb_spec b j); [congruence|]. now rewrite andb_false_r. }
  assert (D : sumf (seq 0 d0) (fun a => ring_sum d1 (sneg i j s a)) - sumf (seq 0 d0) (fun a => ring_sum d1 (s a))
              = - 2 * s i j * (s i ((j + 1) mod d1)%nat + s i (pred_mod j d1))).
  { rewrite <- sumf_minus, (sumf_at d0 i); [|assumption|].
    - rewrite <- (ring_flip d1 (s i) j) by assumption. f_equal. apply ring_ext. intros b. unfold sneg, fneg. now rewrite Nat.eqb_refl.
    - intros a _ N. rewrite (ring_ext d1 (sneg i j s a) (s a)); [ring|]. intros b. unfold sneg. destruct (Nat.eqb_spec a i); [congruence|reflexivity]. }
  assert (F : sumf (seq 0 d0) (fun a => sumf (seq 0 d1) (fun b => h a b * sneg i j s a b)) - sumf (seq 0 d0) (fun a => sumf (seq 0 d1) (fun b => h a b * s a b))
              = - 2 * h i j * s i j).
  { rewrite <- sumf_minus, (sumf_at d0 i); [|assumption|].
    - rewrite <- sumf_minus, (sumf_at d1 j); [unfold sneg; rewrite !Nat.eqb_refl; cbn; ring|assumption|].
      intros b _ N. unfold sneg. destruct (Nat.eqb_spec b j); [congruence|]. rewrite andb_false_r. ring.
    - intros a _ N. rewrite <- sumf_minus. apply sumf_zero. intros b _. unfold sneg. destruct (Nat.eqb_spec a i); [congruence|]. cbn [andb]. ring. }
  replace (2 * J * s i j * (s ((i + 1) mod d0)%nat j + s (pred_mod i d0) j + s i ((j + 1) mod d1)%nat + s i (pred_mod j d1)) + 2 * h i j * s i j)
    with (- J * (- 2 * s i j * (s ((i + 1) mod d0)%nat j + s (pred_mod i d0) j) + - 2 * s i j * (s i ((j + 1) mod d1)%nat + s i (pred_mod j d1)))
          - (- 2 * h i j * s i j)) by ring.
  rewrite <- C, <- D, <- F. ring.
Qed.

(** Real valued spins of a lattice. *)
Definition lat (L : list (list Z)) (i j : nat) : R := IZR (site L i j).

Definition spin_lattice (d0 d1 : nat) (L : list (list Z)) : Prop :=
  rect d0 d1 L /\ forall i j, (i < d0)%nat -> (j < d1)%nat -> spin (site L i j).

Lemma spin_lattice_flip d0 d1 L i j : spin_lattice d0 d1 L -> (i < d0)%nat -> (j < d1)%nat -> spin_lattice d0 d1 (flip_site L i j).
Proof.
  intros [H1 H2] Hi Hj. split; [now apply rect_flip|]. intros a b Ha Hb. rewrite (site_flip d0 d1) by assumption.
  specialize (H2 a b Ha Hb). destruct (_ && _)%bool; [|assumption]. unfold spin in *. lia.
Qed.

Lemma same_spin x y J : spin x -> spin y -> (if Z.eqb x y then 2 * J else - (2 * J)) = 2 * J * IZR y * IZR x.
Proof. intros [->| ->] [->| ->]; cbn [Z.eqb Pos.eqb]; ring. Qed.

Lemma pred_mod_lt i d : (i < d)%nat -> (pred_mod i d < d)%nat.
Proof. intros H. rewrite pred_mod_eq by assumption. destruct (Nat.eqb_spec i 0); lia. Qed.

Lemma lattice_dE_ok d0 d1 L i j h J : spin_lattice d0 d1 L -> (2 <= d0)%nat -> (2 <= d1)%nat -> (i < d0)%nat -> (j < d1)%nat ->
  lattice_dE i j (h i j) J L =
  lattice_energy d0 d1 J (fun a b => - h a b) (lat (flip_site L i j)) - lattice_energy d0 d1 J (fun a b => - h a b) (lat L).
Proof.
  intros [Hr Hsp] H0 H1 Hi Hj. destruct (rect_dims d0 d1 L Hr) as [D0 D1]; [lia|].
  rewrite (lattice_energy_ext d0 d1 J _ (fun a b => - h a b) (lat (flip_site L i j)) (sneg i j (lat L))); try lia; [|reflexivity|].
  2:{ intros a b Ha Hb. unfold lat, sneg. rewrite (site_flip d0 d1) by assumption. destruct (_ && _)%bool; [apply opp_IZR|reflexivity]. }
  rewrite lattice_energy_flip by assumption. unfold lattice_dE. rewrite D0, D1.
  assert (M0 : ((i + 1) mod d0 < d0)%nat) by (apply Nat.mod_upper_bound; lia).
  assert (M1 : ((j + 1) mod d1 < d1)%nat) by (apply Nat.mod_upper_bound; lia).
  rewrite !same_spin by (apply Hsp; try assumption; now apply pred_mod_lt). unfold lat. ring.
Qed.

(** ** One update and a sweep, averaged over the random numbers *)
Definition lattices (d0 d1 : nat) : list (list (list Z)) := all_states (all_states [-1; 1]%Z d1) d0.

Lemma lattices_spec d0 d1 L : In L (lattices d0 d1) <-> spin_lattice d0 d1 L.
Proof.
  unfold lattices. rewrite all_states_spec. unfold spin_lattice, rect. split.
  - intros [H1 H2]. split; [split; [assumption|]|].
    + intros r Hr. specialize (H2 r Hr). now apply all_states_spec in H2.
    + intros i j Hi Hj. specialize (H2 (nth i L []) ltac:(apply nth_In; lia)). apply (spin_states_spec d1) in H2. destruct H2 as [H2 H3].
      unfold site. apply Forall_nth_in; [assumption|lia].
  - intros [[H1 H2] H3]. split; [assumption|]. intros r Hr. apply (spin_states_spec d1). split; [now apply H2|].
    destruct (In_nth _ _ [] Hr) as (i & Hi & <-). apply Forall_forall. intros z Hz. destruct (In_nth _ _ 0%Z Hz) as (j & Hj & <-).
    apply H3; [lia|]. rewrite (H2 (nth i L [])) in Hj by assumption. assumption.
Qed.

Lemma lattices_NoDup d0 d1 : NoDup (lattices d0 d1).
Proof. apply all_states_NoDup, all_states_NoDup. repeat constructor; cbn; intuition lia. Qed.

Lemma RInt_below a x y (f : R -> R) : 0 <= a <= 1 ->
  (forall u, 0 < u < 1 -> f u = if Rlt_dec u a then x else y) ->
  is_RInt f 0 1 (a * x + (1 - a) * y).
Proof.
  intros Ha Hf.
  apply (is_RInt_Chasles f 0 a 1 (a * x) ((1 - a) * y)).
  - apply is_RInt_ext with (fun _ => x).
    + intros u Hu. rewrite Rmin_left, Rmax_right in Hu by lra. rewrite Hf by lra. destruct (Rlt_dec u a); [reflexivity|lra].
    + replace (a * x) with (scal (a - 0) x) by (unfold scal; cbn; unfold mult; cbn; ring). apply @is_RInt_const.
  - apply is_RInt_ext with (fun _ => y).
    + intros u Hu. rewrite Rmin_left, Rmax_right in Hu by lra. rewrite Hf by lra. destruct (Rlt_dec u a); [lra|reflexivity].
    + apply (is_RInt_const a 1 y).
Qed.

(** The lattice after one update whose random number is u. *)
Definition updated (i j : nat) (h J : R) (L : list (list Z)) (u : R) : list (list Z) :=
  fst (flip_metropolis (const_rng 0 0 u) i j h J L tt).

Lemma updated_eq i j h J L u : 0 < u < 1 ->
  updated i j h J L u = if Rlt_dec u (accept_prob (lattice_dE i j h J L)) then flip_site L i j else L.
Proof.
  intros Hu. unfold updated, flip_metropolis. set (dE := lattice_dE i j h J L). unfold accept_prob.
  destruct (Rle_dec dE 0) as [Hd|Hd].
  - rewrite Rmin_left. 2:{ rewrite <- exp_0. destruct (Rle_lt_or_eq_dec dE 0 Hd) as [H| ->]; [left; apply exp_increasing; lra|rewrite Ropp_0; lra]. }
    destruct (Rlt_dec u 1); [reflexivity|lra].
  - rewrite Rmin_right by (rewrite <- exp_0; left; apply exp_increasing; lra). cbn [const_rng rand].
    destruct (Rlt_dec u (exp (- dE))); reflexivity.
Qed.

Lemma updated_average i j h J L (G : list (list Z) -> R) :
  let a := accept_prob (lattice_dE i j h J L) in
  is_RInt (fun u => G (updated i j h J L u)) 0 1 (a * G (flip_site L i j) + (1 - a) * G L).
Proof.
  cbv zeta. apply RInt_below.
  - split; [left; apply accept_prob_pos|apply accept_prob_le].
  - intros u Hu. rewrite updated_eq by assumption. destruct (Rlt_dec _ _); reflexivity.
Qed.

(** Expected value of F after updating the listed sites in turn, each with a fresh
    uniform random number. *)
Fixpoint Esweep (h : nat -> nat -> R) (J : R) (ps : list (nat * nat)) (F : list (list Z) -> R) (L : list (list Z)) : R :=
  match ps with
  | [] => F L
  | p :: ps' => RInt (fun u => Esweep h J ps' F (updated (fst p) (snd p) (h (fst p) (snd p)) J L u)) 0 1
  end.

Lemma sweep_stationary d0 d1 h J F ps : (2 <= d0)%nat -> (2 <= d1)%nat ->
  (forall p, In p ps -> (fst p < d0)%nat /\ (snd p < d1)%nat) ->
  let E := fun L => lattice_energy d0 d1 J (fun a b => - h a b) (lat L) in
  sumf (lattices d0 d1) (fun L => exp (- E L) * Esweep h J ps F L) = sumf (lattices d0 d1) (fun L => exp (- E L) * F L).
Proof.
  intros H0 H1 Hps E. induction ps as [|[i j] ps IH]; [reflexivity|].
  rewrite <- IH by (intros p Hp; apply Hps; now right). clear IH.
  destruct (Hps (i, j) (or_introl eq_refl)) as [Hi Hj]. cbn [fst snd] in Hi, Hj.
  set (G := Esweep h J ps F).
  assert (K : forall L, In L (lattices d0 d1) -> In (flip_site L i j) (lattices d0 d1) /\ flip_site (flip_site L i j) i j = L).
  { intros L HL. split; [apply lattices_spec, spin_lattice_flip; try assumption; now apply lattices_spec|apply flip_site_twice]. }
  pose proof (move_flow (lattices d0 d1) (fun L => flip_site L i j) (fun L => flip_site L i j) (lattices_NoDup d0 d1) K K E G) as Fl.
  cbv beta in Fl.
  rewrite (sumf_ext_in (lattices d0 d1) (fun L => exp (- E L) * Esweep h J ((i, j) :: ps) F L)
    (fun L => exp (- E L) * G L + (exp (- E L) * accept_prob (E (flip_site L i j) - E L) * G (flip_site L i j)
                                   - exp (- E L) * accept_prob (E (flip_site L i j) - E L) * G L))).
  - rewrite sumf_plus, sumf_minus, Fl. ring.
  - intros L HL. cbn [Esweep fst snd]. fold G. rewrite (is_RInt_unique _ _ _ _ (updated_average i j (h i j) J L G)).
    apply lattices_spec in HL. rewrite (lattice_dE_ok d0 d1) by assumption. fold (E L) (E (flip_site L i j)). ring.
Qed.

(** ** The sites of a systematic sweep *)
Lemma list_prod_map {A B} (la : list A) (lb : list B) : list_prod la lb = flat_map (fun a => map (pair a) lb) la.
Proof. induction la as [|a la IH]; [reflexivity|]. cbn [list_prod flat_map]. now rewrite IH. Qed.

Lemma divmod_sites d0 d1 : (0 < d1)%nat -> map (fun k => (k / d1, k mod d1)%nat) (seq 0 (d0 * d1)) = list_prod (seq 0 d0) (seq 0 d1).
Proof.
  intros Hd. induction d0 as [|d0 IH]; [reflexivity|].
  replace (S d0 * d1)%nat with (d0 * d1 + d1)%nat by lia. rewrite seq_app, map_app, IH. cbn [Nat.add].
  rewrite seq_S, !list_prod_map, flat_map_app. f_equal. cbn [flat_map]. rewrite app_nil_r. cbn [Nat.add].
  assert (X : forall m c, (c + m <= d1)%nat -> map (fun k => (k / d1, k mod d1)%nat) (seq (d0 * d1 + c) m) = map (pair d0) (seq c m)).
  { induction m as [|m IHm]; intros c Hc; [reflexivity|]. cbn [seq map]. f_equal.
    - f_equal; symmetry; [apply Nat.div_unique with c|apply Nat.mod_unique with d0]; lia.
    - rewrite plus_n_Sm. apply IHm. lia. }
  rewrite <- (X d1 0%nat) by lia. now rewrite Nat.add_0_r.
Qed.

Lemma sweep_sites_perm d0 d1 ix : (0 < d1)%nat -> Permutation ix (seq 0 (d0 * d1)) ->
  Permutation (sweep_sites d0 d1 ix) (list_prod (seq 0 d0) (seq 0 d1)).
Proof.
  intros Hd Hp. unfold sweep_sites. rewrite firstn_all2 by (rewrite (Permutation_length Hp), seq_length; lia).
  rewrite <- divmod_sites by assumption. now apply Permutation_map.
Qed.

(** ** The loop of [iterate] *)
Fixpoint repeatM {S} (k : nat) (f : S -> result S) (st : S) : result S :=
  match k with 0%nat => Ok st | Datatypes.S k' => bind (f st) (fun st => repeatM k' f st) end.

Lemma iterate_loop_ok {S} (f : S -> result S) size n_iters : (0 < size)%nat -> forall fuel counter st,
  ((n_iters - counter + (size - 1)) / size < fuel)%nat ->
  iterate_loop f fuel size n_iters counter st = repeatM ((n_iters - counter + (size - 1)) / size) f st.
Proof.
  intros Hs. induction fuel as [|fuel IH]; intros counter st Hf; [lia|]. cbn [iterate_loop].
  destruct (Nat.ltb_spec counter n_iters) as [Hc|Hc].
  - assert (E : ((n_iters - counter + (size - 1)) / size = Datatypes.S ((n_iters - (counter + size) + (size - 1)) / size))%nat).
    { destruct (Nat.le_gt_cases (counter + size) n_iters).
      - replace (n_iters - counter + (size - 1))%nat with (n_iters - (counter + size) + (size - 1) + 1 * size)%nat by lia. rewrite Nat.div_add by lia. lia.
      - replace (n_iters - (counter + size))%nat with 0%nat by lia. rewrite (Nat.div_small (0 + (size - 1))) by lia. symmetry.
        apply Nat.div_unique with (n_iters - counter - 1)%nat; lia. }
    rewrite E in *. cbn [repeatM]. destruct (f st) as [st'|]; [|reflexivity]. cbn [bind]. apply IH. lia.
  - replace (n_iters - counter)%nat with 0%nat by lia. rewrite Nat.div_small by lia. reflexivity.
Qed.

(** ** Block spins *)
Definition block_sum (L : list (list Z)) (f a b : nat) : Z :=
  fold_right Z.add 0%Z (map (fun p => site L (f * a + fst p) (f * b + snd p)) (list_prod (seq 0 f) (seq 0 f))).

Lemma zmat_rect r c g : rect r c (zmat r c g).
Proof.
  split; [unfold zmat, range; now rewrite map_length, seq_length|]. intros l Hl. unfold zmat in Hl. apply in_map_iff in Hl. destruct Hl as (i & <- & _).
  unfold range. now rewrite map_length, seq_length.
Qed.

Lemma site_zmat r c g a b : (a < r)%nat -> (b < c)%nat -> site (zmat r c g) a b = g a b.
Proof. intros Ha Hb. unfold site, zmat, range. rewrite nth_map_seq by assumption. now rewrite nth_map_seq by assumption. Qed.

Lemma zmat_ext r c g g' : (forall a b, (a < r)%nat -> (b < c)%nat -> g a b = g' a b) -> zmat r c g = zmat r c g'.
Proof.
  intros H. unfold zmat. apply map_ext_in. intros i Hi. apply map_ext_in. intros j Hj. apply in_range in Hi, Hj. auto.
Qed.

Lemma slice_len_ge d i f : (0 < f)%nat -> (i < f)%nat -> (d / f <= slice_len d i f)%nat.
Proof. intros Hf Hi. unfold slice_len. apply Nat.div_le_mono; lia. Qed.

Lemma slice_len_mult q i f : (0 < f)%nat -> (i < f)%nat -> slice_len (q * f) i f = q.
Proof.
  intros Hf Hi. unfold slice_len. destruct q as [|q].
  - rewrite Nat.mul_0_l. cbn [Nat.sub Nat.add]. apply Nat.div_small. lia.
  - symmetry. apply Nat.div_unique with (f - 1 - i)%nat; nia.
Qed.

(** The shapes for which every in-place addition is elementwise. *)
Definition fits (d0 d1 f : nat) : Prop := (d0 / f = d1 / f \/ (d1 / f <= d0 / f /\ d1 = d1 / f * f))%nat.

Lemma fits_cols d0 d1 f j : (0 < f)%nat -> (j < f)%nat -> fits d0 d1 f -> Nat.min (d0 / f) (slice_len d1 j f) = (d1 / f)%nat.
Proof.
  intros Hf Hj [E|[Hle E]].
  - pose proof (slice_len_ge d1 j f Hf Hj). lia.
  - rewrite E at 1. rewrite slice_len_mult by assumption. lia.
Qed.

Lemma iadd_same r c A B : iadd r c A r c B = Ok (zmat r c (fun a b => site A a b + B a b)%Z).
Proof.
  unfold iadd. rewrite !Nat.eqb_refl. cbn [orb andb]. f_equal. apply zmat_ext. intros a b Ha Hb.
  destruct (Nat.eqb_spec r 1); destruct (Nat.eqb_spec c 1); repeat f_equal; lia.
Qed.

Lemma block_sums_ok L f : (0 < f)%nat -> fits (dim0 L) (dim1 L) f ->
  block_sums L f = Ok (zmat (dim0 L / f) (dim1 L / f) (block_sum L f)).
Proof.
  intros Hf Hfit. unfold block_sums. set (r := (dim0 L / f)%nat). set (c := (dim1 L / f)%nat).
  assert (X : forall ps, (forall p, In p ps -> (fst p < f)%nat /\ (snd p < f)%nat) -> forall g,
    foldM (fun A ij => let '(i, j) := ij in iadd r c A (Nat.min r (slice_len (dim0 L) i f)) (Nat.min r (slice_len (dim1 L) j f))
             (fun a b => site L (i + f * a) (j + f * b))) ps (zmat r c g) =
    Ok (zmat r c (fun a b => g a b + fold_right Z.add 0%Z (map (fun p => site L (f * a + fst p) (f * b + snd p)) ps))%Z)).
  { induction ps as [|[i j] ps IH]; intros Hps g; cbn [foldM].
    - f_equal. apply zmat_ext. intros a b _ _. cbn. lia.
    - destruct (Hps (i, j) (or_introl eq_refl)) as [Hi Hj]. cbn [fst snd] in Hi, Hj.
      unfold c, r. rewrite (fits_cols _ _ _ j) by assumption. rewrite Nat.min_l by (now apply slice_len_ge). fold r c.
      rewrite iadd_same. cbn [bind]. rewrite IH by (intros p Hp; apply Hps; now right). f_equal. apply zmat_ext. intros a b Ha Hb.
      rewrite site_zmat by assumption. cbn [map fold_right fst snd]. rewrite (Nat.add_comm i), (Nat.add_comm j). lia. }
  rewrite X.
  - unfold range. reflexivity.
  - intros [i j] Hp. apply in_prod_iff in Hp. cbn [fst snd]. rewrite !in_range in Hp. exact Hp.
Qed.

Definition zeros (l : list Z) : nat := length (filter (fun z => Z.eqb z 0) l).

Lemma fill_ties_app l1 : forall ties l2,
  fill_ties ties (l1 ++ l2) = (fst (fill_ties ties l1) ++ fst (fill_ties (snd (fill_ties ties l1)) l2), snd (fill_ties (snd (fill_ties ties l1)) l2)).
Proof.
  induction l1 as [|x l1 IH]; intros ties l2; cbn [app fill_ties fst snd].
  - now destruct (fill_ties ties l2).
  - destruct (Z.eqb x 0); [destruct ties as [|t ties]|]; rewrite IH;
      match goal with |- context [fill_ties ?t l1] => destruct (fill_ties t l1) as [r1 rest] eqn:E end; cbn [fst snd app]; reflexivity.
Qed.

Lemma fill_rows_concat L : forall ties, concat (fill_rows ties L) = fst (fill_ties ties (concat L)).
Proof.
  induction L as [|row L IH]; intros ties; [reflexivity|]. cbn [fill_rows concat]. rewrite fill_ties_app.
  destruct (fill_ties ties row) as [r rest] eqn:E. cbn [fst snd concat]. now rewrite IH.
Qed.

Lemma fill_ties_length l : forall ties, length (fst (fill_ties ties l)) = length l.
Proof.
  induction l as [|x l IH]; intros ties; [reflexivity|]. cbn [fill_ties].
  destruct (Z.eqb x 0); [destruct ties as [|t ties]|]; match goal with |- context [fill_ties ?t l] => specialize (IH t); destruct (fill_ties t l) end; cbn [fst length] in *; lia.
Qed.

Lemma fill_ties_nth l : forall ties k, (k < length l)%nat ->
  nth k (fst (fill_ties ties l)) 0%Z = if Z.eqb (nth k l 0%Z) 0 then nth (zeros (firstn k l)) ties 0%Z else nth k l 0%Z.
Proof.
  induction l as [|x l IH]; intros ties k Hk; [cbn in Hk; lia|]. cbn [fill_ties]. cbn [length] in Hk. destruct k as [|k].
  - cbn [nth firstn zeros]. destruct (Z.eqb_spec x 0) as [->|N].
    + destruct ties as [|t ties]; match goal with |- context [fill_ties ?t l] => destruct (fill_ties t l) end; reflexivity.
    + destruct (fill_ties ties l). reflexivity.
  - cbn [nth firstn]. unfold zeros. cbn [filter]. destruct (Z.eqb_spec x 0) as [->|N].
    + destruct ties as [|t ties].
      * specialize (IH [] k ltac:(lia)). destruct (fill_ties [] l) as [r rest]. cbn [fst nth length] in *. rewrite IH. fold (zeros (firstn k l)). destruct (zeros (firstn k l)); reflexivity.
      * specialize (IH ties k ltac:(lia)). destruct (fill_ties ties l) as [r rest]. cbn [fst nth length] in *. exact IH.
    + specialize (IH ties k ltac:(lia)). destruct (fill_ties ties l) as [r rest]. cbn [fst nth] in *. exact IH.
Qed.

Lemma fill_rows_rect r c L : forall ties, rect r c L -> rect r c (fill_rows ties L).
Proof.
  revert r. induction L as [|row L IH]; intros r ties [H1 H2]; cbn [fill_rows]; [now split|].
  pose proof (fill_ties_length row ties) as FL. destruct (fill_ties ties row) as [r' rest]. cbn [fst] in FL.
  destruct r as [|r]; [discriminate|]. cbn in H1. injection H1 as H1.
  destruct (IH r rest) as [G1 G2]; [split; [assumption|intros x Hx; apply H2; now right]|].
  split; [cbn; lia|]. intros x [<-|Hx]; [rewrite FL; apply H2; now left|now apply G2].
Qed.

Lemma site_concat r c L a b : rect r c L -> (a < r)%nat -> (b < c)%nat -> site L a b = nth (a * c + b) (concat L) 0%Z.
Proof.
  revert r a. induction L as [|row L IH]; intros r a [H1 H2] Ha Hb; [cbn in H1; lia|].
  cbn [concat]. destruct r as [|r]; [discriminate|]. injection H1 as H1. assert (Lr : length row = c) by (apply H2; now left).
  destruct a as [|a].
  - unfold site. cbn [nth Nat.mul Nat.add]. rewrite app_nth1 by lia. reflexivity.
  - rewrite app_nth2 by lia. rewrite Lr. replace (S a * c + b - c)%nat with (a * c + b)%nat by lia. rewrite <- (IH r a); [reflexivity| |lia|assumption].
    split; [assumption|]. intros x Hx. apply H2. now right.
Qed.

Lemma concat_zmat r c g : concat (zmat r c g) = map (fun p => g (fst p) (snd p)) (list_prod (seq 0 r) (seq 0 c)).
Proof.
  unfold zmat, range. induction (seq 0 r) as [|a l IH]; [reflexivity|]. cbn [map concat list_prod]. rewrite map_app, IH, map_map. reflexivity.
Qed.

Lemma map_sgn_zmat r c g : map (map Z.sgn) (zmat r c g) = zmat r c (fun a b => Z.sgn (g a b)).
Proof. unfold zmat. rewrite map_map. apply map_ext. intros a. now rewrite map_map. Qed.

Lemma list_prod_length {A B} (la : list A) (lb : list B) : length (list_prod la lb) = (length la * length lb)%nat.
Proof. apply prod_length. Qed.

(** Number of tied blocks before block (a,b) in row-major order, of c columns. *)
Definition ties_before (g : nat -> nat -> Z) (r c a b : nat) : nat :=
  length (filter (fun p => Z.eqb (g (fst p) (snd p)) 0) (firstn (a * c + b) (list_prod (seq 0 r) (seq 0 c)))).
Definition ties_total (g : nat -> nat -> Z) (r c : nat) : nat :=
  length (filter (fun p => Z.eqb (g (fst p) (snd p)) 0) (list_prod (seq 0 r) (seq 0 c))).

Lemma filter_map_length {A B} (h : A -> B) (p : B -> bool) l : length (filter p (map h l)) = length (filter (fun a => p (h a)) l).
Proof. induction l as [|a l IH]; [reflexivity|]. cbn. destruct (p (h a)); cbn; now rewrite IH. Qed.

Lemma sgn_zero z : Z.eqb (Z.sgn z) 0 = Z.eqb z 0.
Proof. destruct z; reflexivity. Qed.

Lemma coarse_grain_ok choice L f : (0 < f)%nat -> fits (dim0 L) (dim1 L) f ->
  let r := (dim0 L / f)%nat in let c := (dim1 L / f)%nat in
  exists R, coarse_grain choice L f = Ok R /\ rect r c R /\
    forall a b, (a < r)%nat -> (b < c)%nat ->
      site R a b = if Z.eqb (block_sum L f a b) 0
                   then nth (ties_before (block_sum L f) r c a b) (choice (ties_total (block_sum L f) r c)) 0%Z
                   else Z.sgn (block_sum L f a b).
Proof.
  intros Hf Hfit. cbv zeta. set (r := (dim0 L / f)%nat). set (c := (dim1 L / f)%nat). unfold coarse_grain.
  destruct (Nat.eqb_spec f 0); [lia|]. rewrite block_sums_ok by assumption. cbn [bind]. fold r c. rewrite map_sgn_zmat.
  set (g := block_sum L f). eexists. split; [reflexivity|]. split; [apply fill_rows_rect, zmat_rect|].
  intros a b Ha Hb. rewrite (site_concat r c) by (try assumption; apply fill_rows_rect, zmat_rect).
  rewrite fill_rows_concat. rewrite fill_ties_nth.
  2:{ rewrite concat_zmat, map_length, list_prod_length, !seq_length. nia. }
  rewrite <- (site_concat r c) by (try assumption; apply zmat_rect). rewrite site_zmat by assumption. rewrite sgn_zero.
  destruct (Z.eqb (g a b) 0); [|reflexivity]. f_equal.
  - unfold ties_before, zeros. rewrite concat_zmat, firstn_map, filter_map_length. f_equal. apply filter_ext. intros p. apply sgn_zero.
  - unfold ties_total. rewrite concat_zmat, filter_map_length. f_equal. f_equal. apply filter_ext. intros p. apply sgn_zero.
Qed.

(** Shapes for which the addition is rejected. *)
Lemma foldM_err_head {A S} (f : S -> A -> result S) a l st e : f st a = Err e -> foldM f (a :: l) st = Err e.
Proof. intros H. cbn [foldM]. now rewrite H. Qed.

Lemma coarse_grain_raises choice L f : (0 < f)%nat ->
  (let r := dim0 L / f in let c := dim1 L / f in (r < c /\ r <> 1) \/ (c < r /\ 1 <= c /\ dim1 L <> c * f))%nat ->
  coarse_grain choice L f = Err ValueError.
Proof.
  intros Hf H. unfold coarse_grain. destruct (Nat.eqb_spec f 0); [lia|].
  assert (E : block_sums L f = Err ValueError); [|now rewrite E].
  unfold block_sums. set (r := (dim0 L / f)%nat) in *. set (c := (dim1 L / f)%nat) in *. cbv zeta in H.
  destruct f as [|f']; [lia|]. unfold range. cbn [seq list_prod]. set (rest := (map _ _ ++ _)%list).
  change (seq 0 (S f')) with (0%nat :: seq 1 f'). cbn [map app].
  apply foldM_err_head. unfold iadd. rewrite Nat.min_l by (apply slice_len_ge; lia). rewrite Nat.eqb_refl. cbn [orb andb].
  assert (Hc : Nat.min r (slice_len (dim1 L) 0 (S f')) <> c /\ Nat.min r (slice_len (dim1 L) 0 (S f')) <> 1%nat).
  { pose proof (slice_len_ge (dim1 L) 0 (S f') ltac:(lia) ltac:(lia)) as G. fold c in G. destruct H as [[H1 H2]|(H1 & H2 & H3)].
    - lia.
    - assert (slice_len (dim1 L) 0 (S f') = c + 1)%nat; [|lia]. unfold slice_len.
      pose proof (Nat.div_mod (dim1 L) (S f') ltac:(lia)) as DM. fold c in DM. pose proof (Nat.mod_upper_bound (dim1 L) (S f') ltac:(lia)).
      symmetry. apply Nat.div_unique with (dim1 L mod S f' - 1)%nat; nia. }
  destruct Hc as [H1 H2]. apply Nat.eqb_neq in H1, H2. rewrite H1, H2. reflexivity.
Qed.
