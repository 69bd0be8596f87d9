(** * Properties of the [Ising] front end and of the lattice simulation (C53-C55). *)
From Coq Require Import Permutation.
From Coquelicot Require Import Coquelicot.
From Verif Require Import Prelude PreludeFacts Spec M_Index M_Params M_RMF M_Sampler M_Ising P_Index P_Energy P_Energy2 P_Params P_RMF P_Sampler P_Metro
  P_Ising P_Lattice Props_Params.
Import ListNotations.
Local Open Scope R_scope.

(** ** C53 *)
(** The object holds the given fields and couplings: None means zero, a number is used
    everywhere, an array is used as it is; the {0,1} parameters describe the same
    distribution. *)
Theorem C53_parameters : forall have n h J self, ising_init have n h J = Ok self ->
  let hv := vec_value n h in
  let Jv := vec_value (n * (n - 1) / 2) J in
  ising_fields self true = hv /\ ising_couplings self true = Jv /\ length hv = n /\ length Jv = (n * (n - 1) / 2)%nat /\
  forall s, In s (all_states [-1; 1] n) ->
    boltzmann (ising_energy n (ising_fields self false ++ ising_couplings self false)) (all_states [0; 1] n) (map (fun y => (y + 1) / 2) s) =
    boltzmann (ising_energy n (hv ++ Jv)) (all_states [-1; 1] n) s.
Proof.
  intros have n h J self E hv Jv. destruct (ising_init_ok _ _ _ _ _ E) as [(En & Hn & Lh & LJ & EhJ & EJ & h' & J' & EC & Lh' & E01) _].
  fold hv in Lh, EhJ, EC. fold Jv in LJ, EhJ, EC. unfold ising_fields, ising_couplings. rewrite En, EhJ, E01, !firstn_skipn.
  split; [rewrite firstn_app, Lh, Nat.sub_diag, firstn_O, app_nil_r; apply firstn_all2; lia|].
  split; [rewrite skipn_app, Lh, Nat.sub_diag, skipn_O, skipn_all2 by lia; reflexivity|]. split; [assumption|]. split; [assumption|].
  intros s Hs. rewrite <- Lh in *. apply C09_probabilities_to_01; try assumption; lia.
Qed.
Print Assumptions C53_parameters.

(** Documented "list-like" arguments: a Python list of the right length raises
    AttributeError; with the shipped modules, so does every system of ten spins or
    more (the missing module raises). *)
Theorem C53_list_arguments_refuted : forall have n h J l, (1 < n)%nat ->
  (length l = n -> (exists v, fill_arg (n * (n - 1) / 2) J = Ok v) -> ising_init have n (APyList l) J = Err AttributeError) /\
  (length l = (n * (n - 1) / 2)%nat -> h = ANone \/ (exists x, h = ANumber x) -> ising_init have n h (APyList l) = Err AttributeError) /\
  (have n = false -> exists e, ising_init have n h J = Err e).
Proof.
  intros have n h J l Hn. assert (B : Nat.ltb 1 n = true) by (now apply Nat.ltb_lt). split; [|split].
  - intros Hl (v & Ev). unfold ising_init. rewrite B. cbn [negb fill_arg]. rewrite Hl, Nat.eqb_refl. cbn [bind]. rewrite Ev. reflexivity.
  - intros Hl Hh. unfold ising_init. rewrite B. cbn [negb]. destruct Hh as [->|(x & ->)]; cbn [fill_arg bind as_vector]; rewrite Hl, Nat.eqb_refl; reflexivity.
  - intros Hh. destruct (ising_init have n h J) as [self|e] eqn:E; [|now exists e]. apply ising_init_ok in E. destruct E as [_ E]. congruence.
Qed.
Print Assumptions C53_list_arguments_refuted.

(** Entry i of neighbor_dE is the energy of the state with spin i reversed minus the
    energy of the state. *)
Theorem C53_neighbor_dE : forall have n h J self s i, ising_init have n h J = Ok self -> length s = n -> (i < n)%nat ->
  let params := vec_value n h ++ vec_value (n * (n - 1) / 2) J in
  length (neighbor_dE self s) = n /\
  nthR (neighbor_dE self s) i =
    ising_energy n params (map IZR (upd s i (- nth i s 0)%Z)) - ising_energy n params (map IZR s).
Proof.
  intros have n h J self s i E Hs Hi params. destruct (ising_init_ok _ _ _ _ _ E) as [Hok _]. split.
  - rewrite neighbor_dE_length. apply Hok.
  - rewrite (neighbor_dE_nth self n _ _ s i Hok Hs Hi). now rewrite flip_upd.
Qed.
Print Assumptions C53_neighbor_dE.

(** find_basin terminates (2^n turns suffice), in a spin state from which no single flip
    lowers the energy, and whose energy is at most that of the start. *)
Theorem C53_find_basin : forall have n h J self s fuel, ising_init have n h J = Ok self ->
  In s (all_states [-1; 1]%Z n) -> (2 ^ n <= fuel)%nat ->
  let E := fun t => ising_energy n (vec_value n h ++ vec_value (n * (n - 1) / 2) J) (map IZR t) in
  exists t, find_basin self fuel s = Ok t /\ In t (all_states [-1; 1]%Z n) /\ E t <= E s /\
    forall i, (i < n)%nat -> E t <= E (upd t i (- nth i t 0)%Z).
Proof.
  intros have n h J self s fuel EI Hs Hf E. destruct (ising_init_ok _ _ _ _ _ EI) as [Hok _]. pose proof Hok as (En & _).
  unfold find_basin. rewrite En. pose proof (proj2 (spins_all n s) Hs) as Hsp. rewrite (proj1 Hsp), Nat.eqb_refl. cbn [negb].
  destruct (basin_loop_ok self n _ _ Hok fuel s Hsp) as (t & Et & Ht & Hle & Hl).
  - eapply Nat.lt_le_trans; [apply rank_bound, Hs|exact Hf].
  - exists t. split; [assumption|]. split; [now apply spins_all|]. split; assumption.
Qed.
Print Assumptions C53_find_basin.

(** It is the steepest descent: a state from which no flip lowers the energy is its own
    basin; otherwise the basin is that of the lowest neighbour (the first one, on a
    tie). *)
Theorem C53_steepest_descent : forall have n h J self s fuel, ising_init have n h J = Ok self ->
  In s (all_states [-1; 1]%Z n) -> (2 ^ n <= fuel)%nat ->
  let E := fun t => ising_energy n (vec_value n h ++ vec_value (n * (n - 1) / 2) J) (map IZR t) in
  let nb := fun k => upd s k (- nth k s 0)%Z in
  ((forall i, (i < n)%nat -> E s <= E (nb i)) -> find_basin self fuel s = Ok s) /\
  (forall k, (k < n)%nat -> E (nb k) < E s -> (forall j, (j < n)%nat -> E (nb k) <= E (nb j)) -> (forall j, (j < k)%nat -> E (nb k) < E (nb j)) ->
     find_basin self fuel s = find_basin self fuel (nb k)).
Proof.
  intros have n h J self s fuel EI Hs Hf E nb. destruct (ising_init_ok _ _ _ _ _ EI) as [Hok _]. pose proof Hok as (En & _).
  pose proof (proj2 (spins_all n s) Hs) as Hsp. set (params := vec_value n h ++ vec_value (n * (n - 1) / 2) J) in *.
  assert (EE : E = ienergy n params) by reflexivity. clearbody E. subst E. set (E := ienergy n params) in *.
  assert (N : forall k, nb k = flip s k) by (intros k; unfold nb; now rewrite flip_upd). clearbody nb.
  assert (P : (1 <= 2 ^ n)%nat) by (clear; induction n; cbn; lia). destruct fuel as [|fuel]; [lia|].
  unfold find_basin. rewrite En. rewrite (proj1 Hsp), Nat.eqb_refl. cbn [negb].
  destruct (basin_turn self n _ _ s fuel Hok Hsp) as [(Hl & EB)|(k0 & Hk0 & Hlt & Hmin & Hfirst & EB)].
  - split; [intros _; exact EB|]. intros k Hk Hlt. exfalso. specialize (Hl k Hk). fold params E in Hl. rewrite N in Hlt. rewrite <- flip_upd in Hl. lra.
  - fold params E in Hlt, Hmin, Hfirst. split.
    + intros Hl. exfalso. specialize (Hl k0 Hk0). rewrite N in Hl. lra.
    + intros k Hk Hltk Hmink Hfirstk.
      assert (k = k0) as ->.
      { destruct (Nat.lt_trichotomy k k0) as [C|[C|C]]; [|assumption|]; exfalso.
        - specialize (Hfirst k C). specialize (Hmink k0 Hk0). rewrite !N in Hmink. lra.
        - specialize (Hfirstk k0 C). specialize (Hmin k Hk). rewrite !N in Hfirstk. lra. }
      rewrite N. pose proof (spins_flip n s k0 Hsp) as Hsf. rewrite (proj1 Hsf), Nat.eqb_refl. cbn [negb].
      rewrite EB. destruct (basin_loop_ok self n _ _ Hok fuel (flip s k0) Hsf) as (t & Et & _).
      * fold params E. assert (rank n E (flip s k0) < rank n E s)%nat by (apply rank_lt; [apply spins_all, Hsf|exact Hlt]).
        pose proof (rank_bound n E s Hs). lia.
      * rewrite Et. symmetry. pose proof (basin_loop_mono self fuel _ _ Et 1) as M. now replace (fuel + 1)%nat with (S fuel) in M by lia.
Qed.
Print Assumptions C53_steepest_descent.

(** A state of the wrong size is rejected. *)
Theorem C53_wrong_size : forall self fuel s, length s <> is_n self -> find_basin self fuel s = Err AssertionError.
Proof. intros self fuel s H. unfold find_basin. apply Nat.eqb_neq in H. now rewrite H. Qed.
Print Assumptions C53_wrong_size.

(** Two ferromagnetic spins in a field: the two basins
    of a strong ferromagnet, and a state that moves. *)
Example C53_example : exists self, ising_init (fun _ => true) 2 (ANumber 1) (AArray [3]) = Ok self /\
  find_basin self 4 [-1; -1]%Z = Ok [-1; -1]%Z /\ find_basin self 4 [1; -1]%Z = Ok [1; 1]%Z /\
  ising_energy 2 ([1; 1] ++ [3]) (map IZR [1; 1]%Z) < ising_energy 2 ([1; 1] ++ [3]) (map IZR [1; -1]%Z).
Proof.
  assert (EI : exists self, ising_init (fun _ => true) 2 (ANumber 1) (AArray [3]) = Ok self).
  { unfold ising_init. change (2 * (2 - 1) / 2)%nat with 1%nat. cbn [Nat.ltb Nat.leb negb fill_arg bind length Nat.eqb as_vector].
    rewrite (squareform_vec_ok 2) by (cbn; lia). cbn [bind repeat map]. rewrite convert_params_ok by (cbn; lia). cbn [bind fst snd]. eexists. reflexivity. }
  destruct EI as (self & EI). exists self. split; [exact EI|].
  assert (En : forall s, ising_energy 2 (vec_value 2 (ANumber 1) ++ vec_value (2 * (2 - 1) / 2) (AArray [3])) s = - (nthR s 0 + nthR s 1) - 3 * (nthR s 0 * nthR s 1)).
  { intros s. unfold ising_energy, coupling, pair_index, nthR. cbn. ring. }
  assert (In1 : In [-1; -1]%Z (all_states [-1; 1]%Z 2)) by (cbn; auto).
  assert (In2 : In [1; -1]%Z (all_states [-1; 1]%Z 2)) by (cbn; auto).
  assert (In3 : In [1; 1]%Z (all_states [-1; 1]%Z 2)) by (cbn; auto).
  split; [|split].
  - apply (C53_steepest_descent _ _ _ _ _ _ _ EI In1 (Nat.le_refl 4)). intros i Hi. rewrite !En. unfold nthR. destruct i as [|[|i]]; [| |lia]; cbn; lra.
  - destruct (C53_steepest_descent _ _ _ _ _ _ 4%nat EI In2 (Nat.le_refl 4)) as [_ S2]. rewrite (S2 1%nat); [|lia| | |].
    + apply (C53_steepest_descent _ _ _ _ _ _ _ EI In3 (Nat.le_refl 4)). intros i Hi. rewrite !En. unfold nthR. destruct i as [|[|i]]; [| |lia]; cbn; lra.
    + rewrite !En. unfold nthR. cbn. lra.
    + intros j Hj. rewrite !En. unfold nthR. destruct j as [|[|j]]; [| |lia]; cbn; lra.
    + intros j Hj. rewrite !En. unfold nthR. destruct j as [|j]; [|lia]; cbn; lra.
  - change ([1; 1] ++ [3]) with (vec_value 2 (ANumber 1) ++ vec_value (2 * (2 - 1) / 2) (AArray [3])). rewrite !En. unfold nthR. cbn. lra.
Qed.
Print Assumptions C53_example.

(** ** C54 *)
(** The energy change used is that of
    E(s) = -J sum_(neighbours) s s' + sum h s   (note the sign of the field). *)
Theorem C54_energy_change : forall d0 d1 L i j (h : nat -> nat -> R) J, spin_lattice d0 d1 L ->
  (2 <= d0)%nat -> (2 <= d1)%nat -> (i < d0)%nat -> (j < d1)%nat ->
  lattice_dE i j (h i j) J L =
  lattice_energy d0 d1 J (fun a b => - h a b) (lat (flip_site L i j)) - lattice_energy d0 d1 J (fun a b => - h a b) (lat L) /\
  (forall a b, lat (flip_site L i j) a b = if (Nat.eqb a i && Nat.eqb b j)%bool then - lat L a b else lat L a b).
Proof.
  intros d0 d1 L i j h J HL H0 H1 Hi Hj. split; [now apply lattice_dE_ok|]. intros a b. unfold lat. rewrite (site_flip d0 d1) by (try assumption; apply HL).
  destruct (_ && _)%bool; [apply opp_IZR|reflexivity].
Qed.
Print Assumptions C54_energy_change.

(** The convention of the other modules (a positive field favours spin +1) is refuted:
    on every lattice, for every nonzero field. *)
Theorem C54_field_convention_refuted : forall d0 d1 L i j (h : nat -> nat -> R) J, spin_lattice d0 d1 L ->
  (2 <= d0)%nat -> (2 <= d1)%nat -> (i < d0)%nat -> (j < d1)%nat -> h i j <> 0 ->
  lattice_dE i j (h i j) J L <> lattice_energy d0 d1 J h (lat (flip_site L i j)) - lattice_energy d0 d1 J h (lat L).
Proof.
  intros d0 d1 L i j h J HL H0 H1 Hi Hj Hh E.
  pose proof (lattice_dE_ok d0 d1 L i j (fun a b => - h a b) J HL H0 H1 Hi Hj) as E2. cbv beta in E2.
  rewrite (lattice_energy_ext d0 d1 J (fun a b => - - h a b) h (lat (flip_site L i j)) (lat (flip_site L i j))) in E2; try lia; [|intros; ring|reflexivity].
  rewrite (lattice_energy_ext d0 d1 J (fun a b => - - h a b) h (lat L) (lat L)) in E2; try lia; [|intros; ring|reflexivity].
  rewrite <- E in E2. unfold lattice_dE in E2. destruct HL as [_ Hsp]. specialize (Hsp i j Hi Hj).
  assert (X : IZR (site L i j) * h i j = 0) by lra. apply Rmult_integral in X. destruct X as [X|X]; [|congruence].
  destruct Hsp as [S|S]; rewrite S in X; lra.
Qed.
Print Assumptions C54_field_convention_refuted.

(** A dimension of length one: the site is its own neighbour and the energy change is
    wrong whenever J is not zero. *)
Theorem C54_thin_lattice_refuted : forall J, J <> 0 -> exists L, spin_lattice 1 2 L /\
  lattice_dE 0 0 0 J L <> lattice_energy 1 2 J (fun _ _ => 0) (lat (flip_site L 0 0)) - lattice_energy 1 2 J (fun _ _ => 0) (lat L).
Proof.
  intros J HJ. exists [[1; 1]]%Z. split.
  - split; [split; [reflexivity|intros r [<-|[]]; reflexivity]|]. intros i j Hi Hj. destruct i; [|lia]. destruct j as [|[|]]; [right|right|lia]; reflexivity.
  - intros E. apply HJ. revert E. unfold lattice_dE, lattice_energy, lat, pred_mod, site, flip_site, dim0, dim1, sumf, flip. change (Z.to_nat ((Z.of_nat 0 - 1) mod Z.of_nat (length (nth 0 [[1; 1]] [])))%Z) with 1%nat. cbn. lra.
Qed.
Print Assumptions C54_thin_lattice_refuted.

(** The new lattice is the old one or the old one with the site reversed; the first
    case is possible only when the energy rises; averaged over the random number, the
    site is reversed with probability min(1, exp(-dE)). *)
Theorem C54_update : forall i j h J L (G : list (list Z) -> R),
  let dE := lattice_dE i j h J L in
  (forall T (g : rng T) t, fst (flip_metropolis g i j h J L t) = flip_site L i j \/ (fst (flip_metropolis g i j h J L t) = L /\ 0 < dE)) /\
  is_RInt (fun u => G (updated i j h J L u)) 0 1
          (Rmin 1 (exp (- dE)) * G (flip_site L i j) + (1 - Rmin 1 (exp (- dE))) * G L).
Proof.
  intros i j h J L G dE. split; [|apply updated_average]. intros T g t. unfold flip_metropolis. fold dE.
  destruct (Rle_dec dE 0); [now left|]. destruct (rand g t) as [u t1]. destruct (Rlt_dec u (exp (- dE))); cbn; [now left|right]. split; [reflexivity|lra].
Qed.
Print Assumptions C54_update.

(** Updating any sequence of sites, in any order, leaves the Boltzmann distribution of
    that energy unchanged. *)
Theorem C54_stationary : forall d0 d1 (h : nat -> nat -> R) J F ps, (2 <= d0)%nat -> (2 <= d1)%nat ->
  (forall p, In p ps -> (fst p < d0)%nat /\ (snd p < d1)%nat) ->
  let E := fun L => lattice_energy d0 d1 J (fun a b => - h a b) (lat L) in
  let states := all_states (all_states [-1; 1]%Z d1) d0 in
  sumf states (fun L => exp (- E L) * Esweep h J ps F L) = sumf states (fun L => exp (- E L) * F L).
Proof. intros. now apply sweep_stationary. Qed.
Print Assumptions C54_stationary.

(** A systematic sweep visits every site exactly once, whatever the permutation. *)
Theorem C54_sweep_sites : forall d0 d1 ix, (0 < d1)%nat -> Permutation ix (seq 0 (d0 * d1)) ->
  Permutation (sweep_sites d0 d1 ix) (list_prod (seq 0 d0) (seq 0 d1)) /\ NoDup (sweep_sites d0 d1 ix).
Proof.
  intros d0 d1 ix Hd Hp. pose proof (sweep_sites_perm d0 d1 ix Hd Hp) as P. split; [assumption|].
  apply (Permutation_NoDup (Permutation_sym P)). rewrite <- (divmod_sites d0 d1) by assumption. apply FinFun.Injective_map_NoDup; [|apply seq_NoDup].
  intros a b E. injection E as E1 E2. rewrite (Nat.div_mod a d1), (Nat.div_mod b d1) by lia. congruence.
Qed.
Print Assumptions C54_sweep_sites.

(** Number of rounds: ceil(n_iters/(d0*d1)), of one sweep each when systematic; when not
    systematic every round makes n_iters random updates, so that the total is n_iters
    times the number of rounds. *)
Theorem C54_rounds : forall T (g : rng T) perm fuel h J n_iters systematic L t,
  let size := (dim0 L * dim1 L)%nat in
  (0 < size)%nat -> (n_iters < fuel)%nat ->
  iterate g perm fuel h J n_iters systematic (L, t) =
  repeatM ((n_iters + (size - 1)) / size)
    (if systematic then sweep_systematic g perm (dim0 L) (dim1 L) h J else random_flips g (dim0 L) (dim1 L) n_iters h J) (L, t).
Proof.
  intros T g perm fuel h J n_iters systematic L t size Hs Hf. unfold iterate. cbn [fst]. fold size.
  rewrite iterate_loop_ok; [now rewrite Nat.sub_0_r|assumption|]. rewrite Nat.sub_0_r.
  eapply Nat.le_lt_trans; [|exact Hf]. destruct n_iters as [|n']; [rewrite Nat.div_small by lia; lia|].
  apply Nat.div_le_upper_bound; [lia|]. nia.
Qed.
Print Assumptions C54_rounds.

(** An array of fields (documented) with more than one element raises ValueError in the
    constructor, and a nonzero integer field makes every non-empty iteration raise. *)
Theorem C54_field_arguments_refuted : forall d0 d1 A x y l z, concat A = x :: y :: l -> z <> 0%Z ->
  ising2d_h d0 d1 (FArray A) = Err ValueError /\
  exists a, ising2d_h d0 d1 (FInt z) = Ok a /\
    forall T (g : rng T) perm fuel J n_iters L t, (0 < dim0 L * dim1 L)%nat -> (0 < n_iters < fuel)%nat ->
      (forall t m, Permutation (fst (perm t m)) (seq 0 m)) ->
      iterate g perm fuel a J n_iters true (L, t) = Err TypeError.
Proof.
  intros d0 d1 A x y l z HA Hz. split; [unfold ising2d_h; now rewrite HA|]. exists (HInt z). split; [unfold ising2d_h; destruct (Z.eqb_spec z 0); [congruence|reflexivity]|].
  intros T g perm fuel J n_iters L t Hs Hn Hperm. rewrite C54_rounds by lia.
  set (size := (dim0 L * dim1 L)%nat) in *. destruct ((n_iters + (size - 1)) / size)%nat as [|k] eqn:Ek.
  - exfalso. apply Nat.div_small_iff in Ek; lia.
  - cbn [repeatM]. assert (E : sweep_systematic g perm (dim0 L) (dim1 L) (HInt z) J (L, t) = Err TypeError); [|now rewrite E].
    unfold sweep_systematic. cbn [fst snd]. destruct (perm t (dim0 L * dim1 L)%nat) as [ix t1] eqn:Ep.
    pose proof (Hperm t (dim0 L * dim1 L)%nat) as P. rewrite Ep in P. cbn [fst] in P. apply Permutation_length in P. rewrite seq_length in P. fold size in P.
    unfold sweep_sites. fold size. rewrite firstn_all2 by lia. destruct ix as [|k0 ix]; [cbn in P; lia|]. reflexivity.
Qed.
Print Assumptions C54_field_arguments_refuted.

(** A float is used at every site; the integer 0 means no field. *)
Theorem C54_float_field : forall d0 d1 x, exists A, ising2d_h d0 d1 (FFloat x) = Ok (HArray A) /\
  forall i j, (i < d0)%nat -> (j < d1)%nat -> field_at (HArray A) i j = Ok x /\
    exists B, ising2d_h d0 d1 (FInt 0) = Ok (HArray B) /\ field_at (HArray B) i j = Ok 0.
Proof.
  intros d0 d1 x. eexists. split; [reflexivity|]. intros i j Hi Hj. split.
  - cbn [field_at]. rewrite entry_mk_mat by assumption. f_equal. ring.
  - eexists. split; [reflexivity|]. cbn [field_at]. now rewrite entry_mk_mat by assumption.
Qed.
Print Assumptions C54_float_field.

(** Generator that plays back a list of integers (when they are in the requested range)
    and a list of uniform numbers. *)
Definition replay : rng (list nat * list R) := Rng (list nat * list R)
  (fun t lo hi => (if (Nat.leb lo (hd lo (fst t)) && Nat.ltb (hd lo (fst t)) hi)%bool then hd lo (fst t) else lo, (tl (fst t), snd t)))
  (fun t => (hd 0 (snd t), (fst t, tl (snd t)))).

(** The unsystematic iteration updates the sites drawn, one row number and one column
    number each: every site of the lattice can be drawn at every update. *)
Theorem C54_random_sites : forall A J L d0 d1 ps us, (forall p, In p ps -> (fst p < d0)%nat /\ (snd p < d1)%nat) ->
  exists L' us', random_flips replay d0 d1 (length ps) (HArray A) J (L, (flat_map (fun p => [fst p; snd p]) ps, us)) = Ok (L', ([], us')) /\
    flip_all replay (HArray A) J ps (L, ([], us)) = Ok (L', ([], us')).
Proof.
  intros A J L d0 d1 ps us Hps. unfold random_flips, flip_all. assert (G : forall l ps L us, length l = length ps -> (forall p, In p ps -> (fst p < d0)%nat /\ (snd p < d1)%nat) -> exists L' us',
    foldM (fun st (_ : nat) => let '(i, t) := randint replay (snd st) 0%nat d0 in let '(j, t) := randint replay t 0%nat d1 in
      bind (field_at (HArray A) i j) (fun hij => Ok (flip_metropolis replay i j hij J (fst st) t))) l (L, (flat_map (fun p => [fst p; snd p]) ps, us)) = Ok (L', ([], us')) /\
    foldM (fun st p => bind (field_at (HArray A) (fst p) (snd p)) (fun hij => Ok (flip_metropolis replay (fst p) (snd p) hij J (fst st) (snd st)))) ps (L, ([], us)) = Ok (L', ([], us'))).
  { clear. induction l as [|x l IH]; intros [|[i j] ps] L us HL Hps; cbn in HL; try lia; [exists L, us; split; reflexivity|].
    destruct (Hps (i, j) (or_introl eq_refl)) as [Hi Hj]. cbn [fst snd] in Hi, Hj.
    cbn [foldM flat_map app fst snd randint replay hd tl]. rewrite (proj2 (Nat.ltb_lt _ _) Hi), (proj2 (Nat.ltb_lt _ _) Hj). cbn [Nat.leb andb field_at bind].
    set (R := flat_map (fun p => [fst p; snd p]) ps). assert (M : exists L1 us1, flip_metropolis replay i j (entry A i j) J L (R, us) = (L1, (R, us1)) /\ flip_metropolis replay i j (entry A i j) J L ([], us) = (L1, ([], us1))).
    { unfold flip_metropolis. cbn [rand replay fst snd]. destruct (Rle_dec _ 0); [do 2 eexists; split; reflexivity|]. destruct (Rlt_dec _ _); do 2 eexists; split; reflexivity. }
    destruct M as (L1 & us1 & M1 & M2). fold R. rewrite M1, M2. apply IH; [lia|]. intros p Hp. apply Hps. now right. }
  apply G; [unfold range; apply seq_length|assumption].
Qed.
Print Assumptions C54_random_sites.

(** A 2x2 lattice: a field of 1 at a +1 spin lowers the energy of the reversal, and
    five unsystematic iterations are two rounds of five updates. *)
Example C54_example : lattice_dE 0 0 3 (/ 4) [[1; 1]; [1; -1]]%Z = -4 /\
  spin_lattice 2 2 [[1; 1]; [1; -1]]%Z /\
  sweep_sites 2 2 [3; 0; 2; 1]%nat = [(1, 1); (0, 0); (1, 0); (0, 1)]%nat /\
  ((5 + (2 * 2 - 1)) / (2 * 2) = 2)%nat.
Proof.
  split; [unfold lattice_dE; change (dim0 _) with 2%nat; change (dim1 _) with 2%nat; change (pred_mod 0 2) with 1%nat; cbn; lra|]. split; [|split; reflexivity].
  split; [split; [reflexivity|intros r [<-|[<-|[]]]; reflexivity]|]. intros i j Hi Hj. unfold site, spin.
  destruct i as [|[|]]; [| |lia]; destruct j as [|[|]]; try lia; cbn; auto.
Qed.
Print Assumptions C54_example.

(** ** C55 *)
(** When the block counts of the two axes agree (square lattices in particular), or
    the second axis is a multiple of the factor and not longer in blocks than the
    first: entry (a,b) is the sign of the block sum, the tied blocks get the random
    signs in row-major order. *)
Theorem C55_coarse_grain : forall choice d0 d1 L f, rect d0 d1 L -> (0 < d0)%nat -> (0 < f)%nat ->
  (d0 / f = d1 / f \/ (d1 / f <= d0 / f /\ d1 = d1 / f * f))%nat ->
  let r := (d0 / f)%nat in let c := (d1 / f)%nat in
  exists R, coarse_grain choice L f = Ok R /\ rect r c R /\
    forall a b, (a < r)%nat -> (b < c)%nat ->
      site R a b = if Z.eqb (block_sum L f a b) 0
                   then nth (ties_before (block_sum L f) r c a b) (choice (ties_total (block_sum L f) r c)) 0%Z
                   else Z.sgn (block_sum L f a b).
Proof.
  intros choice d0 d1 L f HL H0 Hf Hfit. destruct (rect_dims d0 d1 L HL H0) as [<- <-]. now apply coarse_grain_ok.
Qed.
Print Assumptions C55_coarse_grain.

Lemma skipn_nth_error {A} (l : list A) : forall k x, nth_error l k = Some x -> skipn k l = x :: skipn (S k) l.
Proof.
  induction l as [|a l IH]; intros [|k] x H; cbn in H; try discriminate; [injection H as ->; reflexivity|].
  cbn [skipn]. rewrite (IH k x H). destruct l; reflexivity.
Qed.

(** Every entry is +1 or -1 when the random signs are, one for each tie. *)
Theorem C55_spins : forall choice d L f R, rect d d L -> (0 < d)%nat -> (0 < f)%nat ->
  (forall m, length (choice m) = m /\ forall z, In z (choice m) -> z = (-1)%Z \/ z = 1%Z) ->
  coarse_grain choice L f = Ok R -> spin_lattice (d / f) (d / f) R.
Proof.
  intros choice d L f R HL Hd Hf Hch E. destruct (C55_coarse_grain choice d d L f HL Hd Hf (or_introl eq_refl)) as (R' & E' & HR & HS).
  rewrite E in E'. injection E' as <-. split; [assumption|]. intros a b Ha Hb. rewrite HS by assumption.
  destruct (Z.eqb_spec (block_sum L f a b) 0) as [Z0|N].
  - set (g := block_sum L f) in *. destruct (Hch (ties_total g (d / f) (d / f))) as [Hlen Hval]. apply Hval, nth_In. rewrite Hlen.
    unfold ties_before, ties_total. set (ps := list_prod (seq 0 (d / f)) (seq 0 (d / f))). set (k := (a * (d / f) + b)%nat).
    assert (Hk : nth_error ps k = Some (a, b)).
    { unfold ps. rewrite <- divmod_sites by lia. rewrite nth_error_map. assert (k < d / f * (d / f))%nat by (unfold k; nia).
      rewrite (nth_error_nth' _ 0%nat) by (now rewrite seq_length). rewrite seq_nth by assumption. cbn [option_map Nat.add]. f_equal. f_equal; symmetry.
      - apply Nat.div_unique with b; unfold k; lia.
      - apply Nat.mod_unique with a; unfold k; lia. }
    rewrite <- (firstn_skipn k ps) at 2. rewrite filter_app, app_length.
    pose proof (skipn_nth_error ps k (a, b) Hk) as Sk.
    rewrite Sk. cbn [filter fst snd]. apply Z.eqb_eq in Z0. rewrite Z0. cbn [length]. lia.
  - unfold spin. destruct (block_sum L f a b); cbn; auto; congruence.
Qed.
Print Assumptions C55_spins.

(** Other shapes raise ... *)
Theorem C55_raises : forall choice d0 d1 L f, rect d0 d1 L -> (0 < d0)%nat -> (0 < f)%nat ->
  (let r := d0 / f in let c := d1 / f in (r < c /\ r <> 1) \/ (c < r /\ 1 <= c /\ d1 <> c * f))%nat ->
  coarse_grain choice L f = Err ValueError.
Proof. intros choice d0 d1 L f HL H0 Hf H. destruct (rect_dims d0 d1 L HL H0) as [<- <-]. now apply coarse_grain_raises. Qed.
Print Assumptions C55_raises.

(** ... except a lattice of one row of blocks and several columns of blocks: the
    broadcast repeats the first block, and the result is silently wrong. *)
Theorem C55_single_row_refuted : exists L, rect 2 4 L /\
  forall choice, coarse_grain choice L 2 = Ok [[1; 1]]%Z /\ block_sum L 2 0 1 = (-4)%Z.
Proof.
  exists [[1; 1; -1; -1]; [1; 1; -1; -1]]%Z. split; [split; [reflexivity|intros r [<-|[<-|[]]]; reflexivity]|].
  intros choice. split; reflexivity.
Qed.
Print Assumptions C55_single_row_refuted.

Example C55_example : coarse_grain (fun m => repeat (-1)%Z m) [[1; 1; 1; -1]; [-1; 1; -1; 1]; [-1; -1; 1; 1]; [-1; 1; 1; 1]]%Z 2 = Ok [[1; -1]; [-1; 1]]%Z /\
  block_sum [[1; 1; 1; -1]; [-1; 1; -1; 1]; [-1; -1; 1; 1]; [-1; 1; 1; 1]]%Z 2 0 1 = 0%Z.
Proof. split; reflexivity. Qed.
Print Assumptions C55_example.
