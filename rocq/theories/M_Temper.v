(** * Model of ParallelTempering (coniii/samplers.py:615-909) and of
    coarse_grain_with_func (coniii/utils.py:1299-1366). *)
From Verif Require Import Prelude M_Index M_Energy M_Params M_Sampler.
Import ListNotations.
Local Open Scope R_scope.

(** One replica: the Metropolis object with the attributes that are used; [r_samples]
    is [_samples], [r_rng] its own generator. *)
Record replica (T : Type) := Rep {
  r_theta : list R; r_samples : option (list (list Z)); r_sample : list (list Z);
  r_E : list R; r_index : nat; r_rng : T }.
Arguments Rep {T}. Arguments r_theta {T}. Arguments r_samples {T}. Arguments r_sample {T}.
Arguments r_E {T}. Arguments r_index {T}. Arguments r_rng {T}.

(** coniii/samplers.py:793-797 [initialize_beta]: np.linspace. *)
Definition initialize_beta (b0 b1 : R) (n_replicas : nat) : list R :=
  map (fun i => b0 + INR i * ((b1 - b0) / INR (n_replicas - 1))) (range n_replicas).

Definition meanR (l : list R) : R := sumR l / INR (length l).

(** coniii/samplers.py:799-822 [iterate_beta], the loop over i = len-1, ..., 1; a zero
    average (0/0 = nan in numpy) is not distinguished here, theorems assume it positive. *)
Fixpoint iterate_beta_loop (k : nat) (beta ratio : list R) (avg : R) (newBeta : list R) : list R :=
  match k with
  | O => newBeta
  | S k' =>
    iterate_beta_loop k' beta ratio avg
      (upd newBeta k' (nthR newBeta k - (nthR beta k - nthR beta k') * nthR ratio k' / avg))
  end.

Definition iterate_beta (beta ratio : list R) : result (list R) :=
  if negb (Nat.eqb (length ratio + 1) (length beta)) then Err AssertionError
  else if negb (forallb (fun r => if Rle_dec r 1 then true else false) ratio) then Err AssertionError
  else Ok (iterate_beta_loop (length beta - 1) beta ratio (meanR ratio) beta).

Section Tempering.
Context {T : Type}.
Variable g : rng T.
Variable calc_e : list Z -> list R -> R.   (* calc_e(state, theta) *)
Variable n : nat.

(** coniii/samplers.py:693-715 [burn_in_replicas]: generate_sample(1, n_iters,
    systematic_iter=True) on each replica; [boost=False] makes that generate_sample_py. *)
Definition burn_replica (n_iters : nat) (rep : replica T) : result (replica T) :=
  bind (ising_generate_sample_py g (fun s => calc_e s (r_theta rep)) n 1 n_iters None true
          (r_samples rep) None (r_rng rep)) (fun r =>
  Ok (Rep (r_theta rep) (Some (g_samples r)) (g_sample r) (g_E r) (r_index rep) (g_rng r))).

Definition burn_in_replicas (n_iters default : nat) (reps : list (replica T)) : result (list (replica T)) :=
  mapM (burn_replica (match n_iters with O => default | _ => n_iters end)) reps.

(** coniii/samplers.py:900-907, one pair: [r.E] is an array with one entry. *)
Definition pair_ratio (beta : list R) (reps : list (replica T)) (p : nat * nat) : result R :=
  bind (get reps (fst p)) (fun r0 =>
  bind (get reps (snd p)) (fun r1 =>
  bind (get beta (fst p)) (fun b0 =>
  bind (get beta (snd p)) (fun b1 =>
  bind (get (r_E r0) 0) (fun e0 =>
  bind (get (r_E r1) 0) (fun e1 =>
  Ok (Rmin 1 (exp ((e0 / b0 - e1 / b1) * (b0 - b1)))))))))).

(** coniii/samplers.py:868-909 [_acceptance_ratio].  [cols] are the columns of
    acceptanceRatio; with n_iters=0 only column 0 is written, the others stay 0. *)
Fixpoint ratio_columns (n_samples n_iters default : nat) (beta : list R) (ps : list (nat * nat))
  (reps : list (replica T)) : result (list (list R) * list (replica T)) :=
  match n_samples with
  | O => Ok ([], reps)
  | S m =>
    bind (burn_in_replicas n_iters default reps) (fun reps1 =>
    bind (mapM (pair_ratio beta reps1) ps) (fun col =>
    bind (ratio_columns m n_iters default beta ps reps1) (fun cr =>
    Ok (col :: fst cr, snd cr))))
  end.

Definition acceptance_ratio (n_samples n_iters default : nat) (beta : list R) (ps : list (nat * nat))
  (reps : list (replica T)) : result (list R * list (replica T)) :=
  if negb (forallb (fun r => Nat.eqb (length (r_sample r)) 1) reps) then Err AssertionError
  else
    bind (match n_iters with
          | O => bind (mapM (pair_ratio beta reps) ps) (fun col =>
                 Ok (col :: repeat (map (fun _ => 0) ps) (n_samples - 1), reps))
          | _ => ratio_columns n_samples n_iters default beta ps reps
          end) (fun cr =>
    Ok (map (fun j => meanR (map (fun col => nthR col j) (fst cr))) (range (length ps)), snd cr)).

Definition all_pairs (nReplicas : nat) : list (nat * nat) := map (fun i => (i, S i)) (range (nReplicas - 1)).

(** coniii/samplers.py:728-744: the swap of replicas i and i+1. *)
Definition swap_pair (beta : list R) (i : nat) (reps : list (replica T)) : list (replica T) :=
  match nth_error reps i, nth_error reps (S i) with
  | Some a, Some b =>
    upd (upd reps i (Rep (r_theta a) (r_samples b) (r_sample b)
                         (map (fun e => e / nthR beta (S i) * nthR beta i) (r_E b)) (r_index b) (r_rng a)))
        (S i) (Rep (r_theta b) (r_samples a) (r_sample a)
                   (map (fun e => e / nthR beta i * nthR beta (S i)) (r_E a)) (r_index a) (r_rng b))
  | _, _ => reps
  end.

(** coniii/samplers.py:725-727: one uniform number of the master generator per pair. *)
Fixpoint exchange (beta : list R) (is : list nat) (reps : list (replica T)) (t : T) : result (list (replica T) * T) :=
  match is with
  | [] => Ok (reps, t)
  | i :: is' =>
    bind (acceptance_ratio 1 0 0 beta [(i, S i)] reps) (fun pr =>
    let '(u, t1) := rand g t in
    let reps1 := if Rlt_dec u (nthR (fst pr) 0) then swap_pair beta i reps else reps in
    exchange beta is' reps1 t1)
  end.

(** coniii/samplers.py:717-744 [burn_and_exchange]. *)
Definition burn_and_exchange (repExBurnin default : nat) (beta : list R) (reps : list (replica T)) (t : T)
  : result (list (replica T) * T) :=
  bind (burn_in_replicas repExBurnin default reps) (fun reps1 =>
  exchange beta (range (length beta - 1)) reps1 t).

(** coniii/samplers.py:669-675 [update_replica_parameters]. *)
Definition update_replica_parameters (theta beta : list R) (reps : list (replica T)) : list (replica T) :=
  map (fun br => let '(b, r) := br in
         Rep (map (fun x => x * b) theta) (r_samples r) (r_sample r) (r_E r) (r_index r) (r_rng r))
      (combine beta reps).

(** coniii/samplers.py:824-866 [optimize_beta]; [old] is None for the initial inf. *)
Fixpoint optimize_beta (max_iter : nat) (theta : list R) (n_samples n_iters default : nat) (tol : R)
  (old : option (list R)) (beta : list R) (reps : list (replica T)) : result (list R * list (replica T)) :=
  match max_iter with
  | O => Ok (beta, reps)
  | S m =>
    let go := match old with
              | None => true
              | Some o => if Rlt_dec tol (meanR (map (fun ab => Rabs (fst ab - snd ab)) (combine o beta))) then true else false
              end in
    if go then
      bind (acceptance_ratio n_samples n_iters default beta (all_pairs (length beta)) reps) (fun ar =>
      bind (iterate_beta beta (fst ar)) (fun beta1 =>
      optimize_beta m theta n_samples n_iters default tol (Some beta) beta1
        (update_replica_parameters theta beta1 (snd ar))))
    else Ok (beta, reps)
  end.

(** coniii/samplers.py:616-667, 677-691 constructor and [setup_replicas]; [seeds] are the
    generators of the replicas.  Result: (beta, replicas). *)
Definition tempering_new (theta : list R) (n_replicas : nat) (T0 T1 : R) (replica_burnin : nat) (seeds : nat -> T)
  : result (list R * list (replica T)) :=
  if negb (if Rlt_dec T0 T1 then if Rlt_dec 0 T0 then true else false else false) then Err AssertionError
  else if negb (Nat.ltb 1 n_replicas) then Err AssertionError
  else
    let default := (match replica_burnin with O => n * 50 | _ => replica_burnin end)%nat in
    let beta := initialize_beta (1 / T1) (1 / T0) n_replicas in
    let reps := map (fun i => Rep (map (fun x => x * nthR beta i) theta) None [] [] i (seeds i)) (range n_replicas) in
    bind (burn_in_replicas 0 default reps) (fun reps1 =>
    bind (optimize_beta 10 theta 10 (n * 10) default (1 / 100) None beta reps1) (fun br =>
    bind (burn_in_replicas 0 default (snd br)) (fun reps2 =>
    if forallb (fun i => if Rlt_dec (nthR (fst br) i) (nthR (fst br) (S i)) then true else false)
               (range (length (fst br) - 1))
    then Ok (fst br, reps2) else Err AssertionError))).

(** coniii/samplers.py:746-791 [generate_sample] with save_exchange_trajectory:
    the rows of self.sample (per sweep, the state of each replica) and the index history. *)
Fixpoint tempering_sample (m : nat) (repExBurnin default : nat) (beta : list R) (reps : list (replica T)) (t : T)
  : result (list (list (list Z)) * list (list nat) * (list (replica T) * T)) :=
  match m with
  | O => Ok ([], [], (reps, t))
  | S m' =>
    bind (burn_and_exchange repExBurnin default beta reps t) (fun rt =>
    bind (mapM (fun r => get (r_sample r) 0) (fst rt)) (fun row =>
    bind (tempering_sample m' repExBurnin default beta (fst rt) (snd rt)) (fun rest =>
    Ok (row :: fst (fst rest), map r_index (fst rt) :: snd (fst rest), snd rest))))
  end.
End Tempering.

(** ** coarse_grain_with_func *)
(** numpy.argmax of a non empty vector: the first position of the maximum. *)
Fixpoint argmax_from (best : R) (ibest i : nat) (l : list R) : nat :=
  match l with
  | [] => ibest
  | x :: l' => if Rlt_dec best x then argmax_from x i (S i) l' else argmax_from best ibest (S i) l'
  end.

Definition argmax (l : list R) : nat :=
  match l with [] => 0%nat | x :: l' => argmax_from x 0 1 l' end.

Fixpoint remove_at {A} (i : nat) (l : list A) : list A :=
  match l with
  | [] => []
  | x :: l' => match i with O => l' | S i' => x :: remove_at i' l' end
  end.

(** np.delete / list.pop with index [k - 1]: for k = 0 this is index -1, the last one. *)
Definition remove_before {A} (k : nat) (l : list A) : list A :=
  match k with O => remove_at (length l - 1) l | S i => remove_at i l end.

Definition delete_rc (del : forall A, list A -> list A) (m : list (list R)) : list (list R) :=
  map (del R) (del (list R) m).

(** coniii/utils.py:1338-1351: one round of the greedy loop, [w] = n-2i columns left. *)
Definition greedy_step (w : nat) (st : list (list R) * list nat * list (nat * nat))
  : result (list (list R) * list nat * list (nat * nat)) :=
  let '(cij, ix, clusters) := st in
  let k := argmax (concat cij) in
  let a := (k / w)%nat in
  let b := (k mod w)%nat in
  let '(a, b) := if Nat.ltb b a then (b, a) else (a, b) in
  bind (get ix a) (fun xa =>
  bind (get ix b) (fun xb =>
  Ok (delete_rc (fun A => @remove_before A b) (delete_rc (fun A => @remove_at A a) cij),
      remove_before b (remove_at a ix), clusters ++ [(xa, xb)]))).

Fixpoint greedy_loop (m w : nat) (st : list (list R) * list nat * list (nat * nat))
  : result (list (list R) * list nat * list (nat * nat)) :=
  match m with
  | O => Ok st
  | S m' => bind (greedy_step w st) (greedy_loop m' (w - 2))
  end.

(** coniii/utils.py:1330-1354: the clusters of one pass, as lists of column numbers. *)
Definition one_pass_clusters (n : nat) (sims : list R) : result (list (list nat)) :=
  bind (squareform_vec sims) (fun cij =>
  if negb (Nat.eqb (length cij) n) then Err AssertionError
  else
    bind (greedy_loop (n / 2) n (cij, range n, [])) (fun st =>
    let '(_, ix, clusters) := st in
    let cl := map (fun p => [fst p; snd p]) clusters in
    if Nat.odd n then bind (get ix 0) (fun x => Ok (cl ++ [[x]])) else Ok cl)).

(** coniii/utils.py:1299-1366 [coarse_grain_with_func]; X is given by its columns.
    [np.log2(ncols)>n_times] is taken to be exact.  coarse_func maps the chosen columns
    to one column. *)
Section Coarse.
Context {C : Type}.
Variable sim_func : list C -> list R.
Variable coarse_func : list C -> C.

Fixpoint coarse_passes (m : nat) (cols : list C) (bins : list (list nat)) : result (list C * list (list nat)) :=
  match m with
  | O => Ok (cols, bins)
  | S m' =>
    bind (one_pass_clusters (length cols) (sim_func cols)) (fun clusters =>
    bind (mapM (fun cl => mapM (get cols) cl) clusters) (fun picked =>
    bind (mapM (fun cl => bind (mapM (get bins) cl) (fun bs => Ok (concat bs))) clusters) (fun bins1 =>
    coarse_passes m' (map coarse_func picked) bins1)))
  end.

Definition coarse_grain_with_func (cols : list C) (n_times : nat) : result (list C * list (list nat)) :=
  if negb (Nat.ltb (2 ^ n_times) (length cols)) then Err AssertionError
  else coarse_passes n_times cols (map (fun i => [i]) (range (length cols))).
End Coarse.
