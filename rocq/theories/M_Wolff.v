(** * Model of the cluster samplers: coniii/samplers.py [WolffIsing], the helpers of
    [SWIsing] and [iter_cluster].  Spins are integers, other numbers reals; a vector
    modified in place is modelled by the new vector. *)
From Verif Require Import Prelude M_Index M_Params M_Sampler.
Import ListNotations.
Local Open Scope R_scope.

(** [rng.rand(n)]. *)
Fixpoint rand_vec {T} (g : rng T) (n : nat) (t : T) : list R * T :=
  match n with
  | 0%nat => ([], t)
  | S n' => let '(u, t) := rand g t in let '(r, t) := rand_vec g n' t in (u :: r, t)
  end.

(** coniii/samplers.py:381-407 [iterate_neighbors]; the counter and the preallocated
    array are rendered as a filter. *)
Definition iterate_neighbors (n : nat) (ix : list bool) (expdJ r : list R) : list nat :=
  filter (fun i => negb (nth i ix false) && (if Rlt_dec (nthR r i) (1 - nthR expdJ i) then true else false))
         (range n).

(** [ix = zeros; ix[alreadyMarked] = True; ix[site] = True] (coniii/samplers.py:370-372). *)
Definition mark (n : nat) (alreadyMarked : list nat) (site : nat) : list bool :=
  map (fun i => existsb (Nat.eqb i) alreadyMarked || Nat.eqb i site)%bool (range n).

(** [self.expdJ[:,site]]. *)
Definition column (A : list (list R)) (n site : nat) : list R := map (fun i => entry A i site) (range n).

(** coniii/samplers.py:351-378 [WolffIsing.find_neighbors]: the neighbours and the
    list of marked sites, which the code extends in place. *)
Definition find_neighbors {T} (g : rng T) (n : nat) (expdJ : list (list R)) (site : nat)
  (alreadyMarked : list nat) (t : T) : list nat * list nat * T :=
  let '(r, t) := rand_vec g n t in
  let neighbors := iterate_neighbors n (mark n alreadyMarked site) (column expdJ n site) r in
  (neighbors, alreadyMarked ++ neighbors, t).

(** coniii/samplers.py:346-348, the while loop of [build_cluster]. *)
Fixpoint grow {T} (g : rng T) (n : nat) (expdJ : list (list R)) (fuel : nat) (newSites marked : list nat) (t : T)
  : result (list nat * T) :=
  match newSites with
  | [] => Ok (marked, t)
  | s0 :: rest =>
    match fuel with
    | 0%nat => Err OutOfFuel
    | S fuel' =>
      let '(neighbors, marked, t) := find_neighbors g n expdJ s0 marked t in
      grow g n expdJ fuel' (rest ++ neighbors) marked t
    end
  end.

(** coniii/samplers.py:335-349 [WolffIsing.build_cluster]; a site that is not an index
    of the system raises IndexError at [ix[alreadyMarked]] (negative sites are not
    modelled). *)
Definition build_cluster {T} (g : rng T) (n : nat) (expdJ : list (list R)) (fuel : nat) (initialsite : nat) (t : T)
  : result (list nat * T) :=
  if Nat.ltb initialsite n then grow g n expdJ fuel [initialsite] [initialsite] t else Err IndexError.

(** [np.exp(-2*state[:,None]*J*state[None,:])] (coniii/samplers.py:322). *)
Definition exp_dJ (n : nat) (J : list (list R)) (state : list Z) : list (list R) :=
  mk_mat n n (fun i j => exp (-2 * IZR (nth i state 0%Z) * entry J i j * IZR (nth j state 0%Z))).

(** [state[cluster] *= -1]: every listed position once. *)
Definition flip_cluster (state : list Z) (cluster : list nat) : list Z :=
  map (fun i => if existsb (Nat.eqb i) cluster then (nth i state 0 * -1)%Z else nth i state 0%Z) (range (length state)).

(** [h[cluster].dot(state[cluster])]. *)
Definition cluster_field (h : list R) (state : list Z) (cluster : list nat) : R :=
  dot (map (nthR h) cluster) (map (fun i => IZR (nth i state 0%Z)) cluster).

(** [initialsite or rng.randint(n)] (coniii/samplers.py:325): 0 counts as missing. *)
Definition first_site {T} (g : rng T) (n : nat) (initialsite : option nat) (t : T) : nat * T :=
  match initialsite with
  | Some (S k) => (S k, t)
  | _ => randint g t 0%nat n
  end.

(** A [WolffIsing] object. *)
Record wolff := MkWolff { w_n : nat; w_J : list (list R); w_h : list R }.

(** coniii/samplers.py:316-333 [WolffIsing.one_step]. *)
Definition one_step {T} (g : rng T) (self : wolff) (fuel : nat) (state : list Z) (initialsite : option nat) (t : T)
  : result (list Z * T) :=
  let n := w_n self in
  let expdJ := exp_dJ n (w_J self) state in
  let '(site, t) := first_site g n initialsite t in
  bind (build_cluster g n expdJ fuel site t) (fun ct =>
  let '(cluster, t) := ct in
  let '(u, t) := rand g t in
  if Rlt_dec u (exp (-2 * cluster_field (w_h self) state cluster))
  then Ok (flip_cluster state cluster, t) else Ok (state, t)).

(** The argument J of the constructor. *)
Inductive coupling_arg := CVec (v : list R) | CMat (A : list (list R)).

(** coniii/samplers.py:217-243 [WolffIsing.__init__] and [update_parameters]. *)
Definition wolff_init (J : coupling_arg) (h : list R) : result wolff :=
  let len := match J with CVec v => length v | CMat A => length A end in
  if negb (Nat.eqb len (length h * (length h - 1) / 2)) then Err AssertionError
  else match J with
       | CVec v => bind (squareform_vec v) (fun A => Ok (MkWolff (length h) A h))
       | CMat A => Ok (MkWolff (length h) A h)
       end.

(** [for j in range(n_iters): self.one_step(s,initialsite=j%self.n)] or without the
    site: the states after each step, most recent first. *)
Definition steps {T} (g : rng T) (self : wolff) (fuel n_iters : nat) (given : bool) (s : list Z) (t : T)
  : result (list Z * list (list Z) * T) :=
  foldM (fun st j =>
           let '(s, hist, t) := st in
           bind (one_step g self fuel s (if given then Some (j mod w_n self)%nat else None) t) (fun st' =>
           Ok (fst st', fst st' :: hist, snd st')))
        (range n_iters) (s, [s], t).

(** coniii/samplers.py:245-270 [WolffIsing.generate_sample]; [sample] is the initial
    sample (given or drawn), modified in place and returned; the history of sample i
    lists its states in order. *)
Definition wolff_generate {T} (g : rng T) (self : wolff) (fuel n_iters : nat) (save_history : bool)
  (sample : list (list Z)) (t : T) : result (list (list Z) * option (list (list (list Z))) * T) :=
  bind (foldM (fun st s =>
           let '(out, hist, t) := st in
           bind (steps g self fuel n_iters save_history s t) (fun r =>
           let '(s', h', t') := r in Ok (out ++ [s'], hist ++ [rev h'], t')))
        sample ([], [], t)) (fun r =>
  let '(out, hist, t) := r in Ok (out, if save_history then Some hist else None, t)).

(** The loop of coniii/samplers.py:308-313; [need] states are still to be recorded;
    [iters] bounds the number of turns. *)
Fixpoint chain_loop {T} (g : rng T) (self : wolff) (fuel sampleseparation iters need counter : nat) (state : list Z)
  (sample : list (list Z)) (t : T) : result (list (list Z) * T) :=
  match need with
  | 0%nat => Ok (sample, t)
  | S need' =>
    match iters with
    | 0%nat => Err OutOfFuel
    | S iters' =>
      bind (one_step g self fuel state None t) (fun st =>
      let '(state, t) := st in
      match sampleseparation with
      | 0%nat => Err ZeroDivisionError
      | _ => if Nat.eqb (counter mod sampleseparation) 0
             then chain_loop g self fuel sampleseparation iters' need' (S counter) state (sample ++ [state]) t
             else chain_loop g self fuel sampleseparation iters' need (S counter) state sample t
      end)
    end
  end.

(** coniii/samplers.py:297-314 [WolffIsing._generate_sample]; [state] is the initial
    state drawn at line 303. *)
Definition wolff_chain {T} (g : rng T) (self : wolff) (fuel iters samplesize sampleseparation : nat) (state : list Z) (t : T)
  : result (list (list Z) * T) := chain_loop g self fuel sampleseparation iters samplesize 0 state [] t.

(** ** Swendsen-Wang helpers *)
(** coniii/samplers.py:416-432 [SWIsing.__init__]: the first statement raises. *)
Definition sw_init (n : nat) (theta : list R) : result wolff := Err NotImplementedError.

(** coniii/samplers.py:527-536 [pairwise_prod]. *)
Definition pairwise_prod (state : list Z) : list Z :=
  map (fun p => (nth (fst p) state 0 * nth (snd p) state 0)%Z) (loop_ij (length state)).

(** coniii/samplers.py:538-561 [sample_bonds]. *)
Definition sample_bonds (p r : list R) (state : list Z) (J : list R) : list R :=
  map (fun ck =>
         let '(counter, (i, j)) := ck in
         let ss := (nth i state 0 * nth j state 0)%Z in
         if Rlt_dec (nthR J counter) 0 then
           if Z.ltb ss 0 then if Rlt_dec (nthR r counter) (nthR p counter) then 1 else 0 else 0
         else if Rlt_dec 0 (nthR J counter) then
           if Z.ltb 0 ss then if Rlt_dec (nthR r counter) (nthR p counter) then 1 else 0 else 0
         else 0)
      (combine (range (length J)) (loop_ij (length state))).

(** coniii/samplers.py:501-512 [SWIsing.get_clusters] up to the adjacency matrix. *)
Definition sw_bonds {T} (g : rng T) (J : list R) (state : list Z) (t : T) : list R * T :=
  let p := map (fun c => 1 - exp (-2 * nthR J c * IZR (nth c (pairwise_prod state) 0%Z))) (range (length J)) in
  let '(r, t) := rand_vec g (length J) t in
  (sample_bonds p r state J, t).

(** coniii/samplers.py:514-517 [SWIsing.randomly_flip_clusters]. *)
Definition flip_clusters {T} (g : rng T) (h : list R) (state : list Z) (clusters : list (list nat)) (t : T) : list Z * T :=
  fold_left (fun st cls =>
      let '(state, t) := st in
      let '(u, t) := rand g t in
      if Rlt_dec (1 / (1 + exp (-2 * cluster_field h state cls))) u then (flip_cluster state cls, t) else (state, t))
    clusters (state, t).

(** ** Connected components *)
(** The order in which a Python set is popped or iterated: [pick] chooses the element
    that [set.pop] returns, [order] lists the elements; both may depend on a step
    counter (the history of the set). *)
Record set_order := SetOrder { pick : nat -> list nat -> nat; order : nat -> list nat -> list nat }.

Definition remove_all (l m : list nat) : list nat := filter (fun x => negb (existsb (Nat.eqb x) m)) l.

(** [np.nonzero(adj[i])[0]]. *)
Definition nonzero_row (adj : list (list R)) (i : nat) : list nat :=
  filter (fun j => negb (Reqb (entry adj i j) 0)) (range (length (nth i adj []))).

(** coniii/samplers.py:578-587, the inner while loop. *)
Fixpoint explore (o : set_order) (adj : list (list R)) (fuel : nat) (thisCluster newSites marked : list nat)
  : result (list nat * list nat) :=
  match newSites with
  | [] => Ok (thisCluster, marked)
  | s0 :: rest =>
    match fuel with
    | 0%nat => Err OutOfFuel
    | S fuel' =>
      let neighbors := remove_all (nonzero_row adj s0) marked in
      explore o adj fuel' (thisCluster ++ [s0]) (rest ++ order o fuel neighbors) (neighbors ++ marked)
    end
  end.

(** coniii/samplers.py:572-591, the outer while loop. *)
Fixpoint components (o : set_order) (adj : list (list R)) (fuel : nat) (initialSites marked : list nat)
  (clusters : list (list nat)) : result (list (list nat)) :=
  match initialSites with
  | [] => Ok clusters
  | _ =>
    match fuel with
    | 0%nat => Err OutOfFuel
    | S fuel' =>
      let s := pick o fuel initialSites in
      bind (explore o adj (length adj) [] [s] (s :: marked)) (fun cm =>
      let '(thisCluster, marked) := cm in
      components o adj fuel' (remove_all (remove_all initialSites [s]) marked) marked (clusters ++ [thisCluster]))
    end
  end.

(** coniii/samplers.py:563-591 [iter_cluster]. *)
Definition iter_cluster (o : set_order) (adj : list (list R)) (fuel : nat) : result (list (list nat)) :=
  components o adj fuel (range (length adj)) [] [].

(** ** Swendsen-Wang steps *)
(** coniii/samplers.py:501-512 [SWIsing.get_clusters]. The size of J is taken to be
    n(n-1)/2: numpy broadcasting of other sizes is not modelled. *)
Definition sw_get_clusters {T} (g : rng T) (o : set_order) (J : list R) (state : list Z) (t : T)
  : result (list (list nat) * T) :=
  let '(bonds, t) := sw_bonds g J state t in
  bind (squareform_vec bonds) (fun adj =>
  bind (iter_cluster o adj (length adj)) (fun clusters => Ok (clusters, t))).

(** coniii/samplers.py:496-499 [SWIsing.one_step], for an object with fields h and
    couplings J (the constructor cannot make one, see [sw_init]). *)
Definition sw_one_step {T} (g : rng T) (o : set_order) (h J : list R) (state : list Z) (t : T) : result (list Z * T) :=
  bind (sw_get_clusters g o J state t) (fun ct =>
  let '(clusters, t) := ct in Ok (flip_clusters g h state clusters t)).

(** coniii/samplers.py:490-492, the inner loop of [SWIsing.generate_sample]; the set
    order may differ from call to call. *)
Fixpoint sw_steps {T} (g : rng T) (os : nat -> set_order) (h J : list R) (n_iters : nat) (state : list Z) (t : T)
  : result (list Z * T) :=
  match n_iters with
  | 0%nat => Ok (state, t)
  | S k => bind (sw_one_step g (os k) h J state t) (fun st => let '(state, t) := st in sw_steps g os h J k state t)
  end.

(** coniii/samplers.py:475-494 [SWIsing.generate_sample] with an initial state (one row
    per sample); the rows are advanced one after the other. *)
Fixpoint sw_generate {T} (g : rng T) (os : nat -> nat -> set_order) (h J : list R) (n_iters : nat) (sample : list (list Z)) (t : T)
  : result (list (list Z) * T) :=
  match sample with
  | [] => Ok ([], t)
  | s :: rest =>
    bind (sw_steps g (os (length rest)) h J n_iters s t) (fun st =>
    let '(s', t) := st in
    bind (sw_generate g os h J n_iters rest t) (fun rt => let '(rest', t) := rt in Ok (s' :: rest', t)))
  end.
