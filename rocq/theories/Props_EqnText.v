(** Property C81: the text of the equation files. *)
From Coq Require Import Ascii String.
From Verif Require Import Prelude Spec PreludeFacts M_Index M_Enum M_EqnText P_Enum P_EqnText P_EqnText2 P_EqnText3 P_EqnText4 Props_Enum.
From Verif Require Import D_EqnSmall D_Eqn7 D_Eqn7sym D_Eqn8 D_Eqn8sym D_Eqn9 D_Eqn9sym.
Import ListNotations.
Local Open Scope R_scope.

(** The text written for index arrays [cts], imported and called, returns the Boltzmann
    probabilities of all states and the expectations of all products of spins; for every license
    text and date, in both precisions. *)
Theorem C81_text : forall (license : option (list text)) (date : text) (hp : bool) (n : nat) (sym : bool) (cts : list (list (list nat))) (params : list R),
  (forall ls, license = Some ls -> forall l, In l ls -> ~ In nl l) -> ~ In nl date ->
  (0 < n)%nat -> (length cts <= 23)%nat ->
  (forall subix, In subix cts -> subix <> [] /\
     forall j k, (j < length (hd [] subix))%nat -> In k subix -> (nth j k 0 < n)%nat) ->
  let cs := flat_map (fun subix => map (fun j => map (fun k => nth j k 0%nat) subix) (seq 0 (length (hd [] subix)))) cts in
  cs <> [] -> length params = length cs ->
  let states := map (map IZR) (all_states (if sym then [-1; 1]%Z else [0; 1]%Z) n) in
  let prob := boltzmann (subset_energy cs params) states in
  exists t, write_eqns_text license date hp n sym cts = Ok t /\
    call_p t params = Ok (map (fun s => Some (prob s)) states) /\
    call_calc_observables t params = Ok (map (fun c => Some (expectation prob states (fun s => prodR (map (nthR s) c)))) cs).
Proof.
  intros license date hp n sym cts params Hlic Hdate Hn Hlen Hok cs Hcs Hp states prob.
  destruct (C22_write_eqns n sym cts params Hn Hlen Hok Hp) as (f & P & C & E1 & E2 & E3 & _ & _ & E6 & E7).
  destruct (text_of_file license date hp n sym cts f) as (t & T1 & T2 & T3 & _).
  - intros ls E. apply Forall_forall. intros l Hl. apply Forall_forall. intros x Hx ->. exact (Hlic ls E l Hl Hx).
  - apply Forall_forall. intros x Hx ->. exact (Hdate Hx).
  - exact Hlen.
  - intros subix Hs. apply (Hok subix Hs).
  - exact Hcs.
  - exact E1.
  - exists t. split; [exact T1|]. split.
    + rewrite (T3 _ _ E2), E3, map_map. reflexivity.
    + rewrite (T2 _ _ E6), E7, map_map. reflexivity.
Qed.
Print Assumptions C81_text.

(** The text written by [pairwise], imported and called. *)
Theorem C81_pairwise : forall (license : option (list text)) (date : text) (hp : bool) (n : nat) (sym : bool),
  (forall ls, license = Some ls -> forall l, In l ls -> ~ In nl l) -> ~ In nl date -> (0 < n)%nat ->
  exists t, pairwise_text license date hp n sym = Ok t /\
  forall params, length params = (n + n * (n - 1) / 2)%nat ->
  let states := map (map IZR) (all_states (if sym then [-1; 1]%Z else [0; 1]%Z) n) in
  let prob := boltzmann (ising_energy n params) states in
  exists C, call_p t params = Ok (map (fun s => Some (prob s)) states) /\
    call_calc_observables t params = Ok (map Some C) /\ length C = (n + n * (n - 1) / 2)%nat /\
    (forall i, (i < n)%nat -> nthR C i = expectation prob states (fun s => nthR s i)) /\
    (forall i j, (i < j)%nat -> (j < n)%nat ->
       nthR C (n + pair_index n i j) = expectation prob states (fun s => nthR s i * nthR s j)).
Proof.
  intros license date hp n sym Hlic Hdate Hn.
  destruct (C22_pairwise n sym (repeat 0 (n + n * (n - 1) / 2)) Hn (repeat_length _ _)) as (f & _ & _ & E1 & _).
  destruct (text_of_file license date hp n sym [[range n]; [map fst (where_triu n); map snd (where_triu n)]] f) as (t & T1 & T2 & T3 & _).
  - intros ls E. apply Forall_forall. intros l Hl. apply Forall_forall. intros x Hx ->. exact (Hlic ls E l Hl Hx).
  - apply Forall_forall. intros x Hx ->. exact (Hdate Hx).
  - cbn. lia.
  - intros subix [<-|[<-|[]]]; discriminate.
  - rewrite pairwise_tuples. destruct n; [lia|discriminate].
  - exact E1.
  - exists t. split; [exact T1|]. intros params Hp states prob.
    destruct (C22_pairwise n sym params Hn Hp) as (f' & P & C & F1 & F2 & F3 & _ & _ & F6 & F7 & F8 & F9).
    assert (f' = f) by congruence. subst f'. exists C. split; [rewrite (T3 _ _ F2), F3, map_map; reflexivity|]. split; [exact (T2 _ _ F6)|]. auto.
Qed.
Print Assumptions C81_pairwise.

(** The text written by [triplet], imported and called. *)
Theorem C81_triplet : forall (license : option (list text)) (date : text) (hp : bool) (n : nat) (sym : bool),
  (forall ls, license = Some ls -> forall l, In l ls -> ~ In nl l) -> ~ In nl date -> (3 <= n)%nat ->
  exists t, triplet_text license date hp n sym = Ok t /\
  forall h J K, length h = n -> length J = binom n 2 -> length K = binom n 3 ->
  let states := map (map IZR) (all_states (if sym then [-1; 1]%Z else [0; 1]%Z) n) in
  let prob := boltzmann (multi_energy [h; J; K]) states in
  exists C, call_p t (h ++ J ++ K) = Ok (map (fun s => Some (prob s)) states) /\
    call_calc_observables t (h ++ J ++ K) = Ok (map Some C) /\ length C = (n + binom n 2 + binom n 3)%nat /\
    (forall c, (c < length C)%nat ->
       nthR C c = expectation prob states (fun s => nthR (corr_obs 1 s ++ corr_obs 2 s ++ corr_obs 3 s) c)).
Proof.
  intros license date hp n sym Hlic Hdate Hn.
  destruct (C22_triplet n sym (repeat 0 n) (repeat 0 (binom n 2)) (repeat 0 (binom n 3)) Hn (repeat_length _ _) (repeat_length _ _) (repeat_length _ _)) as (f & _ & _ & E1 & _).
  assert (Hne : forall k, (0 < k <= 3)%nat -> zip_star k (combinations (range n) k) <> []).
  { intros k Hk. unfold zip_star. assert (Q : combinations (range n) k <> []).
    { intros E. apply (f_equal (@length _)) in E. rewrite combinations_length in E. unfold range in E. rewrite seq_length in E.
      assert (G : forall n' k', (k' <= n')%nat -> (0 < binom n' k')%nat). { clear. induction n' as [|n' IH]; intros [|k'] Hk; cbn; try lia. specialize (IH k'). lia. }
      specialize (G n k). cbn [length] in E. lia. }
    destruct (combinations (range n) k); [congruence|]. destruct k; [lia|]. discriminate. }
  destruct (text_of_file license date hp n sym [[range n]; zip_star 2 (combinations (range n) 2); zip_star 3 (combinations (range n) 3)] f) as (t & T1 & T2 & T3 & _).
  - intros ls E. apply Forall_forall. intros l Hl. apply Forall_forall. intros x Hx ->. exact (Hlic ls E l Hl Hx).
  - apply Forall_forall. intros x Hx ->. exact (Hdate Hx).
  - cbn. lia.
  - intros subix [<-|[<-|[<-|[]]]]; [discriminate|apply Hne; lia|apply Hne; lia].
  - unfold all_tuples, tuples, nterms. cbn [flat_map hd]. unfold range. rewrite seq_length. destruct n; [lia|discriminate].
  - exact E1.
  - exists t. split; [exact T1|]. intros h J K Hh HJ HK states prob.
    destruct (C22_triplet n sym h J K Hn Hh HJ HK) as (f' & P & C & F1 & F2 & F3 & _ & F6 & F7 & F8).
    assert (f' = f) by congruence. subst f'. exists C. split; [rewrite (T3 _ _ F2), F3, map_map; reflexivity|]. split; [exact (T2 _ _ F6)|]. auto.
Qed.
Print Assumptions C81_triplet.

(** ** The files in coniii/ising_eqn *)
(** Number of spins, whether spins are -1/+1, and lines. *)
Definition shipped_pairwise : list (nat * bool * list string) :=
  [ (2%nat, false, eqn_2); (2%nat, true, eqn_2_sym); (3%nat, false, eqn_3); (3%nat, true, eqn_3_sym); (4%nat, false, eqn_4); (4%nat, true, eqn_4_sym);
    (5%nat, false, eqn_5); (5%nat, true, eqn_5_sym); (6%nat, false, eqn_6); (6%nat, true, eqn_6_sym); (7%nat, false, eqn_7); (7%nat, true, eqn_7_sym);
    (8%nat, false, eqn_8); (8%nat, true, eqn_8_sym); (9%nat, false, eqn_9); (9%nat, true, eqn_9_sym) ].
Definition shipped_triplet : list (nat * bool * list string) := [ (5%nat, false, eqn_5_triplet); (5%nat, true, eqn_5_sym_triplet) ].

Definition text_of (ls : list string) : text := flat_map line ls.

(** License and date of a shipped file: lines 1-21 and 25 without the comment sign. *)
Definition license_of (ls : list string) : option (list text) := Some (map (fun l => skipn 2 (lit l)) (firstn 21 ls)).
Definition date_of (ls : list string) : text := skipn 2 (lit (nth 24 ls ""%string)).

Definition no_nl (l : text) : bool := forallb (fun c => negb (Ascii.eqb c nl)) l.
Definition regenerates (make : option (list text) -> text -> bool -> nat -> bool -> result text) (x : nat * bool * list string) : bool :=
  let '(n, sym, ls) := x in
  (match make (license_of ls) (date_of ls) false n sym with Ok t => text_eqb t (text_of ls) | Err _ => false end
   && no_nl (date_of ls) && forallb no_nl (map (fun l => skipn 2 (lit l)) (firstn 21 ls)))%bool.

Lemma text_eqb_eq a : forall b, text_eqb a b = true -> a = b.
Proof.
  induction a as [|c a IH]; intros [|d b] H; try discriminate; [reflexivity|]. cbn in H. apply andb_true_iff in H. destruct H as [H1 H2]. apply Ascii.eqb_eq in H1. f_equal; auto.
Qed.
Lemma no_nl_ok l : no_nl l = true -> ~ In nl l.
Proof. unfold no_nl. rewrite forallb_forall. intros H Hin. specialize (H nl Hin). discriminate. Qed.

Lemma regenerates_ok make n sym ls : regenerates make (n, sym, ls) = true ->
  make (license_of ls) (date_of ls) false n sym = Ok (text_of ls) /\ ~ In nl (date_of ls) /\ (forall u, license_of ls = Some u -> forall l, In l u -> ~ In nl l).
Proof.
  unfold regenerates. intros H. apply andb_true_iff in H. destruct H as [H H3]. apply andb_true_iff in H. destruct H as [H1 H2]. split.
  - destruct (make _ _ _ _ _) as [t|]; [|discriminate]. f_equal. now apply text_eqb_eq.
  - split; [now apply no_nl_ok|]. intros u E l Hl. unfold license_of in E. assert (Q : map (fun l => skipn 2 (lit l)) (firstn 21 ls) = u) by congruence. rewrite Q in H3.
    rewrite forallb_forall in H3. apply no_nl_ok. now apply H3.
Qed.

Lemma pairwise_regenerated : forallb (regenerates pairwise_text) shipped_pairwise = true.
Proof. vm_compute. reflexivity. Qed.
Lemma triplet_regenerated : forallb (regenerates triplet_text) shipped_triplet = true.
Proof. vm_compute. reflexivity. Qed.

(** Every pairwise equation file in the package (two to nine spins, both conventions): for all
    parameters p returns the Boltzmann probabilities and calc_observables the means and pair
    correlations. *)
Theorem C81_shipped_pairwise : forall n sym ls params, In (n, sym, ls) shipped_pairwise -> length params = (n + n * (n - 1) / 2)%nat ->
  let states := map (map IZR) (all_states (if sym then [-1; 1]%Z else [0; 1]%Z) n) in
  let prob := boltzmann (ising_energy n params) states in
  exists C, call_p (text_of ls) params = Ok (map (fun s => Some (prob s)) states) /\
    call_calc_observables (text_of ls) params = Ok (map Some C) /\ length C = (n + n * (n - 1) / 2)%nat /\
    (forall i, (i < n)%nat -> nthR C i = expectation prob states (fun s => nthR s i)) /\
    (forall i j, (i < j)%nat -> (j < n)%nat ->
       nthR C (n + pair_index n i j) = expectation prob states (fun s => nthR s i * nthR s j)).
Proof.
  intros n sym ls params Hin Hp states prob. assert (H := pairwise_regenerated). rewrite forallb_forall in H. specialize (H _ Hin).
  destruct (regenerates_ok _ _ _ _ H) as (E & Hd & Hl).
  assert (Hn : (0 < n)%nat). { assert (G : Forall (fun x => (0 < fst (fst x))%nat) shipped_pairwise) by (repeat constructor). rewrite Forall_forall in G. exact (G _ Hin). }
  clear H Hin. destruct (C81_pairwise _ _ false n sym Hl Hd Hn) as (t & Et & Q). assert (t = text_of ls) by congruence. subst t. exact (Q params Hp).
Qed.
Print Assumptions C81_shipped_pairwise.

(** The two triplet files in the package. *)
Theorem C81_shipped_triplet : forall n sym ls h J K, In (n, sym, ls) shipped_triplet -> length h = n -> length J = binom n 2 -> length K = binom n 3 ->
  let states := map (map IZR) (all_states (if sym then [-1; 1]%Z else [0; 1]%Z) n) in
  let prob := boltzmann (multi_energy [h; J; K]) states in
  exists C, call_p (text_of ls) (h ++ J ++ K) = Ok (map (fun s => Some (prob s)) states) /\
    call_calc_observables (text_of ls) (h ++ J ++ K) = Ok (map Some C) /\ length C = (n + binom n 2 + binom n 3)%nat /\
    (forall c, (c < length C)%nat ->
       nthR C c = expectation prob states (fun s => nthR (corr_obs 1 s ++ corr_obs 2 s ++ corr_obs 3 s) c)).
Proof.
  intros n sym ls h J K Hin Hh HJ HK states prob. assert (H := triplet_regenerated). rewrite forallb_forall in H. specialize (H _ Hin).
  destruct (regenerates_ok _ _ _ _ H) as (E & Hd & Hl).
  assert (Hn : (3 <= n)%nat). { assert (G : Forall (fun x => (3 <= fst (fst x))%nat) shipped_triplet) by (repeat constructor). rewrite Forall_forall in G. exact (G _ Hin). }
  clear H Hin. destruct (C81_triplet _ _ false n sym Hl Hd Hn) as (t & Et & Q). assert (t = text_of ls) by congruence. subst t. exact (Q h J K Hh HJ HK).
Qed.
Print Assumptions C81_shipped_triplet.

Example C81_example :
  (exists t, pairwise_text None (lit "2026/01/01") false 2 true = Ok t /\ exists c, read_file t = Some (c,
    [SDoc; SZeros true 3; SSlice "H" 0 2; SSlice "J" 2 3; SSlice "H" 0 2; SSlice "J" 2 3; SZeros false 4;
     SEnergies [[(false, AVar "H" 0); (false, AVar "H" 1); (false, AVar "J" 0)]; [(false, AVar "H" 0); (true, AVar "H" 1); (true, AVar "J" 0)];
                [(true, AVar "H" 0); (false, AVar "H" 1); (true, AVar "J" 0)]; [(true, AVar "H" 0); (true, AVar "H" 1); (false, AVar "J" 0)]];
     SLogZ;
     SPout 0 [(false, AVar "H" 0); (false, AVar "H" 1); (false, AVar "J" 0)]; SPout 1 [(false, AVar "H" 0); (true, AVar "H" 1); (true, AVar "J" 0)];
     SPout 2 [(true, AVar "H" 0); (false, AVar "H" 1); (true, AVar "J" 0)]; SPout 3 [(true, AVar "H" 0); (true, AVar "H" 1); (false, AVar "J" 0)];
     SReverse; SReturn false]%char)) /\
  (length eqn_9 = 2001%nat /\ nth 64 eqn_3 "" = "    Pout = zeros((8))")%string /\
  (exists C, call_calc_observables (text_of eqn_3_sym) [0.1; 0.2; 0.3; -1; 0; 1] = Ok (map Some C) /\ length C = 6%nat).
Proof.
  split; [|split].
  - destruct (pairwise_text None (lit "2026/01/01") false 2 true) as [t|] eqn:E; [|exfalso; vm_compute in E; discriminate]. exists t. split; [reflexivity|].
    vm_compute in E. assert (Q : t = t) by reflexivity. injection E as <-. clear. eexists. vm_compute. reflexivity.
  - vm_compute. auto.
  - destruct (C81_shipped_pairwise 3 true eqn_3_sym [0.1; 0.2; 0.3; -1; 0; 1]) as (C & _ & E & L & _); [do 3 apply in_cons; apply in_eq|reflexivity|]. exists C. split; [exact E|exact L].
Qed.
Print Assumptions C81_example.
