(** * Facts about the [Ising] front end: energy differences and basins. *)
From Verif Require Import Prelude PreludeFacts Spec M_Index M_Params M_RMF M_Sampler M_Ising P_Index P_Energy P_Energy2 P_Params P_RMF P_Sampler.
Import ListNotations.
Local Open Scope R_scope.

(** ** The constructor *)
Definition vec_value (len : nat) (a : vec_arg) : list R :=
  match a with ANone => repeat 0 len | ANumber x => repeat x len | APyList l | AArray l => l end.

Lemma fill_vec len a v : fill_arg len a = Ok v -> (exists l, v = AArray l /\ l = vec_value len a /\ length l = len) \/ (exists l, v = APyList l).
Proof.
  destruct a as [|x|l|l]; cbn [fill_arg vec_value].
  - intros E. injection E as <-. left. eexists. split; [reflexivity|]. split; [reflexivity|apply repeat_length].
  - intros E. injection E as <-. left. eexists. split; [reflexivity|]. rewrite map_length, repeat_length. split; [|reflexivity].
    induction len as [|len IH]; [reflexivity|]. cbn [repeat map]. rewrite IH. f_equal. ring.
  - destruct (Nat.eqb_spec (length l) len); intros E; [|discriminate]. injection E as <-. right. now exists l.
  - destruct (Nat.eqb_spec (length l) len); intros E; [|discriminate]. injection E as <-. left. now exists l.
Qed.

(** What a successfully constructed object holds. *)
Definition ising_ok (self : ising) (n : nat) (h J : list R) : Prop :=
  is_n self = n /\ (1 < n)%nat /\ length h = n /\ length J = (n * (n - 1) / 2)%nat /\ is_hJ self = h ++ J /\
  is_Jmat self = mk_mat n n (symmat n J) /\
  exists h' J', convert_params h J To01 = Ok (h', J') /\ length h' = n /\ is_hJ01 self = h' ++ J'.

Lemma ising_init_ok have n h J self : ising_init have n h J = Ok self ->
  ising_ok self n (vec_value n h) (vec_value (n * (n - 1) / 2) J) /\ have n = true.
Proof.
  unfold ising_init. destruct (Nat.ltb_spec 1 n) as [Hn|]; cbn [negb]; [|discriminate].
  destruct (fill_arg n h) as [h1|] eqn:Eh; [|discriminate]. cbn [bind].
  destruct (fill_arg (n * (n - 1) / 2) J) as [J1|] eqn:EJ; [|discriminate]. cbn [bind].
  apply fill_vec in Eh, EJ. destruct Eh as [(lh & -> & Vh & Lh)|(lh & ->)]; [|discriminate]. cbn [as_vector bind].
  destruct EJ as [(lJ & -> & VJ & LJ)|(lJ & ->)]; [|discriminate]. cbn [as_vector bind].
  rewrite (squareform_vec_ok n) by (try assumption; lia). cbn [bind].
  destruct (convert_params lh lJ To01) as [[h' J']|] eqn:EC; [|discriminate]. cbn [bind fst snd].
  destruct (have n) eqn:Hh; [|discriminate]. intros E. injection E as <-. split; [|reflexivity]. rewrite <- Vh, <- VJ.
  repeat split; try assumption; try reflexivity. exists h', J'. split; [assumption|]. split; [|reflexivity].
  rewrite convert_params_ok in EC by (try lia; congruence). injection EC as <- _. now rewrite map_length, seq_length.
Qed.

(** ** Energy differences *)
Lemma symmat_coupling n h J i j : length h = n -> (i < n)%nat -> (j < n)%nat -> i <> j -> symmat n J i j = coupling n (h ++ J) i j.
Proof.
  intros Hh Hi Hj Hij. unfold symmat, coupling, nthR.
  destruct (Nat.ltb_spec i j); [|destruct (Nat.ltb_spec j i); [|lia]]; rewrite app_nth2 by lia; f_equal; lia.
Qed.

Lemma nthR_IZR s i : nthR (map IZR s) i = IZR (nth i s 0%Z).
Proof. unfold nthR. change 0 with (IZR 0). apply map_nth. Qed.

Lemma map_upd {A B} (f : A -> B) l i v : map f (upd l i v) = upd (map f l) i (f v).
Proof. revert i. induction l as [|a l IH]; intros [|i]; cbn; try reflexivity. now rewrite IH. Qed.

Lemma neighbor_dE_length self s : length (neighbor_dE self s) = is_n self.
Proof. unfold neighbor_dE. unfold range. now rewrite map_length, seq_length. Qed.

Lemma neighbor_dE_nth self n h J s i : ising_ok self n h J -> length s = n -> (i < n)%nat ->
  nthR (neighbor_dE self s) i =
  ising_energy n (h ++ J) (map IZR (flip s i)) - ising_energy n (h ++ J) (map IZR s).
Proof.
  intros (En & Hn & Lh & LJ & EhJ & EJ & _) Hs Hi. unfold neighbor_dE. rewrite En. unfold range at 2. rewrite nthR_map_seq by assumption.
  unfold flip. rewrite map_upd, ising_energy_upd by (try assumption; now rewrite map_length).
  rewrite nthR_IZR, mult_IZR. unfold local_field. rewrite EhJ, sumR_map, Hs. unfold range. rewrite (sumf_others n i) by assumption.
  rewrite EJ, entry_mk_mat by assumption. rewrite symmat_diag.
  rewrite (sumf_ext_in (others n i) (fun j => IZR (nth j s 0%Z) * entry (mk_mat n n (symmat n J)) i j)
     (fun j => coupling n (h ++ J) i j * nthR (map IZR s) j)).
  2:{ intros j Hj. apply in_others in Hj. rewrite entry_mk_mat by lia. rewrite nthR_IZR, (symmat_coupling n h) by lia. ring. }
  ring.
Qed.

(** ** The descent *)
Definition spins (n : nat) (s : list Z) : Prop := length s = n /\ Forall spin s.

Lemma spins_flip n s i : spins n s -> spins n (flip s i).
Proof. intros [H1 H2]. split; [now rewrite flip_length|now apply flip_spins]. Qed.

Lemma spins_all n s : spins n s <-> In s (all_states [-1; 1]%Z n).
Proof.
  rewrite all_states_spec. unfold spins. rewrite Forall_forall. split; intros [H1 H2]; (split; [assumption|]); intros z Hz; specialize (H2 z Hz).
  - destruct H2 as [->| ->]; cbn; auto.
  - cbn in H2. unfold spin. intuition congruence.
Qed.

(** Number of spin states of lower energy. *)
Definition rank (n : nat) (E : list Z -> R) (s : list Z) : nat :=
  length (filter (fun t => if Rlt_dec (E t) (E s) then true else false) (all_states [-1; 1]%Z n)).

Lemma filter_length_lt {A} (p q : A -> bool) l x : (forall a, p a = true -> q a = true) -> In x l -> p x = false -> q x = true ->
  (length (filter p l) < length (filter q l))%nat.
Proof.
  intros Hpq. assert (M : forall l, (length (filter p l) <= length (filter q l))%nat).
  { clear l. induction l as [|a l IH]; [reflexivity|]. cbn [filter]. specialize (Hpq a). destruct (p a) eqn:P, (q a) eqn:Q; cbn [length]; try lia; discriminate (Hpq eq_refl). }
  induction l as [|a l IH]; [intros []|]. intros [->|Hx] Hp Hq; cbn [filter].
  - rewrite Hp, Hq. cbn [length]. specialize (M l). lia.
  - specialize (IH Hx Hp Hq). specialize (Hpq a). destruct (p a) eqn:P, (q a) eqn:Q; cbn [length]; try lia; discriminate (Hpq eq_refl).
Qed.

Lemma rank_lt n E s t : In t (all_states [-1; 1]%Z n) -> E t < E s -> (rank n E t < rank n E s)%nat.
Proof.
  intros Ht Hlt. unfold rank. apply filter_length_lt with t.
  - intros u. destruct (Rlt_dec (E u) (E t)), (Rlt_dec (E u) (E s)); try reflexivity; try discriminate. lra.
  - assumption.
  - destruct (Rlt_dec (E t) (E t)); [lra|reflexivity].
  - destruct (Rlt_dec (E t) (E s)); [reflexivity|lra].
Qed.

Lemma rank_bound n E s : In s (all_states [-1; 1]%Z n) -> (rank n E s < 2 ^ n)%nat.
Proof.
  intros Hs. unfold rank.
  replace (2 ^ n)%nat with (length (filter (fun _ : list Z => true) (all_states [-1; 1]%Z n))).
  - apply filter_length_lt with s; auto. destruct (Rlt_dec (E s) (E s)); [lra|reflexivity].
  - replace (filter (fun _ => true) (all_states [-1; 1]%Z n)) with (all_states [-1; 1]%Z n); [now rewrite all_states_length|].
    generalize (all_states [-1; 1]%Z n). induction l as [|a l IH]; [reflexivity|]. cbn. now rewrite <- IH.
Qed.

Definition ienergy (n : nat) (params : list R) (s : list Z) : R := ising_energy n params (map IZR s).

(** No single flip lowers the energy. *)
Definition local_min (n : nat) (E : list Z -> R) (s : list Z) : Prop :=
  forall i, (i < n)%nat -> E s <= E (upd s i (- nth i s 0)%Z).

Lemma flip_upd s i : flip s i = upd s i (- nth i s 0)%Z.
Proof. unfold flip. f_equal. lia. Qed.

Lemma some_negative l : existsb (fun x => if Rlt_dec x 0 then true else false) l = true <-> exists i, (i < length l)%nat /\ nthR l i < 0.
Proof.
  rewrite existsb_exists. split.
  - intros (x & Hx & Hlt). destruct (In_nth l x 0 Hx) as (i & Hi & <-). exists i. split; [assumption|]. unfold nthR. destruct (Rlt_dec (nth i l 0) 0); [assumption|discriminate].
  - intros (i & Hi & Hlt). exists (nthR l i). split; [now apply nth_In|]. destruct (Rlt_dec (nthR l i) 0); [reflexivity|lra].
Qed.

(** One turn of the loop. *)
Lemma basin_turn self n h J s fuel : ising_ok self n h J -> spins n s ->
  let E := ienergy n (h ++ J) in
  (local_min n E s /\ basin_loop self (S fuel) s = Ok s) \/
  (exists k, (k < n)%nat /\ E (flip s k) < E s /\ (forall j, (j < n)%nat -> E (flip s k) <= E (flip s j)) /\
     (forall j, (j < k)%nat -> E (flip s k) < E (flip s j)) /\
     basin_loop self (S fuel) s = basin_loop self fuel (flip s k)).
Proof.
  intros Hok [Hs Hsp] E. pose proof Hok as (En & Hn & _).
  assert (D : forall i, (i < n)%nat -> nthR (neighbor_dE self s) i = E (flip s i) - E s) by (intros i Hi; now apply neighbor_dE_nth).
  assert (Ln : length (neighbor_dE self s) = n) by (now rewrite neighbor_dE_length).
  cbn [basin_loop]. destruct (existsb _ (neighbor_dE self s)) eqn:EX.
  - right. apply some_negative in EX. destruct EX as (i & Hi & Hneg). rewrite Ln in Hi.
    destruct (argmin_ok (neighbor_dE self s)) as (k & Ek & Hk & Hmin & Hfirst); [intros E0; rewrite E0 in Ln; cbn in Ln; lia|].
    rewrite Ln in Hk, Hmin. exists k. rewrite Ek. cbn [bind]. split; [assumption|].
    pose proof (Hmin i Hi) as Hki. rewrite D in Hki by assumption. rewrite D in Hki, Hneg by assumption. split; [lra|].
    split; [|split; [|reflexivity]]; intros j Hj.
    + specialize (Hmin j Hj). rewrite !D in Hmin by assumption. lra.
    + specialize (Hfirst j Hj). rewrite !D in Hfirst by lia. lra.
  - left. split; [|reflexivity]. intros i Hi. destruct (Rle_dec (E s) (E (upd s i (- nth i s 0)%Z))) as [|N]; [assumption|]. exfalso.
    assert (X : existsb (fun x => if Rlt_dec x 0 then true else false) (neighbor_dE self s) = true).
    { apply some_negative. exists i. rewrite Ln. split; [assumption|]. rewrite D by assumption. rewrite flip_upd. lra. }
    congruence.
Qed.

Lemma basin_loop_ok self n h J : ising_ok self n h J ->
  let E := ienergy n (h ++ J) in
  forall fuel s, spins n s -> (rank n E s < fuel)%nat ->
  exists t, basin_loop self fuel s = Ok t /\ spins n t /\ E t <= E s /\ local_min n E t.
Proof.
  intros Hok E. induction fuel as [|fuel IH]; intros s Hs Hf; [lia|].
  destruct (basin_turn self n h J s fuel Hok Hs) as [(Hl & ->)|(k & Hk & Hlt & _ & _ & ->)].
  - exists s. repeat split; try apply Hs; try assumption. lra.
  - destruct (IH (flip s k)) as (t & Et & Ht & Hle & Hl).
    + now apply spins_flip.
    + pose proof (rank_lt n E s (flip s k)) as R. assert (rank n E (flip s k) < rank n E s)%nat by (apply R; [apply spins_all, spins_flip, Hs|exact Hlt]). lia.
    + exists t. split; [assumption|]. split; [assumption|]. split; [|assumption]. unfold E in *. lra.
Qed.

(** More fuel does not change a finished run. *)
Lemma basin_loop_mono self fuel : forall s t, basin_loop self fuel s = Ok t -> forall m, basin_loop self (fuel + m) s = Ok t.
Proof.
  induction fuel as [|fuel IH]; intros s t H m; [discriminate|]. cbn [basin_loop] in H. cbn [Nat.add basin_loop].
  destruct (existsb _ _); [|assumption]. destruct (argmin (neighbor_dE self s)) as [k|]; [|assumption]. cbn [bind] in *. now apply IH.
Qed.
