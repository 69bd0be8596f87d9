(** * Facts about the matrix helpers of coniii/mean_field_ising.py. *)
From Coq Require Import Permutation.
From Verif Require Import Prelude PreludeFacts Spec M_Index M_Params M_MeanField P_Index P_Params P_Enum P_MaxEnt P_MPF.
Import ListNotations.

(** Square matrices of size n. *)
Definition sq (n : nat) (A : list (list R)) : Prop := length A = n /\ forall i, i < n -> length (nth i A []) = n.

Lemma sq_is_square n A : sq n A -> is_square A = true.
Proof. intros [H1 H2]. apply is_square_spec. rewrite H1. exact H2. Qed.

Lemma sq_mk_mat n A : sq n A -> A = mk_mat n n (entry A).
Proof. intros H. destruct H as [H1 H2] eqn:E. rewrite <- H1 at 1 2. apply square_as_mk_mat. now apply (sq_is_square n). Qed.

Lemma mk_mat_sq n f : sq n (mk_mat n n f).
Proof. split; [apply mk_mat_length|]. intros i Hi. rewrite mk_mat_row by assumption. now rewrite map_length, seq_length. Qed.

Lemma sq_ext n A B : sq n A -> sq n B -> (forall i j, i < n -> j < n -> entry A i j = entry B i j) -> A = B.
Proof. intros HA HB H. rewrite (sq_mk_mat n A HA), (sq_mk_mat n B HB). now apply mk_mat_ext. Qed.

(** ** Writes into a matrix *)
Definition mset (A : list (list R)) (r c : nat) (v : R) : list (list R) := upd A r (upd (nth r A []) c v).

Lemma mset_sq n A r c v : sq n A -> r < n -> sq n (mset A r c v).
Proof.
  intros [H1 H2] Hr. split; [unfold mset; now rewrite upd_length|]. intros i Hi. unfold mset.
  destruct (Nat.eq_dec r i) as [->|]; [rewrite nth_upd_same by lia; rewrite upd_length; now apply H2|]. rewrite nth_upd_other by assumption. now apply H2.
Qed.

Lemma entry_mset n A r c v i j : sq n A -> r < n -> c < n ->
  entry (mset A r c v) i j = if (Nat.eqb r i && Nat.eqb c j)%bool then v else entry A i j.
Proof.
  intros [H1 H2] Hr Hc. unfold mset, entry. destruct (Nat.eqb_spec r i) as [->|Ni]; cbn [andb].
  - rewrite nth_upd_same by lia. destruct (Nat.eqb_spec c j) as [->|Nj]; [apply nth_upd_same; now rewrite H2|now apply nth_upd_other].
  - now rewrite nth_upd_other.
Qed.

(** A sequence of writes whose values depend on the position only. *)
Lemma writes_ok {A} (r c : A -> nat) (v : A -> R) n g : forall W M, sq n M ->
  (forall a, In a W -> r a < n /\ c a < n /\ v a = g (r a) (c a)) ->
  let M' := fold_left (fun M a => mset M (r a) (c a) (v a)) W M in
  sq n M' /\ (forall a, In a W -> entry M' (r a) (c a) = g (r a) (c a)) /\
  (forall i j, (forall a, In a W -> r a = i -> c a = j -> False) -> entry M' i j = entry M i j).
Proof.
  induction W as [|a W IH]; intros M HM HW; cbn [fold_left].
  - split; [assumption|]. split; [intros a []|reflexivity].
  - destruct (HW a (or_introl eq_refl)) as (Hr & Hc & Hv).
    destruct (IH (mset M (r a) (c a) (v a))) as (S1 & S2 & S3); [now apply mset_sq|intros b Hb; apply HW; now right|].
    split; [assumption|]. split.
    + intros b [<-|Hb]; [|now apply S2].
      assert (D : {exists b, In b W /\ r b = r a /\ c b = c a} + {forall b, In b W -> r b = r a -> c b = c a -> False}).
      { clear. induction W as [|b W IH]; [right; intros b []|]. destruct (Nat.eq_dec (r b) (r a)) as [E1|N1], (Nat.eq_dec (c b) (c a)) as [E2|N2].
        - left. exists b. split; [now left|]. now split.
        - destruct IH as [IH|IH]; [left; destruct IH as (x & Hx & Hy); exists x; split; [now right|assumption]|right; intros x [<-|Hx]; [congruence|now apply IH]].
        - destruct IH as [IH|IH]; [left; destruct IH as (x & Hx & Hy); exists x; split; [now right|assumption]|right; intros x [<-|Hx]; [congruence|now apply IH]].
        - destruct IH as [IH|IH]; [left; destruct IH as (x & Hx & Hy); exists x; split; [now right|assumption]|right; intros x [<-|Hx]; [congruence|now apply IH]]. }
      destruct D as [(b & Hb & E1 & E2)|D]; [pose proof (S2 b Hb) as S2b; rewrite E1, E2 in S2b; exact S2b|].
      rewrite S3 by exact D. rewrite (entry_mset n) by assumption. now rewrite !Nat.eqb_refl.
    + intros i j Hij. rewrite S3 by (intros b Hb; apply Hij; now right). rewrite (entry_mset n) by assumption.
      destruct (Nat.eqb_spec (r a) i) as [E1|]; [|reflexivity]. destruct (Nat.eqb_spec (c a) j) as [E2|]; [|reflexivity].
      exfalso. now apply (Hij a (or_introl eq_refl)).
Qed.

(** ** coocCluster, JfullFromCluster *)
Lemma get_ok {A} (l : list A) i d : i < length l -> get l i = Ok (nth i l d).
Proof. intros H. unfold get. now rewrite (nth_error_nth' l d H). Qed.

Lemma mapM_ok_map {A B} (f : A -> result B) (g : A -> B) l : (forall a, In a l -> f a = Ok (g a)) -> mapM f l = Ok (map g l).
Proof.
  induction l as [|a l IH]; intros H; cbn [mapM map]; [reflexivity|]. rewrite (H a (or_introl eq_refl)). cbn [bind].
  rewrite IH by (intros b Hb; apply H; now right). reflexivity.
Qed.

Lemma map_as_seq {A B} (f : A -> B) l d : map f l = map (fun k => f (nth k l d)) (seq 0 (length l)).
Proof.
  apply (nth_ext _ _ (f d) (f d)); [now rewrite !map_length, seq_length|]. intros k Hk. rewrite map_length in Hk.
  rewrite map_nth. rewrite (nth_map_seq (fun k => f (nth k l d))) by assumption. reflexivity.
Qed.

Lemma coocCluster_ok N M cl : sq N M -> (forall x, In x cl -> x < N) ->
  coocCluster M cl = Ok (mk_mat (length cl) (length cl) (fun a b => entry M (nth a cl 0) (nth b cl 0))).
Proof.
  intros [H1 H2] Hcl. unfold coocCluster.
  rewrite (mapM_ok_map (get M) (fun x => nth x M [])) by (intros x Hx; apply get_ok; rewrite H1; now apply Hcl). cbn [bind].
  rewrite (mapM_ok_map _ (fun r => map (fun x => nth x r 0%R) cl)).
  2:{ intros row Hrow. apply in_map_iff in Hrow. destruct Hrow as (x & <- & Hx).
      apply mapM_ok_map. intros y Hy. apply get_ok. rewrite H2 by now apply Hcl. now apply Hcl. }
  f_equal. rewrite map_map. rewrite (map_as_seq _ cl 0). unfold mk_mat. apply map_ext. intros a. apply (map_as_seq _ cl 0).
Qed.

Lemma foldM_flat_ok {A B St} (f : St -> A * B -> result St) (h : St -> A * B -> St) (la : list A) (lb : list B) :
  (forall st a b, In a la -> In b lb -> f st (a, b) = Ok (h st (a, b))) ->
  forall st, foldM (fun st a => foldM (fun st b => f st (a, b)) lb st) la st = Ok (fold_left h (list_prod la lb) st).
Proof.
  intros H. assert (G : forall la', incl la' la -> forall st, foldM (fun st a => foldM (fun st b => f st (a, b)) lb st) la' st = Ok (fold_left h (list_prod la' lb) st)).
  { induction la' as [|a la' IH]; intros Hi st; [reflexivity|]. cbn [foldM list_prod]. rewrite fold_left_app.
    assert (E : forall lb', incl lb' lb -> forall st, foldM (fun st b => f st (a, b)) lb' st = Ok (fold_left h (map (fun y => (a, y)) lb') st)).
    { induction lb' as [|b lb' IHb]; intros Hb st'; cbn [foldM map fold_left]; [reflexivity|].
      rewrite H by (try apply Hi; try apply Hb; now left). cbn [bind]. apply IHb. intros x Hx. apply Hb. now right. }
    rewrite E by apply incl_refl. cbn [bind]. apply IH. intros x Hx. apply Hi. now right. }
  apply G, incl_refl.
Qed.

Lemma foldM_ext_in {A St} (f g : St -> A -> result St) l : (forall st a, In a l -> f st a = g st a) -> forall st, foldM f l st = foldM g l st.
Proof.
  induction l as [|a l IH]; intros H st; cbn [foldM]; [reflexivity|]. rewrite (H st a (or_introl eq_refl)).
  destruct (g st a); cbn [bind]; [|reflexivity]. apply IH. intros s b Hb. apply H. now right.
Qed.

(** Position of an element. *)
Fixpoint pos_of (x : nat) (l : list nat) : nat :=
  match l with [] => 0 | y :: l' => if Nat.eqb x y then 0 else S (pos_of x l') end.

Lemma pos_of_nth l a : NoDup l -> a < length l -> pos_of (nth a l 0) l = a.
Proof.
  revert a. induction l as [|y l IH]; intros a Hn Ha; [cbn in Ha; lia|]. inversion Hn as [|? ? Hy Hl]; subst.
  destruct a as [|a]; cbn [nth pos_of]; [now rewrite Nat.eqb_refl|]. cbn in Ha.
  destruct (Nat.eqb_spec (nth a l 0) y) as [E|_]; [exfalso; apply Hy; rewrite <- E; apply nth_In; lia|]. now rewrite IH by (assumption || lia).
Qed.

Lemma nth_pos_of l x : In x l -> nth (pos_of x l) l 0 = x /\ pos_of x l < length l.
Proof.
  induction l as [|y l IH]; intros H; [destruct H|]. cbn [pos_of]. destruct (Nat.eqb_spec x y) as [->|N]; [split; [reflexivity|cbn; lia]|].
  destruct H as [->|H]; [congruence|]. destruct (IH H) as [E L]. split; [exact E|cbn; lia].
Qed.

Lemma in_combine_range {A} (l : list A) i x d : In (i, x) (combine (range (length l)) l) <-> i < length l /\ x = nth i l d.
Proof.
  unfold range. split.
  - intros H. apply (In_nth _ _ (0, d)) in H. destruct H as (k & Hk & E). rewrite combine_length, seq_length, Nat.min_id in Hk.
    rewrite combine_nth in E by apply seq_length. rewrite seq_nth in E by assumption. injection E as <- <-. split; [assumption|reflexivity].
  - intros [Hi ->]. replace (i, nth i l d) with (nth i (combine (seq 0 (length l)) l) (0, d)); [apply nth_In; rewrite combine_length, seq_length, Nat.min_id; assumption|].
    rewrite combine_nth by apply seq_length. now rewrite seq_nth.
Qed.

Lemma JfullFromCluster_ok N Jc cl : NoDup cl -> (forall x, In x cl -> x < N) -> sq (length cl) Jc ->
  exists J, JfullFromCluster Jc cl N = Ok J /\ sq N J /\
    (forall a b, a < length cl -> b < length cl -> entry J (nth a cl 0) (nth b cl 0) = entry Jc a b) /\
    (forall i j, i < N -> j < N -> (~ In i cl \/ ~ In j cl) -> entry J i j = 0%R).
Proof.
  intros Hn Hcl [L1 L2]. unfold JfullFromCluster. set (cmb := combine (range (length cl)) cl).
  set (body := fun (J : list (list R)) (p : (nat * nat) * (nat * nat)) => mset J (snd (fst p)) (snd (snd p)) (entry Jc (fst (fst p)) (fst (snd p)))).
  assert (E : forall st, foldM (fun J ii => let '(i, iFull) := ii in
    foldM (fun J jj => let '(j, jFull) := jj in
      if Nat.ltb iFull N && Nat.ltb jFull N
      then bind (get Jc i) (fun row => bind (get row j) (fun x => Ok (upd J iFull (upd (nth iFull J []) jFull x))))
      else Err IndexError) cmb J) cmb st = Ok (fold_left body (list_prod cmb cmb) st)).
  { intros st. rewrite <- (foldM_flat_ok (fun J p => Ok (body J p)) body cmb cmb); [|reflexivity].
    apply foldM_ext_in. intros s [i x] Hix. apply foldM_ext_in. intros s' [j y] Hjy.
    apply (in_combine_range cl _ _ 0) in Hix, Hjy. destruct Hix as [Hi Ex]. destruct Hjy as [Hj Ey].
    assert (Bx : x < N) by (apply Hcl; rewrite Ex; now apply nth_In). assert (By : y < N) by (apply Hcl; rewrite Ey; now apply nth_In).
    apply Nat.ltb_lt in Bx, By. rewrite Bx, By. cbn [andb].
    rewrite (get_ok Jc i []) by (rewrite L1; assumption). cbn [bind]. rewrite (get_ok _ j 0%R) by (rewrite L2; assumption). reflexivity. }
  rewrite E. eexists. split; [reflexivity|].
  destruct (writes_ok (fun p : (nat * nat) * (nat * nat) => snd (fst p)) (fun p => snd (snd p)) (fun p => entry Jc (fst (fst p)) (fst (snd p))) N
    (fun i j => entry Jc (pos_of i cl) (pos_of j cl)) (list_prod cmb cmb) (mk_mat N N (fun _ _ => 0%R))) as (S1 & S2 & S3).
  - apply mk_mat_sq.
  - intros [[i x] [j y]] Hin. cbn [fst snd]. apply in_prod_iff in Hin. destruct Hin as [H1 H2]. apply (in_combine_range cl _ _ 0) in H1, H2.
    destruct H1 as [H1 ->]. destruct H2 as [H2 ->]. rewrite !pos_of_nth by assumption. repeat split; apply Hcl, nth_In; assumption.
  - split; [exact S1|]. split.
    + intros a b Ha Hb. pose proof (S2 ((a, nth a cl 0), (b, nth b cl 0))) as S2'. cbn [fst snd] in S2'. unfold body. rewrite S2'.
      * now rewrite !pos_of_nth.
      * apply in_prod; apply (in_combine_range cl _ _ 0); split; auto.
    + intros i j Hi Hj Hij. unfold body. rewrite S3; [now apply entry_mk_mat|].
      intros [[a x] [b y]] Hin. cbn [fst snd]. apply in_prod_iff in Hin. destruct Hin as [H1 H2]. apply (in_combine_range cl _ _ 0) in H1, H2.
      destruct H1 as [H1 ->]. destruct H2 as [H2 ->]. intros <- <-. destruct Hij as [H|H]; apply H; now apply nth_In.
Qed.

Local Open Scope R_scope.

Lemma replaceDiag_ok n A d : sq n A -> length d = n ->
  replaceDiag A d = Ok (mk_mat n n (fun i j => if Nat.eqb i j then nthR d i else entry A i j)).
Proof.
  intros HA Hd. unfold replaceDiag. rewrite (sq_is_square n A HA). destruct HA as [HA1 HA2]. rewrite HA1, Hd, Nat.eqb_refl. cbn [andb negb]. f_equal.
  apply mk_mat_ext. intros i j Hi Hj. destruct (Nat.eqb_spec i j) as [->|]; ring.
Qed.

Lemma symmetrizeUsingUpper_ok n A : (1 <= n)%nat -> sq n A ->
  symmetrizeUsingUpper A = Ok (mk_mat n n (fun i j => entry A (Nat.min i j) (Nat.max i j))).
Proof.
  intros Hn HA. destruct HA as [HA1 HA2]. destruct A as [|r0 A]; [cbn in HA1; lia|]. unfold symmetrizeUsingUpper.
  pose proof (HA2 0%nat ltac:(lia)) as H0. cbn [nth] in H0. rewrite HA1, H0, Nat.eqb_refl. cbn [negb].
  rewrite (replaceDiag_ok n) by (try apply mk_mat_sq; unfold range; now rewrite map_length, seq_length). f_equal. apply mk_mat_ext.
  intros i j Hi Hj. destruct (Nat.eqb_spec i j) as [->|Hne].
  - unfold range, nthR. rewrite (nth_map_seq (fun i => entry (r0 :: A) i i)) by assumption. now rewrite Nat.min_id, Nat.max_id.
  - rewrite !entry_mk_mat by assumption. destruct (Nat.leb_spec j i), (Nat.leb_spec i j); try lia.
    + rewrite Nat.min_r, Nat.max_l by lia. ring.
    + rewrite Nat.min_l, Nat.max_r by lia. ring.
Qed.

(** ** Flattening above the diagonal *)
(** Start of the d-th diagonal in the flattened vector. *)
Fixpoint off (n d : nat) : nat := match d with O => O | Datatypes.S d' => (off n d' + (n - d'))%nat end.

Lemma off_formula n d : (d <= n)%nat -> Z.of_nat (off n d) = (Z.of_nat d * Z.of_nat n - Z.of_nat d * (Z.of_nat d - 1) / 2)%Z.
Proof.
  induction d as [|d IH]; intros H; [reflexivity|]. cbn [off]. rewrite Nat2Z.inj_add, IH by lia. rewrite Nat2Z.inj_sub by lia.
  rewrite !Nat2Z.inj_succ. set (D := Z.of_nat d). set (M := Z.of_nat n).
  assert (Ev : forall z, exists q, (z * (z - 1) = 2 * q)%Z).
  { intros z. destruct (Z.Even_or_Odd z) as [[q Hq]|[q Hq]]; [exists (q * (z - 1))%Z|exists (z * q)%Z]; rewrite Hq; ring. }
  destruct (Ev D) as [q Hq]. replace (Z.succ D * (Z.succ D - 1))%Z with (D * (D - 1) + D * 2)%Z by (unfold Z.succ; ring).
  rewrite Z.div_add by lia. unfold Z.succ. ring.
Qed.

Lemma diagFlatIndex_off n i j : (i <= j)%nat -> (j - i <= n)%nat ->
  diagFlatIndex (Z.of_nat i) (Z.of_nat j) (Z.of_nat n) = Z.of_nat (off n (j - i) + i).
Proof.
  intros H1 H2. unfold diagFlatIndex. rewrite Nat2Z.inj_add, off_formula by assumption. rewrite Nat2Z.inj_sub by assumption. ring.
Qed.

Lemma off_full n : off n n = (n * (n + 1) / 2)%nat.
Proof.
  apply Nat2Z.inj. rewrite off_formula by lia. rewrite Nat2Z.inj_div, Nat2Z.inj_mul, Nat2Z.inj_add. cbn [Z.of_nat Pos.of_succ_nat Pos.succ].
  set (m := Z.of_nat n). replace (m * (m + 1))%Z with (m * (m - 1) + m * 2)%Z by ring. rewrite Z.div_add by lia.
  assert (Ev : exists q, (m * (m - 1) = 2 * q)%Z).
  { destruct (Z.Even_or_Odd m) as [[q Hq]|[q Hq]]; [exists (q * (m - 1))%Z|exists (m * q)%Z]; rewrite Hq; ring. }
  destruct Ev as [q Hq]. rewrite Hq. replace (2 * q)%Z with (q * 2)%Z by ring. rewrite Z.div_mul by lia. lia.
Qed.

Lemma off_mono n d d' : (d <= d')%nat -> (off n d <= off n d')%nat.
Proof. induction 1; [lia|]. cbn [off]. lia. Qed.

(** Blocks of length n-d. *)
Lemma blocks_prefix (n : nat) (f : nat -> list R) : (forall d, (d < n)%nat -> length (f d) = (n - d)%nat) ->
  forall k, (k <= n)%nat -> length (flat_map f (seq 0 k)) = off n k.
Proof.
  intros Hf. induction k as [|k IH]; intros Hk; [reflexivity|]. rewrite seq_S, flat_map_app, app_length, IH by lia.
  cbn [flat_map off plus]. rewrite app_nil_r, Hf by lia. reflexivity.
Qed.

Lemma blocks_nth (n : nat) (f : nat -> list R) d i : (forall d, (d < n)%nat -> length (f d) = (n - d)%nat) -> (d < n)%nat -> (i < n - d)%nat ->
  nthR (flat_map f (seq 0 n)) (off n d + i) = nthR (f d) i.
Proof.
  intros Hf Hd Hi. replace n with (d + Datatypes.S (n - d - 1))%nat at 1 by lia. rewrite seq_app, flat_map_app. unfold nthR.
  rewrite app_nth2; rewrite (blocks_prefix n f Hf d) by lia; [|lia]. cbn [seq flat_map plus].
  replace (off n d + i - off n d)%nat with i by lia. rewrite app_nth1; [reflexivity|]. rewrite Hf by lia. lia.
Qed.

Lemma blocks_slice (n : nat) (f : nat -> list R) d : (forall d, (d < n)%nat -> length (f d) = (n - d)%nat) -> (d < n)%nat ->
  slice (flat_map f (seq 0 n)) (off n d) (off n (Datatypes.S d)) = f d.
Proof.
  intros Hf Hd. unfold slice. replace n with (d + Datatypes.S (n - d - 1))%nat at 4 by lia. rewrite seq_app, flat_map_app.
  rewrite skipn_app, skipn_all2 by (rewrite (blocks_prefix n f Hf d) by lia; lia). rewrite (blocks_prefix n f Hf d) by lia.
  rewrite Nat.sub_diag. cbn [skipn app seq flat_map plus off]. replace (off n d + (n - d) - off n d)%nat with (length (f d)) by (rewrite Hf by lia; lia).
  rewrite firstn_app, Nat.sub_diag, firstn_all. cbn. apply app_nil_r.
Qed.

Lemma diagonal_length A d : length (diagonal A d) = (length A - d)%nat.
Proof. unfold diagonal, range. now rewrite map_length, seq_length. Qed.

Lemma diagonal_nth A d i : (i < length A - d)%nat -> nthR (diagonal A d) i = entry A i (i + d).
Proof. intros H. unfold diagonal, range, nthR. now rewrite (nth_map_seq (fun i => entry A i (i + d))). Qed.

Lemma aboveDiagFlat_ok n A : (1 <= n)%nat -> length A = n ->
  aboveDiagFlat A true None = Ok (flat_map (diagonal A) (seq 0 n)).
Proof.
  intros Hn HA. unfold aboveDiagFlat, off_diag_mult, range2. rewrite HA, Nat.sub_0_r. destruct n; [lia|]. reflexivity.
Qed.

Lemma flat_length n A : length A = n -> length (flat_map (diagonal A) (seq 0 n)) = (n * (n + 1) / 2)%nat.
Proof. intros HA. rewrite (blocks_prefix n) by (try lia; intros; now rewrite diagonal_length, HA). apply off_full. Qed.

Lemma flat_nth n A i j : length A = n -> (i <= j)%nat -> (j < n)%nat ->
  nthR (flat_map (diagonal A) (seq 0 n)) (off n (j - i) + i) = entry A i j.
Proof.
  intros HA H1 H2. rewrite blocks_nth by (try lia; intros; now rewrite diagonal_length, HA). rewrite diagonal_nth by lia. f_equal. lia.
Qed.

(** unflatten on any vector of the right length. *)
Lemma diagFlatIndex_0 n d : (d <= n)%nat -> Z.to_nat (diagFlatIndex 0 (Z.of_nat d) (Z.of_nat n)) = off n d.
Proof. intros H. change 0%Z with (Z.of_nat 0). rewrite (diagFlatIndex_off n 0 d) by lia. rewrite Nat2Z.id. rewrite Nat.sub_0_r. lia. Qed.

Lemma off_le_full n d : (d <= n)%nat -> (off n d <= n * (n + 1) / 2)%nat.
Proof. intros H. rewrite <- off_full. now apply off_mono. Qed.

Lemma slice_nth (x : list R) a b i : (i < b - a)%nat -> (b <= length x)%nat -> nthR (slice x a b) i = nthR x (a + i).
Proof.
  intros H1 H2. unfold slice, nthR. revert a b x H1 H2. induction a as [|a IH]; intros b x H1 H2.
  - cbn [skipn plus]. rewrite Nat.sub_0_r in *. revert i x H1 H2. induction b as [|b IHb]; intros [|i] [|y x] H1 H2; cbn in *; try lia; auto.
    apply IHb; lia.
  - destruct x as [|y x]; [cbn in H2; lia|]. cbn [skipn plus nth]. destruct b; [lia|]. cbn [Nat.sub] in *. apply IH; cbn in *; lia.
Qed.

Lemma slice_length {A} (x : list A) a b : (a <= b)%nat -> (b <= length x)%nat -> length (slice x a b) = (b - a)%nat.
Proof. intros H1 H2. unfold slice. rewrite firstn_length, skipn_length. lia. Qed.

Lemma unflatten_ok n x s : (1 <= n)%nat -> length x = (n * (n + 1) / 2)%nat ->
  exists A, unflatten x n s = Ok A /\ sq n A /\ forall i j, (i < n)%nat -> (j < n)%nat ->
    let u := fun i j => if Nat.leb i j then nthR x (off n (j - i) + i) else 0 in
    entry A i j = if s then (u i j + u j i) / 2 else u i j.
Proof.
  intros Hn Hx. unfold unflatten. destruct (Nat.eqb_spec n 0) as [|_]; [lia|]. cbv zeta.
  set (sl := fun j => slice x (Z.to_nat (diagFlatIndex 0 (Z.of_nat j) (Z.of_nat n))) (Z.to_nat (diagFlatIndex 0 (Z.of_nat j + 1) (Z.of_nat n)))).
  assert (Esl : forall j, (j < n)%nat -> sl j = slice x (off n j) (off n (Datatypes.S j))).
  { intros j Hj. unfold sl. rewrite diagFlatIndex_0 by lia. replace (Z.of_nat j + 1)%Z with (Z.of_nat (Datatypes.S j)) by lia.
    now rewrite diagFlatIndex_0 by lia. }
  assert (Lsl : forall j, (j < n)%nat -> length (sl j) = (n - j)%nat).
  { intros j Hj. rewrite Esl by assumption. rewrite slice_length; [cbn [off]; lia|apply off_mono; lia|]. rewrite Hx. apply off_le_full. lia. }
  change (fun j => length _ =? n - j) with (fun j => length (sl j) =? n - j). replace (forallb (fun j => length (sl j) =? n - j) (range n)) with true.
  2:{ symmetry. apply forallb_forall. intros j Hj. apply in_seq in Hj. apply Nat.eqb_eq, Lsl. lia. }
  cbn [negb]. set (f := fun i k => sumf (range n) (fun j => if Nat.eqb k (i + j) then nthR (sl j) i else 0)).
  assert (Ef : forall i k, (i < n)%nat -> (k < n)%nat -> f i k = if Nat.leb i k then nthR x (off n (k - i) + i) else 0).
  { intros i k Hi Hk. unfold f. destruct (Nat.leb_spec i k) as [L|L].
    - rewrite (sumf_ext_in _ _ (fun j => if Nat.eq_dec (k - i) j then (fun _ => nthR (sl (k - i)%nat) i) j else 0)).
      2:{ intros j Hj. destruct (Nat.eqb_spec k (i + j)) as [E|E], (Nat.eq_dec (k - i) j) as [E2|E2]; try lia; [now rewrite E2|reflexivity]. }
      rewrite (sumf_indic Nat.eq_dec) by (apply seq_NoDup || apply in_seq; lia). rewrite Esl by lia.
      rewrite slice_nth; [reflexivity| |].
      + cbn [off]. lia.
      + rewrite Hx. apply off_le_full. lia.
    - apply sumf_zero. intros j Hj. destruct (Nat.eqb_spec k (i + j)); [lia|reflexivity]. }
  destruct s; eexists; (split; [reflexivity|]; split; [apply mk_mat_sq|]; intros i j Hi Hj; cbn zeta).
  - rewrite entry_mk_mat by assumption. rewrite !entry_mk_mat by assumption.
    pose proof (Ef i j Hi Hj) as E1. pose proof (Ef j i Hj Hi) as E2. unfold f, sl in E1, E2. rewrite E1, E2. field.
  - rewrite entry_mk_mat by assumption. now apply Ef.
Qed.
