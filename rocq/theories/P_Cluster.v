(** * Facts about the subset enumeration of the cluster expansion. *)
From Coq Require Import Permutation Sorting.Sorted.
From Verif Require Import Prelude PreludeFacts M_Params M_MeanField M_Cluster P_Unravel.
Import ListNotations.

(** ** Sorting *)
Lemma insert_perm x l : Permutation (insert x l) (x :: l).
Proof.
  induction l as [|y l IH]; cbn [insert]; [reflexivity|]. destruct (Nat.leb_spec x y); [reflexivity|].
  rewrite IH. apply perm_swap.
Qed.

Lemma nsort_perm l : Permutation (nsort l) l.
Proof. induction l as [|x l IH]; cbn; [reflexivity|]. fold (nsort l). now rewrite insert_perm, IH. Qed.

Lemma nsort_in l x : In x (nsort l) <-> In x l.
Proof. split; apply Permutation_in; [|symmetry]; apply nsort_perm. Qed.

Lemma nsort_length l : length (nsort l) = length l.
Proof. apply Permutation_length, nsort_perm. Qed.

Lemma insert_sorted x l : StronglySorted le l -> StronglySorted le (insert x l).
Proof.
  induction l as [|y l IH]; cbn [insert]; intros H; [repeat constructor|].
  inversion H as [|? ? Hl Hf]; subst. destruct (Nat.leb_spec x y) as [L|L].
  - constructor; [assumption|]. constructor; [assumption|]. eapply Forall_impl; [|exact Hf]. cbn. intros; lia.
  - constructor; [now apply IH|]. apply Forall_forall. intros z Hz.
    apply (Permutation_in z (insert_perm x l)) in Hz. destruct Hz as [->|Hz]; [lia|].
    rewrite Forall_forall in Hf. now apply Hf.
Qed.

Lemma nsort_sorted l : StronglySorted le (nsort l).
Proof. induction l as [|x l IH]; cbn; [constructor|]. fold (nsort l). now apply insert_sorted. Qed.

Lemma sorted_le_lt l : NoDup l -> StronglySorted le l -> StronglySorted lt l.
Proof.
  induction l as [|x l IH]; intros Hn Hs; [constructor|]. inversion Hn; inversion Hs; subst. constructor; [now apply IH|].
  apply Forall_forall. intros y Hy. rewrite Forall_forall in H6. pose proof (H6 y Hy). destruct (Nat.eq_dec x y) as [->|]; [contradiction|lia].
Qed.

Lemma sorted_lt_NoDup l : StronglySorted lt l -> NoDup l.
Proof.
  induction 1 as [|x l Hs IH Hf]; constructor; [|assumption]. intros Hx. rewrite Forall_forall in Hf. specialize (Hf x Hx). lia.
Qed.

Lemma sorted_lt_le l : StronglySorted lt l -> StronglySorted le l.
Proof.
  induction 1 as [|x l Hs IH Hf]; constructor; [assumption|]. eapply Forall_impl; [|exact Hf]. cbn. intros; lia.
Qed.

Lemma nsort_lt l : NoDup l -> StronglySorted lt (nsort l).
Proof.
  intros H. apply sorted_le_lt; [|apply nsort_sorted]. eapply Permutation_NoDup; [symmetry; apply nsort_perm|assumption].
Qed.

(** Two sorted lists with the same elements are equal. *)
Lemma sorted_eq a b : StronglySorted lt a -> StronglySorted lt b -> (forall x, In x a <-> In x b) -> a = b.
Proof.
  revert b. induction a as [|x a IH]; intros [|y b] Ha Hb H.
  - reflexivity.
  - exfalso. destruct (proj2 (H y)). now left.
  - exfalso. destruct (proj1 (H x)). now left.
  - inversion Ha as [|? ? Sa Fa]; inversion Hb as [|? ? Sb Fb]; subst. rewrite Forall_forall in Fa, Fb.
    assert (x = y) as <-.
    { destruct (proj1 (H x) (or_introl eq_refl)) as [E|Hx]; [auto|].
      destruct (proj2 (H y) (or_introl eq_refl)) as [E|Hy]; [auto|]. specialize (Fa y Hy). specialize (Fb x Hx). lia. }
    f_equal. apply IH; try assumption. intros z. split; intros Hz.
    + destruct (proj1 (H z) (or_intror Hz)) as [<-|]; [|assumption]. specialize (Fa x Hz). lia.
    + destruct (proj2 (H z) (or_intror Hz)) as [<-|]; [|assumption]. specialize (Fb x Hz). lia.
Qed.

Lemma nsort_id l : StronglySorted lt l -> nsort l = l.
Proof.
  intros H. apply sorted_eq; [apply nsort_lt; now apply sorted_lt_NoDup|assumption|]. intros x. apply nsort_in.
Qed.

Lemma nsort_perm_eq a b : NoDup a -> Permutation a b -> nsort a = nsort b.
Proof.
  intros Ha P. apply sorted_eq; [now apply nsort_lt|apply nsort_lt; now apply (Permutation_NoDup P)|].
  intros x. rewrite !nsort_in. split; apply Permutation_in; [|symmetry]; assumption.
Qed.

Lemma nodup_sorted l : StronglySorted le l -> StronglySorted lt (nodup Nat.eq_dec l).
Proof.
  intros H. apply sorted_le_lt; [apply NoDup_nodup|]. induction H as [|x l Hs IH Hf]; cbn; [constructor|].
  destruct (in_dec Nat.eq_dec x l); [assumption|]. constructor; [assumption|]. apply Forall_forall. intros y Hy.
  rewrite Forall_forall in Hf. apply Hf. now apply nodup_In in Hy.
Qed.

Lemma nunique_sorted l : StronglySorted lt (nunique l).
Proof. apply nodup_sorted, nsort_sorted. Qed.

Lemma nunique_in l x : In x (nunique l) <-> In x l.
Proof. unfold nunique. rewrite nodup_In. apply nsort_in. Qed.

Lemma nunique_length l : length l = length (nunique l) <-> NoDup l.
Proof.
  split; intros H.
  - apply (NoDup_incl_NoDup (sorted_lt_NoDup _ (nunique_sorted l))); [lia|]. intros x. apply nunique_in.
  - unfold nunique. rewrite nodup_fixed_point; [symmetry; apply nsort_length|].
    eapply Permutation_NoDup; [symmetry; apply nsort_perm|assumption].
Qed.

Lemma leqb_eq a b : leqb a b = true <-> a = b.
Proof.
  revert b. induction a as [|x a IH]; intros [|y b]; cbn; split; intros H; try discriminate; auto.
  - apply andb_prop in H. destruct H as [H1 H2]. apply Nat.eqb_eq in H1. apply IH in H2. congruence.
  - injection H as <- <-. rewrite Nat.eqb_refl. now apply IH.
Qed.

Lemma leqb_refl a : leqb a a = true.
Proof. now apply leqb_eq. Qed.

Lemma memb_in x l : memb x l = true <-> In x l.
Proof.
  unfold memb. rewrite existsb_exists. split; [intros (y & Hy & E); apply Nat.eqb_eq in E; now subst|].
  intros H. exists x. split; [assumption|apply Nat.eqb_refl].
Qed.

Lemma NoDup_app {A} (l1 l2 : list A) : NoDup l1 -> NoDup l2 -> (forall x, In x l1 -> In x l2 -> False) -> NoDup (l1 ++ l2).
Proof.
  induction 1 as [|x l1 Hx Hl IH]; cbn; intros H2 H; [assumption|]. constructor.
  - rewrite in_app_iff. intros [H3|H3]; [contradiction|]. apply (H x); [now left|assumption].
  - apply IH; [assumption|]. intros y Hy. apply H. now right.
Qed.

(** ** subsets *)
(** Specification: all sublists. *)
Fixpoint powerset (l : list nat) : list (list nat) :=
  match l with
  | [] => [[]]
  | x :: l' => powerset l' ++ map (cons x) (powerset l')
  end.

Lemma powerset_incl l t : In t (powerset l) -> incl t l.
Proof.
  revert t. induction l as [|x l IH]; cbn [powerset]; intros t H.
  - destruct H as [<-|[]]. apply incl_refl.
  - apply in_app_or in H. destruct H as [H|H]; [now apply incl_tl, IH|].
    apply in_map_iff in H. destruct H as (u & <- & Hu). apply incl_cons; [now left|now apply incl_tl, IH].
Qed.

Lemma in_powerset l t : StronglySorted lt l -> In t (powerset l) <-> StronglySorted lt t /\ incl t l.
Proof.
  intros Hl. split.
  - intros H. split; [|now apply powerset_incl]. revert t H. induction Hl as [|x l Hl IH Hf]; cbn [powerset]; intros t H.
    + destruct H as [<-|[]]. constructor.
    + apply in_app_or in H. destruct H as [H|H]; [now apply IH|]. apply in_map_iff in H. destruct H as (u & <- & Hu).
      constructor; [now apply IH|]. apply Forall_forall. intros y Hy. rewrite Forall_forall in Hf. apply Hf. now apply (powerset_incl l u).
  - intros [Ht Hi]. revert t Ht Hi. induction Hl as [|x l Hl IH Hf]; intros t Ht Hi.
    + destruct t as [|y t]; [now left|]. destruct (Hi y). now left.
    + cbn [powerset]. apply in_or_app. destruct t as [|y t].
      * left. apply IH; [constructor|apply incl_nil_l].
      * inversion Ht as [|? ? St Ft]; subst. rewrite Forall_forall in Ft, Hf.
        destruct (Nat.eq_dec x y) as [<-|N].
        -- right. apply in_map. apply IH; [assumption|]. intros z Hz. specialize (Ft z Hz).
           destruct (Hi z (or_intror Hz)) as [<-|]; [lia|assumption].
        -- left. apply IH; [assumption|]. assert (Hy : In y l) by (destruct (Hi y (or_introl eq_refl)); [congruence|assumption]).
           intros z Hz. destruct (Hi z Hz) as [<-|]; [|assumption]. destruct Hz as [->|Hz]; [congruence|].
           specialize (Ft x Hz). specialize (Hf y Hy). lia.
Qed.

Lemma powerset_NoDup l : NoDup l -> NoDup (powerset l).
Proof.
  induction 1 as [|x l Hx Hl IH]; cbn [powerset]; [repeat constructor; intros []|].
  apply NoDup_app; [assumption|apply FinFun.Injective_map_NoDup; [|assumption]; intros a b E; congruence|].
  intros t H1 H2. apply in_map_iff in H2. destruct H2 as (u & <- & _). apply Hx. apply (powerset_incl l _ H1). now left.
Qed.

Lemma nsort_snoc x s : NoDup (x ++ [s]) -> nsort (x ++ [s]) = insert s (nsort x).
Proof.
  intros H. apply sorted_eq.
  - now apply nsort_lt.
  - change (insert s (nsort x)) with (nsort (s :: x)) . apply nsort_lt. eapply Permutation_NoDup; [|exact H]. rewrite Permutation_app_comm. reflexivity.
  - intros y. change (insert s (nsort x)) with (nsort (s :: x)). rewrite !nsort_in, in_app_iff. cbn. tauto.
Qed.

Lemma incl_length_eq_sorted (t c : list nat) : StronglySorted lt t -> NoDup c -> incl t c -> length t = length c -> t = nsort c.
Proof.
  intros Ht Hc Hi Hl. apply sorted_eq; [assumption|now apply nsort_lt|]. intros x. rewrite nsort_in. split; [apply Hi|].
  apply NoDup_length_incl; [now apply sorted_lt_NoDup|lia|assumption].
Qed.

Lemma subsets_ok c : NoDup c -> forall size, exists r, subsets c size = Ok r /\
  (forall x, In x r -> NoDup x /\ incl x c /\ Z.of_nat (length x) = size) /\
  (forall t, In t (map nsort r) <->
     StronglySorted lt t /\ incl t c /\ Z.of_nat (length t) = size /\ ((0 < size)%Z \/ c = [])) /\
  NoDup (map nsort r) /\
  ((0 < size)%Z -> length r = binom (length c) (Z.to_nat size)).
Proof.
  induction c as [|s rest IH]; intros Hn size.
  - cbn [subsets length nunique nsort fold_right nodup Nat.eqb negb Z.of_nat].
    destruct (Z.eqb_spec size 0) as [->|N].
    + exists [[]]. split; [reflexivity|]. split; [intros x [<-|[]]; repeat split; [constructor|apply incl_refl]|]. split; [|split].
      * intros t. cbn. split; [intros [<-|[]]; repeat split; auto; [constructor|apply incl_refl]|].
        intros (_ & Hi & _). left. destruct t as [|y t]; [reflexivity|]. destruct (Hi y). now left.
      * repeat constructor. intros [].
      * lia.
    + exists []. assert (E : (if (0 <? size)%Z then Ok [] else if (size <=? 0)%Z then Ok [] else
        if (size =? 1)%Z then Ok (map (fun s => [s]) []) else Err IndexError) = Ok ([] : list (list nat))).
      { destruct (Z.ltb_spec 0 size); [reflexivity|]. destruct (Z.leb_spec size 0); [reflexivity|lia]. }
      split; [exact E|]. split; [intros x []|]. split; [|split].
      * intros t. split; [intros []|]. intros (_ & Hi & Hl & _). destruct t as [|y t]; [cbn in Hl; lia|]. destruct (Hi y). now left.
      * constructor.
      * intros Hs. cbn. destruct (Z.to_nat size) eqn:E2; [lia|reflexivity].
  - inversion Hn as [|? ? Hs Hr]; subst. specialize (IH Hr). cbn [subsets].
    replace (length (s :: rest) =? length (nunique (s :: rest))) with true
      by (symmetry; apply Nat.eqb_eq, nunique_length; assumption). cbn [negb].
    destruct (Z.eqb_spec size (Z.of_nat (length (s :: rest)))) as [->|N1]; [|destruct (Z.ltb_spec (Z.of_nat (length (s :: rest))) size) as [L1|L1];
      [|destruct (Z.leb_spec size 0) as [L2|L2]; [|destruct (Z.eqb_spec size 1) as [->|N2]]]].
    + exists [s :: rest]. split; [reflexivity|]. split; [|split; [|split]].
      * intros x [<-|[]]. repeat split; [assumption|apply incl_refl].
      * intros t. cbn [map In]. split.
        -- intros [<-|[]]. split; [now apply nsort_lt|]. split; [intros x; apply nsort_in|]. split; [now rewrite nsort_length|left; cbn; lia].
        -- intros (H1 & H2 & H3 & _). left. symmetry. apply incl_length_eq_sorted; auto. lia.
      * cbn. constructor; [intros []|constructor].
      * intros _. rewrite Nat2Z.id. clear. induction (length (s :: rest)) as [|n IHn]; [reflexivity|].
        cbn [binom length]. replace (binom n (S n)) with 0; [cbn in *; lia|].
        symmetry. apply binom_gt. lia.
    + exists []. split; [reflexivity|]. split; [intros x []|]. split; [|split; [constructor|]].
      * intros t. split; [intros []|]. intros (H1 & H2 & H3 & _). exfalso.
        pose proof (NoDup_incl_length (sorted_lt_NoDup t H1) H2). lia.
      * intros _. rewrite binom_gt by lia. reflexivity.
    + exists []. split; [reflexivity|]. split; [intros x []|]. split; [|split; [constructor|lia]].
      intros t. split; [intros []|]. intros (_ & _ & _ & [H|H]); [lia|discriminate].
    + exists (map (fun x => [x]) (s :: rest)). split; [reflexivity|]. split; [|split; [|split]].
      * intros x Hx. apply in_map_iff in Hx. destruct Hx as (y & <- & Hy). split; [repeat constructor; intros []|].
        split; [|reflexivity]. intros z [<-|[]]. assumption.
      * intros t. rewrite map_map. cbn [nsort fold_right insert]. split.
        -- intros H. apply in_map_iff in H. destruct H as (y & <- & Hy). split; [repeat constructor|].
           split; [|split; [reflexivity|left; lia]]. intros z [<-|[]]. assumption.
        -- intros (H1 & H2 & H3 & _). destruct t as [|y [|]]; cbn in H3; try lia. apply in_map_iff. exists y. split; [reflexivity|]. apply H2. now left.
      * rewrite map_map. cbn [nsort fold_right insert]. apply FinFun.Injective_map_NoDup; [intros a b E; congruence|assumption].
      * intros _. rewrite map_length. change (Z.to_nat 1) with 1. clear. induction (length (s :: rest)) as [|n IHn]; [reflexivity|].
        cbn [binom] in *. destruct n; cbn [binom] in *; lia.
    + destruct (IH size) as (r1 & E1 & A1 & B1 & D1 & C1). destruct (IH (size - 1)%Z) as (r2 & E2 & A2 & B2 & D2 & C2).
      rewrite E1, E2. cbn [bind]. eexists. split; [reflexivity|].
      assert (Hsn : forall x, In x r2 -> NoDup (x ++ [s])).
      { intros x Hx. destruct (A2 x Hx) as (H1 & H2 & _). eapply Permutation_NoDup; [apply Permutation_app_comm|]. cbn. constructor; [|assumption].
        intros H. apply Hs. now apply H2. }
      split; [|split; [|split]].
      * intros x Hx. apply in_app_or in Hx. destruct Hx as [Hx|Hx].
        -- destruct (A1 x Hx) as (H1 & H2 & H3). repeat split; auto. now apply incl_tl.
        -- apply in_map_iff in Hx. destruct Hx as (y & <- & Hy). destruct (A2 y Hy) as (H1 & H2 & H3). split; [now apply Hsn|].
           split; [|rewrite app_length; cbn [length]; lia]. apply incl_app; [now apply incl_tl|]. intros z [<-|[]]. now left.
      * intros t. rewrite map_app, in_app_iff, B1, map_map. split.
        -- intros [(H1 & H2 & H3 & H4)|H].
           ++ split; [assumption|]. split; [now apply incl_tl|]. split; [assumption|]. left. lia.
           ++ apply in_map_iff in H. destruct H as (y & <- & Hy). destruct (A2 y Hy) as (H1 & H2 & H3).
              split; [apply nsort_lt; now apply Hsn|]. split; [|split; [rewrite nsort_length, app_length; cbn [length]; lia|left; lia]].
              intros z Hz. apply nsort_in, in_app_iff in Hz. destruct Hz as [Hz|[<-|[]]]; [right; now apply H2|now left].
        -- intros (H1 & H2 & H3 & _). destruct (in_dec Nat.eq_dec s t) as [Hst|Hst].
           ++ right. set (u := remove Nat.eq_dec s t).
              assert (Hu : forall z, In z u <-> In z t /\ z <> s) by (intros z; split; [apply in_remove|intros []; now apply in_in_remove]).
              assert (Su : StronglySorted lt u).
              { unfold u. clear - H1. induction H1 as [|x l Hl IHl Hf]; cbn; [constructor|]. destruct (Nat.eq_dec s x); [assumption|].
                constructor; [assumption|]. apply Forall_forall. intros y Hy. apply in_remove in Hy. rewrite Forall_forall in Hf. now apply Hf. }
              assert (Lu : S (length u) = length t).
              { assert (P : Permutation (s :: u) t).
                { apply NoDup_Permutation; [constructor; [intros H; apply Hu in H; tauto|now apply sorted_lt_NoDup]|now apply sorted_lt_NoDup|].
                  intros z. cbn [In]. rewrite Hu. split; [intros [->|[]]; assumption|]. intros Hz. destruct (Nat.eq_dec s z); [now left|right; split; congruence]. }
                apply Permutation_length in P. exact P. }
              assert (Hin : In u (map nsort r2)).
              { apply B2. split; [assumption|]. split; [|split; [lia|left; lia]]. intros z Hz. apply Hu in Hz. destruct Hz as [Hz Nz].
                destruct (H2 z Hz) as [->|]; [congruence|assumption]. }
              apply in_map_iff in Hin. destruct Hin as (y & Ey & Hy). apply in_map_iff. exists y. split; [|assumption].
              apply sorted_eq; [apply nsort_lt; now apply Hsn|assumption|]. intros z. rewrite nsort_in, in_app_iff.
              rewrite <- (nsort_in y), Ey, Hu. cbn [In]. split; [intros [[]|[->|[]]]; assumption|].
              intros Hz. destruct (Nat.eq_dec s z); [right; now left|left; split; congruence].
           ++ left. split; [assumption|]. split; [|split; [assumption|left; lia]]. intros z Hz. destruct (H2 z Hz) as [<-|]; [contradiction|assumption].
      * rewrite map_app, map_map. apply NoDup_app; [assumption| |].
        -- assert (G : forall l, (forall y, In y l -> NoDup (y ++ [s])) -> NoDup (map nsort l) -> NoDup (map (fun x => nsort (x ++ [s])) l)).
           { induction l as [|y l IHl]; intros Hl Hd; [constructor|]. inversion Hd as [|? ? Hy Hd']; subst. cbn [map]. constructor.
             - intros H. apply in_map_iff in H. destruct H as (z & Ez & Hz). apply Hy. apply in_map_iff. exists z. split; [|assumption].
               assert (N1' := Hl y (or_introl eq_refl)). assert (N2' := Hl z (or_intror Hz)).
               assert (Ny : NoDup y) by (apply NoDup_remove_1 in N1'; now rewrite app_nil_r in N1'). assert (Nz : NoDup z) by (apply NoDup_remove_1 in N2'; now rewrite app_nil_r in N2').
               assert (Sy : ~ In s y) by (apply NoDup_remove_2 in N1'; now rewrite app_nil_r in N1').
               assert (Sz : ~ In s z) by (apply NoDup_remove_2 in N2'; now rewrite app_nil_r in N2').
               apply sorted_eq; [now apply nsort_lt|now apply nsort_lt|]. intros w. rewrite !nsort_in.
               assert (Hw : In w (z ++ [s]) <-> In w (y ++ [s])) by (rewrite <- (nsort_in (z ++ [s])), Ez, nsort_in; tauto).
               rewrite !in_app_iff in Hw. cbn [In] in Hw.
               destruct (Nat.eq_dec s w) as [<-|]; [tauto|]. tauto.
             - apply IHl; [intros w Hw; apply Hl; now right|assumption]. }
           apply G; assumption.
        -- intros t H1 H2. apply B1 in H1. destruct H1 as (_ & H1 & _). apply in_map_iff in H2. destruct H2 as (y & <- & Hy).
           apply Hs. apply H1. apply nsort_in, in_app_iff. right. now left.
      * intros _. rewrite app_length, map_length, C1, C2 by lia. cbn [length]. replace (Z.to_nat size) with (S (Z.to_nat (size - 1))) by lia.
        cbn [binom]. lia.
Qed.

Lemma subsets_dup c size : ~ NoDup c -> subsets c size = Err GenericException.
Proof.
  intros H. assert (E : (length c =? length (nunique c)) = false).
  { apply Nat.eqb_neq. intros E. now apply H, nunique_length. }
  destruct c; cbn [subsets]; rewrite E; reflexivity.
Qed.

(** ** List objects *)
Lemma append_at_length s hp a : length (append_at s hp a) = length hp.
Proof. apply upd_length. Qed.

Lemma fold_append_length s l hp : length (fold_left (append_at s) l hp) = length hp.
Proof. revert hp. induction l as [|a l IH]; intros hp; cbn [fold_left]; [reflexivity|]. now rewrite IH, append_at_length. Qed.

Lemma fold_append_other s l hp b : ~ In b l -> nth b (fold_left (append_at s) l hp) [] = nth b hp [].
Proof.
  revert hp. induction l as [|a l IH]; intros hp H; cbn [fold_left]; [reflexivity|]. rewrite IH by (intros Hb; apply H; now right).
  unfold append_at. destruct (Nat.eq_dec a b) as [->|N]; [destruct H; now left|]. now rewrite nth_upd_other by congruence.
Qed.

Lemma fold_append_in s l hp b : NoDup l -> In b l -> b < length hp -> nth b (fold_left (append_at s) l hp) [] = nth b hp [] ++ [s].
Proof.
  revert hp. induction l as [|a l IH]; intros hp Hn H Hb; [destruct H|]. inversion Hn as [|? ? Ha Hl]; subst. cbn [fold_left].
  destruct H as [->|H].
  - rewrite fold_append_other by assumption. unfold append_at. now rewrite nth_upd_same.
  - rewrite IH; [|assumption|assumption|now rewrite append_at_length]. unfold append_at. rewrite nth_upd_other; [reflexivity|]. intros ->. contradiction.
Qed.

(** The returned objects hold the subsets; no object that existed before the call is
    changed; unless the whole list is asked for, all returned objects are new. *)
Lemma subsets_heap_ok fuel : forall hp this size, NoDup (nth this hp []) -> this < length hp ->
  length (nth this hp []) < fuel ->
  exists addrs hp' r, subsets_heap fuel hp this size = Ok (addrs, hp') /\ subsets (nth this hp []) size = Ok r /\
    map (fun a => nth a hp' []) addrs = r /\ length hp <= length hp' /\
    (forall b, b < length hp -> nth b hp' [] = nth b hp []) /\ NoDup addrs /\
    (forall a, In a addrs -> a < length hp') /\
    (size <> Z.of_nat (length (nth this hp [])) -> forall a, In a addrs -> length hp <= a) /\
    (size = Z.of_nat (length (nth this hp [])) -> addrs = [this] /\ hp' = hp).
Proof.
  induction fuel as [|fuel IH]; intros hp this size Hn Ht Hf; [lia|].
  cbn [subsets_heap]. set (c := nth this hp []) in *.
  assert (E : (length c =? length (nunique c)) = true) by (apply Nat.eqb_eq, nunique_length; assumption).
  rewrite E. cbn [negb].
  assert (U : subsets c size = if Z.eqb size (Z.of_nat (length c)) then Ok [c]
    else if Z.ltb (Z.of_nat (length c)) size then Ok []
    else if Z.leb size 0 then Ok []
    else if Z.eqb size 1 then Ok (map (fun s => [s]) c)
    else match c with
    | [] => Err IndexError
    | s :: rest => bind (subsets rest size) (fun subrest1 => bind (subsets rest (size - 1)) (fun subrest2 =>
      Ok (subrest1 ++ map (fun srest => srest ++ [s]) subrest2)))
    end) by (destruct c; cbn [subsets]; rewrite E; reflexivity).
  rewrite U. clear U.
  destruct (Z.eqb_spec size (Z.of_nat (length c))) as [Es|Ns].
  { exists [this], hp, [c]. split; [reflexivity|]. split; [reflexivity|]. split; [reflexivity|]. split; [lia|]. split; [reflexivity|].
    split; [repeat constructor; intros []|]. split; [intros a [<-|[]]; assumption|]. split; [intros; contradiction|]. intros; split; reflexivity. }
  destruct (Z.ltb_spec (Z.of_nat (length c)) size).
  { exists [], hp, []. split; [reflexivity|]. split; [reflexivity|]. split; [reflexivity|]. split; [lia|]. split; [reflexivity|].
    split; [constructor|]. split; [intros a []|]. split; [intros _ a []|]. intros; contradiction. }
  destruct (Z.leb_spec size 0).
  { exists [], hp, []. split; [reflexivity|]. split; [reflexivity|]. split; [reflexivity|]. split; [lia|]. split; [reflexivity|].
    split; [constructor|]. split; [intros a []|]. split; [intros _ a []|]. intros; contradiction. }
  destruct (Z.eqb_spec size 1).
  { eexists _, _, _. split; [reflexivity|]. split; [reflexivity|]. split; [|split; [rewrite app_length; lia|split; [|split; [apply seq_NoDup|split; [|split; [|intros; contradiction]]]]]].
    - apply (nth_ext _ _ [] []); [rewrite !map_length, seq_length; reflexivity|]. intros k Hk. rewrite map_length, seq_length in Hk.
      rewrite (nth_indep _ [] (nth 0 (hp ++ map (fun s => [s]) c) [])) by (rewrite map_length, seq_length; assumption).
      rewrite (map_nth (fun a => nth a (hp ++ map (fun s => [s]) c) [])), seq_nth by assumption.
      rewrite app_nth2 by lia. f_equal. lia.
    - intros b Hb. now apply app_nth1.
    - intros a Ha. apply in_seq in Ha. rewrite app_length, map_length. lia.
    - intros _ a Ha. apply in_seq in Ha. lia. }
  destruct c as [|s rest] eqn:Ec; [cbn in *; lia|]. cbn [length] in *. inversion Hn as [|? ? Hs Hr]; subst x l.
  assert (Ea : nth (length hp) (hp ++ [rest]) [] = rest) by (rewrite app_nth2, Nat.sub_diag by lia; reflexivity).
  destruct (IH (hp ++ [rest]) (length hp) size) as (a1 & h1 & r1 & E1 & F1 & M1 & L1 & O1 & D1 & B1 & N1 & S1);
    [now rewrite Ea|rewrite app_length; cbn; lia|rewrite Ea; lia|]. rewrite Ea in *.
  rewrite app_length in *. cbn [length] in *.
  rewrite E1. cbn [bind fst snd].
  assert (Ea' : nth (length hp) h1 [] = rest) by (rewrite O1 by lia; exact Ea).
  destruct (IH h1 (length hp) (size - 1)%Z) as (a2 & h2 & r2 & E2 & F2 & M2 & L2 & O2 & D2 & B2 & N2 & S2);
    [now rewrite Ea'|lia|rewrite Ea'; lia|]. rewrite Ea' in *.
  rewrite E2, F1, F2. cbn [bind fst snd].
  assert (F : forall a, In a a2 -> length h1 <= a) by (apply N2; lia).
  eexists _, _, _. split; [reflexivity|]. split; [reflexivity|]. rewrite fold_append_length.
  split; [|split; [lia|split; [|split; [|split; [|split; [|intros; lia]]]]]].
  - rewrite map_app. f_equal.
    + rewrite <- M1. apply map_ext_in. intros a Ha. rewrite fold_append_other; [now apply O2, B1|]. intros H'. pose proof (F a H'). pose proof (B1 a Ha). lia.
    + rewrite <- M2, map_map. apply map_ext_in. intros a Ha. apply fold_append_in; auto.
  - intros b Hb. rewrite fold_append_other; [|intros H'; pose proof (F b H'); lia]. rewrite O2, O1 by lia. now apply app_nth1.
  - apply NoDup_app; try assumption. intros a Ha Hb. pose proof (F a Hb). pose proof (B1 a Ha). lia.
  - intros a Ha. apply in_app_or in Ha. destruct Ha as [Ha|Ha]; [pose proof (B1 a Ha); lia|now apply B2].
  - intros _ a Ha. apply in_app_or in Ha. destruct Ha as [Ha|Ha]; [|pose proof (F a Ha); lia].
    destruct (Z.eq_dec size (Z.of_nat (length rest))) as [Eq|Ne].
    + destruct (S1 Eq) as [-> _]. destruct Ha as [<-|[]]. lia.
    + pose proof (N1 Ne a Ha). lia.
Qed.
