(** * Property theorems C01-C07: indices and state enumeration. *)
From Coq Require Import Ascii String.
From Verif Require Import Prelude Spec PreludeFacts M_Index P_Index P_Unravel.
Import ListNotations.

(** ** C01 *)
(** [sub_to_ind n i j] is the position of (i,j) in itertools.combinations(range(n),2). *)
Theorem C01_sub_to_ind_is_combinations_position :
  forall n i j : Z, (0 <= i < j)%Z -> (j < n)%Z ->
  exists k : nat, sub_to_ind n i j = Ok (Z.of_nat k) /\
                  nth_error (pairs (Zrange 0 n)) k = Some (i, j).
Proof. exact sub_to_ind_position. Qed.
Print Assumptions C01_sub_to_ind_is_combinations_position.

Theorem C01_inverse_left :
  forall n i j : Z, (0 <= i < j)%Z -> (j < n)%Z ->
  exists k, sub_to_ind n i j = Ok k /\ ind_to_sub n k = Some (i, j).
Proof. exact ind_to_sub_sub_to_ind. Qed.
Print Assumptions C01_inverse_left.

Theorem C01_inverse_right :
  forall n ix : Z, (0 <= n)%Z -> (0 <= ix < n * (n - 1) / 2)%Z ->
  exists i j, ind_to_sub n ix = Some (i, j) /\ (0 <= i < j)%Z /\ (j < n)%Z /\
              sub_to_ind n i j = Ok ix.
Proof. exact sub_to_ind_ind_to_sub. Qed.
Print Assumptions C01_inverse_right.

Theorem C01_range :
  forall n i j k : Z, (0 <= i < j)%Z -> (j < n)%Z -> sub_to_ind n i j = Ok k ->
  (0 <= k < n * (n - 1) / 2)%Z.
Proof.
  intros n i j k H1 H2 E. destruct (sub_to_ind_position n i j H1 H2) as (m & Em & Hn).
  rewrite E in Em. injection Em as ->.
  assert (m < length (pairs (Zrange 0 n))) by (apply nth_error_Some; congruence).
  pose proof (pairs_Zrange_length n ltac:(lia)). lia.
Qed.
Print Assumptions C01_range.

Theorem C01_injective :
  forall n i j i' j' : Z, (0 <= i < j)%Z -> (j < n)%Z -> (0 <= i' < j')%Z -> (j' < n)%Z ->
  sub_to_ind n i j = sub_to_ind n i' j' -> (i, j) = (i', j').
Proof.
  intros n i j i' j' H1 H2 H3 H4 E.
  destruct (sub_to_ind_position n i j H1 H2) as (m & Em & Hm).
  destruct (sub_to_ind_position n i' j' H3 H4) as (m' & Em' & Hm').
  rewrite Em, Em' in E. injection E as E. apply Nat2Z.inj in E. subst m'. congruence.
Qed.
Print Assumptions C01_injective.

Theorem C01_symmetric : forall n i j : Z, sub_to_ind n i j = sub_to_ind n j i.
Proof. exact sub_to_ind_sym. Qed.
Print Assumptions C01_symmetric.

Theorem C01_equal_indices_raise : forall n i : Z, sub_to_ind n i i = Err GenericException.
Proof. exact sub_to_ind_diag. Qed.
Print Assumptions C01_equal_indices_raise.

Theorem C01_out_of_range_is_None :
  forall n ix : Z, (0 <= n)%Z ->
  (ind_to_sub n ix = None <-> (ix < 0 \/ n * (n - 1) / 2 <= ix)%Z).
Proof. exact ind_to_sub_none. Qed.
Print Assumptions C01_out_of_range_is_None.

Example C01_example :
  sub_to_ind 5 1 3 = Ok 5%Z /\ sub_to_ind 5 3 1 = Ok 5%Z /\ ind_to_sub 5 5 = Some (1, 3)%Z /\
  ind_to_sub 5 10 = None /\ (0 <= 1 < 3)%Z /\ (3 < 5)%Z.
Proof. repeat split; vm_compute; congruence || reflexivity. Qed.

(** ** C02 *)
(** The table is the lexicographic enumeration of all assignments. *)
Theorem C02_bin_states_enumerates :
  forall (n : Z) (sym : bool), (0 < n <= 30)%Z ->
  exists rows, bin_states n sym = Ok rows /\
    length rows = 2 ^ Z.to_nat n /\
    NoDup rows /\
    (forall s, In s rows <->
       length s = Z.to_nat n /\
       (forall v, In v s -> if sym then v = (-1)%Z \/ v = 1%Z else v = 0%Z \/ v = 1%Z)) /\
    rows = all_states (if sym then [-1; 1]%Z else [0; 1]%Z) (Z.to_nat n).
Proof.
  intros n sym Hn. eexists. split; [apply bin_states_eq; assumption|].
  split; [rewrite all_states_length; destruct sym; reflexivity|].
  split; [|split; [|reflexivity]].
  - apply all_states_NoDup. destruct sym; repeat constructor; cbn; intuition congruence.
  - intros s. rewrite all_states_spec. destruct sym; split; intros [Hl Hv]; split; auto; intros v Hin; specialize (Hv v Hin); cbn in *; intuition.
Qed.
Print Assumptions C02_bin_states_enumerates.

(** Row i is the big-endian binary expansion of i. *)
Theorem C02_bin_states_row_value :
  forall (n : Z) (i : nat), (0 < n <= 30)%Z -> i < 2 ^ Z.to_nat n ->
  exists rows bits, bin_states n false = Ok rows /\
    nth_error rows i = Some (map Z.of_nat bits) /\ horner 2 bits = i.
Proof.
  intros n i Hn Hi. exists (all_states [0; 1]%Z (Z.to_nat n)).
  destruct (all_states_nth 2 (Z.to_nat n) i ltac:(lia) Hi) as (ds & Hds & Hh).
  exists ds. split; [apply (bin_states_eq n false Hn)|]. split; [|assumption].
  change [0; 1]%Z with (map Z.of_nat (seq 0 2)). rewrite all_states_map, nth_error_map, Hds. reflexivity.
Qed.
Print Assumptions C02_bin_states_row_value.

(** The two bases list the same states in the same order. *)
Theorem C02_sym_is_relabelling :
  forall (n : Z) rows, (0 < n <= 30)%Z -> bin_states n false = Ok rows ->
  bin_states n true = Ok (map (map (fun v => if (v =? 0)%Z then -1 else 1)%Z) rows).
Proof.
  intros n rows Hn E. rewrite (bin_states_eq n false Hn) in E. injection E as <-.
  rewrite (bin_states_eq n true Hn). f_equal.
  change [-1; 1]%Z with (map (fun v => if (v =? 0)%Z then -1 else 1)%Z [0; 1]%Z).
  apply all_states_map.
Qed.
Print Assumptions C02_sym_is_relabelling.

Theorem C02_out_of_range_raises :
  forall n sym, (n < 0 \/ 30 < n)%Z -> bin_states n sym = Err GenericException.
Proof.
  intros n sym H. unfold bin_states.
  destruct (Z.ltb_spec n 0); [reflexivity|]. destruct (Z.ltb_spec 30 n); [reflexivity|lia].
Qed.
Print Assumptions C02_out_of_range_raises.

(** The generator yields the same rows, for every positive size. *)
Theorem C02_xbin_states_enumerates :
  forall (n : Z) (sym : bool), (0 < n)%Z ->
  xbin_states n sym = Ok (all_states (if sym then [-1; 1]%Z else [0; 1]%Z) (Z.to_nat n)).
Proof. exact xbin_states_eq. Qed.
Print Assumptions C02_xbin_states_enumerates.

Theorem C02_xbin_agrees :
  forall (n : Z) (sym : bool), (0 < n <= 30)%Z -> xbin_states n sym = bin_states n sym.
Proof. intros n sym H. rewrite bin_states_eq, xbin_states_eq by lia. reflexivity. Qed.
Print Assumptions C02_xbin_agrees.

Example C02_example :
  bin_states 2 false = Ok [[0;0];[0;1];[1;0];[1;1]]%Z /\
  bin_states 2 true = Ok [[-1;-1];[-1;1];[1;-1];[1;1]]%Z /\
  xbin_states 2 true = bin_states 2 true /\ (0 < 2 <= 30)%Z /\ bin_states 31 false = Err GenericException.
Proof. repeat split; vm_compute; congruence || reflexivity. Qed.

(** ** C03 *)
(** Small bases: canonical digits, when the float logarithm is exact or one too
    small close above a power of the base (which covers i = base^e exactly). *)
Theorem C03_base_repr_canonical :
  forall (logest : nat -> nat -> nat) (i base e : nat),
  2 <= base <= 10 -> is_floor_log base i e ->
  (logest i base = e \/ (logest i base + 1 = e /\ i < base ^ e + base ^ (logest i base))) ->
  exists ds, base_repr logest i base = Ok (map std_digit ds) /\
    length ds = e + 1 /\ (forall d, In d ds -> d < base) /\ hd 0 ds <> 0 /\ horner base ds = i.
Proof.
  intros logest i base e Hb Hfl Hest. exists (digits base (e + 1) i).
  assert (Hp : base ^ e <> 0) by (apply Nat.pow_nonzero; lia).
  destruct Hfl as [Hlo Hhi].
  split; [|split; [|split; [|split]]].
  - rewrite (base_repr_eq logest i base e) by (first [lia | split; [split; assumption|assumption]]).
    f_equal. unfold alpha_of. destruct (Nat.leb_spec base 10); [|lia].
    apply map_ext_in. intros d Hd. apply digits_lt in Hd; [|lia|assumption].
    do 10 (destruct d as [|d]; [reflexivity|]). lia.
  - apply digits_length.
  - intros d Hd. eapply digits_lt; [|exact Hhi|exact Hd]. lia.
  - apply digits_hd; lia.
  - apply horner_digits; [lia|assumption].
Qed.
Print Assumptions C03_base_repr_canonical.

Theorem C03_base_repr_zero :
  forall logest base, 2 <= base -> base_repr logest 0 base = Ok [std_digit 0].
Proof. intros logest base H. unfold base_repr. destruct (Nat.ltb_spec base 2); [lia|reflexivity]. Qed.
Print Assumptions C03_base_repr_zero.

(** If the float logarithm is one too large there is one leading zero. *)
Theorem C03_base_repr_overestimate :
  forall (logest : nat -> nat -> nat) (i base e : nat),
  2 <= base <= 10 -> is_floor_log base i e -> logest i base = e + 1 ->
  exists ds, base_repr logest i base = Ok (map std_digit (0 :: ds)) /\
    length ds = e + 1 /\ (forall d, In d ds -> d < base) /\ hd 0 ds <> 0 /\ horner base ds = i.
Proof.
  intros logest i base e Hb [Hlo Hhi] Hest. exists (digits base (e + 1) i).
  assert (Hp : base ^ e <> 0) by (apply Nat.pow_nonzero; lia).
  split; [|split; [|split; [|split]]].
  - unfold base_repr. destruct (Nat.ltb_spec base 2); [lia|]. destruct (Nat.eqb_spec i 0); [lia|].
    destruct (Nat.leb_spec base 10); [|lia]. rewrite Hest, generic_base_large_eq;
      [|apply good_NUMERALS; lia|lia|split; assumption].
    cbn [map]. f_equal. f_equal.
    apply map_ext_in. intros d Hd. apply digits_lt in Hd; [|lia|assumption].
    do 10 (destruct d as [|d]; [reflexivity|]). lia.
  - apply digits_length.
  - intros d Hd. eapply digits_lt; [|exact Hhi|exact Hd]. lia.
  - apply digits_hd; lia.
  - apply horner_digits; [lia|assumption].
Qed.
Print Assumptions C03_base_repr_overestimate.

Theorem C03_bad_base_raises :
  forall logest i base, base < 2 -> base_repr logest i base = Err AssertionError.
Proof. intros logest i base H. unfold base_repr. destruct (Nat.ltb_spec base 2); [reflexivity|lia]. Qed.
Print Assumptions C03_bad_base_raises.

(** i = 125 = 5^3: numerically log(125)/log(5) truncates to 3 or to 2; both work. *)
Example C03_example :
  is_floor_log 5 125 3 /\ 125 < 5 ^ 3 + 5 ^ 2 /\
  base_repr (fun _ _ => 3) 125 5 = Ok (map std_digit [1;0;0;0]) /\
  base_repr (fun _ _ => 2) 125 5 = Ok (map std_digit [1;0;0;0]) /\
  base_repr (fun _ _ => 4) 125 5 = Ok (map std_digit [0;1;0;0;0]) /\
  base_repr (fun _ _ => 2) 57 5 = Ok (map std_digit [2;1;2]).
Proof. unfold is_floor_log. repeat split; vm_compute; try reflexivity; lia. Qed.

(** ** C04 *)
(** The full claim (digits 0-9A-Z in order for bases 11..36) is false: *)
Theorem C04_alphabet_refuted :
  exists i base e (logest : nat -> nat -> nat),
    11 <= base <= 36 /\ is_floor_log base i e /\ logest i base = e /\
    (forall ds, (forall d, In d ds -> d < base) -> horner base ds = i -> hd 0 ds <> 0 ->
       base_repr logest i base <> Ok (map std_digit ds)).
Proof.
  exists 18, 20, 0, (fun _ _ => 0). split; [lia|]. split; [split; cbn; lia|]. split; [reflexivity|].
  intros ds Hd Hh Hz.
  assert (ds = [18]).
  { destruct ds as [|x ds]; [cbn in Hz; congruence|].
    rewrite horner_cons in Hh. cbn in Hz. destruct ds as [|y ds].
    - cbn in Hh. f_equal. lia.
    - cbn [List.length Nat.pow] in Hh. assert (1 <= 20 ^ List.length ds).
      { pose proof (Nat.pow_nonzero 20 (List.length ds)). lia. }
      nia. }
  subst ds. intros E. vm_compute in E. discriminate.
Qed.
Print Assumptions C04_alphabet_refuted.

(** What does hold: canonical digits whenever 18 and 19 do not occur. *)
Theorem C04_large_base_without_18_19 :
  forall (logest : nat -> nat -> nat) (i base e : nat),
  11 <= base <= 36 -> is_floor_log base i e ->
  (logest i base = e \/ (logest i base + 1 = e /\ i < base ^ e + base ^ (logest i base))) ->
  exists ds, length ds = e + 1 /\ (forall d, In d ds -> d < base) /\ hd 0 ds <> 0 /\ horner base ds = i /\
    (~ In 18 ds -> ~ In 19 ds -> base_repr logest i base = Ok (map std_digit ds)) /\
    (* and in general the printed string is the standard one with I and J exchanged *)
    base_repr logest i base =
      Ok (map std_digit (map (fun d => if Nat.eqb d 18 then 19 else if Nat.eqb d 19 then 18 else d) ds)).
Proof.
  intros logest i base e Hb [Hlo Hhi] Hest. exists (digits base (e + 1) i).
  assert (Hp : base ^ e <> 0) by (apply Nat.pow_nonzero; lia).
  assert (Hlt : forall d, In d (digits base (e + 1) i) -> d < base) by (intros d Hd; eapply digits_lt; [|exact Hhi|exact Hd]; lia).
  assert (Hgen : base_repr logest i base =
      Ok (map std_digit (map (fun d => if Nat.eqb d 18 then 19 else if Nat.eqb d 19 then 18 else d) (digits base (e + 1) i)))).
  { rewrite (base_repr_eq logest i base e) by (first [lia | split; [split; assumption|assumption]]).
    f_equal. unfold alpha_of. destruct (Nat.leb_spec base 10); [lia|].
    rewrite map_map. apply map_ext_in. intros d Hd. apply Hlt in Hd.
    assert (Hd36 : d < 36) by lia. clear -Hd36.
    do 36 (destruct d as [|d]; [reflexivity|]). lia. }
  split; [apply digits_length|]. split; [assumption|]. split; [apply digits_hd; lia|].
  split; [apply horner_digits; [lia|assumption]|]. split; [|assumption].
  intros H18 H19. rewrite Hgen. f_equal. f_equal. rewrite <- (map_id (digits base (e + 1) i)) at 2.
  apply map_ext_in. intros d Hd.
  destruct (Nat.eqb_spec d 18) as [->|]; [contradiction|]. destruct (Nat.eqb_spec d 19) as [->|]; [contradiction|]. reflexivity.
Qed.
Print Assumptions C04_large_base_without_18_19.

Example C04_example :
  is_floor_log 16 255 1 /\ base_repr (fun _ _ => 1) 255 16 = Ok ["F"; "F"]%char /\
  base_repr (fun _ _ => 0) 18 20 = Ok ["J"]%char /\ std_digit 18 = "I"%char.
Proof. unfold is_floor_log. repeat split; vm_compute; try reflexivity; lia. Qed.

(** ** C05 *)
Theorem C05_xpotts_states_enumerates :
  forall (logest : nat -> nat -> nat) (n k : nat), 0 < n -> 2 <= k <= 10 ->
  (forall i e, 0 < i < k ^ n -> is_floor_log k i e ->
     logest i k = e \/ (logest i k + 1 = e /\ i < k ^ e + k ^ (logest i k))) ->
  exists rows, xpotts_states logest n k = Ok rows /\
    rows = map (map std_digit) (all_states (seq 0 k) n) /\
    length rows = k ^ n /\ NoDup rows /\
    (forall m, m < k ^ n -> exists ds, nth_error rows m = Some (map std_digit ds) /\
        length ds = n /\ (forall d, In d ds -> d < k) /\ horner k ds = m).
Proof.
  intros logest n k Hn Hk Hest. eexists. split; [apply xpotts_states_eq; [assumption|lia|]|].
  - intros i Hi. destruct (exponent_exists k n i ltac:(lia) ltac:(lia) ltac:(lia)) as (e & He & _).
    exists e. split; [assumption|]. apply Hest; [assumption|exact He].
  - assert (E : map (map (fun d => nth d (alpha_of k) "0"%char)) (all_states (seq 0 k) n)
              = map (map std_digit) (all_states (seq 0 k) n)).
    { apply map_ext_in. intros s Hs. apply all_states_spec in Hs. destruct Hs as [_ Hv].
      apply map_ext_in. intros d Hd. specialize (Hv d Hd). apply in_seq in Hv.
      unfold alpha_of. destruct (Nat.leb_spec k 10); [|lia].
      assert (Hd10 : d < 10) by lia. clear -Hd10. do 10 (destruct d as [|d]; [reflexivity|]). lia. }
    rewrite E. split; [reflexivity|]. split; [|split].
    + rewrite map_length, all_states_length, seq_length. reflexivity.
    + assert (Hinj : forall L : list (list nat), (forall s, In s L -> forall d, In d s -> d < 10) -> NoDup L -> NoDup (map (map std_digit) L)).
      { assert (Hd : forall a b, a < 10 -> b < 10 -> std_digit a = std_digit b -> a = b).
        { intros a b Ha Hb. do 10 (destruct a as [|a]; [do 10 (destruct b as [|b]; [vm_compute; congruence|]); lia|]). lia. }
        assert (Hm : forall s t, (forall d, In d s -> d < 10) -> (forall d, In d t -> d < 10) -> map std_digit s = map std_digit t -> s = t).
        { induction s as [|a s IH]; intros [|b t] Hs Ht Ee; try discriminate; [reflexivity|].
          cbn [map] in Ee. injection Ee as E1 E2. f_equal; [apply Hd; auto with datatypes|apply IH; auto with datatypes]. }
        induction L as [|s L IHL]; intros HL Hnd; cbn [map]; [constructor|].
        inversion_clear Hnd. constructor.
        - intros Hin. apply in_map_iff in Hin. destruct Hin as (t & Ee & Ht).
          apply Hm in Ee; [subst; contradiction|apply HL; now right|apply HL; now left].
        - apply IHL; [|assumption]. intros t Ht. apply HL. now right. }
      apply Hinj; [|apply all_states_NoDup, seq_NoDup].
      intros s Hs d Hd. apply all_states_spec in Hs. destruct Hs as [_ Hv]. specialize (Hv d Hd). apply in_seq in Hv. lia.
    + intros m Hm. destruct (all_states_nth k n m ltac:(lia) Hm) as (ds & Hds & Hh). exists ds.
      rewrite nth_error_map, Hds. split; [reflexivity|].
      pose proof (nth_error_In _ _ Hds) as Hin. apply all_states_spec in Hin. destruct Hin as [Hl Hv].
      split; [assumption|]. split; [|assumption]. intros d Hd. specialize (Hv d Hd). apply in_seq in Hv. lia.
Qed.
Print Assumptions C05_xpotts_states_enumerates.

(** With 11 to 36 states per spin nothing is missing or repeated either; digits 18 and
    19 are printed as J and I (see C04). *)
Theorem C05_xpotts_states_letters :
  forall (logest : nat -> nat -> nat) (n k : nat), 0 < n -> 11 <= k <= 36 ->
  (forall i e, 0 < i < k ^ n -> is_floor_log k i e ->
     logest i k = e \/ (logest i k + 1 = e /\ i < k ^ e + k ^ (logest i k))) ->
  exists rows, xpotts_states logest n k = Ok rows /\
    rows = map (map (fun d => std_digit (if Nat.eqb d 18 then 19 else if Nat.eqb d 19 then 18 else d))) (all_states (seq 0 k) n) /\
    length rows = k ^ n /\ NoDup rows.
Proof.
  intros logest n k Hn Hk Hest.
  set (pr := fun d => std_digit (if Nat.eqb d 18 then 19 else if Nat.eqb d 19 then 18 else d)).
  exists (map (map pr) (all_states (seq 0 k) n)). split; [|split; [reflexivity|split]].
  - rewrite xpotts_states_eq; [|assumption|lia|].
    + f_equal. apply map_ext_in. intros s Hs. apply all_states_spec in Hs. destruct Hs as [_ Hv].
      apply map_ext_in. intros d Hd. specialize (Hv d Hd). apply in_seq in Hv.
      unfold alpha_of. destruct (Nat.leb_spec k 10); [lia|].
      assert (Hd36 : d < 36) by lia. clear -Hd36. do 36 (destruct d as [|d]; [reflexivity|]). lia.
    + intros i Hi. destruct (exponent_exists k n i ltac:(lia) ltac:(lia) ltac:(lia)) as (e & He & _).
      exists e. split; [assumption|]. apply Hest; [assumption|exact He].
  - rewrite map_length, all_states_length, seq_length. reflexivity.
  - assert (Hd : forall a b, a < 36 -> b < 36 -> pr a = pr b -> a = b).
    { assert (C : forallb (fun ab => if Ascii.eqb (pr (fst ab)) (pr (snd ab)) then Nat.eqb (fst ab) (snd ab) else true) (list_prod (seq 0 36) (seq 0 36)) = true) by (vm_compute; reflexivity).
      intros a b Ha Hb E. rewrite forallb_forall in C. specialize (C (a, b)). cbn [fst snd] in C. rewrite E, Ascii.eqb_refl in C.
      apply Nat.eqb_eq, C. apply in_prod; apply in_seq; lia. }
    assert (Hm : forall s t, (forall d, In d s -> d < 36) -> (forall d, In d t -> d < 36) -> map pr s = map pr t -> s = t).
    { clearbody pr. induction s as [|a s IH]; intros [|b t] Hs Ht Ee; try discriminate; [reflexivity|].
      cbn [map] in Ee. injection Ee as E1 E2. f_equal; [apply Hd; auto with datatypes|apply IH; auto with datatypes]. }
    assert (HL : forall s, In s (all_states (seq 0 k) n) -> forall d, In d s -> d < 36).
    { intros s Hs d Hdd. apply all_states_spec in Hs. destruct Hs as [_ Hv]. specialize (Hv d Hdd). apply in_seq in Hv. lia. }
    pose proof (all_states_NoDup (seq 0 k) n (seq_NoDup _ _)) as Hnd. revert HL Hnd. generalize (all_states (seq 0 k) n). clearbody pr.
    intros L. induction L as [|s L IHL]; intros HL Hnd; cbn [map]; [constructor|].
    inversion_clear Hnd. constructor.
    + intros Hin. apply in_map_iff in Hin. destruct Hin as (t & Ee & Ht).
      apply Hm in Ee; [subst; contradiction|apply HL; now right|apply HL; now left].
    + apply IHL; [|assumption]. intros t Ht. apply HL. now right.
Qed.
Print Assumptions C05_xpotts_states_letters.

Theorem C05_xpotts_bad_arguments_raise :
  forall logest n k, n = 0 \/ k < 2 -> xpotts_states logest n k = Err AssertionError.
Proof.
  intros logest n k H. unfold xpotts_states. destruct (Nat.leb_spec n 0); [reflexivity|].
  destruct (Nat.ltb_spec k 2); [reflexivity|lia].
Qed.
Print Assumptions C05_xpotts_bad_arguments_raise.

Example C05_example :
  xpotts_states (fun i k => if Nat.ltb i k then 0 else 1) 2 3 =
  Ok (map (map std_digit) [[0;0];[0;1];[0;2];[1;0];[1;1];[1;2];[2;0];[2;1];[2;2]]).
Proof. vm_compute. reflexivity. Qed.

(** ** C06 *)
Theorem C06_unravel_index_is_combinations_position :
  forall (n : nat) (t : list nat), 1 <= length t -> incr_below n t ->
  exists k, unravel_index t n = Ok k /\
            nth_error (combinations (seq 0 n) (length t)) k = Some t.
Proof. exact unravel_index_position. Qed.
Print Assumptions C06_unravel_index_is_combinations_position.

(** combinations really is the lexicographic list of the increasing tuples. *)
Theorem C06_combinations_spec :
  forall n k,
  length (combinations (seq 0 n) k) = binom n k /\
  (forall t, In t (combinations (seq 0 n) k) <-> length t = k /\ incr_below n t) /\
  (forall p q t u, p < q -> nth_error (combinations (seq 0 n) k) p = Some t ->
     nth_error (combinations (seq 0 n) k) q = Some u -> lex_lt t u).
Proof.
  intros n k. split; [rewrite combinations_length, seq_length; reflexivity|]. split.
  - intros t. apply in_combinations_incr.
  - intros p q t u. apply combinations_lex.
Qed.
Print Assumptions C06_combinations_spec.

(** Bijection onto [0, binom n k). *)
Theorem C06_unravel_index_bijective :
  forall n k, 1 <= k ->
  (forall t t' m, length t = k -> length t' = k -> incr_below n t -> incr_below n t' ->
     unravel_index t n = Ok m -> unravel_index t' n = Ok m -> t = t') /\
  (forall t m, length t = k -> incr_below n t -> unravel_index t n = Ok m -> m < binom n k) /\
  (forall m, m < binom n k -> exists t, length t = k /\ incr_below n t /\ unravel_index t n = Ok m).
Proof.
  intros n k Hk. split; [|split].
  - intros t t' m Hl Hl' Hi Hi' E E'.
    destruct (unravel_index_position n t ltac:(lia) Hi) as (a & Ea & Ha).
    destruct (unravel_index_position n t' ltac:(lia) Hi') as (b & Eb & Hb).
    rewrite Hl in Ha. rewrite Hl' in Hb. congruence.
  - intros t m Hl Hi E. destruct (unravel_index_position n t ltac:(lia) Hi) as (a & Ea & Ha).
    assert (a = m) by congruence. subst a.
    assert (m < length (combinations (seq 0 n) (length t))) by (apply nth_error_Some; congruence).
    rewrite combinations_length, seq_length in H. congruence.
  - intros m Hm. destruct (nth_error (combinations (seq 0 n) k) m) as [t|] eqn:Et.
    2:{ apply nth_error_None in Et. rewrite combinations_length, seq_length in Et. lia. }
    pose proof (nth_error_In _ _ Et) as Hin. apply in_combinations_incr in Hin. destruct Hin as [Hl Hi].
    exists t. split; [assumption|]. split; [assumption|].
    destruct (unravel_index_position n t ltac:(lia) Hi) as (a & Ea & Ha). rewrite Hl in Ha.
    rewrite Ea. f_equal. assert (ND : NoDup (combinations (seq 0 n) k)) by (apply combinations_NoDup, seq_NoDup).
    rewrite NoDup_nth_error in ND. apply ND; [apply nth_error_Some; congruence|congruence].
Qed.
Print Assumptions C06_unravel_index_bijective.

Theorem C06_bad_tuples_raise :
  forall n t, length t <> 1 -> ~ incr_below n t -> unravel_index t n = Err AssertionError.
Proof. exact unravel_index_raises. Qed.
Print Assumptions C06_bad_tuples_raise.

Example C06_example :
  incr_below 6 [1; 3; 4] /\ unravel_index [1; 3; 4] 6 = Ok 13 /\
  nth_error (combinations (seq 0 6) 3) 13 = Some [1; 3; 4] /\
  unravel_index [3; 1] 6 = Err AssertionError /\ ~ incr_below 6 [3; 1].
Proof.
  split; [|repeat split; try (vm_compute; reflexivity)].
  - split.
    + intros a b Hab Hb. cbn in Hb. do 3 (destruct b as [|b]; [do 3 (destruct a as [|a]; [cbn; lia|]); lia|]). lia.
    + intros x [<-|[<-|[<-|[]]]]; lia.
  - intros [H _]. specialize (H 0 1). cbn in H. lia.
Qed.

(** ** C07 *)
Theorem C07_split_concat_round_trip :
  forall {A : Type} (n : nat) (vs : list (list A)) (fuel : nat),
  length vs <= n ->
  (forall k, k < length vs -> length (nth k vs []) = binom n (k + 1)) ->
  length vs < fuel ->
  split_concat_params fuel (concat vs) n = Ok vs.
Proof. intros A n vs fuel H1 H2 H3. apply split_concat_params_ok; assumption. Qed.
Print Assumptions C07_split_concat_round_trip.

(** The loop does not terminate on an input with more than 2^n-1 entries: no
    amount of fuel suffices. *)
Theorem C07_too_long_input_diverges_refuted :
  forall {A : Type} (n : nat) (p : list A), 2 ^ n - 1 < length p ->
  forall fuel, split_concat_params fuel p n = Err OutOfFuel.
Proof.
  intros A n p Hp fuel. unfold split_concat_params. apply (split_loop_diverges fuel n p 0 0 []); [cbn; destruct n; cbn; lia|].
  pose proof (Nat.pow_nonzero 2 n). lia.
Qed.
Print Assumptions C07_too_long_input_diverges_refuted.

Example C07_example :
  split_concat_params 4 (concat [[1;2;3];[4;5;6];[7]]) 3 = Ok [[1;2;3];[4;5;6];[7]] /\
  2 ^ 2 - 1 < length [1;2;3;4] /\ split_concat_params 50 [1;2;3;4] 2 = Err OutOfFuel.
Proof. repeat split; vm_compute; try reflexivity; lia. Qed.
