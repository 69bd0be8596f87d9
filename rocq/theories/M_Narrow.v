(** * Matrix products of integer data: pair_corr and calc_overlap (coniii/utils.py),
    cooccurrence_matrix and isingDeltaCooc (coniii/mean_field_ising.py).
    numpy's dot of two arrays of one integer type adds the products in that type. *)
From Verif Require Import Prelude M_Index M_Energy M_Params M_Corr M_MeanField M_Models M_Front M_Rest M_Types.
Import ListNotations.
Local Open Scope R_scope.

(** Integer element types of numpy by number of bits, and bool. *)
Inductive int_type := Signed (bits : nat) | Unsigned (bits : nat) | Boolean.

(** The value that a number leaves in an element of the type: two's complement, modulo, truth
    value. *)
Definition wrap (t : int_type) (z : Z) : Z :=
  match t with
  | Signed b => (z + 2 ^ (Z.of_nat b - 1)) mod 2 ^ Z.of_nat b - 2 ^ (Z.of_nat b - 1)
  | Unsigned b => z mod 2 ^ Z.of_nat b
  | Boolean => if Z.eqb z 0 then 0 else 1
  end%Z.

(** numpy's dot of two vectors of the same integer type (for bool: or of the ands). *)
Definition typed_dot (t : int_type) (u v : list Z) : Z :=
  fold_left (fun acc p => wrap t (acc + wrap t (fst p * snd p))%Z) (combine u v) 0%Z.

(** [X[:,i]]. *)
Definition int_column (X : list (list Z)) (i : nat) : list Z := map (fun r => xat r i) X.

(** coniii/utils.py:118-185 [pair_corr] on an array of element type [t].  Only line 175 multiplies
    two arrays of the type: sum (174) adds in 64 bits, the other products have a float or an
    astype(int) factor.  64-bit sums are taken as exact. *)
Definition pair_corr_typed (t : int_type) (X : list (list Z)) (N : nat) (weights : weights_arg)
  (exclude_empty subtract_mean laplace_count : bool) : result (list R * list R) :=
  if negb (spins_ok X) then Err AssertionError
  else
  bind (resolve_weights X N weights exclude_empty laplace_count) (fun w =>
  let '(si, sisj) :=
    match w with
    | PerObs w1 w2 =>
      (map (fun i => sumf X (fun r => IZR (xat r i)) * nthR w1 i) (range N),
       map (fun kp => let '(k, p) := kp in
              IZR (typed_dot t (int_column X (fst p)) (int_column X (snd p))) * nthR w2 k)
           (combine (range (length (loop_ij N))) (loop_ij N)))
    | PerRow w =>
      (map (fun i => sumf (combine X w) (fun rw => IZR (xat (fst rw) i) * snd rw)) (range N),
       map (fun p => sumf (combine X w) (fun rw =>
              IZR (xat (fst rw) (fst p)) * (IZR (xat (fst rw) (snd p)) * snd rw))) (loop_ij N))
    end in
  let sisj := if subtract_mean then
      map (fun kp => let '(k, p) := kp in nthR sisj k - nthR si (fst p) * nthR si (snd p))
          (combine (range (length (loop_ij N))) (loop_ij N))
    else sisj in
  Ok (si, sisj)).

(** coniii/utils.py:100-116 [calc_overlap], entry (a,b): line 110 is a product in the type. *)
Definition calc_overlap_typed (t : int_type) (sample : list (list Z)) (N a b : nat) (ignore_zeros : bool) : R :=
  let ra := nth a sample [] in let rb := nth b sample [] in
  let overlap := IZR (typed_dot t (map (xat ra) (range N)) (map (xat rb) (range N))) in
  if ignore_zeros then
    let z := fun r => length (filter (Z.eqb 0) r) in
    overlap / INR (N - Nat.max (z ra) (z rb))
  else overlap / INR N.

(** coniii/mean_field_ising.py:443-460 [cooccurrence_matrix]: line 457 is a product in the type,
    the next line makes it a float array. *)
Definition cooccurrence_typed (t : int_type) (samples : list (list Z)) (keep_diag : bool) : list (list R) :=
  let n := length (hd [] samples) in
  mk_mat n n (fun i j =>
    IZR (typed_dot t (int_column samples i) (int_column samples j))
    * (1 - (if (if keep_diag then Nat.ltb j i else Nat.leb j i) then 1 else 0))
    / INR (length samples)).

(** coniii/mean_field_ising.py:538-540 [isingDeltaCooc]. *)
Definition isingDeltaCooc_typed (t : int_type) (isingSamples : list (list Z)) (coocMatDesired : list (list R)) : result (list R) :=
  let isingCooc := cooccurrence_typed t isingSamples true in
  aboveDiagFlat (mk_mat (length isingCooc) (length isingCooc) (fun i j =>
    entry isingCooc i j - entry coocMatDesired i j)) true None.

(** The element types of the samplers' arrays (M_Types [sample_type]) among those above. *)
Definition int_type_of (d : dtype) : int_type :=
  match d with OtherType 0 => Signed 8 | _ => Signed 64 end.

(** coniii/solvers.py:2665-2674, 2688, 2692 [RegularizedMeanField.solve]: the residuals are taken
    from self.model.sample, whose type depends on whether the C++ extension was imported. *)
Definition rmf_residuals (ext : bool) (n : nat) (theta : list R) (isingSamples : list (list Z)) (coocMatData : list (list R)) : result (list R) :=
  isingDeltaCooc_typed (int_type_of (fst (model_sample_type ext n theta))) isingSamples coocMatData.
