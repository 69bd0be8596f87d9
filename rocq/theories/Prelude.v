(** * Runtime prelude of the model.

    Definitions shared by all model files: exceptions as values, Python's
    [range], [itertools.combinations], list slices and list sums.  These model
    the Python / numpy runtime, not code of /repo; each definition names the
    library function it stands for. *)
From Coq Require Export List Arith ZArith NArith Lia Bool.
From Coq Require Export Reals Lra.
Export ListNotations.

(** Python exceptions (class only, messages are not modelled).  [OutOfFuel] is
    not a Python exception: it is the outcome of a fuelled loop that has not
    finished within its fuel. *)
Inductive exn : Set :=
| AssertionError | ValueError | IndexError | KeyError | NameError | TypeError
| ZeroDivisionError | UnboundLocalError | AttributeError | NotImplementedError
| GenericException | OutOfFuel.

Inductive result (A : Type) : Type :=
| Ok (a : A)
| Err (e : exn).
Arguments Ok {A} a.
Arguments Err {A} e.

Definition bind {A B} (r : result A) (f : A -> result B) : result B :=
  match r with Ok a => f a | Err e => Err e end.

Definition is_ok {A} (r : result A) : Prop := exists a, r = Ok a.

(** Sequencing of a loop body that may raise: first exception wins. *)
Fixpoint mapM {A B} (f : A -> result B) (l : list A) : result (list B) :=
  match l with
  | [] => Ok []
  | a :: l' => bind (f a) (fun b => bind (mapM f l') (fun bs => Ok (b :: bs)))
  end.

(** [a[i]] for a non-negative index: raises when out of range. *)
Definition get {A} (l : list A) (i : nat) : result A :=
  match nth_error l i with Some a => Ok a | None => Err IndexError end.

(** [range(lo,hi)] over integers. *)
Definition Zrange (lo hi : Z) : list Z :=
  map (fun t => (lo + Z.of_nat t)%Z) (seq 0 (Z.to_nat (hi - lo))).

(** [range(n)] over naturals. *)
Definition range (n : nat) : list nat := seq 0 n.

(** [range(lo,hi)] over naturals. *)
Definition range2 (lo hi : nat) : list nat := seq lo (hi - lo).

(** [p[a:b]] for 0 <= a <= b. *)
Definition slice {A} (p : list A) (a b : nat) : list A := firstn (b - a) (skipn a p).

(** [a[i] = v] on a list (no effect when out of range; callers guard). *)
Fixpoint upd {A} (l : list A) (i : nat) (v : A) : list A :=
  match l, i with
  | [], _ => []
  | _ :: l', 0 => v :: l'
  | x :: l', S i' => x :: upd l' i' v
  end.

(** [itertools.combinations(l,k)]: the k-element sub-sequences of [l] in the
    order documented by Python (lexicographic in positions). *)
Fixpoint combinations {A} (l : list A) (k : nat) : list (list A) :=
  match k with
  | 0 => [[]]
  | S k' =>
    match l with
    | [] => []
    | x :: l' => map (cons x) (combinations l' k') ++ combinations l' k
    end
  end.

(** [itertools.combinations(l,2)] as pairs. *)
Fixpoint pairs {A} (l : list A) : list (A * A) :=
  match l with
  | [] => []
  | x :: l' => map (fun y => (x, y)) l' ++ pairs l'
  end.

(** Binomial coefficient (scipy.special.binom on integers, taken as exact). *)
Fixpoint binom (n k : nat) : nat :=
  match k with
  | 0 => 1
  | S k' => match n with 0 => 0 | S n' => binom n' k' + binom n' k end
  end.

(** [sum] of naturals. *)
Definition sumN (l : list nat) : nat := fold_right Nat.add 0 l.

(** [sum] of integers. *)
Definition sumZ (l : list Z) : Z := fold_right Z.add 0%Z l.

Local Open Scope R_scope.

(** Sum of [f a] over the elements [a] of a list; models [.sum()], [dot],
    accumulation loops over reals. *)
Definition sumf {A} (l : list A) (f : A -> R) : R :=
  fold_right (fun a acc => f a + acc) 0 l.

(** [np.sum] of a vector. *)
Definition sumR (l : list R) : R := sumf l (fun x => x).

(** Entry [i] of a real vector.  Uses of [nthR] out of range are excluded by the
    length hypotheses of the theorems (numpy raises IndexError there). *)
Definition nthR (l : list R) (i : nat) : R := nth i l 0.

(** Matrices as lists of rows. *)
Definition entry (m : list (list R)) (i j : nat) : R := nth j (nth i m []) 0.

(** n x p matrix with given entries. *)
Definition mk_mat (n p : nat) (f : nat -> nat -> R) : list (list R) :=
  map (fun i => map (fun j => f i j) (seq 0 p)) (seq 0 n).

(** [x.dot(y)] of two vectors of equal length. *)
Definition dot (x y : list R) : R := sumf (combine x y) (fun p => fst p * snd p).

(** Product of a list of reals. *)
Definition prodR (l : list R) : R := fold_right Rmult 1 l.

Close Scope R_scope.

(** [for a in L: Y[counter] = val(a); counter += 1]: consecutive writes through a
    running counter; the state is (Y, counter). *)
Definition write_seq {A B} (val : A -> B) (L : list A) (st : list B * nat) : list B * nat :=
  fold_left (fun st a => let '(y, c) := st in (upd y c (val a), c + 1)) L st.

(** [for i in range(n-1): for j in range(i+1,n)], as a list of index pairs. *)
Definition loop_ij (n : nat) : list (nat * nat) :=
  flat_map (fun i => map (fun j => (i, j)) (range2 (i + 1) n)) (range (n - 1)).

(** [for i in range(n-2): for j in range(i+1,n-1): for k in range(j+1,n)]. *)
Definition loop_ijk (n : nat) : list (nat * nat * nat) :=
  flat_map (fun i => flat_map (fun j => map (fun k => (i, j, k)) (range2 (j + 1) n))
                              (range2 (i + 1) (n - 1))) (range (n - 2)).

(** numpy boolean used as a number. *)
Definition b2R (b : bool) : R := if b then 1%R else 0%R.
