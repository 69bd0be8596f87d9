(** * Arrays in memory: how the C++ samplers read the parameters that Python passes, and how
    their samples come back (cpp/samplers.cpp, coniii/samplers.py).
    The other M_ files hand vectors over by value.  Here an ndarray is a view of a buffer of
    64-bit words.  Simplifications: only float64 and int64 arrays; buffers are aligned, so
    strides count words; reading outside a buffer (undefined in C++) is IndexError; NaN and
    infinities decode to 0, as in Flocq's B2R. *)
From Flocq Require Import Core IEEE754.Binary IEEE754.Bits.
From Verif Require Import Prelude M_Index M_Sampler.
Import ListNotations.
Local Open Scope R_scope.

Inductive elt_type := F64 | I64.

(** The buffers; a word is a number from 0 to 2^64-1. *)
Definition heap := list (list Z).

(** A one-dimensional ndarray: buffer, address of the first entry, distance between entries,
    number of entries, dtype. *)
Record view := View { v_buf : nat; v_off : Z; v_stride : Z; v_len : nat; v_type : elt_type }.

Definition word_at (h : heap) (buf : nat) (a : Z) : result Z :=
  if (a <? 0)%Z then Err IndexError else bind (get h buf) (fun m => get m (Z.to_nat a)).

(** IEEE binary64; two's complement. *)
Definition decode (t : elt_type) (w : Z) : R :=
  match t with
  | F64 => B2R 53 1024 (b64_of_bits w)
  | I64 => IZR (if (w <? 2 ^ 63)%Z then w else w - 2 ^ 64)
  end.

(** The words of an array in the order of its entries, as numpy sees them. *)
Definition np_words (h : heap) (v : view) : result (list Z) :=
  mapM (fun i => word_at h (v_buf v) (v_off v + Z.of_nat i * v_stride v)) (range (v_len v)).

Definition np_values (h : heap) (v : view) : result (list R) :=
  bind (np_words h v) (fun ws => Ok (map (decode (v_type v)) ws)).

(** cpp/samplers.cpp:306-314 [Ising::readin_multipliers]: get_data() is the address of the first
    entry, read as double, one word after the other.  The assert on the size is a hypothesis of
    the theorems (coniii/samplers.py:1179 tests it before choosing this class). *)
Definition cpp_read (h : heap) (v : view) : result (list R) :=
  mapM (fun i => bind (word_at h (v_buf v) (v_off v + Z.of_nat i)) (fun w => Ok (decode F64 w))) (range (v_len v)).

(** ndarray.copy(): a new contiguous buffer. *)
Definition np_copy (h : heap) (v : view) : result (heap * view) :=
  bind (np_words h v) (fun ws => Ok (h ++ [ws], View (length h) 0 1 (v_len v) (v_type v))).

(** Any later assignment to one word of a buffer (theta[i] = x through some array). *)
Definition store (h : heap) (buf a : nat) (w : Z) : heap := upd h buf (upd (nth buf h []) a w).

(** A Metropolis object that uses the C++ class. *)
Record mobj := { mo_n : nat; mo_theta : view }.

(** coniii/samplers.py:1144-1180 [Metropolis.__init__]: [self.theta = theta], the same array. *)
Definition mo_new (n : nat) (theta : view) : mobj := {| mo_n := n; mo_theta := theta |}.

(** coniii/samplers.py:1718-1721 [update_parameters]: [self.theta = theta.copy()]. *)
Definition mo_update (h : heap) (o : mobj) (theta : view) : result (heap * mobj) :=
  if Nat.eqb (v_len (mo_theta o)) (v_len theta) then
    bind (np_copy h theta) (fun hv => Ok (fst hv, {| mo_n := mo_n o; mo_theta := snd hv |}))
  else Err AssertionError.

(** coniii/samplers.py:1193-1225 [generate_sample_boost]; [t] is the generator seeded from
    self.rng. *)
Definition mo_sample {T} (g : rng T) (h : heap) (o : mobj) (n_samples burn_in n_iters : nat) (systematic : bool) (t : T)
  : result (list (list Z)) :=
  bind (cpp_read h (mo_theta o)) (fun m => Ok (boost_ising_sample g (mo_n o) m n_samples burn_in n_iters systematic t)).

(** coniii/samplers.py:1325-1363 [generate_sample_parallel_boost]: the array is a default argument
    of the function given to pool.map; it is pickled with it, which copies the entries. *)
Definition mo_sample_parallel {T} (g : rng T) (mkrng : nat -> T) (h : heap) (o : mobj)
  (sample_size n_iters : nat) (burn_in : option nat) (systematic : bool) (seeds : list nat) : result (list (list Z)) :=
  bind (np_copy h (mo_theta o)) (fun hv =>
  bind (cpp_read (fst hv) (snd hv)) (fun m =>
  Ok (generate_sample_parallel_boost g mkrng (mo_n o) m sample_size n_iters burn_in systematic seeds))).

(** cpp/samplers.cpp:203-223 [Sampler::fetch_sample]: the rows are appended to one vector, which
    is read back as an array of shape (size, n) with strides (n, 1). *)
Definition fetch_sample (n : nat) (sample : list (list Z)) : result (list (list Z)) :=
  let flatsample := concat sample in
  mapM (fun i => mapM (fun j => get flatsample (i * n + j * 1)) (range n)) (range (length sample)).
