(** * How many spins a parameter vector belongs to, computed with floats as in the code.
    M_Params, M_Models and M_Front take the square roots as exact; here each operation is
    rounded to binary64 (see M_Float). *)
From Flocq Require Import Core.
From Verif Require Import Prelude M_Params M_Models M_Front M_Float.
Import ListNotations.
Local Open Scope R_scope.

(** np.sqrt of an integer: the nearest float to the square root (IEEE 754). *)
Definition fl_sqrt (N : nat) : R := rnd (sqrt (INR N)).

(** coniii/utils.py:1390 and coniii/models.py:167: [(np.sqrt(1+8*size)-1)//2]; halving and the
    floor are exact. *)
Definition fl_size (size : nat) : Z := Zfloor (fsub (fl_sqrt (1 + 8 * size)) 1 / 2).

(** coniii/samplers.py:2448-2449: [0.5 * (-1 + np.sqrt(1 + 8*len(multipliers)))], which has to be
    an integer. *)
Definition fl_ising_size (L : nat) : result Z :=
  let n := fmul (/ 2) (fadd (-1) (fl_sqrt (1 + 8 * L))) in
  if Req_EM_T n (IZR (Ztrunc n)) then Ok (Ztrunc n) else Err AssertionError.

(** coniii/models.py:279-281: [(np.sqrt(25+8*multipliers.size)-5)/2], which has to be an integer. *)
Definition fl_potts3_size (L : nat) : result Z :=
  let n := rnd (fsub (fl_sqrt (25 + 8 * L)) 5 / 2) in
  if Req_EM_T n (IZR (Ztrunc n)) then Ok (Ztrunc n) else Err AssertionError.

(** scipy's squareform: [int(np.ceil(np.sqrt(s * 2)))]. *)
Definition fl_squareform_size (L : nat) : Z := Zceil (fl_sqrt (2 * L)).
