(** The reduced canonical lattices: the transformation from each canonical basis to its
    Niggli cell, and the exact Gram matrix of that cell. *)
From Coq Require Import ZArith List.
From Verif Require Import Mat3 Spec Bases.
Import ListNotations.
Open Scope Z_scope.

(** The matrix [C] of the reduction of [canonical_basis k].  Not in the source: it is what
    [reduced_cell] computes there (Proofs_niggli_canon.v). *)
Definition canonical_C (k : Z) : mat3 :=
  match k with
  | 1 => Mat3 1 0 0  0 1 0  0 0 1
  | 2 => Mat3 0 1 0  1 0 (-1)  0 0 (-1)
  | 3 => Mat3 1 0 0  0 1 0  0 0 1
  | 4 => Mat3 (-1) 0 0  0 (-1) 1  0 0 1
  | 5 => Mat3 1 0 0  0 1 0  0 0 1
  | 6 => Mat3 1 1 (-1)  0 (-1) 1  0 (-1) 0
  | 7 => Mat3 1 (-1) (-1)  0 0 1  (-1) 0 1
  | 8 => Mat3 (-1) 1 1  (-1) 0 0  0 (-1) 0
  | 9 => Mat3 1 1 1  (-1) 1 0  0 (-1) 0
  | 10 => Mat3 (-1) (-1) 0  0 0 (-1)  0 (-1) 0
  | 11 => Mat3 1 0 0  0 1 0  0 0 1
  | 12 => Mat3 1 0 0  0 (-1) 0  0 0 (-1)
  | 13 => Mat3 1 0 0  0 1 0  0 0 1
  | 14 => Mat3 (-1) (-1) 0  0 0 (-1)  0 (-1) 0
  | 15 => Mat3 0 0 1  (-1) 0 0  0 (-1) 0
  | 16 => Mat3 0 0 1  (-1) 1 0  0 (-1) 0
  | 17 => Mat3 1 (-1) 1  (-1) 1 0  0 (-1) 1
  | 18 => Mat3 (-2) (-1) (-1)  1 0 0  1 0 1
  | 19 => Mat3 2 1 1  (-1) (-1) 0  (-1) (-1) (-1)
  | 20 => Mat3 1 0 0  0 1 (-1)  0 0 1
  | 21 => Mat3 1 0 0  0 1 0  0 0 1
  | 22 => Mat3 1 0 0  0 1 0  0 0 1
  | 23 => Mat3 0 (-1) 0  (-1) 0 0  0 0 (-1)
  | 24 => Mat3 (-1) 0 1  0 1 0  (-1) 0 0
  | 25 => Mat3 1 0 0  0 1 (-1)  0 0 1
  | 26 => Mat3 0 (-1) 0  (-2) (-1) (-1)  1 1 0
  | 27 => Mat3 0 1 1  0 1 0  (-1) 0 0
  | 28 => Mat3 0 (-1) 0  (-1) 0 0  0 0 (-1)
  | 29 => Mat3 0 0 1  1 0 0  0 1 0
  | 30 => Mat3 1 0 0  0 1 0  0 0 1
  | 32 => Mat3 1 0 0  0 1 0  0 0 1
  | 33 => Mat3 1 0 0  0 (-1) 0  0 0 (-1)
  | 34 => Mat3 1 0 0  0 1 0  0 0 1
  | 35 => Mat3 0 0 (-1)  0 (-1) 0  (-1) 0 0
  | 36 => Mat3 1 0 0  0 1 0  0 0 1
  | 37 => Mat3 0 0 (-1)  0 (-1) 0  (-1) 0 0
  | 38 => Mat3 (-1) 1 0  (-1) 0 0  0 0 1
  | 39 => Mat3 0 1 0  0 0 1  1 0 0
  | 40 => Mat3 1 0 0  0 1 0  0 0 1
  | 41 => Mat3 0 0 1  1 0 0  0 1 0
  | 42 => Mat3 0 0 1  1 0 0  0 1 0
  | 43 => Mat3 1 (-1) 0  0 1 0  (-1) 1 1
  | _ => mid
  end.

(** Gram matrix of the Niggli cell of the canonical lattice [k]. *)
Definition niggli_gram (k : Z) : mat3 :=
  mmul (mtr (canonical_C k)) (mmul (gram_of k) (canonical_C k)).
