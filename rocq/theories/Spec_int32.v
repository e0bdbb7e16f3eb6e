(** The machine's integers. *)
From Coq Require Import ZArith.
Open Scope Z_scope.

(** The least that the Fortran standard promises of a default integer of 32 bits: [w x] is what the
    machine makes of the exact result [x] of an operation, and numbers that fit stay as they are. *)
Definition fits32 (w : Z -> Z) : Prop := forall x, - 2 ^ 31 <= x < 2 ^ 31 -> w x = x.
