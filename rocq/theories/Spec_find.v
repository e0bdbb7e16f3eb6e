(** What [find_supercells] should return. *)
From Coq Require Import ZArith QArith Qcanon List.
From Verif Require Import Mat3 QMat.
Import ListNotations.

(** [l] has exactly the symmetry-preserving superlattices of [U] of index [n]: every member is
    one, every one is spanned by a member, and no two members span the same lattice. *)
Definition all_supercells (U : qmat) (n : Z) (l : list qmat) : Prop :=
  Forall (fun B => supercell n U B /\ keeps_symmetry U B) l /\
  (forall B m, supercell m U B -> Z.abs m = n -> keeps_symmetry U B ->
     exists S, In S l /\ same_span S B) /\
  (forall i j Bi Bj, nth_error l i = Some Bi -> nth_error l j = Some Bj ->
     same_span Bi Bj -> i = j).

(** The sizes used for a requested size [kpt]: near below it for triclinic lattices, at or
    above it for the others, and not more than ten above for those which are not cubic. *)
Definition default_sizes (k kpt : Z) (vs : list Z) : Prop :=
  (k = 31 \/ k = 44)%Z /\
    (exists n m, vs = [(m * m * m * n)%Z] /\ (1 <= m)%Z /\ (1 <= n <= 100)%Z /\
       (m * m * m * n <= kpt < m * m * m * n + m * m * m)%Z) \/
  ~ (k = 31 \/ k = 44)%Z /\
    forall v, In v vs -> (kpt <= v)%Z /\ (k = 1 \/ k = 3 \/ k = 5 \/ v <= kpt + 10)%Z.
