(** Symmetry-preserving superlattices by brute force, and generators of a finite group. *)
From Coq Require Import ZArith List Qcanon.
From Verif Require Import Mat3 Spec QMat.
Import ListNotations.

(** [equal] takes a matrix to be equal to itself, and two matrices to be equal only if their
    entries differ by less than [eps]. *)
Definition entries (A : qmat) : list Qc :=
  [q11 A; q12 A; q13 A; q21 A; q22 A; q23 A; q31 A; q32 A; q33 A].
Definition tolerance (eps : Qc) (equal : qmat -> qmat -> bool) : Prop :=
  (forall A, equal A A = true) /\
  forall A B, equal A B = true ->
    Forall (fun p => (fst p - snd p < eps)%Qc /\ (snd p - fst p < eps)%Qc)
           (combine (entries A) (entries B)).

(** [pg] lists the symmetries of the lattice spanned by [P]. *)
Definition point_group (P : qmat) (pg : list qmat) : Prop :=
  forall R, In R pg <-> lattice_symmetry P R.

(** The products of one or more elements of [gens]. *)
Inductive generated {M : Type} (mul : M -> M -> M) (gens : list M) : M -> Prop :=
| Generator x : In x gens -> generated mul gens x
| Product x y : In x gens -> generated mul gens y -> generated mul gens (mul x y).

(** A finite set closed under products, with cancellation. *)
Definition finite_group {M : Type} (mul : M -> M -> M) (pg : list M) : Prop :=
  NoDup pg /\ (forall x y, In x pg -> In y pg -> In (mul x y) pg) /\
  (forall x y z, In x pg -> In y pg -> In z pg -> mul x y = mul x z -> y = z).

(** [gens] are elements of [pg] and generate it. *)
Definition generators {M : Type} (mul : M -> M -> M) (gens pg : list M) : Prop :=
  incl gens pg /\ forall x, In x pg -> generated mul gens x.

(** The comparison tells elements of [pg] apart. *)
Definition exact_on {M : Type} (equal : M -> M -> bool) (pg : list M) : Prop :=
  forall x y, In x pg -> In y pg -> equal x y = true <-> x = y.
