(** Which of the grids of given sizes find_grid should take. *)
From Coq Require Import ZArith QArith Qcanon List Sorted.
From Verif Require Import Mat3 Spec QMat Spec_kgrids Bases.
Import ListNotations.
Open Scope Z_scope.

(** [H] is one of the superlattices of index [n] that keep the symmetry of lattices of
    number [k]. *)
Definition symmetric_hnf (k n : Z) (H : mat3) : Prop :=
  is_hnf n H /\ symmetry_preserving (gram_of k) H.
(** There are at least two of them. *)
Definition two_symmetric (k n : Z) : Prop :=
  exists H K, H <> K /\ symmetric_hnf k n H /\ symmetric_hnf k n K.
(** [m] times a superlattice of index [n]. *)
Definition multiple_hnf (m n : Z) (H : mat3) : Prop :=
  exists K, is_hnf n K /\ H = mscale m K.

Section layers.
  Context {Off : Type}.
  (** [reduced H]: the grid of the superlattice [H]; [rmin]: length of its shortest vector;
      [packed]: its packing fraction is large enough; [irr1 g s]: number of irreducible
      k-points of the grid [g] moved by [s], [irr2]: the same without the symmetry flag. *)
  Context (reduced : mat3 -> qmat) (rmin : qmat -> Qc) (packed : qmat -> bool)
          (irr1 irr2 : qmat -> Off -> option Z) (offsets : list Off).

  (** The superlattices considered. *)
  Context (P : mat3 -> Prop).
  Definition accepted (H : mat3) : Prop := P H /\ packed (reduced H) = true.
  (** Accepted, with the longest shortest vector. *)
  Definition first_layer (H : mat3) : Prop :=
    accepted H /\ forall K, accepted K -> (rmin (reduced K) <= rmin (reduced H))%Qc.
  (** The best of the others. *)
  Definition second_layer (H : mat3) : Prop :=
    accepted H /\ ~ first_layer H /\
    forall K, accepted K -> ~ first_layer K -> (rmin (reduced K) <= rmin (reduced H))%Qc.

  (** Some grid of the first layer has an answer. *)
  Definition usable : Prop :=
    exists H s j, first_layer H /\ In s offsets /\ irr1 (reduced H) s = Some j.
  (** [H] moved by [s] has [j] irreducible k-points, comes from one of the two layers, and
      nothing in the first layer has fewer. *)
  Definition choice_of (H : mat3) (s : Off) (j : Z) : Prop :=
    0 < j /\ In s offsets /\
    (first_layer H /\ irr1 (reduced H) s = Some j \/
     second_layer H /\ irr2 (reduced H) s = Some j) /\
    forall K t i, first_layer K -> In t offsets -> irr1 (reduced K) t = Some i -> j <= i.
End layers.

(** A grid with [j] irreducible of [n] k-points is not worse than one with [i] of [m]: fewer
    irreducible k-points, or a smaller ratio when the density [kpd] is above 500 and
    MIN_IRR_KPTS is not set. *)
Definition not_worse (min_kpts : bool) (kpd j n i m : Z) : Prop :=
  (min_kpts = true \/ kpd <= 500 -> j <= i) /\
  (min_kpts = false /\ 500 < kpd -> j * m <= i * n).

(** [L] are the [c] smallest sizes from [kpd] on that cubic lattices of number [k] have. *)
Definition smallest_sizes (k kpd : Z) (c : nat) (L : list Z) : Prop :=
  length L = c /\ StronglySorted Z.lt L /\
  (forall x, In x L -> kpd <= x /\ exists m b, In m (mults_of k) /\ 1 <= b /\ x = m * b ^ 3) /\
  (forall m b, In m (mults_of k) -> 1 <= b -> kpd <= m * b ^ 3 ->
     In (m * b ^ 3) L \/ forall y, In y L -> y < m * b ^ 3).
