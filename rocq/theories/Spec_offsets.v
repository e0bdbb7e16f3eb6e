(** Words for the offsets of centred grids (get_offsets of find_kgrids.f90).

    A grid is given by three integer vectors, the columns of [M]; the coordinates are those of the
    conventional cell, in units of half its edges (for rhombohedral grids: of the rhombohedral basis).
    The symmetries considered have the same integer matrices whatever the edges are: changing the
    sign of a coordinate commutes with scaling the three axes, and so on.  Offsets are in quarters, as
    in Model_find_kgrids, so points are in quarters too. *)
From Coq Require Import ZArith List.
From Verif Require Import Mat3 Spec Spec_kgrids.
Import ListNotations.
Open Scope Z_scope.

Definition vplus (u v : vec3) : vec3 := Vec3 (v1 u + v1 v) (v2 u + v2 v) (v3 u + v3 v).
Definition vtimes (k : Z) (v : vec3) : vec3 := Vec3 (k * v1 v) (k * v2 v) (k * v3 v).

(** The points of the grid spanned by [M], shifted by the offset [s]. *)
Definition shifted (M : mat3) (s p : vec3) : Prop := exists w, p = vplus (mvec M s) (vtimes 4 (mvec M w)).
(** The shifted grid is mapped into itself. *)
Definition grid_kept (g M : mat3) (s : vec3) : Prop := forall p, shifted M s p -> shifted M s (mvec g p).

(** The grid spanned by [M] consists of the vectors with property [P]. *)
Definition spans (M : mat3) (P : vec3 -> Prop) : Prop := forall v, in_lattice M v <-> P v.
Definition any_vector (v : vec3) : Prop := True.
Definition body (v : vec3) : Prop := (v1 v - v2 v) mod 2 = 0 /\ (v2 v - v3 v) mod 2 = 0.
Definition face (v : vec3) : Prop := (v1 v + v2 v + v3 v) mod 2 = 0.
Definition base (v : vec3) : Prop := (v1 v + v2 v) mod 2 = 0 /\ v3 v mod 2 = 0.

(** The symmetries: changes of sign (orthorhombic); with the exchange of the first two axes
    (tetragonal); permutations up to a common sign (rhombohedral); permutations and changes of sign
    (cubic); the rotation about the second axis and inversion (monoclinic). *)
Definition swap12 : mat3 := Mat3 0 1 0 1 0 0 0 0 1.
Definition cycle : mat3 := Mat3 0 0 1 1 0 0 0 1 0.
Definition permutation (p : mat3) : Prop :=
  In p [mid; swap12; cycle; mmul cycle cycle; mmul swap12 cycle; mmul cycle swap12].
Definition orthorhombic (g : mat3) : Prop := signs g.
Definition tetragonal (g : mat3) : Prop := exists d p, signs d /\ In p [mid; swap12] /\ g = mmul d p.
Definition rhombohedral (g : mat3) : Prop := exists p, permutation p /\ (g = p \/ g = mopp p).
Definition cubic (g : mat3) : Prop := exists d p, signs d /\ permutation p /\ g = mmul d p.
Definition monoclinic (g : mat3) : Prop :=
  let r := Mat3 (-1) 0 0 0 1 0 0 0 (-1) in In g [mid; mopp mid; r; mopp r].

(** The offsets listed are exactly those that all symmetries of [group] keep. *)
Definition exact_offsets (group : mat3 -> Prop) (M : mat3) (l : list vec3) : Prop :=
  forall s, In s l <-> unit_offset s /\ forall g, group g -> grid_kept g M s.
(** Some offset listed is not kept by some symmetry. *)
Definition breaks (group : mat3 -> Prop) (M : mat3) (l : list vec3) : Prop :=
  exists s g, In s l /\ group g /\ ~ grid_kept g M s.

(** Column [k] of the grid. *)
Definition column (k : Z) (M : mat3) : vec3 :=
  if k =? 3 then Vec3 (m13 M) (m23 M) (m33 M)
  else if k =? 2 then Vec3 (m12 M) (m22 M) (m32 M)
  else Vec3 (m11 M) (m21 M) (m31 M).
(** The sum of the three columns. *)
Definition diagonal (M : mat3) : vec3 :=
  Vec3 (m11 M + m12 M + m13 M) (m21 M + m22 M + m23 M) (m31 M + m32 M + m33 M).
