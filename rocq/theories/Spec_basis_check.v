(** The seven crystal families, and what the test of basis_check.py should say. *)
From Coq Require Import ZArith QArith Qcanon List.
From Verif Require Import Mat3 QMat QNum Spec_id Spec_grid Spec_niggli_f90 Spec_clear.
Import ListNotations.
Open Scope Z_scope.

(** The lattice of [U] belongs to family [f]: it has as many symmetries as a lattice of that
    family (48, 24, 12, 16, 8, 4 and 2 for cubic, hexagonal, rhombohedral, tetragonal,
    orthorhombic, monoclinic and triclinic; the numbers are all different). *)
Definition in_family (U : qmat) (f : Z) : Prop :=
  1 <= f <= 7 /\ point_group_order U (Z.of_nat (holohedry_order f)).

(** No number compared by the Python program is close to its tolerance when it is called with the
    tolerance [e]. *)
Record clear_at (cbrt : Qc -> Qc) (e L : Qc) (U : qmat) : Prop := {
  ca_det : qdet U <> 0%Qc;
  ca_len : longest U L;
  ca_eps : (0 <= e)%Qc;
  ca_root : (0 <= cbrt (qabs (qdet U)))%Qc;
  ca_red : reduction_clear (qdec 1 8 + e * cbrt (qabs (qdet U)) + rtol * (zq 6 * L)) L U;
  ca_id : identification_clear (e + rtol * (zq 6 * L)) U }.

(** The sizes tested for a lattice with number [k]. *)
Definition tested_size (k max n : Z) : Prop :=
  In k [1; 3; 5] /\ (exists j, 0 <= j < max /\ n = j ^ 3 /\ n <= max) \/
  ~ In k [1; 3; 5] /\ 0 <= n < max.
(** The numbers for which the test calls a function that does not exist. *)
Definition untestable : list Z := [6; 7; 9; 10; 14; 15; 17; 18; 24; 27; 37; 39; 41].
(** The limit without the optional argument. *)
Definition test_limit (max_ : option Z) (max : Z) : Prop :=
  max_ = Some max \/ (max_ = None /\ max = 10 ^ 5).

(** [S] spans a superlattice of [U] that keeps its symmetries, of a size that is tested. *)
Definition tested (k max : Z) (U S : qmat) : Prop :=
  exists n, 1 <= n /\ tested_size k max n /\ supercell n U S /\ keeps_symmetry U S.

(** The counter [k] is one higher in [c] than in [count], the others are the same. *)
Definition counted (k : Z) (count c : list (Z * Z)) : Prop :=
  exists l1 v l2, count = l1 ++ (k, v) :: l2 /\ c = l1 ++ (k, v + 1)%Z :: l2 /\ ~ In k (map fst l1).

(** All entries are within 1/2000 of integers. *)
Definition nearly_integer (A : qmat) : Prop :=
  exists M, forall x z, In (x, z)
    [(q11 A, m11 M); (q12 A, m12 M); (q13 A, m13 M); (q21 A, m21 M); (q22 A, m22 M); (q23 A, m23 M);
     (q31 A, m31 M); (q32 A, m32 M); (q33 A, m33 M)] -> (qabs (x - zq z) <= Q2Qc (1 # 2000))%Qc.
