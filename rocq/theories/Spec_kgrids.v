(** Words used in the statements about the Fortran search (find_kgrids.f90, grid_utils.f90).
    Only data types are taken from the model. *)
From Coq Require Import ZArith QArith Qcanon List.
From Verif Require Import Mat3 QMat Model_find_kgrids Model_grid_utils.
Import ListNotations.
Open Scope Z_scope.

(** Multipliers [m] for which a cubic lattice has a symmetry-preserving superlattice of index
    [m b^3]: face-centred (character 1), simple and body-centred (3, 5). *)
Definition mults_of (lat_id : Z) : list Z := if lat_id =? 1 then [1; 4; 16] else [1; 2; 4].

(** [root] is the integer cube root of [kpd], or one less. *)
Definition root_approx (kpd root : Z) : Prop :=
  exists k, 0 <= k /\ k ^ 3 <= kpd < (k + 1) ^ 3 /\ k - 1 <= root <= k.

(** An offset (in quarters) keeps the grid: the shifted grid is mapped to itself by [X]. *)
Definition offset_kept (X : mat3) (s : vec3) : Prop :=
  exists w, mvec X s = Vec3 (v1 s + 4 * v1 w) (v2 s + 4 * v2 w) (v3 s + 4 * v3 w).
(** Components in [0, 1). *)
Definition unit_offset (s : vec3) : Prop :=
  0 <= v1 s < 4 /\ 0 <= v2 s < 4 /\ 0 <= v3 s < 4.
(** Characters of base-centred lattices. *)
Definition base_centred : list Z :=
  [10; 13; 14; 17; 20; 23; 25; 27; 28; 29; 30; 36; 37; 38; 39; 40; 41; 43].

(** Diagonal matrices with entries 1 and -1. *)
Definition signs (X : mat3) : Prop :=
  exists x y z, X = Mat3 x 0 0 0 y 0 0 0 z /\ Z.abs x = 1 /\ Z.abs y = 1 /\ Z.abs z = 1.
(** Two vectors of squared length [A] with scalar product [B], and vector number [k], of squared
    length [c], perpendicular to them. *)
Definition axis_gram (k : Z) (A B c : Z) : mat3 :=
  if k =? 3 then Mat3 A B 0 B A 0 0 0 c
  else if k =? 2 then Mat3 A 0 B 0 c 0 B 0 A
  else Mat3 c 0 0 0 A B 0 B A.
(** The comparison of the lengths singles out vector number [k]. *)
Definition unique_axis (equal : Qc -> Qc -> bool) (n1 n2 n3 : Qc) (k : Z) : Prop :=
  if k =? 3 then equal n1 n2 = true
  else if k =? 2 then equal n1 n2 = false /\ equal n1 n3 = true
  else equal n1 n2 = false /\ equal n1 n3 = false /\ equal n2 n3 = true.

(** The candidates found among the densities kpd, ..., kpd + n - 1. *)
Definition opt_list {X} (o : option X) : list X := match o with Some x => [x] | None => [] end.
Definition successes {G} (try : Z -> option (cand G)) (kpd : Z) (n : nat) : list (cand G) :=
  flat_map (fun i => opt_list (try (kpd + Z.of_nat i))) (seq 0 n).
(** Arrays with room for [s] candidates whose first slots hold [acc]. *)
Definition slots {G} (s : nat) (acc : list (cand G)) : list (option (cand G)) :=
  map Some acc ++ repeat None (s - length acc).

(** The candidate grids that pass the packing test. *)
Definition packed {A} (gs : list (grid A)) : list (grid A) := filter g_packed gs.
(** Every grid has at least one k-point. *)
Definition positive {A O} (irr : A -> O -> option Z) : Prop :=
  forall g o k, irr g o = Some k -> 0 < k.

(** Within one half of an integer (matrix). *)
Open Scope Qc_scope.
Definition near_int (x : Qc) (z : Z) : Prop := zq z - Q2Qc (1 # 2) < x /\ x < zq z + Q2Qc (1 # 2).
Definition near_mat (F : qmat) (M : mat3) : Prop :=
  near_int (q11 F) (m11 M) /\ near_int (q12 F) (m12 M) /\ near_int (q13 F) (m13 M) /\
  near_int (q21 F) (m21 M) /\ near_int (q22 F) (m22 M) /\ near_int (q23 F) (m23 M) /\
  near_int (q31 F) (m31 M) /\ near_int (q32 F) (m32 M) /\ near_int (q33 F) (m33 M).

(** The matrix the Fortran code rounds to an integer matrix. *)
Definition unrounded (H : mat3) (No : qmat) (Co : mat3) (O : qmat) : qmat :=
  qmul (qinv No) (qmul (qmul (qmul (qmul O (qof H)) (qinv O)) O) (qof Co)).

(** Basis of the reciprocal lattice (without the factor 2 pi). *)
Definition reciprocal (U : qmat) : qmat := qinv (qtr U).
(** [g] generates a grid with [n] k-points in each cell of the reciprocal lattice of [U]: the
    reciprocal lattice is a sublattice of index [n] of the grid. *)
Definition kgrid (n : Z) (U g : qmat) : Prop :=
  exists M, reciprocal U = qmul g (qof M) /\ Z.abs (mdet M) = n.
