(** Property C63: which grid find_grid of find_kgrids.f90 chooses. *)
From Coq Require Import ZArith QArith Qcanon List.
From Verif Require Import Mat3 Spec QMat QNum Bases Spec_kgrids Spec_choice Model_transform Model_find_kgrids
  Model_grid_utils Model_find_grid Proofs_transform Proofs_choice.
Import ListNotations.
Open Scope Z_scope.

(** [grid_of H] is the grid of the superlattice [H], [mink] the Minkowski reduction; exact
    comparisons; [irr1] (with the symmetry flag), [irr2] (without), [rmin] and [packed] are
    the library's answers. *)

(** ** C63 The grid that is chosen *)
(** Lattices neither cubic nor triclinic.  The grid comes from a size [n >= kpd] that has at
    least two symmetry-preserving superlattices; it is the choice for that size; it is not
    worse than any grid of the first layer of any size from [kpd] to [kpd + s_range - 1] with
    at least two symmetry-preserving superlattices; and [n] is below [kpd + s_range] unless
    fewer than five smaller sizes were usable. *)
Theorem C63_general_partial : forall Off grid_of mink rmin packed (irr1 irr2 : qmat -> Off -> option Z) offsets,
  positive irr1 -> (forall H, mdet H <> 0 -> (0 < rmin (mink (grid_of H)))%Qc) ->
  forall k, 1 <= k <= 44 ->
  forall fuel s_range kpd root min_kpts g o, ~ In k [1; 3; 5; 31; 44] -> 1 <= kpd -> 5 <= s_range ->
  find_grid grid_of mink rmin packed qeqb 0%Qc irr1 irr2 offsets fuel k s_range kpd root min_kpts
    = Found g o ->
  let reduced H := mink (grid_of H) in
  exists n H s j, kpd <= n /\ two_symmetric k n /\ g = mink (grid_of H) /\ o = Some s /\
    choice_of reduced rmin packed irr1 irr2 offsets (symmetric_hnf k n) H s j /\
    (forall m K t i, kpd <= m < kpd + s_range -> two_symmetric k m ->
       first_layer reduced rmin packed (symmetric_hnf k m) K -> In t offsets ->
       irr1 (mink (grid_of K)) t = Some i -> not_worse min_kpts kpd j n i m) /\
    (n < kpd + s_range \/
     forall L, NoDup L ->
       (forall m, In m L -> kpd <= m < n /\ two_symmetric k m /\
          usable reduced rmin packed irr1 offsets (symmetric_hnf k m)) -> (length L < 5)%nat).
Proof. exact @choice_general. Qed.
Print Assumptions C63_general_partial.

(** Triclinic lattices.  The size is [mult^3 n] with the smallest [mult] that brings the
    density to at most 100, and [n] the first density from [kpd / mult^3] on that is usable. *)
Theorem C63_triclinic : forall Off grid_of mink rmin packed (irr1 irr2 : qmat -> Off -> option Z) offsets,
  positive irr1 -> (forall H, mdet H <> 0 -> (0 < rmin (mink (grid_of H)))%Qc) ->
  forall k, 1 <= k <= 44 ->
  forall fuel s_range kpd root min_kpts g o, k = 31 \/ k = 44 -> 1 <= kpd ->
  find_grid grid_of mink rmin packed qeqb 0%Qc irr1 irr2 offsets fuel k s_range kpd root min_kpts
    = Found g o ->
  let reduced H := mink (grid_of H) in
  exists mult n H s j,
    (1 <= mult /\ kpd / mult ^ 3 <= 100 /\ forall t, 1 <= t < mult -> 100 < kpd / t ^ 3) /\
    kpd / mult ^ 3 <= n /\
    (forall m, kpd / mult ^ 3 <= m < n ->
       ~ usable reduced rmin packed irr1 offsets (multiple_hnf mult m)) /\
    g = mink (grid_of H) /\ o = Some s /\
    choice_of reduced rmin packed irr1 irr2 offsets (multiple_hnf mult n) H s j.
Proof. exact @choice_tric. Qed.
Print Assumptions C63_triclinic.

(** Cubic lattices, up to 830583 k-points.  The grid is the best one of the symmetry-preserving
    grids of the five smallest sizes. *)
Theorem C63_cubic : forall Off grid_of mink rmin packed (irr1 irr2 : qmat -> Off -> option Z) offsets,
  positive irr1 ->
  forall k, 1 <= k <= 44 ->
  forall fuel s_range kpd root min_kpts g o, In k [1; 3; 5] -> 1 <= kpd <= 830583 ->
  root_approx kpd root ->
  (forall H, mdet H <> 0 -> exists s j, In s offsets /\ irr1 (grid_of H) s = Some j) ->
  find_grid grid_of mink rmin packed qeqb 0%Qc irr1 irr2 offsets fuel k s_range kpd root min_kpts
    = Found g o ->
  exists L n H s j, smallest_sizes k kpd 5 L /\ In n L /\ symmetric_hnf k n H /\
    g = grid_of H /\ o = Some s /\ In s offsets /\ irr1 g s = Some j /\
    forall m K t i, In m L -> symmetric_hnf k m K -> In t offsets ->
      irr1 (grid_of K) t = Some i -> not_worse min_kpts kpd j n i m.
Proof. exact @choice_cubic. Qed.
Print Assumptions C63_cubic.

(** Because at least two superlattices are asked for, the grid with a single k-point, which
    has the fewest irreducible k-points, is never returned for the lattices of the first
    theorem, not even when one k-point is requested. *)
Theorem C63_single_kpoint_refuted : forall Off undefined mink rmin packed
    (irr1 irr2 : qmat -> Off -> option Z) offsets U O Cu Co k,
  let grid_of := f_grid undefined (qmul O (qof Co)) (qmul U (qof Cu)) Co Cu O in
  forall fuel s_range kpd root min_kpts g o,
  positive irr1 -> (forall H, mdet H <> 0 -> (0 < rmin (mink (grid_of H)))%Qc) -> 1 <= k <= 44 ->
  (qdet U <> 0)%Qc -> (qdet O <> 0)%Qc -> unimodular Cu -> unimodular Co ->
  (forall B, (qdet B <> 0)%Qc -> exists Y, unimodular Y /\ mink B = qmul B (qof Y)) ->
  ~ In k [1; 3; 5; 31; 44] -> 1 <= kpd -> 5 <= s_range ->
  find_grid grid_of mink rmin packed qeqb 0%Qc irr1 irr2 offsets fuel k s_range kpd root min_kpts
    = Found g o ->
  ~ kgrid 1 U g.
Proof. exact @never_one. Qed.
Print Assumptions C63_single_kpoint_refuted.

(** A tetragonal cell with edges 1, 1, 2 and one k-point requested, then a triclinic and a cubic
    choice; every grid is accepted, the trace stands for the shortest vector and the
    denominator of the last entry for the number of irreducible k-points. *)
Definition tet_cell : qmat := QMat 1 0 0 0 1 0 0 0 (zq 2).
Definition pick (k kpd : Z) (U : qmat) : option (list Q * option Z) :=
  match find_grid (f_grid (fun _ => U) U U mid mid U) (fun B => B) (fun B => q11 B + q22 B + q33 B)%Qc
          (fun _ => true) qeqb 0%Qc
          (fun B o => Some (Z.pos (Qden (q33 B)) + o)) (fun _ _ => None) [0; 1] 100 k 10 kpd 1 false with
  | Found g o =>
      Some (map this [q11 g; q12 g; q13 g; q21 g; q22 g; q23 g; q31 g; q32 g; q33 g], o)
  | _ => None
  end.
Example C63_example :
  pick 11 1 tet_cell =
    Some ([1 # 1; 0 # 1; 0 # 1; 0 # 1; 1 # 1; 0 # 1; 0 # 1; 0 # 1; 1 # 4]%Q, Some 0) /\
  pick 44 2 tet_cell <> None /\ pick 3 7 qid <> None.
Proof.
  split; [vm_compute; reflexivity|]. split; vm_compute; discriminate.
Qed.
