(** Properties C38, C39, C50: grids kept, grid chosen, transformation (grid_utils.f90). *)
From Coq Require Import ZArith QArith Qcanon List.
From Verif Require Import Mat3 Spec QMat QNum Model_transform Model_find_kgrids Model_grid_utils
  Proofs_transform Spec_kgrids Proofs_grid_utils.
Import ListNotations.
Open Scope Qc_scope.

(** ** C38 The grids kept are the best two tiers *)
(** Exact comparisons: after any sequence of candidates the first tier holds exactly the
    packed candidates with the largest [rmin], the second tier those with the next largest. *)
Theorem C38_two_tiers : forall A (gs : list (grid A)), (forall g, In g gs -> 0 < g_rmin g) ->
  exists st, compare_all qeqb 0 tiers0 gs = Some st /\
    (forall g, In g (tier1 st) <->
       In g (packed gs) /\ forall h, In h (packed gs) -> g_rmin h <= g_rmin g) /\
    (forall g, In g (tier2 st) <->
       In g (packed gs) /\ ~ In g (tier1 st) /\
       forall h, In h (packed gs) -> ~ In h (tier1 st) -> g_rmin h <= g_rmin g).
Proof. exact @compare_all_spec. Qed.
Print Assumptions C38_two_tiers.
(** Any comparison with a relative tolerance: no candidate is better than the first tier by
    more than the tolerance, and the first tier is not empty if there is a candidate. *)
Theorem C38_tolerance : forall A equal eps, 0 <= eps -> eps < 1 ->
  (forall t r, equal t r = true -> t <= r + t * eps) ->
  forall gs : list (grid A), (forall g, In g gs -> 0 < g_rmin g) ->
  exists st, compare_all equal eps tiers0 gs = Some st /\
    (forall g, In g (packed gs) -> g_rmin g <= rmin1 st + g_rmin g * eps) /\
    (forall g, In g (tier1 st) -> In g (packed gs) /\
       (g_rmin g = rmin1 st \/ equal (g_rmin g) (rmin1 st) = true)) /\
    (packed gs <> [] -> tier1 st <> []).
Proof. exact @compare_all_tolerance. Qed.
Print Assumptions C38_tolerance.
(** Whatever the comparison: the arrays are enlarged in time. *)
Theorem C38_in_bounds : forall A equal eps (gs : list (grid A)),
  exists st, compare_all equal eps tiers0 gs = Some st /\
    (length (tier1 st) <= room st)%nat /\ (length (tier2 st) <= room st)%nat.
Proof. exact @compare_all_in_bounds. Qed.
Print Assumptions C38_in_bounds.
Definition kept {A} (o : option (tiers A)) : option (list A * list A) :=
  match o with
  | Some st => Some (map g_item (tier1 st), map g_item (tier2 st))
  | None => None
  end.
Example C38_example :
  kept (compare_all qeqb 0 tiers0
    [Grid 1 true 1%Z; Grid (1 + 1) true 2%Z; Grid 1 true 3%Z; Grid (1 + 1) true 4%Z;
     Grid (1 + 1 + 1) false 5%Z]) = Some ([2; 4]%Z, [1; 3]%Z).
Proof. vm_compute. reflexivity. Qed.

(** ** C39 The selected grid *)
(** The result is consistent: the count belongs to the returned grid and offset, and no grid
    of the first tier has fewer irreducible k-points.  When the second tier is empty this is
    the claim. *)
Theorem C39_first_tier_partial : forall A O (irr1 irr2 : A -> O -> option Z) g1 g2 os,
  positive irr1 ->
  match grid_selection irr1 irr2 g1 g2 os with
  | Some (g, Some o, n) =>
      In o os /\ (0 < n)%Z /\
      ((In g g1 /\ irr1 g o = Some n) \/ (In g g2 /\ irr2 g o = Some n)) /\
      forall g' o' k, In g' g1 -> In o' os -> irr1 g' o' = Some k -> (n <= k)%Z
  | Some (_, None, _) => False
  | None => forall g o, In g g1 -> In o os -> irr1 g o = None
  end.
Proof. exact @selection_sound. Qed.
Print Assumptions C39_first_tier_partial.
(** The second loop compares with the first tier's counts and overwrites: a grid with 3
    irreducible k-points is found, and the program reports 4. *)
Theorem C39_second_tier_refuted : exists (irr : Z -> Z -> option Z) g1 g2 os g o,
  positive irr /\ grid_selection irr irr g1 g2 os = Some (g, Some o, 4%Z) /\
  exists g' o', In g' g2 /\ In o' os /\ irr g' o' = Some 3%Z.
Proof. exact selection_second_tier. Qed.
Print Assumptions C39_second_tier_refuted.
Example C39_example :
  grid_selection (fun g o => if (g =? o)%Z then None else Some (10 * g + o)%Z) (fun _ _ => None)
    [3; 2; 1]%Z [] [1; 2]%Z = Some (1%Z, Some 2%Z, 12%Z).
Proof. reflexivity. Qed.

(** ** C50 Transformation to the user's cell *)
(** With exact numbers the Fortran and the Python transformation agree. *)
Theorem C50_same_as_python : forall U O Cu Co H,
  qdet U <> 0 -> qdet O <> 0 -> unimodular Cu -> unimodular Co ->
  f_transform_supercell H (qmul O (qof Co)) (qmul U (qof Cu)) Co Cu O =
  transform_one (qmul O (qof Co)) (qmul U (qof Cu)) (qof Co) (qof Cu) O H.
Proof. exact transform_same. Qed.
Print Assumptions C50_same_as_python.
(** The reduced canonical cell [No] may be inexact: as long as the product that is rounded is
    within one half of an integer matrix [M], the result is the user's cell times an integer
    matrix of the determinant of [M]. *)
Theorem C50_robust : forall U O No Cu Co H M,
  qdet O <> 0 -> qdet No <> 0 -> unimodular Cu -> near_mat (unrounded H No Co O) M ->
  exists S, f_transform_supercell H No (qmul U (qof Cu)) Co Cu O = Some S /\
    supercell (mdet M) U S.
Proof. exact transform_near_supercell. Qed.
Print Assumptions C50_robust.
Definition rows (o : option qmat) : option (list Q) :=
  option_map (fun A => map this [q11 A; q12 A; q13 A; q21 A; q22 A; q23 A; q31 A; q32 A; q33 A]) o.
Example C50_example :
  rows (f_transform_supercell (Mat3 2 0 0 1 2 0 0 0 3) qid (qscale (Q2Qc (7 # 2)) qid) mid mid qid) =
  Some [7 # 1; 0 # 1; 0 # 1; 7 # 2; 7 # 1; 0 # 1; 0 # 1; 0 # 1; 21 # 2]%Q.
Proof. vm_compute. reflexivity. Qed.
