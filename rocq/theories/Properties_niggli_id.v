(** Properties of [niggli_id] (niggli_lat_id.py), and of the reduction on clear cells. *)
From Coq Require Import ZArith QArith Qcanon List Bool Lia String.
From Verif Require Import Mat3 Spec QMat QNum QcTac Spec_grid Spec_niggli Spec_id Bases Bases_niggli NearSym
  Model_pyniggli Model_niggli_id Proofs_pyniggli2 Proofs_pyniggli3 Proofs_niggli_id3 Proofs_cbrt Spec_clear Proofs_clear3
  Proofs_clear4 Proofs_clear5 Proofs_niggli_term Proofs_passes2 Proofs_passes3.
Import ListNotations.
Open Scope Qc_scope.

(** A sheared tetragonal cell with integer scalar products. *)
Definition tet_cell : qmat := QMat 1 (zq 5) 0 0 1 0 0 0 (zq 2).
Lemma tet_grid cbrt : 0 <= cbrt (qabs (qdet tet_cell)) <= zq 100 -> grid_cell cbrt 1 (zq 26) tet_cell.
Proof.
  intros (H1 & H2). constructor.
  - lia.
  - vm_compute. discriminate.
  - exists (Mat3 1 5 0 5 26 0 0 0 4). vm_compute. reflexivity.
  - unfold longest. vm_compute. repeat split; discriminate.
  - exact H1.
  - generalize dependent (cbrt (qabs (qdet tet_cell))). intros q H1 H2.
    unfold zq, inject_Z, rtol in *. qnum.
  - vm_compute. reflexivity.
Qed.

(** ** C28 Reduction does not fail spuriously: clear cells *)
(** With the tolerances of the program, a cell for which no compared number is close to its
    tolerance is reduced to a Niggli cell or runs into the limit of passes; it is never
    refused.  It does not run into the limit if the bases of the lattice have few sums of
    squared lengths up to that of the cell. *)
Theorem C28_clear_cells_partial : forall cbrt L M, clear_cell cbrt L M ->
  (reduced_cell cbrt (rows_of M) None = TooManyIterations /\ ~ few_sums 43 M) \/
  exists N C, reduced_cell cbrt (rows_of M) None = Reduced N C /\ N = qmul M (qof C) /\
    mdet C = 1%Z /\ is_niggli N.
Proof. exact clear_reduced_few. Qed.
Print Assumptions C28_clear_cells_partial.
(** With exact comparisons at most 23 passes are made for each sum. *)
Theorem C28_pass_bound : forall n U, qdet U <> 0 -> few_sums n U ->
  exists k, (Z.of_nat k <= 23 * n)%Z /\ snd (pass 0 U (after 0 U k)) = true.
Proof. exact few_passes. Qed.
Print Assumptions C28_pass_bound.
(** If the scalar products are multiples of [s], the sum of squared lengths in units of [s]
    bounds the number of sums. *)
Theorem C28_spaced_few_sums : forall s U G, 0 < s -> qdet U <> 0 -> qgram U = qscale s (qof G) ->
  few_sums (m11 G + m22 G + m33 G - 2) U.
Proof. exact spaced_few. Qed.
Print Assumptions C28_spaced_few_sums.
(** Such are the cells whose scalar products are multiples of one number above the
    tolerances: all cubic lattices of a reasonable edge, for instance. *)
Theorem C28_spaced_cells_are_clear : forall cbrt s L U,
  qdet U <> 0 -> longest U L -> 0 <= cbrt (qabs (qdet U)) ->
  0 < s -> (exists G, qgram U = qscale s (qof G)) ->
  qdec 1 8 + qdec 1 5 * cbrt (qabs (qdet U)) + qdec 1 5 * (zq 6 * L) < s ->
  zq 12 * (qdec 1 5 + qdec 1 5 * (zq 6 * L)) < s -> clear_cell cbrt L U.
Proof. exact spaced_clear. Qed.
Print Assumptions C28_spaced_cells_are_clear.
Lemma tet_clear cbrt : 0 <= cbrt (qabs (qdet tet_cell)) <= zq 100 -> clear_cell cbrt (zq 26) tet_cell.
Proof. intros H. exact (grid_clear cbrt 1 _ _ (tet_grid cbrt H)). Qed.
Lemma tet_few : few_sums 29 tet_cell.
Proof.
  apply (spaced_few 1 _ (Mat3 1 5 0 5 26 0 0 0 4)); [reflexivity|vm_compute; discriminate|].
  vm_compute. reflexivity.
Qed.
Lemma diamond_few : few_sums 4 diamond.
Proof.
  apply (spaced_few (qdec 1785 3 * qdec 1785 3) _ (Mat3 2 1 1 1 2 1 1 1 2));
    [reflexivity|vm_compute; discriminate|exact diamond_gram].
Qed.
(** Also diamond (face-centred cubic, edge 3.57) and rutile (tetragonal, edges 4.59 and 2.96,
    where the scalar products are not multiples of one number). *)
Example C28_clear_example : clear_cell (fun _ => 1) (zq 26) tet_cell /\
  reduced_cell (fun _ => 1) (rows_of tet_cell) None =
  Reduced (qof (Mat3 1 0 0 0 (-1) 0 0 0 (-2))) (Mat3 1 5 0 0 (-1) 0 0 0 (-1)) /\
  clear_cell qcbrt (qdec 637245 5) diamond /\ clear_cell qcbrt (qdec 459 2 * qdec 459 2) rutile /\
  few_sums 29 tet_cell /\ few_sums 4 diamond.
Proof.
  split; [apply tet_clear; split; discriminate|]. split; [vm_compute; reflexivity|].
  exact (conj diamond_clear (conj rutile_clear (conj tet_few diamond_few))).
Qed.

(** ** C31 Identification always answers *)
(** False: with D, E, F positive and E = F, when neither A/2 = E nor B = C (nor A = B with
    D = E), no variable is assigned.  This is the only gap, for any tolerances. *)
Theorem C31_unbound_iff : forall rt eps A B C D E F,
  id_params_tol rt eps A B C D E F = None <->
  (0 < D - eps /\ 0 < E - eps /\ 0 < F - eps) /\
  allclose_r rt eps E F = true /\ allclose_r rt eps (A / qtwo) E = false /\
  allclose_r rt eps B C = false /\
  (allclose_r rt eps A B = true -> allclose_r rt eps D E = false).
Proof. exact unbound_iff. Qed.
Print Assumptions C31_unbound_iff.
(** A Niggli-reduced cell whose reduction succeeds and which gets no answer (for every value
    of the cube root of its volume 768 between 0 and 1000). *)
Theorem C31_no_answer_refuted : exists M, qdet M <> 0 /\ is_niggli M /\
  forall cbrt, 0 <= cbrt (qabs (qdet M)) <= zq 1000 ->
    reduced_cell cbrt (rows_of M) None = Reduced M mid /\
    niggli_id cbrt (rows_of M) None None = Unbound.
Proof. exact (ex_intro _ hole_cell hole_unbound). Qed.
Print Assumptions C31_no_answer_refuted.
(** Outside the gap every cell whose reduction succeeds gets an answer. *)
Theorem C31_answer_partial : forall cbrt rows eps_ N C,
  let eps := match eps_ with None => qdec 1 5 | Some e => e end in
  reduced_cell cbrt rows eps_ = Reduced N C ->
  (dot_bc N <= eps \/ dot_ca N <= eps \/ dot_ab N <= eps \/
   allclose eps (dot_ca N) (dot_ab N) = false \/ allclose eps (dot_aa N / qtwo) (dot_ca N) = true \/
   allclose eps (dot_bb N) (dot_cc N) = true) ->
  exists r, niggli_id cbrt rows eps_ None = Identified r.
Proof. exact answer_otherwise. Qed.
Print Assumptions C31_answer_partial.
Example C31_example : exists r, niggli_id (fun _ => 1) (rows_of tet_cell) None None = Identified r /\
  niggli_num r = 11%Z /\ lat_type r = "simple tetragonal"%string.
Proof. eexists. split; [vm_compute; reflexivity|]. split; reflexivity. Qed.

(** ** C32 Identification is consistent *)
(** The answer belongs to one of the 44 lattice characters and has its name, its family and
    its canonical basis. *)
Theorem C32_consistent : forall cbrt rows eps_ G r,
  niggli_id cbrt rows eps_ G = Identified r ->
  (1 <= niggli_num r <= 44)%Z /\
  lat_type r = bravais_name (character (niggli_num r)) /\
  lat_fam r = family (character (niggli_num r)) /\
  id_basis r = option_map dec_basis (canonical_basis (niggli_num r)).
Proof. exact niggli_id_consistent. Qed.
Print Assumptions C32_consistent.
(** The canonical basis (up to the rounding of its decimals) has the point group of that
    family: so many integer matrices leave its metric invariant, the same ones that leave
    the exact metric invariant. *)
Theorem C32_basis_point_group : forall k B, canonical_basis k = Some B ->
  exists l, NoDup l /\ List.length l = holohedry_order (family (character k)) /\
    (forall X, In X l <-> near_isometry (gram B) eps3 X) /\
    (forall X, In X l <-> isometry (gram_of k) X).
Proof. exact basis_point_group. Qed.
Print Assumptions C32_basis_point_group.
Example C32_example : exists B, canonical_basis 5 = Some B /\
  holohedry_order (family (character 5)) = 48%nat /\ bravais_name (character 5) = "body centered cubic"%string.
Proof. eexists. repeat split. Qed.

(** ** C33 Identification is right about symmetry *)
(** With exact comparisons the isometries of a Niggli cell are exactly those of the reduced
    canonical cell of the answer; for a triclinic answer only the identity and inversion. *)
Theorem C33_exact_group : forall M r, qdet M <> 0 -> is_niggli M ->
  id_params_tol 0 0 (dot_aa M) (dot_bb M) (dot_cc M) (dot_bc M) (dot_ca M) (dot_ab M) = Some r ->
  forall X, qisometry (qgram M) X <->
   (match canonical_basis (niggli_num r) with
   | Some _ => isometry (niggli_gram (niggli_num r)) X
   | None => X = mid \/ X = mopp mid
   end).
Proof. exact id_exact_group. Qed.
Print Assumptions C33_exact_group.
(** The cells without an answer are triclinic. *)
Theorem C33_gap_is_triclinic : forall M, qdet M <> 0 -> is_niggli M ->
  id_params_tol 0 0 (dot_aa M) (dot_bb M) (dot_cc M) (dot_bc M) (dot_ca M) (dot_ab M) = None ->
  forall X, qisometry (qgram M) X <-> X = mid \/ X = mopp mid.
Proof. exact id_hole_group. Qed.
Print Assumptions C33_gap_is_triclinic.
(** The same for the program with its own tolerances, on clear cells. *)
Theorem C33_clear_cells : forall cbrt L M r, clear_cell cbrt L M ->
  niggli_id cbrt (rows_of M) None None = Identified r ->
  exists N C, reduced_cell cbrt (rows_of M) None = Reduced N C /\ N = qmul M (qof C) /\
    mdet C = 1%Z /\ is_niggli N /\
    forall X, qisometry (qgram N) X <->
     (match canonical_basis (niggli_num r) with
     | Some _ => isometry (niggli_gram (niggli_num r)) X
     | None => X = mid \/ X = mopp mid
     end).
Proof. exact clear_identified. Qed.
Print Assumptions C33_clear_cells.
Theorem C33_clear_gap_is_triclinic : forall cbrt L M, clear_cell cbrt L M ->
  niggli_id cbrt (rows_of M) None None = Unbound ->
  forall R, qisometry (qgram M) R <-> R = mid \/ R = mopp mid.
Proof. exact clear_unbound. Qed.
Print Assumptions C33_clear_gap_is_triclinic.
Example C33_example : clear_cell (fun _ => 1) (zq 26) tet_cell /\
  exists r, niggli_id (fun _ => 1) (rows_of tet_cell) None None = Identified r /\
    isometry (niggli_gram (niggli_num r)) (Mat3 0 1 0 1 0 0 0 0 1) /\
    ~ isometry (niggli_gram (niggli_num r)) (Mat3 0 0 1 0 1 0 1 0 0).
Proof.
  split; [apply tet_clear; split; discriminate|].
  eexists. split; [vm_compute; reflexivity|]. split; [vm_compute; reflexivity|].
  intros H. vm_compute in H. discriminate H.
Qed.
