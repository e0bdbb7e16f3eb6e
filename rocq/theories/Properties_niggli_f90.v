(** Properties C45, C55-C58: the module niggli.f90, and find_grid from the user's cell. *)
From Coq Require Import ZArith QArith Qcanon List Bool Lia.
From Verif Require Import Mat3 Spec QMat QNum QcTac Spec_grid Spec_niggli Spec_niggli_f90 Spec_kgrids
  Bases Bases_niggli Model_pyniggli Model_niggli_id Model_find_kgrids Model_find_grid
  Model_niggli_f90 Model_find_grid_top
  Model_transform Proofs_transform Proofs_pyniggli2 Proofs_pyniggli3
  Proofs_niggli_id2 Proofs_niggli_id3 Proofs_cbrt Proofs_niggli_f90a
  Proofs_niggli_f90b Proofs_niggli_f90c Proofs_niggli_f90d Proofs_niggli_f90e Proofs_niggli_f90f
  Spec_clear Proofs_clear3 Proofs_clear5 Proofs_passes3 Properties_niggli_id Properties_find_grid.
Import ListNotations.
Open Scope Qc_scope.

(** In all statements [cbrt] is the cube root of the volume and [dep] the test of the library
    for linear dependence. *)

(** ** C55 The Fortran reduction *)
(** Where the Fortran and the Python reduction both succeed they give the same cell and the
    same change of basis. *)
Theorem C55_same_as_python : forall dep cbrt M eps_ N C N' C',
  reduce_cell dep cbrt M eps_ = FReduced N C ->
  reduced_cell cbrt (rows_of M) eps_ = Reduced N' C' -> N = N' /\ C = C'.
Proof. exact cell_same. Qed.
Print Assumptions C55_same_as_python.
(** They run into the limit of passes for the same cells. *)
Theorem C55_gives_up : forall dep cbrt M eps_, qdet M <> 0 -> dep (qdet M) = false ->
  reduce_cell dep cbrt M eps_ = Gave_up <-> reduced_cell cbrt (rows_of M) eps_ = TooManyIterations.
Proof. exact cell_gave_up. Qed.
Print Assumptions C55_gives_up.
(** A cell that is returned spans the same lattice and is a Niggli cell up to the tolerance. *)
Theorem C55_reduced : forall dep cbrt M eps_ N C, reduce_cell dep cbrt M eps_ = FReduced N C ->
  N = qmul M (qof C) /\ mdet C = 1%Z /\ qdet N = qdet M /\ same_span M N /\
  (0 <= used_eps cbrt M eps_ -> is_niggli_upto (used_eps cbrt M eps_) N).
Proof. exact cell_reduced. Qed.
Print Assumptions C55_reduced.
(** The final check refuses a cell only if its shortest squared length is within the tolerance
    or one of the compared quantities is exactly at the tolerance. *)
Theorem C55_refused : forall dep cbrt M eps_, 0 <= used_eps cbrt M eps_ ->
  reduce_cell dep cbrt M eps_ = Not_niggli ->
  exists C, mdet C = 1%Z /\ is_niggli_upto (used_eps cbrt M eps_) (qmul M (qof C)) /\
    (q11 (qgram (qmul M (qof C))) <= used_eps cbrt M eps_ \/
     cell_params (at_tolerance (used_eps cbrt M eps_)) (qmul M (qof C))).
Proof. exact cell_refused. Qed.
Print Assumptions C55_refused.
(** In all other cases it accepts what the Python program returns. *)
Theorem C55_accepts : forall dep cbrt M eps_ N C, dep (qdet M) = false ->
  0 <= used_eps cbrt M eps_ -> reduced_cell cbrt (rows_of M) eps_ = Reduced N C ->
  used_eps cbrt M eps_ < q11 (qgram N) -> ~ cell_params (at_tolerance (used_eps cbrt M eps_)) N ->
  reduce_cell dep cbrt M eps_ = FReduced N C.
Proof. exact cell_accepts. Qed.
Print Assumptions C55_accepts.
(** With tolerance 0 only cells with three different lengths and without right angles are
    reduced ... *)
Theorem C55_zero_tolerance : forall dep cbrt M N C, reduce_cell dep cbrt M (Some 0) = FReduced N C ->
  q11 (qgram N) < q22 (qgram N) /\ q22 (qgram N) < q33 (qgram N) /\
  q23 (qgram N) <> 0 /\ q13 (qgram N) <> 0 /\ q12 (qgram N) <> 0.
Proof. exact zero_eps_lengths. Qed.
Print Assumptions C55_zero_tolerance.
(** ... so "a Niggli-reduced cell is accepted" is false of the unit cube. *)
Theorem C55_zero_tolerance_refuted : exists M, is_niggli M /\ forall dep cbrt,
  dep (qdet M) = false -> reduce_cell dep cbrt M (Some 0) = Not_niggli.
Proof. exact (ex_intro _ qid (conj qid_niggli zero_eps_refused)). Qed.
Print Assumptions C55_zero_tolerance_refuted.
Example C55_example :
  reduce_cell small_volume qcbrt tet_cell None =
    FReduced (qof (Mat3 1 0 0 0 (-1) 0 0 0 (-2))) (Mat3 1 5 0 0 (-1) 0 0 0 (-1)) /\
  reduced_cell qcbrt (rows_of tet_cell) None =
    Reduced (qof (Mat3 1 0 0 0 (-1) 0 0 0 (-2))) (Mat3 1 5 0 0 (-1) 0 0 0 (-1)) /\
  0 <= used_eps qcbrt tet_cell None /\
  reduce_cell small_volume qcbrt (qof (Mat3 10 3 4 0 11 2 0 0 13)) (Some 0) <> Not_niggli.
Proof.
  split; [vm_compute; reflexivity|]. split; [vm_compute; reflexivity|].
  split; [vm_compute; discriminate|]. vm_compute. discriminate.
Qed.

(** ** C56 The canonical cells of the Fortran program *)
(** They are those of the Python program, except for number 16. *)
Theorem C56_same_bases : forall k, (k <> 16)%Z -> f_canonical_basis k = canonical_basis k.
Proof. exact f_bases. Qed.
Print Assumptions C56_same_bases.
(** For EPS between 0.000022 and 0.0011 the program reduces each of them to a cell with the
    scalar products that the symmetry requires. *)
Theorem C56_reduced : forall dep cbrt e k B, f_canonical_basis k = Some B ->
  near_root (cbrt (qabs (qdet (dec_basis B)))) (qabs (qdet (dec_basis B))) ->
  qdec 22 6 <= e -> e <= qdec 11 4 -> dep (qdet (dec_basis B)) = false ->
  mdet (f_canonical_C k) = 1%Z /\
  reduce_cell dep cbrt (dec_basis B) (Some e) =
    FReduced (qmul (dec_basis B) (qof (f_canonical_C k))) (f_canonical_C k).
Proof. exact f_canonical_reduced. Qed.
Print Assumptions C56_reduced.
Theorem C56_gram : forall k B, f_canonical_basis k = Some B ->
  mmul (mtr (f_canonical_C k)) (mmul (gram_of k) (f_canonical_C k)) = niggli_gram k.
Proof. exact f_canonical_gram. Qed.
Print Assumptions C56_gram.
(** For EPS between 1e-12 and 1e-6 this is false of number 6: the six digits given for the
    basis do not suffice, and it is reduced to another cell. *)
Theorem C56_small_eps_refuted : exists C,
  mmul (mtr C) (mmul (gram_of 6) C) <> niggli_gram 6 /\
  forall dep cbrt e, cube_root cbrt -> dependence_test dep -> qdec 1 12 <= e -> e <= qdec 1 6 ->
    reduce_cell dep cbrt (dec_basis basis_6) (Some e) =
      FReduced (qmul (dec_basis basis_6) (qof C)) C.
Proof. exact (ex_intro _ C_6_small (conj C_6_small_gram basis_6_reduced)). Qed.
Print Assumptions C56_small_eps_refuted.
Example C56_example : f_canonical_basis 6 = Some basis_6 /\ f_canonical_basis 31 = None /\
  cube_root qcbrt /\ dependence_test small_volume.
Proof. exact (conj eq_refl (conj eq_refl (conj qcbrt_root small_volume_test))). Qed.

(** ** C45 The Fortran identification always answers *)
(** If the reductions succeed there is a number. *)
Theorem C45_always_answers : forall dep cbrt U eps_, id_cell dep cbrt U eps_ <> Id_unset.
Proof. exact id_cell_answers. Qed.
Print Assumptions C45_always_answers.
Theorem C45_form : forall dep cbrt U eps_ Nu Cu O No Co k s_range,
  id_cell dep cbrt U eps_ = Id_cell Nu Cu O No Co k s_range ->
  let eps := match eps_ with Some e => e | None => qdec 1 5 end in
  (1 <= k <= 44)%Z /\
  reduce_cell dep cbrt U (Some eps) = FReduced Nu Cu /\
  reduce_cell dep cbrt O (Some eps) = FReduced No Co /\
  match f_canonical_basis k with
  | Some B => O = dec_basis B /\ (k <> 1 -> k <> 3 -> k <> 5 -> 10 <= s_range <= 25)%Z
  | None => O = U /\ s_range = 1%Z
  end.
Proof. exact id_cell_form. Qed.
Print Assumptions C45_form.
(** It agrees with the Python program, on cells for which neither compares a number close to a
    tolerance; number 31 where the Python program has no answer.  Both may run into the limit of
    passes, if there are many sums of squared lengths (see C28). *)
Theorem C45_agrees_on_clear : forall dep cbrt e L L' U, cube_root cbrt -> dependence_test dep ->
  clear_cell cbrt L U -> f_clear_cell cbrt e L' U -> qdec 22 6 <= e -> e <= qdec 11 4 ->
  dep (qdet U) = false ->
  (reduced_cell cbrt (rows_of U) None = TooManyIterations /\
   id_cell dep cbrt U (Some e) = Id_user_failed Gave_up /\ ~ few_sums 43 U) \/
  exists N C O No Co k s_range,
    reduced_cell cbrt (rows_of U) None = Reduced N C /\
    id_cell dep cbrt U (Some e) = Id_cell N C O No Co k s_range /\
    match niggli_id cbrt (rows_of U) None None with
    | Identified r => k = niggli_num r
    | Unbound => k = 31%Z
    | ReductionFailed _ => False
    end.
Proof. exact same_answer_few. Qed.
Print Assumptions C45_agrees_on_clear.
(** Cells whose scalar products are multiples of one number above the tolerances are clear. *)
Theorem C45_spaced_cells_are_clear : forall cbrt e s L U,
  qdet U <> 0 -> longest U L -> 0 < e -> 0 < cbrt (qabs (qdet U)) ->
  0 < s -> (exists G, qgram U = qscale s (qof G)) -> e * cbrt (qabs (qdet U)) < s ->
  zq 12 * (e + qdec 1 5 * (zq 6 * L)) < s -> zq 12 * (e * (zq 6 * L)) < s -> f_clear_cell cbrt e L U.
Proof. exact f_spaced_clear. Qed.
Print Assumptions C45_spaced_cells_are_clear.
(** In general it does not: with the default tolerances the two give the numbers 26 and 27. *)
Theorem C45_agrees_refuted : exists U dep cbrt, cube_root cbrt /\ dependence_test dep /\
  (exists r, niggli_id cbrt (rows_of U) None None = Identified r /\ niggli_num r = 26%Z) /\
  (exists Nu Cu O No Co s_range, id_cell dep cbrt U None = Id_cell Nu Cu O No Co 27 s_range).
Proof.
  exact (ex_intro _ near_26 (ex_intro _ small_volume (ex_intro _ qcbrt
    (conj qcbrt_root (conj small_volume_test (conj near_26_py near_26_id)))))).
Qed.
Print Assumptions C45_agrees_refuted.
(** A sheared tetragonal cell; the default EPS of the program is 0.001. *)
Definition small_tet : qmat := qof (Mat3 1 1 0 0 1 0 0 0 2).
Example C45_example : clear_cell qcbrt (zq 4) small_tet /\
  f_clear_cell qcbrt (qdec 1 3) (zq 4) small_tet /\ small_volume (qdet small_tet) = false /\
  id_number (id_cell small_volume qcbrt small_tet (Some (qdec 1 3))) = Some 11%Z /\
  f_clear_cell qcbrt (qdec 1 3) (qdec 637245 5) diamond /\
  id_number (id_cell small_volume qcbrt diamond (Some (qdec 1 3))) = Some 1%Z /\
  f_clear_cell qcbrt (qdec 1 3) (qdec 459 2 * qdec 459 2) rutile /\
  id_number (id_cell small_volume qcbrt rutile (Some (qdec 1 3))) = Some 21%Z.
Proof.
  split; [|split; [|split; [|split; [|split; [exact diamond_f_clear|split; [|split;
    [exact rutile_f_clear|]]]]]]]; try (vm_compute; reflexivity).
  - apply (grid_clear qcbrt 1). split; [lia|vm_compute; discriminate|exists (Mat3 1 1 0 1 2 0 0 0 4); vm_compute; reflexivity
           |unfold longest; vm_compute; repeat split; discriminate|vm_compute; discriminate
           |vm_compute; reflexivity|vm_compute; reflexivity].
  - apply (f_grid_clear qcbrt _ 1).
    split; [lia|vm_compute; discriminate|exists (Mat3 1 1 0 1 2 0 0 0 4); vm_compute; reflexivity
           |unfold longest; vm_compute; repeat split; discriminate| | | | |];
      vm_compute; reflexivity.
Qed.

(** ** C57 The point group check *)
(** If the library finds all symmetries of a clear cell, check_sym lets it pass; if it finds
    another number of them, it does not. *)
Theorem C57_check : forall dep cbrt e L U Nu Cu O No Co k s_range n,
  cube_root cbrt -> dependence_test dep -> f_clear_cell cbrt e L U ->
  qdec 22 6 <= e -> e <= qdec 11 4 ->
  id_cell dep cbrt U (Some e) = Id_cell Nu Cu O No Co k s_range -> point_group_order U n ->
  forall m, check_sym k m = Some true <-> m = n.
Proof. exact id_check. Qed.
Print Assumptions C57_check.
Example C57_example : point_group_order bct_cell 16 /\ check_sym 6 16 = Some true /\
  check_sym 6 8 = Some false.
Proof. exact (conj bct_order (conj eq_refl eq_refl)). Qed.

(** ** C58 find_grid from the user's cell *)
(** For clear cells and EPS between 0.000022 and 0.0011 (0.001 if none is given): the cell is
    identified unless the program finds it linearly dependent or runs into the limit of passes
    of the reduction (not if there are few sums of squared lengths, see C28); the point group check stops it only if the library does not find all
    symmetries; and a grid that is returned has the reciprocal lattice as a sublattice, has all
    symmetries of the cell, has an allowed offset and is at least as dense as required. *)
Theorem C58_from_the_cell : forall dep cbrt pg_size norms equal_norm undefined mink rmin packed equal
    irr1 irr2 fuel root U eps_ e given kpd min_kpts L,
  tolerance eps_ e -> cube_root cbrt -> dependence_test dep -> positive irr1 ->
  (forall B, qdet B <> 0 -> exists Y, unimodular Y /\ mink B = qmul B (qof Y)) ->
  f_clear_cell cbrt e L U -> qdec 22 6 <= e -> e <= qdec 11 4 -> (1 <= kpd)%Z ->
  match find_grid_top dep cbrt pg_size norms equal_norm undefined mink rmin packed equal irr1 irr2
          fuel root U eps_ given kpd min_kpts with
  | Not_identified o => (o = Id_user_failed Dependent /\ dep (qdet U) = true) \/
      (o = Id_user_failed Gave_up /\ ~ few_sums 43 U)
  | Symmetry_stop k => forall n, point_group_order U n -> pg_size U <> n
  | Searched k r => forall g o, r = Found g o ->
      exists n s, kgrid n U g /\ keeps_symmetry U g /\ o = Some s /\
        allowed_offset norms equal_norm given k U s /\
        (k <> 31 /\ k <> 44 -> kpd <= n)%Z /\
        (k = 31 \/ k = 44 -> exists m a, 1 <= m /\ n = m ^ 3 * a /\ kpd / m ^ 3 <= a)%Z
  end.
Proof. exact top_sound_few. Qed.
Print Assumptions C58_from_the_cell.
(** With EPS between 1e-12 and 1e-6 the grids can lack the symmetry of the lattice although no
    test stops the program: body-centred tetragonal, edges 12, 12, 10, at least 65 k-points.
    Whatever the library answers, every grid that is returned is wrong. *)
Theorem C58_small_eps_refuted : point_group_order bct_cell 16 /\
  forall dep cbrt pg_size norms equal_norm undefined mink rmin packed equal irr1 irr2 fuel root e
    given min_kpts,
  cube_root cbrt -> dependence_test dep -> positive irr1 ->
  (forall B, qdet B <> 0 -> exists Y, unimodular Y /\ mink B = qmul B (qof Y)) ->
  qdec 1 12 <= e -> e <= qdec 1 6 -> pg_size bct_cell = 16%Z -> (fuel <= 40)%nat ->
  f_grid_cell cbrt e 1 (zq 97) bct_cell /\
  exists r, find_grid_top dep cbrt pg_size norms equal_norm undefined mink rmin packed equal irr1
      irr2 fuel root bct_cell (Some e) given 65 min_kpts = Searched 6 r /\
    forall g o, r = Found g o -> ~ keeps_symmetry bct_cell g.
Proof. exact (conj bct_order small_eps_grid). Qed.
Print Assumptions C58_small_eps_refuted.
(** A library that finds [order] symmetries and accepts every grid. *)
Definition any_top (order : Z) (U : qmat) (e : option Qc) (kpd : Z) : option (Z * list Q) :=
  match find_grid_top small_volume qcbrt (fun _ => order) (fun _ => (1, 1, 1)) qeqb (fun _ => U)
          (fun B => B) (fun _ => 1) (fun _ => true) qeqb (fun _ _ => Some 1%Z) (fun _ _ => None)
          40 1 U e None kpd false with
  | Searched k (Found g _) => Some (k, entries g)
  | _ => None
  end.
Example C58_example :
  any_top 16 small_tet None 3 =
    Some (11%Z, [1 # 1; 0 # 1; 0 # 1; -1 # 1; 1 # 1; 0 # 1; 0 # 1; 0 # 1; 1 # 8]%Q) /\
  any_top 8 small_tet None 3 = None /\
  any_top 16 bct_cell (Some (qdec 1 6)) 65 <> None.
Proof. split; [|split]; vm_compute; [reflexivity|reflexivity|discriminate]. Qed.
