(** Properties C69 and C70: crystal families and the test of basis_check.py. *)
From Coq Require Import ZArith QArith Qcanon List.
From Verif Require Import Mat3 QMat QNum Spec Spec_grid Spec_find Spec_niggli_f90 Spec_clear Spec_basis_check
  Model_pyniggli Model_niggli_id Model_cell_test Proofs_pyniggli2 Proofs_cbrt Proofs_family Proofs_cell_test Proofs_cell_test2 Model_find_supercells Properties_niggli_id
  Properties_find_supercells.
Import ListNotations.

(** ** C69 Families *)
(** Every lattice belongs to exactly one of the seven families: its point group has 48, 24, 12,
    16, 8, 4 or 2 elements. *)
Theorem C69_seven_families : forall U, qdet U <> 0%Qc -> exists f, in_family U f /\ forall g, in_family U g -> g = f.
Proof. exact (fun U HU => match family_exists U HU with ex_intro _ f H => ex_intro _ f (conj H (fun g G => family_unique U g f G H)) end). Qed.
Print Assumptions C69_seven_families.
(** A lattice that keeps all symmetries of another one has a family with the same or a smaller
    number: what [_test_case] checks is necessary.  (Orders alone would not do: a tetragonal
    lattice has more symmetries than a rhombohedral one.) *)
Theorem C69_kept_family : forall P B f g, qdet P <> 0%Qc -> qdet B <> 0%Qc -> keeps_symmetry P B ->
  in_family P f -> in_family B g -> (g <= f)%Z.
Proof. exact family_le. Qed.
Print Assumptions C69_kept_family.
(** For every tolerance: the identification of a cell without compared numbers close to their
    tolerances names its family; it fails only at the limit of passes, and only triclinic cells
    are left without an answer. *)
Theorem C69_identified : forall cbrt e L U, clear_at cbrt e L U ->
  match niggli_id cbrt (rows_of U) (Some e) None with
  | ReductionFailed o => o = TooManyIterations /\ ~ few_sums 43 U
  | Unbound => in_family U 7
  | Identified r => in_family U (lat_fam r)
  end.
Proof. exact clear_at_family. Qed.
Print Assumptions C69_identified.
(** The tetragonal cell has family 4 and its superlattice of twice the height too. *)
Example C69_example : in_family tet_cell 4 /\ ~ in_family tet_cell 3 /\
  exists r, niggli_id qcbrt (rows_of tet_cell) (Some (qdec 1 2)) None = Identified r /\ lat_fam r = 4%Z.
Proof.
  assert (G : clear_cell qcbrt (zq 26) tet_cell) by (apply tet_clear; split; vm_compute; discriminate).
  assert (E : exists r, niggli_id qcbrt (rows_of tet_cell) None None = Identified r /\ lat_fam r = 4%Z)
    by (eexists; split; [vm_compute; reflexivity|reflexivity]).
  assert (F : in_family tet_cell 4) by (destruct E as (r & E & <-); exact (clear_family _ _ _ r G E)).
  split; [exact F|]. split; [intros K; discriminate (family_unique _ _ _ K F)|].
  eexists. split; [vm_compute; reflexivity|reflexivity].
Qed.

(** ** C70 cell_test *)
(** A cell whose identification fails is not tested; nothing else is done with it. *)
Theorem C70_not_identified : forall cbrt rows count max_,
  match niggli_id cbrt rows None None with
  | ReductionFailed o => cell_test cbrt rows count max_ = CellNotReduced o
  | Unbound => cell_test cbrt rows count max_ = CellNotIdentified
  | Identified _ => True
  end.
Proof. exact ct_unidentified. Qed.
Print Assumptions C70_not_identified.
(** The verdict for a clear cell.  True: every superlattice of a tested size that keeps the
    symmetries has been identified (one of its bases has), with a permitted family; triclinic
    cells are not tested.  False is always a false alarm: the superlattice does keep the
    symmetries, but its identification with the tolerance 0.01 names a family which is not its
    own.  The only exceptions are those of the identification of such a superlattice, a missing
    counter and a missing function. *)
Theorem C70_verdict : forall cbrt L U r count max_ max, cube_root cbrt -> clear_cell cbrt L U ->
  niggli_id cbrt (rows_of U) None None = Identified r -> test_limit max_ max ->
  match cell_test cbrt (rows_of U) count max_ with
  | NoCounter => ~ In (niggli_num r) (map fst count)
  | NoFunction => In (niggli_num r) untestable /\ (1 <= max)%Z
  | Tested true c => counted (niggli_num r) count c /\
      ((niggli_num r = 31 \/ niggli_num r = 44)%Z \/
       forall B, tested (niggli_num r) max U B -> exists S r', same_span S B /\
         niggli_id cbrt (rows_of S) (Some (qdec 1 2)) None = Identified r' /\ (lat_fam r' <= lat_fam r)%Z)
  | Tested false c => counted (niggli_num r) count c /\
      exists S r', tested (niggli_num r) max U S /\
        niggli_id cbrt (rows_of S) (Some (qdec 1 2)) None = Identified r' /\ ~ in_family S (lat_fam r')
  | SupercellNotReduced o => exists S, tested (niggli_num r) max U S /\
        niggli_id cbrt (rows_of S) (Some (qdec 1 2)) None = ReductionFailed o
  | SupercellNotIdentified => exists S, tested (niggli_num r) max U S /\
        niggli_id cbrt (rows_of S) (Some (qdec 1 2)) None = Unbound /\ ~ in_family S 7
  | _ => False
  end.
Proof. exact ct_verdict. Qed.
Print Assumptions C70_verdict.
(** The loop of [_test_case] on arbitrary supercells [Bs], and exactly when it passes: all are
    nonsingular and identified with a permitted family, and their coordinates in the basis of the
    parent are within 1/2000 of integers. *)
Theorem C70_case : forall cbrt U fam Bs, test_supercells cbrt U fam Bs = Passed <->
  forall B, In B Bs -> qdet U <> 0%Qc /\ qdet B <> 0%Qc /\ nearly_integer (qmul (qinv U) B) /\
    exists r, niggli_id cbrt (rows_of B) (Some (qdec 1 2)) None = Identified r /\ (lat_fam r <= fam)%Z.
Proof. exact case_passes. Qed.
Print Assumptions C70_case.
(** Doubling the height passes, increasing it by a half or a thousandth does not, and neither does
    the cubic family. *)
Example C70_case_example :
  test_supercells qcbrt tet_cell 4 [qmul tet_cell (QMat 1 0 0 0 1 0 0 0 (zq 2))] = Passed /\
  test_supercells qcbrt tet_cell 4 [qmul tet_cell (QMat 1 0 0 0 1 0 0 0 (qdec 15 1))] = Failed /\
  test_supercells qcbrt tet_cell 4 [qmul tet_cell (QMat 1 0 0 0 1 0 0 0 (qdec 1001 3))] = Failed /\
  test_supercells qcbrt tet_cell 1 [qmul tet_cell (QMat 1 0 0 0 1 0 0 0 (zq 2))] = Failed.
Proof. vm_compute. repeat split. Qed.
(** The test cannot be run for 13 of the 44 characters (with no limit or a limit of at least 1):
    a function is missing. *)
Theorem C70_missing : forall cbrt rows r count max_ max, cube_root cbrt ->
  niggli_id cbrt rows None None = Identified r -> test_limit max_ max -> (1 <= max)%Z ->
  In (niggli_num r) untestable -> In (niggli_num r) (map fst count) ->
  cell_test cbrt rows count max_ = NoFunction.
Proof. exact ct_missing. Qed.
Print Assumptions C70_missing.
(** "True if the parent cell symmetry is preserved. False otherwise": not so.  The cubic
    superlattice of the cubic lattice that is turned by the angle of the triangle 3, 4, 5 about
    the z axis has lost the mirror planes, and the test passes. *)
Theorem C70_rotated_refuted : exists H,
  test_case qcbrt qid qid qid qid qid qid 1 [H] = Passed /\ ~ keeps_symmetry qid (qmul qid (qof H)).
Proof. exact (ex_intro _ rotated_hnf (conj eq_refl rotated_breaks)). Qed.
Print Assumptions C70_rotated_refuted.
(** The tetragonal cell passes for the sizes 0 to 4, and there is something to test. *)
Example C70_example : clear_cell qcbrt (zq 26) tet_cell /\
  cell_test qcbrt (rows_of tet_cell) [(1, 0); (11, 7)]%Z (Some 5%Z) = Tested true [(1, 0); (11, 8)]%Z /\
  exists B, tested 11 5 tet_cell B.
Proof.
  assert (G : clear_cell qcbrt (zq 26) tet_cell) by (apply tet_clear; split; vm_compute; discriminate).
  split; [exact G|]. split; [vm_compute; reflexivity|].
  assert (E : how_many (find_supercells qcbrt (rows_of tet_cell) 4 true 1) = 5%nat) by (vm_compute; reflexivity).
  destruct (C47_exact_mode qcbrt (zq 26) tet_cell 4 1 qcbrt_root G ltac:(discriminate))
    as [(F & _)|[(F & _)|(l & F & A & _)]]; rewrite F in E; try discriminate E.
  destruct l as [|B l]; [discriminate E|]. exists B, 4%Z. inversion A as [|x y (A1 & A2) A3]. subst.
  split; [discriminate|]. split; [right; split; [cbn [In]; intros [K|[K|[K|[]]]]; discriminate K|split; [discriminate|reflexivity]]|].
  now split.
Qed.
