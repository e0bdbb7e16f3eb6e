(** Properties C46-C48: [find_supercells] from the user's cell to the list of supercells. *)
From Coq Require Import ZArith QArith Qcanon List.
From Verif Require Import Mat3 Spec QMat QNum Spec_grid Spec_find Model_universal Model_pyniggli
  Model_niggli_id Model_find_supercells Proofs_pyniggli2 Proofs_volumes Proofs_cbrt
  Proofs_find_supercells Spec_clear Proofs_passes3 Properties_niggli_id.
Import ListNotations.
Open Scope Qc_scope.

Definition qmat_list (B : qmat) : list Q :=
  match B with QMat a b c d e f g h i => List.map this [a; b; c; d; e; f; g; h; i] end.

Definition how_many (o : fs_outcome) : nat :=
  match o with Supercells l => List.length l | _ => 0%nat end.

(** The theorems assume a function computing cube roots (to about 1/1000); there is one. *)
Theorem C46_cube_root_exists : cube_root qcbrt.
Proof. exact qcbrt_root. Qed.
Print Assumptions C46_cube_root_exists.

(** ** C46 Failures are those of the user's cell; results are supercells *)
(** Reducing the canonical basis, choosing HNFs and transforming never fail: an exception is
    one of the reduction or identification of the user's own cell. *)
Theorem C46_failures : forall cbrt rows kpt exact nb, cube_root cbrt -> (1 <= kpt)%Z ->
  match find_supercells cbrt rows kpt exact nb with
  | NotReduced o => niggli_id cbrt rows None None = ReductionFailed o
  | NotIdentified => niggli_id cbrt rows None None = Unbound
  | Supercells _ => exists r, niggli_id cbrt rows None None = Identified r
  | BasisNotReduced _ | NoLattice | Singular => False
  end.
Proof. exact fs_failures. Qed.
Print Assumptions C46_failures.
(** Every returned matrix spans a sublattice of the user's lattice, of the requested index in
    exact mode. *)
Theorem C46_members : forall cbrt rows kpt exact nb l, cube_root cbrt -> (1 <= kpt)%Z ->
  find_supercells cbrt rows kpt exact nb = Supercells l ->
  exists U, rows = rows_of U /\ qdet U <> 0 /\
    forall B, In B l -> exists n, (1 <= n)%Z /\ supercell n U B /\ (exact = true -> n = kpt).
Proof. exact fs_members. Qed.
Print Assumptions C46_members.
(** The tetragonal cell with columns (1,0,0), (5,1,0), (0,0,2) and index 4. *)
Example C46_example :
  match find_supercells qcbrt (rows_of tet_cell) 4 true 1 with
  | Supercells l => List.length l = 5%nat /\
      qmat_list (nth 1 l qid) = qmat_list (QMat 1 (zq 5) 0 0 1 0 (- zq 4) (- zq 16) (zq 8))
  | _ => False
  end.
Proof. vm_compute. split; reflexivity. Qed.

(** ** C47 Exact mode *)
(** For a cell without compared numbers close to their tolerances (see Spec_clear), exact mode
    returns exactly the superlattices of the given index that keep every symmetry of the cell;
    or the 1000-pass limit of the reduction is hit (not if there are few sums of squared lengths,
    see C28); or the cell is not identified, and then it
    has no symmetry but the identity and the inversion. *)
Theorem C47_exact_mode : forall cbrt L U n nb, cube_root cbrt -> clear_cell cbrt L U -> (1 <= n)%Z ->
  (find_supercells cbrt (rows_of U) n true nb = NotReduced TooManyIterations /\ ~ few_sums 43 U) \/
  (find_supercells cbrt (rows_of U) n true nb = NotIdentified /\
   forall X, qisometry (qgram U) X <-> X = mid \/ X = mopp mid) \/
  exists l, find_supercells cbrt (rows_of U) n true nb = Supercells l /\ all_supercells U n l.
Proof. exact fs_exact_few. Qed.
Print Assumptions C47_exact_mode.
(** All seven symmetry-preserving superlattices of index 8 of the tetragonal cell. *)
Example C47_example : clear_cell qcbrt (zq 26) tet_cell /\
  exists l, find_supercells qcbrt (rows_of tet_cell) 8 true 1 = Supercells l /\
    List.length l = 7%nat /\ all_supercells tet_cell 8 l.
Proof.
  assert (G : clear_cell qcbrt (zq 26) tet_cell).
  { apply tet_clear. split; vm_compute; discriminate. }
  split; [exact G|].
  assert (E : how_many (find_supercells qcbrt (rows_of tet_cell) 8 true 1) = 7%nat)
    by (vm_compute; reflexivity).
  destruct (C47_exact_mode qcbrt (zq 26) tet_cell 8 1 qcbrt_root G ltac:(discriminate))
    as [(F & _)|[(F & _)|(l & F & A)]]; rewrite F in E; try discriminate E.
  exists l. split; [exact F|]. split; [exact E|exact A].
Qed.

(** ** C48 Default mode *)
(** For an identified clear cell the default mode returns some supercells; all keep every
    symmetry of the cell and have a size near the requested one; and, unless the lattice is
    triclinic, every symmetry-preserving superlattice of those sizes is returned. *)
Theorem C48_default_mode : forall cbrt L U r kpt nb, cube_root cbrt -> clear_cell cbrt L U ->
  (1 <= kpt)%Z -> root_guess kpt nb -> niggli_id cbrt (rows_of U) None None = Identified r ->
  exists l vs, find_supercells cbrt (rows_of U) kpt false nb = Supercells l /\ l <> [] /\
    default_sizes (niggli_num r) kpt vs /\
    Forall (fun B => (exists m, In m vs /\ supercell m U B) /\ keeps_symmetry U B) l /\
    (~ (niggli_num r = 31 \/ niggli_num r = 44)%Z ->
     forall v B, In v vs -> supercell v U B -> keeps_symmetry U B ->
       exists S, In S l /\ same_span S B).
Proof. exact fs_default. Qed.
Print Assumptions C48_default_mode.
Example C48_example : clear_cell qcbrt (zq 26) tet_cell /\ root_guess 20 1 /\
  (exists r, niggli_id qcbrt (rows_of tet_cell) None None = Identified r /\ niggli_num r = 11%Z) /\
  how_many (find_supercells qcbrt (rows_of tet_cell) 20 false 1) = 20%nat.
Proof.
  split; [apply tet_clear; split; vm_compute; discriminate|].
  split; [exists 2%Z; cbn; repeat split; discriminate|].
  split; [eexists; split; [vm_compute; reflexivity|reflexivity]|]. vm_compute. reflexivity.
Qed.
