(** Properties C43, C51, C52: the enumerators of sp_hnfs.f90. *)
From Coq Require Import ZArith List Permutation.
From Verif Require Import Mat3 Spec Bases Spec_kgrids Model_universal Model_sp_hnfs Model_find_grid
  Proofs_sp_hnfs4 Proofs_find_grid3.
Import ListNotations.
Open Scope Z_scope.

(** ** C43 The Fortran enumerators list exactly the symmetry-preserving HNFs *)
(** Lattices neither cubic nor triclinic: for every size the enumerator called for number [k]
    considers exactly the HNFs kept by all symmetries of the lattice, each once; also with the
    symmetries of the decimal basis in the sources. *)
Theorem C43_exact : forall k enum, 1 <= k <= 44 -> f_enumerator k = Some enum ->
  exists B, canonical_basis k = Some B /\ enumerates_exactly (gram_of k) enum /\
    enumerates_for_basis B eps3 enum /\ lists_each_superlattice_once (gram_of k) enum.
Proof. exact f_enumerator_correct. Qed.
Print Assumptions C43_exact.
(** Cubic lattices. *)
Theorem C43_cubic : forall k, In k [1; 3; 5] ->
  let enum n := cubic_all (f_cubic_loop k (f_diagonals n)) in
  exists B, canonical_basis k = Some B /\ enumerates_exactly (gram_of k) enum /\
    enumerates_for_basis B eps3 enum /\ lists_each_superlattice_once (gram_of k) enum.
Proof. exact f_cubic_correct. Qed.
Print Assumptions C43_cubic.
(** Triclinic lattices: all HNFs, multiplied by [mult]; the program never stops because of a
    wrong count. *)
Theorem C43_triclinic : forall mult n, 1 <= mult ->
  exists l, f_tric_31_44 mult n = Some l /\ NoDup l /\
    forall K, In K l <-> exists H, is_hnf n H /\ K = mscale mult H.
Proof. exact f_tric_correct. Qed.
Print Assumptions C43_triclinic.
(** Every number from 1 to 44 is handled by one of the three. *)
Theorem C43_dispatch_total : forall k, 1 <= k <= 44 ->
  (In k [1; 3; 5] \/ In k [31; 44]) <-> f_enumerator k = None.
Proof. exact f_all_kinds. Qed.
Print Assumptions C43_dispatch_total.
(** The lists are those of the Python program, up to order. *)
Theorem C43_same_as_python : forall k n nb l, 1 <= k <= 44 -> 1 <= n ->
  find_hnfs k n true nb = Some l ->
  (forall enum, f_enumerator k = Some enum -> Permutation (enum n) l) /\
  (In k [1; 3; 5] -> Permutation (cubic_all (f_cubic_loop k (f_diagonals n))) l) /\
  (k = 31 \/ k = 44 -> exists l', f_tric_31_44 1 n = Some l' /\ Permutation l' l).
Proof. exact f_same_as_python. Qed.
Print Assumptions C43_same_as_python.
Example C43_example :
  f_hex_12 6 = [HNF 1 0 1 0 0 6; HNF 1 1 3 0 0 2] /\
  f_enumerator 12 = Some f_hex_12 /\
  option_map (@length mat3) (f_tric_31_44 2 6) = Some 91%nat.
Proof. repeat split; vm_compute; reflexivity. Qed.

(** ** C51 The work arrays are large enough *)
Theorem C51_diagonals : forall n, 1 <= n -> Z.of_nat (length (f_diagonals n)) <= f_diagonals_room n.
Proof. exact f_diagonals_fit. Qed.
Print Assumptions C51_diagonals.
Theorem C51_hnfs : forall k enum n, 1 <= k <= 44 -> f_enumerator k = Some enum -> 1 <= n ->
  Z.of_nat (length (enum n)) <= f_total_hnfs n.
Proof. exact f_arrays. Qed.
Print Assumptions C51_hnfs.

Example C51_example :
  (length (f_diagonals 12), f_diagonals_room 12, f_total_hnfs 12, length (f_so_32 12)) =
  (18%nat, 36, 455, 57%nat).
Proof. vm_compute. reflexivity. Qed.

(** ** C52 Which sizes give nothing *)
(** No size, unless the lattice is cubic; so [compare_grids] is called and sets [ngrids]. *)
Theorem C52_never_empty : forall k enum n, 1 <= k <= 44 -> f_enumerator k = Some enum -> 1 <= n ->
  enum n <> [].
Proof. exact f_some. Qed.
Print Assumptions C52_never_empty.
(** find_grid counts a size only when it has two HNFs; every multiple of four does. *)
Theorem C52_two : forall k enum m, 1 <= k <= 44 -> f_enumerator k = Some enum -> 1 <= m ->
  (2 <= length (enum (4 * m)%Z))%nat.
Proof. exact f_two. Qed.
Print Assumptions C52_two.
(** Cubic lattices: at most one HNF, and one exactly for the sizes [m b^3]. *)
Theorem C52_cubic : forall k n, In k [1; 3; 5] ->
  (length (cubic_all (f_cubic_loop k (f_diagonals n))) <= 1)%nat /\
  (cubic_all (f_cubic_loop k (f_diagonals n)) <> [] <->
   exists m b, In m (mults_of k) /\ 1 <= b /\ n = m * b ^ 3).
Proof. exact f_cubic_lists. Qed.
Print Assumptions C52_cubic.
(** For every other size the zero matrix is handed on as if it were an HNF. *)
Theorem C52_zero_matrix : forall k n, In k [1; 3; 5] ->
  cubic_all (f_cubic_loop k (f_diagonals n)) = [] ->
  cubic_one (f_cubic_loop k (f_diagonals n)) = zero_mat.
Proof. exact f_cubic_zero. Qed.
Print Assumptions C52_zero_matrix.
Example C52_example :
  cubic_all (f_cubic_loop 3 (f_diagonals 16)) = [HNF 2 0 2 2 2 4] /\
  cubic_all (f_cubic_loop 3 (f_diagonals 6)) = [] /\
  length (f_st_11 4) = 5%nat.
Proof. repeat split; vm_compute; reflexivity. Qed.
