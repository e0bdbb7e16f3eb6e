(** Properties C01-C16: the enumerators of symmetry-preserving HNFs. *)
From Coq Require Import ZArith List Lia Bool.
From Verif Require Import Mat3 Spec PyNum Model_diag Model_universal
  Model_sc Model_bcc Model_fcc Model_so Model_stet Model_hx Model_body_tet Model_body_ortho
  Model_sm Model_face_ortho Model_base_mono Model_rhom Model_base_ortho
  Bases HnfTheory PyNumFacts Proofs_cubic Proofs_enum Proofs_nodup Proofs_enum_extra.
Import ListNotations.
Open Scope Z_scope.

(** ** C01 Diagonals *)
Theorem C01_diagonals_complete : forall n a c f,
  In (a, c, f) (get_HNF_diagonals n) <-> 1 <= a /\ 1 <= c /\ 1 <= f /\ a * c * f = n.
Proof. exact in_diagonals. Qed.
Theorem C01_diagonals_nodup : forall n, NoDup (get_HNF_diagonals n).
Proof. exact NoDup_diagonals. Qed.
Example C01_example : get_HNF_diagonals 4 =
  [(1, 1, 4); (1, 2, 2); (1, 4, 1); (2, 1, 2); (2, 2, 1); (4, 1, 1)].
Proof. reflexivity. Qed.
Print Assumptions C01_diagonals_complete.
Print Assumptions C01_diagonals_nodup.

(** ** C02 [sc_3] *)
Theorem C02_sc_3_exact : enumerates_exactly (gram_of 3) sc_3.
Proof. exact (exact_3). Qed.
Print Assumptions C02_sc_3_exact.
Theorem C02_sc_3_basis : enumerates_for_basis basis_3 eps3 sc_3.
Proof. exact (exact_basis_3). Qed.
Print Assumptions C02_sc_3_basis.
Theorem C02_sc_3_once : lists_each_superlattice_once (gram_of 3) sc_3.
Proof. exact (lists_once _ _ exact_3 sc_3_nodup). Qed.
Print Assumptions C02_sc_3_once.
Example C02_sc_3_example : sc_3 4 =
  [HNF 1 1 2 1 0 2].
Proof. vm_compute. reflexivity. Qed.

(** ** C03 [bcc_5] *)
Theorem C03_bcc_5_exact : enumerates_exactly (gram_of 5) bcc_5.
Proof. exact (exact_5). Qed.
Print Assumptions C03_bcc_5_exact.
Theorem C03_bcc_5_basis : enumerates_for_basis basis_5 eps3 bcc_5.
Proof. exact (exact_basis_5). Qed.
Print Assumptions C03_bcc_5_basis.
Theorem C03_bcc_5_once : lists_each_superlattice_once (gram_of 5) bcc_5.
Proof. exact (lists_once _ _ exact_5 bcc_5_nodup). Qed.
Print Assumptions C03_bcc_5_once.
Example C03_bcc_5_example : bcc_5 4 =
  [HNF 1 0 1 3 3 4].
Proof. vm_compute. reflexivity. Qed.

(** ** C04 [fcc_1] *)
Theorem C04_fcc_1_exact : enumerates_exactly (gram_of 1) fcc_1.
Proof. exact (exact_1). Qed.
Print Assumptions C04_fcc_1_exact.
Theorem C04_fcc_1_basis : enumerates_for_basis basis_1 eps3 fcc_1.
Proof. exact (exact_basis_1). Qed.
Print Assumptions C04_fcc_1_basis.
Theorem C04_fcc_1_once : lists_each_superlattice_once (gram_of 1) fcc_1.
Proof. exact (lists_once _ _ exact_1 fcc_1_nodup). Qed.
Print Assumptions C04_fcc_1_once.
Example C04_fcc_1_example : fcc_1 4 =
  [HNF 1 1 2 1 0 2].
Proof. vm_compute. reflexivity. Qed.

(** ** C05 [hex_12] *)
Theorem C05_hex_12_exact : enumerates_exactly (gram_of 12) hex_12.
Proof. exact (exact_12). Qed.
Print Assumptions C05_hex_12_exact.
Theorem C05_hex_12_basis : enumerates_for_basis basis_12 eps3 hex_12.
Proof. exact (exact_basis_12). Qed.
Print Assumptions C05_hex_12_basis.
Theorem C05_hex_12_once : lists_each_superlattice_once (gram_of 12) hex_12.
Proof. exact (lists_once _ _ exact_12 hex_12_nodup). Qed.
Print Assumptions C05_hex_12_once.
Example C05_hex_12_example : hex_12 3 =
  [HNF 1 0 1 0 0 3; HNF 1 1 3 0 0 1].
Proof. vm_compute. reflexivity. Qed.

(** ** C05 [hex_22] *)
Theorem C05_hex_22_exact : enumerates_exactly (gram_of 22) hex_22.
Proof. exact (exact_22). Qed.
Print Assumptions C05_hex_22_exact.
Theorem C05_hex_22_basis : enumerates_for_basis basis_22 eps3 hex_22.
Proof. exact (exact_basis_22). Qed.
Print Assumptions C05_hex_22_basis.
Theorem C05_hex_22_once : lists_each_superlattice_once (gram_of 22) hex_22.
Proof. exact (lists_once _ _ exact_22 hex_22_nodup). Qed.
Print Assumptions C05_hex_22_once.
Example C05_hex_22_example : hex_22 3 =
  [HNF 1 0 1 0 2 3; HNF 3 0 1 0 0 1].
Proof. vm_compute. reflexivity. Qed.

(** ** C06 [rhom_4_2] *)
Theorem C06_rhom_4_2_id2_exact : enumerates_exactly (gram_of 2) rhom_4_2.
Proof. exact (exact_2). Qed.
Print Assumptions C06_rhom_4_2_id2_exact.
Theorem C06_rhom_4_2_id2_basis : enumerates_for_basis basis_2 eps3 rhom_4_2.
Proof. exact (exact_basis_2). Qed.
Print Assumptions C06_rhom_4_2_id2_basis.
Theorem C06_rhom_4_2_id2_once : lists_each_superlattice_once (gram_of 2) rhom_4_2.
Proof. exact (lists_once _ _ exact_2 rhom_4_2_nodup). Qed.
Print Assumptions C06_rhom_4_2_id2_once.
Theorem C06_rhom_4_2_id4_exact : enumerates_exactly (gram_of 4) rhom_4_2.
Proof. exact (exact_4). Qed.
Print Assumptions C06_rhom_4_2_id4_exact.
Theorem C06_rhom_4_2_id4_basis : enumerates_for_basis basis_4 eps3 rhom_4_2.
Proof. exact (exact_basis_4). Qed.
Print Assumptions C06_rhom_4_2_id4_basis.
Theorem C06_rhom_4_2_id4_once : lists_each_superlattice_once (gram_of 4) rhom_4_2.
Proof. exact (lists_once _ _ exact_4 rhom_4_2_nodup). Qed.
Print Assumptions C06_rhom_4_2_id4_once.
Example C06_rhom_4_2_example : rhom_4_2 4 =
  [HNF 1 0 2 1 0 2; HNF 1 1 2 1 1 2].
Proof. vm_compute. reflexivity. Qed.

(** ** C06 [rhom_9_24] *)
Theorem C06_rhom_9_24_id9_exact : enumerates_exactly (gram_of 9) rhom_9_24.
Proof. exact (exact_9). Qed.
Print Assumptions C06_rhom_9_24_id9_exact.
Theorem C06_rhom_9_24_id9_basis : enumerates_for_basis basis_9 eps3 rhom_9_24.
Proof. exact (exact_basis_9). Qed.
Print Assumptions C06_rhom_9_24_id9_basis.
Theorem C06_rhom_9_24_id9_once : lists_each_superlattice_once (gram_of 9) rhom_9_24.
Proof. exact (lists_once _ _ exact_9 rhom_9_24_nodup). Qed.
Print Assumptions C06_rhom_9_24_id9_once.
Theorem C06_rhom_9_24_id24_exact : enumerates_exactly (gram_of 24) rhom_9_24.
Proof. exact (exact_24). Qed.
Print Assumptions C06_rhom_9_24_id24_exact.
Theorem C06_rhom_9_24_id24_basis : enumerates_for_basis basis_24 eps3 rhom_9_24.
Proof. exact (exact_basis_24). Qed.
Print Assumptions C06_rhom_9_24_id24_basis.
Theorem C06_rhom_9_24_id24_once : lists_each_superlattice_once (gram_of 24) rhom_9_24.
Proof. exact (lists_once _ _ exact_24 rhom_9_24_nodup). Qed.
Print Assumptions C06_rhom_9_24_id24_once.
Example C06_rhom_9_24_example : rhom_9_24 4 =
  [HNF 1 0 2 1 0 2; HNF 1 1 2 1 1 2].
Proof. vm_compute. reflexivity. Qed.

(** ** C07 [stet_11] *)
Theorem C07_stet_11_exact : enumerates_exactly (gram_of 11) stet_11.
Proof. exact (exact_11). Qed.
Print Assumptions C07_stet_11_exact.
Theorem C07_stet_11_basis : enumerates_for_basis basis_11 eps3 stet_11.
Proof. exact (exact_basis_11). Qed.
Print Assumptions C07_stet_11_basis.
Theorem C07_stet_11_once : lists_each_superlattice_once (gram_of 11) stet_11.
Proof. exact (lists_once _ _ exact_11 stet_11_nodup). Qed.
Print Assumptions C07_stet_11_once.
Example C07_stet_11_example : stet_11 2 =
  [HNF 1 0 1 0 0 2; HNF 1 0 1 1 1 2; HNF 1 1 2 0 0 1].
Proof. vm_compute. reflexivity. Qed.

(** ** C07 [stet_21] *)
Theorem C07_stet_21_exact : enumerates_exactly (gram_of 21) stet_21.
Proof. exact (exact_21). Qed.
Print Assumptions C07_stet_21_exact.
Theorem C07_stet_21_basis : enumerates_for_basis basis_21 eps3 stet_21.
Proof. exact (exact_basis_21). Qed.
Print Assumptions C07_stet_21_basis.
Theorem C07_stet_21_once : lists_each_superlattice_once (gram_of 21) stet_21.
Proof. exact (lists_once _ _ exact_21 stet_21_nodup). Qed.
Print Assumptions C07_stet_21_once.
Example C07_stet_21_example : stet_21 2 =
  [HNF 1 0 1 0 1 2; HNF 1 0 1 1 1 2; HNF 2 0 1 0 0 1].
Proof. vm_compute. reflexivity. Qed.

(** ** C08 [body_tet_6_7_15_18] *)
Theorem C08_body_tet_6_7_15_18_id6_exact : enumerates_exactly (gram_of 6) body_tet_6_7_15_18.
Proof. exact (exact_6). Qed.
Print Assumptions C08_body_tet_6_7_15_18_id6_exact.
Theorem C08_body_tet_6_7_15_18_id6_basis : enumerates_for_basis basis_6 eps3 body_tet_6_7_15_18.
Proof. exact (exact_basis_6). Qed.
Print Assumptions C08_body_tet_6_7_15_18_id6_basis.
Theorem C08_body_tet_6_7_15_18_id6_once : lists_each_superlattice_once (gram_of 6) body_tet_6_7_15_18.
Proof. exact (lists_once _ _ exact_6 body_tet_6_7_15_18_nodup). Qed.
Print Assumptions C08_body_tet_6_7_15_18_id6_once.
Theorem C08_body_tet_6_7_15_18_id7_exact : enumerates_exactly (gram_of 7) body_tet_6_7_15_18.
Proof. exact (exact_7). Qed.
Print Assumptions C08_body_tet_6_7_15_18_id7_exact.
Theorem C08_body_tet_6_7_15_18_id7_basis : enumerates_for_basis basis_7 eps3 body_tet_6_7_15_18.
Proof. exact (exact_basis_7). Qed.
Print Assumptions C08_body_tet_6_7_15_18_id7_basis.
Theorem C08_body_tet_6_7_15_18_id7_once : lists_each_superlattice_once (gram_of 7) body_tet_6_7_15_18.
Proof. exact (lists_once _ _ exact_7 body_tet_6_7_15_18_nodup). Qed.
Print Assumptions C08_body_tet_6_7_15_18_id7_once.
Theorem C08_body_tet_6_7_15_18_id15_exact : enumerates_exactly (gram_of 15) body_tet_6_7_15_18.
Proof. exact (exact_15). Qed.
Print Assumptions C08_body_tet_6_7_15_18_id15_exact.
Theorem C08_body_tet_6_7_15_18_id15_basis : enumerates_for_basis basis_15 eps3 body_tet_6_7_15_18.
Proof. exact (exact_basis_15). Qed.
Print Assumptions C08_body_tet_6_7_15_18_id15_basis.
Theorem C08_body_tet_6_7_15_18_id15_once : lists_each_superlattice_once (gram_of 15) body_tet_6_7_15_18.
Proof. exact (lists_once _ _ exact_15 body_tet_6_7_15_18_nodup). Qed.
Print Assumptions C08_body_tet_6_7_15_18_id15_once.
Theorem C08_body_tet_6_7_15_18_id18_exact : enumerates_exactly (gram_of 18) body_tet_6_7_15_18.
Proof. exact (exact_18). Qed.
Print Assumptions C08_body_tet_6_7_15_18_id18_exact.
Theorem C08_body_tet_6_7_15_18_id18_basis : enumerates_for_basis basis_18 eps3 body_tet_6_7_15_18.
Proof. exact (exact_basis_18). Qed.
Print Assumptions C08_body_tet_6_7_15_18_id18_basis.
Theorem C08_body_tet_6_7_15_18_id18_once : lists_each_superlattice_once (gram_of 18) body_tet_6_7_15_18.
Proof. exact (lists_once _ _ exact_18 body_tet_6_7_15_18_nodup). Qed.
Print Assumptions C08_body_tet_6_7_15_18_id18_once.
Example C08_body_tet_6_7_15_18_example : body_tet_6_7_15_18 9 =
  [HNF 1 1 3 1 0 3; HNF 9 0 1 0 0 1].
Proof. vm_compute. reflexivity. Qed.

(** ** C09 [so_32] *)
Theorem C09_so_32_exact : enumerates_exactly (gram_of 32) so_32.
Proof. exact (exact_32). Qed.
Print Assumptions C09_so_32_exact.
Theorem C09_so_32_basis : enumerates_for_basis basis_32 eps3 so_32.
Proof. exact (exact_basis_32). Qed.
Print Assumptions C09_so_32_basis.
Theorem C09_so_32_once : lists_each_superlattice_once (gram_of 32) so_32.
Proof. exact (lists_once _ _ exact_32 so_32_nodup). Qed.
Print Assumptions C09_so_32_once.
Example C09_so_32_example : so_32 2 =
  [HNF 1 0 1 0 0 2; HNF 1 0 1 1 0 2; HNF 1 0 1 0 1 2; HNF 1 0 1 1 1 2; HNF 1 0 2 0 0 1; HNF 1 1 2 0 0 1; HNF 2 0 1 0 0 1].
Proof. vm_compute. reflexivity. Qed.

(** ** C10 [base_ortho_23] *)
Theorem C10_base_ortho_23_exact : enumerates_exactly (gram_of 23) base_ortho_23.
Proof. exact (exact_23). Qed.
Print Assumptions C10_base_ortho_23_exact.
Theorem C10_base_ortho_23_basis : enumerates_for_basis basis_23 eps3 base_ortho_23.
Proof. exact (exact_basis_23). Qed.
Print Assumptions C10_base_ortho_23_basis.
Theorem C10_base_ortho_23_once : lists_each_superlattice_once (gram_of 23) base_ortho_23.
Proof. exact (lists_once _ _ exact_23 base_ortho_23_nodup). Qed.
Print Assumptions C10_base_ortho_23_once.
Example C10_base_ortho_23_example : base_ortho_23 2 =
  [HNF 1 0 1 1 0 2; HNF 1 0 1 1 1 2; HNF 1 0 2 0 0 1].
Proof. vm_compute. reflexivity. Qed.

(** ** C10 [base_ortho_36] *)
Theorem C10_base_ortho_36_exact : enumerates_exactly (gram_of 36) base_ortho_36.
Proof. exact (exact_36). Qed.
Print Assumptions C10_base_ortho_36_exact.
Theorem C10_base_ortho_36_basis : enumerates_for_basis basis_36 eps3 base_ortho_36.
Proof. exact (exact_basis_36). Qed.
Print Assumptions C10_base_ortho_36_basis.
Theorem C10_base_ortho_36_once : lists_each_superlattice_once (gram_of 36) base_ortho_36.
Proof. exact (lists_once _ _ exact_36 base_ortho_36_nodup). Qed.
Print Assumptions C10_base_ortho_36_once.
Example C10_base_ortho_36_example : base_ortho_36 2 =
  [HNF 1 0 1 0 0 2; HNF 1 0 1 0 1 2; HNF 1 0 2 0 0 1].
Proof. vm_compute. reflexivity. Qed.

(** ** C10 [base_ortho_38_13] *)
Theorem C10_base_ortho_38_13_id13_exact : enumerates_exactly (gram_of 13) base_ortho_38_13.
Proof. exact (exact_13). Qed.
Print Assumptions C10_base_ortho_38_13_id13_exact.
Theorem C10_base_ortho_38_13_id13_basis : enumerates_for_basis basis_13 eps3 base_ortho_38_13.
Proof. exact (exact_basis_13). Qed.
Print Assumptions C10_base_ortho_38_13_id13_basis.
Theorem C10_base_ortho_38_13_id13_once : lists_each_superlattice_once (gram_of 13) base_ortho_38_13.
Proof. exact (lists_once _ _ exact_13 base_ortho_38_13_nodup). Qed.
Print Assumptions C10_base_ortho_38_13_id13_once.
Theorem C10_base_ortho_38_13_id38_exact : enumerates_exactly (gram_of 38) base_ortho_38_13.
Proof. exact (exact_38). Qed.
Print Assumptions C10_base_ortho_38_13_id38_exact.
Theorem C10_base_ortho_38_13_id38_basis : enumerates_for_basis basis_38 eps3 base_ortho_38_13.
Proof. exact (exact_basis_38). Qed.
Print Assumptions C10_base_ortho_38_13_id38_basis.
Theorem C10_base_ortho_38_13_id38_once : lists_each_superlattice_once (gram_of 38) base_ortho_38_13.
Proof. exact (lists_once _ _ exact_38 base_ortho_38_13_nodup). Qed.
Print Assumptions C10_base_ortho_38_13_id38_once.
Example C10_base_ortho_38_13_example : base_ortho_38_13 2 =
  [HNF 1 0 1 0 0 2; HNF 1 0 1 1 1 2; HNF 1 1 2 0 0 1].
Proof. vm_compute. reflexivity. Qed.

(** ** C10 [base_ortho_40] *)
Theorem C10_base_ortho_40_exact : enumerates_exactly (gram_of 40) base_ortho_40.
Proof. exact (exact_40). Qed.
Print Assumptions C10_base_ortho_40_exact.
Theorem C10_base_ortho_40_basis : enumerates_for_basis basis_40 eps3 base_ortho_40.
Proof. exact (exact_basis_40). Qed.
Print Assumptions C10_base_ortho_40_basis.
Theorem C10_base_ortho_40_once : lists_each_superlattice_once (gram_of 40) base_ortho_40.
Proof. exact (lists_once _ _ exact_40 base_ortho_40_nodup). Qed.
Print Assumptions C10_base_ortho_40_once.
Example C10_base_ortho_40_example : base_ortho_40 2 =
  [HNF 1 0 1 0 0 2; HNF 1 0 1 1 0 2; HNF 2 0 1 0 0 1].
Proof. vm_compute. reflexivity. Qed.

(** ** C11 [body_ortho_19] *)
Theorem C11_body_ortho_19_exact : enumerates_exactly (gram_of 19) body_ortho_19.
Proof. exact (exact_19). Qed.
Print Assumptions C11_body_ortho_19_exact.
Theorem C11_body_ortho_19_basis : enumerates_for_basis basis_19 eps3 body_ortho_19.
Proof. exact (exact_basis_19). Qed.
Print Assumptions C11_body_ortho_19_basis.
Theorem C11_body_ortho_19_once : lists_each_superlattice_once (gram_of 19) body_ortho_19.
Proof. exact (lists_once _ _ exact_19 body_ortho_19_nodup). Qed.
Print Assumptions C11_body_ortho_19_once.
Example C11_body_ortho_19_example : body_ortho_19 3 =
  [HNF 1 0 1 1 0 3; HNF 1 1 3 0 0 1; HNF 3 0 1 0 0 1].
Proof. vm_compute. reflexivity. Qed.

(** ** C11 [body_ortho_42] *)
Theorem C11_body_ortho_42_exact : enumerates_exactly (gram_of 42) body_ortho_42.
Proof. exact (exact_42). Qed.
Print Assumptions C11_body_ortho_42_exact.
Theorem C11_body_ortho_42_basis : enumerates_for_basis basis_42 eps3 body_ortho_42.
Proof. exact (exact_basis_42). Qed.
Print Assumptions C11_body_ortho_42_basis.
Theorem C11_body_ortho_42_once : lists_each_superlattice_once (gram_of 42) body_ortho_42.
Proof. exact (lists_once _ _ exact_42 body_ortho_42_nodup). Qed.
Print Assumptions C11_body_ortho_42_once.
Example C11_body_ortho_42_example : body_ortho_42 3 =
  [HNF 1 0 1 2 0 3; HNF 1 2 3 0 0 1; HNF 3 0 1 0 0 1].
Proof. vm_compute. reflexivity. Qed.

(** ** C11 [body_ortho_8] *)
Theorem C11_body_ortho_8_exact : enumerates_exactly (gram_of 8) body_ortho_8.
Proof. exact (exact_8). Qed.
Print Assumptions C11_body_ortho_8_exact.
Theorem C11_body_ortho_8_basis : enumerates_for_basis basis_8 eps3 body_ortho_8.
Proof. exact (exact_basis_8). Qed.
Print Assumptions C11_body_ortho_8_basis.
Theorem C11_body_ortho_8_once : lists_each_superlattice_once (gram_of 8) body_ortho_8.
Proof. exact (lists_once _ _ exact_8 body_ortho_8_nodup). Qed.
Print Assumptions C11_body_ortho_8_once.
Example C11_body_ortho_8_example : body_ortho_8 3 =
  [HNF 1 0 1 1 0 3; HNF 1 0 1 1 1 3; HNF 3 0 1 0 0 1].
Proof. vm_compute. reflexivity. Qed.

(** ** C12 [face_ortho_16] *)
Theorem C12_face_ortho_16_exact : enumerates_exactly (gram_of 16) face_ortho_16.
Proof. exact (exact_16). Qed.
Print Assumptions C12_face_ortho_16_exact.
Theorem C12_face_ortho_16_basis : enumerates_for_basis basis_16 eps3 face_ortho_16.
Proof. exact (exact_basis_16). Qed.
Print Assumptions C12_face_ortho_16_basis.
Theorem C12_face_ortho_16_once : lists_each_superlattice_once (gram_of 16) face_ortho_16.
Proof. exact (lists_once _ _ exact_16 face_ortho_16_nodup). Qed.
Print Assumptions C12_face_ortho_16_once.
Example C12_face_ortho_16_example : face_ortho_16 2 =
  [HNF 1 1 2 0 0 1; HNF 1 0 2 0 0 1; HNF 2 0 1 0 0 1].
Proof. vm_compute. reflexivity. Qed.

(** ** C12 [face_ortho_26] *)
Theorem C12_face_ortho_26_exact : enumerates_exactly (gram_of 26) face_ortho_26.
Proof. exact (exact_26). Qed.
Print Assumptions C12_face_ortho_26_exact.
Theorem C12_face_ortho_26_basis : enumerates_for_basis basis_26 eps3 face_ortho_26.
Proof. exact (exact_basis_26). Qed.
Print Assumptions C12_face_ortho_26_basis.
Theorem C12_face_ortho_26_once : lists_each_superlattice_once (gram_of 26) face_ortho_26.
Proof. exact (lists_once _ _ exact_26 face_ortho_26_nodup). Qed.
Print Assumptions C12_face_ortho_26_once.
Example C12_face_ortho_26_example : face_ortho_26 2 =
  [HNF 1 0 2 0 0 1; HNF 1 1 2 0 0 1; HNF 2 0 1 0 0 1].
Proof. vm_compute. reflexivity. Qed.

(** ** C13 [sm_33] *)
Theorem C13_sm_33_exact : enumerates_exactly (gram_of 33) sm_33.
Proof. exact (exact_33). Qed.
Print Assumptions C13_sm_33_exact.
Theorem C13_sm_33_basis : enumerates_for_basis basis_33 eps3 sm_33.
Proof. exact (exact_basis_33). Qed.
Print Assumptions C13_sm_33_basis.
Theorem C13_sm_33_once : lists_each_superlattice_once (gram_of 33) sm_33.
Proof. exact (lists_once _ _ exact_33 sm_33_nodup). Qed.
Print Assumptions C13_sm_33_once.
Example C13_sm_33_example : sm_33 3 =
  [HNF 1 0 1 0 0 3; HNF 1 0 1 1 0 3; HNF 1 0 1 2 0 3; HNF 1 0 3 0 0 1; HNF 3 0 1 0 0 1].
Proof. vm_compute. reflexivity. Qed.

(** ** C13 [sm_34] *)
Theorem C13_sm_34_exact : enumerates_exactly (gram_of 34) sm_34.
Proof. exact (exact_34). Qed.
Print Assumptions C13_sm_34_exact.
Theorem C13_sm_34_basis : enumerates_for_basis basis_34 eps3 sm_34.
Proof. exact (exact_basis_34). Qed.
Print Assumptions C13_sm_34_basis.
Theorem C13_sm_34_once : lists_each_superlattice_once (gram_of 34) sm_34.
Proof. exact (lists_once _ _ exact_34 sm_34_nodup). Qed.
Print Assumptions C13_sm_34_once.
Example C13_sm_34_example : sm_34 3 =
  [HNF 1 0 1 0 0 3; HNF 1 0 3 0 0 1; HNF 1 1 3 0 0 1; HNF 1 2 3 0 0 1; HNF 3 0 1 0 0 1].
Proof. vm_compute. reflexivity. Qed.

(** ** C13 [sm_35] *)
Theorem C13_sm_35_exact : enumerates_exactly (gram_of 35) sm_35.
Proof. exact (exact_35). Qed.
Print Assumptions C13_sm_35_exact.
Theorem C13_sm_35_basis : enumerates_for_basis basis_35 eps3 sm_35.
Proof. exact (exact_basis_35). Qed.
Print Assumptions C13_sm_35_basis.
Theorem C13_sm_35_once : lists_each_superlattice_once (gram_of 35) sm_35.
Proof. exact (lists_once _ _ exact_35 sm_35_nodup). Qed.
Print Assumptions C13_sm_35_once.
Example C13_sm_35_example : sm_35 3 =
  [HNF 1 0 1 0 0 3; HNF 1 0 3 0 0 1; HNF 1 1 3 0 0 1; HNF 1 2 3 0 0 1; HNF 3 0 1 0 0 1].
Proof. vm_compute. reflexivity. Qed.

(** ** C14 [base_mono_10_14_17_27_37_39_41] *)
Theorem C14_base_mono_10_14_17_27_37_39_41_id10_exact : enumerates_exactly (gram_of 10) base_mono_10_14_17_27_37_39_41.
Proof. exact (exact_10). Qed.
Print Assumptions C14_base_mono_10_14_17_27_37_39_41_id10_exact.
Theorem C14_base_mono_10_14_17_27_37_39_41_id10_basis : enumerates_for_basis basis_10 eps3 base_mono_10_14_17_27_37_39_41.
Proof. exact (exact_basis_10). Qed.
Print Assumptions C14_base_mono_10_14_17_27_37_39_41_id10_basis.
Theorem C14_base_mono_10_14_17_27_37_39_41_id10_once : lists_each_superlattice_once (gram_of 10) base_mono_10_14_17_27_37_39_41.
Proof. exact (lists_once _ _ exact_10 base_mono_10_14_17_27_37_39_41_nodup). Qed.
Print Assumptions C14_base_mono_10_14_17_27_37_39_41_id10_once.
Theorem C14_base_mono_10_14_17_27_37_39_41_id14_exact : enumerates_exactly (gram_of 14) base_mono_10_14_17_27_37_39_41.
Proof. exact (exact_14). Qed.
Print Assumptions C14_base_mono_10_14_17_27_37_39_41_id14_exact.
Theorem C14_base_mono_10_14_17_27_37_39_41_id14_basis : enumerates_for_basis basis_14 eps3 base_mono_10_14_17_27_37_39_41.
Proof. exact (exact_basis_14). Qed.
Print Assumptions C14_base_mono_10_14_17_27_37_39_41_id14_basis.
Theorem C14_base_mono_10_14_17_27_37_39_41_id14_once : lists_each_superlattice_once (gram_of 14) base_mono_10_14_17_27_37_39_41.
Proof. exact (lists_once _ _ exact_14 base_mono_10_14_17_27_37_39_41_nodup). Qed.
Print Assumptions C14_base_mono_10_14_17_27_37_39_41_id14_once.
Theorem C14_base_mono_10_14_17_27_37_39_41_id17_exact : enumerates_exactly (gram_of 17) base_mono_10_14_17_27_37_39_41.
Proof. exact (exact_17). Qed.
Print Assumptions C14_base_mono_10_14_17_27_37_39_41_id17_exact.
Theorem C14_base_mono_10_14_17_27_37_39_41_id17_basis : enumerates_for_basis basis_17 eps3 base_mono_10_14_17_27_37_39_41.
Proof. exact (exact_basis_17). Qed.
Print Assumptions C14_base_mono_10_14_17_27_37_39_41_id17_basis.
Theorem C14_base_mono_10_14_17_27_37_39_41_id17_once : lists_each_superlattice_once (gram_of 17) base_mono_10_14_17_27_37_39_41.
Proof. exact (lists_once _ _ exact_17 base_mono_10_14_17_27_37_39_41_nodup). Qed.
Print Assumptions C14_base_mono_10_14_17_27_37_39_41_id17_once.
Theorem C14_base_mono_10_14_17_27_37_39_41_id27_exact : enumerates_exactly (gram_of 27) base_mono_10_14_17_27_37_39_41.
Proof. exact (exact_27). Qed.
Print Assumptions C14_base_mono_10_14_17_27_37_39_41_id27_exact.
Theorem C14_base_mono_10_14_17_27_37_39_41_id27_basis : enumerates_for_basis basis_27 eps3 base_mono_10_14_17_27_37_39_41.
Proof. exact (exact_basis_27). Qed.
Print Assumptions C14_base_mono_10_14_17_27_37_39_41_id27_basis.
Theorem C14_base_mono_10_14_17_27_37_39_41_id27_once : lists_each_superlattice_once (gram_of 27) base_mono_10_14_17_27_37_39_41.
Proof. exact (lists_once _ _ exact_27 base_mono_10_14_17_27_37_39_41_nodup). Qed.
Print Assumptions C14_base_mono_10_14_17_27_37_39_41_id27_once.
Theorem C14_base_mono_10_14_17_27_37_39_41_id37_exact : enumerates_exactly (gram_of 37) base_mono_10_14_17_27_37_39_41.
Proof. exact (exact_37). Qed.
Print Assumptions C14_base_mono_10_14_17_27_37_39_41_id37_exact.
Theorem C14_base_mono_10_14_17_27_37_39_41_id37_basis : enumerates_for_basis basis_37 eps3 base_mono_10_14_17_27_37_39_41.
Proof. exact (exact_basis_37). Qed.
Print Assumptions C14_base_mono_10_14_17_27_37_39_41_id37_basis.
Theorem C14_base_mono_10_14_17_27_37_39_41_id37_once : lists_each_superlattice_once (gram_of 37) base_mono_10_14_17_27_37_39_41.
Proof. exact (lists_once _ _ exact_37 base_mono_10_14_17_27_37_39_41_nodup). Qed.
Print Assumptions C14_base_mono_10_14_17_27_37_39_41_id37_once.
Theorem C14_base_mono_10_14_17_27_37_39_41_id39_exact : enumerates_exactly (gram_of 39) base_mono_10_14_17_27_37_39_41.
Proof. exact (exact_39). Qed.
Print Assumptions C14_base_mono_10_14_17_27_37_39_41_id39_exact.
Theorem C14_base_mono_10_14_17_27_37_39_41_id39_basis : enumerates_for_basis basis_39 eps3 base_mono_10_14_17_27_37_39_41.
Proof. exact (exact_basis_39). Qed.
Print Assumptions C14_base_mono_10_14_17_27_37_39_41_id39_basis.
Theorem C14_base_mono_10_14_17_27_37_39_41_id39_once : lists_each_superlattice_once (gram_of 39) base_mono_10_14_17_27_37_39_41.
Proof. exact (lists_once _ _ exact_39 base_mono_10_14_17_27_37_39_41_nodup). Qed.
Print Assumptions C14_base_mono_10_14_17_27_37_39_41_id39_once.
Theorem C14_base_mono_10_14_17_27_37_39_41_id41_exact : enumerates_exactly (gram_of 41) base_mono_10_14_17_27_37_39_41.
Proof. exact (exact_41). Qed.
Print Assumptions C14_base_mono_10_14_17_27_37_39_41_id41_exact.
Theorem C14_base_mono_10_14_17_27_37_39_41_id41_basis : enumerates_for_basis basis_41 eps3 base_mono_10_14_17_27_37_39_41.
Proof. exact (exact_basis_41). Qed.
Print Assumptions C14_base_mono_10_14_17_27_37_39_41_id41_basis.
Theorem C14_base_mono_10_14_17_27_37_39_41_id41_once : lists_each_superlattice_once (gram_of 41) base_mono_10_14_17_27_37_39_41.
Proof. exact (lists_once _ _ exact_41 base_mono_10_14_17_27_37_39_41_nodup). Qed.
Print Assumptions C14_base_mono_10_14_17_27_37_39_41_id41_once.
Example C14_base_mono_10_14_17_27_37_39_41_example : base_mono_10_14_17_27_37_39_41 2 =
  [HNF 1 0 2 0 0 1; HNF 1 1 2 0 0 1; HNF 2 0 1 0 0 1].
Proof. vm_compute. reflexivity. Qed.

(** ** C14 [base_mono_20_25] *)
Theorem C14_base_mono_20_25_id20_exact : enumerates_exactly (gram_of 20) base_mono_20_25.
Proof. exact (exact_20). Qed.
Print Assumptions C14_base_mono_20_25_id20_exact.
Theorem C14_base_mono_20_25_id20_basis : enumerates_for_basis basis_20 eps3 base_mono_20_25.
Proof. exact (exact_basis_20). Qed.
Print Assumptions C14_base_mono_20_25_id20_basis.
Theorem C14_base_mono_20_25_id20_once : lists_each_superlattice_once (gram_of 20) base_mono_20_25.
Proof. exact (lists_once _ _ exact_20 base_mono_20_25_nodup). Qed.
Print Assumptions C14_base_mono_20_25_id20_once.
Theorem C14_base_mono_20_25_id25_exact : enumerates_exactly (gram_of 25) base_mono_20_25.
Proof. exact (exact_25). Qed.
Print Assumptions C14_base_mono_20_25_id25_exact.
Theorem C14_base_mono_20_25_id25_basis : enumerates_for_basis basis_25 eps3 base_mono_20_25.
Proof. exact (exact_basis_25). Qed.
Print Assumptions C14_base_mono_20_25_id25_basis.
Theorem C14_base_mono_20_25_id25_once : lists_each_superlattice_once (gram_of 25) base_mono_20_25.
Proof. exact (lists_once _ _ exact_25 base_mono_20_25_nodup). Qed.
Print Assumptions C14_base_mono_20_25_id25_once.
Example C14_base_mono_20_25_example : base_mono_20_25 2 =
  [HNF 1 0 2 0 0 1; HNF 1 1 2 0 0 1; HNF 2 0 1 0 0 1].
Proof. vm_compute. reflexivity. Qed.

(** ** C14 [base_mono_28] *)
Theorem C14_base_mono_28_exact : enumerates_exactly (gram_of 28) base_mono_28.
Proof. exact (exact_28). Qed.
Print Assumptions C14_base_mono_28_exact.
Theorem C14_base_mono_28_basis : enumerates_for_basis basis_28 eps3 base_mono_28.
Proof. exact (exact_basis_28). Qed.
Print Assumptions C14_base_mono_28_basis.
Theorem C14_base_mono_28_once : lists_each_superlattice_once (gram_of 28) base_mono_28.
Proof. exact (lists_once _ _ exact_28 base_mono_28_nodup). Qed.
Print Assumptions C14_base_mono_28_once.
Example C14_base_mono_28_example : base_mono_28 2 =
  [HNF 1 0 1 0 0 2; HNF 1 0 1 1 0 2; HNF 2 0 1 0 0 1].
Proof. vm_compute. reflexivity. Qed.

(** ** C14 [base_mono_29_30] *)
Theorem C14_base_mono_29_30_id29_exact : enumerates_exactly (gram_of 29) base_mono_29_30.
Proof. exact (exact_29). Qed.
Print Assumptions C14_base_mono_29_30_id29_exact.
Theorem C14_base_mono_29_30_id29_basis : enumerates_for_basis basis_29 eps3 base_mono_29_30.
Proof. exact (exact_basis_29). Qed.
Print Assumptions C14_base_mono_29_30_id29_basis.
Theorem C14_base_mono_29_30_id29_once : lists_each_superlattice_once (gram_of 29) base_mono_29_30.
Proof. exact (lists_once _ _ exact_29 base_mono_29_30_nodup). Qed.
Print Assumptions C14_base_mono_29_30_id29_once.
Theorem C14_base_mono_29_30_id30_exact : enumerates_exactly (gram_of 30) base_mono_29_30.
Proof. exact (exact_30). Qed.
Print Assumptions C14_base_mono_29_30_id30_exact.
Theorem C14_base_mono_29_30_id30_basis : enumerates_for_basis basis_30 eps3 base_mono_29_30.
Proof. exact (exact_basis_30). Qed.
Print Assumptions C14_base_mono_29_30_id30_basis.
Theorem C14_base_mono_29_30_id30_once : lists_each_superlattice_once (gram_of 30) base_mono_29_30.
Proof. exact (lists_once _ _ exact_30 base_mono_29_30_nodup). Qed.
Print Assumptions C14_base_mono_29_30_id30_once.
Example C14_base_mono_29_30_example : base_mono_29_30 2 =
  [HNF 1 0 1 0 0 2; HNF 1 0 1 1 0 2; HNF 2 0 1 0 0 1].
Proof. vm_compute. reflexivity. Qed.

(** ** C14 [base_mono_43] *)
Theorem C14_base_mono_43_exact : enumerates_exactly (gram_of 43) base_mono_43.
Proof. exact (exact_43). Qed.
Print Assumptions C14_base_mono_43_exact.
Theorem C14_base_mono_43_basis : enumerates_for_basis basis_43 eps3 base_mono_43.
Proof. exact (exact_basis_43). Qed.
Print Assumptions C14_base_mono_43_basis.
Theorem C14_base_mono_43_once : lists_each_superlattice_once (gram_of 43) base_mono_43.
Proof. exact (lists_once _ _ exact_43 base_mono_43_nodup). Qed.
Print Assumptions C14_base_mono_43_once.
Example C14_base_mono_43_example : base_mono_43 2 =
  [HNF 1 0 1 0 0 2; HNF 1 0 1 1 0 2; HNF 2 0 1 0 0 1].
Proof. vm_compute. reflexivity. Qed.

(** ** Which sizes have a cubic grid (C02-C04) *)
Theorem C02_sc_3_nonempty : forall n,
  sc_3 n <> [] <-> exists k, 1 <= k /\ (n = k ^ 3 \/ n = 2 * k ^ 3 \/ n = 4 * k ^ 3).
Proof. exact sc_3_nonempty. Qed.
Print Assumptions C02_sc_3_nonempty.
Theorem C02_sc_3_single : forall n, (length (sc_3 n) <= 1)%nat.
Proof. exact sc_3_single. Qed.
Print Assumptions C02_sc_3_single.
Theorem C03_bcc_5_nonempty : forall n,
  bcc_5 n <> [] <-> exists k, 1 <= k /\ (n = k ^ 3 \/ n = 2 * k ^ 3 \/ n = 4 * k ^ 3).
Proof. exact bcc_5_nonempty. Qed.
Print Assumptions C03_bcc_5_nonempty.
Theorem C04_fcc_1_nonempty : forall n,
  fcc_1 n <> [] <-> exists k, 1 <= k /\ (n = k ^ 3 \/ n = 4 * k ^ 3 \/ n = 16 * k ^ 3).
Proof. exact fcc_1_nonempty. Qed.
Print Assumptions C04_fcc_1_nonempty.
Example C02_nonempty_example : sc_3 54 <> [] /\ sc_3 55 = [].
Proof. split; [discriminate | reflexivity]. Qed.

(** ** C15 Triclinic *)
Theorem C15_triclinic_exact : forall m n K,
  1 <= m -> (In K (triclinic_hnfs m n) <-> exists H, is_hnf n H /\ K = mscale m H).
Proof. exact triclinic_exact. Qed.
Print Assumptions C15_triclinic_exact.
Theorem C15_triclinic_nodup : forall m n, 1 <= m -> NoDup (triclinic_hnfs m n).
Proof. exact triclinic_nodup. Qed.
Print Assumptions C15_triclinic_nodup.
(** Every lattice is kept by inversion, so all HNFs are symmetry preserving for a
    lattice without further symmetry. *)
Theorem C15_inversion_preserves : forall H, preserves (mopp mid) H.
Proof. exact Proofs_enum_extra.inversion_preserves. Qed.
Print Assumptions C15_inversion_preserves.
Example C15_example : length (triclinic_hnfs 3 2) = 7%nat /\
  In (mscale 3 (HNF 1 0 1 1 1 2)) (triclinic_hnfs 3 2).
Proof. vm_compute. tauto. Qed.

(** ** C16 Canonical representatives *)
Theorem C16_hnf_unique : forall n n' H K,
  is_hnf n H -> is_hnf n' K -> same_lattice H K -> H = K.
Proof. exact hnf_unique. Qed.
Print Assumptions C16_hnf_unique.
Theorem C16_hnf_exists_unique : forall n M, 1 <= n -> Z.abs (mdet M) = n ->
  exists H, (is_hnf n H /\ same_lattice H M) /\
            forall K, is_hnf n K /\ same_lattice K M -> K = H.
Proof. exact hnf_exists_unique. Qed.
Print Assumptions C16_hnf_exists_unique.
Example C16_example : same_lattice (HNF 1 1 2 0 0 1) (Mat3 1 0 0 3 2 0 5 0 (-1)).
Proof. exact same_lattice_example. Qed.

(** The decimal bases are within 1e-4 of the integer Gram matrices used above. *)
Theorem C16_canonical_gram_close : forall k B,
  canonical_basis k = Some B -> gram_close B (gram_of k) (gram_scale k).
Proof. exact canonical_gram_close. Qed.
Print Assumptions C16_canonical_gram_close.
