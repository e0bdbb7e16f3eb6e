(** From generators to all symmetries: the enumerators are exact for the canonical
    lattices, both for the integer Gram matrices and for the decimal bases. *)
From Coq Require Import ZArith List Lia Bool.
From Verif Require Import Mat3 Spec PyNum PointGroup EnumTac NearSym Bases
  Model_sc Model_bcc Model_fcc Model_so Model_stet Model_hx Model_body_tet Model_body_ortho
  Model_sm Model_face_ortho Model_base_mono Model_rhom Model_base_ortho
  Proofs_mono Proofs_ortho Proofs_tet Proofs_hex Proofs_cubic.
Import ListNotations.
Open Scope Z_scope.

Ltac gram_tac rad L := eapply enum_from_gens with (r := rad) (k := 12%nat); [apply L | vm_compute; reflexivity].
Ltac basis_tac rad L := eapply enum_basis_from_gens with (r := rad) (k := 12%nat); [apply L | vm_compute; reflexivity].

Lemma exact_1 : enumerates_exactly (gram_of 1) fcc_1.
Proof. gram_tac 2%nat fcc_1_gens. Qed.
Lemma exact_basis_1 : enumerates_for_basis basis_1 eps3 fcc_1.
Proof. basis_tac 2%nat fcc_1_gens. Qed.
Lemma exact_2 : enumerates_exactly (gram_of 2) rhom_4_2.
Proof. gram_tac 2%nat rhom_4_2_gens. Qed.
Lemma exact_basis_2 : enumerates_for_basis basis_2 eps3 rhom_4_2.
Proof. basis_tac 2%nat rhom_4_2_gens. Qed.
Lemma exact_3 : enumerates_exactly (gram_of 3) sc_3.
Proof. gram_tac 2%nat sc_3_gens. Qed.
Lemma exact_basis_3 : enumerates_for_basis basis_3 eps3 sc_3.
Proof. basis_tac 2%nat sc_3_gens. Qed.
Lemma exact_4 : enumerates_exactly (gram_of 4) rhom_4_2.
Proof. gram_tac 2%nat rhom_4_2_gens. Qed.
Lemma exact_basis_4 : enumerates_for_basis basis_4 eps3 rhom_4_2.
Proof. basis_tac 2%nat rhom_4_2_gens. Qed.
Lemma exact_5 : enumerates_exactly (gram_of 5) bcc_5.
Proof. gram_tac 2%nat bcc_5_gens. Qed.
Lemma exact_basis_5 : enumerates_for_basis basis_5 eps3 bcc_5.
Proof. basis_tac 2%nat bcc_5_gens. Qed.
Lemma exact_6 : enumerates_exactly (gram_of 6) body_tet_6_7_15_18.
Proof. gram_tac 2%nat body_tet_gens. Qed.
Lemma exact_basis_6 : enumerates_for_basis basis_6 eps3 body_tet_6_7_15_18.
Proof. basis_tac 2%nat body_tet_gens. Qed.
Lemma exact_7 : enumerates_exactly (gram_of 7) body_tet_6_7_15_18.
Proof. gram_tac 2%nat body_tet_gens. Qed.
Lemma exact_basis_7 : enumerates_for_basis basis_7 eps3 body_tet_6_7_15_18.
Proof. basis_tac 2%nat body_tet_gens. Qed.
Lemma exact_8 : enumerates_exactly (gram_of 8) body_ortho_8.
Proof. gram_tac 2%nat body_ortho_8_gens. Qed.
Lemma exact_basis_8 : enumerates_for_basis basis_8 eps3 body_ortho_8.
Proof. basis_tac 2%nat body_ortho_8_gens. Qed.
Lemma exact_9 : enumerates_exactly (gram_of 9) rhom_9_24.
Proof. gram_tac 8%nat rhom_9_24_gens. Qed.
Lemma exact_basis_9 : enumerates_for_basis basis_9 eps3 rhom_9_24.
Proof. basis_tac 8%nat rhom_9_24_gens. Qed.
Lemma exact_10 : enumerates_exactly (gram_of 10) base_mono_10_14_17_27_37_39_41.
Proof. gram_tac 2%nat base_mono_10_gens. Qed.
Lemma exact_basis_10 : enumerates_for_basis basis_10 eps3 base_mono_10_14_17_27_37_39_41.
Proof. basis_tac 2%nat base_mono_10_gens. Qed.
Lemma exact_11 : enumerates_exactly (gram_of 11) stet_11.
Proof. gram_tac 2%nat stet_11_gens. Qed.
Lemma exact_basis_11 : enumerates_for_basis basis_11 eps3 stet_11.
Proof. basis_tac 2%nat stet_11_gens. Qed.
Lemma exact_12 : enumerates_exactly (gram_of 12) hex_12.
Proof. gram_tac 2%nat hex_12_gens. Qed.
Lemma exact_basis_12 : enumerates_for_basis basis_12 eps3 hex_12.
Proof. basis_tac 2%nat hex_12_gens. Qed.
Lemma exact_13 : enumerates_exactly (gram_of 13) base_ortho_38_13.
Proof. gram_tac 2%nat base_ortho_38_13_gens. Qed.
Lemma exact_basis_13 : enumerates_for_basis basis_13 eps3 base_ortho_38_13.
Proof. basis_tac 2%nat base_ortho_38_13_gens. Qed.
Lemma exact_14 : enumerates_exactly (gram_of 14) base_mono_10_14_17_27_37_39_41.
Proof. gram_tac 2%nat base_mono_10_gens. Qed.
Lemma exact_basis_14 : enumerates_for_basis basis_14 eps3 base_mono_10_14_17_27_37_39_41.
Proof. basis_tac 2%nat base_mono_10_gens. Qed.
Lemma exact_15 : enumerates_exactly (gram_of 15) body_tet_6_7_15_18.
Proof. gram_tac 2%nat body_tet_gens. Qed.
Lemma exact_basis_15 : enumerates_for_basis basis_15 eps3 body_tet_6_7_15_18.
Proof. basis_tac 2%nat body_tet_gens. Qed.
Lemma exact_16 : enumerates_exactly (gram_of 16) face_ortho_16.
Proof. gram_tac 2%nat face_ortho_16_gens. Qed.
Lemma exact_basis_16 : enumerates_for_basis basis_16 eps3 face_ortho_16.
Proof. basis_tac 2%nat face_ortho_16_gens. Qed.
Lemma exact_17 : enumerates_exactly (gram_of 17) base_mono_10_14_17_27_37_39_41.
Proof. gram_tac 2%nat base_mono_10_gens. Qed.
Lemma exact_basis_17 : enumerates_for_basis basis_17 eps3 base_mono_10_14_17_27_37_39_41.
Proof. basis_tac 2%nat base_mono_10_gens. Qed.
Lemma exact_18 : enumerates_exactly (gram_of 18) body_tet_6_7_15_18.
Proof. gram_tac 3%nat body_tet_gens. Qed.
Lemma exact_basis_18 : enumerates_for_basis basis_18 eps3 body_tet_6_7_15_18.
Proof. basis_tac 3%nat body_tet_gens. Qed.
Lemma exact_19 : enumerates_exactly (gram_of 19) body_ortho_19.
Proof. gram_tac 6%nat body_ortho_19_gens. Qed.
Lemma exact_basis_19 : enumerates_for_basis basis_19 eps3 body_ortho_19.
Proof. basis_tac 6%nat body_ortho_19_gens. Qed.
Lemma exact_20 : enumerates_exactly (gram_of 20) base_mono_20_25.
Proof. gram_tac 2%nat base_mono_20_25_gens. Qed.
Lemma exact_basis_20 : enumerates_for_basis basis_20 eps3 base_mono_20_25.
Proof. basis_tac 2%nat base_mono_20_25_gens. Qed.
Lemma exact_21 : enumerates_exactly (gram_of 21) stet_21.
Proof. gram_tac 2%nat stet_21_gens. Qed.
Lemma exact_basis_21 : enumerates_for_basis basis_21 eps3 stet_21.
Proof. basis_tac 2%nat stet_21_gens. Qed.
Lemma exact_22 : enumerates_exactly (gram_of 22) hex_22.
Proof. gram_tac 2%nat hex_22_gens. Qed.
Lemma exact_basis_22 : enumerates_for_basis basis_22 eps3 hex_22.
Proof. basis_tac 2%nat hex_22_gens. Qed.
Lemma exact_23 : enumerates_exactly (gram_of 23) base_ortho_23.
Proof. gram_tac 2%nat base_ortho_23_gens. Qed.
Lemma exact_basis_23 : enumerates_for_basis basis_23 eps3 base_ortho_23.
Proof. basis_tac 2%nat base_ortho_23_gens. Qed.
Lemma exact_24 : enumerates_exactly (gram_of 24) rhom_9_24.
Proof. gram_tac 2%nat rhom_9_24_gens. Qed.
Lemma exact_basis_24 : enumerates_for_basis basis_24 eps3 rhom_9_24.
Proof. basis_tac 2%nat rhom_9_24_gens. Qed.
Lemma exact_25 : enumerates_exactly (gram_of 25) base_mono_20_25.
Proof. gram_tac 2%nat base_mono_20_25_gens. Qed.
Lemma exact_basis_25 : enumerates_for_basis basis_25 eps3 base_mono_20_25.
Proof. basis_tac 2%nat base_mono_20_25_gens. Qed.
Lemma exact_26 : enumerates_exactly (gram_of 26) face_ortho_26.
Proof. gram_tac 6%nat face_ortho_26_gens. Qed.
Lemma exact_basis_26 : enumerates_for_basis basis_26 eps3 face_ortho_26.
Proof. basis_tac 6%nat face_ortho_26_gens. Qed.
Lemma exact_27 : enumerates_exactly (gram_of 27) base_mono_10_14_17_27_37_39_41.
Proof. gram_tac 2%nat base_mono_10_gens. Qed.
Lemma exact_basis_27 : enumerates_for_basis basis_27 eps3 base_mono_10_14_17_27_37_39_41.
Proof. basis_tac 2%nat base_mono_10_gens. Qed.
Lemma exact_28 : enumerates_exactly (gram_of 28) base_mono_28.
Proof. gram_tac 2%nat base_mono_28_gens. Qed.
Lemma exact_basis_28 : enumerates_for_basis basis_28 eps3 base_mono_28.
Proof. basis_tac 2%nat base_mono_28_gens. Qed.
Lemma exact_29 : enumerates_exactly (gram_of 29) base_mono_29_30.
Proof. gram_tac 2%nat base_mono_29_30_gens. Qed.
Lemma exact_basis_29 : enumerates_for_basis basis_29 eps3 base_mono_29_30.
Proof. basis_tac 2%nat base_mono_29_30_gens. Qed.
Lemma exact_30 : enumerates_exactly (gram_of 30) base_mono_29_30.
Proof. gram_tac 2%nat base_mono_29_30_gens. Qed.
Lemma exact_basis_30 : enumerates_for_basis basis_30 eps3 base_mono_29_30.
Proof. basis_tac 2%nat base_mono_29_30_gens. Qed.
Lemma exact_32 : enumerates_exactly (gram_of 32) so_32.
Proof. gram_tac 3%nat so_32_gens. Qed.
Lemma exact_basis_32 : enumerates_for_basis basis_32 eps3 so_32.
Proof. basis_tac 3%nat so_32_gens. Qed.
Lemma exact_33 : enumerates_exactly (gram_of 33) sm_33.
Proof. gram_tac 2%nat sm_33_gens. Qed.
Lemma exact_basis_33 : enumerates_for_basis basis_33 eps3 sm_33.
Proof. basis_tac 2%nat sm_33_gens. Qed.
Lemma exact_34 : enumerates_exactly (gram_of 34) sm_34.
Proof. gram_tac 2%nat sm_34_gens. Qed.
Lemma exact_basis_34 : enumerates_for_basis basis_34 eps3 sm_34.
Proof. basis_tac 2%nat sm_34_gens. Qed.
Lemma exact_35 : enumerates_exactly (gram_of 35) sm_35.
Proof. gram_tac 2%nat sm_35_gens. Qed.
Lemma exact_basis_35 : enumerates_for_basis basis_35 eps3 sm_35.
Proof. basis_tac 2%nat sm_35_gens. Qed.
Lemma exact_36 : enumerates_exactly (gram_of 36) base_ortho_36.
Proof. gram_tac 2%nat base_ortho_36_gens. Qed.
Lemma exact_basis_36 : enumerates_for_basis basis_36 eps3 base_ortho_36.
Proof. basis_tac 2%nat base_ortho_36_gens. Qed.
Lemma exact_37 : enumerates_exactly (gram_of 37) base_mono_10_14_17_27_37_39_41.
Proof. gram_tac 2%nat base_mono_10_gens. Qed.
Lemma exact_basis_37 : enumerates_for_basis basis_37 eps3 base_mono_10_14_17_27_37_39_41.
Proof. basis_tac 2%nat base_mono_10_gens. Qed.
Lemma exact_38 : enumerates_exactly (gram_of 38) base_ortho_38_13.
Proof. gram_tac 3%nat base_ortho_38_13_gens. Qed.
Lemma exact_basis_38 : enumerates_for_basis basis_38 eps3 base_ortho_38_13.
Proof. basis_tac 3%nat base_ortho_38_13_gens. Qed.
Lemma exact_39 : enumerates_exactly (gram_of 39) base_mono_10_14_17_27_37_39_41.
Proof. gram_tac 2%nat base_mono_10_gens. Qed.
Lemma exact_basis_39 : enumerates_for_basis basis_39 eps3 base_mono_10_14_17_27_37_39_41.
Proof. basis_tac 2%nat base_mono_10_gens. Qed.
Lemma exact_40 : enumerates_exactly (gram_of 40) base_ortho_40.
Proof. gram_tac 2%nat base_ortho_40_gens. Qed.
Lemma exact_basis_40 : enumerates_for_basis basis_40 eps3 base_ortho_40.
Proof. basis_tac 2%nat base_ortho_40_gens. Qed.
Lemma exact_41 : enumerates_exactly (gram_of 41) base_mono_10_14_17_27_37_39_41.
Proof. gram_tac 2%nat base_mono_10_gens. Qed.
Lemma exact_basis_41 : enumerates_for_basis basis_41 eps3 base_mono_10_14_17_27_37_39_41.
Proof. basis_tac 2%nat base_mono_10_gens. Qed.
Lemma exact_42 : enumerates_exactly (gram_of 42) body_ortho_42.
Proof. gram_tac 2%nat body_ortho_42_gens. Qed.
Lemma exact_basis_42 : enumerates_for_basis basis_42 eps3 body_ortho_42.
Proof. basis_tac 2%nat body_ortho_42_gens. Qed.
Lemma exact_43 : enumerates_exactly (gram_of 43) base_mono_43.
Proof. gram_tac 2%nat base_mono_43_gens. Qed.
Lemma exact_basis_43 : enumerates_for_basis basis_43 eps3 base_mono_43.
Proof. basis_tac 2%nat base_mono_43_gens. Qed.

Lemma gram_close_dec B G s :
  (let D := gram B in
   let ok x y := Z.abs (s * x - 10 ^ 32 * y) <=? s * 10 ^ 28 in
   ok (m11 D) (m11 G) && ok (m12 D) (m12 G) && ok (m13 D) (m13 G) &&
   ok (m21 D) (m21 G) && ok (m22 D) (m22 G) && ok (m23 D) (m23 G) &&
   ok (m31 D) (m31 G) && ok (m32 D) (m32 G) && ok (m33 D) (m33 G)) = true ->
  gram_close B G s.
Proof.
  unfold gram_close. cbv zeta. rewrite !andb_true_iff, !Z.leb_le. tauto.
Qed.

Lemma canonical_gram_close k B :
  canonical_basis k = Some B -> gram_close B (gram_of k) (gram_scale k).
Proof.
  intros H.
  assert (Hk : In k lattice_numbers).
  { unfold canonical_basis in H. unfold lattice_numbers.
    repeat match type of H with
    | context [match ?x with _ => _ end] => destruct x; try discriminate H
    end; cbn [In]; tauto. }
  unfold lattice_numbers in Hk. cbn [In] in Hk.
  repeat destruct Hk as [<-|Hk]; try destruct Hk;
    (injection H as <-; apply gram_close_dec; vm_compute; reflexivity).
Qed.
