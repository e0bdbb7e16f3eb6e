(** The Fortran enumerators: exactness, no repetitions, agreement with the Python code. *)
From Coq Require Import ZArith List Lia Bool Permutation.
From Verif Require Import Mat3 Spec PyNum Model_diag PyNumFacts Model_universal
  Model_sc Model_bcc Model_fcc Model_so Model_stet Model_hx Model_body_tet Model_body_ortho
  Model_sm Model_face_ortho Model_base_mono Model_rhom Model_base_ortho Bases HnfTheory
  Model_sp_hnfs FortFacts Proofs_mono Proofs_ortho Proofs_tet Proofs_hex Proofs_cubic
  Proofs_enum Proofs_nodup Proofs_enum_extra Proofs_sp_hnfs1 Proofs_sp_hnfs2.
From Verif Require EnumTac.
Import ListNotations.
Open Scope Z_scope.

(** ** No repetitions *)

Lemma NoDup_do_range lo hi step : 0 < step -> NoDup (do_range lo hi step).
Proof. apply NoDup_py_range. Qed.
Lemma NoDup_do_while hi step : 0 < step -> NoDup (do_while hi step).
Proof. apply NoDup_py_range. Qed.
Lemma NoDup_f_halves c : 1 <= c -> NoDup (f_halves c).
Proof. intros H. rewrite f_halves_py by assumption. now apply NoDup_halves. Qed.
Lemma NoDup_f_halves_rev c : 1 <= c -> NoDup (f_halves_rev c).
Proof.
  intros H. pose proof (NoDup_f_halves c H) as D. unfold f_halves_rev, f_halves in *.
  destruct (rem0 c 2); [|exact D]. inversion D as [|x l Hx HD]; subst.
  constructor; [|constructor; [easy|constructor]].
  cbn [In] in *. intros [E|[]]. apply Hx. left. now symmetry.
Qed.

Ltac fnd_list :=
  first [ apply NoDup_do_range; lia | apply NoDup_do_while; lia | apply NoDup_f_halves; lia
        | apply NoDup_f_halves_rev; lia ].
Ltac fnd_body :=
  cbv zeta;
  match goal with
  | |- NoDup (py_if _ _) => apply NoDup_py_if; fnd_body
  | |- NoDup (py_for _ _) =>
      first [ apply NoDup_py_for with (key := m21);
                [ fnd_list | intros; fnd_body | let H := fresh in intros ? ? _ H; nd_decode H ]
            | apply NoDup_py_for with (key := m31);
                [ fnd_list | intros; fnd_body | let H := fresh in intros ? ? _ H; nd_decode H ]
            | apply NoDup_py_for with (key := m32);
                [ fnd_list | intros; fnd_body | let H := fresh in intros ? ? _ H; nd_decode H ] ]
  | |- NoDup (_ :: nil) => apply NoDup_one
  end.
Ltac fnd_enum :=
  apply NoDup_py_for with (key := fun H => (m11 H, m22 H, m33 H));
  [ rewrite f_diagonals_py; apply NoDup_diagonals
  | intros [[a c] f] Hd; apply in_f_diagonals in Hd; destruct Hd as (Ha & Hc & Hf & _); fnd_body
  | let H := fresh in intros [[a c] f] ? _ H; nd_decode H ].

Lemma cubic_nodup o : NoDup (cubic_all o).
Proof. unfold cubic_all. destruct (negb _); [apply NoDup_one|constructor]. Qed.
Lemma f_basecm_10_14_17_27_37_39_41_nodup n : NoDup (f_basecm_10_14_17_27_37_39_41 n).
Proof. unfold f_basecm_10_14_17_27_37_39_41. fnd_enum. Qed.
Lemma f_basecm_20_25_nodup n : NoDup (f_basecm_20_25 n).
Proof. unfold f_basecm_20_25. fnd_enum. Qed.
Lemma f_basecm_28_nodup n : NoDup (f_basecm_28 n).
Proof. unfold f_basecm_28. fnd_enum. Qed.
Lemma f_basecm_29_30_nodup n : NoDup (f_basecm_29_30 n).
Proof. unfold f_basecm_29_30. fnd_enum. Qed.
Lemma f_basecm_43_nodup n : NoDup (f_basecm_43 n).
Proof. unfold f_basecm_43. fnd_enum. Qed.
Lemma f_baseco_23_nodup n : NoDup (f_baseco_23 n).
Proof. unfold f_baseco_23. fnd_enum. Qed.
Lemma f_baseco_36_nodup n : NoDup (f_baseco_36 n).
Proof. unfold f_baseco_36. fnd_enum. Qed.
Lemma f_baseco_38_13_nodup n : NoDup (f_baseco_38_13 n).
Proof. unfold f_baseco_38_13. fnd_enum. Qed.
Lemma f_baseco_40_nodup n : NoDup (f_baseco_40 n).
Proof. unfold f_baseco_40. fnd_enum. Qed.
Lemma f_bcc_5_nodup n : NoDup (f_bcc_5 n).
Proof. apply cubic_nodup. Qed.
Lemma f_bco_19_nodup n : NoDup (f_bco_19 n).
Proof. unfold f_bco_19. fnd_enum. Qed.
Lemma f_bco_42_nodup n : NoDup (f_bco_42 n).
Proof. unfold f_bco_42. fnd_enum. Qed.
Lemma f_bco_8_nodup n : NoDup (f_bco_8 n).
Proof. unfold f_bco_8. fnd_enum. Qed.
Lemma f_bct_6_7_15_18_nodup n : NoDup (f_bct_6_7_15_18 n).
Proof. unfold f_bct_6_7_15_18. fnd_enum. Qed.
Lemma f_fcc_1_nodup n : NoDup (f_fcc_1 n).
Proof. apply cubic_nodup. Qed.
Lemma f_fco_16_nodup n : NoDup (f_fco_16 n).
Proof. unfold f_fco_16. fnd_enum. Qed.
Lemma f_fco_26_nodup n : NoDup (f_fco_26 n).
Proof. unfold f_fco_26. fnd_enum. Qed.
Lemma f_hex_12_nodup n : NoDup (f_hex_12 n).
Proof. unfold f_hex_12. fnd_enum. Qed.
Lemma f_hex_22_nodup n : NoDup (f_hex_22 n).
Proof. unfold f_hex_22. fnd_enum. Qed.
Lemma f_rhom_4_2_nodup n : NoDup (f_rhom_4_2 n).
Proof. unfold f_rhom_4_2. fnd_enum. Qed.
Lemma f_rhom_9_24_nodup n : NoDup (f_rhom_9_24 n).
Proof. unfold f_rhom_9_24. fnd_enum. Qed.
Lemma f_sc_3_nodup n : NoDup (f_sc_3 n).
Proof. apply cubic_nodup. Qed.
Lemma f_sm_33_nodup n : NoDup (f_sm_33 n).
Proof. unfold f_sm_33. fnd_enum. Qed.
Lemma f_sm_34_35_nodup n : NoDup (f_sm_34_35 n).
Proof. unfold f_sm_34_35. fnd_enum. Qed.
Lemma f_so_32_nodup n : NoDup (f_so_32 n).
Proof. unfold f_so_32. fnd_enum. Qed.
Lemma f_st_11_nodup n : NoDup (f_st_11 n).
Proof. unfold f_st_11. fnd_enum. Qed.
Lemma f_st_21_nodup n : NoDup (f_st_21 n).
Proof. unfold f_st_21. fnd_enum. Qed.

(** ** The same HNFs as the Python enumerators *)

Lemma gens_same gens e1 e2 : EnumTac.enumerates_gens gens e1 -> EnumTac.enumerates_gens gens e2 ->
  forall n H, In H (e1 n) <-> In H (e2 n).
Proof. intros H1 H2 n H. rewrite (H1 n H), (H2 n H). reflexivity. Qed.

Lemma agree (e1 e2 : Z -> list mat3) n :
  (forall H, In H (e1 n) <-> In H (e2 n)) -> NoDup (e1 n) -> NoDup (e2 n) ->
  Permutation (e1 n) (e2 n).
Proof. intros HS N1 N2. now apply NoDup_Permutation. Qed.

Lemma f_fcc_1_in_fcc_1 n H : In H (f_fcc_1 n) <-> In H (fcc_1 n).
Proof. exact (gens_same _ _ _ f_fcc_1_gens fcc_1_gens n H). Qed.
Lemma f_fcc_1_agrees_fcc_1 n : Permutation (f_fcc_1 n) (fcc_1 n).
Proof. apply agree; [apply f_fcc_1_in_fcc_1|apply f_fcc_1_nodup|apply fcc_1_nodup]. Qed.
Lemma f_rhom_4_2_in_rhom_4_2 n H : In H (f_rhom_4_2 n) <-> In H (rhom_4_2 n).
Proof. exact (gens_same _ _ _ f_rhom_4_2_gens rhom_4_2_gens n H). Qed.
Lemma f_rhom_4_2_agrees_rhom_4_2 n : Permutation (f_rhom_4_2 n) (rhom_4_2 n).
Proof. apply agree; [apply f_rhom_4_2_in_rhom_4_2|apply f_rhom_4_2_nodup|apply rhom_4_2_nodup]. Qed.
Lemma f_sc_3_in_sc_3 n H : In H (f_sc_3 n) <-> In H (sc_3 n).
Proof. exact (gens_same _ _ _ f_sc_3_gens sc_3_gens n H). Qed.
Lemma f_sc_3_agrees_sc_3 n : Permutation (f_sc_3 n) (sc_3 n).
Proof. apply agree; [apply f_sc_3_in_sc_3|apply f_sc_3_nodup|apply sc_3_nodup]. Qed.
Lemma f_bcc_5_in_bcc_5 n H : In H (f_bcc_5 n) <-> In H (bcc_5 n).
Proof. exact (gens_same _ _ _ f_bcc_5_gens bcc_5_gens n H). Qed.
Lemma f_bcc_5_agrees_bcc_5 n : Permutation (f_bcc_5 n) (bcc_5 n).
Proof. apply agree; [apply f_bcc_5_in_bcc_5|apply f_bcc_5_nodup|apply bcc_5_nodup]. Qed.
Lemma f_bct_6_7_15_18_in_body_tet_6_7_15_18 n H : In H (f_bct_6_7_15_18 n) <-> In H (body_tet_6_7_15_18 n).
Proof. exact (gens_same _ _ _ f_bct_gens body_tet_gens n H). Qed.
Lemma f_bct_6_7_15_18_agrees_body_tet_6_7_15_18 n : Permutation (f_bct_6_7_15_18 n) (body_tet_6_7_15_18 n).
Proof. apply agree; [apply f_bct_6_7_15_18_in_body_tet_6_7_15_18|apply f_bct_6_7_15_18_nodup|apply body_tet_6_7_15_18_nodup]. Qed.
Lemma f_bco_8_in_body_ortho_8 n H : In H (f_bco_8 n) <-> In H (body_ortho_8 n).
Proof. exact (gens_same _ _ _ f_bco_8_gens body_ortho_8_gens n H). Qed.
Lemma f_bco_8_agrees_body_ortho_8 n : Permutation (f_bco_8 n) (body_ortho_8 n).
Proof. apply agree; [apply f_bco_8_in_body_ortho_8|apply f_bco_8_nodup|apply body_ortho_8_nodup]. Qed.
Lemma f_rhom_9_24_in_rhom_9_24 n H : In H (f_rhom_9_24 n) <-> In H (rhom_9_24 n).
Proof. exact (gens_same _ _ _ f_rhom_9_24_gens rhom_9_24_gens n H). Qed.
Lemma f_rhom_9_24_agrees_rhom_9_24 n : Permutation (f_rhom_9_24 n) (rhom_9_24 n).
Proof. apply agree; [apply f_rhom_9_24_in_rhom_9_24|apply f_rhom_9_24_nodup|apply rhom_9_24_nodup]. Qed.
Lemma f_basecm_10_14_17_27_37_39_41_in_base_mono_10_14_17_27_37_39_41 n H : In H (f_basecm_10_14_17_27_37_39_41 n) <-> In H (base_mono_10_14_17_27_37_39_41 n).
Proof. exact (gens_same _ _ _ f_basecm_10_gens base_mono_10_gens n H). Qed.
Lemma f_basecm_10_14_17_27_37_39_41_agrees_base_mono_10_14_17_27_37_39_41 n : Permutation (f_basecm_10_14_17_27_37_39_41 n) (base_mono_10_14_17_27_37_39_41 n).
Proof. apply agree; [apply f_basecm_10_14_17_27_37_39_41_in_base_mono_10_14_17_27_37_39_41|apply f_basecm_10_14_17_27_37_39_41_nodup|apply base_mono_10_14_17_27_37_39_41_nodup]. Qed.
Lemma f_st_11_in_stet_11 n H : In H (f_st_11 n) <-> In H (stet_11 n).
Proof. exact (gens_same _ _ _ f_st_11_gens stet_11_gens n H). Qed.
Lemma f_st_11_agrees_stet_11 n : Permutation (f_st_11 n) (stet_11 n).
Proof. apply agree; [apply f_st_11_in_stet_11|apply f_st_11_nodup|apply stet_11_nodup]. Qed.
Lemma f_hex_12_in_hex_12 n H : In H (f_hex_12 n) <-> In H (hex_12 n).
Proof. exact (gens_same _ _ _ f_hex_12_gens hex_12_gens n H). Qed.
Lemma f_hex_12_agrees_hex_12 n : Permutation (f_hex_12 n) (hex_12 n).
Proof. apply agree; [apply f_hex_12_in_hex_12|apply f_hex_12_nodup|apply hex_12_nodup]. Qed.
Lemma f_baseco_38_13_in_base_ortho_38_13 n H : In H (f_baseco_38_13 n) <-> In H (base_ortho_38_13 n).
Proof. exact (gens_same _ _ _ f_baseco_38_13_gens base_ortho_38_13_gens n H). Qed.
Lemma f_baseco_38_13_agrees_base_ortho_38_13 n : Permutation (f_baseco_38_13 n) (base_ortho_38_13 n).
Proof. apply agree; [apply f_baseco_38_13_in_base_ortho_38_13|apply f_baseco_38_13_nodup|apply base_ortho_38_13_nodup]. Qed.
Lemma f_fco_16_in_face_ortho_16 n H : In H (f_fco_16 n) <-> In H (face_ortho_16 n).
Proof. exact (gens_same _ _ _ f_fco_16_gens face_ortho_16_gens n H). Qed.
Lemma f_fco_16_agrees_face_ortho_16 n : Permutation (f_fco_16 n) (face_ortho_16 n).
Proof. apply agree; [apply f_fco_16_in_face_ortho_16|apply f_fco_16_nodup|apply face_ortho_16_nodup]. Qed.
Lemma f_bco_19_in_body_ortho_19 n H : In H (f_bco_19 n) <-> In H (body_ortho_19 n).
Proof. exact (gens_same _ _ _ f_bco_19_gens body_ortho_19_gens n H). Qed.
Lemma f_bco_19_agrees_body_ortho_19 n : Permutation (f_bco_19 n) (body_ortho_19 n).
Proof. apply agree; [apply f_bco_19_in_body_ortho_19|apply f_bco_19_nodup|apply body_ortho_19_nodup]. Qed.
Lemma f_basecm_20_25_in_base_mono_20_25 n H : In H (f_basecm_20_25 n) <-> In H (base_mono_20_25 n).
Proof. exact (gens_same _ _ _ f_basecm_20_25_gens base_mono_20_25_gens n H). Qed.
Lemma f_basecm_20_25_agrees_base_mono_20_25 n : Permutation (f_basecm_20_25 n) (base_mono_20_25 n).
Proof. apply agree; [apply f_basecm_20_25_in_base_mono_20_25|apply f_basecm_20_25_nodup|apply base_mono_20_25_nodup]. Qed.
Lemma f_st_21_in_stet_21 n H : In H (f_st_21 n) <-> In H (stet_21 n).
Proof. exact (gens_same _ _ _ f_st_21_gens stet_21_gens n H). Qed.
Lemma f_st_21_agrees_stet_21 n : Permutation (f_st_21 n) (stet_21 n).
Proof. apply agree; [apply f_st_21_in_stet_21|apply f_st_21_nodup|apply stet_21_nodup]. Qed.
Lemma f_hex_22_in_hex_22 n H : In H (f_hex_22 n) <-> In H (hex_22 n).
Proof. exact (gens_same _ _ _ f_hex_22_gens hex_22_gens n H). Qed.
Lemma f_hex_22_agrees_hex_22 n : Permutation (f_hex_22 n) (hex_22 n).
Proof. apply agree; [apply f_hex_22_in_hex_22|apply f_hex_22_nodup|apply hex_22_nodup]. Qed.
Lemma f_baseco_23_in_base_ortho_23 n H : In H (f_baseco_23 n) <-> In H (base_ortho_23 n).
Proof. exact (gens_same _ _ _ f_baseco_23_gens base_ortho_23_gens n H). Qed.
Lemma f_baseco_23_agrees_base_ortho_23 n : Permutation (f_baseco_23 n) (base_ortho_23 n).
Proof. apply agree; [apply f_baseco_23_in_base_ortho_23|apply f_baseco_23_nodup|apply base_ortho_23_nodup]. Qed.
Lemma f_fco_26_in_face_ortho_26 n H : In H (f_fco_26 n) <-> In H (face_ortho_26 n).
Proof. exact (gens_same _ _ _ f_fco_26_gens face_ortho_26_gens n H). Qed.
Lemma f_fco_26_agrees_face_ortho_26 n : Permutation (f_fco_26 n) (face_ortho_26 n).
Proof. apply agree; [apply f_fco_26_in_face_ortho_26|apply f_fco_26_nodup|apply face_ortho_26_nodup]. Qed.
Lemma f_basecm_28_in_base_mono_28 n H : In H (f_basecm_28 n) <-> In H (base_mono_28 n).
Proof. exact (gens_same _ _ _ f_basecm_28_gens base_mono_28_gens n H). Qed.
Lemma f_basecm_28_agrees_base_mono_28 n : Permutation (f_basecm_28 n) (base_mono_28 n).
Proof. apply agree; [apply f_basecm_28_in_base_mono_28|apply f_basecm_28_nodup|apply base_mono_28_nodup]. Qed.
Lemma f_basecm_29_30_in_base_mono_29_30 n H : In H (f_basecm_29_30 n) <-> In H (base_mono_29_30 n).
Proof. exact (gens_same _ _ _ f_basecm_29_30_gens base_mono_29_30_gens n H). Qed.
Lemma f_basecm_29_30_agrees_base_mono_29_30 n : Permutation (f_basecm_29_30 n) (base_mono_29_30 n).
Proof. apply agree; [apply f_basecm_29_30_in_base_mono_29_30|apply f_basecm_29_30_nodup|apply base_mono_29_30_nodup]. Qed.
Lemma f_so_32_in_so_32 n H : In H (f_so_32 n) <-> In H (so_32 n).
Proof. exact (gens_same _ _ _ f_so_32_gens so_32_gens n H). Qed.
Lemma f_so_32_agrees_so_32 n : Permutation (f_so_32 n) (so_32 n).
Proof. apply agree; [apply f_so_32_in_so_32|apply f_so_32_nodup|apply so_32_nodup]. Qed.
Lemma f_sm_33_in_sm_33 n H : In H (f_sm_33 n) <-> In H (sm_33 n).
Proof. exact (gens_same _ _ _ f_sm_33_gens sm_33_gens n H). Qed.
Lemma f_sm_33_agrees_sm_33 n : Permutation (f_sm_33 n) (sm_33 n).
Proof. apply agree; [apply f_sm_33_in_sm_33|apply f_sm_33_nodup|apply sm_33_nodup]. Qed.
Lemma f_sm_34_35_in_sm_34 n H : In H (f_sm_34_35 n) <-> In H (sm_34 n).
Proof. exact (gens_same _ _ _ f_sm_34_35_gens sm_34_gens n H). Qed.
Lemma f_sm_34_35_agrees_sm_34 n : Permutation (f_sm_34_35 n) (sm_34 n).
Proof. apply agree; [apply f_sm_34_35_in_sm_34|apply f_sm_34_35_nodup|apply sm_34_nodup]. Qed.
Lemma f_sm_34_35_in_sm_35 n H : In H (f_sm_34_35 n) <-> In H (sm_35 n).
Proof. exact (gens_same _ _ _ f_sm_34_35_gens sm_35_gens n H). Qed.
Lemma f_sm_34_35_agrees_sm_35 n : Permutation (f_sm_34_35 n) (sm_35 n).
Proof. apply agree; [apply f_sm_34_35_in_sm_35|apply f_sm_34_35_nodup|apply sm_35_nodup]. Qed.
Lemma f_baseco_36_in_base_ortho_36 n H : In H (f_baseco_36 n) <-> In H (base_ortho_36 n).
Proof. exact (gens_same _ _ _ f_baseco_36_gens base_ortho_36_gens n H). Qed.
Lemma f_baseco_36_agrees_base_ortho_36 n : Permutation (f_baseco_36 n) (base_ortho_36 n).
Proof. apply agree; [apply f_baseco_36_in_base_ortho_36|apply f_baseco_36_nodup|apply base_ortho_36_nodup]. Qed.
Lemma f_baseco_40_in_base_ortho_40 n H : In H (f_baseco_40 n) <-> In H (base_ortho_40 n).
Proof. exact (gens_same _ _ _ f_baseco_40_gens base_ortho_40_gens n H). Qed.
Lemma f_baseco_40_agrees_base_ortho_40 n : Permutation (f_baseco_40 n) (base_ortho_40 n).
Proof. apply agree; [apply f_baseco_40_in_base_ortho_40|apply f_baseco_40_nodup|apply base_ortho_40_nodup]. Qed.
Lemma f_bco_42_in_body_ortho_42 n H : In H (f_bco_42 n) <-> In H (body_ortho_42 n).
Proof. exact (gens_same _ _ _ f_bco_42_gens body_ortho_42_gens n H). Qed.
Lemma f_bco_42_agrees_body_ortho_42 n : Permutation (f_bco_42 n) (body_ortho_42 n).
Proof. apply agree; [apply f_bco_42_in_body_ortho_42|apply f_bco_42_nodup|apply body_ortho_42_nodup]. Qed.
Lemma f_basecm_43_in_base_mono_43 n H : In H (f_basecm_43 n) <-> In H (base_mono_43 n).
Proof. exact (gens_same _ _ _ f_basecm_43_gens base_mono_43_gens n H). Qed.
Lemma f_basecm_43_agrees_base_mono_43 n : Permutation (f_basecm_43 n) (base_mono_43 n).
Proof. apply agree; [apply f_basecm_43_in_base_mono_43|apply f_basecm_43_nodup|apply base_mono_43_nodup]. Qed.

(** ** Exactness *)

(** What is claimed of the enumerator used for a lattice character. *)
Definition enumerator_correct (G B : mat3) (enum : Z -> list mat3) : Prop :=
  enumerates_exactly G enum /\ enumerates_for_basis B eps3 enum /\
  lists_each_superlattice_once G enum.

Lemma correct_transfer G B (e1 e2 : Z -> list mat3) :
  (forall n H, In H (e1 n) <-> In H (e2 n)) -> (forall n, NoDup (e1 n)) ->
  enumerates_exactly G e2 -> enumerates_for_basis B eps3 e2 -> enumerator_correct G B e1.
Proof.
  intros HS N HE HB.
  assert (HE1 : enumerates_exactly G e1) by (intros n H; rewrite (HS n H); apply HE).
  split; [exact HE1|]. split; [intros n H; rewrite (HS n H); apply HB|].
  now apply lists_once.
Qed.

Lemma f_correct_1 : enumerator_correct (gram_of 1) basis_1 f_fcc_1.
Proof. exact (correct_transfer _ _ _ _ f_fcc_1_in_fcc_1 f_fcc_1_nodup exact_1 exact_basis_1). Qed.
Lemma f_correct_2 : enumerator_correct (gram_of 2) basis_2 f_rhom_4_2.
Proof. exact (correct_transfer _ _ _ _ f_rhom_4_2_in_rhom_4_2 f_rhom_4_2_nodup exact_2 exact_basis_2). Qed.
Lemma f_correct_3 : enumerator_correct (gram_of 3) basis_3 f_sc_3.
Proof. exact (correct_transfer _ _ _ _ f_sc_3_in_sc_3 f_sc_3_nodup exact_3 exact_basis_3). Qed.
Lemma f_correct_4 : enumerator_correct (gram_of 4) basis_4 f_rhom_4_2.
Proof. exact (correct_transfer _ _ _ _ f_rhom_4_2_in_rhom_4_2 f_rhom_4_2_nodup exact_4 exact_basis_4). Qed.
Lemma f_correct_5 : enumerator_correct (gram_of 5) basis_5 f_bcc_5.
Proof. exact (correct_transfer _ _ _ _ f_bcc_5_in_bcc_5 f_bcc_5_nodup exact_5 exact_basis_5). Qed.
Lemma f_correct_6 : enumerator_correct (gram_of 6) basis_6 f_bct_6_7_15_18.
Proof. exact (correct_transfer _ _ _ _ f_bct_6_7_15_18_in_body_tet_6_7_15_18 f_bct_6_7_15_18_nodup exact_6 exact_basis_6). Qed.
Lemma f_correct_7 : enumerator_correct (gram_of 7) basis_7 f_bct_6_7_15_18.
Proof. exact (correct_transfer _ _ _ _ f_bct_6_7_15_18_in_body_tet_6_7_15_18 f_bct_6_7_15_18_nodup exact_7 exact_basis_7). Qed.
Lemma f_correct_8 : enumerator_correct (gram_of 8) basis_8 f_bco_8.
Proof. exact (correct_transfer _ _ _ _ f_bco_8_in_body_ortho_8 f_bco_8_nodup exact_8 exact_basis_8). Qed.
Lemma f_correct_9 : enumerator_correct (gram_of 9) basis_9 f_rhom_9_24.
Proof. exact (correct_transfer _ _ _ _ f_rhom_9_24_in_rhom_9_24 f_rhom_9_24_nodup exact_9 exact_basis_9). Qed.
Lemma f_correct_10 : enumerator_correct (gram_of 10) basis_10 f_basecm_10_14_17_27_37_39_41.
Proof. exact (correct_transfer _ _ _ _ f_basecm_10_14_17_27_37_39_41_in_base_mono_10_14_17_27_37_39_41 f_basecm_10_14_17_27_37_39_41_nodup exact_10 exact_basis_10). Qed.
Lemma f_correct_11 : enumerator_correct (gram_of 11) basis_11 f_st_11.
Proof. exact (correct_transfer _ _ _ _ f_st_11_in_stet_11 f_st_11_nodup exact_11 exact_basis_11). Qed.
Lemma f_correct_12 : enumerator_correct (gram_of 12) basis_12 f_hex_12.
Proof. exact (correct_transfer _ _ _ _ f_hex_12_in_hex_12 f_hex_12_nodup exact_12 exact_basis_12). Qed.
Lemma f_correct_13 : enumerator_correct (gram_of 13) basis_13 f_baseco_38_13.
Proof. exact (correct_transfer _ _ _ _ f_baseco_38_13_in_base_ortho_38_13 f_baseco_38_13_nodup exact_13 exact_basis_13). Qed.
Lemma f_correct_14 : enumerator_correct (gram_of 14) basis_14 f_basecm_10_14_17_27_37_39_41.
Proof. exact (correct_transfer _ _ _ _ f_basecm_10_14_17_27_37_39_41_in_base_mono_10_14_17_27_37_39_41 f_basecm_10_14_17_27_37_39_41_nodup exact_14 exact_basis_14). Qed.
Lemma f_correct_15 : enumerator_correct (gram_of 15) basis_15 f_bct_6_7_15_18.
Proof. exact (correct_transfer _ _ _ _ f_bct_6_7_15_18_in_body_tet_6_7_15_18 f_bct_6_7_15_18_nodup exact_15 exact_basis_15). Qed.
Lemma f_correct_16 : enumerator_correct (gram_of 16) basis_16 f_fco_16.
Proof. exact (correct_transfer _ _ _ _ f_fco_16_in_face_ortho_16 f_fco_16_nodup exact_16 exact_basis_16). Qed.
Lemma f_correct_17 : enumerator_correct (gram_of 17) basis_17 f_basecm_10_14_17_27_37_39_41.
Proof. exact (correct_transfer _ _ _ _ f_basecm_10_14_17_27_37_39_41_in_base_mono_10_14_17_27_37_39_41 f_basecm_10_14_17_27_37_39_41_nodup exact_17 exact_basis_17). Qed.
Lemma f_correct_18 : enumerator_correct (gram_of 18) basis_18 f_bct_6_7_15_18.
Proof. exact (correct_transfer _ _ _ _ f_bct_6_7_15_18_in_body_tet_6_7_15_18 f_bct_6_7_15_18_nodup exact_18 exact_basis_18). Qed.
Lemma f_correct_19 : enumerator_correct (gram_of 19) basis_19 f_bco_19.
Proof. exact (correct_transfer _ _ _ _ f_bco_19_in_body_ortho_19 f_bco_19_nodup exact_19 exact_basis_19). Qed.
Lemma f_correct_20 : enumerator_correct (gram_of 20) basis_20 f_basecm_20_25.
Proof. exact (correct_transfer _ _ _ _ f_basecm_20_25_in_base_mono_20_25 f_basecm_20_25_nodup exact_20 exact_basis_20). Qed.
Lemma f_correct_21 : enumerator_correct (gram_of 21) basis_21 f_st_21.
Proof. exact (correct_transfer _ _ _ _ f_st_21_in_stet_21 f_st_21_nodup exact_21 exact_basis_21). Qed.
Lemma f_correct_22 : enumerator_correct (gram_of 22) basis_22 f_hex_22.
Proof. exact (correct_transfer _ _ _ _ f_hex_22_in_hex_22 f_hex_22_nodup exact_22 exact_basis_22). Qed.
Lemma f_correct_23 : enumerator_correct (gram_of 23) basis_23 f_baseco_23.
Proof. exact (correct_transfer _ _ _ _ f_baseco_23_in_base_ortho_23 f_baseco_23_nodup exact_23 exact_basis_23). Qed.
Lemma f_correct_24 : enumerator_correct (gram_of 24) basis_24 f_rhom_9_24.
Proof. exact (correct_transfer _ _ _ _ f_rhom_9_24_in_rhom_9_24 f_rhom_9_24_nodup exact_24 exact_basis_24). Qed.
Lemma f_correct_25 : enumerator_correct (gram_of 25) basis_25 f_basecm_20_25.
Proof. exact (correct_transfer _ _ _ _ f_basecm_20_25_in_base_mono_20_25 f_basecm_20_25_nodup exact_25 exact_basis_25). Qed.
Lemma f_correct_26 : enumerator_correct (gram_of 26) basis_26 f_fco_26.
Proof. exact (correct_transfer _ _ _ _ f_fco_26_in_face_ortho_26 f_fco_26_nodup exact_26 exact_basis_26). Qed.
Lemma f_correct_27 : enumerator_correct (gram_of 27) basis_27 f_basecm_10_14_17_27_37_39_41.
Proof. exact (correct_transfer _ _ _ _ f_basecm_10_14_17_27_37_39_41_in_base_mono_10_14_17_27_37_39_41 f_basecm_10_14_17_27_37_39_41_nodup exact_27 exact_basis_27). Qed.
Lemma f_correct_28 : enumerator_correct (gram_of 28) basis_28 f_basecm_28.
Proof. exact (correct_transfer _ _ _ _ f_basecm_28_in_base_mono_28 f_basecm_28_nodup exact_28 exact_basis_28). Qed.
Lemma f_correct_29 : enumerator_correct (gram_of 29) basis_29 f_basecm_29_30.
Proof. exact (correct_transfer _ _ _ _ f_basecm_29_30_in_base_mono_29_30 f_basecm_29_30_nodup exact_29 exact_basis_29). Qed.
Lemma f_correct_30 : enumerator_correct (gram_of 30) basis_30 f_basecm_29_30.
Proof. exact (correct_transfer _ _ _ _ f_basecm_29_30_in_base_mono_29_30 f_basecm_29_30_nodup exact_30 exact_basis_30). Qed.
Lemma f_correct_32 : enumerator_correct (gram_of 32) basis_32 f_so_32.
Proof. exact (correct_transfer _ _ _ _ f_so_32_in_so_32 f_so_32_nodup exact_32 exact_basis_32). Qed.
Lemma f_correct_33 : enumerator_correct (gram_of 33) basis_33 f_sm_33.
Proof. exact (correct_transfer _ _ _ _ f_sm_33_in_sm_33 f_sm_33_nodup exact_33 exact_basis_33). Qed.
Lemma f_correct_34 : enumerator_correct (gram_of 34) basis_34 f_sm_34_35.
Proof. exact (correct_transfer _ _ _ _ f_sm_34_35_in_sm_34 f_sm_34_35_nodup exact_34 exact_basis_34). Qed.
Lemma f_correct_35 : enumerator_correct (gram_of 35) basis_35 f_sm_34_35.
Proof. exact (correct_transfer _ _ _ _ f_sm_34_35_in_sm_35 f_sm_34_35_nodup exact_35 exact_basis_35). Qed.
Lemma f_correct_36 : enumerator_correct (gram_of 36) basis_36 f_baseco_36.
Proof. exact (correct_transfer _ _ _ _ f_baseco_36_in_base_ortho_36 f_baseco_36_nodup exact_36 exact_basis_36). Qed.
Lemma f_correct_37 : enumerator_correct (gram_of 37) basis_37 f_basecm_10_14_17_27_37_39_41.
Proof. exact (correct_transfer _ _ _ _ f_basecm_10_14_17_27_37_39_41_in_base_mono_10_14_17_27_37_39_41 f_basecm_10_14_17_27_37_39_41_nodup exact_37 exact_basis_37). Qed.
Lemma f_correct_38 : enumerator_correct (gram_of 38) basis_38 f_baseco_38_13.
Proof. exact (correct_transfer _ _ _ _ f_baseco_38_13_in_base_ortho_38_13 f_baseco_38_13_nodup exact_38 exact_basis_38). Qed.
Lemma f_correct_39 : enumerator_correct (gram_of 39) basis_39 f_basecm_10_14_17_27_37_39_41.
Proof. exact (correct_transfer _ _ _ _ f_basecm_10_14_17_27_37_39_41_in_base_mono_10_14_17_27_37_39_41 f_basecm_10_14_17_27_37_39_41_nodup exact_39 exact_basis_39). Qed.
Lemma f_correct_40 : enumerator_correct (gram_of 40) basis_40 f_baseco_40.
Proof. exact (correct_transfer _ _ _ _ f_baseco_40_in_base_ortho_40 f_baseco_40_nodup exact_40 exact_basis_40). Qed.
Lemma f_correct_41 : enumerator_correct (gram_of 41) basis_41 f_basecm_10_14_17_27_37_39_41.
Proof. exact (correct_transfer _ _ _ _ f_basecm_10_14_17_27_37_39_41_in_base_mono_10_14_17_27_37_39_41 f_basecm_10_14_17_27_37_39_41_nodup exact_41 exact_basis_41). Qed.
Lemma f_correct_42 : enumerator_correct (gram_of 42) basis_42 f_bco_42.
Proof. exact (correct_transfer _ _ _ _ f_bco_42_in_body_ortho_42 f_bco_42_nodup exact_42 exact_basis_42). Qed.
Lemma f_correct_43 : enumerator_correct (gram_of 43) basis_43 f_basecm_43.
Proof. exact (correct_transfer _ _ _ _ f_basecm_43_in_base_mono_43 f_basecm_43_nodup exact_43 exact_basis_43). Qed.
