(** Facts behind find_grid: the dispatch to the enumerators, the grids. *)
From Coq Require Import ZArith QArith Qcanon List Bool Lia Permutation.
From Verif Require Import Mat3 PyNum Spec QMat QNum Spec_kgrids Bases Model_universal Model_find_kgrids Model_grid_utils
  Model_transform Model_sp_hnfs Model_find_grid Proofs_enum_extra Proofs_two Proofs_sp_hnfs1 Proofs_sp_hnfs2 Proofs_sp_hnfs3
  Proofs_sp_hnfs4 Proofs_transform Proofs_grid_utils HnfTheory.
Import ListNotations.
Open Scope Z_scope.

(** ** Dispatch *)
Lemma two_perm (e1 e2 : Z -> list mat3) : (forall n, Permutation (e1 n) (e2 n)) -> two_at_4 e2 -> two_at_4 e1.
Proof.
  intros HP HT m Hm. destruct (HT m Hm) as (H & K & N & H1 & K1). exists H, K.
  split; [exact N|]. split; eapply Permutation_in; try eassumption; symmetry; apply HP.
Qed.

Record enum_facts (k : Z) (enum : Z -> list mat3) : Prop := {
  ef_basis : exists B, canonical_basis k = Some B /\ enumerator_correct (gram_of k) B enum;
  ef_two : two_at_4 enum;
  ef_some : forall n, 1 <= n -> enum n <> [] }.

Lemma some_inj {A} (x y : A) : Some x = Some y -> x = y.
Proof. now injection 1. Qed.
Lemma in_44 k : 1 <= k <= 44 -> In k (map Z.of_nat (seq 1 44)).
Proof. intros H. apply in_map_iff. exists (Z.to_nat k). split; [apply Z2Nat.id; lia|]. apply in_seq. lia. Qed.

Ltac ef_tac C P T S :=
  constructor; [eexists; split; [reflexivity|exact C]|exact (two_perm _ _ P T)|exact S].

Lemma f_enumerator_facts k enum : 1 <= k <= 44 -> f_enumerator k = Some enum -> enum_facts k enum.
Proof.
  intros Hk E. apply in_44 in Hk. cbn [seq map Z.of_nat Pos.of_succ_nat Pos.succ In] in Hk.
  repeat match type of Hk with _ \/ _ => destruct Hk as [<-|Hk] end; [..|destruct Hk];
    cbv [f_enumerator z_in existsb Z.eqb Pos.eqb orb] in E; try discriminate E; apply some_inj in E; subst enum.
  - ef_tac f_correct_2 f_rhom_4_2_agrees_rhom_4_2 rhom_4_2_two f_rhom_4_2_some.
  - ef_tac f_correct_4 f_rhom_4_2_agrees_rhom_4_2 rhom_4_2_two f_rhom_4_2_some.
  - ef_tac f_correct_6 f_bct_6_7_15_18_agrees_body_tet_6_7_15_18 body_tet_6_7_15_18_two f_bct_6_7_15_18_some.
  - ef_tac f_correct_7 f_bct_6_7_15_18_agrees_body_tet_6_7_15_18 body_tet_6_7_15_18_two f_bct_6_7_15_18_some.
  - ef_tac f_correct_8 f_bco_8_agrees_body_ortho_8 body_ortho_8_two f_bco_8_some.
  - ef_tac f_correct_9 f_rhom_9_24_agrees_rhom_9_24 rhom_9_24_two f_rhom_9_24_some.
  - ef_tac f_correct_10 f_basecm_10_14_17_27_37_39_41_agrees_base_mono_10_14_17_27_37_39_41 base_mono_10_14_17_27_37_39_41_two f_basecm_10_14_17_27_37_39_41_some.
  - ef_tac f_correct_11 f_st_11_agrees_stet_11 stet_11_two f_st_11_some.
  - ef_tac f_correct_12 f_hex_12_agrees_hex_12 hex_12_two f_hex_12_some.
  - ef_tac f_correct_13 f_baseco_38_13_agrees_base_ortho_38_13 base_ortho_38_13_two f_baseco_38_13_some.
  - ef_tac f_correct_14 f_basecm_10_14_17_27_37_39_41_agrees_base_mono_10_14_17_27_37_39_41 base_mono_10_14_17_27_37_39_41_two f_basecm_10_14_17_27_37_39_41_some.
  - ef_tac f_correct_15 f_bct_6_7_15_18_agrees_body_tet_6_7_15_18 body_tet_6_7_15_18_two f_bct_6_7_15_18_some.
  - ef_tac f_correct_16 f_fco_16_agrees_face_ortho_16 face_ortho_16_two f_fco_16_some.
  - ef_tac f_correct_17 f_basecm_10_14_17_27_37_39_41_agrees_base_mono_10_14_17_27_37_39_41 base_mono_10_14_17_27_37_39_41_two f_basecm_10_14_17_27_37_39_41_some.
  - ef_tac f_correct_18 f_bct_6_7_15_18_agrees_body_tet_6_7_15_18 body_tet_6_7_15_18_two f_bct_6_7_15_18_some.
  - ef_tac f_correct_19 f_bco_19_agrees_body_ortho_19 body_ortho_19_two f_bco_19_some.
  - ef_tac f_correct_20 f_basecm_20_25_agrees_base_mono_20_25 base_mono_20_25_two f_basecm_20_25_some.
  - ef_tac f_correct_21 f_st_21_agrees_stet_21 stet_21_two f_st_21_some.
  - ef_tac f_correct_22 f_hex_22_agrees_hex_22 hex_22_two f_hex_22_some.
  - ef_tac f_correct_23 f_baseco_23_agrees_base_ortho_23 base_ortho_23_two f_baseco_23_some.
  - ef_tac f_correct_24 f_rhom_9_24_agrees_rhom_9_24 rhom_9_24_two f_rhom_9_24_some.
  - ef_tac f_correct_25 f_basecm_20_25_agrees_base_mono_20_25 base_mono_20_25_two f_basecm_20_25_some.
  - ef_tac f_correct_26 f_fco_26_agrees_face_ortho_26 face_ortho_26_two f_fco_26_some.
  - ef_tac f_correct_27 f_basecm_10_14_17_27_37_39_41_agrees_base_mono_10_14_17_27_37_39_41 base_mono_10_14_17_27_37_39_41_two f_basecm_10_14_17_27_37_39_41_some.
  - ef_tac f_correct_28 f_basecm_28_agrees_base_mono_28 base_mono_28_two f_basecm_28_some.
  - ef_tac f_correct_29 f_basecm_29_30_agrees_base_mono_29_30 base_mono_29_30_two f_basecm_29_30_some.
  - ef_tac f_correct_30 f_basecm_29_30_agrees_base_mono_29_30 base_mono_29_30_two f_basecm_29_30_some.
  - ef_tac f_correct_32 f_so_32_agrees_so_32 so_32_two f_so_32_some.
  - ef_tac f_correct_33 f_sm_33_agrees_sm_33 sm_33_two f_sm_33_some.
  - ef_tac f_correct_34 f_sm_34_35_agrees_sm_34 sm_34_two f_sm_34_35_some.
  - ef_tac f_correct_35 f_sm_34_35_agrees_sm_34 sm_34_two f_sm_34_35_some.
  - ef_tac f_correct_36 f_baseco_36_agrees_base_ortho_36 base_ortho_36_two f_baseco_36_some.
  - ef_tac f_correct_37 f_basecm_10_14_17_27_37_39_41_agrees_base_mono_10_14_17_27_37_39_41 base_mono_10_14_17_27_37_39_41_two f_basecm_10_14_17_27_37_39_41_some.
  - ef_tac f_correct_38 f_baseco_38_13_agrees_base_ortho_38_13 base_ortho_38_13_two f_baseco_38_13_some.
  - ef_tac f_correct_39 f_basecm_10_14_17_27_37_39_41_agrees_base_mono_10_14_17_27_37_39_41 base_mono_10_14_17_27_37_39_41_two f_basecm_10_14_17_27_37_39_41_some.
  - ef_tac f_correct_40 f_baseco_40_agrees_base_ortho_40 base_ortho_40_two f_baseco_40_some.
  - ef_tac f_correct_41 f_basecm_10_14_17_27_37_39_41_agrees_base_mono_10_14_17_27_37_39_41 base_mono_10_14_17_27_37_39_41_two f_basecm_10_14_17_27_37_39_41_some.
  - ef_tac f_correct_42 f_bco_42_agrees_body_ortho_42 body_ortho_42_two f_bco_42_some.
  - ef_tac f_correct_43 f_basecm_43_agrees_base_mono_43 base_mono_43_two f_basecm_43_some.
Qed.

(** Every number has exactly one kind. *)
Lemma lat_kind k : 1 <= k <= 44 ->
  (z_in k [3; 5; 1] = true /\ In k [1; 3; 5]) \/
  (z_in k [3; 5; 1] = false /\ z_in k [44; 31] = true /\ (k = 31 \/ k = 44)) \/
  (z_in k [3; 5; 1] = false /\ z_in k [44; 31] = false /\ exists enum, f_enumerator k = Some enum).
Proof.
  intros Hk. apply in_44 in Hk. cbn [seq map Z.of_nat Pos.of_succ_nat Pos.succ In] in Hk.
  repeat match type of Hk with _ \/ _ => destruct Hk as [<-|Hk] end; [..|destruct Hk];
    cbn; (tauto || (right; right; split; [reflexivity|]; split; [reflexivity|]; eexists; reflexivity)).
Qed.

(** Cubic lattices: the matrix handed on is the only HNF of that size, or zero. *)
Lemma cubic_matrix k n : In k [1; 3; 5] ->
  let H := cubic_one (f_cubic_loop k (f_diagonals n)) in
  (any_pos H = false /\ forall K, ~ (1 <= n /\ is_hnf n K /\ symmetry_preserving (gram_of k) K)) \/
  (any_pos H = true /\ 1 <= n /\ is_hnf n H /\ symmetry_preserving (gram_of k) H).
Proof.
  intros Hk H.
  assert (HC : enumerates_exactly (gram_of k) (fun n => cubic_all (f_cubic_loop k (f_diagonals n)))).
  { destruct Hk as [<-|[<-|[<-|[]]]]; [exact (proj1 f_correct_1)|exact (proj1 f_correct_3)|exact (proj1 f_correct_5)]. }
  specialize (HC n). cbv beta in HC. unfold H, cubic_one in *. clear H.
  unfold cubic_all in HC. set (T := temp_hnf (f_cubic_loop k (f_diagonals n))) in *. clearbody T.
  destruct (all_zero T) eqn:Z; cbn [negb] in HC.
  - left. split.
    + unfold all_zero in Z. rewrite !andb_true_iff, !Z.eqb_eq in Z. unfold any_pos. cbn [existsb].
      rewrite !orb_false_iff, !Z.ltb_ge. intuition lia.
    + intros K HK. now apply (proj2 (HC K)).
  - right. assert (HT : 1 <= n /\ is_hnf n T /\ symmetry_preserving (gram_of k) T) by (apply HC; now left).
    split; [|exact HT]. destruct HT as (_ & (a & b & c & d & e & f & -> & Ha & _) & _).
    unfold any_pos, HNF. cbn [m11 existsb]. apply orb_true_iff. left. apply Z.ltb_lt. lia.
Qed.

(** ** Reciprocal lattices *)
Open Scope Qc_scope.

Lemma orthogonal_det R : orthogonal R -> qdet R <> 0.
Proof.
  intros HR E. pose proof (f_equal qdet HR) as D. rewrite qdet_mul, qdet_tr, qdet_id, E in D.
  rewrite Qcmult_0_l in D. discriminate D.
Qed.
Lemma qdet_inv A : qdet A <> 0 -> qdet (qinv A) <> 0.
Proof.
  intros H E. pose proof (f_equal qdet (qinv_r A H)) as D. rewrite qdet_mul, qdet_id, E in D.
  rewrite Qcmult_0_r in D. discriminate D.
Qed.
Lemma qinv_mul A B : qdet A <> 0 -> qdet B <> 0 -> qinv (qmul A B) = qmul (qinv B) (qinv A).
Proof.
  intros HA HB. symmetry. apply qinv_unique; [rewrite qdet_mul; now apply Qc_mul_neq0|].
  rewrite <- qmul_assoc, (qmul_assoc B), qinv_r, qmul_id_l, qinv_r by assumption. reflexivity.
Qed.
Lemma reciprocal_det U : qdet U <> 0 -> qdet (reciprocal U) <> 0.
Proof. intros H. apply qdet_inv. now rewrite qdet_tr. Qed.
Lemma reciprocal_mul A B : qdet A <> 0 -> qdet B <> 0 ->
  reciprocal (qmul A B) = qmul (reciprocal A) (reciprocal B).
Proof. intros HA HB. unfold reciprocal. rewrite qtr_mul. apply qinv_mul; now rewrite qdet_tr. Qed.
Lemma reciprocal_orthogonal R : orthogonal R -> reciprocal R = R.
Proof.
  intros HR. unfold reciprocal. symmetry. apply qinv_unique; [rewrite qdet_tr; now apply orthogonal_det|exact HR].
Qed.
Lemma reciprocal_unimodular X : unimodular X -> reciprocal (qof X) = qof (minv1 (mtr X)).
Proof.
  intros HX. unfold reciprocal. rewrite <- qof_tr. apply qinv_qof. rewrite mdet_tr. exact HX.
Qed.

Lemma span_mul B X R : qmul R B = qmul B (qof X) -> forall x, in_span B x -> in_span B (qmvec R x).
Proof.
  intros E x (v & ->). exists (mvec X v). rewrite <- qmvec_mul, E, qmvec_mul, qof_mvec. reflexivity.
Qed.

(** A symmetry of a lattice is a symmetry of its reciprocal lattice. *)
Lemma reciprocal_symmetry U R : qdet U <> 0 -> lattice_symmetry U R -> lattice_symmetry (reciprocal U) R.
Proof.
  intros HU (HR & HS). split; [exact HR|].
  destruct (symmetry_coords U R HU HS) as (X & EX).
  assert (HX : unimodular X).
  { apply (isometry_unimodular (qgram U)).
    - rewrite qgram_det. now apply Qc_mul_neq0.
    - exact (symmetry_isometry U R X HU HR EX). }
  apply (span_mul _ (minv1 (mtr X))).
  rewrite <- (reciprocal_unimodular X HX), <- (reciprocal_orthogonal R HR) at 1.
  rewrite <- !reciprocal_mul, EX; try assumption; [reflexivity| |now apply orthogonal_det].
  now apply unimodular_det.
Qed.

Lemma symmetry_unimodular B Y R : qdet B <> 0 -> unimodular Y ->
  lattice_symmetry B R -> lattice_symmetry (qmul B (qof Y)) R.
Proof.
  intros HB HY (HR & HS). split; [exact HR|]. destruct (symmetry_coords B R HB HS) as (X & EX).
  apply (span_mul _ (mmul (mmul (minv1 Y) X) Y)).
  rewrite !qof_mul, qmul_assoc, EX, <- !qmul_assoc. f_equal.
  rewrite (qmul_assoc (qof Y)), <- (qof_mul Y (minv1 Y)), minv1_r, qof_id, qmul_id_l by exact HY. reflexivity.
Qed.

(** The grid of a symmetry-preserving supercell. *)
Lemma grid_of_supercell n U M Y : qdet U <> 0 -> mdet M = n -> (0 < n)%Z -> unimodular Y ->
  keeps_symmetry U (qmul U (qof M)) ->
  let g := qmul (reciprocal (qmul U (qof M))) (qof Y) in
  kgrid n U g /\ keeps_symmetry U g.
Proof.
  intros HU HM Hn HY HK g.
  assert (DM : qdet (qof M) <> 0) by (rewrite qof_det; apply zq_neq0; lia).
  assert (DS : qdet (qmul U (qof M)) <> 0) by (rewrite qdet_mul; now apply Qc_mul_neq0).
  split.
  - exists (mmul (minv1 Y) (mtr M)). split.
    + unfold g. rewrite reciprocal_mul by assumption. rewrite qof_mul, qof_tr.
      rewrite <- !qmul_assoc, (qmul_assoc (qof Y)), <- (qof_mul Y (minv1 Y)), minv1_r, qof_id, qmul_id_l by exact HY.
      unfold reciprocal at 3. rewrite qinv_l by now rewrite qdet_tr. now rewrite qmul_id_r.
    + rewrite mdet_mul, mdet_tr, HM. pose proof (minv1_det Y HY) as D.
      unfold unimodular in HY.
      assert (mdet (minv1 Y) = 1 \/ mdet (minv1 Y) = -1)%Z by (destruct (Z.eq_mul_1 _ _ D); tauto). nia.
  - intros R HR. unfold g. apply symmetry_unimodular; [now apply reciprocal_det|exact HY|].
    apply reciprocal_symmetry; [exact DS|]. now apply HK.
Qed.
