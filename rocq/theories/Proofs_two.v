(** Sizes divisible by 4 always have at least two symmetry-preserving HNFs (lattices
    other than cubic ones). *)
From Coq Require Import ZArith List Lia Bool.
From Verif Require Import Mat3 Spec PyNum PointGroup EnumTac HnfTheory
  Model_so Model_stet Model_hx Model_body_tet Model_body_ortho
  Model_sm Model_face_ortho Model_base_mono Model_rhom Model_base_ortho
  Proofs_mono Proofs_ortho Proofs_tet Proofs_hex.
Open Scope Z_scope.

Definition two_at_4 (enum : Z -> list mat3) : Prop :=
  forall m, 1 <= m -> exists H K, H <> K /\ In H (enum (4 * m)) /\ In K (enum (4 * m)).

Lemma two_from_gens gens enum (H K : Z -> mat3) :
  enumerates_gens gens enum ->
  (forall m, 1 <= m -> H m <> K m) ->
  (forall m, 1 <= m -> is_hnf (4 * m) (H m)) ->
  (forall m, 1 <= m -> is_hnf (4 * m) (K m)) ->
  (forall m g, 1 <= m -> In g gens -> preserves g (H m)) ->
  (forall m g, 1 <= m -> In g gens -> preserves g (K m)) -> two_at_4 enum.
Proof.
  intros HE HD H1 K1 H2 K2 m Hm. exists (H m), (K m). split; [auto|].
  split; apply HE; split; auto.
Qed.

Ltac hnf_tac := intros; do 6 eexists; split; [reflexivity|]; repeat split; lia.
Ltac dist_tac := let m := fresh in let E := fresh in intros m ? E; cbv beta in E;
  pose proof (f_equal m11 E); pose proof (f_equal m21 E); pose proof (f_equal m22 E);
  pose proof (f_equal m31 E); pose proof (f_equal m32 E); unfold HNF in *;
  cbn [m11 m21 m22 m31 m32] in *; lia.
Ltac w_tac w := apply preserves_matrix; exists w;
  unfold mmul, HNF; cbn [m11 m12 m13 m21 m22 m23 m31 m32 m33]; f_equal; ring.

Lemma stet_11_two : two_at_4 stet_11.
Proof.
  apply (two_from_gens _ _ (fun m => HNF 1 0 1 0 0 (4 * m))
    (fun m => HNF 1 0 1 (0 + 2 * m) (0 + 2 * m) (4 * m)) stet_11_gens).
  - dist_tac.
  - hnf_tac.
  - hnf_tac.
  - intros m g Hm Hg. cbn [In] in Hg. destruct Hg as [<- | [<- | [<- | []]]].
    + apply preserves_opp_id.
    + unfold S_xy. w_tac (Mat3 (0) (1) (0) (1) (0) (0) (0) (0) (1)).
    + unfold D_pmp. w_tac (Mat3 (1) (0) (0) (0) (-1) (0) (0) (0) (1)).
  - intros m g Hm Hg. cbn [In] in Hg. destruct Hg as [<- | [<- | [<- | []]]].
    + apply preserves_opp_id.
    + unfold S_xy. w_tac (Mat3 (0) (1) (0) (1) (0) (0) (0) (0) (1)).
    + unfold D_pmp. w_tac (Mat3 (1) (0) (0) (0) (-1) (0) (0) (1) (1)).
Qed.

Lemma stet_21_two : two_at_4 stet_21.
Proof.
  apply (two_from_gens _ _ (fun m => HNF (1 * m) 0 2 0 0 2)
    (fun m => HNF (1 * m) 1 2 1 0 2) stet_21_gens).
  - dist_tac.
  - hnf_tac.
  - hnf_tac.
  - intros m g Hm Hg. cbn [In] in Hg. destruct Hg as [<- | [<- | [<- | []]]].
    + apply preserves_opp_id.
    + unfold S_yz. w_tac (Mat3 (1) (0) (0) (0) (0) (1) (0) (1) (0)).
    + unfold D_ppm. w_tac (Mat3 (1) (0) (0) (0) (1) (0) (0) (0) (-1)).
  - intros m g Hm Hg. cbn [In] in Hg. destruct Hg as [<- | [<- | [<- | []]]].
    + apply preserves_opp_id.
    + unfold S_yz. w_tac (Mat3 (1) (0) (0) (0) (0) (1) (0) (1) (0)).
    + unfold D_ppm. w_tac (Mat3 (1) (0) (0) (0) (1) (0) (-1) (0) (-1)).
Qed.

Lemma body_tet_6_7_15_18_two : two_at_4 body_tet_6_7_15_18.
Proof.
  apply (two_from_gens _ _ (fun m => HNF (2 * m) 0 1 0 1 2)
    (fun m => HNF (2 * m) 0 1 1 1 2) body_tet_gens).
  - dist_tac.
  - hnf_tac.
  - hnf_tac.
  - intros m g Hm Hg. cbn [In] in Hg. destruct Hg as [<- | [<- | [<- | []]]].
    + apply preserves_opp_id.
    + unfold S_yz. w_tac (Mat3 (1) (0) (0) (0) (1) (2) (0) (0) (-1)).
    + unfold X_bo19a. w_tac (Mat3 (-1) (0) (0) (0) (-1) (0) (0 + 1 * m) (1) (1)).
  - intros m g Hm Hg. cbn [In] in Hg. destruct Hg as [<- | [<- | [<- | []]]].
    + apply preserves_opp_id.
    + unfold S_yz. w_tac (Mat3 (1) (0) (0) (1) (1) (2) (-1) (0) (-1)).
    + unfold X_bo19a. w_tac (Mat3 (-1) (0) (0) (0) (-1) (0) (1 + 1 * m) (1) (1)).
Qed.

Lemma so_32_two : two_at_4 so_32.
Proof.
  apply (two_from_gens _ _ (fun m => HNF 1 0 1 0 0 (4 * m))
    (fun m => HNF 1 0 1 0 (0 + 2 * m) (4 * m)) so_32_gens).
  - dist_tac.
  - hnf_tac.
  - hnf_tac.
  - intros m g Hm Hg. cbn [In] in Hg. destruct Hg as [<- | [<- | [<- | []]]].
    + apply preserves_opp_id.
    + unfold D_pmp. w_tac (Mat3 (1) (0) (0) (0) (-1) (0) (0) (0) (1)).
    + unfold D_ppm. w_tac (Mat3 (1) (0) (0) (0) (1) (0) (0) (0) (-1)).
  - intros m g Hm Hg. cbn [In] in Hg. destruct Hg as [<- | [<- | [<- | []]]].
    + apply preserves_opp_id.
    + unfold D_pmp. w_tac (Mat3 (1) (0) (0) (0) (-1) (0) (0) (1) (1)).
    + unfold D_ppm. w_tac (Mat3 (1) (0) (0) (0) (1) (0) (0) (-1) (-1)).
Qed.

Lemma body_ortho_19_two : two_at_4 body_ortho_19.
Proof.
  apply (two_from_gens _ _ (fun m => HNF 2 0 1 (-1 + 1 * m) 0 (2 * m))
    (fun m => HNF 2 0 1 (-1 + 1 * m) (0 + 1 * m) (2 * m)) body_ortho_19_gens).
  - dist_tac.
  - hnf_tac.
  - hnf_tac.
  - intros m g Hm Hg. cbn [In] in Hg. destruct Hg as [<- | [<- | [<- | []]]].
    + apply preserves_opp_id.
    + unfold X_bo19a. w_tac (Mat3 (-1) (0) (0) (0) (-1) (0) (1) (0) (1)).
    + unfold X_bo19b. w_tac (Mat3 (-1) (0) (0) (2) (1) (0) (1) (0) (1)).
  - intros m g Hm Hg. cbn [In] in Hg. destruct Hg as [<- | [<- | [<- | []]]].
    + apply preserves_opp_id.
    + unfold X_bo19a. w_tac (Mat3 (-1) (0) (0) (0) (-1) (0) (1) (1) (1)).
    + unfold X_bo19b. w_tac (Mat3 (-1) (0) (0) (2) (1) (0) (0) (0) (1)).
Qed.

Lemma body_ortho_8_two : two_at_4 body_ortho_8.
Proof.
  apply (two_from_gens _ _ (fun m => HNF 2 0 1 (-1 + 1 * m) 0 (2 * m))
    (fun m => HNF 2 0 1 (-1 + 1 * m) 1 (2 * m)) body_ortho_8_gens).
  - dist_tac.
  - hnf_tac.
  - hnf_tac.
  - intros m g Hm Hg. cbn [In] in Hg. destruct Hg as [<- | [<- | [<- | []]]].
    + apply preserves_opp_id.
    + unfold X_bo8a. w_tac (Mat3 (-1) (0) (0) (0 + -2 * m) (1) (0 + -4 * m) (0) (0) (-1)).
    + unfold X_bo8b. w_tac (Mat3 (-1) (0) (0) (0) (1) (0) (1) (0) (1)).
  - intros m g Hm Hg. cbn [In] in Hg. destruct Hg as [<- | [<- | [<- | []]]].
    + apply preserves_opp_id.
    + unfold X_bo8a. w_tac (Mat3 (-1) (0) (0) (0 + -2 * m) (-1) (0 + -4 * m) (1) (0) (1)).
    + unfold X_bo8b. w_tac (Mat3 (-1) (0) (0) (0) (1) (0) (1) (0) (1)).
Qed.

Lemma body_ortho_42_two : two_at_4 body_ortho_42.
Proof.
  apply (two_from_gens _ _ (fun m => HNF 2 0 1 1 0 (2 * m))
    (fun m => HNF 2 0 1 1 (0 + 1 * m) (2 * m)) body_ortho_42_gens).
  - dist_tac.
  - hnf_tac.
  - hnf_tac.
  - intros m g Hm Hg. cbn [In] in Hg. destruct Hg as [<- | [<- | [<- | []]]].
    + apply preserves_opp_id.
    + unfold X_bo42a. w_tac (Mat3 (-1) (0) (0) (-2) (1) (0) (0) (0) (1)).
    + unfold X_bo42b. w_tac (Mat3 (-1) (0) (0) (0) (-1) (0) (0) (0) (1)).
  - intros m g Hm Hg. cbn [In] in Hg. destruct Hg as [<- | [<- | [<- | []]]].
    + apply preserves_opp_id.
    + unfold X_bo42a. w_tac (Mat3 (-1) (0) (0) (-2) (1) (0) (1) (0) (1)).
    + unfold X_bo42b. w_tac (Mat3 (-1) (0) (0) (0) (-1) (0) (0) (1) (1)).
Qed.

Lemma face_ortho_26_two : two_at_4 face_ortho_26.
Proof.
  apply (two_from_gens _ _ (fun m => HNF 1 1 2 (-1 + 1 * m) (-1 + 2 * m) (2 * m))
    (fun m => HNF 1 1 2 (-1 + 2 * m) (-1 + 2 * m) (2 * m)) face_ortho_26_gens).
  - dist_tac.
  - hnf_tac.
  - hnf_tac.
  - intros m g Hm Hg. cbn [In] in Hg. destruct Hg as [<- | [<- | [<- | []]]].
    + apply preserves_opp_id.
    + unfold X_bm20. w_tac (Mat3 (1) (0) (0) (-1) (-1) (0) (1) (2) (1)).
    + unfold X_fo26. w_tac (Mat3 (-1) (0) (0) (0) (-1) (0) (1) (2) (1)).
  - intros m g Hm Hg. cbn [In] in Hg. destruct Hg as [<- | [<- | [<- | []]]].
    + apply preserves_opp_id.
    + unfold X_bm20. w_tac (Mat3 (1) (0) (0) (-1) (-1) (0) (1) (2) (1)).
    + unfold X_fo26. w_tac (Mat3 (-1) (0) (0) (0) (-1) (0) (2) (2) (1)).
Qed.

Lemma face_ortho_16_two : two_at_4 face_ortho_16.
Proof.
  apply (two_from_gens _ _ (fun m => HNF 1 1 2 (-1 + 1 * m) (-1 + 2 * m) (2 * m))
    (fun m => HNF 1 1 2 (-1 + 2 * m) (-1 + 2 * m) (2 * m)) face_ortho_16_gens).
  - dist_tac.
  - hnf_tac.
  - hnf_tac.
  - intros m g Hm Hg. cbn [In] in Hg. destruct Hg as [<- | [<- | [<- | []]]].
    + apply preserves_opp_id.
    + unfold X_bm20. w_tac (Mat3 (1) (0) (0) (-1) (-1) (0) (1) (2) (1)).
    + unfold X_bo8b. w_tac (Mat3 (-1) (0) (0) (1) (1) (0) (0) (0) (1)).
  - intros m g Hm Hg. cbn [In] in Hg. destruct Hg as [<- | [<- | [<- | []]]].
    + apply preserves_opp_id.
    + unfold X_bm20. w_tac (Mat3 (1) (0) (0) (-1) (-1) (0) (1) (2) (1)).
    + unfold X_bo8b. w_tac (Mat3 (-1) (0) (0) (1) (1) (0) (1) (0) (1)).
Qed.

Lemma base_ortho_38_13_two : two_at_4 base_ortho_38_13.
Proof.
  apply (two_from_gens _ _ (fun m => HNF 1 0 1 0 0 (4 * m))
    (fun m => HNF 1 0 1 (0 + 2 * m) (0 + 2 * m) (4 * m)) base_ortho_38_13_gens).
  - dist_tac.
  - hnf_tac.
  - hnf_tac.
  - intros m g Hm Hg. cbn [In] in Hg. destruct Hg as [<- | [<- | [<- | []]]].
    + apply preserves_opp_id.
    + unfold S_xy. w_tac (Mat3 (0) (1) (0) (1) (0) (0) (0) (0) (1)).
    + unfold D_ppm. w_tac (Mat3 (1) (0) (0) (0) (1) (0) (0) (0) (-1)).
  - intros m g Hm Hg. cbn [In] in Hg. destruct Hg as [<- | [<- | [<- | []]]].
    + apply preserves_opp_id.
    + unfold S_xy. w_tac (Mat3 (0) (1) (0) (1) (0) (0) (0) (0) (1)).
    + unfold D_ppm. w_tac (Mat3 (1) (0) (0) (0) (1) (0) (-1) (-1) (-1)).
Qed.

Lemma base_ortho_23_two : two_at_4 base_ortho_23.
Proof.
  apply (two_from_gens _ _ (fun m => HNF 1 0 1 1 0 (4 * m))
    (fun m => HNF 1 0 1 1 (0 + 2 * m) (4 * m)) base_ortho_23_gens).
  - dist_tac.
  - hnf_tac.
  - hnf_tac.
  - intros m g Hm Hg. cbn [In] in Hg. destruct Hg as [<- | [<- | [<- | []]]].
    + apply preserves_opp_id.
    + unfold D_pmp. w_tac (Mat3 (1) (0) (0) (0) (-1) (0) (0) (0) (1)).
    + unfold S_xz. w_tac (Mat3 (1) (0) (0 + 4 * m) (0) (1) (0) (0) (0) (-1)).
  - intros m g Hm Hg. cbn [In] in Hg. destruct Hg as [<- | [<- | [<- | []]]].
    + apply preserves_opp_id.
    + unfold D_pmp. w_tac (Mat3 (1) (0) (0) (0) (-1) (0) (0) (1) (1)).
    + unfold S_xz. w_tac (Mat3 (1) (0 + 2 * m) (0 + 4 * m) (0) (1) (0) (0) (-1) (-1)).
Qed.

Lemma base_ortho_40_two : two_at_4 base_ortho_40.
Proof.
  apply (two_from_gens _ _ (fun m => HNF 1 0 1 0 0 (4 * m))
    (fun m => HNF 1 0 1 0 2 (4 * m)) base_ortho_40_gens).
  - dist_tac.
  - hnf_tac.
  - hnf_tac.
  - intros m g Hm Hg. cbn [In] in Hg. destruct Hg as [<- | [<- | [<- | []]]].
    + apply preserves_opp_id.
    + unfold X_ba40a. w_tac (Mat3 (1) (0) (0) (0) (1) (0 + -4 * m) (0) (0) (-1)).
    + unfold X_ba40b. w_tac (Mat3 (-1) (0) (0) (0) (1) (0 + -4 * m) (0) (0) (-1)).
  - intros m g Hm Hg. cbn [In] in Hg. destruct Hg as [<- | [<- | [<- | []]]].
    + apply preserves_opp_id.
    + unfold X_ba40a. w_tac (Mat3 (1) (0) (0) (0) (-1) (0 + -4 * m) (0) (0) (1)).
    + unfold X_ba40b. w_tac (Mat3 (-1) (0) (0) (0) (-1) (0 + -4 * m) (0) (0) (1)).
Qed.

Lemma base_ortho_36_two : two_at_4 base_ortho_36.
Proof.
  apply (two_from_gens _ _ (fun m => HNF 1 0 1 0 0 (4 * m))
    (fun m => HNF 1 0 1 0 (0 + 2 * m) (4 * m)) base_ortho_36_gens).
  - dist_tac.
  - hnf_tac.
  - hnf_tac.
  - intros m g Hm Hg. cbn [In] in Hg. destruct Hg as [<- | [<- | [<- | []]]].
    + apply preserves_opp_id.
    + unfold D_pmp. w_tac (Mat3 (1) (0) (0) (0) (-1) (0) (0) (0) (1)).
    + unfold X_ba36. w_tac (Mat3 (-1) (0) (0 + 4 * m) (0) (-1) (0) (0) (0) (1)).
  - intros m g Hm Hg. cbn [In] in Hg. destruct Hg as [<- | [<- | [<- | []]]].
    + apply preserves_opp_id.
    + unfold D_pmp. w_tac (Mat3 (1) (0) (0) (0) (-1) (0) (0) (1) (1)).
    + unfold X_ba36. w_tac (Mat3 (-1) (0 + 2 * m) (0 + 4 * m) (0) (-1) (0) (0) (1) (1)).
Qed.

Lemma hex_12_two : two_at_4 hex_12.
Proof.
  apply (two_from_gens _ _ (fun m => HNF 1 0 1 0 0 (4 * m))
    (fun m => HNF 2 0 2 0 0 (1 * m)) hex_12_gens).
  - dist_tac.
  - hnf_tac.
  - hnf_tac.
  - intros m g Hm Hg. cbn [In] in Hg. destruct Hg as [<- | [<- | [<- | [<- | []]]]].
    + apply preserves_opp_id.
    + unfold X_h12a. w_tac (Mat3 (-1) (0) (0) (1) (1) (0) (0) (0) (-1)).
    + unfold X_h12b. w_tac (Mat3 (-1) (-1) (0) (0) (1) (0) (0) (0) (1)).
    + unfold X_h12c. w_tac (Mat3 (-1) (-1) (0) (0) (1) (0) (0) (0) (-1)).
  - intros m g Hm Hg. cbn [In] in Hg. destruct Hg as [<- | [<- | [<- | [<- | []]]]].
    + apply preserves_opp_id.
    + unfold X_h12a. w_tac (Mat3 (-1) (0) (0) (1) (1) (0) (0) (0) (-1)).
    + unfold X_h12b. w_tac (Mat3 (-1) (-1) (0) (0) (1) (0) (0) (0) (1)).
    + unfold X_h12c. w_tac (Mat3 (-1) (-1) (0) (0) (1) (0) (0) (0) (-1)).
Qed.

Lemma hex_22_two : two_at_4 hex_22.
Proof.
  apply (two_from_gens _ _ (fun m => HNF (1 * m) 0 2 0 0 2)
    (fun m => HNF (4 * m) 0 1 0 0 1) hex_22_gens).
  - dist_tac.
  - hnf_tac.
  - hnf_tac.
  - intros m g Hm Hg. cbn [In] in Hg. destruct Hg as [<- | [<- | [<- | []]]].
    + apply preserves_opp_id.
    + unfold X_h22a. w_tac (Mat3 (-1) (0) (0) (0) (-1) (0) (0) (-1) (1)).
    + unfold X_h22b. w_tac (Mat3 (-1) (0) (0) (0) (-1) (1) (0) (-1) (0)).
  - intros m g Hm Hg. cbn [In] in Hg. destruct Hg as [<- | [<- | [<- | []]]].
    + apply preserves_opp_id.
    + unfold X_h22a. w_tac (Mat3 (-1) (0) (0) (0) (-1) (0) (0) (-1) (1)).
    + unfold X_h22b. w_tac (Mat3 (-1) (0) (0) (0) (-1) (1) (0) (-1) (0)).
Qed.

Lemma sm_33_two : two_at_4 sm_33.
Proof.
  apply (two_from_gens _ _ (fun m => HNF 1 0 1 0 0 (4 * m))
    (fun m => HNF 1 0 1 0 (0 + 2 * m) (4 * m)) sm_33_gens).
  - dist_tac.
  - hnf_tac.
  - hnf_tac.
  - intros m g Hm Hg. cbn [In] in Hg. destruct Hg as [<- | [<- | []]].
    + apply preserves_opp_id.
    + unfold D_pmp. w_tac (Mat3 (1) (0) (0) (0) (-1) (0) (0) (0) (1)).
  - intros m g Hm Hg. cbn [In] in Hg. destruct Hg as [<- | [<- | []]].
    + apply preserves_opp_id.
    + unfold D_pmp. w_tac (Mat3 (1) (0) (0) (0) (-1) (0) (0) (1) (1)).
Qed.

Lemma sm_35_two : two_at_4 sm_35.
Proof.
  apply (two_from_gens _ _ (fun m => HNF 1 0 1 0 0 (4 * m))
    (fun m => HNF 1 0 1 0 (0 + 2 * m) (4 * m)) sm_35_gens).
  - dist_tac.
  - hnf_tac.
  - hnf_tac.
  - intros m g Hm Hg. cbn [In] in Hg. destruct Hg as [<- | [<- | []]].
    + apply preserves_opp_id.
    + unfold D_ppm. w_tac (Mat3 (1) (0) (0) (0) (1) (0) (0) (0) (-1)).
  - intros m g Hm Hg. cbn [In] in Hg. destruct Hg as [<- | [<- | []]].
    + apply preserves_opp_id.
    + unfold D_ppm. w_tac (Mat3 (1) (0) (0) (0) (1) (0) (0) (-1) (-1)).
Qed.

Lemma sm_34_two : two_at_4 sm_34.
Proof.
  apply (two_from_gens _ _ (fun m => HNF 1 0 1 0 0 (4 * m))
    (fun m => HNF 1 0 1 0 (0 + 2 * m) (4 * m)) sm_34_gens).
  - dist_tac.
  - hnf_tac.
  - hnf_tac.
  - intros m g Hm Hg. cbn [In] in Hg. destruct Hg as [<- | [<- | []]].
    + apply preserves_opp_id.
    + unfold D_ppm. w_tac (Mat3 (1) (0) (0) (0) (1) (0) (0) (0) (-1)).
  - intros m g Hm Hg. cbn [In] in Hg. destruct Hg as [<- | [<- | []]].
    + apply preserves_opp_id.
    + unfold D_ppm. w_tac (Mat3 (1) (0) (0) (0) (1) (0) (0) (-1) (-1)).
Qed.

Lemma base_mono_10_14_17_27_37_39_41_two : two_at_4 base_mono_10_14_17_27_37_39_41.
Proof.
  apply (two_from_gens _ _ (fun m => HNF 1 0 (4 * m) 0 0 1)
    (fun m => HNF 1 1 (4 * m) 0 0 1) base_mono_10_gens).
  - dist_tac.
  - hnf_tac.
  - hnf_tac.
  - intros m g Hm Hg. cbn [In] in Hg. destruct Hg as [<- | [<- | []]].
    + apply preserves_opp_id.
    + unfold X_bm10. w_tac (Mat3 (-1) (0) (0) (0) (-1) (0) (-1) (0) (1)).
  - intros m g Hm Hg. cbn [In] in Hg. destruct Hg as [<- | [<- | []]].
    + apply preserves_opp_id.
    + unfold X_bm10. w_tac (Mat3 (-1) (0) (0) (0) (-1) (0) (-1) (0) (1)).
Qed.

Lemma base_mono_20_25_two : two_at_4 base_mono_20_25.
Proof.
  apply (two_from_gens _ _ (fun m => HNF 1 0 2 0 (-1 + 1 * m) (2 * m))
    (fun m => HNF 1 0 2 0 (-1 + 2 * m) (2 * m)) base_mono_20_25_gens).
  - dist_tac.
  - hnf_tac.
  - hnf_tac.
  - intros m g Hm Hg. cbn [In] in Hg. destruct Hg as [<- | [<- | []]].
    + apply preserves_opp_id.
    + unfold X_bm20. w_tac (Mat3 (1) (0) (0) (0) (-1) (0) (0) (1) (1)).
  - intros m g Hm Hg. cbn [In] in Hg. destruct Hg as [<- | [<- | []]].
    + apply preserves_opp_id.
    + unfold X_bm20. w_tac (Mat3 (1) (0) (0) (0) (-1) (0) (0) (2) (1)).
Qed.

Lemma base_mono_28_two : two_at_4 base_mono_28.
Proof.
  apply (two_from_gens _ _ (fun m => HNF 1 0 1 0 0 (4 * m))
    (fun m => HNF 1 0 1 0 (0 + 2 * m) (4 * m)) base_mono_28_gens).
  - dist_tac.
  - hnf_tac.
  - hnf_tac.
  - intros m g Hm Hg. cbn [In] in Hg. destruct Hg as [<- | [<- | []]].
    + apply preserves_opp_id.
    + unfold X_bm28. w_tac (Mat3 (-1) (0) (0) (0) (-1) (0 + -4 * m) (0) (0) (1)).
  - intros m g Hm Hg. cbn [In] in Hg. destruct Hg as [<- | [<- | []]].
    + apply preserves_opp_id.
    + unfold X_bm28. w_tac (Mat3 (-1) (0) (0) (0) (-1 + -2 * m) (0 + -4 * m) (0) (1 + 1 * m) (1 + 2 * m)).
Qed.

Lemma base_mono_29_30_two : two_at_4 base_mono_29_30.
Proof.
  apply (two_from_gens _ _ (fun m => HNF 1 0 1 0 0 (4 * m))
    (fun m => HNF 1 0 1 0 (0 + 2 * m) (4 * m)) base_mono_29_30_gens).
  - dist_tac.
  - hnf_tac.
  - hnf_tac.
  - intros m g Hm Hg. cbn [In] in Hg. destruct Hg as [<- | [<- | []]].
    + apply preserves_opp_id.
    + unfold X_bm28. w_tac (Mat3 (-1) (0) (0) (0) (-1) (0 + -4 * m) (0) (0) (1)).
  - intros m g Hm Hg. cbn [In] in Hg. destruct Hg as [<- | [<- | []]].
    + apply preserves_opp_id.
    + unfold X_bm28. w_tac (Mat3 (-1) (0) (0) (0) (-1 + -2 * m) (0 + -4 * m) (0) (1 + 1 * m) (1 + 2 * m)).
Qed.

Lemma base_mono_43_two : two_at_4 base_mono_43.
Proof.
  apply (two_from_gens _ _ (fun m => HNF 1 0 1 0 2 (4 * m))
    (fun m => HNF 1 0 1 1 2 (4 * m)) base_mono_43_gens).
  - dist_tac.
  - hnf_tac.
  - hnf_tac.
  - intros m g Hm Hg. cbn [In] in Hg. destruct Hg as [<- | [<- | []]].
    + apply preserves_opp_id.
    + unfold X_bm43. w_tac (Mat3 (-1) (0) (0) (1) (1) (0 + 4 * m) (0) (0) (-1)).
  - intros m g Hm Hg. cbn [In] in Hg. destruct Hg as [<- | [<- | []]].
    + apply preserves_opp_id.
    + unfold X_bm43. w_tac (Mat3 (-1) (0) (0) (2) (1) (0 + 4 * m) (0) (0) (-1)).
Qed.

(** For the rhombohedral lattices the second superlattice is given by a basis that is
    not in normal form. *)
Lemma two_from_basis gens enum (H K : Z -> mat3) :
  enumerates_gens gens enum ->
  (forall m, 1 <= m -> ~ in_lattice (K m) (mvec (H m) (Vec3 0 1 0))) ->
  (forall m, 1 <= m -> is_hnf (4 * m) (H m)) ->
  (forall m, 1 <= m -> Z.abs (mdet (K m)) = 4 * m) ->
  (forall m g, 1 <= m -> In g gens -> preserves g (H m)) ->
  (forall m g, 1 <= m -> In g gens -> preserves g (K m)) -> two_at_4 enum.
Proof.
  intros HE HD H1 K1 H2 K2 m Hm.
  destruct (hnf_exists_unique (4 * m) (K m)) as (L & (L1 & L2) & _); [lia|auto|].
  exists (H m), L. split.
  - intros E. apply (HD m Hm). apply L2. rewrite <- E. now exists (Vec3 0 1 0).
  - split; apply HE; (split; [auto|]); intros g Hg; [auto|].
    eapply preserves_same_lattice; [apply same_lattice_sym, L2|]. auto.
Qed.

Lemma parity_cases (P : Z -> Prop) :
  (forall j, 1 <= j -> P (2 * j)) -> (forall j, 0 <= j -> P (2 * j + 1)) ->
  forall m, 1 <= m -> P m.
Proof.
  intros A B m Hm. destruct (Z.Even_or_Odd m) as [(j & ->)|(j & ->)]; [apply A|apply B]; lia.
Qed.

Definition rhom_9_24_basis (m : Z) : mat3 :=
  if Z.even m then Mat3 (-2) (0) (0 + -2 * (m / 2)) (2) (-4) (0) (0) (2) (0) else Mat3 (-2) (0) (1 + -2 * (m / 2)) (2) (-4) (0) (0) (2) (-1).
Lemma rhom_9_24_basis_even j : rhom_9_24_basis (2 * j) = Mat3 (-2) (0) (0 + -2 * j) (2) (-4) (0) (0) (2) (0).
Proof. unfold rhom_9_24_basis. rewrite Z.even_mul. cbn [Z.even orb]. replace (2 * j / 2) with j by (rewrite Z.mul_comm, Z.div_mul by lia; reflexivity). reflexivity. Qed.
Lemma rhom_9_24_basis_odd j : rhom_9_24_basis (2 * j + 1) = Mat3 (-2) (0) (1 + -2 * j) (2) (-4) (0) (0) (2) (-1).
Proof. unfold rhom_9_24_basis. rewrite Z.even_add, Z.even_mul. cbn [Z.even orb Bool.eqb]. replace ((2 * j + 1) / 2) with j by (rewrite Z.add_comm, Z.mul_comm, Z.div_add by lia; reflexivity). reflexivity. Qed.
Lemma rhom_9_24_two : two_at_4 rhom_9_24.
Proof.
  apply (two_from_basis _ _ (fun m => HNF 1 1 2 (-1 + 2 * m) (-1 + 2 * m) (2 * m)) rhom_9_24_basis rhom_9_24_gens).
  - apply parity_cases; intros j Hj; (rewrite rhom_9_24_basis_even || rewrite rhom_9_24_basis_odd);
      intros ([x y z] & E); unfold mvec, HNF in E; cbn [m11 m12 m13 m21 m22 m23 m31 m32 m33 v1 v2 v3] in E;
      pose proof (f_equal v1 E) as E1; pose proof (f_equal v2 E) as E2; pose proof (f_equal v3 E) as E3;
      cbn [v1 v2 v3] in E1, E2, E3; lia.
  - hnf_tac.
  - apply parity_cases; intros j Hj; (rewrite rhom_9_24_basis_even || rewrite rhom_9_24_basis_odd);
      unfold mdet; cbn [m11 m12 m13 m21 m22 m23 m31 m32 m33]; lia.
  - intros m g Hm Hg. cbn [In] in Hg. destruct Hg as [<- | [<- | [<- | []]]].
    + apply preserves_opp_id.
    + unfold X_bm20. w_tac (Mat3 (1) (0) (0) (-1) (-1) (0) (1) (2) (1)).
    + unfold X_r9. w_tac (Mat3 (1 + -2 * m) (1 + -2 * m) (0 + -2 * m) (-1 + 2 * m) (0 + 2 * m) (0 + 2 * m) (-1) (-2) (-1)).
  - intros m g Hm Hg. revert m Hm. cbn [In] in Hg. destruct Hg as [<- | [<- | [<- | []]]].
    + intros. apply preserves_opp_id.
    + apply parity_cases; intros j Hj; [rewrite rhom_9_24_basis_even | rewrite rhom_9_24_basis_odd]; unfold X_bm20.
      * w_tac (Mat3 (1) (0) (0) (1) (-1) (0) (0) (0) (1)).
      * w_tac (Mat3 (1) (0) (0) (1) (-1) (0) (0) (0) (1)).
    + apply parity_cases; intros j Hj; [rewrite rhom_9_24_basis_even | rewrite rhom_9_24_basis_odd]; unfold X_r9.
      * w_tac (Mat3 (0) (1) (0 + 1 * j) (-1) (1) (0) (0) (0) (-1)).
      * w_tac (Mat3 (0) (1) (-1 + 1 * j) (-1) (1) (0) (0) (0) (-1)).
Qed.

Definition rhom_4_2_basis (m : Z) : mat3 :=
  if Z.even m then Mat3 (-2) (0) (0 + -2 * (m / 2)) (2) (-4) (0) (0) (-2) (0) else Mat3 (-2) (0) (1 + -2 * (m / 2)) (2) (-4) (0) (0) (-2) (1).
Lemma rhom_4_2_basis_even j : rhom_4_2_basis (2 * j) = Mat3 (-2) (0) (0 + -2 * j) (2) (-4) (0) (0) (-2) (0).
Proof. unfold rhom_4_2_basis. rewrite Z.even_mul. cbn [Z.even orb]. replace (2 * j / 2) with j by (rewrite Z.mul_comm, Z.div_mul by lia; reflexivity). reflexivity. Qed.
Lemma rhom_4_2_basis_odd j : rhom_4_2_basis (2 * j + 1) = Mat3 (-2) (0) (1 + -2 * j) (2) (-4) (0) (0) (-2) (1).
Proof. unfold rhom_4_2_basis. rewrite Z.even_add, Z.even_mul. cbn [Z.even orb Bool.eqb]. replace ((2 * j + 1) / 2) with j by (rewrite Z.add_comm, Z.mul_comm, Z.div_add by lia; reflexivity). reflexivity. Qed.
Lemma rhom_4_2_two : two_at_4 rhom_4_2.
Proof.
  apply (two_from_basis _ _ (fun m => HNF 1 1 2 1 1 (2 * m)) rhom_4_2_basis rhom_4_2_gens).
  - apply parity_cases; intros j Hj; (rewrite rhom_4_2_basis_even || rewrite rhom_4_2_basis_odd);
      intros ([x y z] & E); unfold mvec, HNF in E; cbn [m11 m12 m13 m21 m22 m23 m31 m32 m33 v1 v2 v3] in E;
      pose proof (f_equal v1 E) as E1; pose proof (f_equal v2 E) as E2; pose proof (f_equal v3 E) as E3;
      cbn [v1 v2 v3] in E1, E2, E3; lia.
  - hnf_tac.
  - apply parity_cases; intros j Hj; (rewrite rhom_4_2_basis_even || rewrite rhom_4_2_basis_odd);
      unfold mdet; cbn [m11 m12 m13 m21 m22 m23 m31 m32 m33]; lia.
  - intros m g Hm Hg. cbn [In] in Hg. destruct Hg as [<- | [<- | [<- | []]]].
    + apply preserves_opp_id.
    + unfold X_r4a. w_tac (Mat3 (1) (0) (0) (-1) (-1) (0) (0) (0) (1)).
    + unfold X_r4b. w_tac (Mat3 (-1) (-1) (0 + -2 * m) (0) (1) (0) (0) (0) (1)).
  - intros m g Hm Hg. revert m Hm. cbn [In] in Hg. destruct Hg as [<- | [<- | [<- | []]]].
    + intros. apply preserves_opp_id.
    + apply parity_cases; intros j Hj; [rewrite rhom_4_2_basis_even | rewrite rhom_4_2_basis_odd]; unfold X_r4a.
      * w_tac (Mat3 (1) (0) (0) (1) (-1) (0) (0) (0) (1)).
      * w_tac (Mat3 (1) (0) (0) (1) (-1) (0) (0) (0) (1)).
    + apply parity_cases; intros j Hj; [rewrite rhom_4_2_basis_even | rewrite rhom_4_2_basis_odd]; unfold X_r4b.
      * w_tac (Mat3 (0) (-1) (0 + -1 * j) (-1) (0) (0 + -1 * j) (0) (0) (1)).
      * w_tac (Mat3 (0) (-1) (1 + -1 * j) (-1) (0) (1 + -1 * j) (0) (0) (1)).
Qed.
