(** No enumerator lists the same HNF twice. *)
From Coq Require Import ZArith List Lia Bool.
From Verif Require Import Mat3 Spec PyNum Model_diag PyNumFacts Model_universal
  Model_sc Model_bcc Model_fcc Model_so Model_stet Model_hx Model_body_tet Model_body_ortho
  Model_sm Model_face_ortho Model_base_mono Model_rhom Model_base_ortho.
Import ListNotations.
Open Scope Z_scope.

(** Follow one produced HNF back through the loops. *)
Ltac nd_decode H :=
  cbv zeta in H;
  match type of H with
  | In _ (py_for _ _) =>
      let x := fresh "x" in apply in_py_for in H; destruct H as (x & _ & H); nd_decode H
  | In _ (py_if _ _) => apply in_py_if in H; destruct H as (_ & H); nd_decode H
  | In _ (_ :: nil) => apply in_one in H; subst; reflexivity
  end.

Ltac nd_list :=
  first [ apply NoDup_py_range; lia | apply NoDup_halves; lia
        | match goal with |- NoDup (if ?c mod 2 =? 0 then _ else _) =>
            let E := fresh in destruct (c mod 2 =? 0) eqn:E;
            [ constructor; [|constructor; [easy|constructor]]; cbn [In];
              apply Z.eqb_eq in E; Z.to_euclidean_division_equations; lia
            | constructor; [easy|constructor] ] end ].

Ltac nd_body :=
  cbv zeta;
  match goal with
  | |- NoDup (py_if _ _) => apply NoDup_py_if; nd_body
  | |- NoDup (py_for _ _) =>
      first [ apply NoDup_py_for with (key := m21);
                [ nd_list | intros; nd_body | let H := fresh in intros ? ? _ H; nd_decode H ]
            | apply NoDup_py_for with (key := m31);
                [ nd_list | intros; nd_body | let H := fresh in intros ? ? _ H; nd_decode H ]
            | apply NoDup_py_for with (key := m32);
                [ nd_list | intros; nd_body | let H := fresh in intros ? ? _ H; nd_decode H ] ]
  | |- NoDup (_ :: nil) => apply NoDup_one
  end.

Ltac nd_enum :=
  apply NoDup_py_for with (key := fun H => (m11 H, m22 H, m33 H));
  [ apply NoDup_diagonals
  | intros [[a c] f] Hd; apply in_diagonals in Hd; destruct Hd as (Ha & Hc & Hf & _); nd_body
  | let H := fresh in intros [[a c] f] ? _ H; nd_decode H ].

Lemma base_mono_10_14_17_27_37_39_41_nodup n : NoDup (base_mono_10_14_17_27_37_39_41 n).
Proof. unfold base_mono_10_14_17_27_37_39_41. nd_enum. Qed.
Lemma base_mono_20_25_nodup n : NoDup (base_mono_20_25 n).
Proof. unfold base_mono_20_25. nd_enum. Qed.
Lemma base_mono_28_nodup n : NoDup (base_mono_28 n).
Proof. unfold base_mono_28. nd_enum. Qed.
Lemma base_mono_29_30_nodup n : NoDup (base_mono_29_30 n).
Proof. unfold base_mono_29_30. nd_enum. Qed.
Lemma base_mono_43_nodup n : NoDup (base_mono_43 n).
Proof. unfold base_mono_43. nd_enum. Qed.
Lemma base_ortho_23_nodup n : NoDup (base_ortho_23 n).
Proof. unfold base_ortho_23. nd_enum. Qed.
Lemma base_ortho_36_nodup n : NoDup (base_ortho_36 n).
Proof. unfold base_ortho_36. nd_enum. Qed.
Lemma base_ortho_38_13_nodup n : NoDup (base_ortho_38_13 n).
Proof. unfold base_ortho_38_13. nd_enum. Qed.
Lemma base_ortho_40_nodup n : NoDup (base_ortho_40 n).
Proof. unfold base_ortho_40. nd_enum. Qed.
Lemma body_ortho_19_nodup n : NoDup (body_ortho_19 n).
Proof. unfold body_ortho_19. nd_enum. Qed.
Lemma body_ortho_42_nodup n : NoDup (body_ortho_42 n).
Proof. unfold body_ortho_42. nd_enum. Qed.
Lemma body_ortho_8_nodup n : NoDup (body_ortho_8 n).
Proof. unfold body_ortho_8. nd_enum. Qed.
Lemma body_tet_6_7_15_18_nodup n : NoDup (body_tet_6_7_15_18 n).
Proof. unfold body_tet_6_7_15_18. nd_enum. Qed.
Lemma face_ortho_16_nodup n : NoDup (face_ortho_16 n).
Proof. unfold face_ortho_16. nd_enum. Qed.
Lemma face_ortho_26_nodup n : NoDup (face_ortho_26 n).
Proof. unfold face_ortho_26. nd_enum. Qed.
Lemma hex_12_nodup n : NoDup (hex_12 n).
Proof. unfold hex_12. nd_enum. Qed.
Lemma hex_22_nodup n : NoDup (hex_22 n).
Proof. unfold hex_22. nd_enum. Qed.
Lemma rhom_4_2_nodup n : NoDup (rhom_4_2 n).
Proof. unfold rhom_4_2. nd_enum. Qed.
Lemma rhom_9_24_nodup n : NoDup (rhom_9_24 n).
Proof. unfold rhom_9_24. nd_enum. Qed.
Lemma sm_33_nodup n : NoDup (sm_33 n).
Proof. unfold sm_33. nd_enum. Qed.
Lemma sm_34_nodup n : NoDup (sm_34 n).
Proof. unfold sm_34. nd_enum. Qed.
Lemma sm_35_nodup n : NoDup (sm_35 n).
Proof. unfold sm_35. nd_enum. Qed.
Lemma so_32_nodup n : NoDup (so_32 n).
Proof. unfold so_32. nd_enum. Qed.
Lemma stet_11_nodup n : NoDup (stet_11 n).
Proof. unfold stet_11. nd_enum. Qed.
Lemma stet_21_nodup n : NoDup (stet_21 n).
Proof. unfold stet_21. nd_enum. Qed.

(** Cubic enumerators. *)
Lemma sc_3_nodup n : NoDup (sc_3 n).
Proof.
  unfold sc_3. induction (get_HNF_diagonals n) as [|[[a c] f] l IH]; cbn [sc_3_loop]; [constructor|].
  repeat match goal with |- NoDup (if ?b then _ else _) => destruct b end;
    first [apply NoDup_one | exact IH].
Qed.

Lemma bcc_5_nodup n : NoDup (bcc_5 n).
Proof.
  unfold bcc_5. apply NoDup_py_for with (key := fun H => (m11 H, m22 H, m33 H)).
  - apply NoDup_diagonals.
  - intros [[a c] f] _.
    repeat match goal with |- NoDup (if ?b then _ else _) => destruct b end;
      first [apply NoDup_one | constructor].
  - intros [[a c] f] H _ HH.
    repeat match type of HH with In _ (if ?b then _ else _) => destruct b end;
      try (apply in_one in HH; subst; reflexivity). destruct HH.
Qed.

Lemma fcc_1_nodup n : NoDup (fcc_1 n).
Proof.
  unfold fcc_1. apply NoDup_py_for with (key := fun H => (m11 H, m22 H, m33 H)).
  - apply NoDup_diagonals.
  - intros [[a c] f] _.
    repeat match goal with |- NoDup (if ?b then _ else _) => destruct b end;
      first [apply NoDup_one | constructor].
  - intros [[a c] f] H _ HH.
    repeat match type of HH with In _ (if ?b then _ else _) => destruct b end;
      try (apply in_one in HH; subst; reflexivity). destruct HH.
Qed.

(** The triclinic branch. *)
Lemma triclinic_nodup m n : 1 <= m -> NoDup (triclinic_hnfs m n).
Proof.
  intros Hm. unfold triclinic_hnfs.
  assert (D : forall x, m * x / m = x) by (intros x; rewrite Z.mul_comm; apply Z.div_mul; lia).
  apply NoDup_py_for with (key := fun H => (m11 H / m, m22 H / m, m33 H / m)).
  - apply NoDup_diagonals.
  - intros [[a c] f] _.
    apply NoDup_py_for with (key := fun H => m21 H / m).
    + apply NoDup_py_range; lia.
    + intros b _. apply NoDup_py_for with (key := fun H => m31 H / m).
      * apply NoDup_py_range; lia.
      * intros d _. apply NoDup_py_for with (key := fun H => m32 H / m).
        -- apply NoDup_py_range; lia.
        -- intros e _. apply NoDup_one.
        -- intros e H _ HH. apply in_one in HH. subst H. apply D.
      * intros d H _ HH. apply in_py_for in HH. destruct HH as (e & _ & HH).
        apply in_one in HH. subst H. apply D.
    + intros b H _ HH. apply in_py_for in HH. destruct HH as (d & _ & HH).
      apply in_py_for in HH. destruct HH as (e & _ & HH).
      apply in_one in HH. subst H. apply D.
  - intros [[a c] f] H _ HH. apply in_py_for in HH. destruct HH as (b & _ & HH).
    apply in_py_for in HH. destruct HH as (d & _ & HH).
    apply in_py_for in HH. destruct HH as (e & _ & HH).
    apply in_one in HH. subst H. unfold mscale, HNF. cbn [m11 m22 m33].
    now rewrite !D.
Qed.
