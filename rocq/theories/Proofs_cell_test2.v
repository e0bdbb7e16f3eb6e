(** [_test_case] on arbitrary supercells. *)
From Coq Require Import ZArith QArith Qcanon Qround List Bool Lia.
From Verif Require Import Mat3 QMat QNum QcTac Spec_basis_check Model_transform Model_pyniggli Model_niggli_id
  Model_find_supercells Model_cell_test Proofs_pyniggli2 Proofs_transform Proofs_gridcell Proofs_find_supercells Proofs_cell_test.
Import ListNotations.
Open Scope Qc_scope.

Lemma floor_bounds x : zq (Qfloor (this x)) <= x /\ x < zq (Qfloor (this x) + 1).
Proof.
  pose proof (Qfloor_le (this x)) as A. pose proof (Qlt_floor (this x)) as B. unfold zq, Qcle, Qclt. split.
  - now rewrite (this_Q2Qc (inject_Z _)).
  - now rewrite (this_Q2Qc (inject_Z _)).
Qed.
Lemma floor_unique x z : zq z <= x -> x < zq (z + 1) -> Qfloor (this x) = z.
Proof.
  intros H1 H2. destruct (floor_bounds x) as (A & B).
  assert (zq z < zq (Qfloor (this x) + 1)) by qclra. assert (zq (Qfloor (this x)) < zq (z + 1)) by qclra.
  apply (proj1 (zq_lt _ _)) in H. apply (proj1 (zq_lt _ _)) in H0. lia.
Qed.
Lemma zq_one : zq 1 = 1. Proof. reflexivity. Qed.

Lemma rint_close y : qabs (y - zq (rint y)) <= Q2Qc (1 # 2).
Proof.
  unfold rint. cbv zeta. destruct (floor_bounds y) as (A & B). rewrite zq_add, zq_one in B.
  destruct (qltb (y - zq (Qfloor (this y))) (Q2Qc (1 # 2))) eqn:E1.
  { apply qltb_iff in E1. apply qabs_le. split; qclra. }
  apply qltb_false in E1. destruct (qltb (Q2Qc (1 # 2)) (y - zq (Qfloor (this y)))) eqn:E2.
  { apply qltb_iff in E2. apply qabs_le. rewrite zq_add, zq_one. split; qclra. }
  apply qltb_false in E2. destruct (Z.even _); apply qabs_le; rewrite ?zq_add, ?zq_one; split; qclra.
Qed.
Lemma rint_even y z : Z.even z = true -> qabs (y - zq z) <= Q2Qc (1 # 2) -> rint y = z.
Proof.
  intros HE H. apply qabs_le in H as (H1 & H2). unfold rint. cbv zeta.
  destruct (Qclt_le_dec y (zq z)) as [L|L].
  - assert (F : Qfloor (this y) = (z - 1)%Z).
    { apply floor_unique; [rewrite zq_sub, zq_one; qclra|]. now rewrite Z.sub_add. }
    rewrite F. assert (E1 : qltb (y - zq (z - 1)) (Q2Qc (1 # 2)) = false).
    { apply qltb_false. rewrite zq_sub, zq_one. qclra. }
    rewrite E1. assert (EV : Z.even (z - 1) = false).
    { rewrite Z.even_sub, HE. reflexivity. }
    rewrite EV. destruct (qltb (Q2Qc (1 # 2)) _); apply Z.sub_add.
  - assert (F : Qfloor (this y) = z).
    { apply floor_unique; [exact L|]. rewrite zq_add, zq_one. qclra. }
    rewrite F, HE. destruct (qltb (y - zq z) (Q2Qc (1 # 2))) eqn:E1; [reflexivity|].
    assert (E2 : qltb (Q2Qc (1 # 2)) (y - zq z) = false) by (apply qltb_false; qclra).
    now rewrite E2.
Qed.

Lemma q1000 : zq 1000 = Q2Qc (1000 # 1). Proof. reflexivity. Qed.
Lemma times_1000 x : x / zq 1000 * zq 1000 = x.
Proof. field. discriminate. Qed.
Lemma mod1_thousandth r : mod1 (zq r / zq 1000) = zq (r mod 1000) / zq 1000.
Proof.
  assert (E : zq r / zq 1000 = zq (r / 1000) + zq (r mod 1000) / zq 1000).
  { rewrite (Z.div_mod r 1000) at 1 by lia. rewrite zq_add, zq_mul. field. discriminate. }
  assert (B : (0 <= r mod 1000 < 1000)%Z) by (apply Z.mod_pos_bound; lia).
  assert (B1 : 0 <= zq (r mod 1000) / zq 1000 /\ zq (r mod 1000) / zq 1000 < 1).
  { pose proof (times_1000 (zq (r mod 1000))) as T. destruct B as (B0 & B9). apply zq_le in B0. apply zq_lt in B9.
    change (zq 0) with 0 in B0. revert T B0 B9. generalize (zq (r mod 1000)). intros q. generalize (q / zq 1000). intros d T B0 B9.
    rewrite q1000 in *. split; qclra. }
  destruct B1 as (B0 & B9). unfold mod1. rewrite (floor_unique _ (r / 1000)).
  - rewrite E. ring.
  - rewrite E. revert B0 B9. generalize (zq (r mod 1000) / zq 1000). intros. qclra.
  - rewrite E, zq_add, zq_one. revert B0 B9. generalize (zq (r mod 1000) / zq 1000). intros. qclra.
Qed.
Lemma entry_iff x : allclose (qdec 1 8) (mod1 (round3 x)) 0 = true <-> exists z, qabs (x - zq z) <= Q2Qc (1 # 2000).
Proof.
  unfold round3. rewrite mod1_thousandth. set (r := rint (x * zq 1000)).
  assert (K : allclose (qdec 1 8) (zq (r mod 1000) / zq 1000) 0 = true <-> (r mod 1000 = 0)%Z).
  { assert (B : (0 <= r mod 1000)%Z) by (apply Z.mod_pos_bound; lia). revert B. generalize (r mod 1000)%Z. intros m B.
    unfold allclose, allclose_r. rewrite negb_true_iff, qltb_false.
    replace (qdec 1 8 + rtol * qabs 0) with (qdec 1 8) by (apply Qc_is_canon; vm_compute; reflexivity).
    replace (zq m / zq 1000 - 0) with (zq m / zq 1000) by ring. split.
    - intros H. apply qabs_le in H as (_ & H). destruct (Z.eq_dec m 0) as [E|E]; [exact E|exfalso].
      assert (1 <= m)%Z by lia. apply zq_le in H0. rewrite zq_one in H0. pose proof (times_1000 (zq m)) as T.
      revert H H0 T. generalize (zq m). intros q. generalize (q / zq 1000). intros d H H0 T. rewrite q1000 in T.
      unfold qdec in H. cbn in H. qclra.
    - intros ->. vm_compute. discriminate. }
  rewrite K. clear K. split.
  - intros H. exists (r / 1000)%Z. pose proof (rint_close (x * zq 1000)) as C. fold r in C.
    rewrite (Z.div_mod r 1000), H, Z.add_0_r, zq_mul in C by lia.
    apply qabs_le in C as (C1 & C2). apply qabs_le. revert C1 C2. generalize (zq (r / 1000)). intros q C1 C2.
    rewrite q1000 in *. split; qclra.
  - intros (z & H). assert (E : r = (1000 * z)%Z).
    { apply rint_even; [rewrite Z.even_mul; reflexivity|]. rewrite zq_mul. apply qabs_le in H as (H1 & H2). apply qabs_le.
      revert H1 H2. generalize (zq z). intros q H1 H2. rewrite q1000. split; qclra. }
    rewrite E, Z.mul_comm. apply Z.mod_mul. lia.
Qed.
Lemma whole_iff A : whole A = true <-> nearly_integer A.
Proof.
  destruct A as [a b c d e f g h i]. unfold whole, nearly_integer. cbv zeta. rewrite !andb_true_iff, !entry_iff.
  cbn [q11 q12 q13 q21 q22 q23 q31 q32 q33 In]. split.
  - intros ((((((((( x1 & H1) & (x2 & H2)) & (x3 & H3)) & (x4 & H4)) & (x5 & H5)) & (x6 & H6)) & (x7 & H7)) & (x8 & H8)) & (x9 & H9)).
    exists (Mat3 x1 x2 x3 x4 x5 x6 x7 x8 x9). cbn [m11 m12 m13 m21 m22 m23 m31 m32 m33]. intros x z K.
    repeat (destruct K as [K|K]; [injection K as <- <-; assumption|]). destruct K.
  - intros (M & H). repeat split; eexists; apply H; auto 12.
Qed.
Lemma nearly_tr A : nearly_integer (qtr A) <-> nearly_integer A.
Proof.
  destruct A as [a b c d e f g h i]. split; intros (M & H); exists (mtr M); intros x z K; apply H; revert K;
    cbn [qtr mtr q11 q12 q13 q21 q22 q23 q31 q32 q33 m11 m12 m13 m21 m22 m23 m31 m32 m33 In]; intuition.
Qed.
Lemma qinv_tr A : qdet A <> 0 -> qinv (qtr A) = qtr (qinv A).
Proof.
  intros H. assert (D : qdet (qtr A) <> 0) by now rewrite qdet_tr.
  assert (E : qmul (qtr (qinv A)) (qtr A) = qid) by (rewrite <- qtr_mul, qinv_r by exact H; reflexivity).
  rewrite <- (qmul_id_l (qinv (qtr A))), <- E, <- qmul_assoc, qinv_r, qmul_id_r by exact D. reflexivity.
Qed.
Lemma np_inv_none A : qdet A = 0 -> np_inv A = None.
Proof. intros H. unfold np_inv. now rewrite (proj2 (qeqb_eq _ _) H). Qed.

(** When the test passes. *)
Lemma case_passes cbrt U fam Bs : test_supercells cbrt U fam Bs = Passed <->
  forall B, In B Bs -> qdet U <> 0 /\ qdet B <> 0 /\ nearly_integer (qmul (qinv U) B) /\
    exists r, niggli_id cbrt (rows_of B) (Some (qdec 1 2)) None = Identified r /\ (lat_fam r <= fam)%Z.
Proof.
  induction Bs as [|B Bs IH]; [now split|]. cbn [test_supercells]. rewrite basis_rows_of.
  assert (HD : forall P : Prop, (P <-> (qdet U <> 0 /\ qdet B <> 0 /\ nearly_integer (qmul (qinv U) B) /\
      exists r, niggli_id cbrt (rows_of B) (Some (qdec 1 2)) None = Identified r /\ (lat_fam r <= fam)%Z) /\
      test_supercells cbrt U fam Bs = Passed) -> (P <-> forall B0, In B0 (B :: Bs) -> qdet U <> 0 /\ qdet B0 <> 0 /\ nearly_integer (qmul (qinv U) B0) /\
    exists r, niggli_id cbrt (rows_of B0) (Some (qdec 1 2)) None = Identified r /\ (lat_fam r <= fam)%Z)).
  { intros P ->. rewrite IH. split.
    - intros (A & C) B0 [<-|K]; [exact A|now apply C].
    - intros A. split; [apply A; now left|]. intros B0 K. apply A. now right. }
  apply HD. clear HD IH.
  destruct (niggli_id cbrt (rows_of B) (Some (qdec 1 2)) None) as [o| |r].
  1,2: split; [discriminate|intros ((_ & _ & _ & r & K & _) & _); discriminate K].
  destruct (Qc_eq_dec (qdet U) 0) as [ZU|NU].
  { rewrite np_inv_none by now rewrite qdet_tr. split; [discriminate|]. intros ((K & _) & _). now destruct (K ZU). }
  rewrite (np_inv_some (qtr U)) by now rewrite qdet_tr.
  destruct (Qc_eq_dec (qdet B) 0) as [ZB|NB].
  { rewrite np_inv_none by now rewrite qdet_tr. split; [discriminate|]. intros ((_ & K & _) & _). now destruct (K ZB). }
  assert (DB : qdet (qtr B) <> 0) by now rewrite qdet_tr.
  rewrite (np_inv_some (qtr B)), (np_inv_some (qinv (qtr B))), qinv_qinv by (try exact DB; now apply qinv_det).
  rewrite qinv_tr by exact NU. rewrite <- qtr_mul.
  pose proof (whole_iff (qtr (qmul (qinv U) B))) as W. rewrite nearly_tr in W.
  destruct (Z.ltb_spec fam (lat_fam r)) as [L|L]; cbn [orb].
  { split; [discriminate|]. intros ((_ & _ & _ & r' & [= <-] & K) & _). lia. }
  destruct (whole (qtr (qmul (qinv U) B))); cbn [negb].
  - split; [|now intros (_ & K)]. intros K. split; [|exact K]. split; [exact NU|]. split; [exact NB|]. split; [now apply W|].
    exists r. now split.
  - split; [discriminate|]. intros ((_ & _ & K & _) & _). apply W in K. discriminate K.
Qed.
