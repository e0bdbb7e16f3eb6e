(** The pass limit is not reached when few sums of squared lengths are possible. *)
From Coq Require Import ZArith QArith Qcanon List Bool Lia.
From Verif Require Import Mat3 QMat QNum QcTac Spec_grid Spec_niggli Spec_clear Model_pyniggli Proofs_pyniggli
  Proofs_niggli_term Proofs_gridcell2 Proofs_passes.
Import ListNotations.
Open Scope Qc_scope.

Lemma this_zq z : this (zq z) = inject_Z z.
Proof.
  unfold zq. cbn [this Q2Qc]. unfold Qred, inject_Z. pose proof (Z.ggcd_gcd z 1) as H.
  pose proof (Z.ggcd_correct_divisors z 1) as D. destruct (Z.ggcd z 1) as [g [aa bb]]. cbn [fst snd] in *.
  rewrite Z.gcd_1_r in H. subst g. destruct D as (D1 & D2).
  rewrite Z.mul_1_l in D1, D2. now subst.
Qed.

Lemma sum_scaled d U G C : qscale (zq d) (qgram U) = qof G ->
  zq d * lengths_sum (qmul U (qof C)) = zq (mS (cong C G)).
Proof.
  intros HG.
  assert (E : qscale (zq d) (qgram (qmul U (qof C))) = qof (cong C G)).
  { unfold cong. rewrite !qof_mul, qof_tr, <- HG, qscale_mul_l, qscale_mul_r.
    unfold qgram. now rewrite qtr_mul, !qmul_assoc. }
  unfold lengths_sum. cbv zeta. generalize dependent (qgram (qmul U (qof C))). intros H E.
  unfold mS, zA, zB, zC. rewrite !zq_add.
  pose proof (f_equal q11 E) as E1. pose proof (f_equal q22 E) as E2. pose proof (f_equal q33 E) as E3.
  unfold qscale, qof in E1, E2, E3. cbn [q11 q22 q33] in E1, E2, E3. rewrite <- E1, <- E2, <- E3. ring.
Qed.
Lemma cong_mid G : cong mid G = G.
Proof. unfold cong. rewrite mmul_id_r. change (mtr mid) with mid. apply mmul_id_l. Qed.

Lemma few_integers n d U G : (0 < d)%Z -> qscale (zq d) (qgram U) = qof G -> few_sums n U ->
  exists T, (Z.of_nat (length T) <= n)%Z /\
    forall C, mdet C = 1%Z -> (mS (cong C G) <= mS G)%Z -> In (mS (cong C G)) T.
Proof.
  intros Hd HG (T & HT & HI). exists (map (fun v => Qnum (this (zq d * v))) T).
  rewrite map_length. split; [exact HT|]. intros C HC HS.
  pose proof (sum_scaled d U G C HG) as E.
  pose proof (sum_scaled d U G mid HG) as E0. rewrite cong_mid in E0.
  replace (qmul U (qof mid)) with U in E0.
  2: { rewrite qof_id. symmetry. apply qmul_id_r. }
  apply in_map_iff. exists (lengths_sum (qmul U (qof C))). split.
  - rewrite E, this_zq. reflexivity.
  - apply (HI C HC). apply Qcnot_lt_le. intros K.
    assert (Hd' : 0 < zq d) by (rewrite <- zq_0; now apply zq_lt).
    apply (Qcmult_lt_compat_r _ _ (zq d) Hd') in K.
    rewrite (Qcmult_comm (lengths_sum U)), (Qcmult_comm (lengths_sum (qmul U (qof C)))), E, E0 in K. apply (proj1 (zq_lt (mS G) (mS (cong C G)))) in K. lia.
Qed.

Lemma few_count n U : qdet U <> 0 -> few_sums n U -> (snd (final 0 U) <= 23 * n + 1)%Z.
Proof.
  intros HU HF. destruct (clear_denoms (qgram U)) as (d & G & Hd & HG).
  destruct (few_integers n d U G Hd HG HF) as (T & HT & HI).
  pose proof (final_count d U G Hd HU HG T HI). lia.
Qed.
Lemma few_passes n U : qdet U <> 0 -> few_sums n U ->
  exists k, (Z.of_nat k <= 23 * n)%Z /\ snd (pass 0 U (after 0 U k)) = true.
Proof.
  intros HU HF. destruct (clear_denoms (qgram U)) as (d & G & Hd & HG).
  destruct (few_integers n d U G Hd HG HF) as (T & HT & HI).
  destruct (first_start U G T HI) as (S & P).
  destruct (run_count d U G Hd HU HG T HI (Z.to_nat (23 * Z.of_nat (length T) - 1)) _ _ S P) as (k & Hk & Ek).
  - lia.
  - exists k. split; [lia|exact Ek].
Qed.

(** Scalar products that are multiples of one number. *)
Lemma sum_pos U : qdet U <> 0 -> 0 < q11 (qgram U) /\ 0 < q22 (qgram U) /\ 0 < q33 (qgram U).
Proof.
  intros HU. destruct (clear_denoms (qgram U)) as (d & G & Hd & HG).
  destruct (zpos_bounds G (gram_zpos d U G Hd HU HG)) as (PA & PB & PC & _).
  unfold zA, zB, zC in *.
  pose proof (f_equal q11 HG) as E1. pose proof (f_equal q22 HG) as E2. pose proof (f_equal q33 HG) as E3.
  unfold qscale, qof in E1, E2, E3. cbn [q11 q22 q33] in E1, E2, E3.
  repeat split; [apply (scale_lt d 0 _ 0 (m11 G))|apply (scale_lt d 0 _ 0 (m22 G))
                |apply (scale_lt d 0 _ 0 (m33 G))]; try assumption; apply rep_0.
Qed.

Lemma spaced_few s U G : 0 < s -> qdet U <> 0 -> qgram U = qscale s (qof G) ->
  few_sums (m11 G + m22 G + m33 G - 2) U.
Proof.
  intros Hs HU HG. set (n := (m11 G + m22 G + m33 G)%Z).
  assert (E : forall C, let K := mmul (mtr C) (mmul G C) in
    qgram (qmul U (qof C)) = qscale s (qof K)).
  { intros C. cbv zeta. rewrite !qof_mul, qof_tr. unfold qgram in *. rewrite qtr_mul.
    rewrite <- qscale_mul_r, <- qscale_mul_l, <- HG, !qmul_assoc. reflexivity. }
  assert (SN : lengths_sum U = zq n * s).
  { unfold lengths_sum. cbv zeta. rewrite HG. unfold qscale, qof, n. cbn [q11 q22 q33].
    rewrite !zq_add. ring. }
  exists (map (fun i => zq (Z.of_nat i + 3) * s) (seq 0 (Z.to_nat (n - 2)))).
  assert (PI : forall z, 0 < s * zq z -> (1 <= z)%Z).
  { intros z H. enough (0 < z)%Z by lia. apply zq_lt. rewrite zq_0. apply Qcnot_le_lt. intros K.
    apply (Qclt_not_le _ _ H). replace 0 with (0 * s) by ring. rewrite (Qcmult_comm s).
    apply Qcmult_le_compat_r; [exact K|now apply Qclt_le_weak]. }
  assert (P : forall C, mdet C = 1%Z -> exists k, (3 <= k)%Z /\ lengths_sum (qmul U (qof C)) = zq k * s).
  { intros C HC. specialize (E C). cbv zeta in E. set (K := mmul (mtr C) (mmul G C)) in *.
    assert (DN : qdet (qmul U (qof C)) <> 0).
    { rewrite qdet_mul, qof_det, HC. apply Qc_mul_neq0; [exact HU|]. rewrite zq_1. discriminate. }
    destruct (sum_pos _ DN) as (P1 & P2 & P3).
    exists (m11 K + m22 K + m33 K)%Z. unfold lengths_sum. cbv zeta. rewrite E in *. clearbody K. clear E.
    unfold qscale, qof in *. cbn [q11 q22 q33] in *.
    apply PI in P1. apply PI in P2. apply PI in P3. split; [lia|]. rewrite !zq_add. ring. }
  assert (N3 : (3 <= n)%Z).
  { destruct (P mid eq_refl) as (k & Hk & Ek). rewrite qof_id, qmul_id_r, SN in Ek.
    destruct (Z.le_gt_cases k n) as [L|L]; [lia|exfalso].
    apply zq_lt in L. apply (Qcmult_lt_compat_r _ _ s Hs) in L. rewrite Ek in L.
    now apply (Qclt_not_eq _ _ L). }
  rewrite map_length, seq_length. split; [lia|]. intros C HC HS.
  destruct (P C HC) as (k & Hk & Ek). rewrite Ek in *. rewrite SN in HS.
  apply in_map_iff. exists (Z.to_nat (k - 3)). split; [f_equal; f_equal; lia|].
  apply in_seq. enough (k <= n)%Z by lia.
  destruct (Z.le_gt_cases k n) as [L|L]; [exact L|exfalso].
  apply (Qcle_not_lt _ _ HS). apply Qcmult_lt_compat_r; [exact Hs|]. apply zq_lt. lia.
Qed.

Lemma few_limit U : qdet U <> 0 -> few_sums 43 U -> Z.leb 1000 (snd (final 0 U)) = false.
Proof. intros HU HF. apply Z.leb_gt. pose proof (few_count 43 U HU HF). lia. Qed.
