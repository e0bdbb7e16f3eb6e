(** Examples of clear cells: a face-centred cubic cell and a rutile cell. *)
From Coq Require Import ZArith QArith Qcanon List Bool Lia.
From Verif Require Import Mat3 Spec QMat QNum QcTac Spec_grid Spec_niggli Spec_niggli_f90 Spec_clear
  Model_pyniggli Proofs_niggli_term Proofs_pyniggli2 Proofs_pyniggli3 Proofs_niggli_id Proofs_niggli_id2
  Proofs_niggli_id3 Proofs_gridcell Proofs_gridcell2 Proofs_transform Proofs_cbrt Model_niggli_f90 Model_transform Model_grid_utils Proofs_clear4 Proofs_clear3.
Import ListNotations.
Open Scope Qc_scope.

(** ** Rectangular cells with edges that are not very different *)
Section Box.
Variables (x y z L : Qc).
Let U := QMat x 0 0 0 y 0 0 0 z.
Hypothesis X4 : L < zq 4 * (x * x).
Hypothesis Y4 : L < zq 4 * (y * y).
Hypothesis Z4 : L < zq 4 * (z * z).
Hypothesis XY : L < x * x + y * y.
Hypothesis XZ : L < x * x + z * z.
Hypothesis YZ : L < y * y + z * z.

Lemma qmul_nonneg0 (p q : Qc) : 0 <= p -> 0 <= q -> 0 <= p * q.
Proof. intros Hp Hq. replace 0 with (0 * q) by ring. now apply Qcmult_le_compat_r. Qed.
Lemma qsq_nonneg (q : Qc) : 0 <= q * q.
Proof.
  destruct (Qclt_le_dec q 0) as [H|H].
  - replace (q * q) with ((- q) * (- q)) by ring. apply qmul_nonneg0; qclra.
  - now apply qmul_nonneg0.
Qed.
Lemma sq_cases (u : Z) (q : Qc) : 0 <= q -> (u = 0 \/ u = 1 \/ u = -1)%Z \/ zq 4 * q <= zq (u * u) * q.
Proof.
  intros H. destruct (Z.eq_dec u 0) as [|N0]; [tauto|]. destruct (Z.eq_dec u 1) as [|N1]; [tauto|].
  destruct (Z.eq_dec u (-1)) as [|N2]; [tauto|]. right. apply Qcmult_le_compat_r; [|exact H].
  apply zq_le. nia.
Qed.
Lemma sq_zq (u : Z) (q : Qc) : 0 <= q -> 0 <= zq (u * u) * q.
Proof. intros H. apply qmul_nonneg0; [rewrite <- zq_0; apply zq_le; nia|exact H]. Qed.

Lemma box_vector u v w : zq (u * u) * (x * x) + zq (v * v) * (y * y) + zq (w * w) * (z * z) <= L ->
  (u = 0 /\ v = 0 /\ w = 0)%Z \/ (Z.abs u + Z.abs v + Z.abs w = 1)%Z.
Proof.
  intros H.
  pose proof (qsq_nonneg x) as Px. pose proof (qsq_nonneg y) as Py. pose proof (qsq_nonneg z) as Pz.
  destruct (sq_cases u (x * x) Px) as [Hu|Hu];
    [|exfalso; pose proof (sq_zq v _ Py); pose proof (sq_zq w _ Pz); apply (Qclt_not_le _ _ X4);
      eapply Qcle_trans; [exact Hu|]; eapply Qcle_trans; [|exact H];
      generalize dependent (zq (u * u) * (x * x)); generalize dependent (zq (v * v) * (y * y));
      generalize dependent (zq (w * w) * (z * z)); clear; intros; qclra].
  destruct (sq_cases v (y * y) Py) as [Hv|Hv];
    [|exfalso; pose proof (sq_zq u _ Px); pose proof (sq_zq w _ Pz); apply (Qclt_not_le _ _ Y4);
      eapply Qcle_trans; [exact Hv|]; eapply Qcle_trans; [|exact H];
      generalize dependent (zq (u * u) * (x * x)); generalize dependent (zq (v * v) * (y * y));
      generalize dependent (zq (w * w) * (z * z)); clear; intros; qclra].
  destruct (sq_cases w (z * z) Pz) as [Hw|Hw];
    [|exfalso; pose proof (sq_zq u _ Px); pose proof (sq_zq v _ Py); apply (Qclt_not_le _ _ Z4);
      eapply Qcle_trans; [exact Hw|]; eapply Qcle_trans; [|exact H];
      generalize dependent (zq (u * u) * (x * x)); generalize dependent (zq (v * v) * (y * y));
      generalize dependent (zq (w * w) * (z * z)); clear; intros; qclra].
  clear X4 Y4 Z4.
  assert (E : forall s, (s = 0 \/ s = 1 \/ s = -1)%Z -> (s = 0%Z /\ zq (s * s) = 0) \/ (Z.abs s = 1%Z /\ zq (s * s) = 1)).
  { intros s [N|[N|N]]; subst s; [left|right|right]; split; reflexivity. }
  destruct (E u Hu) as [(U1 & U2)|(U1 & U2)]; destruct (E v Hv) as [(V1 & V2)|(V1 & V2)];
    destruct (E w Hw) as [(W1 & W2)|(W1 & W2)]; try (left; tauto); try (right; lia);
    exfalso; rewrite U2, V2, W2 in H; clear E Hu Hv Hw U1 U2 V1 V2 W1 W2;
    generalize dependent (x * x); generalize dependent (y * y); generalize dependent (z * z);
    intros; qclra.
Qed.

(** Every basis within the limit consists of the edges, up to order and sign. *)
Definition edges (A B C : Qc) : Prop :=
  In (A, B, C) [(x*x, y*y, z*z); (x*x, z*z, y*y); (y*y, x*x, z*z); (y*y, z*z, x*x);
                (z*z, x*x, y*y); (z*z, y*y, x*x)].
Lemma box_basis C : mdet C = 1%Z -> longest (qmul U (qof C)) L ->
  let G := qgram (qmul U (qof C)) in
  edges (q11 G) (q22 G) (q33 G) /\ q23 G = 0 /\ q13 G = 0 /\ q12 G = 0.
Proof.
  intros HC (H1 & H2 & H3). cbv zeta.
  destruct C as [a b c d e f g h i]. cbn [mdet m11 m12 m13 m21 m22 m23 m31 m32 m33] in HC.
  assert (EG : qgram (qmul U (qof (Mat3 a b c d e f g h i))) =
    QMat (zq (a * a) * (x * x) + zq (d * d) * (y * y) + zq (g * g) * (z * z))
         (zq (a * b) * (x * x) + zq (d * e) * (y * y) + zq (g * h) * (z * z))
         (zq (a * c) * (x * x) + zq (d * f) * (y * y) + zq (g * i) * (z * z))
         (zq (a * b) * (x * x) + zq (d * e) * (y * y) + zq (g * h) * (z * z))
         (zq (b * b) * (x * x) + zq (e * e) * (y * y) + zq (h * h) * (z * z))
         (zq (b * c) * (x * x) + zq (e * f) * (y * y) + zq (h * i) * (z * z))
         (zq (a * c) * (x * x) + zq (d * f) * (y * y) + zq (g * i) * (z * z))
         (zq (b * c) * (x * x) + zq (e * f) * (y * y) + zq (h * i) * (z * z))
         (zq (c * c) * (x * x) + zq (f * f) * (y * y) + zq (i * i) * (z * z))).
  { unfold U, qgram, qtr, qmul, qof. cbn [q11 q12 q13 q21 q22 q23 q31 q32 q33 m11 m12 m13 m21 m22 m23 m31 m32 m33].
    rewrite !zq_mul. f_equal; ring. }
  rewrite EG in *. cbn [q11 q12 q13 q21 q22 q23 q31 q32 q33] in *. clear EG.
  apply box_vector in H1, H2, H3. clear X4 Y4 Z4 XY XZ YZ.
  assert (K : forall p q r, (p = 0 /\ q = 0 /\ r = 0)%Z \/ (Z.abs p + Z.abs q + Z.abs r = 1)%Z ->
    In (p, q, r) [(0,0,0); (1,0,0); (-1,0,0); (0,1,0); (0,-1,0); (0,0,1); (0,0,-1)]%Z).
  { clear. intros p q r H.
    assert (T : (-1 <= p <= 1 /\ -1 <= q <= 1 /\ -1 <= r <= 1)%Z) by lia. destruct T as (T1 & T2 & T3).
    assert (P : (p = 0 \/ p = 1 \/ p = -1)%Z) by lia. assert (Q : (q = 0 \/ q = 1 \/ q = -1)%Z) by lia.
    assert (R : (r = 0 \/ r = 1 \/ r = -1)%Z) by lia.
    destruct P as [P|[P|P]]; destruct Q as [Q|[Q|Q]]; destruct R as [R|[R|R]]; subst p q r;
      solve [cbn; tauto|exfalso; cbn in H; lia]. }
  apply K in H1, H2, H3. clear K.
  repeat (destruct H1 as [H1|H1]; [injection H1 as <- <- <-|]); try destruct H1;
  repeat (destruct H2 as [H2|H2]; [injection H2 as <- <- <-|]); try destruct H2;
  repeat (destruct H3 as [H3|H3]; [injection H3 as <- <- <-|]); try destruct H3;
  try discriminate HC;
  (split; [|split; [|split]]; [|cbn; change (zq 0) with 0; ring..]; unfold edges;
   cbn [Z.mul Pos.mul]; change (zq 1) with 1; change (zq 0) with 0;
   match goal with |- In (?A, ?B, ?D) _ =>
     let t s := match s with
       | 1 * ?u + 0 * _ + 0 * _ => constr:(u) | 0 * _ + 1 * ?u + 0 * _ => constr:(u)
       | 0 * _ + 0 * _ + 1 * ?u => constr:(u) end in
     let a' := t A in let b' := t B in let d' := t D in
     replace A with a' by ring; replace B with b' by ring; replace D with d' by ring end;
   cbn [In]; tauto).
Qed.
End Box.

(** ** Diamond: face-centred cubic, edge 3.57 *)
Definition diamond : qmat := qscale (qdec 1785 3) (qof (Mat3 0 1 1 1 0 1 1 1 0)).
Lemma diamond_gram : qgram diamond = qscale (qdec 1785 3 * qdec 1785 3) (qof (Mat3 2 1 1 1 2 1 1 1 2)).
Proof.
  unfold diamond. generalize (qdec 1785 3). intros q.
  unfold qgram, qtr, qmul, qscale, qof. cbn [q11 q12 q13 q21 q22 q23 q31 q32 q33 m11 m12 m13 m21 m22 m23 m31 m32 m33].
  change (zq 0) with 0. change (zq 1) with 1. change (zq 2) with (1 + 1). f_equal; ring.
Qed.
Lemma diamond_f_clear : f_clear_cell qcbrt (qdec 1 3) (qdec 637245 5) diamond.
Proof.
  apply (f_spaced_clear _ _ (qdec 1785 3 * qdec 1785 3)).
  - vm_compute. discriminate.
  - unfold longest. vm_compute. repeat split; discriminate.
  - reflexivity.
  - vm_compute. reflexivity.
  - reflexivity.
  - exact (ex_intro _ _ diamond_gram).
  - vm_compute. reflexivity.
  - vm_compute. reflexivity.
  - vm_compute. reflexivity.
Qed.
Lemma diamond_clear : clear_cell qcbrt (qdec 637245 5) diamond.
Proof.
  apply (spaced_clear _ (qdec 1785 3 * qdec 1785 3)).
  - vm_compute. discriminate.
  - unfold longest. vm_compute. repeat split; discriminate.
  - vm_compute. discriminate.
  - reflexivity.
  - exact (ex_intro _ _ diamond_gram).
  - vm_compute. reflexivity.
  - vm_compute. reflexivity.
Qed.

(** ** Rutile: tetragonal, edges 4.59, 4.59 and 2.96 *)
Definition rutile : qmat := QMat (qdec 459 2) 0 0 0 (qdec 459 2) 0 0 0 (qdec 296 2).
Definition rutile_L : Qc := qdec 459 2 * qdec 459 2.
Lemma rutile_basis C : mdet C = 1%Z -> longest (qmul rutile (qof C)) rutile_L ->
  let G := qgram (qmul rutile (qof C)) in
  edges (qdec 459 2) (qdec 459 2) (qdec 296 2) (q11 G) (q22 G) (q33 G) /\ q23 G = 0 /\ q13 G = 0 /\ q12 G = 0.
Proof. apply box_basis; vm_compute; reflexivity. Qed.
Definition apart_b (t v : Qc) : bool := qeqb v 0 || qltb t (qabs v).
Lemma apart_bP t l : forallb (apart_b t) l = true -> forall v, In v l -> apart t v.
Proof.
  intros H v Hv. rewrite forallb_forall in H. specialize (H v Hv). unfold apart_b in H.
  apply orb_true_iff in H. destruct H as [H|H]; [left; now apply qeqb_eq in H|].
  right. now apply qltb_iff in H.
Qed.
Lemma reduction_less t t' L U : t' <= t -> reduction_clear t L U -> reduction_clear t' L U.
Proof.
  intros H K C HC HL. destruct (K C HC HL) as (K1 & K2). split; [eapply Qcle_lt_trans; eassumption|].
  intros v Hv. destruct (K2 v Hv) as [E|E]; [now left|right; eapply Qcle_lt_trans; eassumption].
Qed.
Lemma identification_less t t' U : t' <= t -> identification_clear t U -> identification_clear t' U.
Proof.
  intros H K C HC HN. cbv zeta. intros v Hv.
  destruct (K C HC HN v Hv) as [E|E]; [now left|right; eapply Qcle_lt_trans; eassumption].
Qed.
Lemma rutile_red : reduction_clear (qdec 1 2) rutile_L rutile.
Proof.
  intros C HC HL. pose proof (rutile_basis C HC HL) as (K & K1 & K2 & K3). cbv zeta in *.
  unfold cell_params. cbv zeta. rewrite K1, K2, K3. clear K1 K2 K3 HL.
  generalize dependent (q11 (qgram (qmul rutile (qof C)))). intros A.
  generalize dependent (q22 (qgram (qmul rutile (qof C)))). intros B.
  generalize dependent (q33 (qgram (qmul rutile (qof C)))). intros D K.
  unfold edges in K.
  repeat (destruct K as [K|K]; [injection K as <- <- <-; split;
    [vm_compute; reflexivity|apply apart_bP; vm_compute; reflexivity]|]); destruct K.
Qed.
Lemma rutile_len : longest rutile rutile_L.
Proof. unfold longest. vm_compute. repeat split; discriminate. Qed.
Lemma rutile_id : identification_clear (qdec 13 2) rutile.
Proof.
  intros C HC HN. cbv zeta. pose proof (niggli_third rutile C rutile_L HC HN rutile_len) as H3.
  destruct (gram_dots (qmul rutile (qof C))) as (_ & _ & EC & _). rewrite <- EC in H3. clear EC.
  assert (HL : longest (qmul rutile (qof C)) rutile_L).
  { pose proof HN as ND. unfold is_niggli, cell_params in ND. cbv zeta in ND.
    pose proof (nc_AB _ _ _ _ _ _ ND) as H1. pose proof (nc_BC _ _ _ _ _ _ ND) as H2. clear ND.
    refine (conj _ (conj _ H3)); [|eapply Qcle_trans; eassumption].
    eapply Qcle_trans; [exact H1|]. eapply Qcle_trans; eassumption. }
  pose proof (rutile_basis C HC HL) as (K & K1 & K2 & K3). cbv zeta in *.
  rewrite K1, K2, K3. clear K1 K2 K3 HL H3 HN.
  generalize dependent (q11 (qgram (qmul rutile (qof C)))). intros A.
  generalize dependent (q22 (qgram (qmul rutile (qof C)))). intros B.
  generalize dependent (q33 (qgram (qmul rutile (qof C)))). intros D K.
  unfold edges in K.
  repeat (destruct K as [K|K]; [injection K as <- <- <-;
    apply apart_bP; vm_compute; reflexivity|]); destruct K.
Qed.
Lemma rutile_f_clear : f_clear_cell qcbrt (qdec 1 3) rutile_L rutile.
Proof.
  split.
  - vm_compute. discriminate.
  - exact rutile_len.
  - reflexivity.
  - vm_compute. reflexivity.
  - apply (reduction_less (qdec 1 2)); [vm_compute; discriminate|exact rutile_red].
  - apply (identification_less (qdec 13 2)); [vm_compute; discriminate|exact rutile_id].
  - apply (identification_less (qdec 13 2)); [vm_compute; discriminate|exact rutile_id].
Qed.
Lemma rutile_clear : clear_cell qcbrt rutile_L rutile.
Proof.
  split.
  - vm_compute. discriminate.
  - exact rutile_len.
  - vm_compute. discriminate.
  - apply (reduction_less (qdec 1 2)); [vm_compute; discriminate|exact rutile_red].
  - apply (identification_less (qdec 13 2)); [vm_compute; discriminate|exact rutile_id].
Qed.
