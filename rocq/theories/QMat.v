(** 3x3 matrices of rational numbers ([Qc]: canonical fractions, Leibniz equality), the
    lattices they span and their isometries.  Generic mathematics, no program code. *)
From Coq Require Import ZArith QArith Qcanon List Lia.
From Verif Require Import Mat3 Spec.
Open Scope Qc_scope.

(** Integers as rationals. *)
Definition zq (z : Z) : Qc := Q2Qc (inject_Z z).

Record qmat : Type := QMat {
  q11 : Qc; q12 : Qc; q13 : Qc;
  q21 : Qc; q22 : Qc; q23 : Qc;
  q31 : Qc; q32 : Qc; q33 : Qc }.

Record qvec : Type := QVec { w1 : Qc; w2 : Qc; w3 : Qc }.

Definition qmul (A B : qmat) : qmat :=
  QMat
    (q11 A * q11 B + q12 A * q21 B + q13 A * q31 B)
    (q11 A * q12 B + q12 A * q22 B + q13 A * q32 B)
    (q11 A * q13 B + q12 A * q23 B + q13 A * q33 B)
    (q21 A * q11 B + q22 A * q21 B + q23 A * q31 B)
    (q21 A * q12 B + q22 A * q22 B + q23 A * q32 B)
    (q21 A * q13 B + q22 A * q23 B + q23 A * q33 B)
    (q31 A * q11 B + q32 A * q21 B + q33 A * q31 B)
    (q31 A * q12 B + q32 A * q22 B + q33 A * q32 B)
    (q31 A * q13 B + q32 A * q23 B + q33 A * q33 B).

Definition qmvec (A : qmat) (x : qvec) : qvec :=
  QVec
    (q11 A * w1 x + q12 A * w2 x + q13 A * w3 x)
    (q21 A * w1 x + q22 A * w2 x + q23 A * w3 x)
    (q31 A * w1 x + q32 A * w2 x + q33 A * w3 x).

Definition qtr (A : qmat) : qmat :=
  QMat (q11 A) (q21 A) (q31 A)
       (q12 A) (q22 A) (q32 A)
       (q13 A) (q23 A) (q33 A).

Definition qdet (A : qmat) : Qc :=
  q11 A * (q22 A * q33 A - q23 A * q32 A)
  - q12 A * (q21 A * q33 A - q23 A * q31 A)
  + q13 A * (q21 A * q32 A - q22 A * q31 A).

Definition qid : qmat := QMat 1 0 0 0 1 0 0 0 1.

Definition qscale (k : Qc) (A : qmat) : qmat :=
  QMat (k * q11 A) (k * q12 A) (k * q13 A)
       (k * q21 A) (k * q22 A) (k * q23 A)
       (k * q31 A) (k * q32 A) (k * q33 A).

Definition qadj (A : qmat) : qmat :=
  QMat
    (q22 A * q33 A - q23 A * q32 A)
    (q13 A * q32 A - q12 A * q33 A)
    (q12 A * q23 A - q13 A * q22 A)
    (q23 A * q31 A - q21 A * q33 A)
    (q11 A * q33 A - q13 A * q31 A)
    (q13 A * q21 A - q11 A * q23 A)
    (q21 A * q32 A - q22 A * q31 A)
    (q12 A * q31 A - q11 A * q32 A)
    (q11 A * q22 A - q12 A * q21 A).

(** Inverse; meaningful when [qdet A <> 0]. *)
Definition qinv (A : qmat) : qmat := qscale (/ qdet A) (qadj A).

(** An integer matrix / vector seen as a rational one. *)
Definition qof (M : mat3) : qmat :=
  QMat (zq (m11 M)) (zq (m12 M)) (zq (m13 M))
       (zq (m21 M)) (zq (m22 M)) (zq (m23 M))
       (zq (m31 M)) (zq (m32 M)) (zq (m33 M)).
Definition qvof (v : vec3) : qvec := QVec (zq (v1 v)) (zq (v2 v)) (zq (v3 v)).

(** ** Specification: lattices and isometries in space *)

(** The lattice spanned by the columns of [B]. *)
Definition in_span (B : qmat) (x : qvec) : Prop := exists v : vec3, x = qmvec B (qvof v).

(** [R] is an orthogonal matrix. *)
Definition orthogonal (R : qmat) : Prop := qmul (qtr R) R = qid.

(** [R] is a symmetry of the lattice spanned by [B]. *)
Definition lattice_symmetry (B R : qmat) : Prop :=
  orthogonal R /\ forall x, in_span B x -> in_span B (qmvec R x).

(** [S] spans a supercell of [B] of index [n]: an integer combination of the columns of
    [B] with determinant [n]. *)
Definition supercell (n : Z) (B S : qmat) : Prop :=
  exists M : mat3, S = qmul B (qof M) /\ mdet M = n.

(** The supercell [S] keeps all symmetries of the lattice spanned by [B]. *)
Definition keeps_symmetry (B S : qmat) : Prop :=
  forall R, lattice_symmetry B R -> lattice_symmetry S R.

(** Same lattice. *)
Definition same_span (S T : qmat) : Prop := forall x, in_span S x <-> in_span T x.

(** Gram matrix: scalar products of the columns. *)
Definition qgram (B : qmat) : qmat := qmul (qtr B) B.

(** Integer matrices preserving a rational Gram matrix. *)
Definition qisometry (G : qmat) (X : mat3) : Prop :=
  qmul (qtr (qof X)) (qmul G (qof X)) = G.

(** ** Algebra *)
Lemma zq_add x y : zq (x + y) = zq x + zq y.
Proof.
  apply Qc_is_canon. unfold zq, Qcplus, Qcmult, Qcopp. cbn [this Q2Qc]. rewrite !Qred_correct.
  rewrite inject_Z_plus. reflexivity.
Qed.
Lemma zq_mul x y : zq (x * y) = zq x * zq y.
Proof.
  apply Qc_is_canon. unfold zq, Qcplus, Qcmult, Qcopp. cbn [this Q2Qc]. rewrite !Qred_correct.
  rewrite inject_Z_mult. reflexivity.
Qed.
Lemma zq_opp x : zq (- x) = - zq x.
Proof.
  apply Qc_is_canon. unfold zq, Qcplus, Qcmult, Qcopp. cbn [this Q2Qc]. rewrite !Qred_correct.
  rewrite inject_Z_opp. reflexivity.
Qed.
Lemma zq_sub x y : zq (x - y) = zq x - zq y.
Proof. unfold Z.sub. rewrite zq_add, zq_opp. reflexivity. Qed.
Lemma zq_0 : zq 0 = 0. Proof. reflexivity. Qed.
Lemma zq_1 : zq 1 = 1. Proof. reflexivity. Qed.
Lemma zq_inj x y : zq x = zq y -> x = y.
Proof.
  intros E. apply (f_equal this) in E. unfold zq in E. cbn [this Q2Qc] in E.
  assert (H : (inject_Z x == inject_Z y)%Q).
  { rewrite <- (Qred_correct (inject_Z x)), <- (Qred_correct (inject_Z y)), E. reflexivity. }
  apply inject_Z_injective. exact H.
Qed.
Lemma zq_neq0 x : x <> 0%Z -> zq x <> 0.
Proof. intros H E. apply H. apply zq_inj. exact E. Qed.

Ltac qcbn := cbn [q11 q12 q13 q21 q22 q23 q31 q32 q33 w1 w2 w3
                  m11 m12 m13 m21 m22 m23 m31 m32 m33 v1 v2 v3].
Ltac qmat_ext := unfold qmul, qtr, qid, qscale, qadj, qmvec; qcbn; f_equal.

Lemma qmul_assoc A B C : qmul A (qmul B C) = qmul (qmul A B) C.
Proof. qmat_ext; ring. Qed.
Lemma qmul_id_l A : qmul qid A = A.
Proof. destruct A; qmat_ext; ring. Qed.
Lemma qmul_id_r A : qmul A qid = A.
Proof. destruct A; qmat_ext; ring. Qed.
Lemma qtr_mul A B : qtr (qmul A B) = qmul (qtr B) (qtr A).
Proof. qmat_ext; ring. Qed.
Lemma qtr_tr A : qtr (qtr A) = A.
Proof. destruct A; reflexivity. Qed.
Lemma qdet_mul A B : qdet (qmul A B) = qdet A * qdet B.
Proof. unfold qdet, qmul; qcbn; ring. Qed.
Lemma qdet_tr A : qdet (qtr A) = qdet A.
Proof. unfold qdet, qtr; qcbn; ring. Qed.
Lemma qdet_id : qdet qid = 1.
Proof. unfold qdet, qid; qcbn; ring. Qed.
Lemma qmvec_mul A B x : qmvec (qmul A B) x = qmvec A (qmvec B x).
Proof. qmat_ext; ring. Qed.
Lemma qmvec_id x : qmvec qid x = x.
Proof. destruct x; qmat_ext; ring. Qed.
Lemma qadj_r A : qmul A (qadj A) = qscale (qdet A) qid.
Proof. unfold qdet; qmat_ext; ring. Qed.
Lemma qadj_l A : qmul (qadj A) A = qscale (qdet A) qid.
Proof. unfold qdet; qmat_ext; ring. Qed.
Lemma qinv_r A : qdet A <> 0 -> qmul A (qinv A) = qid.
Proof.
  intros H. unfold qinv.
  assert (E : qmul A (qscale (/ qdet A) (qadj A)) = qscale (/ qdet A) (qmul A (qadj A)))
    by (qmat_ext; ring).
  rewrite E, qadj_r. unfold qscale, qid; qcbn; f_equal; field; exact H.
Qed.
Lemma qinv_l A : qdet A <> 0 -> qmul (qinv A) A = qid.
Proof.
  intros H. unfold qinv.
  assert (E : qmul (qscale (/ qdet A) (qadj A)) A = qscale (/ qdet A) (qmul (qadj A) A))
    by (qmat_ext; ring).
  rewrite E, qadj_l. unfold qscale, qid; qcbn; f_equal; field; exact H.
Qed.
Lemma qinv_unique A B : qdet A <> 0 -> qmul A B = qid -> B = qinv A.
Proof.
  intros H E. rewrite <- (qmul_id_l B), <- (qinv_l A H), <- qmul_assoc, E.
  apply qmul_id_r.
Qed.
Lemma qmul_cancel_l A B C : qdet A <> 0 -> qmul A B = qmul A C -> B = C.
Proof.
  intros H E. rewrite <- (qmul_id_l B), <- (qmul_id_l C), <- (qinv_l A H), <- !qmul_assoc, E.
  reflexivity.
Qed.
Lemma qmul_cancel_r A B C : qdet A <> 0 -> qmul B A = qmul C A -> B = C.
Proof.
  intros H E. rewrite <- (qmul_id_r B), <- (qmul_id_r C), <- (qinv_r A H), !qmul_assoc, E.
  reflexivity.
Qed.

Lemma qof_mul A B : qof (mmul A B) = qmul (qof A) (qof B).
Proof.
  unfold qof, mmul, qmul; qcbn. rewrite !zq_add, !zq_mul. reflexivity.
Qed.
Lemma qof_id : qof mid = qid.
Proof. reflexivity. Qed.
Lemma qof_tr A : qof (mtr A) = qtr (qof A).
Proof. reflexivity. Qed.
Lemma qof_det A : qdet (qof A) = zq (mdet A).
Proof.
  unfold qdet, mdet, qof; qcbn. rewrite !zq_add, !zq_sub, !zq_mul, !zq_sub, !zq_mul. ring.
Qed.
Lemma qof_inj A B : qof A = qof B -> A = B.
Proof.
  destruct A, B. unfold qof; qcbn. intros E. f_equal; apply zq_inj.
  - exact (f_equal q11 E).
  - exact (f_equal q12 E).
  - exact (f_equal q13 E).
  - exact (f_equal q21 E).
  - exact (f_equal q22 E).
  - exact (f_equal q23 E).
  - exact (f_equal q31 E).
  - exact (f_equal q32 E).
  - exact (f_equal q33 E).
Qed.
Lemma qof_mvec A v : qmvec (qof A) (qvof v) = qvof (mvec A v).
Proof. unfold qmvec, qvof, qof, mvec; qcbn. rewrite !zq_add, !zq_mul. reflexivity. Qed.
Lemma qvof_inj u v : qvof u = qvof v -> u = v.
Proof.
  destruct u, v. unfold qvof; qcbn. intros E. f_equal; apply zq_inj.
  - exact (f_equal w1 E).
  - exact (f_equal w2 E).
  - exact (f_equal w3 E).
Qed.

(** Inverse of a unimodular integer matrix. *)
Definition minv1 (A : mat3) : mat3 := mscale (mdet A) (madj A).
Lemma minv1_r A : (mdet A * mdet A = 1)%Z -> mmul A (minv1 A) = mid.
Proof.
  intros H. unfold minv1. rewrite mscale_mul_r, madj_r.
  unfold mscale, mid; cbn [m11 m12 m13 m21 m22 m23 m31 m32 m33]. f_equal; lia.
Qed.
Lemma minv1_l A : (mdet A * mdet A = 1)%Z -> mmul (minv1 A) A = mid.
Proof.
  intros H. unfold minv1. rewrite mscale_mul_l, madj_l.
  unfold mscale, mid; cbn [m11 m12 m13 m21 m22 m23 m31 m32 m33]. f_equal; lia.
Qed.
Lemma minv1_det A : (mdet A * mdet A = 1)%Z -> (mdet (minv1 A) * mdet A = 1)%Z.
Proof. intros H. rewrite <- mdet_mul, minv1_l by exact H. reflexivity. Qed.
Lemma qinv_qof A : (mdet A * mdet A = 1)%Z -> qinv (qof A) = qof (minv1 A).
Proof.
  intros H. symmetry. apply qinv_unique.
  - rewrite qof_det. apply zq_neq0. intros E. rewrite E in H. lia.
  - rewrite <- qof_mul, minv1_r by exact H. apply qof_id.
Qed.
Lemma unimodular_det A : (mdet A * mdet A = 1)%Z -> qdet (qof A) <> 0.
Proof. intros H. rewrite qof_det. apply zq_neq0. intros E. rewrite E in H. lia. Qed.

(** Spans and integer matrices. *)
Lemma in_span_qof B M x :
  in_span (qmul B (qof M)) x <-> exists y, in_lattice M y /\ x = qmvec B (qvof y).
Proof.
  unfold in_span, in_lattice. split.
  - intros (v & ->). exists (mvec M v). split; [now exists v|].
    rewrite qmvec_mul, qof_mvec. reflexivity.
  - intros (y & (v & ->) & ->). exists v. rewrite qmvec_mul, qof_mvec. reflexivity.
Qed.

Lemma qmvec_inj B x y : qdet B <> 0 -> qmvec B x = qmvec B y -> x = y.
Proof.
  intros H E. rewrite <- (qmvec_id x), <- (qmvec_id y), <- (qinv_l B H), !qmvec_mul, E.
  reflexivity.
Qed.

Lemma in_span_lattice B M y : qdet B <> 0 ->
  in_span (qmul B (qof M)) (qmvec B (qvof y)) <-> in_lattice M y.
Proof.
  intros HB. rewrite in_span_qof. split.
  - intros (z & Hz & E). apply qmvec_inj in E; [|exact HB]. apply qvof_inj in E. now subst.
  - intros H. now exists y.
Qed.

Lemma same_span_lattice B M N : qdet B <> 0 ->
  same_span (qmul B (qof M)) (qmul B (qof N)) <-> same_lattice M N.
Proof.
  intros HB. split.
  - intros H x. rewrite <- !(in_span_lattice B) by exact HB. apply H.
  - intros H x. rewrite !in_span_qof. split; intros (y & Hy & ->); exists y; (split; [|reflexivity]);
    now apply H.
Qed.

(** A linear map keeping the lattice of an invertible [B] is an integer matrix in
    lattice coordinates. *)
Lemma symmetry_coords B R : qdet B <> 0 ->
  (forall x, in_span B x -> in_span B (qmvec R x)) ->
  exists X, qmul R B = qmul B (qof X).
Proof.
  intros HB H.
  destruct (H (qmvec B (qvof (Vec3 1 0 0)))) as (c1 & E1); [now exists (Vec3 1 0 0)|].
  destruct (H (qmvec B (qvof (Vec3 0 1 0)))) as (c2 & E2); [now exists (Vec3 0 1 0)|].
  destruct (H (qmvec B (qvof (Vec3 0 0 1)))) as (c3 & E3); [now exists (Vec3 0 0 1)|].
  exists (of_cols c1 c2 c3).
  rewrite <- qmvec_mul in E1, E2, E3.
  destruct c1 as [x1 y1 z1], c2 as [x2 y2 z2], c3 as [x3 y3 z3].
  set (P := qmul R B) in *. clearbody P. clear H HB.
  destruct P as [p11 p12 p13 p21 p22 p23 p31 p32 p33].
  destruct B as [b11 b12 b13 b21 b22 b23 b31 b32 b33].
  unfold qmvec, qvof in E1, E2, E3. unfold qmul, qof, of_cols.
  cbn [q11 q12 q13 q21 q22 q23 q31 q32 q33 w1 w2 w3 v1 v2 v3
       m11 m12 m13 m21 m22 m23 m31 m32 m33] in *.
  assert (G : forall a b c : Qc, a * zq 1 + b * zq 0 + c * zq 0 = a)
    by (intros; rewrite zq_0, zq_1; ring).
  assert (G' : forall a b c : Qc, a * zq 0 + b * zq 1 + c * zq 0 = b)
    by (intros; rewrite zq_0, zq_1; ring).
  assert (G'' : forall a b c : Qc, a * zq 0 + b * zq 0 + c * zq 1 = c)
    by (intros; rewrite zq_0, zq_1; ring).
  rewrite !G in E1. rewrite !G' in E2. rewrite !G'' in E3.
  f_equal.
  - exact (f_equal w1 E1).
  - exact (f_equal w1 E2).
  - exact (f_equal w1 E3).
  - exact (f_equal w2 E1).
  - exact (f_equal w2 E2).
  - exact (f_equal w2 E3).
  - exact (f_equal w3 E1).
  - exact (f_equal w3 E2).
  - exact (f_equal w3 E3).
Qed.

(** Orthogonal maps keep scalar products: isometry of the Gram matrix. *)
Lemma symmetry_isometry B R X : qdet B <> 0 -> orthogonal R ->
  qmul R B = qmul B (qof X) -> qisometry (qgram B) X.
Proof.
  intros HB HR E. unfold qisometry, qgram.
  assert (H : qmul (qtr (qmul R B)) (qmul R B) = qmul (qtr B) B).
  { rewrite qtr_mul, <- qmul_assoc, (qmul_assoc (qtr R)), HR, qmul_id_l. reflexivity. }
  rewrite E in H. rewrite qtr_mul in H. rewrite <- !qmul_assoc in H. rewrite <- !qmul_assoc. exact H.
Qed.

Lemma isometry_symmetry B X : qdet B <> 0 -> qisometry (qgram B) X ->
  let R := qmul (qmul B (qof X)) (qinv B) in
  orthogonal R /\ qmul R B = qmul B (qof X).
Proof.
  intros HB HX R.
  assert (E : qmul R B = qmul B (qof X)).
  { unfold R. rewrite <- qmul_assoc, qinv_l, qmul_id_r by exact HB. reflexivity. }
  split; [|exact E].
  unfold orthogonal.
  apply (qmul_cancel_r B); [exact HB|]. apply (qmul_cancel_l (qtr B)); [now rewrite qdet_tr|].
  rewrite qmul_id_l, <- qmul_assoc, E.
  rewrite (qmul_assoc (qtr B)), <- qtr_mul, E, qtr_mul.
  unfold qisometry, qgram in HX. rewrite <- !qmul_assoc in HX. rewrite <- !qmul_assoc. exact HX.
Qed.

Lemma isometry_unimodular G X : qdet G <> 0 -> qisometry G X -> (mdet X * mdet X = 1)%Z.
Proof.
  intros HG HX. unfold qisometry in HX.
  assert (E : qdet (qmul (qtr (qof X)) (qmul G (qof X))) = qdet G) by now rewrite HX.
  rewrite !qdet_mul, qdet_tr, qof_det in E.
  apply zq_inj. rewrite zq_mul, zq_1.
  transitivity ((zq (mdet X) * (qdet G * zq (mdet X))) / qdet G); [field; exact HG|].
  rewrite E. field. exact HG.
Qed.

Lemma qgram_det B : qdet (qgram B) = qdet B * qdet B.
Proof. unfold qgram. rewrite qdet_mul, qdet_tr. reflexivity. Qed.

Lemma Qc_mul_neq0 (x y : Qc) : x <> 0 -> y <> 0 -> x * y <> 0.
Proof. intros Hx Hy E. apply Qcmult_integral in E. tauto. Qed.

(** The supercell [B M] keeps the symmetry of [B] exactly when the sublattice [M] is kept
    by every integer isometry of the Gram matrix. *)
Lemma keeps_symmetry_iff B M : qdet B <> 0 ->
  keeps_symmetry B (qmul B (qof M)) <-> (forall X, qisometry (qgram B) X -> preserves X M).
Proof.
  intros HB. split.
  - intros H X HX. destruct (isometry_symmetry B X HB HX) as (HO & HR).
    set (R := qmul (qmul B (qof X)) (qinv B)) in *.
    assert (L : lattice_symmetry B R).
    { split; [exact HO|]. intros x (v & ->).
      exists (mvec X v). rewrite <- qmvec_mul, HR, qmvec_mul, qof_mvec. reflexivity. }
    specialize (H R L). destruct H as (_ & H).
    intros y Hy. specialize (H (qmvec B (qvof y))).
    rewrite in_span_lattice in H by exact HB. specialize (H Hy).
    rewrite <- qmvec_mul, HR, qmvec_mul, qof_mvec in H.
    rewrite in_span_lattice in H by exact HB. exact H.
  - intros H R (HO & HL). destruct (symmetry_coords B R HB HL) as (X & HX).
    pose proof (symmetry_isometry B R X HB HO HX) as HI.
    split; [exact HO|]. intros x Hx. rewrite in_span_qof in Hx.
    destruct Hx as (y & Hy & ->).
    rewrite <- qmvec_mul, HX, qmvec_mul, qof_mvec.
    apply in_span_lattice; [exact HB|]. now apply (H X HI).
Qed.
