(** 3x3 integer matrices.  Generic mathematics, no program code. *)
From Coq Require Import ZArith List Lia Ring.
Import ListNotations.
Open Scope Z_scope.

(** Entries are named by row and column: [m12] is row 1, column 2. *)
Record mat3 : Type := Mat3 {
  m11 : Z; m12 : Z; m13 : Z;
  m21 : Z; m22 : Z; m23 : Z;
  m31 : Z; m32 : Z; m33 : Z }.

Record vec3 : Type := Vec3 { v1 : Z; v2 : Z; v3 : Z }.

Definition mmul (A B : mat3) : mat3 :=
  Mat3
    (m11 A * m11 B + m12 A * m21 B + m13 A * m31 B)
    (m11 A * m12 B + m12 A * m22 B + m13 A * m32 B)
    (m11 A * m13 B + m12 A * m23 B + m13 A * m33 B)
    (m21 A * m11 B + m22 A * m21 B + m23 A * m31 B)
    (m21 A * m12 B + m22 A * m22 B + m23 A * m32 B)
    (m21 A * m13 B + m22 A * m23 B + m23 A * m33 B)
    (m31 A * m11 B + m32 A * m21 B + m33 A * m31 B)
    (m31 A * m12 B + m32 A * m22 B + m33 A * m32 B)
    (m31 A * m13 B + m32 A * m23 B + m33 A * m33 B).

Definition mvec (A : mat3) (v : vec3) : vec3 :=
  Vec3
    (m11 A * v1 v + m12 A * v2 v + m13 A * v3 v)
    (m21 A * v1 v + m22 A * v2 v + m23 A * v3 v)
    (m31 A * v1 v + m32 A * v2 v + m33 A * v3 v).

Definition mtr (A : mat3) : mat3 :=
  Mat3 (m11 A) (m21 A) (m31 A)
       (m12 A) (m22 A) (m32 A)
       (m13 A) (m23 A) (m33 A).

Definition mdet (A : mat3) : Z :=
  m11 A * (m22 A * m33 A - m23 A * m32 A)
  - m12 A * (m21 A * m33 A - m23 A * m31 A)
  + m13 A * (m21 A * m32 A - m22 A * m31 A).

Definition mid : mat3 := Mat3 1 0 0 0 1 0 0 0 1.
Definition mopp (A : mat3) : mat3 :=
  Mat3 (- m11 A) (- m12 A) (- m13 A)
       (- m21 A) (- m22 A) (- m23 A)
       (- m31 A) (- m32 A) (- m33 A).
Definition mscale (k : Z) (A : mat3) : mat3 :=
  Mat3 (k * m11 A) (k * m12 A) (k * m13 A)
       (k * m21 A) (k * m22 A) (k * m23 A)
       (k * m31 A) (k * m32 A) (k * m33 A).

(** Adjugate: [mmul A (madj A) = mscale (mdet A) mid]. *)
Definition madj (A : mat3) : mat3 :=
  Mat3
    (m22 A * m33 A - m23 A * m32 A)
    (m13 A * m32 A - m12 A * m33 A)
    (m12 A * m23 A - m13 A * m22 A)
    (m23 A * m31 A - m21 A * m33 A)
    (m11 A * m33 A - m13 A * m31 A)
    (m13 A * m21 A - m11 A * m23 A)
    (m21 A * m32 A - m22 A * m31 A)
    (m12 A * m31 A - m11 A * m32 A)
    (m11 A * m22 A - m12 A * m21 A).

Definition meqb (A B : mat3) : bool :=
  (m11 A =? m11 B) && (m12 A =? m12 B) && (m13 A =? m13 B) &&
  (m21 A =? m21 B) && (m22 A =? m22 B) && (m23 A =? m23 B) &&
  (m31 A =? m31 B) && (m32 A =? m32 B) && (m33 A =? m33 B).

Lemma meqb_eq A B : meqb A B = true <-> A = B.
Proof.
  unfold meqb. rewrite !Bool.andb_true_iff, !Z.eqb_eq.
  destruct A, B; simpl. split.
  - intros H. decompose [and] H. subst. reflexivity.
  - intros H. injection H; intros; subst. repeat split; reflexivity.
Qed.

Lemma mat3_eq_dec (A B : mat3) : {A = B} + {A <> B}.
Proof. repeat decide equality. Defined.

Ltac mat_ext :=
  match goal with
  | |- @eq mat3 _ _ =>
      unfold mmul, mtr, mid, mopp, mscale, madj;
      cbn [m11 m12 m13 m21 m22 m23 m31 m32 m33];
      f_equal
  end.

Lemma mmul_assoc A B C : mmul A (mmul B C) = mmul (mmul A B) C.
Proof. mat_ext; ring. Qed.
Lemma mmul_id_l A : mmul mid A = A.
Proof. destruct A; mat_ext; ring. Qed.
Lemma mmul_id_r A : mmul A mid = A.
Proof. destruct A; mat_ext; ring. Qed.
Lemma mtr_mul A B : mtr (mmul A B) = mmul (mtr B) (mtr A).
Proof. mat_ext; ring. Qed.
Lemma mtr_tr A : mtr (mtr A) = A.
Proof. destruct A; reflexivity. Qed.
Lemma mdet_mul A B : mdet (mmul A B) = mdet A * mdet B.
Proof. unfold mdet, mmul; cbn [m11 m12 m13 m21 m22 m23 m31 m32 m33]; ring. Qed.
Lemma mdet_tr A : mdet (mtr A) = mdet A.
Proof. unfold mdet, mtr; cbn [m11 m12 m13 m21 m22 m23 m31 m32 m33]; ring. Qed.
Lemma mdet_id : mdet mid = 1.
Proof. reflexivity. Qed.
Lemma madj_r A : mmul A (madj A) = mscale (mdet A) mid.
Proof. unfold mdet; mat_ext; ring. Qed.
Lemma madj_l A : mmul (madj A) A = mscale (mdet A) mid.
Proof. unfold mdet; mat_ext; ring. Qed.
Lemma mscale_id_l k A : mmul (mscale k mid) A = mscale k A.
Proof. destruct A; mat_ext; ring. Qed.
Lemma mscale_id_r k A : mmul A (mscale k mid) = mscale k A.
Proof. destruct A; mat_ext; ring. Qed.
Lemma mscale_mul_l k A B : mmul (mscale k A) B = mscale k (mmul A B).
Proof. mat_ext; ring. Qed.
Lemma mscale_mul_r k A B : mmul A (mscale k B) = mscale k (mmul A B).
Proof. mat_ext; ring. Qed.
Lemma mscale_inj k A B : k <> 0 -> mscale k A = mscale k B -> A = B.
Proof.
  intros Hk H. destruct A, B. unfold mscale in H.
  cbn [m11 m12 m13 m21 m22 m23 m31 m32 m33] in H.
  injection H; intros; f_equal; apply (Z.mul_reg_l _ _ k Hk); assumption.
Qed.
Lemma mvec_mul A B v : mvec (mmul A B) v = mvec A (mvec B v).
Proof. unfold mvec, mmul; cbn [m11 m12 m13 m21 m22 m23 m31 m32 m33 v1 v2 v3]; f_equal; ring. Qed.

(** Columns. *)
Definition col1 A := Vec3 (m11 A) (m21 A) (m31 A).
Definition col2 A := Vec3 (m12 A) (m22 A) (m32 A).
Definition col3 A := Vec3 (m13 A) (m23 A) (m33 A).
Definition of_cols (x y z : vec3) : mat3 :=
  Mat3 (v1 x) (v1 y) (v1 z) (v2 x) (v2 y) (v2 z) (v3 x) (v3 y) (v3 z).

Lemma of_cols_cols A : of_cols (col1 A) (col2 A) (col3 A) = A.
Proof. destruct A; reflexivity. Qed.
