(** The matrices that can be isometries of a Niggli cell: found by trying all columns with
    entries -1, 0, 1. *)
From Coq Require Import ZArith List Lia Bool.
From Verif Require Import Mat3 PointGroup Proofs_niggli_short.
Import ListNotations.
Open Scope Z_scope.

(** Gram matrix with A = a.a, B = b.b, C = c.c, D = b.c, E = a.c, F = a.b. *)
Definition symm (A B C D E F : Z) : mat3 := Mat3 A F E F B D E D C.

(** [X] keeps the six scalar products. *)
Definition iso6 (A B C D E F : Z) (X : mat3) : Prop :=
  qf A B C D E F (m11 X) (m21 X) (m31 X) = A /\
  qf A B C D E F (m12 X) (m22 X) (m32 X) = B /\
  qf A B C D E F (m13 X) (m23 X) (m33 X) = C /\
  bf A B C D E F (m12 X) (m22 X) (m32 X) (m13 X) (m23 X) (m33 X) = D /\
  bf A B C D E F (m11 X) (m21 X) (m31 X) (m13 X) (m23 X) (m33 X) = E /\
  bf A B C D E F (m11 X) (m21 X) (m31 X) (m12 X) (m22 X) (m32 X) = F.

(** Candidates for type I cells. *)
Definition cand1 : list mat3 :=
  [Mat3 1 1 1  0 0 (-1)  0 (-1) 0;
   Mat3 (-1) (-1) (-1)  0 0 1  0 1 0;
   Mat3 1 1 0  0 0 1  0 (-1) 0;
   Mat3 (-1) (-1) 0  0 0 (-1)  0 1 0;
   Mat3 1 1 1  0 (-1) 0  0 0 (-1);
   Mat3 (-1) (-1) (-1)  0 1 0  0 0 1;
   Mat3 1 1 0  0 (-1) 0  0 0 1;
   Mat3 (-1) (-1) 0  0 1 0  0 0 (-1);
   Mat3 1 0 1  0 1 0  0 0 (-1);
   Mat3 (-1) 0 (-1)  0 (-1) 0  0 0 1;
   Mat3 1 0 0  0 1 1  0 0 (-1);
   Mat3 (-1) 0 0  0 (-1) (-1)  0 0 1;
   Mat3 1 0 0  0 1 0  0 0 1;
   Mat3 (-1) 0 0  0 (-1) 0  0 0 (-1);
   Mat3 1 0 1  0 0 (-1)  0 1 0;
   Mat3 (-1) 0 (-1)  0 0 1  0 (-1) 0;
   Mat3 1 0 0  0 0 1  0 1 0;
   Mat3 (-1) 0 0  0 0 (-1)  0 (-1) 0;
   Mat3 1 1 1  0 0 (-1)  (-1) 0 0;
   Mat3 (-1) (-1) (-1)  0 0 1  1 0 0;
   Mat3 1 1 1  0 (-1) 0  (-1) 0 0;
   Mat3 (-1) (-1) (-1)  0 1 0  1 0 0;
   Mat3 1 0 0  0 1 0  (-1) (-1) (-1);
   Mat3 (-1) 0 0  0 (-1) 0  1 1 1;
   Mat3 1 0 0  0 0 1  (-1) (-1) (-1);
   Mat3 (-1) 0 0  0 0 (-1)  1 1 1;
   Mat3 1 1 1  (-1) 0 0  0 0 (-1);
   Mat3 (-1) (-1) (-1)  1 0 0  0 0 1;
   Mat3 1 1 1  (-1) 0 0  0 (-1) 0;
   Mat3 (-1) (-1) (-1)  1 0 0  0 1 0;
   Mat3 1 0 0  (-1) (-1) (-1)  0 1 0;
   Mat3 (-1) 0 0  1 1 1  0 (-1) 0;
   Mat3 1 0 0  (-1) (-1) (-1)  0 0 1;
   Mat3 (-1) 0 0  1 1 1  0 0 (-1);
   Mat3 0 1 0  1 0 0  0 0 1;
   Mat3 0 (-1) 0  (-1) 0 0  0 0 (-1);
   Mat3 0 0 (-1)  1 1 1  0 (-1) 0;
   Mat3 0 0 1  (-1) (-1) (-1)  0 1 0;
   Mat3 0 0 1  1 0 0  0 1 0;
   Mat3 0 0 (-1)  (-1) 0 0  0 (-1) 0;
   Mat3 0 (-1) 0  1 1 1  0 0 (-1);
   Mat3 0 1 0  (-1) (-1) (-1)  0 0 1;
   Mat3 0 1 0  1 0 0  (-1) (-1) (-1);
   Mat3 0 (-1) 0  (-1) 0 0  1 1 1;
   Mat3 0 0 (-1)  1 1 1  (-1) 0 0;
   Mat3 0 0 1  (-1) (-1) (-1)  1 0 0;
   Mat3 0 0 1  1 0 0  (-1) (-1) (-1);
   Mat3 0 0 (-1)  (-1) 0 0  1 1 1;
   Mat3 0 (-1) 0  1 1 1  (-1) 0 0;
   Mat3 0 1 0  (-1) (-1) (-1)  1 0 0;
   Mat3 0 1 0  0 0 1  1 0 0;
   Mat3 0 (-1) 0  0 0 (-1)  (-1) 0 0;
   Mat3 0 0 1  0 1 0  1 0 0;
   Mat3 0 0 (-1)  0 (-1) 0  (-1) 0 0;
   Mat3 0 0 (-1)  0 (-1) 0  1 1 1;
   Mat3 0 0 1  0 1 0  (-1) (-1) (-1);
   Mat3 0 (-1) 0  0 0 (-1)  1 1 1;
   Mat3 0 1 0  0 0 1  (-1) (-1) (-1)].
(** Candidates for type II cells. *)
Definition cand2 : list mat3 :=
  [Mat3 1 0 0  1 0 (-1)  1 (-1) 0;
   Mat3 (-1) 0 0  (-1) 0 1  (-1) 1 0;
   Mat3 1 0 (-1)  1 0 0  1 (-1) 0;
   Mat3 (-1) 0 1  (-1) 0 0  (-1) 1 0;
   Mat3 1 0 0  1 (-1) 0  1 0 (-1);
   Mat3 (-1) 0 0  (-1) 1 0  (-1) 0 1;
   Mat3 1 0 (-1)  1 (-1) 0  1 0 0;
   Mat3 (-1) 0 1  (-1) 1 0  (-1) 0 0;
   Mat3 1 (-1) 0  1 0 0  1 0 (-1);
   Mat3 (-1) 1 0  (-1) 0 0  (-1) 0 1;
   Mat3 1 (-1) 0  1 0 (-1)  1 0 0;
   Mat3 (-1) 1 0  (-1) 0 1  (-1) 0 0;
   Mat3 1 0 0  1 (-1) 0  0 0 1;
   Mat3 (-1) 0 0  (-1) 1 0  0 0 (-1);
   Mat3 1 0 0  1 (-1) 0  0 0 (-1);
   Mat3 (-1) 0 0  (-1) 1 0  0 0 1;
   Mat3 1 (-1) 0  1 0 0  0 0 1;
   Mat3 (-1) 1 0  (-1) 0 0  0 0 (-1);
   Mat3 1 (-1) 0  1 0 0  0 0 (-1);
   Mat3 (-1) 1 0  (-1) 0 0  0 0 1;
   Mat3 1 0 0  0 1 0  0 1 (-1);
   Mat3 (-1) 0 0  0 (-1) 0  0 (-1) 1;
   Mat3 1 0 0  0 1 (-1)  0 1 0;
   Mat3 (-1) 0 0  0 (-1) 1  0 (-1) 0;
   Mat3 1 0 0  0 1 0  0 0 1;
   Mat3 (-1) 0 0  0 (-1) 0  0 0 (-1);
   Mat3 1 0 0  0 1 0  0 0 (-1);
   Mat3 (-1) 0 0  0 (-1) 0  0 0 1;
   Mat3 1 0 0  0 1 (-1)  0 0 (-1);
   Mat3 (-1) 0 0  0 (-1) 1  0 0 1;
   Mat3 1 0 (-1)  0 1 0  0 0 (-1);
   Mat3 (-1) 0 1  0 (-1) 0  0 0 1;
   Mat3 1 0 (-1)  0 1 (-1)  0 0 (-1);
   Mat3 (-1) 0 1  0 (-1) 1  0 0 1;
   Mat3 1 0 0  0 0 1  0 1 0;
   Mat3 (-1) 0 0  0 0 (-1)  0 (-1) 0;
   Mat3 1 0 0  0 0 (-1)  0 1 0;
   Mat3 (-1) 0 0  0 0 1  0 (-1) 0;
   Mat3 1 0 0  0 0 (-1)  0 1 (-1);
   Mat3 (-1) 0 0  0 0 1  0 (-1) 1;
   Mat3 1 0 (-1)  0 0 (-1)  0 1 (-1);
   Mat3 (-1) 0 1  0 0 1  0 (-1) 1;
   Mat3 1 0 0  0 0 1  0 (-1) 1;
   Mat3 (-1) 0 0  0 0 (-1)  0 1 (-1);
   Mat3 1 0 0  0 0 1  0 (-1) 0;
   Mat3 (-1) 0 0  0 0 (-1)  0 1 0;
   Mat3 1 0 0  0 0 (-1)  0 (-1) 0;
   Mat3 (-1) 0 0  0 0 1  0 1 0;
   Mat3 1 0 0  0 (-1) 1  0 0 1;
   Mat3 (-1) 0 0  0 1 (-1)  0 0 (-1);
   Mat3 1 0 0  0 (-1) 0  0 0 1;
   Mat3 (-1) 0 0  0 1 0  0 0 (-1);
   Mat3 1 0 0  0 (-1) 0  0 0 (-1);
   Mat3 (-1) 0 0  0 1 0  0 0 1;
   Mat3 1 0 (-1)  0 (-1) 0  0 0 (-1);
   Mat3 (-1) 0 1  0 1 0  0 0 1;
   Mat3 1 0 0  0 (-1) 1  0 (-1) 0;
   Mat3 (-1) 0 0  0 1 (-1)  0 1 0;
   Mat3 1 0 0  0 (-1) 0  0 (-1) 1;
   Mat3 (-1) 0 0  0 1 0  0 1 (-1);
   Mat3 1 (-1) 0  0 (-1) 0  0 0 1;
   Mat3 (-1) 1 0  0 1 0  0 0 (-1);
   Mat3 1 (-1) 0  0 (-1) 0  0 0 (-1);
   Mat3 (-1) 1 0  0 1 0  0 0 1;
   Mat3 1 (-1) 0  0 (-1) 1  0 (-1) 0;
   Mat3 (-1) 1 0  0 1 (-1)  0 1 0;
   Mat3 1 (-1) 0  0 (-1) 0  0 (-1) 1;
   Mat3 (-1) 1 0  0 1 0  0 1 (-1);
   Mat3 0 1 0  1 0 0  0 0 1;
   Mat3 0 (-1) 0  (-1) 0 0  0 0 (-1);
   Mat3 0 1 0  1 0 0  0 0 (-1);
   Mat3 0 (-1) 0  (-1) 0 0  0 0 1;
   Mat3 0 1 (-1)  1 0 (-1)  0 0 (-1);
   Mat3 0 (-1) 1  (-1) 0 1  0 0 1;
   Mat3 0 0 1  1 0 0  0 1 0;
   Mat3 0 0 (-1)  (-1) 0 0  0 (-1) 0;
   Mat3 0 0 (-1)  1 0 0  0 1 0;
   Mat3 0 0 1  (-1) 0 0  0 (-1) 0;
   Mat3 0 0 (-1)  1 0 (-1)  0 1 (-1);
   Mat3 0 0 1  (-1) 0 1  0 (-1) 1;
   Mat3 0 0 1  1 0 0  0 (-1) 0;
   Mat3 0 0 (-1)  (-1) 0 0  0 1 0;
   Mat3 0 0 (-1)  1 0 0  0 (-1) 0;
   Mat3 0 0 1  (-1) 0 0  0 1 0;
   Mat3 0 (-1) 1  1 0 0  0 0 1;
   Mat3 0 1 (-1)  (-1) 0 0  0 0 (-1);
   Mat3 0 (-1) 0  1 0 0  0 0 1;
   Mat3 0 1 0  (-1) 0 0  0 0 (-1);
   Mat3 0 (-1) 0  1 0 0  0 0 (-1);
   Mat3 0 1 0  (-1) 0 0  0 0 1;
   Mat3 0 (-1) 0  1 0 (-1)  0 0 (-1);
   Mat3 0 1 0  (-1) 0 1  0 0 1;
   Mat3 0 (-1) 0  1 (-1) 0  0 0 1;
   Mat3 0 1 0  (-1) 1 0  0 0 (-1);
   Mat3 0 (-1) 0  1 (-1) 0  0 0 (-1);
   Mat3 0 1 0  (-1) 1 0  0 0 1;
   Mat3 0 (-1) 1  1 (-1) 0  0 (-1) 0;
   Mat3 0 1 (-1)  (-1) 1 0  0 1 0;
   Mat3 0 (-1) 0  1 (-1) 0  0 (-1) 1;
   Mat3 0 1 0  (-1) 1 0  0 1 (-1);
   Mat3 0 1 0  0 0 1  1 0 0;
   Mat3 0 (-1) 0  0 0 (-1)  (-1) 0 0;
   Mat3 0 1 0  0 0 (-1)  1 0 0;
   Mat3 0 (-1) 0  0 0 1  (-1) 0 0;
   Mat3 0 1 (-1)  0 0 (-1)  1 0 (-1);
   Mat3 0 (-1) 1  0 0 1  (-1) 0 1;
   Mat3 0 0 1  0 1 0  1 0 0;
   Mat3 0 0 (-1)  0 (-1) 0  (-1) 0 0;
   Mat3 0 0 (-1)  0 1 0  1 0 0;
   Mat3 0 0 1  0 (-1) 0  (-1) 0 0;
   Mat3 0 0 (-1)  0 1 (-1)  1 0 (-1);
   Mat3 0 0 1  0 (-1) 1  (-1) 0 1;
   Mat3 0 0 1  0 (-1) 0  1 0 0;
   Mat3 0 0 (-1)  0 1 0  (-1) 0 0;
   Mat3 0 0 (-1)  0 (-1) 0  1 0 0;
   Mat3 0 0 1  0 1 0  (-1) 0 0;
   Mat3 0 (-1) 0  0 0 1  1 0 0;
   Mat3 0 1 0  0 0 (-1)  (-1) 0 0;
   Mat3 0 (-1) 0  0 0 (-1)  1 0 0;
   Mat3 0 1 0  0 0 1  (-1) 0 0;
   Mat3 0 (-1) 1  0 (-1) 0  1 (-1) 0;
   Mat3 0 1 (-1)  0 1 0  (-1) 1 0;
   Mat3 0 (-1) 0  0 (-1) 1  1 (-1) 0;
   Mat3 0 1 0  0 1 (-1)  (-1) 1 0].

Lemma small_cases v : small v -> v = 0 \/ v = 1 \/ v = -1.
Proof. unfold small. lia. Qed.

Ltac col Hs :=
  let a := fresh in let b := fresh in let c := fresh in
  destruct Hs as (a & b & c);
  apply small_cases in a; apply small_cases in b; apply small_cases in c;
  destruct a as [-> | [-> | ->]]; destruct b as [-> | [-> | ->]]; destruct c as [-> | [-> | ->]].

Ltac candidates N Hd Q1 Q2 Q3 QD QE QF S1 S2 S3 :=
  col S1; try (exfalso; clear - N Q1; lia);
  col S2; try (exfalso; clear - N Q1 Q2 QF; lia);
  col S3; try (exfalso; clear - Hd; lia);
  try (exfalso; clear - N Q1 Q2 QF Q3 QD QE; lia);
  apply mem_In; vm_compute; reflexivity.

Lemma candidates1 A B C D E F X : zN1 A B C D E F -> iso6 A B C D E F X ->
  mdet X = 1 \/ mdet X = -1 -> In X cand1.
Proof.
  destruct X as [x1 x2 x3 y1 y2 y3 z1 z2 z3]. intros N I Hd.
  unfold iso6 in I; cbn [m11 m12 m13 m21 m22 m23 m31 m32 m33] in I.
  destruct I as (Q1 & Q2 & Q3 & QD & QE & QF).
  destruct (isometry_small A B C D E F x1 y1 z1 x2 y2 z2 x3 y3 z3 (or_introl N) Q1 Q2 Q3 Hd)
    as (S1 & S2 & S3).
  unfold mdet in Hd; cbn [m11 m12 m13 m21 m22 m23 m31 m32 m33] in Hd.
  unfold zN1 in N; unfold qf in Q1, Q2, Q3; unfold bf in QD, QE, QF.
  candidates N Hd Q1 Q2 Q3 QD QE QF S1 S2 S3.
Qed.
Lemma candidates2 A B C D E F X : zN2 A B C D E F -> iso6 A B C D E F X ->
  mdet X = 1 \/ mdet X = -1 -> In X cand2.
Proof.
  destruct X as [x1 x2 x3 y1 y2 y3 z1 z2 z3]. intros N I Hd.
  unfold iso6 in I; cbn [m11 m12 m13 m21 m22 m23 m31 m32 m33] in I.
  destruct I as (Q1 & Q2 & Q3 & QD & QE & QF).
  destruct (isometry_small A B C D E F x1 y1 z1 x2 y2 z2 x3 y3 z3 (or_intror N) Q1 Q2 Q3 Hd)
    as (S1 & S2 & S3).
  unfold mdet in Hd; cbn [m11 m12 m13 m21 m22 m23 m31 m32 m33] in Hd.
  unfold zN2 in N; unfold qf in Q1, Q2, Q3; unfold bf in QD, QE, QF.
  candidates N Hd Q1 Q2 Q3 QD QE QF S1 S2 S3.
Qed.
