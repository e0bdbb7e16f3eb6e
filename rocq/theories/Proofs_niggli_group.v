(** The integer isometries of a Niggli cell are determined by the decisions of niggli_id:
    they are the isometries of the reduced canonical lattice. *)
From Coq Require Import ZArith List Lia Bool.
From Verif Require Import Mat3 Spec Bases Bases_niggli PointGroup Proofs_niggli_short
  Proofs_niggli_cand.
Import ListNotations.
Open Scope Z_scope.

(** The comparisons of niggli_id on integer parameters (exact). *)
Definition st2 (A B D E F : Z) : Prop := 2 * Z.abs (D + E + F) = A + B.
Definition zpos3 (D E F : Z) : Prop := 0 < D /\ 0 < E /\ 0 < F.
(** No answer in the first, the second block. *)
Definition none1 (A B C D E F : Z) : Prop :=
  ~ (A = B /\ B = C) \/ (zpos3 D E F /\ ~ (D = E /\ D = F)) \/
  (~ zpos3 D E F /\ ~ (D = E /\ D = F) /\ ~ st2 A B D E F).
Definition none2 (A B D E F : Z) : Prop :=
  A <> B \/ (zpos3 D E F /\ D <> E) \/ (~ zpos3 D E F /\ D <> E /\ ~ st2 A B D E F).
(** The path to the answer [k]; 0 is the path without an answer. *)
Definition zpath (k A B C D E F : Z) : Prop :=
  match k with
  | 0 => zN1 A B C D E F /\ none1 A B C D E F /\ none2 A B D E F /\ (B <> C \/ E <> F) /\ E = F /\ A <> 2 * E
  | 1 => zN1 A B C D E F /\ A = B /\ B = C /\ D = E /\ D = F /\ A = 2 * D
  | 2 => zN1 A B C D E F /\ A = B /\ B = C /\ D = E /\ D = F /\ A <> 2 * D
  | 3 => zN2 A B C D E F /\ A = B /\ B = C /\ D = E /\ D = F /\ D = 0
  | 4 => zN2 A B C D E F /\ A = B /\ B = C /\ D = E /\ D = F /\ D <> 0 /\ - A <> 3 * D
  | 5 => zN2 A B C D E F /\ A = B /\ B = C /\ D = E /\ D = F /\ D <> 0 /\ - A = 3 * D
  | 6 => zN2 A B C D E F /\ A = B /\ B = C /\ ~ (D = E /\ D = F) /\ st2 A B D E F /\ D = E
  | 7 => zN2 A B C D E F /\ A = B /\ B = C /\ ~ (D = E /\ D = F) /\ st2 A B D E F /\ D <> E /\ E = F
  | 8 => zN2 A B C D E F /\ A = B /\ B = C /\ ~ (D = E /\ D = F) /\ st2 A B D E F /\ D <> E /\ E <> F
  | 9 => zN1 A B C D E F /\ none1 A B C D E F /\ A = B /\ D = E /\ D = F /\ A = 2 * D
  | 10 => zN1 A B C D E F /\ none1 A B C D E F /\ A = B /\ D = E /\ ~ (D = F /\ A = 2 * D)
  | 11 => zN2 A B C D E F /\ none1 A B C D E F /\ A = B /\ D = E /\ D = F /\ D = 0
  | 12 => zN2 A B C D E F /\ none1 A B C D E F /\ A = B /\ D = E /\ ~ (D = F /\ D = 0) /\ D = 0 /\ - A = 2 * F
  | 13 => zN2 A B C D E F /\ none1 A B C D E F /\ A = B /\ D = E /\ ~ (D = F /\ D = 0) /\ ~ (D = 0 /\ - A = 2 * F) /\ D = 0
  | 14 => zN2 A B C D E F /\ none1 A B C D E F /\ A = B /\ D = E /\ ~ (- A = 2 * D /\ F = 0) /\ D <> 0 /\ ~ st2 A B D E F
  | 15 => zN2 A B C D E F /\ none1 A B C D E F /\ A = B /\ D = E /\ ~ (D = F /\ D = 0) /\ ~ (D = 0 /\ - A = 2 * F) /\ - A = 2 * D /\ F = 0
  | 16 => zN2 A B C D E F /\ none1 A B C D E F /\ A = B /\ D = E /\ ~ (- A = 2 * D /\ F = 0) /\ D <> 0 /\ st2 A B D E F
  | 17 => zN2 A B C D E F /\ none1 A B C D E F /\ A = B /\ D <> E /\ st2 A B D E F
  | 18 => zN1 A B C D E F /\ none1 A B C D E F /\ none2 A B D E F /\ B = C /\ E = F /\ A = 4 * D /\ A = 2 * E
  | 19 => zN1 A B C D E F /\ none1 A B C D E F /\ none2 A B D E F /\ B = C /\ E = F /\ A <> 4 * D /\ A = 2 * E
  | 20 => zN1 A B C D E F /\ none1 A B C D E F /\ none2 A B D E F /\ B = C /\ E = F /\ A <> 2 * E
  | 21 => zN2 A B C D E F /\ none1 A B C D E F /\ none2 A B D E F /\ B = C /\ E = F /\ D = 0 /\ E = 0
  | 22 => zN2 A B C D E F /\ none1 A B C D E F /\ none2 A B D E F /\ B = C /\ E = F /\ - B = 2 * D /\ E = 0
  | 23 => zN2 A B C D E F /\ none1 A B C D E F /\ none2 A B D E F /\ B = C /\ E = F /\ D <> 0 /\ - B <> 2 * D /\ E = 0
  | 24 => zN2 A B C D E F /\ none1 A B C D E F /\ none2 A B D E F /\ B = C /\ E = F /\ E <> 0 /\ st2 A B D E F /\ - A = 3 * E
  | 25 => zN2 A B C D E F /\ none1 A B C D E F /\ none2 A B D E F /\ B = C /\ E = F /\ E <> 0 /\ ~ (st2 A B D E F /\ - A = 3 * E)
  | 26 => zN1 A B C D E F /\ none1 A B C D E F /\ none2 A B D E F /\ (B <> C \/ E <> F) /\ E = F /\ A = 4 * D /\ A = 2 * E
  | 27 => zN1 A B C D E F /\ none1 A B C D E F /\ none2 A B D E F /\ (B <> C \/ E <> F) /\ E = F /\ A <> 4 * D /\ A = 2 * E
  | 28 => zN1 A B C D E F /\ none1 A B C D E F /\ none2 A B D E F /\ (B <> C \/ E <> F) /\ E <> F /\ A = 2 * E /\ F = 2 * D
  | 29 => zN1 A B C D E F /\ none1 A B C D E F /\ none2 A B D E F /\ (B <> C \/ E <> F) /\ E <> F /\ ~ (A = 2 * E /\ F = 2 * D) /\ A = 2 * F /\ E = 2 * D
  | 30 => zN1 A B C D E F /\ none1 A B C D E F /\ none2 A B D E F /\ (B <> C \/ E <> F) /\ E <> F /\ ~ (A = 2 * E /\ F = 2 * D) /\ ~ (A = 2 * F /\ E = 2 * D) /\ B = 2 * D /\ F = 2 * E
  | 31 => zN1 A B C D E F /\ none1 A B C D E F /\ none2 A B D E F /\ (B <> C \/ E <> F) /\ E <> F /\ ~ (A = 2 * E /\ F = 2 * D) /\ ~ (A = 2 * F /\ E = 2 * D) /\ ~ (B = 2 * D /\ F = 2 * E)
  | 32 => zN2 A B C D E F /\ none1 A B C D E F /\ none2 A B D E F /\ (B <> C \/ E <> F) /\ E = F /\ E = 0 /\ D = 0
  | 33 => zN2 A B C D E F /\ none1 A B C D E F /\ none2 A B D E F /\ (B <> C \/ E <> F) /\ ~ (E = F /\ E = 0) /\ D = F /\ D = 0 /\ - A <> 2 * E
  | 34 => zN2 A B C D E F /\ none1 A B C D E F /\ none2 A B D E F /\ (B <> C \/ E <> F) /\ ~ (E = F /\ E = 0) /\ ~ (D = F /\ D = 0) /\ D = E /\ D = 0 /\ - A <> 2 * F
  | 35 => zN2 A B C D E F /\ none1 A B C D E F /\ none2 A B D E F /\ (B <> C \/ E <> F) /\ E = F /\ E = 0 /\ D <> 0 /\ - B <> 2 * D
  | 36 => zN2 A B C D E F /\ none1 A B C D E F /\ none2 A B D E F /\ (B <> C \/ E <> F) /\ ~ (E = F /\ E = 0) /\ D = F /\ D = 0 /\ - A = 2 * E
  | 37 => zN2 A B C D E F /\ none1 A B C D E F /\ none2 A B D E F /\ (B <> C \/ E <> F) /\ ~ (E = F /\ E = 0) /\ ~ (D = F /\ D = 0) /\ ~ (D = E /\ D = 0) /\ ~ (- B = 2 * D /\ F = 0) /\ (- A = 2 * E /\ F = 0)
  | 38 => zN2 A B C D E F /\ none1 A B C D E F /\ none2 A B D E F /\ (B <> C \/ E <> F) /\ ~ (E = F /\ E = 0) /\ ~ (D = F /\ D = 0) /\ D = E /\ D = 0 /\ - A = 2 * F
  | 39 => zN2 A B C D E F /\ none1 A B C D E F /\ none2 A B D E F /\ (B <> C \/ E <> F) /\ ~ (E = F /\ E = 0) /\ ~ (D = F /\ D = 0) /\ ~ (D = E /\ D = 0) /\ ~ (- B = 2 * D /\ F = 0) /\ ~ (- A = 2 * E /\ F = 0) /\ (E = 0 /\ - A = 2 * F)
  | 40 => zN2 A B C D E F /\ none1 A B C D E F /\ none2 A B D E F /\ (B <> C \/ E <> F) /\ E = F /\ E = 0 /\ D <> 0 /\ - B = 2 * D
  | 41 => zN2 A B C D E F /\ none1 A B C D E F /\ none2 A B D E F /\ (B <> C \/ E <> F) /\ ~ (E = F /\ E = 0) /\ ~ (D = F /\ D = 0) /\ ~ (D = E /\ D = 0) /\ ~ (- B = 2 * D /\ - A = 2 * E /\ F = 0) /\ (- B = 2 * D /\ F = 0)
  | 42 => zN2 A B C D E F /\ none1 A B C D E F /\ none2 A B D E F /\ (B <> C \/ E <> F) /\ ~ (E = F /\ E = 0) /\ ~ (D = F /\ D = 0) /\ ~ (D = E /\ D = 0) /\ (- B = 2 * D /\ - A = 2 * E /\ F = 0)
  | 43 => zN2 A B C D E F /\ none1 A B C D E F /\ none2 A B D E F /\ (B <> C \/ E <> F) /\ ~ (E = F /\ E = 0) /\ ~ (D = F /\ D = 0) /\ ~ (D = E /\ D = 0) /\ ~ (- B = 2 * D /\ F = 0) /\ ~ (- A = 2 * E /\ F = 0) /\ ~ (E = 0 /\ - A = 2 * F) /\ (st2 A B D E F /\ Z.abs (2 * D + F) = B)
  | 44 => zN2 A B C D E F /\ none1 A B C D E F /\ none2 A B D E F /\ (B <> C \/ E <> F) /\ ~ (E = F /\ E = 0) /\ ~ (D = F /\ D = 0) /\ ~ (D = E /\ D = 0) /\ ~ (- B = 2 * D /\ F = 0) /\ ~ (- A = 2 * E /\ F = 0) /\ ~ (E = 0 /\ - A = 2 * F) /\ ~ (st2 A B D E F /\ Z.abs (2 * D + F) = B)
  | _ => False
  end.

Definition mneg (X : mat3) : mat3 := mscale (-1) X.
Lemma iso6_neg A B C D E F X : iso6 A B C D E F (mneg X) <-> iso6 A B C D E F X.
Proof.
  assert (H : forall x y z, qf A B C D E F (-1 * x) (-1 * y) (-1 * z) = qf A B C D E F x y z)
    by (intros; unfold qf; ring).
  assert (H' : forall x y z u v w, bf A B C D E F (-1 * x) (-1 * y) (-1 * z) (-1 * u) (-1 * v) (-1 * w)
    = bf A B C D E F x y z u v w) by (intros; unfold bf; ring).
  destruct X as [x1 x2 x3 y1 y2 y3 z1 z2 z3]. unfold iso6, mneg, mscale.
  cbn [m11 m12 m13 m21 m22 m23 m31 m32 m33]. rewrite !H, !H'. tauto.
Qed.

Fixpoint evens (l : list mat3) : list mat3 :=
  match l with x :: _ :: r => x :: evens r | _ => [] end.
(** The candidates up to sign. *)
Definition half1 : list mat3 := Eval vm_compute in evens cand1.
Definition half2 : list mat3 := Eval vm_compute in evens cand2.

Definition iso6b (A B C D E F : Z) (X : mat3) : bool :=
  let q x y z := qf A B C D E F x y z in
  let b x y z u v w := bf A B C D E F x y z u v w in
  (q (m11 X) (m21 X) (m31 X) =? A) && (q (m12 X) (m22 X) (m32 X) =? B) &&
  (q (m13 X) (m23 X) (m33 X) =? C) &&
  (b (m12 X) (m22 X) (m32 X) (m13 X) (m23 X) (m33 X) =? D) &&
  (b (m11 X) (m21 X) (m31 X) (m13 X) (m23 X) (m33 X) =? E) &&
  (b (m11 X) (m21 X) (m31 X) (m12 X) (m22 X) (m32 X) =? F).
Lemma iso6b_iff A B C D E F X : iso6b A B C D E F X = true <-> iso6 A B C D E F X.
Proof. unfold iso6b, iso6. rewrite !andb_true_iff, !Z.eqb_eq. tauto. Qed.

(** [X] is an isometry of the cell exactly if it is one of the given Gram matrix. *)
Definition agree (A B C D E F : Z) (G : mat3) (X : mat3) : Prop :=
  if iso6b (m11 G) (m22 G) (m33 G) (m23 G) (m13 G) (m12 G) X
  then iso6 A B C D E F X else ~ iso6 A B C D E F X.

Ltac agree_split :=
  repeat (apply Forall_cons; [|]); [..|apply Forall_nil];
  match goal with |- agree _ _ _ _ _ _ ?G ?X =>
    unfold agree;
    match goal with |- context [if ?b then _ else _] =>
      let v := eval vm_compute in b in change b with v end;
    cbv iota; cbv [iso6 qf bf m11 m12 m13 m21 m22 m23 m31 m32 m33]
  end.

(** Triclinic forms of both types: the only isometries are the identity and the inversion. *)
Definition mtric1 : mat3 := Mat3 100 9 5 9 120 7 5 7 150.
Definition mtric2 : mat3 := Mat3 100 (-9) (-5) (-9) 120 (-7) (-5) (-7) 150.

(** One lemma per path.  Each candidate is settled by a few of the hypotheses: [N1]... are
    the Niggli conditions, [P1]... the decisions on the path. *)
Lemma agree_0 A B C D E F : zpath 0 A B C D E F -> Forall (agree A B C D E F (mtric1)) half1.
Proof.
  unfold zpath, zN1, zN2, none1, none2, zpos3, st2.
  intros ((N1 & N2 & N3 & N4 & N5 & N6 & N7 & N8 & N9 & N10 & N11 & N12 & N13 & N14) & P1 & P2 & P3 & P4 & P5).
  unfold half1. agree_split.
  all: first
    [ clear - N3 N8 P3; lia
    | clear - P5; lia
    | clear - P4 P5; lia
    | clear - N5 P4; lia
    | clear - N3 N7 P3 P4; lia
    | clear - N2 N8 P4 P5; lia
    | clear - P2; lia
    | clear - N2 N3 N7 P3 P4; lia ].
Qed.
Lemma agree_1 A B C D E F : zpath 1 A B C D E F -> Forall (agree A B C D E F (niggli_gram 1)) half1.
Proof.
  unfold zpath, zN1, zN2, none1, none2, zpos3, st2.
  intros ((N1 & N2 & N3 & N4 & N5 & N6 & N7 & N8 & N9 & N10 & N11 & N12 & N13 & N14) & P1 & P2 & P3 & P4 & P5).
  unfold half1. agree_split.
  all: first
    [ clear - N9 N11 P2 P3 P5; lia
    | clear - N4 P3; lia
    | clear - N4 N9 P3; lia
    | clear - N2 N5 N9 P3; lia
    | clear - N9 N11 P1 P2 P3 P5; lia ].
Qed.
Lemma agree_2 A B C D E F : zpath 2 A B C D E F -> Forall (agree A B C D E F (niggli_gram 2)) half1.
Proof.
  unfold zpath, zN1, zN2, none1, none2, zpos3, st2.
  intros ((N1 & N2 & N3 & N4 & N5 & N6 & N7 & N8 & N9 & N10 & N11 & N12 & N13 & N14) & P1 & P2 & P3 & P4 & P5).
  unfold half1. agree_split.
  all: first
    [ clear - N3 N7 P1 P3 P5; lia
    | clear - N4 P3; lia
    | clear - P2 P3 P4; lia
    | clear - P1 P2 P3 P4; lia ].
Qed.
Lemma agree_3 A B C D E F : zpath 3 A B C D E F -> Forall (agree A B C D E F (niggli_gram 3)) half2.
Proof.
  unfold zpath, zN1, zN2, none1, none2, zpos3, st2.
  intros ((N1 & N2 & N3 & N4 & N5 & N6 & N7 & N8 & N9 & N10 & N11 & N12 & N13 & N14 & N15 & N16) & P1 & P2 & P3 & P4 & P5).
  unfold half2. agree_split.
  all: first
    [ clear - N1 N2 N9 P3 P5; lia
    | clear - N1 N2 N3 P3 P5; lia
    | clear - N1 N2 P4; lia
    | clear - N1 N2 P4 P5; lia
    | clear - N5 N12 P2 P4 P5; lia
    | clear - P1 P3; lia
    | clear - P1 P3 P5; lia
    | clear - P1 P2 P3 P4; lia
    | clear - P1 P2 P3 P4 P5; lia ].
Qed.
Lemma agree_4 A B C D E F : zpath 4 A B C D E F -> Forall (agree A B C D E F (niggli_gram 4)) half2.
Proof.
  unfold zpath, zN1, zN2, none1, none2, zpos3, st2.
  intros ((N1 & N2 & N3 & N4 & N5 & N6 & N7 & N8 & N9 & N10 & N11 & N12 & N13 & N14 & N15 & N16) & P1 & P2 & P3 & P4 & P5 & P6).
  unfold half2. agree_split.
  all: first
    [ clear - P1 P3 P4 P6; lia
    | clear - P3 P5; lia
    | clear - P2 P3 P4; lia
    | clear - N4 N6 P3 P5; lia
    | clear - P1 P2 P3 P4; lia ].
Qed.
Lemma agree_5 A B C D E F : zpath 5 A B C D E F -> Forall (agree A B C D E F (niggli_gram 5)) half2.
Proof.
  unfold zpath, zN1, zN2, none1, none2, zpos3, st2.
  intros ((N1 & N2 & N3 & N4 & N5 & N6 & N7 & N8 & N9 & N10 & N11 & N12 & N13 & N14 & N15 & N16) & P1 & P2 & P3 & P4 & P5 & P6).
  unfold half2. agree_split.
  all: first
    [ clear - N10 N12 P1 P2 P3 P6; lia
    | clear - P5; lia
    | clear - N4 N5 P5; lia
    | clear - P3 P5; lia
    | clear - N4 N6 P3 P5; lia
    | clear - P4 P5; lia ].
Qed.
Lemma agree_6 A B C D E F : zpath 6 A B C D E F -> Forall (agree A B C D E F (niggli_gram 6)) half2.
Proof.
  unfold zpath, zN1, zN2, none1, none2, zpos3, st2.
  intros ((N1 & N2 & N3 & N4 & N5 & N6 & N7 & N8 & N9 & N10 & N11 & N12 & N13 & N14 & N15 & N16) & P1 & P2 & P3 & P4 & P5).
  unfold half2. agree_split.
  all: first
    [ clear - N4 N5 N6 P1 P2 P4; lia
    | clear - N4 N6 P1 P2 P4 P5; lia
    | clear - P2 P3 P5; lia
    | clear - P1 P3 P4 P5; lia
    | clear - N1 N2 N3 P5; lia
    | clear - N2 N6 N9 P3 P4; lia
    | clear - N1 N2 N4 N6 P4 P5; lia
    | clear - N4 N12 P2 P3 P5; lia
    | clear - P1 P2 P3 P5; lia
    | clear - N1 N6 N9 P4; lia ].
Qed.
Lemma agree_7 A B C D E F : zpath 7 A B C D E F -> Forall (agree A B C D E F (niggli_gram 7)) half2.
Proof.
  unfold zpath, zN1, zN2, none1, none2, zpos3, st2.
  intros ((N1 & N2 & N3 & N4 & N5 & N6 & N7 & N8 & N9 & N10 & N11 & N12 & N13 & N14 & N15 & N16) & P1 & P2 & P3 & P4 & P5 & P6).
  unfold half2. agree_split.
  all: first
    [ clear - N4 N11 P1 P2 P4 P6; lia
    | clear - P5; lia
    | clear - P3 P6; lia
    | clear - N2 N9 N15 P5; lia
    | clear - N4 N11 P1 P5; lia
    | clear - N1 N6 N11 P1; lia
    | clear - N14 P5 P6; lia
    | clear - N4 N6 N11 P1 P5; lia
    | clear - N1 N11 P1 P6; lia
    | clear - N3 N11 P1 P5 P6; lia
    | clear - N2 N3 N4 N11 P5 P6; lia ].
Qed.
Lemma agree_8 A B C D E F : zpath 8 A B C D E F -> Forall (agree A B C D E F (niggli_gram 8)) half2.
Proof.
  unfold zpath, zN1, zN2, none1, none2, zpos3, st2.
  intros ((N1 & N2 & N3 & N4 & N5 & N6 & N7 & N8 & N9 & N10 & N11 & N12 & N13 & N14 & N15 & N16) & P1 & P2 & P3 & P4 & P5 & P6).
  unfold half2. agree_split.
  all: first
    [ clear - N4 N11 N12 P1 P2 P4; lia
    | clear - P5; lia
    | clear - P2 P6; lia
    | clear - N11 N12 P3; lia
    | clear - N2 N9 N15 P5; lia
    | clear - N4 N11 P1 P5; lia
    | clear - N1 N6 N11 P1; lia
    | clear - N4 N11 N12 P1 P2 P5; lia ].
Qed.
Lemma agree_9 A B C D E F : zpath 9 A B C D E F -> Forall (agree A B C D E F (niggli_gram 9)) half1.
Proof.
  unfold zpath, zN1, zN2, none1, none2, zpos3, st2.
  intros ((N1 & N2 & N3 & N4 & N5 & N6 & N7 & N8 & N9 & N10 & N11 & N12 & N13 & N14) & P1 & P2 & P3 & P4 & P5).
  unfold half1. agree_split.
  all: first
    [ clear - N3 N8 P1 P2 P3; lia
    | clear - P3 P4 P5; lia
    | clear - N4 P3; lia
    | clear - N4 N9 P3; lia
    | clear - N2 N5 N9 P3; lia
    | clear - N3 N7 P1 P2 P4; lia
    | clear - P2 P3 P4 P5; lia ].
Qed.
Lemma agree_10 A B C D E F : zpath 10 A B C D E F -> Forall (agree A B C D E F (niggli_gram 10)) half1.
Proof.
  unfold zpath, zN1, zN2, none1, none2, zpos3, st2.
  intros ((N1 & N2 & N3 & N4 & N5 & N6 & N7 & N8 & N9 & N10 & N11 & N12 & N13 & N14) & P1 & P2 & P3 & P4).
  unfold half1. agree_split.
  all: first
    [ clear - N3 N8 P3 P4; lia
    | clear - N4 P3; lia
    | clear - N4 N9 P3; lia
    | clear - N2 N5 N9 P3; lia
    | clear - P1 P2 P3; lia
    | clear - N2 N3 N7 N9 N11 P4; lia ].
Qed.
Lemma agree_11 A B C D E F : zpath 11 A B C D E F -> Forall (agree A B C D E F (niggli_gram 11)) half2.
Proof.
  unfold zpath, zN1, zN2, none1, none2, zpos3, st2.
  intros ((N1 & N2 & N3 & N4 & N5 & N6 & N7 & N8 & N9 & N10 & N11 & N12 & N13 & N14 & N15 & N16) & P1 & P2 & P3 & P4 & P5).
  unfold half2. agree_split.
  all: first
    [ clear - P1 P2 P3 P4; lia
    | clear - N1 N2 P4; lia
    | clear - N1 N2 P4 P5; lia
    | clear - N1 N2 N3 P3; lia
    | clear - P3 P5; lia
    | clear - N1 P3 P5; lia
    | clear - P3 P4 P5; lia
    | clear - N1 N2 N3 P3 P4; lia
    | clear - P2 P3 P5; lia
    | clear - N1 N9 P3 P5; lia
    | clear - P2 P3 P4 P5; lia ].
Qed.
Lemma agree_12 A B C D E F : zpath 12 A B C D E F -> Forall (agree A B C D E F (niggli_gram 12)) half2.
Proof.
  unfold zpath, zN1, zN2, none1, none2, zpos3, st2.
  intros ((N1 & N2 & N3 & N4 & N5 & N6 & N7 & N8 & N9 & N10 & N11 & N12 & N13 & N14 & N15 & N16) & P1 & P2 & P3 & P4 & P5 & P6).
  unfold half2. agree_split.
  all: first
    [ clear - N1 N2 N15 P5 P6; lia
    | clear - N1 N2 N3 N9 N15 P5; lia
    | clear - P2 P5 P6; lia
    | clear - N15 P2 P5 P6; lia
    | clear - N1 N2 N3 P5 P6; lia ].
Qed.
Lemma agree_13 A B C D E F : zpath 13 A B C D E F -> Forall (agree A B C D E F (niggli_gram 13)) half2.
Proof.
  unfold zpath, zN1, zN2, none1, none2, zpos3, st2.
  intros ((N1 & N2 & N3 & N4 & N5 & N6 & N7 & N8 & N9 & N10 & N11 & N12 & N13 & N14 & N15 & N16) & P1 & P2 & P3 & P4 & P5 & P6).
  unfold half2. agree_split.
  all: first
    [ clear - N2 N8 N9 P5 P6; lia
    | clear - N1 N2 N3 P3; lia
    | clear - P3 P6; lia
    | clear - N1 P3 P6; lia
    | clear - P3 P4 P6; lia
    | clear - N1 N2 N3 N8 P6; lia
    | clear - P2 P3; lia
    | clear - P2 P3 P6; lia ].
Qed.
Lemma agree_14 A B C D E F : zpath 14 A B C D E F -> Forall (agree A B C D E F (niggli_gram 14)) half2.
Proof.
  unfold zpath, zN1, zN2, none1, none2, zpos3, st2.
  intros ((N1 & N2 & N3 & N4 & N5 & N6 & N7 & N8 & N9 & N10 & N11 & N12 & N13 & N14 & N15 & N16) & P1 & P2 & P3 & P4 & P5 & P6).
  unfold half2. agree_split.
  all: first
    [ clear - N4 N12 P1 P2 P3; lia
    | clear - N2 N3 N10 P1 P3; lia
    | clear - P5; lia
    | clear - N4 N5 P5; lia
    | clear - P3 P5; lia
    | clear - N4 N6 P3 P5; lia
    | clear - N4 N6 P2 P6; lia
    | clear - P2 P4; lia
    | clear - P3 P4; lia
    | clear - N3 N10 P1 P2 P3; lia
    | clear - N4 N7 P6; lia ].
Qed.
Lemma agree_15 A B C D E F : zpath 15 A B C D E F -> Forall (agree A B C D E F (niggli_gram 15)) half2.
Proof.
  unfold zpath, zN1, zN2, none1, none2, zpos3, st2.
  intros ((N1 & N2 & N3 & N4 & N5 & N6 & N7 & N8 & N9 & N10 & N11 & N12 & N13 & N14 & N15 & N16) & P1 & P2 & P3 & P4 & P5 & P6 & P7).
  unfold half2. agree_split.
  all: first
    [ clear - N1 N2 N7 N12 P7; lia
    | clear - N1 N2 N3 P3; lia
    | clear - N1 P6; lia
    | clear - N1 N2 N6 P3; lia
    | clear - N6 N10 P2 P3 P6; lia
    | clear - P1 P2 P3; lia
    | clear - N1 N6 P3 P6; lia
    | clear - N1 N8 P7; lia
    | clear - N1 N2 N3 N7 N12 P7; lia ].
Qed.
Lemma agree_16 A B C D E F : zpath 16 A B C D E F -> Forall (agree A B C D E F (niggli_gram 16)) half2.
Proof.
  unfold zpath, zN1, zN2, none1, none2, zpos3, st2.
  intros ((N1 & N2 & N3 & N4 & N5 & N6 & N7 & N8 & N9 & N10 & N11 & N12 & N13 & N14 & N15 & N16) & P1 & P2 & P3 & P4 & P5 & P6).
  unfold half2. agree_split.
  all: first
    [ clear - N2 P1 P6; lia
    | clear - N2 N3 P1 P6; lia
    | clear - P5; lia
    | clear - N4 N5 P5; lia
    | clear - P3 P5; lia
    | clear - N4 N6 P3 P5; lia
    | clear - N4 N6 P2 P3 P6; lia
    | clear - P1 P2 P3; lia
    | clear - P2 P4; lia
    | clear - P3 P4; lia
    | clear - N3 P1 P2 P6; lia ].
Qed.
Lemma agree_17 A B C D E F : zpath 17 A B C D E F -> Forall (agree A B C D E F (niggli_gram 17)) half2.
Proof.
  unfold zpath, zN1, zN2, none1, none2, zpos3, st2.
  intros ((N1 & N2 & N3 & N4 & N5 & N6 & N7 & N8 & N9 & N10 & N11 & N12 & N13 & N14 & N15 & N16) & P1 & P2 & P3 & P4).
  unfold half2. agree_split.
  all: first
    [ clear - N2 P1 P4; lia
    | clear - N2 N3 P1 P4; lia
    | clear - N2 N9 N15 P3; lia
    | clear - N4 N11 P2 P3; lia
    | clear - N1 N6 N11 P2; lia
    | clear - N4 N6 P2 P3 P4; lia
    | clear - N4 P1 P2 P4; lia
    | clear - N8 N11 P2 P3; lia
    | clear - N2 N5 N8 P3 P4; lia
    | clear - N3 N7 P1 P2 P4; lia
    | clear - N4 N6 N11 P2 P4; lia ].
Qed.
Lemma agree_18 A B C D E F : zpath 18 A B C D E F -> Forall (agree A B C D E F (niggli_gram 18)) half1.
Proof.
  unfold zpath, zN1, zN2, none1, none2, zpos3, st2.
  intros ((N1 & N2 & N3 & N4 & N5 & N6 & N7 & N8 & N9 & N10 & N11 & N12 & N13 & N14) & P1 & P2 & P3 & P4 & P5 & P6).
  unfold half1. agree_split.
  all: first
    [ clear - P3 P4 P6; lia
    | clear - P3 P4 P5 P6; lia
    | clear - N5 N9 P6; lia
    | clear - P2; lia
    | clear - N2 N3 P2; lia
    | clear - N4 P5 P6; lia
    | clear - N2 N4 P5; lia
    | clear - N2 N3 N4 P5; lia
    | clear - N2 N3 P1 P4; lia ].
Qed.
Lemma agree_19 A B C D E F : zpath 19 A B C D E F -> Forall (agree A B C D E F (niggli_gram 19)) half1.
Proof.
  unfold zpath, zN1, zN2, none1, none2, zpos3, st2.
  intros ((N1 & N2 & N3 & N4 & N5 & N6 & N7 & N8 & N9 & N10 & N11 & N12 & N13 & N14) & P1 & P2 & P3 & P4 & P5 & P6).
  unfold half1. agree_split.
  all: first
    [ clear - P3 P4 P6; lia
    | clear - P5; lia
    | clear - P5 P6; lia
    | clear - P4 P5; lia
    | clear - N5 N9 P6; lia
    | clear - P2; lia
    | clear - N2 N3 P2; lia
    | clear - N2 N3 N8 P2; lia
    | clear - N2 N8 N9 N10 P2; lia
    | clear - N2 N3 N7 P2; lia
    | clear - N2 N3 N7 N8 N10 P2; lia
    | clear - N2 N3 P1 P4; lia ].
Qed.
Lemma agree_20 A B C D E F : zpath 20 A B C D E F -> Forall (agree A B C D E F (niggli_gram 20)) half1.
Proof.
  unfold zpath, zN1, zN2, none1, none2, zpos3, st2.
  intros ((N1 & N2 & N3 & N4 & N5 & N6 & N7 & N8 & N9 & N10 & N11 & N12 & N13 & N14) & P1 & P2 & P3 & P4 & P5).
  unfold half1. agree_split.
  all: first
    [ clear - N3 N8 P5; lia
    | clear - P4 P5; lia
    | clear - N5 P4; lia
    | clear - P3 P4; lia
    | clear - N2 N3 N8 P5; lia
    | clear - N2 N8 P4 P5; lia
    | clear - P2; lia
    | clear - P3 P4 P5; lia
    | clear - N2 N3 P1 P4; lia ].
Qed.
Lemma agree_21 A B C D E F : zpath 21 A B C D E F -> Forall (agree A B C D E F (niggli_gram 21)) half2.
Proof.
  unfold zpath, zN1, zN2, none1, none2, zpos3, st2.
  intros ((N1 & N2 & N3 & N4 & N5 & N6 & N7 & N8 & N9 & N10 & N11 & N12 & N13 & N14 & N15 & N16) & P1 & P2 & P3 & P4 & P5 & P6).
  unfold half2. agree_split.
  all: first
    [ clear - N1 N2 N9 P5 P6; lia
    | clear - N1 N2 N3 P5 P6; lia
    | clear - N2 N9 P2 P6; lia
    | clear - P3 P4; lia
    | clear - P3 P4 P5 P6; lia
    | clear - N1 N15 P4; lia
    | clear - N2 N3 P1 P4; lia
    | clear - N2 N3 N4 N11 P2 P6; lia ].
Qed.
Lemma agree_22 A B C D E F : zpath 22 A B C D E F -> Forall (agree A B C D E F (niggli_gram 22)) half2.
Proof.
  unfold zpath, zN1, zN2, none1, none2, zpos3, st2.
  intros ((N1 & N2 & N3 & N4 & N5 & N6 & N7 & N8 & N9 & N10 & N11 & N12 & N13 & N14 & N15 & N16) & P1 & P2 & P3 & P4 & P5 & P6).
  unfold half2. agree_split.
  all: first
    [ clear - N1 N2 N13 P5 P6; lia
    | clear - P3 P5 P6; lia
    | clear - N13 P3 P5 P6; lia
    | clear - N1 N3 N13 P5 P6; lia ].
Qed.
Lemma agree_23 A B C D E F : zpath 23 A B C D E F -> Forall (agree A B C D E F (niggli_gram 23)) half2.
Proof.
  unfold zpath, zN1, zN2, none1, none2, zpos3, st2.
  intros ((N1 & N2 & N3 & N4 & N5 & N6 & N7 & N8 & N9 & N10 & N11 & N12 & N13 & N14 & N15 & N16) & P1 & P2 & P3 & P4 & P5 & P6 & P7).
  unfold half2. agree_split.
  all: first
    [ clear - N2 N7 N9 P6 P7; lia
    | clear - N3 N4 N7 P5 P7; lia
    | clear - N3 N7 P6; lia
    | clear - N1 P7; lia
    | clear - P3 P4; lia
    | clear - P3 P4 P7; lia
    | clear - N1 P4; lia
    | clear - N3 N7 P6 P7; lia
    | clear - N2 N3 P1 P4; lia
    | clear - N4 N6 P5; lia
    | clear - N3 N7 N9 P6 P7; lia ].
Qed.
Lemma agree_24 A B C D E F : zpath 24 A B C D E F -> Forall (agree A B C D E F (niggli_gram 24)) half2.
Proof.
  unfold zpath, zN1, zN2, none1, none2, zpos3, st2.
  intros ((N1 & N2 & N3 & N4 & N5 & N6 & N7 & N8 & N9 & N10 & N11 & N12 & N13 & N14 & N15 & N16) & P1 & P2 & P3 & P4 & P5 & P6 & P7).
  unfold half2. agree_split.
  all: first
    [ clear - N2 P2 P6; lia
    | clear - N2 N3 P2 P6; lia
    | clear - N2 N9 N15 P5; lia
    | clear - N5 N6 P5; lia
    | clear - N14 P4 P5; lia
    | clear - N4 N5 P4 P6 P7; lia
    | clear - P3 P4; lia
    | clear - N4 N5 P3 P4 P6 P7; lia
    | clear - N2 N3 P1 P4; lia ].
Qed.
Lemma agree_25 A B C D E F : zpath 25 A B C D E F -> Forall (agree A B C D E F (niggli_gram 25)) half2.
Proof.
  unfold zpath, zN1, zN2, none1, none2, zpos3, st2.
  intros ((N1 & N2 & N3 & N4 & N5 & N6 & N7 & N8 & N9 & N10 & N11 & N12 & N13 & N14 & N15 & N16) & P1 & P2 & P3 & P4 & P5 & P6).
  unfold half2. agree_split.
  all: first
    [ clear - N2 N4 N5 N10 N12 P1; lia
    | clear - N2 N3 N4 N5 N10 P2; lia
    | clear - N2 N9 N15 P5; lia
    | clear - N5 N6 P5; lia
    | clear - N14 P4 P5; lia
    | clear - N2 N5 P4 P6; lia
    | clear - P3 P4; lia
    | clear - N2 N5 P3 P4 P6; lia
    | clear - N4 N11 P2 P4; lia
    | clear - N2 N3 P1 P4; lia
    | clear - N4 N5 P4 P5; lia
    | clear - N2 N3 N4 N11 P2 P4; lia ].
Qed.
Lemma agree_26 A B C D E F : zpath 26 A B C D E F -> Forall (agree A B C D E F (niggli_gram 26)) half1.
Proof.
  unfold zpath, zN1, zN2, none1, none2, zpos3, st2.
  intros ((N1 & N2 & N3 & N4 & N5 & N6 & N7 & N8 & N9 & N10 & N11 & N12 & N13 & N14) & P1 & P2 & P3 & P4 & P5 & P6).
  unfold half1. agree_split.
  all: first
    [ clear - N3 N8 P3; lia
    | clear - P4 P6; lia
    | clear - P4 P5 P6; lia
    | clear - N5 N9 P6; lia
    | clear - N2 N3 P3; lia
    | clear - N3 N7 P3 P4; lia
    | clear - P2; lia
    | clear - N2 N4 P5; lia
    | clear - N2 N3 N7 P3 P4; lia ].
Qed.
Lemma agree_27 A B C D E F : zpath 27 A B C D E F -> Forall (agree A B C D E F (niggli_gram 27)) half1.
Proof.
  unfold zpath, zN1, zN2, none1, none2, zpos3, st2.
  intros ((N1 & N2 & N3 & N4 & N5 & N6 & N7 & N8 & N9 & N10 & N11 & N12 & N13 & N14) & P1 & P2 & P3 & P4 & P5 & P6).
  unfold half1. agree_split.
  all: first
    [ clear - N3 N8 P3; lia
    | clear - P4 P6; lia
    | clear - P5 P6; lia
    | clear - P4 P5; lia
    | clear - N5 N9 P6; lia
    | clear - N2 N3 P3; lia
    | clear - N3 N7 P3 P4; lia
    | clear - P2; lia
    | clear - N2 N8 N9 N10 P2; lia
    | clear - N2 N3 N7 P3 P4; lia ].
Qed.
Lemma agree_28 A B C D E F : zpath 28 A B C D E F -> Forall (agree A B C D E F (niggli_gram 28)) half1.
Proof.
  unfold zpath, zN1, zN2, none1, none2, zpos3, st2.
  intros ((N1 & N2 & N3 & N4 & N5 & N6 & N7 & N8 & N9 & N10 & N11 & N12 & N13 & N14) & P1 & P2 & P3 & P4 & P5 & P6).
  unfold half1. agree_split.
  all: first
    [ clear - N3 N8 P3; lia
    | clear - P4; lia
    | clear - P4 P5; lia
    | clear - P5 P6; lia
    | clear - N5 N9 P5; lia
    | clear - N4 N9 P5 P6; lia
    | clear - N2 N3 N4 N9 P6; lia ].
Qed.
Lemma agree_29 A B C D E F : zpath 29 A B C D E F -> Forall (agree A B C D E F (niggli_gram 29)) half1.
Proof.
  unfold zpath, zN1, zN2, none1, none2, zpos3, st2.
  intros ((N1 & N2 & N3 & N4 & N5 & N6 & N7 & N8 & N9 & N10 & N11 & N12 & N13 & N14) & P1 & P2 & P3 & P4 & P5 & P6 & P7).
  unfold half1. agree_split.
  all: first
    [ clear - N8 N9 P5 P7; lia
    | clear - P6 P7; lia
    | clear - N2 N5 N9 P7; lia
    | clear - P3; lia
    | clear - N2 N4 N8 P7; lia
    | clear - N2 N3 N4 N8 P7; lia
    | clear - N2 N3 N10 N11 P3; lia ].
Qed.
Lemma agree_30 A B C D E F : zpath 30 A B C D E F -> Forall (agree A B C D E F (niggli_gram 30)) half1.
Proof.
  unfold zpath, zN1, zN2, none1, none2, zpos3, st2.
  intros ((N1 & N2 & N3 & N4 & N5 & N6 & N7 & N8 & N9 & N10 & N11 & N12 & N13 & N14) & P1 & P2 & P3 & P4 & P5 & P6 & P7 & P8).
  unfold half1. agree_split.
  all: first
    [ clear - N3 N5 P8; lia
    | clear - P6; lia
    | clear - P5; lia
    | clear - P7 P8; lia
    | clear - N2 N5 N9 P7 P8; lia
    | clear - N2 N5 N9 N10 P8; lia
    | clear - N3 N5 N9 P8; lia
    | clear - N2 N3 N5 N7 N10 P8; lia ].
Qed.
Lemma agree_31 A B C D E F : zpath 31 A B C D E F -> Forall (agree A B C D E F (mtric1)) half1.
Proof.
  unfold zpath, zN1, zN2, none1, none2, zpos3, st2.
  intros ((N1 & N2 & N3 & N4 & N5 & N6 & N7 & N8 & N9 & N10 & N11 & N12 & N13 & N14) & P1 & P2 & P3 & P4 & P5 & P6 & P7).
  unfold half1. agree_split.
  all: first
    [ clear - N3 N8 P4; lia
    | clear - P6; lia
    | clear - P5; lia
    | clear - P7; lia
    | clear - N2 N3 N7 N9 N11 P4; lia
    | clear - N2 N8 N9 N10 P4; lia
    | clear - P2; lia
    | clear - N2 N3 N7 N10 N11 P3; lia ].
Qed.
Lemma agree_32 A B C D E F : zpath 32 A B C D E F -> Forall (agree A B C D E F (niggli_gram 32)) half2.
Proof.
  unfold zpath, zN1, zN2, none1, none2, zpos3, st2.
  intros ((N1 & N2 & N3 & N4 & N5 & N6 & N7 & N8 & N9 & N10 & N11 & N12 & N13 & N14 & N15 & N16) & P1 & P2 & P3 & P4 & P5 & P6).
  unfold half2. agree_split.
  all: first
    [ clear - P3 P4; lia
    | clear - N2 N9 P2 P5; lia
    | clear - N1 N2 N3 P6; lia
    | clear - P5 P6; lia
    | clear - N1 P5; lia
    | clear - N1 N9 P5; lia
    | clear - P4 P5 P6; lia
    | clear - N1 N15 P4; lia
    | clear - N1 P4 P5; lia
    | clear - N1 N9 P5 P6; lia
    | clear - N2 N3 P3 P4; lia ].
Qed.
Lemma agree_33 A B C D E F : zpath 33 A B C D E F -> Forall (agree A B C D E F (niggli_gram 33)) half2.
Proof.
  unfold zpath, zN1, zN2, none1, none2, zpos3, st2.
  intros ((N1 & N2 & N3 & N4 & N5 & N6 & N7 & N8 & N9 & N10 & N11 & N12 & N13 & N14 & N15 & N16) & P1 & P2 & P3 & P4 & P5 & P6 & P7).
  unfold half2. agree_split.
  all: first
    [ clear - N2 N8 N9 P6 P7; lia
    | clear - N2 N3 N8 P6 P7; lia
    | clear - N1 N2 P5; lia
    | clear - N1 N2 P5 P6; lia
    | clear - P4 P5; lia
    | clear - P3; lia
    | clear - N5 N12 P3; lia
    | clear - N1 N2 N3 P6; lia
    | clear - N1 N2 N3 N8 P6; lia
    | clear - P2; lia
    | clear - N4 N11 P2; lia
    | clear - N2 N3 N11 N12 P3; lia
    | clear - N2 N3 N4 N11 N12 P2; lia ].
Qed.
Lemma agree_34 A B C D E F : zpath 34 A B C D E F -> Forall (agree A B C D E F (niggli_gram 34)) half2.
Proof.
  unfold zpath, zN1, zN2, none1, none2, zpos3, st2.
  intros ((N1 & N2 & N3 & N4 & N5 & N6 & N7 & N8 & N9 & N10 & N11 & N12 & N13 & N14 & N15 & N16) & P1 & P2 & P3 & P4 & P5 & P6 & P7 & P8).
  unfold half2. agree_split.
  all: first
    [ clear - N2 N8 N9 P2 P6 P7; lia
    | clear - N1 N2 N3 P6; lia
    | clear - N1 P6 P7; lia
    | clear - P3; lia
    | clear - N5 N12 P3; lia
    | clear - P5; lia
    | clear - P4; lia
    | clear - N1 N2 N3 P7; lia
    | clear - P8; lia
    | clear - N2 N3 N6 P2 P6 P7; lia ].
Qed.
Lemma agree_35 A B C D E F : zpath 35 A B C D E F -> Forall (agree A B C D E F (niggli_gram 35)) half2.
Proof.
  unfold zpath, zN1, zN2, none1, none2, zpos3, st2.
  intros ((N1 & N2 & N3 & N4 & N5 & N6 & N7 & N8 & N9 & N10 & N11 & N12 & N13 & N14 & N15 & N16) & P1 & P2 & P3 & P4 & P5 & P6 & P7).
  unfold half2. agree_split.
  all: first
    [ clear - P3 P4; lia
    | clear - P6; lia
    | clear - N4 N5 P6; lia
    | clear - N3 N7 P3 P4; lia
    | clear - P7; lia
    | clear - N1 P5; lia
    | clear - N1 N9 P5; lia
    | clear - P4 P5; lia
    | clear - N1 P4; lia
    | clear - N3 N7 P3 P4 P5; lia
    | clear - P2; lia
    | clear - N7 N9 P5 P7; lia
    | clear - N2 N3 P3 P4; lia ].
Qed.
Lemma agree_36 A B C D E F : zpath 36 A B C D E F -> Forall (agree A B C D E F (niggli_gram 36)) half2.
Proof.
  unfold zpath, zN1, zN2, none1, none2, zpos3, st2.
  intros ((N1 & N2 & N3 & N4 & N5 & N6 & N7 & N8 & N9 & N10 & N11 & N12 & N13 & N14 & N15 & N16) & P1 & P2 & P3 & P4 & P5 & P6 & P7).
  unfold half2. agree_split.
  all: first
    [ clear - N1 N2 N14 P6 P7; lia
    | clear - N2 N3 N11 N12 P3; lia
    | clear - N2 N3 N4 N11 N12 P2; lia ].
Qed.
Lemma agree_37 A B C D E F : zpath 37 A B C D E F -> Forall (agree A B C D E F (niggli_gram 37)) half2.
Proof.
  unfold zpath, zN1, zN2, none1, none2, zpos3, st2.
  intros ((N1 & N2 & N3 & N4 & N5 & N6 & N7 & N8 & N9 & N10 & N11 & N12 & N13 & N14 & N15 & N16) & P1 & P2 & P3 & P4 & P5 & P6 & P7 & P8).
  unfold half2. agree_split.
  all: first
    [ clear - N2 N7 P7 P8; lia
    | clear - N1 N2 N7 P8; lia
    | clear - N4 N6 P5; lia
    | clear - N1 N4 P8; lia
    | clear - N2 N3 N11 N12 P3; lia
    | clear - N3 N7 P7 P8; lia ].
Qed.
Lemma agree_38 A B C D E F : zpath 38 A B C D E F -> Forall (agree A B C D E F (niggli_gram 38)) half2.
Proof.
  unfold zpath, zN1, zN2, none1, none2, zpos3, st2.
  intros ((N1 & N2 & N3 & N4 & N5 & N6 & N7 & N8 & N9 & N10 & N11 & N12 & N13 & N14 & N15 & N16) & P1 & P2 & P3 & P4 & P5 & P6 & P7 & P8).
  unfold half2. agree_split.
  all: first
    [ clear - N1 N2 N9 P6 P7; lia
    | clear - N2 N9 P2 P6 P7; lia
    | clear - N1 N2 N3 P6; lia
    | clear - P3; lia
    | clear - N1 N5 P8; lia
    | clear - N15 P7 P8; lia
    | clear - N1 N2 N3 P6 P7; lia
    | clear - N2 N3 P3 P6; lia
    | clear - N2 N3 P2 P6; lia ].
Qed.
Lemma agree_39 A B C D E F : zpath 39 A B C D E F -> Forall (agree A B C D E F (niggli_gram 39)) half2.
Proof.
  unfold zpath, zN1, zN2, none1, none2, zpos3, st2.
  intros ((N1 & N2 & N3 & N4 & N5 & N6 & N7 & N8 & N9 & N10 & N11 & N12 & N13 & N14 & N15 & N16) & P1 & P2 & P3 & P4 & P5 & P6 & P7 & P8 & P9).
  unfold half2. agree_split.
  all: first
    [ clear - N2 N10 N12 N16 P3 P9; lia
    | clear - N1 N3 P9; lia
    | clear - P6 P9; lia
    | clear - N3 N7 N13 P4; lia
    | clear - N1 N3 N10 N16 P9; lia
    | clear - N1 N4 P9; lia ].
Qed.
Lemma agree_40 A B C D E F : zpath 40 A B C D E F -> Forall (agree A B C D E F (niggli_gram 40)) half2.
Proof.
  unfold zpath, zN1, zN2, none1, none2, zpos3, st2.
  intros ((N1 & N2 & N3 & N4 & N5 & N6 & N7 & N8 & N9 & N10 & N11 & N12 & N13 & N14 & N15 & N16) & P1 & P2 & P3 & P4 & P5 & P6 & P7).
  unfold half2. agree_split.
  all: first
    [ clear - P3 P4; lia
    | clear - P6; lia
    | clear - N4 N5 P6; lia
    | clear - N3 N7 P3 P4; lia
    | clear - N13 P5 P7; lia
    | clear - N1 P5; lia
    | clear - N1 P5 P7; lia
    | clear - N1 P4; lia
    | clear - N1 N13 P5 P7; lia
    | clear - N2 N3 P3 P4; lia ].
Qed.
Lemma agree_41 A B C D E F : zpath 41 A B C D E F -> Forall (agree A B C D E F (niggli_gram 41)) half2.
Proof.
  unfold zpath, zN1, zN2, none1, none2, zpos3, st2.
  intros ((N1 & N2 & N3 & N4 & N5 & N6 & N7 & N8 & N9 & N10 & N11 & N12 & N13 & N14 & N15 & N16) & P1 & P2 & P3 & P4 & P5 & P6 & P7 & P8).
  unfold half2. agree_split.
  all: first
    [ clear - N2 N8 P7 P8; lia
    | clear - N1 N2 P8; lia
    | clear - P4 P8; lia
    | clear - N1 N8 P8; lia
    | clear - N1 N5 P8; lia
    | clear - N3 N8 P7 P8; lia ].
Qed.
Lemma agree_42 A B C D E F : zpath 42 A B C D E F -> Forall (agree A B C D E F (niggli_gram 42)) half2.
Proof.
  unfold zpath, zN1, zN2, none1, none2, zpos3, st2.
  intros ((N1 & N2 & N3 & N4 & N5 & N6 & N7 & N8 & N9 & N10 & N11 & N12 & N13 & N14 & N15 & N16) & P1 & P2 & P3 & P4 & P5 & P6 & P7).
  unfold half2. agree_split.
  all: first
    [ clear - N1 N12 P7; lia
    | clear - N1 N2 P7; lia
    | clear - P2; lia
    | clear - N4 N6 N11 P2; lia ].
Qed.
Lemma agree_43 A B C D E F : zpath 43 A B C D E F -> Forall (agree A B C D E F (niggli_gram 43)) half2.
Proof.
  unfold zpath, zN1, zN2, none1, none2, zpos3, st2.
  intros ((N1 & N2 & N3 & N4 & N5 & N6 & N7 & N8 & N9 & N10 & N11 & N12 & N13 & N14 & N15 & N16) & P1 & P2 & P3 & P4 & P5 & P6 & P7 & P8 & P9 & P10).
  unfold half2. agree_split.
  all: first
    [ clear - P2 P10; lia
    | clear - N2 N3 P2 P10; lia
    | clear - N9 P2 P10; lia
    | clear - N3 N7 N13 P4; lia
    | clear - N4 N5 N6 P10; lia
    | clear - P3; lia
    | clear - N5 N12 P3; lia
    | clear - P7; lia
    | clear - P8; lia
    | clear - N15 P9; lia
    | clear - N3 N10 N12 N16 P3; lia ].
Qed.
Lemma agree_44 A B C D E F : zpath 44 A B C D E F -> Forall (agree A B C D E F (mtric2)) half2.
Proof.
  unfold zpath, zN1, zN2, none1, none2, zpos3, st2.
  intros ((N1 & N2 & N3 & N4 & N5 & N6 & N7 & N8 & N9 & N10 & N11 & N12 & N13 & N14 & N15 & N16) & P1 & P2 & P3 & P4 & P5 & P6 & P7 & P8 & P9 & P10).
  unfold half2. agree_split.
  all: first
    [ clear - N2 N4 N5 N10 N12 P1; lia
    | clear - N2 N3 N10 P3; lia
    | clear - N2 N9 N15 P6; lia
    | clear - N3 N7 N13 P4; lia
    | clear - N14 P8; lia
    | clear - N1 N2 P10; lia
    | clear - N5 N12 P3; lia
    | clear - P7; lia
    | clear - P5; lia
    | clear - P9; lia
    | clear - N3 N10 N12 N16 P3; lia
    | clear - P2; lia
    | clear - N4 N11 P2; lia
    | clear - N4 N8 N11 P2; lia
    | clear - N2 N3 N11 N12 P3; lia
    | clear - N2 N3 N4 N11 N12 P2; lia ].
Qed.
