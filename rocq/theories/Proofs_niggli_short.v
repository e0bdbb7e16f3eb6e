(** Short vectors of a Niggli cell with integer parameters, and the size of the entries of
    its isometries. *)
From Coq Require Import ZArith List Lia Bool.
From Verif Require Import Mat3.
Import ListNotations.
Open Scope Z_scope.

(** Squared length of x a + y b + z c. *)
Definition qf (A B C D E F x y z : Z) : Z :=
  A * (x * x) + B * (y * y) + C * (z * z) + 2 * (D * (y * z)) + 2 * (E * (x * z)) + 2 * (F * (x * y)).
(** Scalar product of two such vectors. *)
Definition bf (A B C D E F x y z u v w : Z) : Z :=
  A * (x * u) + B * (y * v) + C * (z * w) + D * (y * w + z * v) + E * (x * w + z * u) +
  F * (x * v + y * u).

(** Niggli cell of type I (positive) and type II, D = b.c, E = a.c, F = a.b. *)
Definition zN1 (A B C D E F : Z) : Prop :=
  0 < A /\ A <= B /\ B <= C /\ 0 < D /\ 0 < E /\ 0 < F /\
  2 * D <= B /\ 2 * E <= A /\ 2 * F <= A /\
  (A = B -> D <= E) /\ (B = C -> E <= F) /\
  (2 * D = B -> F <= 2 * E) /\ (2 * E = A -> F <= 2 * D) /\ (2 * F = A -> E <= 2 * D).
Definition zN2 (A B C D E F : Z) : Prop :=
  0 < A /\ A <= B /\ B <= C /\ D <= 0 /\ E <= 0 /\ F <= 0 /\
  - (2 * D) <= B /\ - (2 * E) <= A /\ - (2 * F) <= A /\ 0 <= A + B + 2 * D + 2 * E + 2 * F /\
  (A = B -> E <= D) /\ (B = C -> F <= E) /\
  (- (2 * D) = B -> F = 0) /\ (- (2 * E) = A -> F = 0) /\ (- (2 * F) = A -> E = 0) /\
  (A + B + 2 * D + 2 * E + 2 * F = 0 -> 2 * A + 4 * E + 2 * F <= 0).

(** Lower bounds of a multiple of a square by the class of the number. *)
Lemma sq_class t w : 0 <= t ->
  (w = 0 /\ t * (w * w) = 0) \/ (w = 1 /\ t * (w * w) = t) \/ (w = -1 /\ t * (w * w) = t) \/
  (2 <= w /\ 4 * t <= t * (w * w)) \/ (w <= -2 /\ 4 * t <= t * (w * w)).
Proof.
  intros Ht. assert (Hc : w = 0 \/ w = 1 \/ w = -1 \/ 2 <= w \/ w <= -2) by lia.
  destruct Hc as [->|[->|[->|[Hw|Hw]]]].
  - left; lia.
  - right; left; lia.
  - right; right; left; lia.
  - right; right; right; left. split; [exact Hw|]. assert (4 <= w * w) by nia. nia.
  - right; right; right; right. split; [exact Hw|]. assert (4 <= w * w) by nia. nia.
Qed.

Definition small (v : Z) : Prop := -1 <= v <= 1.

Ltac cls L P := destruct L as [[Hc P]|[[Hc P]|[[Hc P]|[[Hc P]|[Hc P]]]]].

(** The linear part of the argument: [wa] ... [wf] stand for the six weighted squares. *)
Ltac by_classes Hz H1 H2 H3 H4 H5 H6 x y z u4 u5 u6 :=
  pose proof (sq_class _ z H3) as L3; pose proof (sq_class _ x H1) as L1;
  pose proof (sq_class _ y H2) as L2; pose proof (sq_class _ u4 H4) as L4;
  pose proof (sq_class _ u5 H5) as L5; pose proof (sq_class _ u6 H6) as L6;
  match type of L3 with (_ /\ ?w = 0) \/ _ => generalize dependent w; intros w3 L3 end;
  match type of L1 with (_ /\ ?w = 0) \/ _ => generalize dependent w; intros w1 L1 end;
  match type of L2 with (_ /\ ?w = 0) \/ _ => generalize dependent w; intros w2 L2 end;
  match type of L4 with (_ /\ ?w = 0) \/ _ => generalize dependent w; intros w4 L4 end;
  match type of L5 with (_ /\ ?w = 0) \/ _ => generalize dependent w; intros w5 L5 end;
  match type of L6 with (_ /\ ?w = 0) \/ _ => generalize dependent w; intros w6 L6 end;
  destruct L3 as [[K3 P3]|[[K3 P3]|[[K3 P3]|[[K3 P3]|[K3 P3]]]]]; try (exfalso; clear - K3 Hz; lia);
  destruct L1 as [[K1 P1]|[[K1 P1]|[[K1 P1]|[[K1 P1]|[K1 P1]]]]];
  destruct L2 as [[K2 P2]|[[K2 P2]|[[K2 P2]|[[K2 P2]|[K2 P2]]]]];
  destruct L4 as [[K4 P4]|[[K4 P4]|[[K4 P4]|[[K4 P4]|[K4 P4]]]]]; try (exfalso; clear - K2 K3 K4; lia);
  destruct L5 as [[K5 P5]|[[K5 P5]|[[K5 P5]|[[K5 P5]|[K5 P5]]]]]; try (exfalso; clear - K1 K3 K5; lia);
  destruct L6 as [[K6 P6]|[[K6 P6]|[[K6 P6]|[[K6 P6]|[K6 P6]]]]]; try (exfalso; clear - K1 K2 K6; lia).

(** Vectors with a component along c. *)
Lemma qf_z_pos A B C D E F x y z : zN1 A B C D E F \/ zN2 A B C D E F -> 0 < z ->
  C <= qf A B C D E F x y z /\
  (qf A B C D E F x y z <= C -> small x /\ small y /\ small z).
Proof.
  intros [N|N] Hz; unfold zN1, zN2, small in *.
  - replace (qf A B C D E F x y z) with
      ((A - E - F) * (x * x) + (B - D - F) * (y * y) + (C - D - E) * (z * z) +
      D * ((y + z) * (y + z)) + E * ((x + z) * (x + z)) + F * ((x + y) * (x + y)))
      by (unfold qf; ring).
    destruct N as (N1 & N2 & N3 & N4 & N5 & N6 & N7 & N8 & N9 & _).
    assert (H1 : 0 <= A - E - F) by lia. assert (H2 : 0 <= B - D - F) by lia.
    assert (H3 : 0 <= C - D - E) by lia. assert (H4 : 0 <= D) by lia.
    assert (H5 : 0 <= E) by lia. assert (H6 : 0 <= F) by lia.
    by_classes Hz H1 H2 H3 H4 H5 H6 x y z (y + z) (x + z) (x + y).
    all: split; [clear - N1 N2 N3 N4 N5 N6 N7 N8 N9 P1 P2 P3 P4 P5 P6; lia|intros HQ].
    all: try (exfalso; clear - N1 N2 N3 N4 N5 N6 N7 N8 N9 P1 P2 P3 P4 P5 P6 HQ; lia).
    all: clear - K1 K2 K3; lia.
  - replace (qf A B C D E F x y z) with
      ((A + E + F) * (x * x) + (B + D + F) * (y * y) + (C + D + E) * (z * z) +
      (- D) * ((y - z) * (y - z)) + (- E) * ((x - z) * (x - z)) + (- F) * ((x - y) * (x - y)))
      by (unfold qf; ring).
    destruct N as (N1 & N2 & N3 & N4 & N5 & N6 & N7 & N8 & N9 & N10 & _).
    assert (H1 : 0 <= A + E + F) by lia. assert (H2 : 0 <= B + D + F) by lia.
    assert (H3 : 0 <= C + D + E) by lia. assert (H4 : 0 <= - D) by lia.
    assert (H5 : 0 <= - E) by lia. assert (H6 : 0 <= - F) by lia.
    by_classes Hz H1 H2 H3 H4 H5 H6 x y z (y - z) (x - z) (x - y).
    all: split; [clear - N1 N2 N3 N4 N5 N6 N7 N8 N9 N10 P1 P2 P3 P4 P5 P6; lia|intros HQ].
    all: try (exfalso; clear - N1 N2 N3 N4 N5 N6 N7 N8 N9 N10 P1 P2 P3 P4 P5 P6 HQ; lia).
    all: clear - K1 K2 K3; lia.
Qed.

Lemma qf_opp A B C D E F x y z : qf A B C D E F (- x) (- y) (- z) = qf A B C D E F x y z.
Proof. unfold qf. ring. Qed.

Definition zN (A B C D E F : Z) : Prop := zN1 A B C D E F \/ zN2 A B C D E F.

Lemma zN_bounds A B C D E F : zN A B C D E F ->
  0 < A /\ A <= B /\ B <= C /\ -A <= 2 * F <= A.
Proof. unfold zN, zN1, zN2. lia. Qed.

Lemma qf_z A B C D E F x y z : zN A B C D E F -> z <> 0 ->
  C <= qf A B C D E F x y z /\
  (qf A B C D E F x y z <= C -> small x /\ small y /\ small z).
Proof.
  intros N Hz. assert (Hc : 0 < z \/ 0 < - z) by lia. destruct Hc as [Hc|Hc].
  - exact (qf_z_pos A B C D E F x y z N Hc).
  - rewrite <- qf_opp. destruct (qf_z_pos A B C D E F (- x) (- y) (- z) N Hc) as [H1 H2].
    split; [exact H1|]. intros H. specialize (H2 H). unfold small in *. lia.
Qed.

(** Vectors in the plane of a and b. *)
Lemma qf_y A B C D E F x y : zN A B C D E F -> y <> 0 ->
  B <= qf A B C D E F x y 0 /\ (qf A B C D E F x y 0 <= B -> small x /\ small y).
Proof.
  intros N Hy. apply zN_bounds in N. destruct N as (NA & NB & _ & NF).
  assert (Hs : 0 <= F \/ 0 <= - F) by lia. destruct Hs as [Hs|Hs].
  - replace (qf A B C D E F x y 0) with
      ((A - F) * (x * x) + (B - F) * (y * y) + F * ((x + y) * (x + y))) by (unfold qf; ring).
    assert (H1 : 0 <= A - F) by lia. assert (H2 : 0 <= B - F) by lia.
    pose proof (sq_class _ x H1) as L1. pose proof (sq_class _ y H2) as L2.
    pose proof (sq_class _ (x + y) Hs) as L3.
    match type of L3 with (_ /\ ?w = 0) \/ _ => generalize dependent w; intros w3 L3 end;
    match type of L1 with (_ /\ ?w = 0) \/ _ => generalize dependent w; intros w1 L1 end;
    match type of L2 with (_ /\ ?w = 0) \/ _ => generalize dependent w; intros w2 L2 end.
    unfold small. clear H1 H2. lia.
  - replace (qf A B C D E F x y 0) with
      ((A + F) * (x * x) + (B + F) * (y * y) + (- F) * ((x - y) * (x - y))) by (unfold qf; ring).
    assert (H1 : 0 <= A + F) by lia. assert (H2 : 0 <= B + F) by lia.
    pose proof (sq_class _ x H1) as L1. pose proof (sq_class _ y H2) as L2.
    pose proof (sq_class _ (x - y) Hs) as L3.
    match type of L3 with (_ /\ ?w = 0) \/ _ => generalize dependent w; intros w3 L3 end;
    match type of L1 with (_ /\ ?w = 0) \/ _ => generalize dependent w; intros w1 L1 end;
    match type of L2 with (_ /\ ?w = 0) \/ _ => generalize dependent w; intros w2 L2 end.
    unfold small. clear H1 H2. lia.
Qed.

Lemma qf_0 A B C D E F x : qf A B C D E F x 0 0 = A * (x * x).
Proof. unfold qf. ring. Qed.

(** The quadratic form is positive. *)
Lemma qf_pos A B C D E F x y z : zN A B C D E F -> ~ (x = 0 /\ y = 0 /\ z = 0) ->
  A <= qf A B C D E F x y z.
Proof.
  intros N Hn. pose proof (zN_bounds _ _ _ _ _ _ N) as Hb.
  destruct (Z.eq_dec z 0) as [->|Hz].
  - destruct (Z.eq_dec y 0) as [->|Hy].
    + rewrite qf_0. assert (x <> 0) by (intros ->; apply Hn; repeat split; reflexivity).
      assert (1 <= x * x) by nia. nia.
    + destruct (qf_y A B C D E F x y N Hy) as [H _]. lia.
  - destruct (qf_z A B C D E F x y z N Hz) as [H _]. lia.
Qed.

Lemma unit_factor x m d : x * m = d -> d = 1 \/ d = -1 -> small x.
Proof.
  intros E Hd. unfold small. destruct (Z.eq_dec m 0) as [->|Hm]; [lia|].
  assert (1 <= Z.abs m) by lia. assert (Z.abs x * Z.abs m = 1) by (rewrite <- Z.abs_mul, E; lia).
  nia.
Qed.

(** A matrix keeping the three lengths, with determinant 1 or -1, has entries -1, 0, 1. *)
Lemma isometry_small A B C D E F x1 y1 z1 x2 y2 z2 x3 y3 z3 :
  zN A B C D E F ->
  qf A B C D E F x1 y1 z1 = A -> qf A B C D E F x2 y2 z2 = B -> qf A B C D E F x3 y3 z3 = C ->
  (let d := mdet (Mat3 x1 x2 x3 y1 y2 y3 z1 z2 z3) in d = 1 \/ d = -1) ->
  (small x1 /\ small y1 /\ small z1) /\ (small x2 /\ small y2 /\ small z2) /\
  (small x3 /\ small y3 /\ small z3).
Proof.
  intros N Q1 Q2 Q3 Hd. pose proof (zN_bounds _ _ _ _ _ _ N) as Hb.
  assert (Hdet : mdet (Mat3 x1 x2 x3 y1 y2 y3 z1 z2 z3) =
    x1 * (y2 * z3 - y3 * z2) - x2 * (y1 * z3 - y3 * z1) + x3 * (y1 * z2 - y2 * z1))
    by (unfold mdet; cbn [m11 m12 m13 m21 m22 m23 m31 m32 m33]; ring).
  cbv zeta in Hd. rewrite Hdet in Hd. clear Hdet.
  assert (S0 : small 0) by (unfold small; lia).
  split; [|split].
  - destruct (Z.eq_dec z1 0) as [->|Hz].
    + destruct (Z.eq_dec y1 0) as [->|Hy].
      * split; [|split; exact S0]. eapply unit_factor; [|exact Hd].
        instantiate (1 := y2 * z3 - y3 * z2). ring.
      * destruct (qf_y A B C D E F x1 y1 N Hy) as [_ H]. rewrite Q1 in H.
        assert (Hab : A <= B) by lia. destruct (H Hab). tauto.
    + destruct (qf_z A B C D E F x1 y1 z1 N Hz) as [_ H]. apply H. lia.
  - destruct (Z.eq_dec z2 0) as [->|Hz].
    + destruct (Z.eq_dec y2 0) as [->|Hy].
      * split; [|split; exact S0]. eapply unit_factor; [|exact Hd].
        instantiate (1 := - (y1 * z3 - y3 * z1)). ring.
      * destruct (qf_y A B C D E F x2 y2 N Hy) as [_ H]. rewrite Q2 in H.
        destruct (H (Z.le_refl _)). tauto.
    + destruct (qf_z A B C D E F x2 y2 z2 N Hz) as [_ H]. apply H. lia.
  - destruct (Z.eq_dec z3 0) as [->|Hz].
    + destruct (Z.eq_dec y3 0) as [->|Hy].
      * split; [|split; exact S0]. eapply unit_factor; [|exact Hd].
        instantiate (1 := y1 * z2 - y2 * z1). ring.
      * assert (HBC : C <= B).
        { assert (Hz : z1 <> 0 \/ z2 <> 0).
          { destruct (Z.eq_dec z1 0) as [->|]; [|tauto]. destruct (Z.eq_dec z2 0) as [->|]; [|tauto].
            exfalso. clear - Hd.
            assert (E0 : x1 * (y2 * 0 - y3 * 0) - x2 * (y1 * 0 - y3 * 0) + x3 * (y1 * 0 - y2 * 0) = 0)
              by ring. rewrite E0 in Hd. lia. }
          destruct Hz as [Hz|Hz].
          - destruct (qf_z A B C D E F x1 y1 z1 N Hz) as [H _]. lia.
          - destruct (qf_z A B C D E F x2 y2 z2 N Hz) as [H _]. lia. }
        destruct (qf_y A B C D E F x3 y3 N Hy) as [_ H]. rewrite Q3 in H.
        destruct (H HBC). tauto.
    + destruct (qf_z A B C D E F x3 y3 z3 N Hz) as [_ H]. apply H. lia.
Qed.
