(** Comparisons of rationals and numpy's closeness test. *)
From Coq Require Import ZArith QArith Qcanon Bool Lia.
From Verif Require Import Mat3 QMat.
Open Scope Qc_scope.

(** Python's [x < y] on exact numbers. *)
Definition qltb (x y : Qc) : bool := if Qclt_le_dec x y then true else false.
(** Python's [x > y]. *)
Definition qgtb (x y : Qc) : bool := qltb y x.
(** Python's [abs]. *)
Definition qabs (x : Qc) : Qc := if qltb x 0 then - x else x.
(** [np.sign]: -1, 0 or 1. *)
Definition qsign (x : Qc) : Z := if qltb x 0 then (-1)%Z else if qltb 0 x then 1%Z else 0%Z.

(** A decimal literal [m * 10^-p]. *)
Definition qdec (m : Z) (p : positive) : Qc := Q2Qc (m # (10 ^ p)).

(** Default relative tolerance of [np.allclose], 1e-5. *)
Definition rtol : Qc := qdec 1 5.
(** [np.allclose(x, y, rtol, atol)] on two finite numbers:
    [abs(x - y) <= atol + rtol * abs(y)]. *)
Definition allclose_r (r atol x y : Qc) : bool := negb (qltb (atol + r * qabs y) (qabs (x - y))).
Definition allclose (atol x y : Qc) : bool := allclose_r rtol atol x y.

Lemma qltb_iff x y : qltb x y = true <-> x < y.
Proof.
  unfold qltb. destruct (Qclt_le_dec x y) as [H|H]; split; try tauto; try congruence.
  intros H'. exfalso. apply (Qclt_not_le _ _ H' H).
Qed.
Lemma qltb_false x y : qltb x y = false <-> y <= x.
Proof.
  unfold qltb. destruct (Qclt_le_dec x y) as [H|H]; split; try tauto; try congruence.
  intros H'. exfalso. apply (Qclt_not_le _ _ H H').
Qed.
Lemma qgtb_iff x y : qgtb x y = true <-> y < x.
Proof. apply qltb_iff. Qed.
Lemma qgtb_false x y : qgtb x y = false <-> x <= y.
Proof. apply qltb_false. Qed.
