(** Linear arithmetic on canonical rationals, by translation to [Q]. *)
From Coq Require Import ZArith QArith Qcanon Lqa.
From Verif Require Import QMat QNum.
Open Scope Qc_scope.

Lemma this_plus x y : (this (x + y)%Qc == this x + this y)%Q.
Proof. apply Qred_correct. Qed.
Lemma this_mult x y : (this (x * y)%Qc == this x * this y)%Q.
Proof. apply Qred_correct. Qed.
Lemma this_opp x : (this (- x)%Qc == - this x)%Q.
Proof. apply Qred_correct. Qed.
Lemma this_minus x y : (this (x - y)%Qc == this x - this y)%Q.
Proof. unfold Qcminus. rewrite this_plus, this_opp. reflexivity. Qed.
Lemma this_Q2Qc q : (this (Q2Qc q) == q)%Q.
Proof. apply Qred_correct. Qed.
Lemma this_eq x y : x = y -> (this x == this y)%Q.
Proof. now intros ->. Qed.

Ltac qc2q :=
  repeat match goal with
  | H : @eq Qc _ _ |- _ => apply this_eq in H
  | H : ~ (@eq Qc _ _) |- _ => clear H
  end;
  try (match goal with |- @eq Qc _ _ => apply Qc_is_canon end);
  unfold Qcle, Qclt in *;
  repeat match goal with
  | H : context [this (_ + _)] |- _ => rewrite this_plus in H
  | H : context [this (_ - _)] |- _ => rewrite this_minus in H
  | H : context [this (_ * _)] |- _ => rewrite this_mult in H
  | H : context [this (- _)] |- _ => rewrite this_opp in H
  | H : context [this (Q2Qc _)] |- _ => rewrite this_Q2Qc in H
  end;
  rewrite ?this_plus, ?this_minus, ?this_mult, ?this_opp, ?this_Q2Qc;
  repeat (rewrite ?this_plus, ?this_minus, ?this_mult, ?this_opp, ?this_Q2Qc).

Ltac qclra := qc2q; lra.

Example qclra_test (x y : Qc) : x <= y -> y < x + 1 -> y - x < 1 + 1.
Proof. intros. qclra. Qed.
Example qclra_test2 (x y : Qc) : x <= y -> y <= x -> x = y.
Proof. intros. qclra. Qed.

Lemma qabs_le x y : qabs x <= y <-> - y <= x /\ x <= y.
Proof.
  unfold qabs. destruct (qltb x 0) eqn:E.
  - apply qltb_iff in E. split; [intros; split; qclra|intros (H1 & H2); qclra].
  - apply qltb_false in E. split; [intros; split; qclra|intros (H1 & H2); qclra].
Qed.
Lemma qabs_ge x y : y < qabs x <-> y < x \/ y < - x.
Proof.
  unfold qabs. destruct (qltb x 0) eqn:E.
  - apply qltb_iff in E. split; [intros; right; exact H|intros [H|H]; [qclra|exact H]].
  - apply qltb_false in E. split; [intros; left; exact H|intros [H|H]; [exact H|qclra]].
Qed.
Lemma qabs_bounds x : x <= qabs x /\ - x <= qabs x.
Proof.
  unfold qabs. destruct (qltb x 0) eqn:E; [apply qltb_iff in E|apply qltb_false in E]; split; qclra.
Qed.
