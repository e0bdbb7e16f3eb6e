(** Property C64 continued: the columns of KPOINTS. *)
From Coq Require Import ZArith QArith Qcanon List String.
From Verif Require Import Mat3 QMat QNum Model_driver Proofs_width.
Open Scope string_scope.

(** Every field is as wide as its edit descriptor says, also when the number does not fit, ... *)
Theorem C64_fields : forall w d n x, String.length (i_edit w n) = w /\ String.length (f_edit w d x) = w.
Proof. exact (fun w d n x => conj (i_width w n) (f_width w d x)). Qed.
Print Assumptions C64_fields.
(** ... so that all lines of points have the same 53 columns. *)
Theorem C64_columns : forall x n, String.length (point_line x n) = 53%nat.
Proof. exact line_width. Qed.
Print Assumptions C64_columns.
Example C64_padded : i_edit 5 (-42) = "  -42" /\ i_edit 3 1234 = "***".
Proof. split; reflexivity. Qed.
