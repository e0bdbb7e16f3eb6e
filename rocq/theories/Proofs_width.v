(** The width of the fields and lines in KPOINTS. *)
From Coq Require Import ZArith QArith Qcanon List String Arith Lia.
From Verif Require Import Mat3 QMat QNum Model_driver Proofs_driver.
Open Scope string_scope.

Lemma justify_width w s : String.length (justify w s) = w.
Proof.
  unfold justify. destruct (Nat.leb_spec (String.length s) w) as [H|H]; [|apply slen_copies].
  rewrite slen_app, slen_copies. lia.
Qed.
Lemma i_width w n : String.length (i_edit w n) = w.
Proof. apply justify_width. Qed.
Lemma f_width w d x : String.length (f_edit w d x) = w.
Proof. unfold f_edit. cbv zeta. destruct (Nat.leb _ _); [apply justify_width|]. destruct (Z.eqb _ _); apply justify_width. Qed.
Lemma line_width x n : String.length (point_line x n) = 53%nat.
Proof. unfold point_line. rewrite !slen_app, !f_width, i_width. reflexivity. Qed.
