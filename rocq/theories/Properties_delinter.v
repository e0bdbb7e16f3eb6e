(** Property C60: the symmetrization of cell parameters (delinter). *)
From Coq Require Import Reals ZArith List Lra.
From Verif Require Import Model_delinter Spec_delinter Proofs_delinter Proofs_delinter2
  Proofs_delinter3.
Import ListNotations.
Open Scope R_scope.

(** [equal], [equal_mat]: the comparison of the library; a matrix is equal to itself. *)
Definition comparison (equal_mat : rmat -> rmat -> bool) : Prop := forall M, equal_mat M M = true.

(** ** C60 Cells that are not quite symmetric *)
(** For 33 of the 44 numbers whatever delint returns satisfies the equalities of the character
    exactly, however far from them the cell was. *)
Theorem C60_enforced : forall equal equal_mat V n out, comparison equal_mat ->
  In n right_numbers -> rdet V <> 0 -> delint equal equal_mat V n = Delinted out ->
  satisfies n out.
Proof. intros equal equal_mat V n out Hr. exact (enforced equal equal_mat Hr V n out). Qed.
Print Assumptions C60_enforced.
(** For these numbers a cell that satisfies the equalities comes back unchanged. *)
Theorem C60_unchanged : forall equal equal_mat V n, comparison equal_mat ->
  In n right_numbers -> rdet V <> 0 -> satisfies n V -> delint equal equal_mat V n = Delinted V.
Proof. intros equal equal_mat V n Hr. exact (unchanged equal equal_mat Hr V n). Qed.
Print Assumptions C60_unchanged.
(** The check that the rotation is orthogonal never stops the program. *)
Theorem C60_no_stop : forall equal equal_mat V n, comparison equal_mat -> rdet V <> 0 ->
  delint equal equal_mat V n <> Rotation_stop.
Proof. intros equal equal_mat V n Hr. exact (delint_no_rotation_stop equal equal_mat Hr V n). Qed.
Print Assumptions C60_no_stop.
(** For ten numbers no cell of that character comes back unchanged (wrong sign in the formula for
    one of the angles). *)
Theorem C60_changed_refuted : forall equal equal_mat V n, comparison equal_mat ->
  In n wrong_numbers -> rdet V <> 0 -> perfect n V -> delint equal equal_mat V n <> Delinted V.
Proof. intros equal equal_mat V n Hr. exact (changed equal equal_mat Hr V n). Qed.
Print Assumptions C60_changed_refuted.
(** For 12, 26, 27 and 28 what comes back never satisfies the equalities. *)
Theorem C60_never_refuted : forall equal equal_mat V n out, comparison equal_mat ->
  In n [12; 26; 27; 28]%Z -> rdet V <> 0 -> delint equal equal_mat V n = Delinted out ->
  ~ satisfies n out.
Proof. intros equal equal_mat V n out Hr. exact (never equal equal_mat Hr V n out). Qed.
Print Assumptions C60_never_refuted.
(** A cell of character 43 comes back unchanged only if b = c or the angles beta and gamma are
    the same. *)
Theorem C60_43_refuted : forall equal equal_mat V, comparison equal_mat -> rdet V <> 0 ->
  perfect 43 V -> delint equal equal_mat V 43 = Delinted V ->
  products (fun _ B C _ E F => B = C \/ F * F * C = E * E * B) V.
Proof. intros equal equal_mat V Hr. exact (unchanged_43 equal equal_mat Hr V). Qed.
Print Assumptions C60_43_refuted.

(** Base-centred orthorhombic cell, character 38: back unchanged. *)
Example C60_case_38 equal : delint equal (fun _ _ => true) (RMat 2 (-1) 0 0 3 0 0 0 4) 38 = Delinted (RMat 2 (-1) 0 0 3 0 0 0 4).
Proof.
  apply C60_unchanged; [intros M; reflexivity|unfold right_numbers; cbn; tauto|unfold rdet; cbn; lra|].
  unfold satisfies, products, equalities, rdot; cbn. lra.
Qed.
(** Character 26, face-centred orthorhombic, and 12, hexagonal. *)
Example C60_case_26 equal : delint equal (fun _ _ => true) (RMat 2 1 1 0 3 0 0 0 4) 26 <> Delinted (RMat 2 1 1 0 3 0 0 0 4).
Proof.
  apply C60_changed_refuted; [intros M; reflexivity|unfold wrong_numbers; cbn; tauto|unfold rdet; cbn; lra|].
  split; [unfold satisfies|]; unfold products, equalities, signs, rdot; cbn; lra.
Qed.
Example C60_case_12 equal : delint equal (fun _ _ => true) (RMat 1 0 2 (-1) 1 2 0 (-1) 2) 12 <> Delinted (RMat 1 0 2 (-1) 1 2 0 (-1) 2).
Proof.
  apply C60_changed_refuted; [intros M; reflexivity|unfold wrong_numbers; cbn; tauto|unfold rdet; cbn; lra|].
  split; [unfold satisfies|]; unfold products, equalities, signs, rdot; cbn; lra.
Qed.
(** A cell of character 43 with b <> c and different angles: changed. *)
Example C60_case_43 equal : delint equal (fun _ _ => true) (RMat 2 (-1) (-1 / 2) 0 2 0 0 1 (-5 / 2)) 43
  <> Delinted (RMat 2 (-1) (-1 / 2) 0 2 0 0 1 (-5 / 2)).
Proof.
  intros E. apply C60_43_refuted in E; [|intros M; reflexivity|unfold rdet; cbn; lra|].
  - unfold products, rdot in E. cbn in E. lra.
  - split; [unfold satisfies|]; unfold products, equalities, signs, rdot; cbn; [|lra].
    rewrite !Rabs_left1 by lra. lra.
Qed.
