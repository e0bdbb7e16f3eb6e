(** C41, centred grids: which offsets of get_offsets keep the symmetry. *)
From Coq Require Import ZArith List Bool Qcanon.
From Verif Require Import Mat3 Spec Model_universal Model_find_kgrids Spec_kgrids Spec_offsets Proofs_offsets2.
Import ListNotations.
Open Scope Z_scope.

(** Body-centred orthorhombic, base-centred and all cubic lattices: whatever primitive basis the
    grid has, some listed offset breaks a symmetry. *)
Theorem C41_body_refuted : forall equal k n1 n2 n3 M, In k [19; 8; 42] -> spans M body ->
  breaks orthorhombic M (get_offsets equal k n1 n2 n3).
Proof. exact body_breaks. Qed.
Print Assumptions C41_body_refuted.
Theorem C41_base_refuted : forall equal k n1 n2 n3 M, In k base_centred -> spans M base ->
  breaks monoclinic M (get_offsets equal k n1 n2 n3).
Proof. exact base_breaks. Qed.
Print Assumptions C41_base_refuted.
Theorem C41_cubic_refuted : forall equal k P n1 n2 n3 M,
  (k = 3 /\ P = any_vector) \/ (k = 5 /\ P = body) \/ (k = 1 /\ P = face) -> spans M P ->
  breaks cubic M (get_offsets equal k n1 n2 n3).
Proof. exact cubic_breaks. Qed.
Print Assumptions C41_cubic_refuted.
(** Body-centred tetragonal and rhombohedral lattices: the same when the grid has no two vectors of
    equal length... *)
Theorem C41_body_tetragonal_refuted : forall equal id n1 n2 n3 M, In id [6; 7; 15; 18] ->
  equal n1 n2 = false -> equal n1 n3 = false -> equal n2 n3 = false -> spans M body ->
  breaks tetragonal M (get_offsets equal id n1 n2 n3).
Proof. exact body_tetragonal_breaks. Qed.
Print Assumptions C41_body_tetragonal_refuted.
Theorem C41_rhombohedral_refuted : forall equal id n1 n2 n3 M, In id [2; 4; 9; 24] ->
  equal n1 n2 = false -> equal n1 n3 = false -> equal n2 n3 = false -> spans M any_vector ->
  breaks rhombohedral M (get_offsets equal id n1 n2 n3).
Proof. exact rhombohedral_breaks. Qed.
Print Assumptions C41_rhombohedral_refuted.
(** ...and otherwise the offsets are exactly the ones kept precisely for certain bases: the vector
    taken for the axis must be half the way along it, up to twice a vector of the grid. *)
Theorem C41_body_tetragonal_partial : forall equal id n1 n2 n3 k M, In id [6; 7; 15; 18] ->
  In k [1; 2; 3] -> unique_axis equal n1 n2 n3 k -> spans M body ->
  exact_offsets tetragonal M (get_offsets equal id n1 n2 n3) <->
  exists w, column k M = vplus (Vec3 0 0 2) (vtimes 2 (mvec M w)).
Proof. exact body_tetragonal_offsets. Qed.
Print Assumptions C41_body_tetragonal_partial.
Theorem C41_rhombohedral_partial : forall equal id n1 n2 n3 k M, In id [2; 4; 9; 24] ->
  In k [1; 2; 3] -> unique_axis equal n1 n2 n3 k -> spans M any_vector ->
  exact_offsets rhombohedral M (get_offsets equal id n1 n2 n3) <->
  v1 (column k M) mod 2 = 1 /\ v2 (column k M) mod 2 = 1 /\ v3 (column k M) mod 2 = 1.
Proof. exact rhombohedral_offsets. Qed.
Print Assumptions C41_rhombohedral_partial.
(** The rhombohedral basis itself is not one of them. *)
Theorem C41_rhombohedral_basis_refuted : forall equal id n1 n2 n3 k, In id [2; 4; 9; 24] ->
  In k [1; 2; 3] -> unique_axis equal n1 n2 n3 k ->
  ~ exact_offsets rhombohedral mid (get_offsets equal id n1 n2 n3).
Proof. exact rhombohedral_cell_wrong. Qed.
Print Assumptions C41_rhombohedral_basis_refuted.
(** Face-centred orthorhombic lattices: right when the sum of the three grid vectors is a sum of
    conventional edges, and only then. *)
Theorem C41_face_partial : forall equal k n1 n2 n3 M, In k [16; 26] -> spans M face ->
  exact_offsets orthorhombic M (get_offsets equal k n1 n2 n3) <->
  v1 (diagonal M) mod 2 = 0 /\ v2 (diagonal M) mod 2 = 0 /\ v3 (diagonal M) mod 2 = 0.
Proof. exact face_offsets. Qed.
Print Assumptions C41_face_partial.

(** The hypotheses can be met: the usual primitive cells. *)
Example C41_example_cells : spans face_cell face /\ spans body_cell body /\ spans base_cell base /\
  spans mid any_vector /\ spans body_axis body /\ spans threefold_cell any_vector.
Proof. exact (conj face_spans (conj body_spans (conj base_spans (conj mid_spans (conj body_axis_spans threefold_spans))))). Qed.
Example C41_example_face : diagonal face_cell = Vec3 2 2 2 /\ diagonal (Mat3 0 1 2 1 0 1 1 1 1) = Vec3 3 2 3.
Proof. split; reflexivity. Qed.
Example C41_example_body_tetragonal :
  (exists w, column 3 body_axis = vplus (Vec3 0 0 2) (vtimes 2 (mvec body_axis w))) /\
  forall k, ~ exists w, column k body_cell = vplus (Vec3 0 0 2) (vtimes 2 (mvec body_cell w)).
Proof. split; [exact body_axis_right|exact body_cell_wrong]. Qed.
Example C41_example_rhombohedral : column 3 threefold_cell = Vec3 1 1 1 /\ column 3 mid = Vec3 0 0 1.
Proof. split; reflexivity. Qed.
(** The groups contain what their names promise. *)
Example C41_example_groups :
  rhombohedral (mopp cycle) /\ tetragonal (mmul (Mat3 (-1) 0 0 0 1 0 0 0 1) swap12) /\
  cubic (mmul (Mat3 1 0 0 0 (-1) 0 0 0 1) cycle) /\ monoclinic (Mat3 1 0 0 0 (-1) 0 0 0 1) /\
  forall g, monoclinic g -> orthorhombic g.
Proof.
  split; [exists cycle; split; [right; right; now left|now right]|].
  split; [exists (Mat3 (-1) 0 0 0 1 0 0 0 1), swap12; split; [apply diag_signs; reflexivity|split; [right; now left|reflexivity]]|].
  split; [exists (Mat3 1 0 0 0 (-1) 0 0 0 1), cycle; split; [apply diag_signs; reflexivity|split; [right; right; now left|reflexivity]]|].
  split; [cbn; tauto|exact monoclinic_signs].
Qed.
