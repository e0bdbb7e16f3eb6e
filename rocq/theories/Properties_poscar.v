(** Property C59 continued: the kind of coordinates in the POSCAR. *)
From Coq Require Import ZArith QArith Qcanon List Bool Ascii String.
From Verif Require Import Mat3 QMat QNum Model_control Spec_control Proofs_poscar2.
Import ListNotations.
Open Scope string_scope.

(** Positions are taken as Cartesian exactly when the first character of the line that is no blank is one of
    c, C, k, K; then [x] is replaced by [f] with [s lat f = x]. All others are kept. *)
Theorem C59_coordinates : forall s lat line x, (String.length line <= 300)%nat -> s <> 0%Qc -> qdet lat <> 0%Qc ->
  ((exists b c r, blanks b /\ line = b ++ String c r /\ In c ["c"; "C"; "k"; "K"]%char) ->
     qmvec (qscale s lat) (atom_position s lat line x) = x) /\
  ((forall b c r, blanks b -> line = b ++ String c r -> ~ In c ["c"; "C"; "k"; "K"]%char) ->
     atom_position s lat line x = x).
Proof. exact coordinates. Qed.
Print Assumptions C59_coordinates.
(** Lines of both kinds. *)
Example C59_kinds : map is_cartesian ["Cartesian"; "  kartesisch"; "Direct"; ""; "direct c"; "K"; "cart"] =
  [true; true; false; false; false; true; true].
Proof. reflexivity. Qed.

(** C44 continued: the constants there.  [f_pi] is pi to 18 places, [c_vol] the volume of the cell. *)
Theorem C44_constants :
  (qabs (f_pi - Q2Qc (314159265358979323846 # 100000000000000000000)) <= Q2Qc (1 # 1000000000000000000))%Qc /\
  forall s lat, c_vol s lat = qabs (s * s * s * qdet lat)%Qc.
Proof. exact (conj pi_close volume_of). Qed.
Print Assumptions C44_constants.
Example C44_volume : (this (c_vol (zq 2) (QMat 0 1 1 1 0 1 1 1 0)) == 16)%Q.
Proof. vm_compute. reflexivity. Qed.
