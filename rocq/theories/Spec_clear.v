(** Cells for which no number compared by the program is close to its tolerance. *)
From Coq Require Import ZArith QArith Qcanon List.
From Verif Require Import Mat3 QMat QNum Spec_niggli Spec_grid Spec_niggli_f90.
Import ListNotations.
Open Scope Qc_scope.

(** Zero, or farther from zero than [t]. *)
Definition apart (t v : Qc) : Prop := v = 0 \/ t < qabs v.

(** The reduction: for every basis of the lattice of [U] with vectors not longer than [L]
    (squared), of the same orientation, the numbers that the Niggli conditions compare are zero
    or farther from zero than [t], and no vector is that short. *)
Definition reduction_clear (t L : Qc) (U : qmat) : Prop :=
  forall C, mdet C = 1%Z -> longest (qmul U (qof C)) L ->
    t < q11 (qgram (qmul U (qof C))) /\
    cell_params (fun A B C xi eta zeta => forall v, In v (compared A B C xi eta zeta) -> apart t v)
      (qmul U (qof C)).

(** The differences that tell the 44 Niggli cells apart; D, E and F are the scalar products of
    the second and third, first and third, first and second vector. *)
Definition identified (A B C D E F : Qc) : list Qc :=
  [A - B; B - C; D - E; D - F; E - F; D; E; F;
   A / zq 2 - D; A / zq 2 - E; A / zq 2 - F; A / zq 4 - D; B / zq 2 - D;
   A / zq 2 + D; A / zq 2 + E; A / zq 2 + F; B / zq 2 + D; A / zq 3 + D; A / zq 3 + E;
   zq 2 * D - F; zq 2 * D - E; zq 2 * E - F;
   zq 2 * qabs (D + E + F) - (A + B); qabs (zq 2 * D + F) - B].
(** The identification: for the Niggli cells of the lattice they are zero or farther from zero
    than [t]. *)
Definition identification_clear (t : Qc) (U : qmat) : Prop :=
  forall C, mdet C = 1%Z -> is_niggli (qmul U (qof C)) ->
    let G := qgram (qmul U (qof C)) in
    forall v, In v (identified (q11 G) (q22 G) (q33 G) (q23 G) (q13 G) (q12 G)) -> apart t v.

(** Both, for the tolerances that niggli.f90 derives from [e]. *)
Record f_clear_cell (cbrt : Qc -> Qc) (e L : Qc) (U : qmat) : Prop := {
  fc_det : qdet U <> 0;
  fc_len : longest U L;
  fc_eps : 0 < e;
  fc_root : 0 < cbrt (qabs (qdet U));
  fc_red : reduction_clear (e * cbrt (qabs (qdet U))) L U;
  fc_id : identification_clear (e + rtol * (zq 6 * L)) U;
  fc_rel : identification_clear (e * (zq 6 * L)) U }.

(** Both, for the default tolerances of the Python program. *)
Record clear_cell (cbrt : Qc -> Qc) (L : Qc) (U : qmat) : Prop := {
  cc_det : qdet U <> 0;
  cc_len : longest U L;
  cc_root : 0 <= cbrt (qabs (qdet U));
  cc_red : reduction_clear (qdec 1 8 + qdec 1 5 * cbrt (qabs (qdet U)) + rtol * (zq 6 * L)) L U;
  cc_id : identification_clear (qdec 1 5 + rtol * (zq 6 * L)) U }.

(** The sum of the squared lengths of the vectors of a basis. *)
Definition lengths_sum (U : qmat) : Qc :=
  let G := qgram U in q11 G + q22 G + q33 G.
(** The bases of the lattice (of one orientation) whose sum is not above that of [U] have at
    most [n] different sums. *)
Definition few_sums (n : Z) (U : qmat) : Prop :=
  exists T, (Z.of_nat (length T) <= n)%Z /\
    forall C, mdet C = 1%Z -> lengths_sum (qmul U (qof C)) <= lengths_sum U ->
      In (lengths_sum (qmul U (qof C))) T.
