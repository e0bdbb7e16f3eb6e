(** Cells whose scalar products lie on a grid coarser than the tolerances of the program. *)
From Coq Require Import ZArith QArith Qcanon.
From Verif Require Import Mat3 QMat QNum.
Open Scope Qc_scope.

(** No basis vector of [M] has a squared length above [L]. *)
Definition longest (M : qmat) (L : Qc) : Prop :=
  q11 (qgram M) <= L /\ q22 (qgram M) <= L /\ q33 (qgram M) <= L.

(** All scalar products of the basis vectors are multiples of 1/d, the squared lengths are at
    most [L], and the tolerances the program derives from the volume (cube root given by
    [cbrt]) and from numpy's relative tolerance are below the spacing. *)
Record grid_cell (cbrt : Qc -> Qc) (d : Z) (L : Qc) (M : qmat) : Prop := {
  gc_d : (0 < d)%Z;
  gc_det : qdet M <> 0;
  gc_gram : exists G, qscale (zq d) (qgram M) = qof G;
  gc_len : longest M L;
  gc_root : 0 <= cbrt (qabs (qdet M));
  gc_red : zq d * (qdec 1 8 + qdec 1 5 * cbrt (qabs (qdet M)) + rtol * (zq 6 * L)) < 1;
  gc_id : zq (12 * d) * (qdec 1 5 + rtol * (zq 6 * L)) < 1 }.

(** [c] is a cube root of [v], up to a factor between 0.9993 and 1.0007. *)
Definition near_root (c v : Qc) : Prop :=
  0 <= c /\ qdec 998 3 * v <= c * c * c /\ c * c * c <= qdec 1002 3 * v.
(** [cbrt] computes cube roots. *)
Definition cube_root (cbrt : Qc -> Qc) : Prop := forall v, 0 < v -> near_root (cbrt v) v.
