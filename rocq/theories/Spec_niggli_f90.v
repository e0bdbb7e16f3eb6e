(** Words used in the statements about niggli.f90. *)
From Coq Require Import ZArith QArith Qcanon List Bool.
From Verif Require Import Mat3 QMat QNum Bases Bases_niggli Spec_niggli Spec_grid
  Model_find_kgrids.
Import ListNotations.
Open Scope Qc_scope.

(** The numbers the Niggli conditions compare with zero. *)
Definition compared (A B C xi eta zeta : Qc) : list Qc :=
  [A - B; B - C; qabs xi - qabs eta; qabs eta - qabs zeta; xi; eta; zeta;
   qabs xi - B; qabs eta - A; qabs zeta - A; A + B + xi + eta + zeta;
   zeta - (eta + eta); zeta - (xi + xi); eta - (xi + xi); A + A + (eta + eta) + zeta].
(** One of them is exactly at the tolerance. *)
Definition at_tolerance (e A B C xi eta zeta : Qc) : Prop :=
  exists v, In v (compared A B C xi eta zeta) /\ (v = e \/ v = - e).

(** All scalar products of the basis vectors of [M] are multiples of 1/d, the squared lengths
    are at most [L], and the tolerances that niggli.f90 derives from [e] (with the volume, whose
    cube root is given by [cbrt], and with the relative tolerances) are below the spacing. *)
Record f_grid_cell (cbrt : Qc -> Qc) (e : Qc) (d : Z) (L : Qc) (M : qmat) : Prop := {
  fg_d : (0 < d)%Z;
  fg_det : qdet M <> 0;
  fg_gram : exists G, qscale (zq d) (qgram M) = qof G;
  fg_len : longest M L;
  fg_eps : 0 < e;
  fg_root : 0 < cbrt (qabs (qdet M));
  fg_red : zq d * (e * cbrt (qabs (qdet M))) < 1;
  fg_id : zq (12 * d) * (e + rtol * (zq 6 * L)) < 1;
  fg_rel : zq (12 * d) * (e * (zq 6 * L)) < 1 }.

(** The matrix [Co] for the canonical basis of number [k].  Not in the source: it is what
    reduce_cell computes there (Proofs_niggli_f90c.v). *)
Definition f_canonical_C (k : Z) : mat3 :=
  match k with
  | 4 => Mat3 0 1 0  1 0 (-1)  0 0 (-1)
  | 6 => Mat3 (-1) (-1) 1  0 1 0  0 1 (-1)
  | 16 => Mat3 0 0 1  1 (-1) 0  0 1 (-1)
  | 24 => Mat3 1 (-1) 0  0 0 (-1)  1 0 0
  | k => canonical_C k
  end%Z.

(** The lattice of [U] has [n] symmetries. *)
Definition point_group_order (U : qmat) (n : Z) : Prop :=
  exists l, NoDup l /\ Z.of_nat (length l) = n /\ forall X, In X l <-> qisometry (qgram U) X.
(** A test for linear dependence that lets volumes of 0.4 and more pass. *)
Definition dependence_test (dependent : Qc -> bool) : Prop :=
  forall v, qdec 4 1 <= qabs v -> dependent v = false.

(** An offset that may be used: the user's or, if there is none, one of those get_offsets lists
    (in quarters) for the lengths of the vectors of [U]. *)
Definition allowed_offset (norms : qmat -> Qc * Qc * Qc) (equal : Qc -> Qc -> bool)
    (given : option (Qc * Qc * Qc)) (k : Z) (U : qmat) (s : Qc * Qc * Qc) : Prop :=
  match given with
  | Some o => s = o
  | None => exists n1 n2 n3 v, norms U = (n1, n2, n3) /\ In v (get_offsets equal k n1 n2 n3) /\
      zq 4 * fst (fst s) = zq (v1 v) /\ zq 4 * snd (fst s) = zq (v2 v) /\ zq 4 * snd s = zq (v3 v)
  end.
(** The default tolerance is 0.001. *)
Definition tolerance (given : option Qc) (e : Qc) : Prop :=
  match given with Some x => e = x | None => zq 1000 * e = 1 end.
