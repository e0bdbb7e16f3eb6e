(** Model of the class [reduced_cell] (support/python_dev/opf_python/pyniggli.py).

    Floats are exact rationals; rounding is not modelled.  Entries of the transformation
    [self.C] are integers in the program (a float array once [np.sign] is used, but with
    integer values), modelled in [Z].  Printing is not modelled.  The power
    [self.volume**(1./3.)] is the parameter [cbrt]. *)
From Coq Require Import ZArith QArith Qcanon List Bool.
From Verif Require Import Mat3 QMat QNum.
Import ListNotations.
Open Scope Qc_scope.

(** pyniggli.py 79-115: A, B, C, xi, eta, zeta, l, m, n. *)
Record params : Type := Params {
  pA : Qc; pB : Qc; pC : Qc; pxi : Qc; peta : Qc; pzeta : Qc;
  pl : Z; pm : Z; pn : Z }.

Definition qtwo : Qc := 1 + 1.

(** pyniggli.py 99-113: -1 / 0 / 1 according to the tolerance. *)
Definition sign_eps (eps x : Qc) : Z :=
  if qltb x (- eps) then (-1)%Z else if qgtb x eps then 1%Z else 0%Z.

(** Scalar products of the columns of [mat]. *)
Definition dot_aa (m : qmat) : Qc := q11 m * q11 m + q21 m * q21 m + q31 m * q31 m.
Definition dot_bb (m : qmat) : Qc := q12 m * q12 m + q22 m * q22 m + q32 m * q32 m.
Definition dot_cc (m : qmat) : Qc := q13 m * q13 m + q23 m * q23 m + q33 m * q33 m.
Definition dot_bc (m : qmat) : Qc := q12 m * q13 m + q22 m * q23 m + q32 m * q33 m.
Definition dot_ca (m : qmat) : Qc := q13 m * q11 m + q23 m * q21 m + q33 m * q31 m.
Definition dot_ab (m : qmat) : Qc := q11 m * q12 m + q21 m * q22 m + q31 m * q32 m.

(** pyniggli.py 79-115 [_get_params]. *)
Definition get_params (eps : Qc) (original : qmat) (C : mat3) : params :=
  let mat := qmul original (qof C) in
  let xi := qtwo * dot_bc mat in
  let eta := qtwo * dot_ca mat in
  let zeta := qtwo * dot_ab mat in
  Params (dot_aa mat) (dot_bb mat) (dot_cc mat) xi eta zeta
         (sign_eps eps xi) (sign_eps eps eta) (sign_eps eps zeta).

Definition mdiag (i j k : Z) : mat3 := Mat3 i 0 0 0 j 0 0 0 k.

(** pyniggli.py 289-315 [_find_C3]. *)
Definition find_C3 (l m n : Z) : mat3 :=
  mdiag (if Z.eqb l (-1) then (-1) else 1)%Z
        (if Z.eqb m (-1) then (-1) else 1)%Z
        (if Z.eqb n (-1) then (-1) else 1)%Z.

(** pyniggli.py 317-365 [_find_C4]; [r] starts at -1 and is overwritten by the last zero
    among l, m, n. *)
Definition find_C4 (l m n : Z) : mat3 :=
  if (Z.eqb l (-1) && Z.eqb m (-1) && Z.eqb n (-1))%bool then mdiag 1 1 1 else
  let i := (if Z.eqb l 1 then (-1) else 1)%Z in
  let r := (if Z.eqb l 1 then (-1) else if Z.eqb l 0 then 0 else (-1))%Z in
  let j := (if Z.eqb m 1 then (-1) else 1)%Z in
  let r := (if Z.eqb m 1 then r else if Z.eqb m 0 then 1 else r)%Z in
  let k := (if Z.eqb n 1 then (-1) else 1)%Z in
  let r := (if Z.eqb n 1 then r else if Z.eqb n 0 then 2 else r)%Z in
  if Z.eqb (i * j * k) (-1) then
    if Z.eqb r 0 then mdiag (-1) j k
    else if Z.eqb r 1 then mdiag i (-1) k
    else if Z.eqb r 2 then mdiag i j (-1)
    else mdiag i j k
  else mdiag i j k.

(** The conditions of the steps, pyniggli.py 137, 144, 152, 161, 170, 178, 186, 194. *)
Definition cond1 (eps : Qc) (p : params) : bool :=
  qgtb (pA p) (pB p + eps) ||
  (negb (qgtb (qabs (pA p - pB p)) eps) && qgtb (qabs (pxi p)) (qabs (peta p) + eps)).
Definition cond2 (eps : Qc) (p : params) : bool :=
  qgtb (pB p) (pC p + eps) ||
  (negb (qgtb (qabs (pC p - pB p)) eps) && qgtb (qabs (peta p)) (qabs (pzeta p) + eps)).
Definition cond3 (p : params) : bool := Z.eqb (pl p * pm p * pn p) 1.
Definition cond4 (p : params) : bool :=
  Z.eqb (pl p * pm p * pn p) 0 || Z.eqb (pl p * pm p * pn p) (-1).
Definition cond5 (eps : Qc) (p : params) : bool :=
  qgtb (qabs (pxi p)) (pB p + eps) ||
  (negb (qgtb (qabs (pB p - pxi p)) eps) && qltb (qtwo * peta p) (pzeta p - eps)) ||
  (negb (qgtb (qabs (pB p + pxi p)) eps) && qltb (pzeta p) (- eps)).
Definition cond6 (eps : Qc) (p : params) : bool :=
  qgtb (qabs (peta p)) (pA p + eps) ||
  (negb (qgtb (qabs (pA p - peta p)) eps) && qltb (qtwo * pxi p) (pzeta p - eps)) ||
  (negb (qgtb (qabs (pA p + peta p)) eps) && qltb (pzeta p) (- eps)).
Definition cond7 (eps : Qc) (p : params) : bool :=
  qgtb (qabs (pzeta p)) (pA p + eps) ||
  (negb (qgtb (qabs (pA p - pzeta p)) eps) && qltb (qtwo * pxi p) (peta p - eps)) ||
  (negb (qgtb (qabs (pA p + pzeta p)) eps) && qltb (peta p) (- eps)).
Definition cond8 (eps : Qc) (p : params) : bool :=
  qltb (pxi p + peta p + pzeta p + pA p + pB p) (- eps) ||
  (negb (qgtb (qabs (pxi p + peta p + pzeta p + pA p + pB p)) eps) &&
   qgtb (qtwo * (pA p + peta p) + pzeta p) eps).

(** The matrices of the steps, pyniggli.py 139, 146, 172, 180, 188, 196. *)
Definition step1 : mat3 := Mat3 0 (-1) 0 (-1) 0 0 0 0 (-1).
Definition step2 : mat3 := Mat3 (-1) 0 0 0 0 (-1) 0 (-1) 0.
Definition step5 (xi : Qc) : mat3 := Mat3 1 0 0 0 1 (- qsign xi) 0 0 1.
Definition step6 (eta : Qc) : mat3 := Mat3 1 0 (- qsign eta) 0 1 0 0 0 1.
Definition step7 (zeta : Qc) : mat3 := Mat3 1 (- qsign zeta) 0 0 1 0 0 0 1.
Definition step8 : mat3 := Mat3 1 0 1 0 1 1 0 0 1.

(** pyniggli.py 134-200: one pass of the loop body.  Returns the new [self.C], the new
    parameters and the flag [reduced]; every [continue] leaves [reduced = False].
    [np.allclose(M, identity)] compares integer matrices with entries 1 and -1: equality. *)
Definition pass (eps : Qc) (original : qmat) (st : mat3 * params) : mat3 * params * bool :=
  let upd C M := let C' := mmul C M in (C', get_params eps original C') in
  let '(C, p) := st in
  (* 1 *)
  let '(C, p, reduced) :=
    if cond1 eps p then (upd C step1, false) else ((C, p), true) in
  (* 2 *)
  if cond2 eps p then (upd C step2, false) else
  (* 3 *)
  let '(C, p, reduced) :=
    if cond3 p then
      let M := find_C3 (pl p) (pm p) (pn p) in
      (upd C M, if meqb M mid then reduced else false)
    else ((C, p), reduced) in
  (* 4 *)
  let '(C, p, reduced) :=
    if cond4 p then
      let M := find_C4 (pl p) (pm p) (pn p) in
      (upd C M, if meqb M mid then reduced else false)
    else ((C, p), reduced) in
  if cond5 eps p then (upd C (step5 (pxi p)), false) else
  if cond6 eps p then (upd C (step6 (peta p)), false) else
  if cond7 eps p then (upd C (step7 (pzeta p)), false) else
  if cond8 eps p then (upd C step8, false) else
  ((C, p), reduced).

(** pyniggli.py 132: [while not reduced and count <= 1000].  [fuel] only makes the
    recursion structural; 1001 passes are the most the condition allows. *)
Fixpoint loop (eps : Qc) (original : qmat) (fuel : nat) (reduced : bool) (count : Z)
         (st : mat3 * params) : mat3 * params * Z :=
  if negb reduced && Z.leb count 1000 then
    match fuel with
    | O => (st, count)
    | S f =>
      let '(st', r) := pass eps original st in
      loop eps original f r (count + 1)%Z st'
    end
  else (st, count).

Definition loop_fuel : nat := Z.to_nat 1001.

(** pyniggli.py 217-287 [_niggli_check].  [rt] is the relative tolerance inside
    [np.allclose] and [a8] the absolute tolerance of the last test (line 283), where the
    code relies on numpy's defaults; the code is the instance below. *)
Definition niggli_check_tol (rt a8 : Qc) (A B C xi eta zeta eps : Qc) : bool :=
  let close := allclose_r rt eps in
  if negb (qgtb (A - eps) 0 && (qltb A (B - eps) || close A B) &&
           (qltb B (C - eps) || close B C)) then false else
  if close A B && negb (qltb (qabs xi) (qabs eta - eps) || close (qabs xi) (qabs eta))
  then false else
  if close B C && negb (qltb (qabs eta) (qabs zeta - eps) || close (qabs eta) (qabs zeta))
  then false else
  if negb ((qgtb (xi - eps) 0 && qgtb (eta - eps) 0 && qgtb (zeta - eps) 0) ||
           ((qltb xi (0 - eps) || close xi 0) && (qltb eta (0 - eps) || close eta 0) &&
            (qltb zeta (0 - eps) || close zeta 0))) then false else
  if negb (qltb (qabs xi) (B - eps) || close (qabs xi) B) then false else
  if negb ((qltb (qabs eta) (A - eps) || close (qabs eta) A) &&
           (qltb (qabs zeta) (A - eps) || close (qabs zeta) A)) then false else
  if negb (qltb C (A + B + C + xi + eta + zeta - eps) ||
           close C (A + B + C + xi + eta + zeta)) then false else
  if close xi B && negb (qltb zeta (qtwo * eta - eps) || close zeta (qtwo * eta))
  then false else
  if close eta A && negb (qltb zeta (qtwo * xi - eps) || close zeta (qtwo * xi))
  then false else
  if close zeta A && negb (qltb eta (qtwo * xi - eps) || close eta (qtwo * xi))
  then false else
  if close xi (- B) && negb (close zeta 0) then false else
  if close eta (- A) && negb (close zeta 0) then false else
  if close zeta (- A) && negb (close eta 0) then false else
  if allclose_r 0 a8 C (A + B + C + xi + eta + zeta) &&
     negb (qltb (qtwo * A + qtwo * eta + zeta) (0 - eps) ||
           close (qtwo * A + qtwo * eta + zeta) 0) then false else
  true.
Definition niggli_check : Qc -> Qc -> Qc -> Qc -> Qc -> Qc -> Qc -> bool :=
  niggli_check_tol rtol (qdec 1 8).

(** What the constructor can do. *)
Inductive outcome : Type :=
| BadShape                          (* ValueError, 61-63 *)
| ZeroVolume                        (* ValueError, 65-66 *)
| TooManyIterations                 (* RuntimeError, 205-208 *)
| ReductionIncorrect                (* RuntimeError, 210-214 *)
| Reduced (niggli : qmat) (C : mat3).

(** pyniggli.py 117-214 [_niggli_reduction] and 76 [self.niggli]. *)
Definition niggli_reduction (eps : Qc) (original : qmat) : outcome :=
  let '(C, p, count) :=
    loop eps original loop_fuel false 0 (mid, get_params eps original mid) in
  if Z.leb 1000 count then TooManyIterations else
  if negb (niggli_check (pA p) (pB p) (pC p) (pxi p) (peta p) (pzeta p) eps)
  then ReductionIncorrect
  else Reduced (qmul original (qof C)) C.

(** A two-dimensional array of shape (3,3); other shapes (and ragged input) give [None]. *)
Definition as_3x3 (rows : list (list Qc)) : option qmat :=
  match rows with
  | [[a; b; c]; [d; e; f]; [g; h; i]] => Some (QMat a b c d e f g h i)
  | _ => None
  end.

(** pyniggli.py 38-76 [__init__]; [eps_] is the optional argument [eps]. *)
Definition reduced_cell (cbrt : Qc -> Qc) (rows : list (list Qc)) (eps_ : option Qc) : outcome :=
  match as_3x3 rows with
  | None => BadShape
  | Some A =>
    if Qc_eq_dec (qdet A) 0 then ZeroVolume else
    let volume := qabs (qdet A) in
    let eps := match eps_ with None => qdec 1 5 * cbrt volume | Some e => e * cbrt volume end in
    niggli_reduction eps A
  end.
