(** Model of the module [niggli] (src/niggli.f90): reduction and identification of a cell.

    Reals are exact rationals; rounding is not modelled.  The matrix [trans] is an integer
    array.  The variable [path] and the file output of [id_cell] are not modelled.
    [determinant] is the determinant; [abs(vol)**(1/3)] is the parameter [cbrt] and
    [equal(vol, 0, 1e-6)] of the library is the parameter [dependent]. *)
From Coq Require Import ZArith QArith Qcanon List Bool.
From Verif Require Import Mat3 QMat QNum Bases.
Import ListNotations.
Open Scope Qc_scope.

Definition f_two : Qc := 1 + 1.

(** The output arguments of get_params. *)
Record fparams : Type := FParams {
  fA : Qc; fB : Qc; fC : Qc; fxi : Qc; feta : Qc; fzeta : Qc;
  fl : Z; fm : Z; fn : Z }.

(** niggli.f90 401-423: sign of a parameter, with tolerance. *)
Definition f_sign_eps (eps x : Qc) : Z :=
  if qltb x (- eps) then (-1)%Z else if qgtb x eps then 1%Z else 0%Z.

(** [dot_product] of columns of a matrix. *)
Definition f_dot11 (m : qmat) : Qc := q11 m * q11 m + q21 m * q21 m + q31 m * q31 m.
Definition f_dot22 (m : qmat) : Qc := q12 m * q12 m + q22 m * q22 m + q32 m * q32 m.
Definition f_dot33 (m : qmat) : Qc := q13 m * q13 m + q23 m * q23 m + q33 m * q33 m.
Definition f_dot23 (m : qmat) : Qc := q12 m * q13 m + q22 m * q23 m + q32 m * q33 m.
Definition f_dot31 (m : qmat) : Qc := q13 m * q11 m + q23 m * q21 m + q33 m * q31 m.
Definition f_dot13 (m : qmat) : Qc := q11 m * q13 m + q21 m * q23 m + q31 m * q33 m.
Definition f_dot12 (m : qmat) : Qc := q11 m * q12 m + q21 m * q22 m + q31 m * q32 m.

(** niggli.f90 389-425 [get_params]. *)
Definition f_get_params (eps : Qc) (IN : qmat) : fparams :=
  let xi := f_two * f_dot23 IN in
  let eta := f_two * f_dot31 IN in
  let zeta := f_two * f_dot12 IN in
  FParams (f_dot11 IN) (f_dot22 IN) (f_dot33 IN) xi eta zeta
          (f_sign_eps eps xi) (f_sign_eps eps eta) (f_sign_eps eps zeta).

(** niggli.f90 260-271 [get_sign]. *)
Definition f_get_sign (a : Qc) : Z :=
  if qgtb a 0 then 1%Z else if qltb a 0 then (-1)%Z else 0%Z.

(** [transpose(reshape((/i, 0, 0, 0, j, 0, 0, 0, k/),(/3,3/)))]. *)
Definition f_diag (i j k : Z) : mat3 := Mat3 i 0 0 0 j 0 0 0 k.

(** niggli.f90 337-363 [find_C3]. *)
Definition f_find_C3 (l m n : Z) : mat3 :=
  let i := if Z.eqb l (-1) then (-1)%Z else 1%Z in
  let j := if Z.eqb m (-1) then (-1)%Z else 1%Z in
  let k := if Z.eqb n (-1) then (-1)%Z else 1%Z in
  f_diag i j k.

(** niggli.f90 280-328 [find_C4]: [r] is the number of the last of l, m, n that is zero. *)
Definition f_find_C4 (l m n : Z) : mat3 :=
  if (Z.eqb l (-1) && Z.eqb m (-1) && Z.eqb n (-1))%bool then f_diag 1 1 1 else
  let i := if Z.eqb l 1 then (-1)%Z else 1%Z in
  let r := if Z.eqb l 1 then (-1)%Z else if Z.eqb l 0 then 0%Z else (-1)%Z in
  let j := if Z.eqb m 1 then (-1)%Z else 1%Z in
  let r := if Z.eqb m 1 then r else if Z.eqb m 0 then 1%Z else r in
  let k := if Z.eqb n 1 then (-1)%Z else 1%Z in
  let r := if Z.eqb n 1 then r else if Z.eqb n 0 then 2%Z else r in
  if Z.eqb (i * j * k) (-1) then
    if Z.eqb r 0 then f_diag (-1) j k
    else if Z.eqb r 1 then f_diag i (-1) k
    else if Z.eqb r 2 then f_diag i j (-1)
    else f_diag i j k
  else f_diag i j k.

(** The tests of the steps, niggli.f90 81, 90, 100, 112, 124, 134, 144, 154. *)
Definition f_cond1 (eps : Qc) (p : fparams) : bool :=
  qgtb (fA p) (fB p + eps) ||
  (negb (qgtb (qabs (fA p - fB p)) eps) && qgtb (qabs (fxi p)) (qabs (feta p) + eps)).
Definition f_cond2 (eps : Qc) (p : fparams) : bool :=
  qgtb (fB p) (fC p + eps) ||
  (negb (qgtb (qabs (fC p - fB p)) eps) && qgtb (qabs (feta p)) (qabs (fzeta p) + eps)).
Definition f_cond3 (p : fparams) : bool := Z.eqb (fl p * fm p * fn p) 1.
Definition f_cond4 (p : fparams) : bool :=
  Z.eqb (fl p * fm p * fn p) 0 || Z.eqb (fl p * fm p * fn p) (-1).
Definition f_cond5 (eps : Qc) (p : fparams) : bool :=
  qgtb (qabs (fxi p)) (fB p + eps) ||
  (negb (qgtb (qabs (fB p - fxi p)) eps) && qltb (f_two * feta p) (fzeta p - eps)) ||
  (negb (qgtb (qabs (fB p + fxi p)) eps) && qltb (fzeta p) (- eps)).
Definition f_cond6 (eps : Qc) (p : fparams) : bool :=
  qgtb (qabs (feta p)) (fA p + eps) ||
  (negb (qgtb (qabs (fA p - feta p)) eps) && qltb (f_two * fxi p) (fzeta p - eps)) ||
  (negb (qgtb (qabs (fA p + feta p)) eps) && qltb (fzeta p) (- eps)).
Definition f_cond7 (eps : Qc) (p : fparams) : bool :=
  qgtb (qabs (fzeta p)) (fA p + eps) ||
  (negb (qgtb (qabs (fA p - fzeta p)) eps) && qltb (f_two * fxi p) (feta p - eps)) ||
  (negb (qgtb (qabs (fA p + fzeta p)) eps) && qltb (feta p) (- eps)).
Definition f_cond8 (eps : Qc) (p : fparams) : bool :=
  qltb (fxi p + feta p + fzeta p + fA p + fB p) (- eps) ||
  (negb (qgtb (qabs (fxi p + feta p + fzeta p + fA p + fB p)) eps) &&
   qgtb (f_two * (fA p + feta p) + fzeta p) eps).

(** The variables of reduce_cell that change in the loop. *)
Record fstate : Type := FState { s_reduced : bool; s_trans : mat3; s_par : fparams }.

(** [trans = matmul(trans,M); temp_lat = matmul(IN,trans); call get_params(temp_lat,...)]. *)
Definition f_apply (eps : Qc) (IN : qmat) (reduced : bool) (trans M : mat3) : fstate :=
  let trans := mmul trans M in
  FState reduced trans (f_get_params eps (qmul IN (qof trans))).

(** niggli.f90 78-161: the body of the loop; [cycle] ends it. *)
Definition f_body (eps : Qc) (IN : qmat) (s : fstate) : fstate :=
  let s := FState true (s_trans s) (s_par s) in
  (* step #1 *)
  let s := if f_cond1 eps (s_par s)
           then f_apply eps IN false (s_trans s) (Mat3 0 (-1) 0 (-1) 0 0 0 0 (-1)) else s in
  (* step #2 *)
  if f_cond2 eps (s_par s)
  then f_apply eps IN false (s_trans s) (Mat3 (-1) 0 0 0 0 (-1) 0 (-1) 0) else
  (* step #3 *)
  let s := if f_cond3 (s_par s) then
             let temp_M := f_find_C3 (fl (s_par s)) (fm (s_par s)) (fn (s_par s)) in
             f_apply eps IN (if negb (meqb temp_M mid) then false else s_reduced s)
               (s_trans s) temp_M
           else s in
  (* step #4 *)
  let s := if f_cond4 (s_par s) then
             let temp_M := f_find_C4 (fl (s_par s)) (fm (s_par s)) (fn (s_par s)) in
             f_apply eps IN (if negb (meqb temp_M mid) then false else s_reduced s)
               (s_trans s) temp_M
           else s in
  (* step #5 *)
  if f_cond5 eps (s_par s) then
    f_apply eps IN false (s_trans s) (Mat3 1 0 0 0 1 (- f_get_sign (fxi (s_par s))) 0 0 1) else
  (* step #6 *)
  if f_cond6 eps (s_par s) then
    f_apply eps IN false (s_trans s) (Mat3 1 0 (- f_get_sign (feta (s_par s))) 0 1 0 0 0 1) else
  (* step #7 *)
  if f_cond7 eps (s_par s) then
    f_apply eps IN false (s_trans s) (Mat3 1 (- f_get_sign (fzeta (s_par s))) 0 0 1 0 0 0 1) else
  (* step #8 *)
  if f_cond8 eps (s_par s) then
    f_apply eps IN false (s_trans s) (Mat3 1 0 1 0 1 1 0 0 1) else
  s.

(** niggli.f90 77: [do while ((.not. reduced) .and. (count <= 1000))].  [fuel] makes the
    recursion structural; the condition allows 1001 passes. *)
Fixpoint f_loop (eps : Qc) (IN : qmat) (fuel : nat) (count : Z) (s : fstate) : fstate * Z :=
  if negb (s_reduced s) && Z.leb count 1000 then
    match fuel with
    | O => (s, count)
    | S f => f_loop eps IN f (count + 1) (f_body eps IN s)
    end
  else (s, count).
Definition f_fuel : nat := Z.to_nat 1001.

(** niggli.f90 194-256 [condition_check]. *)
Definition f_condition_check (A B C xi eta zeta eps : Qc) : bool :=
  let near x y := qltb (qabs (x - y)) eps in
  let zero x := qltb (qabs x) eps in
  let below x y := qltb x (y - eps) in
  negb (negb (qgtb (A - eps) 0 && (below A B || near A B) && (below B C || near B C))) &&
  negb (near A B && negb (below (qabs xi) (qabs eta) || near (qabs xi) (qabs eta))) &&
  negb (near B C && negb (below (qabs eta) (qabs zeta) || near (qabs eta) (qabs zeta))) &&
  negb (negb ((qgtb (xi - eps) 0 && qgtb (eta - eps) 0 && qgtb (zeta - eps) 0) ||
              ((qltb xi 0 || zero xi) && (qltb eta 0 || zero eta) && (qltb zeta 0 || zero zeta)))) &&
  negb (negb (below (qabs xi) B || near (qabs xi) B)) &&
  negb (negb ((below (qabs eta) A || near (qabs eta) A) &&
              (below (qabs zeta) A || near (qabs zeta) A))) &&
  negb (negb (below C (A + B + C + xi + eta + zeta) || near C (A + B + C + xi + eta + zeta))) &&
  negb (near xi B && negb (below zeta (f_two * eta) || near zeta (f_two * eta))) &&
  negb (near eta A && negb (below zeta (f_two * xi) || near zeta (f_two * xi))) &&
  negb (near zeta A && negb (below eta (f_two * xi) || near eta (f_two * xi))) &&
  negb (zero (xi + B) && negb (zero zeta)) &&
  negb (zero (eta + A) && negb (zero zeta)) &&
  negb (zero (zeta + A) && negb (zero eta)) &&
  negb (near C (A + B + C + xi + eta + zeta) &&
        negb (qltb (f_two * A + f_two * eta + zeta) (- eps) || zero (f_two * A + f_two * eta + zeta))).

(** How reduce_cell ends: one of its three [stop] statements, or the arguments n_cell, trans. *)
Inductive f_reduction : Type :=
| Dependent | Gave_up | Not_niggli | FReduced (n_cell : qmat) (trans : mat3).

(** niggli.f90 67-174 [reduce_cell], after the tolerance has been computed. *)
Definition f_reduce (eps : Qc) (IN : qmat) : f_reduction :=
  let '(s, count) := f_loop eps IN f_fuel 0 (FState false mid (f_get_params eps IN)) in
  if Z.leb 1000 count then Gave_up else
  let p := s_par s in
  if negb (f_condition_check (fA p) (fB p) (fC p) (fxi p) (feta p) (fzeta p) eps)
  then Not_niggli
  else FReduced (qmul IN (qof (s_trans s))) (s_trans s).

(** niggli.f90 27-176; [eps_] is the optional argument. *)
Definition reduce_cell (dependent : Qc -> bool) (cbrt : Qc -> Qc) (IN : qmat) (eps_ : option Qc)
    : f_reduction :=
  let vol := qdet IN in
  if dependent vol then Dependent else
  let eps := match eps_ with Some e => e * cbrt (qabs vol) | None => qdec 1 5 * cbrt (qabs vol) end in
  f_reduce eps IN.

(** ** Identification *)
(** The decimal bases, in units of 10^-16; the nine numbers of a [reshape] fill the columns. *)
(** niggli.f90 489-490 *)
Definition f_basis_1 : mat3 :=
  cols (dec 0 0) (dec 1 0) (dec 1 0)
       (dec 1 0) (dec 0 0) (dec 1 0)
       (dec 1 0) (dec 1 0) (dec 0 0).
(** niggli.f90 494-495 *)
Definition f_basis_2 : mat3 :=
  cols (dec (-111652) 5) (dec (-610985) 6) (dec 616515 6)
       (dec 0 0) (dec (-132288) 5) (dec (-5) 1)
       (dec 1 0) (dec 132288 5) (dec 15 1).
(** niggli.f90 503-504 *)
Definition f_basis_3 : mat3 :=
  cols (dec 1 0) (dec 0 0) (dec 0 0)
       (dec 0 0) (dec 1 0) (dec 0 0)
       (dec 0 0) (dec 0 0) (dec 1 0).
(** niggli.f90 513-514 *)
Definition f_basis_4 : mat3 :=
  cols (dec (-548584) 6) (dec 774292 6) (dec 104858 5)
       (dec 0 0) (dec (-132288) 5) (dec 5 1)
       (dec 1 0) (dec 132288 5) (dec 5 1).
(** niggli.f90 508-509 *)
Definition f_basis_5 : mat3 :=
  cols (dec (-1) 0) (dec 1 0) (dec 1 0)
       (dec 1 0) (dec (-1) 0) (dec 1 0)
       (dec 1 0) (dec 1 0) (dec (-1) 0).
(** niggli.f90 520-521 *)
Definition f_basis_6 : mat3 :=
  cols (dec 180278 5) (dec (-147253) 5) (dec 762655 6)
       (dec 280278 5) (dec 13535 5) (dec (-791285) 6)
       (dec 80278 5) (dec (-47253) 5) (dec 2762655 6).
(** niggli.f90 525-526 *)
Definition f_basis_7 : mat3 :=
  cols (dec 195095 5) (dec 119163 5) (dec 879663 6)
       (dec 0 0) (dec 260788 5) (dec 44606 5)
       (dec 95095 5) (dec (-41625) 5) (dec 2433603 6).
(** niggli.f90 530-531 *)
Definition f_basis_8 : mat3 :=
  cols (dec 141144 5) (dec 885622 7) (dec (-2) 0)
       (dec (-99868) 5) (dec 221232 5) (dec 1268178 6)
       (dec 341012 5) (dec (-11237578) 7) (dec (-1268178) 6).
(** niggli.f90 543-544 *)
Definition f_basis_9 : mat3 :=
  cols (dec 1 0) (dec 2 0) (dec 2 0)
       (dec 2 0) (dec 1 0) (dec 2 0)
       (dec 4 0) (dec 3 0) (dec 3 0).
(** niggli.f90 548-549 *)
Definition f_basis_10 : mat3 :=
  cols (dec 1 0) (dec (-1) 0) (dec 1 0)
       (dec (-146391) 5) (dec 0 0) (dec 196391 5)
       (dec 0 0) (dec 2 0) (dec 0 0).
(** niggli.f90 556-557 *)
Definition f_basis_11 : mat3 :=
  cols (dec 1 0) (dec 0 0) (dec 0 0)
       (dec 0 0) (dec 1 0) (dec 0 0)
       (dec 0 0) (dec 0 0) (dec 2 0).
(** niggli.f90 562-563 *)
Definition f_basis_12 : mat3 :=
  cols (dec 1 0) (dec 0 0) (dec 0 0)
       (dec 5 1) (dec (-8660254037844386) 16) (dec 0 0)
       (dec 0 0) (dec 0 0) (dec 2 0).
(** niggli.f90 572-573 *)
Definition f_basis_13 : mat3 :=
  cols (dec 1 0) (dec 1 0) (dec 1 0)
       (dec 1 0) (dec (-1) 0) (dec (-1) 0)
       (dec 0 0) (dec (-173205) 5) (dec 173205 5).
(** niggli.f90 582-583 *)
Definition f_basis_14 : mat3 :=
  cols (dec (-1) 0) (dec 1 0) (dec 0 0)
       (dec 5 1) (dec 0 0) (dec 2 0)
       (dec 0 0) (dec (-2) 0) (dec 0 0).
(** niggli.f90 567-568 *)
Definition f_basis_15 : mat3 :=
  cols (dec (-1) 0) (dec (-1) 0) (dec 2 0)
       (dec 0 0) (dec (-2) 0) (dec 0 0)
       (dec (-2) 0) (dec 0 0) (dec 0 0).
(** niggli.f90 577-578 *)
Definition f_basis_16 : mat3 :=
  cols (dec 104442 5) (dec 143973 5) (dec 168415 5)
       (dec 779796 6) (dec (-11789) 4) (dec 1 0)
       (dec 1779796 6) (dec (-1789) 4) (dec 0 0).
(** niggli.f90 588-589 *)
Definition f_basis_17 : mat3 :=
  cols (dec (-105387) 5) (dec (-161088) 5) (dec 151474 5)
       (dec (-244302) 6) (dec (-277045) 5) (dec 51474 5)
       (dec 1809568 6) (dec (-15957) 5) (dec 0 0).
(** niggli.f90 600-601 *)
Definition f_basis_18 : mat3 :=
  cols (dec (-2) 0) (dec (-1) 0) (dec 1 0)
       (dec (-3) 0) (dec 1 0) (dec 0 0)
       (dec (-1) 0) (dec (-3) 0) (dec 0 0).
(** niggli.f90 605-606 *)
Definition f_basis_19 : mat3 :=
  cols (dec 5 1) (dec 1 0) (dec 15 1)
       (dec 0 0) (dec 2 0) (dec 0 0)
       (dec 0 0) (dec 0 0) (dec 3 0).
(** niggli.f90 610-611 *)
Definition f_basis_20 : mat3 :=
  cols (dec 1 0) (dec 1 0) (dec 1 0)
       (dec 170119 5) (dec (-145119) 5) (dec 1 0)
       (dec 69779 5) (dec (-14322505) 7) (dec 323446 5).
(** niggli.f90 619-620 *)
Definition f_basis_21 : mat3 :=
  cols (dec 0 0) (dec 0 0) (dec 5 1)
       (dec 1 0) (dec 0 0) (dec 0 0)
       (dec 0 0) (dec 1 0) (dec 0 0).
(** niggli.f90 624-625 *)
Definition f_basis_22 : mat3 :=
  cols (dec 0 0) (dec 0 0) (dec (-5) 1)
       (dec 1 0) (dec 0 0) (dec 0 0)
       (dec (-5) 1) (dec 8660254037844386 16) (dec 0 0).
(** niggli.f90 629-630 *)
Definition f_basis_23 : mat3 :=
  cols (dec (-3333333) 7) (dec (-154116) 5) (dec 187449 5)
       (dec 1 0) (dec 1 0) (dec 1 0)
       (dec 2 0) (dec (-1) 0) (dec (-1) 0).
(** niggli.f90 635-636 *)
Definition f_basis_24 : mat3 :=
  cols (dec (-255922) 6) (dec (-144338) 5) (dec 92259 5)
       (dec 151184 5) (dec 0 0) (dec (-845178) 6)
       (dec 1255922 6) (dec 144338 5) (dec 7741 5).
(** niggli.f90 640-641 *)
Definition f_basis_25 : mat3 :=
  cols (dec 1 0) (dec 1 0) (dec 1 0)
       (dec 145119 5) (dec (-170119) 5) (dec (-1) 0)
       (dec 28878 5) (dec (-326895) 5) (dec 48018 5).
(** niggli.f90 654-655 *)
Definition f_basis_26 : mat3 :=
  cols (dec 0 0) (dec 1 0) (dec 15 1)
       (dec 5 1) (dec 0 0) (dec 15 1)
       (dec 0 0) (dec 0 0) (dec 3 0).
(** niggli.f90 659-660 *)
Definition f_basis_27 : mat3 :=
  cols (dec (-1464824) 6) (dec 464824 6) (dec 1907413 6)
       (dec (-153209) 6) (dec 153209 6) (dec (-2907413) 6)
       (dec 1 0) (dec 1 0) (dec 0 0).
(** niggli.f90 670-671 *)
Definition f_basis_28 : mat3 :=
  cols (dec (-144896) 5) (dec 948958 6) (dec (-1) 0)
       (dec (-1) 0) (dec (-1) 0) (dec 0 0)
       (dec 342424 6) (dec (-1342424) 6) (dec (-202006) 5).
(** niggli.f90 676-677 *)
Definition f_basis_29 : mat3 :=
  cols (dec (-666125) 6) (dec 116613 5) (dec 204852 5)
       (dec 1 0) (dec 1 0) (dec 0 0)
       (dec 161803 5) (dec (-618034) 6) (dec 1 0).
(** niggli.f90 682-683 *)
Definition f_basis_30 : mat3 :=
  cols (dec 1 0) (dec 1 0) (dec 0 0)
       (dec 161803 5) (dec (-618034) 6) (dec 1 0)
       (dec (-361373) 7) (dec 536137 6) (dec 238982 5).
(** niggli.f90 695-696 *)
Definition f_basis_32 : mat3 :=
  cols (dec 1 0) (dec 0 0) (dec 0 0)
       (dec 0 0) (dec 2 0) (dec 0 0)
       (dec 0 0) (dec 0 0) (dec 3 0).
(** niggli.f90 717-718 *)
Definition f_basis_33 : mat3 :=
  cols (dec 2 0) (dec 0 0) (dec 0 0)
       (dec 0 0) (dec 2 0) (dec 0 0)
       (dec 5 1) (dec 0 0) (dec 2 0).
(** niggli.f90 729-730 *)
Definition f_basis_34 : mat3 :=
  cols (dec 1 0) (dec 1 0) (dec 1 0)
       (dec 122474487 8) (dec (-122474487) 8) (dec (-1) 0)
       (dec (-16598509) 8) (dec (-164308297) 8) (dec 180906806 8).
(** niggli.f90 705-706 *)
Definition f_basis_35 : mat3 :=
  cols (dec (-668912) 6) (dec 196676 5) (dec (-129785) 5)
       (dec 161803 5) (dec (-618034) 6) (dec (-1) 0)
       (dec 1 0) (dec 1 0) (dec 1 0).
(** niggli.f90 712-713 *)
Definition f_basis_36 : mat3 :=
  cols (dec 1 0) (dec 1 0) (dec 1 0)
       (dec 141421 5) (dec (-141421) 5) (dec 0 0)
       (dec (-143541) 5) (dec (-143541) 5) (dec 137083 5).
(** niggli.f90 747-748 *)
Definition f_basis_37 : mat3 :=
  cols (dec (-179092) 5) (dec (-147209) 5) (dec 790922 6)
       (dec 1 0) (dec (-141421) 5) (dec (-1) 0)
       (dec 1 0) (dec 0 0) (dec 1 0).
(** niggli.f90 724-725 *)
Definition f_basis_38 : mat3 :=
  cols (dec 5 1) (dec 1 0) (dec 0 0)
       (dec 5 1) (dec (-1) 0) (dec 0 0)
       (dec 0 0) (dec 0 0) (dec 3 0).
(** niggli.f90 752-753 *)
Definition f_basis_39 : mat3 :=
  cols (dec 0 0) (dec (-173205) 5) (dec (-1) 0)
       (dec (-166542) 5) (dec (-672857) 6) (dec 166542 5)
       (dec 1 0) (dec 0 0) (dec 1 0).
(** niggli.f90 700-701 *)
Definition f_basis_40 : mat3 :=
  cols (dec 1 0) (dec 1 0) (dec 1 0)
       (dec 161803 5) (dec (-618034) 6) (dec (-1) 0)
       (dec (-105557) 5) (dec 199895 5) (dec (-943376) 6).
(** niggli.f90 742-743 *)
Definition f_basis_41 : mat3 :=
  cols (dec (-185397) 5) (dec (-854143) 6) (dec 135397 5)
       (dec 1 0) (dec 0 0) (dec 1 0)
       (dec 1 0) (dec (-141421) 5) (dec (-1) 0).
(** niggli.f90 737-738 *)
Definition f_basis_42 : mat3 :=
  cols (dec (-153633) 5) (dec 136706 5) (dec (-133073) 5)
       (dec 1 0) (dec 1 0) (dec 1 0)
       (dec 161803 5) (dec (-61803) 5) (dec (-1) 0).
(** niggli.f90 758-759 *)
Definition f_basis_43 : mat3 :=
  cols (dec (-39716) 5) (dec (-34718) 5) (dec 249434 5)
       (dec 264194 5) (dec (-14194) 5) (dec 0 0)
       (dec (-139716) 5) (dec (-134718) 5) (dec 149434 5).

(** The basis [O] given to each number; [None] where the code says [O = U]. *)
Definition f_canonical_basis (k : Z) : option mat3 :=
  match k with
  | 1 => Some f_basis_1
  | 2 => Some f_basis_2
  | 3 => Some f_basis_3
  | 4 => Some f_basis_4
  | 5 => Some f_basis_5
  | 6 => Some f_basis_6
  | 7 => Some f_basis_7
  | 8 => Some f_basis_8
  | 9 => Some f_basis_9
  | 10 => Some f_basis_10
  | 11 => Some f_basis_11
  | 12 => Some f_basis_12
  | 13 => Some f_basis_13
  | 14 => Some f_basis_14
  | 15 => Some f_basis_15
  | 16 => Some f_basis_16
  | 17 => Some f_basis_17
  | 18 => Some f_basis_18
  | 19 => Some f_basis_19
  | 20 => Some f_basis_20
  | 21 => Some f_basis_21
  | 22 => Some f_basis_22
  | 23 => Some f_basis_23
  | 24 => Some f_basis_24
  | 25 => Some f_basis_25
  | 26 => Some f_basis_26
  | 27 => Some f_basis_27
  | 28 => Some f_basis_28
  | 29 => Some f_basis_29
  | 30 => Some f_basis_30
  | 32 => Some f_basis_32
  | 33 => Some f_basis_33
  | 34 => Some f_basis_34
  | 35 => Some f_basis_35
  | 36 => Some f_basis_36
  | 37 => Some f_basis_37
  | 38 => Some f_basis_38
  | 39 => Some f_basis_39
  | 40 => Some f_basis_40
  | 41 => Some f_basis_41
  | 42 => Some f_basis_42
  | 43 => Some f_basis_43
  | _ => None
  end.

(** What a branch sets: id, s_range and O ([None]: [O = U]). *)
Record f_id : Type := FId { i_id : Z; i_range : Z; i_basis : option mat3 }.
Definition f_found (k r : Z) (O : mat3) : option f_id := Some (FId k r (Some O)).
Definition f_triclinic (k : Z) : option f_id := Some (FId k 1 None).

Definition f_three : Qc := 1 + 1 + 1.
Definition f_four : Qc := 1 + 1 + 1 + 1.

(** niggli.f90 783-808 [isclose] with the default relative tolerance 10**(-5). *)
Definition isclose (atol A B : Qc) : bool :=
  negb (qltb (atol + qdec 1 5 * qabs B) (qabs (A - B))).

Section Tree.
(** [cl x y] is [isclose(x,y,atol_=eps)]; [rel x y] is [ABS(x-y) <= ABS(eps*y)], used by the
    numbers 26 and 38 only. *)
Variables (cl rel : Qc -> Qc -> bool).
Variables (A B C D E F : Qc) (positive : bool).

(** isclose(2*ABS(D+E+F), A+B), lines 516, 574, 585, 631, 754. *)
Definition f_sum : bool := cl (f_two * qabs (D + E + F)) (A + B).

(** Lines 483-535; [None]: id stays -1. *)
Definition f_block1 : option f_id :=
  if cl A B && cl B C then
    if positive then
      if cl D E && cl D F then
        if cl (A / f_two) D then f_found 1 1 f_basis_1 else f_found 2 25 f_basis_2
      else None
    else
      if cl D E && cl D F then
        if cl 0 D then f_found 3 1 f_basis_3
        else if cl (- A / f_three) D then f_found 5 1 f_basis_5
        else f_found 4 25 f_basis_4
      else if f_sum then
        if cl D E then f_found 6 25 f_basis_6
        else if cl E F then f_found 7 25 f_basis_7
        else f_found 8 15 f_basis_8
      else None
  else None.

(** Lines 537-592. *)
Definition f_block2 : option f_id :=
  if cl A B then
    if positive then
      if cl D E && cl D F && cl (A / f_two) D then f_found 9 25 f_basis_9
      else if cl D E then f_found 10 10 f_basis_10
      else None
    else
      if cl D E && cl D F && cl 0 D then f_found 11 25 f_basis_11
      else if cl D E then
        if cl 0 D && cl (- A / f_two) F then f_found 12 25 f_basis_12
        else if cl (- A / f_two) D && cl 0 F then f_found 15 25 f_basis_15
        else if cl 0 D then f_found 13 15 f_basis_13
        else if f_sum then f_found 16 20 f_basis_16
        else f_found 14 10 f_basis_14
      else if f_sum then f_found 17 10 f_basis_17
      else None
  else None.

(** Lines 594-645. *)
Definition f_block3 : option f_id :=
  if cl B C then
    if positive then
      if cl E F then
        if cl (A / f_four) D && cl (A / f_two) E then f_found 18 25 f_basis_18
        else if cl (A / f_two) E then f_found 19 15 f_basis_19
        else f_found 20 10 f_basis_20
      else None
    else
      if cl E F then
        if cl 0 D && cl 0 E then f_found 21 25 f_basis_21
        else if cl (- B / f_two) D && cl 0 E then f_found 22 25 f_basis_22
        else if cl 0 E then f_found 23 15 f_basis_23
        else if f_sum && cl (- A / f_three) E then f_found 24 25 f_basis_24
        else f_found 25 10 f_basis_25
      else None
  else None.

(** Lines 647-767. *)
Definition f_block4 : option f_id :=
  if positive then
    if cl E F then
      if rel (A / f_four) D && rel (A / f_two) E then f_found 26 20 f_basis_26
      else if cl (A / f_two) E then f_found 27 10 f_basis_27
      else f_triclinic 31
    else
      if cl (A / f_two) E && cl (f_two * D) F then f_found 28 10 f_basis_28
      else if cl (A / f_two) F && cl (f_two * D) E then f_found 29 10 f_basis_29
      else if cl (B / f_two) D && cl (f_two * E) F then f_found 30 10 f_basis_30
      else f_triclinic 31
  else
    if cl E F && cl 0 E then
      if cl 0 D then f_found 32 15 f_basis_32
      else if cl D (- B / f_two) then f_found 40 15 f_basis_40
      else f_found 35 10 f_basis_35
    else if cl D F && cl 0 D then
      if cl (- A / f_two) E then f_found 36 15 f_basis_36
      else f_found 33 10 f_basis_33
    else if cl D E && cl 0 D then
      if rel (- A / f_two) F then f_found 38 15 f_basis_38
      else f_found 34 10 f_basis_34
    else
      if cl (- B / f_two) D && cl (- A / f_two) E && cl 0 F then f_found 42 20 f_basis_42
      else if cl (- B / f_two) D && cl 0 F then f_found 41 10 f_basis_41
      else if cl (- A / f_two) E && cl 0 F then f_found 37 10 f_basis_37
      else if cl 0 E && cl (- A / f_two) F then f_found 39 10 f_basis_39
      else if f_sum && cl (qabs (f_two * D + F)) B then f_found 43 10 f_basis_43
      else f_triclinic 44.

(** Lines 482-767: each block is entered only while id is -1. *)
Definition f_identify : option f_id :=
  match f_block1 with Some r => Some r | None =>
  match f_block2 with Some r => Some r | None =>
  match f_block3 with Some r => Some r | None => f_block4 end end end.
End Tree.

(** Lines 477-767 for given parameters. *)
Definition f_id_params (eps A B C D E F : Qc) : option f_id :=
  let positive := qgtb (D - eps) 0 && qgtb (E - eps) 0 && qgtb (F - eps) 0 in
  f_identify (isclose eps) (fun x y => negb (qltb (qabs (eps * y)) (qabs (x - y))))
    A B C D E F positive.

(** How id_cell ends: a [stop] in one of the two reductions, or its output arguments.
    [Id_unset] would be the return with id = -1 and O, s_range undefined. *)
Inductive f_id_outcome : Type :=
| Id_user_failed (r : f_reduction)
| Id_basis_failed (r : f_reduction)
| Id_unset
| Id_cell (Nu : qmat) (Cu : mat3) (O No : qmat) (Co : mat3) (id s_range : Z).

(** niggli.f90 446-776 [id_cell]. *)
Definition id_cell (dependent : Qc -> bool) (cbrt : Qc -> Qc) (U : qmat) (eps_ : option Qc)
    : f_id_outcome :=
  let eps := match eps_ with Some e => e | None => qdec 1 5 end in
  match reduce_cell dependent cbrt U (Some eps) with
  | FReduced Nu Cu =>
    match f_id_params eps (f_dot11 Nu) (f_dot22 Nu) (f_dot33 Nu) (f_dot23 Nu) (f_dot13 Nu)
            (f_dot12 Nu) with
    | None => Id_unset
    | Some r =>
      let O := match i_basis r with Some B => qscale (qdec 1 16) (qof B) | None => U end in
      match reduce_cell dependent cbrt O (Some eps) with
      | FReduced No Co => Id_cell Nu Cu O No Co (i_id r) (i_range r)
      | f => Id_basis_failed f
      end
    end
  | f => Id_user_failed f
  end.
