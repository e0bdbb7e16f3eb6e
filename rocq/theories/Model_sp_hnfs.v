(** Model of src/sp_hnfs.f90: the Fortran enumerators of symmetry-preserving HNFs.

    Each definition gives the HNFs in the order in which the subroutine meets them: with
    [all_hnfs] they are stored in [temp_HNFs] and returned, without it each is handed to
    [compare_grids].  [MOD] is [Z.rem] and the division of integers, which cuts off towards
    zero, is [Z.quot]; for the overflow of integers see Model_int32.  [.and.] has no side effects
    here, so it is [&&].  The matrix [reshape((/ a,b,d, 0,c,e, 0,0,f /),(/3,3/))] is stored by
    columns: its rows are (a,0,0), (b,c,0), (d,e,f). *)
From Coq Require Import ZArith List Bool.
From Verif Require Import Mat3 Spec PyNum.
Import ListNotations.
Open Scope Z_scope.

(** [MOD(x,y)==0] *)
Definition rem0 (x y : Z) : bool := Z.rem x y =? 0.
(** [x/y] of integers *)
Local Notation "x '//' y" := (Z.quot x y) (at level 40, left associativity).
(** [do i = lo, hi, step] for a positive step *)
Definition do_range (lo hi step : Z) : list Z := py_range lo (hi + 1) step.
(** [i = 0; do while (i < hi) ...; i = i + step] *)
Definition do_while (hi step : Z) : list Z := py_range 0 hi step.
(** The arrays [bs], [es], [ds] with their number of valid entries. *)
Definition f_halves (c : Z) : list Z := if rem0 c 2 then [0; c // 2] else [0].
(** fco_16, lines 2036-2042: the same in the other order. *)
Definition f_halves_rev (c : Z) : list Z := if rem0 c 2 then [c // 2; 0] else [0].

(** ** get_HNF_diagonals, lines 4511-4531 *)
Definition f_diagonals (detS : Z) : list (Z * Z * Z) :=
  py_for (do_range 1 detS 1) (fun i =>
    if negb (rem0 detS i) then []
    else
      let quotient := detS // i in
      py_for (do_range 1 quotient 1) (fun j =>
        if negb (rem0 quotient j) then []
        else [(i, j, quotient // j)])).
(** Declared size of [tempDiag], line 4516. *)
Definition f_diagonals_room (detS : Z) : Z := detS * 3.
(** [total_hnfs], for example lines 483-485: the size of [temp_HNFs]. *)
Definition f_total_hnfs (n : Z) : Z :=
  fold_left (fun t '(_, c, f) => t + c * f ^ 2) (f_diagonals n) 0.

(** ** Cubic lattices

    The loop leaves at the first match ([exit]); [temp_HNFs] stays zero when there is none. *)

(** sc_3, lines 94-126 *)
Fixpoint f_sc_3_loop (l : list (Z * Z * Z)) : option mat3 :=
  match l with
  | [] => None
  | (a, c, f) :: r =>
      if (a =? c) && (c =? f) then Some (HNF a 0 c 0 0 f)
      else if (a =? c) && ((f // a =? 2) && rem0 f a) then Some (HNF a 0 c a a f)
      else if (c =? f) && ((f // a =? 2) && rem0 f a) then Some (HNF a a c a 0 f)
      else f_sc_3_loop r
  end.
(** fcc_1, lines 226-248 *)
Fixpoint f_fcc_1_loop (l : list (Z * Z * Z)) : option mat3 :=
  match l with
  | [] => None
  | (a, c, f) :: r =>
      if (a =? c) && (a =? f) then Some (HNF a 0 c 0 0 f)
      else if (c =? f) && (((f // a =? 2) && rem0 f a) || (f // a =? 4) && rem0 f a)
      then Some (HNF a a c a 0 f)
      else f_fcc_1_loop r
  end.
(** bcc_5, lines 347-378 (line 372 adds one to [nhnfs] before it has a value; it is
    overwritten in lines 383-391). *)
Fixpoint f_bcc_5_loop (l : list (Z * Z * Z)) : option mat3 :=
  match l with
  | [] => None
  | (a, c, f) :: r =>
      if (a =? c) && (a =? f) then Some (HNF a 0 c 0 0 f)
      else if (a =? c) && ((f // a =? 2) && rem0 f a) then Some (HNF a 0 c a a f)
      else if (a =? c) && ((f // a =? 4) && rem0 f a) then Some (HNF a 0 c (3 * a) (3 * a) f)
      else f_bcc_5_loop r
  end.

(** [temp_HNFs(:,:,1)] after the loop, lines 90, 220, 342. *)
Definition zero_mat : mat3 := Mat3 0 0 0 0 0 0 0 0 0.
Definition temp_hnf (o : option mat3) : mat3 := match o with Some H => H | None => zero_mat end.
Definition all_zero (H : mat3) : bool :=
  (m11 H =? 0) && (m12 H =? 0) && (m13 H =? 0) &&
  (m21 H =? 0) && (m22 H =? 0) && (m23 H =? 0) &&
  (m31 H =? 0) && (m32 H =? 0) && (m33 H =? 0).
(** Lines 127-134, 249-256, 379-386 ([all_hnfs]): [nhnfs] is 1 when the matrix is not zero. *)
Definition cubic_all (o : option mat3) : list mat3 :=
  if negb (all_zero (temp_hnf o)) then [temp_hnf o] else [].
(** Lines 135-142, 257-264, 387-394 (not [all_hnfs]): the matrix handed to
    [transform_supercell] and then, with [ngrids = (/1,0/)], to [grid_selection]. *)
Definition cubic_one (o : option mat3) : mat3 := temp_hnf o.

Definition f_sc_3 (n : Z) : list mat3 := cubic_all (f_sc_3_loop (f_diagonals n)).
Definition f_fcc_1 (n : Z) : list mat3 := cubic_all (f_fcc_1_loop (f_diagonals n)).
Definition f_bcc_5 (n : Z) : list mat3 := cubic_all (f_bcc_5_loop (f_diagonals n)).

(** ** hex_12, lines 493-555 *)
Definition f_hex_12 (n : Z) : list mat3 :=
  py_for (f_diagonals n) (fun '(a, c, f) =>
    py_if (rem0 c a) (
      py_for (do_while c a) (fun b =>
        py_if (rem0 (b * b) a) (
          let beta13 := a + 2 * b in
          let beta11 := 2 * b + b * b // a in
          py_if (rem0 beta13 c && rem0 beta11 c) (
            py_for (f_halves f) (fun e =>
              let gamma13 := (a + 2 * b) * e in
              py_if (rem0 gamma13 c) (
                let gamma13 := gamma13 // c in
                py_if (rem0 gamma13 f) (
                  py_for (do_range 0 (f - 1) 1) (fun d =>
                    py_if (rem0 (b * d) a && rem0 (e * beta11) c && rem0 (b * e) a &&
                           rem0 (c * d) a && rem0 (c * d - b * e) a) (
                      let gamma11 := b * d // a - e * beta11 // c in
                      let gamma12 := 2 * d + b * d // a - e * beta11 // c in
                      let gamma21 := c * d // a - 2 * e - b * e // a in
                      let gamma22 := (c * d - b * e) // a in
                      py_if (rem0 gamma11 f && rem0 gamma12 f && rem0 gamma21 f &&
                             rem0 gamma22 f)
                        [HNF a b c d e f])))))))))).

(** ** hex_22, lines 670-710 *)
Definition f_hex_22 (n : Z) : list mat3 :=
  py_for (f_diagonals n) (fun '(a, c, f) =>
    py_if (rem0 f c) (
      py_for (do_range 0 (f - 1) c) (fun e =>
        py_if (rem0 (e * e) c) (
          let gamma21 := - c + e * 2 in
          let gamma22 := - c + e - (e * e) // c in
          py_if (rem0 gamma21 f && rem0 gamma22 f) (
            py_for (do_range 0 (c - 1) 1) (fun b =>
              py_for (do_range 0 (f - 1) c) (fun d =>
                py_if (rem0 (d * e) c) (
                  let gamma11 := - b + d * 2 in
                  let gamma12 := - b + d - (d * e) // c in
                  py_if (rem0 gamma11 f && rem0 gamma12 f) [HNF a b c d e f])))))))).

(** ** rhom_9_24, lines 828-885 *)
Definition f_rhom_9_24 (n : Z) : list mat3 :=
  py_for (f_diagonals n) (fun '(a, c, f) =>
    py_if (rem0 f a) (
      py_for (f_halves c) (fun b =>
        let beta13 := f + b * f // a in
        py_if (rem0 beta13 c) (
          py_for (do_while f a) (fun e =>
            let beta22 := e + b * e // a in
            let gamma21 := c + 2 * e in
            let gamma11 := b + 2 * b * e // c in
            py_if (rem0 beta22 c && rem0 gamma21 f && rem0 gamma11 f) (
              py_for (do_while f a) (fun d =>
                let beta12 := - a + b + d + d * b // a in
                py_if (rem0 beta12 c) (
                  let gamma12 := - b - d + d * d // a - e * beta12 // c in
                  let gamma22 := - c - 2 * e + d * e // a - e * beta22 // c in
                  py_if (rem0 gamma12 f && rem0 gamma22 f) [HNF a b c d e f])))))))).

(** ** rhom_4_2, lines 1005-1067 *)
Definition f_rhom_4_2 (n : Z) : list mat3 :=
  py_for (f_diagonals n) (fun '(a, c, f) =>
    py_if (rem0 f a) (
      py_for (f_halves c) (fun b =>
        py_if (rem0 (b * f) a) (
          let beta32 := - f + b * f // a in
          py_if (rem0 beta32 c) (
            py_for (do_range 0 (f - 1) 1) (fun e =>
              py_if (rem0 (b * e) a && rem0 (2 * b * e) c) (
                let beta22 := - e + b * e // a in
                let gamma11 := b - 2 * b * e // c in
                let gamma21 := c - 2 * e in
                py_if (rem0 e a && rem0 beta22 c && rem0 gamma11 f && rem0 gamma21 f) (
                  py_for (do_range 0 (f - 1) 1) (fun d =>
                    py_if (rem0 (b * d) a) (
                      let beta12 := - a + b - d + b * d // a in
                      py_if (rem0 (e * beta12) c && rem0 (d * d) a && rem0 (d * e) a) (
                        let gamma12 := (- a + d * d // a) - (e * beta12 // c) in
                        let gamma22 := (- e + d * e // a) - (e * beta22 // c) in
                        py_if (rem0 d a && rem0 beta12 c && rem0 gamma12 f && rem0 gamma22 f)
                          [HNF a b c d e f]))))))))))).

(** ** st_11, lines 1184-1246 *)
Definition f_st_11 (n : Z) : list mat3 :=
  py_for (f_diagonals n) (fun '(a, c, f) =>
    py_if (rem0 c a) (
      py_for (f_halves c) (fun b =>
        py_if (rem0 (b * b) a) (
          let beta13 := - a + b * b // a in
          py_if (rem0 beta13 c) (
            py_for (f_halves f) (fun e =>
              py_if (rem0 (2 * b * e) c) (
                let gamma12 := 2 * b * e // c in
                py_if (rem0 gamma12 f) (
                  py_for (do_range 0 (f - 1) 1) (fun d =>
                    py_if (rem0 (d * b) a && rem0 (d * c) a && rem0 (e * b) a) (
                      let gamma13 := - (e * beta13 // c) + d * (b // a - 1) in
                      let gamma23 := - (e * (b // a + 1)) + d * c // a in
                      py_if (rem0 gamma13 f && rem0 gamma23 f) [HNF a b c d e f])))))))))).

(** ** st_21, lines 1363-1419 *)
Definition f_st_21 (n : Z) : list mat3 :=
  py_for (f_diagonals n) (fun '(a, c, f) =>
    py_if (rem0 f c) (
      py_for (f_halves c) (fun b =>
        py_for (f_halves f) (fun d =>
          let beta13 := b - d in
          py_if (rem0 beta13 c) (
            py_for (f_halves f) (fun e =>
              py_if (rem0 (2 * d * e) c && rem0 (e * e) c) (
                let gamma12 := 2 * d - 2 * d * e // c in
                let gamma13 := - b + d - e * beta13 // c in
                let gamma23 := - c + e * e // c in
                py_if (rem0 gamma12 f && rem0 gamma13 f && rem0 gamma23 f)
                  [HNF a b c d e f]))))))).

(** ** bct_6_7_15_18, lines 1541-1590 *)
Definition f_bct_6_7_15_18 (n : Z) : list mat3 :=
  py_for (f_diagonals n) (fun '(a, c, f) =>
    py_if (rem0 f c) (
      py_for (f_halves f) (fun e =>
        py_if (rem0 e c) (
          let gamma21 := - c + e * e // c in
          py_if (rem0 gamma21 f) (
            py_for (do_range 0 (f - 1) 1) (fun d =>
              let gamma13 := a + 2 * d in
              py_if (rem0 gamma13 f) (
                py_for (do_range 0 (c - 1) 1) (fun b =>
                  let beta12 := b - d in
                  py_if (rem0 beta12 c) (
                    let gamma12 := - b + d - (e * beta12 // c) in
                    py_if (rem0 gamma12 f) [HNF a b c d e f]))))))))).

(** ** so_32, lines 1706-1753 *)
Definition f_so_32 (n : Z) : list mat3 :=
  py_for (f_diagonals n) (fun '(a, c, f) =>
    py_for (f_halves c) (fun b =>
      py_for (f_halves f) (fun e =>
        py_if (rem0 (2 * b * e) (f * c)) (
          py_for (f_halves f) (fun d => [HNF a b c d e f]))))).

(** ** fco_26, lines 1870-1913 *)
Definition f_fco_26 (n : Z) : list mat3 :=
  py_for (f_diagonals n) (fun '(a, c, f) =>
    py_for (f_halves c) (fun b =>
      py_for (do_range 0 (f - 1) 1) (fun e =>
        py_if (rem0 (2 * b * e) c) (
          let gamma23 := c + 2 * e in
          let gamma12 := b + 2 * b * e // c in
          py_if (rem0 gamma23 f && rem0 gamma12 f) (
            py_for (do_range 0 (f - 1) 1) (fun d =>
              let gamma13 := a + b + 2 * d in
              py_if (rem0 gamma13 f) [HNF a b c d e f])))))).

(** ** fco_16, lines 2031-2073 *)
Definition f_fco_16 (n : Z) : list mat3 :=
  py_for (f_diagonals n) (fun '(a, c, f) =>
    py_for (f_halves_rev c) (fun b =>
      py_for (do_range 0 (f - 1) 1) (fun e =>
        py_if (rem0 (2 * b * e) c) (
          let gamma11 := - b - 2 * b * e // c in
          let gamma21 := c + 2 * e in
          py_if (rem0 gamma11 f && rem0 gamma21 f) (
            py_for (do_range 0 (f - 1) 1) (fun d =>
              let gamma12 := a + 2 * d - (2 * b * e // c) in
              py_if (rem0 gamma12 f) [HNF a b c d e f])))))).

(** ** bco_19, lines 2190-2235 *)
Definition f_bco_19 (n : Z) : list mat3 :=
  py_for (f_diagonals n) (fun '(a, c, f) =>
    py_for (do_range 0 (c - 1) 1) (fun b =>
      let beta13 := a + 2 * b in
      py_if (rem0 beta13 c) (
        py_for (f_halves f) (fun e =>
          py_if (rem0 (e * beta13) c) (
            let gamma13 := e * beta13 // c in
            py_if (rem0 gamma13 f) (
              py_for (do_range 0 (f - 1) 1) (fun d =>
                let gamma12 := a + 2 * d in
                py_if (rem0 gamma12 f) [HNF a b c d e f]))))))).

(** ** bco_8, lines 2353-2403 *)
Definition f_bco_8 (n : Z) : list mat3 :=
  py_for (f_diagonals n) (fun '(a, c, f) =>
    py_if (rem0 (2 * f) c) (
      py_for (f_halves c) (fun b =>
        py_for (do_range 0 (f - 1) 1) (fun e =>
          let beta21 := 2 * e in
          py_if (rem0 (beta21 * e) c) (
            let gamma21 := - beta21 + beta21 * e // c in
            py_if (rem0 beta21 c && rem0 gamma21 f) (
              py_for (do_range 0 (f - 1) 1) (fun d =>
                let beta11 := - a + (2 * b) - 2 * d in
                py_if (rem0 beta11 c) (
                  let gamma11 := - (beta11 * e // c) in
                  let gamma13 := a + (2 * d) - b * beta21 // c in
                  py_if (rem0 gamma11 f && rem0 gamma13 f) [HNF a b c d e f])))))))).

(** ** bco_42, lines 2521-2566 *)
Definition f_bco_42 (n : Z) : list mat3 :=
  py_for (f_diagonals n) (fun '(a, c, f) =>
    py_for (f_halves f) (fun e =>
      py_for (do_range 0 (c - 1) 1) (fun b =>
        let beta11 := - a + 2 * b in
        py_if (rem0 (beta11 * e) c) (
          let gamma12 := - (beta11 * e // c) in
          py_if (rem0 beta11 c && rem0 gamma12 f) (
            py_for (do_range 0 (f - 1) 1) (fun d =>
              let gamma11 := - a + (2 * d) - e * beta11 // c in
              let gamma13 := - a + 2 * d in
              py_if (rem0 gamma11 f && rem0 gamma13 f) [HNF a b c d e f])))))).

(** ** baseco_38_13, lines 2686-2739 *)
Definition f_baseco_38_13 (n : Z) : list mat3 :=
  py_for (f_diagonals n) (fun '(a, c, f) =>
    py_if (rem0 c a) (
      py_for (do_while c a) (fun b =>
        py_if (rem0 (b * b) a) (
          let beta13 := - a + b * b // a in
          py_if (rem0 beta13 c) (
            py_for (f_halves f) (fun e =>
              py_for (f_halves f) (fun d =>
                py_if (rem0 (b * d) a) (
                  let gamma13 := - d + b * d // a - e * beta13 // c in
                  let gamma23 := c * d // a - e - b * e // a in
                  py_if (rem0 gamma13 f && rem0 gamma23 f) [HNF a b c d e f])))))))).

(** ** baseco_23, lines 2857-2916 *)
Definition f_baseco_23 (n : Z) : list mat3 :=
  py_for (f_diagonals n) (fun '(a, c, f) =>
    py_if (rem0 f a) (
      py_for (f_halves c) (fun b =>
        py_if (rem0 (b * f) (a * c)) (
          py_for (f_halves f) (fun e =>
            py_if (rem0 (b * e) (a * c) && rem0 (2 * b * e) (c * f) && rem0 e a) (
              py_for (do_range 0 (f - 1) a) (fun d =>
                py_if (rem0 (b * d) a) (
                  let beta13 := - b + b * d // a in
                  py_if (rem0 (beta13 * e) c && rem0 (d * d) a) (
                    let gamma13 := - a + (d * d // a) - beta13 * e // c in
                    let gamma23 := e + (d * e // a) - b * e * e // (a * c) in
                    py_if (rem0 beta13 c && rem0 gamma13 f && rem0 gamma23 f)
                      [HNF a b c d e f]))))))))).

(** ** baseco_40, lines 3033-3071 *)
Definition f_baseco_40 (n : Z) : list mat3 :=
  py_for (f_diagonals n) (fun '(a, c, f) =>
    py_if (rem0 f c) (
      py_for (do_range 0 (f - 1) c) (fun e =>
        let gamma22 := 2 * e - e * e // c in
        py_if (rem0 gamma22 f) (
          py_for (do_range 0 (f - 1) c) (fun d =>
            let gamma12 := 2 * d - d * e // c in
            py_if (rem0 gamma12 f) (
              py_for (do_range 0 (c - 1) 1) (fun b =>
                let beta13 := 2 * b - d in
                let gamma13 := beta13 * e // c in
                py_if (rem0 beta13 c && rem0 gamma13 f) [HNF a b c d e f]))))))).

(** ** baseco_36, lines 3188-3255 *)
Definition f_baseco_36 (n : Z) : list mat3 :=
  py_for (f_diagonals n) (fun '(a, c, f) =>
    py_if (rem0 f a) (
      py_for (f_halves c) (fun b =>
        let beta32 := - (b * f // a) in
        py_if (rem0 beta32 c) (
          py_for (f_halves f) (fun e =>
            py_if (rem0 e a && rem0 (b * e) c) (
              let beta22 := - (b * e // a) in
              let gamma13 := - (2 * b * e // c) in
              py_if (rem0 beta22 c && rem0 gamma13 f) (
                py_for (do_range 0 (f - 1) 1) (fun d =>
                  py_if (rem0 (b * d) a && rem0 (d * d) a) (
                    let beta12 := - (b * d // a) in
                    py_if (rem0 (beta12 * e) c) (
                      let gamma12 := 2 * d - (d * d // a) - beta12 * e // c in
                      let gamma22 := 2 * e - (d * e // a) - beta22 * e // c in
                      py_if (rem0 beta12 c && rem0 gamma12 f && rem0 gamma22 f)
                        [HNF a b c d e f])))))))))).

(** ** sm_33, lines 3372-3419 *)
Definition f_sm_33 (n : Z) : list mat3 :=
  py_for (f_diagonals n) (fun '(a, c, f) =>
    py_for (f_halves c) (fun b =>
      py_for (f_halves f) (fun e =>
        py_if (rem0 (2 * b * e) c) (
          let gamma12 := 2 * b * e // c in
          py_if (rem0 gamma12 f) (
            py_for (do_range 0 (f - 1) 1) (fun d => [HNF a b c d e f])))))).

(** ** sm_34_35, lines 3537-3574 *)
Definition f_sm_34_35 (n : Z) : list mat3 :=
  py_for (f_diagonals n) (fun '(a, c, f) =>
    py_for (f_halves f) (fun d =>
      py_for (f_halves f) (fun e =>
        py_for (do_range 0 (c - 1) 1) (fun b => [HNF a b c d e f])))).

(** ** basecm_10_14_17_27_37_39_41, lines 3697-3733 *)
Definition f_basecm_10_14_17_27_37_39_41 (n : Z) : list mat3 :=
  py_for (f_diagonals n) (fun '(a, c, f) =>
    py_for (f_halves f) (fun e =>
      py_for (do_range 0 (f - 1) 1) (fun d =>
        let gamma11 := (-1) * a + 2 * d in
        py_if (rem0 gamma11 f) (
          py_for (do_range 0 (c - 1) 1) (fun b => [HNF a b c d e f]))))).

(** ** basecm_20_25, lines 3853-3895 *)
Definition f_basecm_20_25 (n : Z) : list mat3 :=
  py_for (f_diagonals n) (fun '(a, c, f) =>
    py_for (do_range 0 (f - 1) 1) (fun e =>
      let gamma22 := - c - 2 * e in
      py_if (rem0 gamma22 f) (
        py_for (f_halves c) (fun b =>
          py_if (rem0 (2 * b * e) c) (
            let gamma12 := - b - 2 * b * e // c in
            py_if (rem0 gamma12 f) (
              py_for (do_range 0 (f - 1) 1) (fun d => [HNF a b c d e f]))))))).

(** ** basecm_28, lines 4012-4045 *)
Definition f_basecm_28 (n : Z) : list mat3 :=
  py_for (f_diagonals n) (fun '(a, c, f) =>
    py_if (rem0 f c) (
      py_for (do_range 0 (f - 1) c) (fun e =>
        let gamma21 := 2 * e + e * e // c in
        py_if (rem0 gamma21 f) (
          py_for (do_range 0 (f - 1) c) (fun d =>
            let gamma11 := 2 * d + d * e // c in
            py_if (rem0 gamma11 f) (
              py_for (do_range 0 (c - 1) 1) (fun b => [HNF a b c d e f]))))))).

(** ** basecm_29_30, lines 4164-4197 (the same text as basecm_28) *)
Definition f_basecm_29_30 (n : Z) : list mat3 :=
  py_for (f_diagonals n) (fun '(a, c, f) =>
    py_if (rem0 f c) (
      py_for (do_range 0 (f - 1) c) (fun e =>
        let gamma21 := 2 * e + e * e // c in
        py_if (rem0 gamma21 f) (
          py_for (do_range 0 (f - 1) c) (fun d =>
            let gamma11 := 2 * d + d * e // c in
            py_if (rem0 gamma11 f) (
              py_for (do_range 0 (c - 1) 1) (fun b => [HNF a b c d e f]))))))).

(** ** basecm_43, lines 4314-4348 *)
Definition f_basecm_43 (n : Z) : list mat3 :=
  py_for (f_diagonals n) (fun '(a, c, f) =>
    py_if (rem0 f c) (
      py_for (do_range 0 (f - 1) c) (fun e =>
        let gamma22 := 2 * e - e * e // c in
        py_if (rem0 gamma22 f) (
          py_for (do_range 0 (f - 1) 1) (fun d =>
            let beta12 := a + d in
            let gamma12 := 2 * a + 2 * d - beta12 * e // c in
            py_if (rem0 beta12 c && rem0 gamma12 f) (
              py_for (do_range 0 (c - 1) 1) (fun b => [HNF a b c d e f]))))))).

(** ** tric_31_44, lines 4465-4490

    Inner list of the loop; [None] is the [stop] of line 4490. *)
Definition f_tric_loop (mult n : Z) : list mat3 :=
  py_for (f_diagonals n) (fun '(a, c, f) =>
    py_for (do_range 0 (c - 1) 1) (fun j =>
      py_for (do_range 0 (f - 1) 1) (fun k =>
        py_for (do_range 0 (f - 1) 1) (fun l => [mscale mult (HNF a j c k l f)])))).

Definition f_tric_31_44 (mult n : Z) : option (list mat3) :=
  let nhnfs := f_total_hnfs n in
  let l := f_tric_loop mult n in
  if Z.of_nat (length l) =? nhnfs then Some l else None.
