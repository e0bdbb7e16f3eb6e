(** Model of src/sp_hnfs.f90 with the machine's integers.

    The subroutines of Model_sp_hnfs once more: [w] is applied to the result of every sum,
    difference and product of two default integers ([integer], 32 bits; a quotient cannot
    overflow).  [w] is the identity on numbers that fit; what it makes of others depends on the
    compiler.  The variables [beta..] and [gamma..] are [integer(li)] (64 bits), and an operation with
    one of them is done in that type; those are not wrapped.  The bounds of the loops are not wrapped
    (they are at most the determinant), nor is the number of HNFs found so far.  An overflow of
    64 bits is not modelled. *)
From Coq Require Import ZArith List Bool.
From Verif Require Import Mat3 Spec PyNum Model_universal Model_sp_hnfs.
Import ListNotations.
Open Scope Z_scope.
Local Notation "x '//' y" := (Z.quot x y) (at level 40, left associativity).

Section machine.
Context (w : Z -> Z).

(** [total_hnfs], for example lines 483-485: the product is done in default integers, the sum in
    64 bits. *)
Definition m_total_hnfs (n : Z) : Z :=
  fold_left (fun t '(_, c, f) => t + w (c * w (f ^ 2))) (f_diagonals n) 0.

(** hex_12, lines 493-555 *)
Definition m_hex_12 (n : Z) : list mat3 :=
  py_for (f_diagonals n) (fun '(a, c, f) =>
    py_if (rem0 c a) (
      py_for (do_while c a) (fun b =>
        py_if (rem0 (w (b * b)) a) (
          let beta13 := w (a + w (2 * b)) in
          let beta11 := w (w (2 * b) + (w (b * b) // a)) in
          py_if (rem0 beta13 c && rem0 beta11 c) (
            py_for (f_halves f) (fun e =>
              let gamma13 := w (w (a + w (2 * b)) * e) in
              py_if (rem0 gamma13 c) (
                let gamma13 := gamma13 // c in
                py_if (rem0 gamma13 f) (
                  py_for (do_range 0 (f - 1) 1) (fun d =>
                    py_if (rem0 (w (b * d)) a && rem0 (e * beta11) c && rem0 (w (b * e)) a &&
                           rem0 (w (c * d)) a && rem0 (w (w (c * d) - w (b * e))) a) (
                      let gamma11 := (w (b * d) // a) - ((e * beta11) // c) in
                      let gamma12 := w (w (2 * d) + (w (b * d) // a)) - ((e * beta11) // c) in
                      let gamma21 := w (w ((w (c * d) // a) - w (2 * e)) - (w (b * e) // a)) in
                      let gamma22 := w (w (c * d) - w (b * e)) // a in
                      py_if (rem0 gamma11 f && rem0 gamma12 f && rem0 gamma21 f &&
                             rem0 gamma22 f)
                        [HNF a b c d e f])))))))))).

(** hex_22, lines 670-710 *)
Definition m_hex_22 (n : Z) : list mat3 :=
  py_for (f_diagonals n) (fun '(a, c, f) =>
    py_if (rem0 f c) (
      py_for (do_range 0 (f - 1) c) (fun e =>
        py_if (rem0 (w (e * e)) c) (
          let gamma21 := w ((- c) + w (e * 2)) in
          let gamma22 := w (w ((- c) + e) - (w (e * e) // c)) in
          py_if (rem0 gamma21 f && rem0 gamma22 f) (
            py_for (do_range 0 (c - 1) 1) (fun b =>
              py_for (do_range 0 (f - 1) c) (fun d =>
                py_if (rem0 (w (d * e)) c) (
                  let gamma11 := w ((- b) + w (d * 2)) in
                  let gamma12 := w (w ((- b) + d) - (w (d * e) // c)) in
                  py_if (rem0 gamma11 f && rem0 gamma12 f) [HNF a b c d e f])))))))).

(** rhom_9_24, lines 828-885 *)
Definition m_rhom_9_24 (n : Z) : list mat3 :=
  py_for (f_diagonals n) (fun '(a, c, f) =>
    py_if (rem0 f a) (
      py_for (f_halves c) (fun b =>
        let beta13 := w (f + (w (b * f) // a)) in
        py_if (rem0 beta13 c) (
          py_for (do_while f a) (fun e =>
            let beta22 := w (e + (w (b * e) // a)) in
            let gamma21 := w (c + w (2 * e)) in
            let gamma11 := w (b + (w (w (2 * b) * e) // c)) in
            py_if (rem0 beta22 c && rem0 gamma21 f && rem0 gamma11 f) (
              py_for (do_while f a) (fun d =>
                let beta12 := w (w (w ((- a) + b) + d) + (w (d * b) // a)) in
                py_if (rem0 beta12 c) (
                  let gamma12 := w (w ((- b) - d) + (w (d * d) // a)) - ((e * beta12) // c) in
                  let gamma22 := w (w ((- c) - w (2 * e)) + (w (d * e) // a)) - ((e * beta22) // c) in
                  py_if (rem0 gamma12 f && rem0 gamma22 f) [HNF a b c d e f])))))))).

(** rhom_4_2, lines 1005-1067 *)
Definition m_rhom_4_2 (n : Z) : list mat3 :=
  py_for (f_diagonals n) (fun '(a, c, f) =>
    py_if (rem0 f a) (
      py_for (f_halves c) (fun b =>
        py_if (rem0 (w (b * f)) a) (
          let beta32 := w ((- f) + (w (b * f) // a)) in
          py_if (rem0 beta32 c) (
            py_for (do_range 0 (f - 1) 1) (fun e =>
              py_if (rem0 (w (b * e)) a && rem0 (w (w (2 * b) * e)) c) (
                let beta22 := w ((- e) + (w (b * e) // a)) in
                let gamma11 := w (b - (w (w (2 * b) * e) // c)) in
                let gamma21 := w (c - w (2 * e)) in
                py_if (rem0 e a && rem0 beta22 c && rem0 gamma11 f && rem0 gamma21 f) (
                  py_for (do_range 0 (f - 1) 1) (fun d =>
                    py_if (rem0 (w (b * d)) a) (
                      let beta12 := w (w (w ((- a) + b) - d) + (w (b * d) // a)) in
                      py_if (rem0 (e * beta12) c && rem0 (w (d * d)) a && rem0 (w (d * e)) a) (
                        let gamma12 := w ((- a) + (w (d * d) // a)) - ((e * beta12) // c) in
                        let gamma22 := w ((- e) + (w (d * e) // a)) - ((e * beta22) // c) in
                        py_if (rem0 d a && rem0 beta12 c && rem0 gamma12 f && rem0 gamma22 f)
                          [HNF a b c d e f]))))))))))).

(** st_11, lines 1184-1246 *)
Definition m_st_11 (n : Z) : list mat3 :=
  py_for (f_diagonals n) (fun '(a, c, f) =>
    py_if (rem0 c a) (
      py_for (f_halves c) (fun b =>
        py_if (rem0 (w (b * b)) a) (
          let beta13 := w ((- a) + (w (b * b) // a)) in
          py_if (rem0 beta13 c) (
            py_for (f_halves f) (fun e =>
              py_if (rem0 (w (w (2 * b) * e)) c) (
                let gamma12 := w (w (2 * b) * e) // c in
                py_if (rem0 gamma12 f) (
                  py_for (do_range 0 (f - 1) 1) (fun d =>
                    py_if (rem0 (w (d * b)) a && rem0 (w (d * c)) a && rem0 (w (e * b)) a) (
                      let gamma13 := (- ((e * beta13) // c)) + w (d * w ((b // a) - 1)) in
                      let gamma23 := w ((- (w (e * w ((b // a) + 1)))) + (w (d * c) // a)) in
                      py_if (rem0 gamma13 f && rem0 gamma23 f) [HNF a b c d e f])))))))))).

(** st_21, lines 1363-1419 *)
Definition m_st_21 (n : Z) : list mat3 :=
  py_for (f_diagonals n) (fun '(a, c, f) =>
    py_if (rem0 f c) (
      py_for (f_halves c) (fun b =>
        py_for (f_halves f) (fun d =>
          let beta13 := w (b - d) in
          py_if (rem0 beta13 c) (
            py_for (f_halves f) (fun e =>
              py_if (rem0 (w (w (2 * d) * e)) c && rem0 (w (e * e)) c) (
                let gamma12 := w (w (2 * d) - (w (w (2 * d) * e) // c)) in
                let gamma13 := w ((- b) + d) - ((e * beta13) // c) in
                let gamma23 := w ((- c) + (w (e * e) // c)) in
                py_if (rem0 gamma12 f && rem0 gamma13 f && rem0 gamma23 f)
                  [HNF a b c d e f]))))))).

(** bct_6_7_15_18, lines 1541-1590 *)
Definition m_bct_6_7_15_18 (n : Z) : list mat3 :=
  py_for (f_diagonals n) (fun '(a, c, f) =>
    py_if (rem0 f c) (
      py_for (f_halves f) (fun e =>
        py_if (rem0 e c) (
          let gamma21 := w ((- c) + (w (e * e) // c)) in
          py_if (rem0 gamma21 f) (
            py_for (do_range 0 (f - 1) 1) (fun d =>
              let gamma13 := w (a + w (2 * d)) in
              py_if (rem0 gamma13 f) (
                py_for (do_range 0 (c - 1) 1) (fun b =>
                  let beta12 := w (b - d) in
                  py_if (rem0 beta12 c) (
                    let gamma12 := w ((- b) + d) - ((e * beta12) // c) in
                    py_if (rem0 gamma12 f) [HNF a b c d e f]))))))))).

(** so_32, lines 1706-1753 *)
Definition m_so_32 (n : Z) : list mat3 :=
  py_for (f_diagonals n) (fun '(a, c, f) =>
    py_for (f_halves c) (fun b =>
      py_for (f_halves f) (fun e =>
        py_if (rem0 (w (w (2 * b) * e)) (w (f * c))) (
          py_for (f_halves f) (fun d => [HNF a b c d e f]))))).

(** fco_26, lines 1870-1913 *)
Definition m_fco_26 (n : Z) : list mat3 :=
  py_for (f_diagonals n) (fun '(a, c, f) =>
    py_for (f_halves c) (fun b =>
      py_for (do_range 0 (f - 1) 1) (fun e =>
        py_if (rem0 (w (w (2 * b) * e)) c) (
          let gamma23 := w (c + w (2 * e)) in
          let gamma12 := w (b + (w (w (2 * b) * e) // c)) in
          py_if (rem0 gamma23 f && rem0 gamma12 f) (
            py_for (do_range 0 (f - 1) 1) (fun d =>
              let gamma13 := w (w (a + b) + w (2 * d)) in
              py_if (rem0 gamma13 f) [HNF a b c d e f])))))).

(** fco_16, lines 2031-2073 *)
Definition m_fco_16 (n : Z) : list mat3 :=
  py_for (f_diagonals n) (fun '(a, c, f) =>
    py_for (f_halves_rev c) (fun b =>
      py_for (do_range 0 (f - 1) 1) (fun e =>
        py_if (rem0 (w (w (2 * b) * e)) c) (
          let gamma11 := w ((- b) - (w (w (2 * b) * e) // c)) in
          let gamma21 := w (c + w (2 * e)) in
          py_if (rem0 gamma11 f && rem0 gamma21 f) (
            py_for (do_range 0 (f - 1) 1) (fun d =>
              let gamma12 := w (w (a + w (2 * d)) - (w (w (2 * b) * e) // c)) in
              py_if (rem0 gamma12 f) [HNF a b c d e f])))))).

(** bco_19, lines 2190-2235 *)
Definition m_bco_19 (n : Z) : list mat3 :=
  py_for (f_diagonals n) (fun '(a, c, f) =>
    py_for (do_range 0 (c - 1) 1) (fun b =>
      let beta13 := w (a + w (2 * b)) in
      py_if (rem0 beta13 c) (
        py_for (f_halves f) (fun e =>
          py_if (rem0 (e * beta13) c) (
            let gamma13 := (e * beta13) // c in
            py_if (rem0 gamma13 f) (
              py_for (do_range 0 (f - 1) 1) (fun d =>
                let gamma12 := w (a + w (2 * d)) in
                py_if (rem0 gamma12 f) [HNF a b c d e f]))))))).

(** bco_8, lines 2353-2403 *)
Definition m_bco_8 (n : Z) : list mat3 :=
  py_for (f_diagonals n) (fun '(a, c, f) =>
    py_if (rem0 (w (2 * f)) c) (
      py_for (f_halves c) (fun b =>
        py_for (do_range 0 (f - 1) 1) (fun e =>
          let beta21 := w (2 * e) in
          py_if (rem0 (beta21 * e) c) (
            let gamma21 := (- beta21) + ((beta21 * e) // c) in
            py_if (rem0 beta21 c && rem0 gamma21 f) (
              py_for (do_range 0 (f - 1) 1) (fun d =>
                let beta11 := w (w ((- a) + w (2 * b)) - w (2 * d)) in
                py_if (rem0 beta11 c) (
                  let gamma11 := - ((beta11 * e) // c) in
                  let gamma13 := w (a + w (2 * d)) - ((b * beta21) // c) in
                  py_if (rem0 gamma11 f && rem0 gamma13 f) [HNF a b c d e f])))))))).

(** bco_42, lines 2521-2566 *)
Definition m_bco_42 (n : Z) : list mat3 :=
  py_for (f_diagonals n) (fun '(a, c, f) =>
    py_for (f_halves f) (fun e =>
      py_for (do_range 0 (c - 1) 1) (fun b =>
        let beta11 := w ((- a) + w (2 * b)) in
        py_if (rem0 (beta11 * e) c) (
          let gamma12 := - ((beta11 * e) // c) in
          py_if (rem0 beta11 c && rem0 gamma12 f) (
            py_for (do_range 0 (f - 1) 1) (fun d =>
              let gamma11 := w ((- a) + w (2 * d)) - ((e * beta11) // c) in
              let gamma13 := w ((- a) + w (2 * d)) in
              py_if (rem0 gamma11 f && rem0 gamma13 f) [HNF a b c d e f])))))).

(** baseco_38_13, lines 2686-2739 *)
Definition m_baseco_38_13 (n : Z) : list mat3 :=
  py_for (f_diagonals n) (fun '(a, c, f) =>
    py_if (rem0 c a) (
      py_for (do_while c a) (fun b =>
        py_if (rem0 (w (b * b)) a) (
          let beta13 := w ((- a) + (w (b * b) // a)) in
          py_if (rem0 beta13 c) (
            py_for (f_halves f) (fun e =>
              py_for (f_halves f) (fun d =>
                py_if (rem0 (w (b * d)) a) (
                  let gamma13 := w ((- d) + (w (b * d) // a)) - ((e * beta13) // c) in
                  let gamma23 := w (w ((w (c * d) // a) - e) - (w (b * e) // a)) in
                  py_if (rem0 gamma13 f && rem0 gamma23 f) [HNF a b c d e f])))))))).

(** baseco_23, lines 2857-2916 *)
Definition m_baseco_23 (n : Z) : list mat3 :=
  py_for (f_diagonals n) (fun '(a, c, f) =>
    py_if (rem0 f a) (
      py_for (f_halves c) (fun b =>
        py_if (rem0 (w (b * f)) (w (a * c))) (
          py_for (f_halves f) (fun e =>
            py_if (rem0 (w (b * e)) (w (a * c)) && rem0 (w (w (2 * b) * e)) (w (c * f)) && rem0 e a) (
              py_for (do_range 0 (f - 1) a) (fun d =>
                py_if (rem0 (w (b * d)) a) (
                  let beta13 := w ((- b) + (w (b * d) // a)) in
                  py_if (rem0 (beta13 * e) c && rem0 (w (d * d)) a) (
                    let gamma13 := w ((- a) + (w (d * d) // a)) - ((beta13 * e) // c) in
                    let gamma23 := w (w (e + (w (d * e) // a)) - (w (w (b * e) * e) // w (a * c))) in
                    py_if (rem0 beta13 c && rem0 gamma13 f && rem0 gamma23 f)
                      [HNF a b c d e f]))))))))).

(** baseco_40, lines 3033-3071 *)
Definition m_baseco_40 (n : Z) : list mat3 :=
  py_for (f_diagonals n) (fun '(a, c, f) =>
    py_if (rem0 f c) (
      py_for (do_range 0 (f - 1) c) (fun e =>
        let gamma22 := w (w (2 * e) - (w (e * e) // c)) in
        py_if (rem0 gamma22 f) (
          py_for (do_range 0 (f - 1) c) (fun d =>
            let gamma12 := w (w (2 * d) - (w (d * e) // c)) in
            py_if (rem0 gamma12 f) (
              py_for (do_range 0 (c - 1) 1) (fun b =>
                let beta13 := w (w (2 * b) - d) in
                let gamma13 := (beta13 * e) // c in
                py_if (rem0 beta13 c && rem0 gamma13 f) [HNF a b c d e f]))))))).

(** baseco_36, lines 3188-3255 *)
Definition m_baseco_36 (n : Z) : list mat3 :=
  py_for (f_diagonals n) (fun '(a, c, f) =>
    py_if (rem0 f a) (
      py_for (f_halves c) (fun b =>
        let beta32 := - (w (b * f) // a) in
        py_if (rem0 beta32 c) (
          py_for (f_halves f) (fun e =>
            py_if (rem0 e a && rem0 (w (b * e)) c) (
              let beta22 := - (w (b * e) // a) in
              let gamma13 := - (w (w (2 * b) * e) // c) in
              py_if (rem0 beta22 c && rem0 gamma13 f) (
                py_for (do_range 0 (f - 1) 1) (fun d =>
                  py_if (rem0 (w (b * d)) a && rem0 (w (d * d)) a) (
                    let beta12 := - (w (b * d) // a) in
                    py_if (rem0 (beta12 * e) c) (
                      let gamma12 := w (w (2 * d) - (w (d * d) // a)) - ((beta12 * e) // c) in
                      let gamma22 := w (w (2 * e) - (w (d * e) // a)) - ((beta22 * e) // c) in
                      py_if (rem0 beta12 c && rem0 gamma12 f && rem0 gamma22 f)
                        [HNF a b c d e f])))))))))).

(** sm_33, lines 3372-3419 *)
Definition m_sm_33 (n : Z) : list mat3 :=
  py_for (f_diagonals n) (fun '(a, c, f) =>
    py_for (f_halves c) (fun b =>
      py_for (f_halves f) (fun e =>
        py_if (rem0 (w (w (2 * b) * e)) c) (
          let gamma12 := w (w (2 * b) * e) // c in
          py_if (rem0 gamma12 f) (
            py_for (do_range 0 (f - 1) 1) (fun d => [HNF a b c d e f])))))).

(** sm_34_35, lines 3537-3574 *)
Definition m_sm_34_35 (n : Z) : list mat3 :=
  py_for (f_diagonals n) (fun '(a, c, f) =>
    py_for (f_halves f) (fun d =>
      py_for (f_halves f) (fun e =>
        py_for (do_range 0 (c - 1) 1) (fun b => [HNF a b c d e f])))).

(** basecm_10_14_17_27_37_39_41, lines 3697-3733 *)
Definition m_basecm_10_14_17_27_37_39_41 (n : Z) : list mat3 :=
  py_for (f_diagonals n) (fun '(a, c, f) =>
    py_for (f_halves f) (fun e =>
      py_for (do_range 0 (f - 1) 1) (fun d =>
        let gamma11 := w (w ((-1) * a) + w (2 * d)) in
        py_if (rem0 gamma11 f) (
          py_for (do_range 0 (c - 1) 1) (fun b => [HNF a b c d e f]))))).

(** basecm_20_25, lines 3853-3895 *)
Definition m_basecm_20_25 (n : Z) : list mat3 :=
  py_for (f_diagonals n) (fun '(a, c, f) =>
    py_for (do_range 0 (f - 1) 1) (fun e =>
      let gamma22 := w ((- c) - w (2 * e)) in
      py_if (rem0 gamma22 f) (
        py_for (f_halves c) (fun b =>
          py_if (rem0 (w (w (2 * b) * e)) c) (
            let gamma12 := w ((- b) - (w (w (2 * b) * e) // c)) in
            py_if (rem0 gamma12 f) (
              py_for (do_range 0 (f - 1) 1) (fun d => [HNF a b c d e f]))))))).

(** basecm_28, lines 4012-4045 *)
Definition m_basecm_28 (n : Z) : list mat3 :=
  py_for (f_diagonals n) (fun '(a, c, f) =>
    py_if (rem0 f c) (
      py_for (do_range 0 (f - 1) c) (fun e =>
        let gamma21 := w (w (2 * e) + (w (e * e) // c)) in
        py_if (rem0 gamma21 f) (
          py_for (do_range 0 (f - 1) c) (fun d =>
            let gamma11 := w (w (2 * d) + (w (d * e) // c)) in
            py_if (rem0 gamma11 f) (
              py_for (do_range 0 (c - 1) 1) (fun b => [HNF a b c d e f]))))))).

(** basecm_29_30, lines 4164-4197 *)
Definition m_basecm_29_30 (n : Z) : list mat3 :=
  py_for (f_diagonals n) (fun '(a, c, f) =>
    py_if (rem0 f c) (
      py_for (do_range 0 (f - 1) c) (fun e =>
        let gamma21 := w (w (2 * e) + (w (e * e) // c)) in
        py_if (rem0 gamma21 f) (
          py_for (do_range 0 (f - 1) c) (fun d =>
            let gamma11 := w (w (2 * d) + (w (d * e) // c)) in
            py_if (rem0 gamma11 f) (
              py_for (do_range 0 (c - 1) 1) (fun b => [HNF a b c d e f]))))))).

(** basecm_43, lines 4314-4348 *)
Definition m_basecm_43 (n : Z) : list mat3 :=
  py_for (f_diagonals n) (fun '(a, c, f) =>
    py_if (rem0 f c) (
      py_for (do_range 0 (f - 1) c) (fun e =>
        let gamma22 := w (w (2 * e) - (w (e * e) // c)) in
        py_if (rem0 gamma22 f) (
          py_for (do_range 0 (f - 1) 1) (fun d =>
            let beta12 := w (a + d) in
            let gamma12 := w (w (2 * a) + w (2 * d)) - ((beta12 * e) // c) in
            py_if (rem0 beta12 c && rem0 gamma12 f) (
              py_for (do_range 0 (c - 1) 1) (fun b => [HNF a b c d e f]))))))).

(** tric_31_44, lines 4449-4490: here the sum is a default integer as well. *)
Definition m_tric_total (n : Z) : Z :=
  fold_left (fun t '(_, c, f) => w (t + w (c * w (f ^ 2)))) (f_diagonals n) 0.
Definition m_tric_loop (mult n : Z) : list mat3 :=
  py_for (f_diagonals n) (fun '(a, c, f) =>
    py_for (do_range 0 (c - 1) 1) (fun j =>
      py_for (do_range 0 (f - 1) 1) (fun k =>
        py_for (do_range 0 (f - 1) 1) (fun l =>
          [HNF (w (mult * a)) (w (mult * j)) (w (mult * c)) (w (mult * k)) (w (mult * l))
               (w (mult * f))])))).
Definition m_tric_31_44 (mult n : Z) : option (list mat3) :=
  let nhnfs := m_tric_total n in
  let l := m_tric_loop mult n in
  if w (Z.of_nat (length l)) =? nhnfs then Some l else None.
(** bcc_5, lines 347-378; sc_3 and fcc_1 do no sums or products. *)
Fixpoint m_bcc_5_loop (l : list (Z * Z * Z)) : option mat3 :=
  match l with
  | [] => None
  | (a, c, f) :: r =>
      if (a =? c) && (a =? f) then Some (HNF a 0 c 0 0 f)
      else if (a =? c) && ((f // a =? 2) && rem0 f a) then Some (HNF a 0 c a a f)
      else if (a =? c) && ((f // a =? 4) && rem0 f a) then Some (HNF a 0 c (w (3 * a)) (w (3 * a)) f)
      else m_bcc_5_loop r
  end.
(** find_kgrids.f90, lines 349-361 *)
Definition m_cubic_loop (lat_id : Z) : list (Z * Z * Z) -> option mat3 :=
  if lat_id =? 3 then f_sc_3_loop else if lat_id =? 5 then m_bcc_5_loop else f_fcc_1_loop.
(** find_kgrids.f90, lines 404-500: the choice of the enumerator. *)
Definition m_enumerator (lat_id : Z) : option (Z -> list mat3) :=
  if z_in lat_id [2; 4] then Some m_rhom_4_2
  else if z_in lat_id [6; 7; 15; 18] then Some m_bct_6_7_15_18
  else if z_in lat_id [8] then Some m_bco_8
  else if z_in lat_id [9; 24] then Some m_rhom_9_24
  else if z_in lat_id [10; 14; 17; 27; 37; 39; 41] then Some m_basecm_10_14_17_27_37_39_41
  else if z_in lat_id [11] then Some m_st_11
  else if z_in lat_id [12] then Some m_hex_12
  else if z_in lat_id [13; 38] then Some m_baseco_38_13
  else if z_in lat_id [16] then Some m_fco_16
  else if z_in lat_id [19] then Some m_bco_19
  else if z_in lat_id [20; 25] then Some m_basecm_20_25
  else if z_in lat_id [21] then Some m_st_21
  else if z_in lat_id [22] then Some m_hex_22
  else if z_in lat_id [23] then Some m_baseco_23
  else if z_in lat_id [26] then Some m_fco_26
  else if z_in lat_id [28] then Some m_basecm_28
  else if z_in lat_id [29; 30] then Some m_basecm_29_30
  else if z_in lat_id [32] then Some m_so_32
  else if z_in lat_id [33] then Some m_sm_33
  else if z_in lat_id [34; 35] then Some m_sm_34_35
  else if z_in lat_id [36] then Some m_baseco_36
  else if z_in lat_id [40] then Some m_baseco_40
  else if z_in lat_id [42] then Some m_bco_42
  else if z_in lat_id [43] then Some m_basecm_43
  else None.
End machine.

(** What gfortran's code usually does: the lowest 32 bits, signed. *)
Definition wrap32 (x : Z) : Z := (x + 2 ^ 31) mod 2 ^ 32 - 2 ^ 31.
