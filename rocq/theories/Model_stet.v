(** Model of support/python_dev/opf_python/stet.py.
    [HNF a b c d e f] is the literal [[a,0,0],[b,c,0],[d,e,f]]. *)
From Coq Require Import ZArith List Bool.
From Verif Require Import Mat3 Spec PyNum Model_diag.
Import ListNotations.
Open Scope Z_scope.

(** stet.py 1-50 *)
Definition stet_11 (n : Z) : list mat3 :=
  py_for (get_HNF_diagonals n) (fun '(a, c, f) =>
    py_if (mod0 c a) (
    let bs := halves c in
    let es := halves f in
    py_for bs (fun b =>
    py_if (mod0 b a) (
    let beta13 := (fz (- a) + fz (b * b) / a)%frac in
    py_if (fmod0 beta13 c) (
    py_for es (fun e =>
    let g12 := (fz (2 * b * e) / c)%frac in
    py_if (fmod0 g12 f) (
    py_for (py_range 0 f 1) (fun d =>
    let g13 := (fz (- e) * beta13 / c + d * (fz b / a - 1))%frac in
    let g23 := (fz (- e) * (fz b / a + 1) + fz (d * c) / a)%frac in
    py_if (fmod0 g13 f && fmod0 g23 f)
      [HNF a b c d e f])))))))).

(** stet.py 52-97 *)
Definition stet_21 (n : Z) : list mat3 :=
  py_for (get_HNF_diagonals n) (fun '(a, c, f) =>
    py_if (mod0 f c) (
    let bs := halves c in
    py_for bs (fun b =>
    let es := halves f in
    py_for es (fun d =>
    let b13 := b - d in
    py_if (mod0 b13 c) (
    py_for es (fun e =>
    let g12 := (fz (2 * d) - fz (2 * d * e) / c)%frac in
    let g13 := (fz (- b + d) - fz (b13 * e) / c)%frac in
    let g23 := (fz (- c) + fz (e * e) / c)%frac in
    py_if (fmod0 g12 f && fmod0 g13 f && fmod0 g23 f)
      [HNF a b c d e f])))))).
