(** Model of support/python_dev/opf_python/hx.py.
    [HNF a b c d e f] is the literal [[a,0,0],[b,c,0],[d,e,f]]. *)
From Coq Require Import ZArith List Bool.
From Verif Require Import Mat3 Spec PyNum Model_diag.
Import ListNotations.
Open Scope Z_scope.

(** hx.py 1-50; the loop [b=0; while b<c: ...; b += a] (25-48) is
    [py_range 0 c a]. *)
Definition hex_12 (n : Z) : list mat3 :=
  py_for (get_HNF_diagonals n) (fun '(a, c, f) =>
    py_if (mod0 c a) (
    py_for (py_range 0 c a) (fun b =>
    let beta13 := a + 2 * b in
    let beta11 := (fz (2 * b) + fz (b * b) / a)%frac in
    py_if (mod0 beta13 c && fmod0 beta11 c) (
    let es := halves f in
    py_for es (fun e =>
    let gamma13 := (fz ((a + 2 * b) * e) / c)%frac in
    py_if (fmod0 gamma13 f) (
    py_for (py_range 0 f 1) (fun d =>
    let gamma11 := (fz (b * d) / a - e * beta11 / c)%frac in
    let gamma12 := (fz (2 * d) + fz (b * d) / a - e * beta11 / c)%frac in
    let gamma21 := (fz (c * d) / a - fz (2 * e) - fz (b * e) / a)%frac in
    let gamma22 := (fz (c * d - b * e) / a)%frac in
    py_if (fmod0 gamma11 f && fmod0 gamma12 f && fmod0 gamma21 f && fmod0 gamma22 f)
      [HNF a b c d e f]))))))).

(** hx.py 52-87 *)
Definition hex_22 (n : Z) : list mat3 :=
  py_for (get_HNF_diagonals n) (fun '(a, c, f) =>
    py_if (mod0 f c) (
    py_for (py_range 0 f c) (fun e =>
    let g21 := - c + 2 * e in
    let g22 := (fz (- c + e) - fz (e * e) / c)%frac in
    py_if (mod0 g21 f && fmod0 g22 f && mod0 e c) (
    py_for (py_range 0 c 1) (fun b =>
    py_for (py_range 0 f c) (fun d =>
    let g11 := - b + 2 * d in
    let g12 := (fz (- b + d) - fz (d * e) / c)%frac in
    py_if (mod0 g11 f && fmod0 g12 f)
      [HNF a b c d e f])))))).
