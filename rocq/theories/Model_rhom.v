(** Model of support/python_dev/opf_python/rhom.py.
    [HNF a b c d e f] is the literal [[a,0,0],[b,c,0],[d,e,f]]. *)
From Coq Require Import ZArith List Bool.
From Verif Require Import Mat3 Spec PyNum Model_diag.
Import ListNotations.
Open Scope Z_scope.

(** rhom.py 1-58; the two [while] loops (38-57) are [py_range 0 f a]. *)
Definition rhom_9_24 (n : Z) : list mat3 :=
  py_for (get_HNF_diagonals n) (fun '(a, c, f) =>
    py_if (mod0 f a) (
    let bs := halves c in
    py_for bs (fun b =>
    let beta13 := (fz f + fz (b * f) / a)%frac in
    py_if (fmod0 beta13 c) (
    py_for (py_range 0 f a) (fun e =>
    let beta22 := (fz e + fz (b * e) / a)%frac in
    let g21 := c + 2 * e in
    let g11 := (fz b + fz (2 * b * e) / c)%frac in
    py_if (fmod0 beta22 c && mod0 g21 f && fmod0 g11 f) (
    py_for (py_range 0 f a) (fun d =>
    let beta12 := (fz (- a + b + d) + fz (d * b) / a)%frac in
    let g12 := (fz (- b - d) + fz (d * d) / a - e * beta12 / c)%frac in
    let g22 := (fz (- c - 2 * e) + fz (d * e) / a - e * beta22 / c)%frac in
    py_if (fmod0 beta12 c && fmod0 g12 f && fmod0 g22 f)
      [HNF a b c d e f]))))))).

(** rhom.py 60-110 *)
Definition rhom_4_2 (n : Z) : list mat3 :=
  py_for (get_HNF_diagonals n) (fun '(a, c, f) =>
    py_if (mod0 f a) (
    let bs := halves c in
    py_for bs (fun b =>
    let beta32 := (fz (- f) + fz (b * f) / a)%frac in
    py_if (fmod0 beta32 c) (
    py_for (py_range 0 f 1) (fun e =>
    let beta22 := (fz (- e) + fz (b * e) / a)%frac in
    let gamma11 := (fz b - fz (2 * b * e) / c)%frac in
    let gamma21 := c - 2 * e in
    py_if (mod0 e a && fmod0 beta22 c && fmod0 gamma11 f && mod0 gamma21 f) (
    py_for (py_range 0 f 1) (fun d =>
    let beta12 := (fz (- a + b - d) + fz (b * d) / a)%frac in
    let gamma12 := (fz (- a) + fz (d * d) / a - e * beta12 / c)%frac in
    let gamma22 := (fz (- e) + fz (d * e) / a - e * beta22 / c)%frac in
    py_if (mod0 d a && fmod0 beta12 c && fmod0 gamma12 f && fmod0 gamma22 f)
      [HNF a b c d e f]))))))).
