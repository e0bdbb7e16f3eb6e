(** Model of support/python_dev/opf_python/base_ortho.py.
    [HNF a b c d e f] is the literal [[a,0,0],[b,c,0],[d,e,f]]. *)
From Coq Require Import ZArith List Bool.
From Verif Require Import Mat3 Spec PyNum Model_diag.
Import ListNotations.
Open Scope Z_scope.

(** base_ortho.py 1-50; the [while] loop over [b] (34-48) is [py_range 0 c a]. *)
Definition base_ortho_38_13 (n : Z) : list mat3 :=
  py_for (get_HNF_diagonals n) (fun '(a, c, f) =>
    py_if (mod0 c a) (
    let ed_vals := halves f in
    py_for (py_range 0 c a) (fun b =>
    let beta13 := (fz (- a) + fz (b * b) / a)%frac in
    py_if (fmod0 beta13 c) (
    py_for ed_vals (fun e =>
    py_for ed_vals (fun d =>
    let g13 := (fz (- d) + fz (b * d) / a - e * beta13 / c)%frac in
    let g23 := (fz (c * d) / a - e - fz (b * e) / a)%frac in
    py_if (fmod0 g13 f && fmod0 g23 f)
      [HNF a b c d e f])))))).

(** base_ortho.py 52-99 *)
Definition base_ortho_23 (n : Z) : list mat3 :=
  py_for (get_HNF_diagonals n) (fun '(a, c, f) =>
    py_if (mod0 f a) (
    let bs := halves c in
    let es := halves f in
    py_for bs (fun b =>
    py_if (mod0 (b * f) (a * c)) (
    py_for es (fun e =>
    py_if (mod0 (b * e) (a * c) && mod0 (2 * b * e) (c * f) && mod0 e a) (
    py_for (py_range 0 f a) (fun d =>
    let b13 := (fz (- b) + fz (b * d) / a)%frac in
    let g13 := (fz (- a) + fz (d * d) / a - b13 * e / c)%frac in
    let g23 := (fz e + fz (d * e) / a - fz (b * e * e) / fz (a * c))%frac in
    py_if (fmod0 b13 c && fmod0 g13 f && fmod0 g23 f)
      [HNF a b c d e f]))))))).

(** base_ortho.py 101-140 *)
Definition base_ortho_40 (n : Z) : list mat3 :=
  py_for (get_HNF_diagonals n) (fun '(a, c, f) =>
    py_if (mod0 f c) (
    py_for (py_range 0 f c) (fun e =>
    let g22 := (fz (2 * e) - fz (e * e) / c)%frac in
    py_if (fmod0 g22 f) (
    py_for (py_range 0 f c) (fun d =>
    let g12 := (fz (2 * d) - fz (d * e) / c)%frac in
    py_if (fmod0 g12 f) (
    py_for (py_range 0 c 1) (fun b =>
    let b13 := 2 * b - d in
    let g13 := (fz (b13 * e) / c)%frac in
    py_if (mod0 b13 c && fmod0 g13 f)
      [HNF a b c d e f]))))))).

(** base_ortho.py 142-191 *)
Definition base_ortho_36 (n : Z) : list mat3 :=
  py_for (get_HNF_diagonals n) (fun '(a, c, f) =>
    py_if (mod0 f a) (
    let es := halves f in
    let bs := halves c in
    py_for bs (fun b =>
    let b32 := (fz (- b * f) / a)%frac in
    py_if (fmod0 b32 c) (
    py_for es (fun e =>
    let b22 := (fz (- b * e) / a)%frac in
    let g13 := (fz (- 2 * b * e) / c)%frac in
    py_if (fmod0 b22 c && fmod0 g13 f && mod0 e a) (
    py_for (py_range 0 f a) (fun d =>
    let b12 := (fz (- b * d) / a)%frac in
    let g12 := (fz (2 * d) - fz (d * d) / a - b12 * e / c)%frac in
    let g22 := (fz (2 * e) - fz (d * e) / a - b22 * e / c)%frac in
    py_if (fmod0 b12 c && fmod0 g12 f && fmod0 g22 f)
      [HNF a b c d e f]))))))).
