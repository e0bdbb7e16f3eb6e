(** Model of support/python_dev/opf_python/face_ortho.py.
    [HNF a b c d e f] is the literal [[a,0,0],[b,c,0],[d,e,f]]. *)
From Coq Require Import ZArith List Bool.
From Verif Require Import Mat3 Spec PyNum Model_diag.
Import ListNotations.
Open Scope Z_scope.

(** face_ortho.py 1-42 *)
Definition face_ortho_26 (n : Z) : list mat3 :=
  py_for (get_HNF_diagonals n) (fun '(a, c, f) =>
    let bs := halves c in
    py_for bs (fun b =>
    py_for (py_range 0 f 1) (fun e =>
    let gamma23 := c + 2 * e in
    let gamma12 := (fz b + fz (2 * b * e) / c)%frac in
    py_if (mod0 gamma23 f && fmod0 gamma12 f) (
    py_for (py_range 0 f 1) (fun d =>
    let gamma13 := a + b + 2 * d in
    py_if (mod0 gamma13 f)
      [HNF a b c d e f]))))).

(** face_ortho.py 44-84; lines 67-70 list [c/2] before [0]. *)
Definition face_ortho_16 (n : Z) : list mat3 :=
  py_for (get_HNF_diagonals n) (fun '(a, c, f) =>
    let bs := if c mod 2 =? 0 then [c / 2; 0] else [0] in
    py_for bs (fun b =>
    py_for (py_range 0 f 1) (fun e =>
    let g11 := (fz (- b) - fz (2 * b * e) / c)%frac in
    let g21 := c + 2 * e in
    py_if (fmod0 g11 f && mod0 g21 f) (
    py_for (py_range 0 f 1) (fun d =>
    let g12 := (fz (a + 2 * d) - fz (2 * b * e) / c)%frac in
    py_if (fmod0 g12 f)
      [HNF a b c d e f]))))).
