(** Model of support/python_dev/opf_python/body_ortho.py.
    [HNF a b c d e f] is the literal [[a,0,0],[b,c,0],[d,e,f]]. *)
From Coq Require Import ZArith List Bool.
From Verif Require Import Mat3 Spec PyNum Model_diag.
Import ListNotations.
Open Scope Z_scope.

(** body_ortho.py 1-52; the list [bs] (27-30) is computed but not used. *)
Definition body_ortho_19 (n : Z) : list mat3 :=
  py_for (get_HNF_diagonals n) (fun '(a, c, f) =>
    let es := halves f in
    py_for (py_range 0 c 1) (fun b =>
    let beta13 := a + 2 * b in
    py_if (mod0 beta13 c) (
    py_for es (fun e =>
    let gamma13 := (fz (e * beta13) / c)%frac in
    py_if (fmod0 gamma13 f) (
    py_for (py_range 0 f 1) (fun d =>
    let gamma12 := a + 2 * d in
    py_if (mod0 gamma12 f)
      [HNF a b c d e f])))))).

(** body_ortho.py 54-98; [c//2.] is exact because [c] is even. *)
Definition body_ortho_8 (n : Z) : list mat3 :=
  py_for (get_HNF_diagonals n) (fun '(a, c, f) =>
    py_if (mod0 (2 * f) c) (
    let bs := halves c in
    py_for bs (fun b =>
    py_for (py_range 0 f 1) (fun e =>
    let b21 := 2 * e in
    let g21 := (fz (- b21) + fz (b21 * e) / c)%frac in
    py_if (mod0 b21 c && fmod0 g21 f) (
    py_for (py_range 0 f 1) (fun d =>
    let b11 := - a + 2 * b - 2 * d in
    let g11 := (fz (- b11 * e) / c)%frac in
    let g13 := (fz (a + 2 * d) - fz (b21 * b) / c)%frac in
    py_if (mod0 b11 c && fmod0 g11 f && fmod0 g13 f)
      [HNF a b c d e f])))))).

(** body_ortho.py 100-142 *)
Definition body_ortho_42 (n : Z) : list mat3 :=
  py_for (get_HNF_diagonals n) (fun '(a, c, f) =>
    let es := halves f in
    py_for es (fun e =>
    py_for (py_range 0 c 1) (fun b =>
    let b11 := - a + 2 * b in
    let g12 := (fz (- b11 * e) / c)%frac in
    py_if (mod0 b11 c && fmod0 g12 f) (
    py_for (py_range 0 f 1) (fun d =>
    let g11 := (fz (- a + 2 * d) - fz (b11 * e) / c)%frac in
    let g13 := - a + 2 * d in
    py_if (fmod0 g11 f && mod0 g13 f)
      [HNF a b c d e f]))))).
