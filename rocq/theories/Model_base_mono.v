(** Model of support/python_dev/opf_python/base_mono.py.
    [HNF a b c d e f] is the literal [[a,0,0],[b,c,0],[d,e,f]]. *)
From Coq Require Import ZArith List Bool.
From Verif Require Import Mat3 Spec PyNum Model_diag.
Import ListNotations.
Open Scope Z_scope.

(** base_mono.py 1-42 *)
Definition base_mono_20_25 (n : Z) : list mat3 :=
  py_for (get_HNF_diagonals n) (fun '(a, c, f) =>
    let bs := halves c in
    py_for (py_range 0 f 1) (fun e =>
    let g22 := - c - 2 * e in
    py_if (mod0 g22 f) (
    py_for bs (fun b =>
    let g12 := (fz (- b) - fz (2 * b * e) / c)%frac in
    py_if (fmod0 g12 f) (
    py_for (py_range 0 f 1) (fun d => [HNF a b c d e f])))))).

(** base_mono.py 44-80 *)
Definition base_mono_28 (n : Z) : list mat3 :=
  py_for (get_HNF_diagonals n) (fun '(a, c, f) =>
    py_if (mod0 f c) (
    py_for (py_range 0 f c) (fun e =>
    let g21 := (fz (2 * e) + fz (e * e) / c)%frac in
    py_if (fmod0 g21 f) (
    py_for (py_range 0 f c) (fun d =>
    let g11 := (fz (2 * d) + fz (d * e) / c)%frac in
    py_if (fmod0 g11 f) (
    py_for (py_range 0 c 1) (fun b => [HNF a b c d e f]))))))).

(** base_mono.py 82-119 *)
Definition base_mono_29_30 (n : Z) : list mat3 :=
  py_for (get_HNF_diagonals n) (fun '(a, c, f) =>
    py_if (mod0 f c) (
    py_for (py_range 0 f c) (fun e =>
    let g21 := (fz (2 * e) + fz (e * e) / c)%frac in
    py_if (fmod0 g21 f) (
    py_for (py_range 0 f c) (fun d =>
    let g11 := (fz (2 * d) + fz (d * e) / c)%frac in
    py_if (fmod0 g11 f) (
    py_for (py_range 0 c 1) (fun b => [HNF a b c d e f]))))))).

(** base_mono.py 121-164 *)
Definition base_mono_10_14_17_27_37_39_41 (n : Z) : list mat3 :=
  py_for (get_HNF_diagonals n) (fun '(a, c, f) =>
    let es := halves f in
    py_for es (fun e =>
    py_for (py_range 0 f 1) (fun d =>
    let g11 := - a + 2 * d in
    py_if (mod0 g11 f) (
    py_for (py_range 0 c 1) (fun b => [HNF a b c d e f]))))).

(** base_mono.py 166-203 *)
Definition base_mono_43 (n : Z) : list mat3 :=
  py_for (get_HNF_diagonals n) (fun '(a, c, f) =>
    py_if (mod0 f c) (
    py_for (py_range 0 f c) (fun e =>
    let g22 := (fz (2 * e) - fz (e * e) / c)%frac in
    py_if (fmod0 g22 f) (
    py_for (py_range 0 f 1) (fun d =>
    let b12 := a + d in
    let g12 := (fz (2 * a + 2 * d) - fz (b12 * e) / c)%frac in
    py_if (mod0 b12 c && fmod0 g12 f) (
    py_for (py_range 0 c 1) (fun b => [HNF a b c d e f]))))))).
