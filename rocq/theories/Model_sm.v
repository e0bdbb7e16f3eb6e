(** Model of support/python_dev/opf_python/sm.py.
    [HNF a b c d e f] is the literal [[a,0,0],[b,c,0],[d,e,f]]. *)
From Coq Require Import ZArith List Bool.
From Verif Require Import Mat3 Spec PyNum Model_diag.
Import ListNotations.
Open Scope Z_scope.

(** sm.py 1-45 *)
Definition sm_33 (n : Z) : list mat3 :=
  py_for (get_HNF_diagonals n) (fun '(a, c, f) =>
    let bs := halves c in
    let es := halves f in
    py_for bs (fun b =>
    py_for es (fun e =>
    let gamma12 := (fz (2 * b * e) / c)%frac in
    py_if (fmod0 gamma12 f) (
    py_for (py_range 0 f 1) (fun d => [HNF a b c d e f]))))).

(** sm.py 48-85 *)
Definition sm_35 (n : Z) : list mat3 :=
  py_for (get_HNF_diagonals n) (fun '(a, c, f) =>
    let ds := halves f in
    let es := halves f in
    py_for es (fun e =>
    py_for ds (fun d =>
    py_for (py_range 0 c 1) (fun b => [HNF a b c d e f])))).

(** sm.py 88-128 *)
Definition sm_34 (n : Z) : list mat3 :=
  py_for (get_HNF_diagonals n) (fun '(a, c, f) =>
    let ds := halves f in
    let es := halves f in
    py_for ds (fun d =>
    py_for es (fun e =>
    py_for (py_range 0 c 1) (fun b => [HNF a b c d e f])))).
