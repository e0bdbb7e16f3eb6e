(** Model of support/python_dev/opf_python/so.py.
    [HNF a b c d e f] is the literal [[a,0,0],[b,c,0],[d,e,f]]. *)
From Coq Require Import ZArith List Bool.
From Verif Require Import Mat3 Spec PyNum Model_diag.
Import ListNotations.
Open Scope Z_scope.

(** so.py 1-42 *)
Definition so_32 (n : Z) : list mat3 :=
  py_for (get_HNF_diagonals n) (fun '(a, c, f) =>
    let bs := halves c in
    let ed_vals := halves f in
    py_for bs (fun b =>
    py_for ed_vals (fun e =>
    py_if (mod0 (2 * b * e) (f * c)) (
    py_for ed_vals (fun d => [HNF a b c d e f]))))).
