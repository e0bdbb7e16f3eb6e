(** Model of support/python_dev/opf_python/fcc.py.
    [HNF a b c d e f] is the literal [[a,0,0],[b,c,0],[d,e,f]]. *)
From Coq Require Import ZArith List Bool.
From Verif Require Import Mat3 Spec PyNum Model_diag.
Import ListNotations.
Open Scope Z_scope.

(** fcc.py 1-36 *)
Definition fcc_1 (n : Z) : list mat3 :=
  py_for (get_HNF_diagonals n) (fun '(a, c, f) =>
    if (a =? c) && (a =? f) then [HNF a 0 c 0 0 f]
    else if (c =? f) && (feqz (fz f / a)%frac 2 || feqz (fz f / a)%frac 4)
         then [HNF a a c a 0 f]
    else []).
