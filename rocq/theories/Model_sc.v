(** Model of support/python_dev/opf_python/sc.py.
    [HNF a b c d e f] is the literal [[a,0,0],[b,c,0],[d,e,f]]. *)
From Coq Require Import ZArith List Bool.
From Verif Require Import Mat3 Spec PyNum Model_diag.
Import ListNotations.
Open Scope Z_scope.

(** sc.py 19-44: the loop over the diagonals; each branch appends one HNF and
    then breaks out of the loop. *)
Fixpoint sc_3_loop (diags : list (Z * Z * Z)) : list mat3 :=
  match diags with
  | [] => []
  | (a, c, f) :: rest =>
      if (a =? c) && (c =? f) then [HNF a 0 c 0 0 f]
      else if (a =? c) && feqz (fz f / a)%frac 2 then [HNF a 0 c a a f]
      else if (c =? f) && feqz (fz f / a)%frac 2 then [HNF a a c a 0 f]
      else sc_3_loop rest
  end.

(** sc.py 1-46 *)
Definition sc_3 (n : Z) : list mat3 := sc_3_loop (get_HNF_diagonals n).
