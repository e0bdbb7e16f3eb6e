(** Model of support/python_dev/opf_python/body_tet.py.
    [HNF a b c d e f] is the literal [[a,0,0],[b,c,0],[d,e,f]]. *)
From Coq Require Import ZArith List Bool.
From Verif Require Import Mat3 Spec PyNum Model_diag.
Import ListNotations.
Open Scope Z_scope.

(** body_tet.py 14-16: [for p in range(2,a+1): if a%p==0: return p]; the
    result is [None] if the loop ends without returning. *)
Fixpoint smallest_prime_loop (a : Z) (ps : list Z) : option Z :=
  match ps with
  | [] => None
  | p :: rest => if a mod p =? 0 then Some p else smallest_prime_loop a rest
  end.

(** body_tet.py 1-16 *)
Definition smallest_prime (a : Z) : option Z :=
  if a <=? 2 then Some a else smallest_prime_loop a (py_range 2 (a + 1) 1).

(** body_tet.py 18-68; [f//2.] is exact because [f] is even. *)
Definition body_tet_6_7_15_18 (n : Z) : list mat3 :=
  py_for (get_HNF_diagonals n) (fun '(a, c, f) =>
    py_if (mod0 f c) (
    let es := halves f in
    py_for es (fun e =>
    py_if (mod0 e c) (
    let g21 := (fz (- c) + fz (e * e) / c)%frac in
    py_if (fmod0 g21 f) (
    py_for (py_range 0 f 1) (fun d =>
    let g13 := a + 2 * d in
    py_if (mod0 g13 f) (
    py_for (py_range 0 c 1) (fun b =>
    let b12 := b - d in
    py_if (mod0 b12 c) (
    let g12 := (fz (- b + d) - fz (b12 * e) / c)%frac in
    py_if (fmod0 g12 f)
      [HNF a b c d e f]))))))))).
