(** Model of [get_HNF_diagonals],
    support/python_dev/opf_python/universal.py lines 34-56. *)
From Coq Require Import ZArith List Bool.
From Verif Require Import PyNum.
Import ListNotations.
Open Scope Z_scope.

(** universal.py 44-56: the [continue] branches contribute nothing. *)
Definition get_HNF_diagonals (n : Z) : list (Z * Z * Z) :=
  py_for (py_range 1 (n + 1) 1) (fun i =>
    if negb (n mod i =? 0) then []
    else
      let q := n / i in
      py_for (py_range 1 (q + 1) 1) (fun j =>
        if negb (q mod j =? 0) then []
        else [(i, j, q / j)])).
