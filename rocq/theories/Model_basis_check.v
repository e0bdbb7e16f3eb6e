(** Model of the lists of sizes in support/python_dev/opf_python/basis_check.py. *)
From Coq Require Import ZArith List Bool.
From Verif Require Import PyNum Model_universal.
Import ListNotations.
Open Scope Z_scope.

(** basis_check.py 371-375 and 390-394: [if p <= kmax and p not in kpds: kpds.append(p)]. *)
Definition kps_append (kmax : Z) (kpds : list Z) (p : Z) : list Z :=
  if (p <=? kmax) && negb (z_in p kpds) then kpds ++ [p] else kpds.

(** The two loops, [for k in range(kmax): for m in ms: p = m*(k**3); ...]. *)
Definition kps_loop (ms : list Z) (kmax : Z) : list Z :=
  fold_left (fun kpds k => fold_left (fun kpds m => kps_append kmax kpds (m * k ^ 3)) ms kpds)
    (py_range 0 kmax 1) [].

(** basis_check.py 360-377; [range(1,2,4)] *)
Definition sc_and_bcc_kps (kmax : Z) : list Z := kps_loop (py_range 1 2 4) kmax.
(** basis_check.py 379-396; [range(1,4,16)] *)
Definition fcc_kps (kmax : Z) : list Z := kps_loop (py_range 1 4 16) kmax.
