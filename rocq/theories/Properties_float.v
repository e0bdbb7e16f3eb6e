(** Property C72: the Python enumerators with the machine's floating point numbers. *)
From Coq Require Import ZArith QArith List.
From Verif Require Import Mat3 Spec Bases Model_universal Model_float Spec_float Proofs_supercells Proofs_float Proofs_float2.
Import ListNotations.
Open Scope Z_scope.

(** ** C72 With doubles the enumerators are right up to 1000 points *)
(** However ties are broken: for up to 1000 points [find_hnfs] in exact mode lists, once each, exactly the HNFs kept by
    all symmetries of the lattice. *)
Theorem C72_exact_partial : forall rnd k n nb, rounds_to_nearest rnd -> In k lattice_numbers -> n <= 1000 ->
  exists l, t_find_hnfs (test_round rnd) (eq_round rnd) k n true nb = Some l /\ NoDup l /\
    forall H, In H l <-> 1 <= n /\ is_hnf n H /\ symmetry_preserving (gram_of k) H.
Proof. exact nearest_exact. Qed.
Print Assumptions C72_exact_partial.
(** The lists are those of the model with exact quotients, in the same order, in both modes. *)
Theorem C72_same_list : forall rnd, like_double rnd -> forall k kpt exact nb, (exact = true -> kpt <= 1000) ->
  (exact = false -> forall ns mult, find_volumes k kpt nb = Some (ns, mult) -> forall n, In n ns -> n <= 1000) ->
  t_find_hnfs (test_round rnd) (eq_round rnd) k kpt exact nb = find_hnfs k kpt exact nb.
Proof. exact find_double. Qed.
Print Assumptions C72_same_list.
(** The model with terms is that of the other files when the tests are exact. *)
Theorem C72_exact_tests : forall k kpt exact nb,
  t_find_hnfs test_exact eq_exact k kpt exact nb = find_hnfs k kpt exact nb.
Proof. exact exact_tests. Qed.
Print Assumptions C72_exact_tests.
(** What is used of the machine holds for every rounding to nearest. *)
Theorem C72_nearest : forall rnd, rounds_to_nearest rnd -> like_double rnd.
Proof. exact nearest_like_double. Qed.
Print Assumptions C72_nearest.
(** There is one. *)
Theorem C72_rounding : rounds_to_nearest round64.
Proof. exact round64_nearest. Qed.
Print Assumptions C72_rounding.
(** Not for every size: a grid that breaks the symmetry is listed when the sides have more than 53 bits. *)
Theorem C72_invented_refuted : forall nb, exists n H l,
  t_find_hnfs (test_round round64) (eq_round round64) 5 n true nb = Some l /\
  In H l /\ is_hnf n H /\ ~ symmetry_preserving (gram_of 5) H.
Proof. exact bcc_5_invented. Qed.
Print Assumptions C72_invented_refuted.

(** The rounding is visible: a third is stored as another number, and three of them sum up to 1. *)
Example C72_third : Qeq_bool (round64 (1 # 3)) (1 # 3) = false /\
  Qeq_bool (eval_round round64 (FMul (FZ 3) (FDiv (FZ 1) (FZ 3)))) 1 = true /\
  Qeq_bool (eval_round round64 (FMul (FZ 49) (FDiv (FZ 1) (FZ 49)))) 1 = false.
Proof. vm_compute. repeat split. Qed.
(** A test that goes wrong when the quotient comes first: [1 / 49 * 49] is no multiple of 1. *)
Example C72_order : test_exact (FMul (FZ 49) (FDiv (FZ 1) (FZ 49))) 1 = true /\
  test_round round64 (FMul (FZ 49) (FDiv (FZ 1) (FZ 49))) 1 = false.
Proof. vm_compute. repeat split. Qed.
(** Rhombohedral and hexagonal grids. *)
Example C72_lists :
  t_find_hnfs (test_round round64) (eq_round round64) 24 4 true 0 = Some [HNF 1 0 2 1 0 2; HNF 1 1 2 1 1 2] /\
  t_find_hnfs (test_round round64) (eq_round round64) 12 3 true 0 = find_hnfs 12 3 true 0.
Proof. vm_compute. repeat split. Qed.
