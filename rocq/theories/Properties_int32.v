(** Property C71: the Fortran enumerators with the machine's integers. *)
From Coq Require Import ZArith List.
From Verif Require Import Mat3 Spec Bases Model_sp_hnfs Model_find_grid Model_int32 Spec_int32 Proofs_int32.
Import ListNotations.
Open Scope Z_scope.

(** ** C71 With integers of 32 bits the enumerators are right up to 46340 *)
(** Whatever the machine makes of an overflow: up to 46340 the enumerators list exactly the HNFs kept
    by all symmetries of the lattice. *)
Theorem C71_exact_partial : forall w k m, fits32 w -> 1 <= k <= 44 -> m_enumerator w k = Some m ->
  forall n H, n <= 46340 -> (In H (m n) <-> 1 <= n /\ is_hnf n H /\ symmetry_preserving (gram_of k) H).
Proof. exact machine_exact. Qed.
Print Assumptions C71_exact_partial.
(** The lists are those of the model with exact integers, in the same order. *)
Theorem C71_same_list : forall w k, fits32 w ->
  match f_enumerator k, m_enumerator w k with
  | Some f, Some m => forall n, n <= 46340 -> m n = f n
  | None, None => True
  | _, _ => False
  end.
Proof. exact enumerator_fits. Qed.
Print Assumptions C71_same_list.
(** The room for them. *)
Theorem C71_total : forall w n, fits32 w -> n <= 46340 -> m_total_hnfs w n = f_total_hnfs n.
Proof. exact total_fits. Qed.
Print Assumptions C71_total.
(** Cubic lattices: every size that fits is handled rightly. *)
Theorem C71_cubic : forall w k, fits32 w -> In k [1; 3; 5] -> forall n H, n < 2 ^ 31 ->
  (In H (cubic_all (m_cubic_loop w k (f_diagonals n))) <->
   1 <= n /\ is_hnf n H /\ symmetry_preserving (gram_of k) H).
Proof. exact cubic_machine. Qed.
Print Assumptions C71_cubic.
(** Triclinic lattices, where the number of HNFs itself has to fit. *)
Theorem C71_triclinic : forall w mult n, fits32 w -> 1 <= mult -> mult * n < 2 ^ 31 ->
  f_total_hnfs n < 2 ^ 31 -> m_tric_31_44 w mult n = f_tric_31_44 mult n.
Proof. exact tric_fits. Qed.
Print Assumptions C71_triclinic.
(** The usual machine, which keeps the lowest 32 bits. *)
Theorem C71_wrap_fits : fits32 wrap32.
Proof. exact wrap32_fits. Qed.
Print Assumptions C71_wrap_fits.
(** On it the room for the HNFs is too small for every larger size, *)
Theorem C71_total_refuted : forall n, 46341 <= n -> m_total_hnfs wrap32 n < f_total_hnfs n.
Proof. exact total_short. Qed.
Print Assumptions C71_total_refuted.
(** and for triclinic lattices as soon as there are 2^31 HNFs. *)
Theorem C71_triclinic_total : forall n, 1 <= n ->
  (m_tric_total wrap32 n = f_total_hnfs n <-> f_total_hnfs n < 2 ^ 31).
Proof. exact tric_total_exact. Qed.
Print Assumptions C71_triclinic_total.
(** For lattice 28 and every size from 46343 to 65535 a grid which keeps the symmetry is missed, *)
Theorem C71_lost_refuted : forall n, 46343 <= n < 65536 ->
  exists m H, m_enumerator wrap32 28 = Some m /\
    is_hnf n H /\ symmetry_preserving (gram_of 28) H /\ ~ In H (m n).
Proof. exact lost_lattice. Qed.
Print Assumptions C71_lost_refuted.
(** and a grid which does not keep it is taken. *)
Theorem C71_invented_refuted : exists m H, m_enumerator wrap32 28 = Some m /\
  is_hnf 46729 H /\ In H (m 46729) /\ ~ symmetry_preserving (gram_of 28) H.
Proof. exact invented_lattice. Qed.
Print Assumptions C71_invented_refuted.
Example C71_example :
  wrap32 (2 ^ 31 - 1) = 2 ^ 31 - 1 /\ wrap32 (2 ^ 31) = - 2 ^ 31 /\
  m_hex_12 wrap32 6 = [HNF 1 0 1 0 0 6; HNF 1 1 3 0 0 2] /\
  m_enumerator wrap32 12 = Some (m_hex_12 wrap32) /\
  cubic_all (m_cubic_loop wrap32 5 (f_diagonals 108)) = [HNF 3 0 3 9 9 12] /\
  m_total_hnfs wrap32 12 = 455 /\
  option_map (@length mat3) (m_tric_31_44 wrap32 2 6) = Some 91%nat.
Proof. repeat split; vm_compute; reflexivity. Qed.
