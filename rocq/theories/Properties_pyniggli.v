(** Properties of the class [reduced_cell] (pyniggli.py). *)
From Coq Require Import ZArith QArith Qcanon List Lia.
From Verif Require Import Mat3 QMat QNum QcTac Spec_niggli Model_pyniggli Proofs_pyniggli
  Proofs_niggli_term Proofs_pyniggli2 Proofs_pyniggli3.
Import ListNotations.
Open Scope Qc_scope.

(** [cbrt] stands for the floating point [volume**(1/3)] and is arbitrary; [rows_of M] is
    the array with the entries of [M]; [used_eps] is the tolerance the constructor derives
    from its argument. *)

(** ** C26 Reduction keeps the lattice *)
Theorem C26_same_lattice : forall cbrt rows eps_ N C,
  reduced_cell cbrt rows eps_ = Reduced N C ->
  exists M, rows = rows_of M /\ N = qmul M (qof C) /\ mdet C = 1%Z /\
    qdet N = qdet M /\ same_span M N.
Proof. exact reduced_same_lattice. Qed.
Print Assumptions C26_same_lattice.
Example C26_example :
  reduced_cell (fun _ => 1) (rows_of (QMat 1 (zq 5) 0 0 1 0 0 0 (zq 2))) None =
  Reduced (QMat 1 0 0 0 (-(1)) 0 0 0 (zq (-2))) (Mat3 1 5 0 0 (-1) 0 0 0 (-1)).
Proof. vm_compute. reflexivity. Qed.

(** ** C27 Reduction result is Niggli-reduced *)
Theorem C27_niggli_upto_eps : forall cbrt rows eps_ N C,
  reduced_cell cbrt rows eps_ = Reduced N C ->
  exists M, rows = rows_of M /\
    (0 <= used_eps cbrt M eps_ -> is_niggli_upto (used_eps cbrt M eps_) N).
Proof. exact reduced_niggli_upto. Qed.
Print Assumptions C27_niggli_upto_eps.
(** With tolerance 0 the conditions hold exactly. *)
Theorem C27_niggli_exact : forall cbrt rows N C,
  reduced_cell cbrt rows (Some 0) = Reduced N C -> is_niggli N.
Proof. exact reduced_niggli_exact. Qed.
Print Assumptions C27_niggli_exact.
Example C27_example : exists N C,
  reduced_cell (fun _ => 1) (rows_of (QMat 1 (zq 5) (zq 3) 0 1 1 0 (zq 2) (zq 7))) (Some 0) = Reduced N C
  /\ is_niggli N.
Proof.
  assert (E : exists N C,
    reduced_cell (fun _ => 1) (rows_of (QMat 1 (zq 5) (zq 3) 0 1 1 0 (zq 2) (zq 7))) (Some 0) = Reduced N C)
    by (do 2 eexists; vm_compute; reflexivity).
  destruct E as (N & C & E). exists N, C. split; [exact E|]. exact (reduced_niggli_exact _ _ _ _ E).
Qed.

(** ** C28 Reduction does not fail spuriously *)
(** False as claimed, in two ways.  A Niggli-reduced cell (the default tolerance, for any
    cube root between 0.9 and 1.2 of its volume 1.2000096) is refused by the final check: *)
Theorem C28_niggli_cell_refused_refuted :
  exists M, qdet M <> 0 /\ is_niggli M /\
    forall cbrt, qdec 9 1 <= cbrt (qabs (qdet M)) <= qdec 12 1 ->
      reduced_cell cbrt (rows_of M) None = ReductionIncorrect.
Proof. exact niggli_cell_refused. Qed.
Print Assumptions C28_niggli_cell_refused_refuted.
(** and a cell of volume 1 runs into the limit of 1000 passes: *)
Theorem C28_iteration_limit_refuted :
  exists M, qdet M = 1 /\
    forall cbrt, cbrt 1 = 1 -> reduced_cell cbrt (rows_of M) None = TooManyIterations.
Proof. exact iteration_limit. Qed.
Print Assumptions C28_iteration_limit_refuted.
(** The limit is the only reason for that error. *)
Theorem C28_too_many_iff : forall eps M,
  niggli_reduction eps M = TooManyIterations <->
  forall n, (Z.of_nat n < 999)%Z -> snd (pass eps M (after eps M n)) = false.
Proof. exact too_many_iff. Qed.
Print Assumptions C28_too_many_iff.
(** Without the limit, and with exact comparisons (tolerances 0), the loop ends for every
    non-singular cell, in a Niggli cell that the final check accepts. *)
Theorem C28_exact_success_partial : forall M, qdet M <> 0 ->
  exists n C p, after 0 M n = (C, p) /\ snd (pass 0 M (C, p)) = true /\
    mdet C = 1%Z /\ is_niggli (qmul M (qof C)) /\
    niggli_check_tol 0 0 (pA p) (pB p) (pC p) (pxi p) (peta p) (pzeta p) 0 = true.
Proof. exact exact_success. Qed.
Print Assumptions C28_exact_success_partial.
(** With exact comparisons the final check is precisely the definition of a Niggli cell. *)
Theorem C28_check_is_definition : forall A B C xi eta zeta,
  niggli_check_tol 0 0 A B C xi eta zeta 0 = true <-> niggli_cell A B C xi eta zeta.
Proof. exact check_exact. Qed.
Print Assumptions C28_check_is_definition.
Example C28_example : snd (pass 0 (QMat 1 (zq 5) 0 0 1 0 0 0 (zq 2))
    (after 0 (QMat 1 (zq 5) 0 0 1 0 0 0 (zq 2)) 7)) = true.
Proof. vm_compute. reflexivity. Qed.

(** ** C29 Bad cells are rejected *)
Theorem C29_bad_shape : forall cbrt rows eps_,
  reduced_cell cbrt rows eps_ = BadShape <->
  ~ (length rows = 3%nat /\ Forall (fun r => length r = 3%nat) rows).
Proof. exact bad_shape. Qed.
Print Assumptions C29_bad_shape.
Theorem C29_zero_volume : forall cbrt rows eps_,
  reduced_cell cbrt rows eps_ = ZeroVolume <-> exists M, rows = rows_of M /\ qdet M = 0.
Proof. exact zero_volume. Qed.
Print Assumptions C29_zero_volume.
Example C29_example :
  reduced_cell (fun _ => 1) [[1; 0]; [0; 1]] None = BadShape /\
  reduced_cell (fun _ => 1) (rows_of (QMat 1 1 0 1 1 0 0 0 1)) None = ZeroVolume /\
  reduced_cell (fun _ => 1) (rows_of qid) None <> ZeroVolume.
Proof. vm_compute. repeat split; discriminate. Qed.

(** ** C30 Reducing a reduced cell changes nothing *)
Theorem C30_idempotent : forall cbrt rows eps_ N C,
  reduced_cell cbrt rows eps_ = Reduced N C ->
  reduced_cell cbrt (rows_of N) eps_ = Reduced N mid.
Proof. exact reduced_cell_idem. Qed.
Print Assumptions C30_idempotent.
(** A cell that is Niggli-reduced up to the tolerance is returned as it is, or refused by
    the final check (see C28); it is never changed. *)
Theorem C30_niggli_unchanged_partial : forall cbrt M eps_,
  qdet M <> 0 -> 0 <= used_eps cbrt M eps_ -> is_niggli_upto (used_eps cbrt M eps_) M ->
  reduced_cell cbrt (rows_of M) eps_ = Reduced M mid \/
  reduced_cell cbrt (rows_of M) eps_ = ReductionIncorrect.
Proof. exact niggli_unchanged. Qed.
Print Assumptions C30_niggli_unchanged_partial.
Example C30_example :
  reduced_cell (fun _ => 1) (rows_of (QMat 1 0 0 0 (zq 2) 0 0 0 (zq 3))) None =
  Reduced (QMat 1 0 0 0 (zq 2) 0 0 0 (zq 3)) mid.
Proof. vm_compute. reflexivity. Qed.
