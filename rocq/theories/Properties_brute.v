(** Properties C61 and C62: the brute-force reference programs (support/brute_force). *)
From Coq Require Import ZArith List QArith Qcanon.
From Verif Require Import Mat3 Spec QMat PointGroup Bases Model_brute Spec_brute
  Proofs_brute1 Proofs_brute2 Proofs_brute3 Proofs_enum.
From Verif Require Import Model_sc.
Import ListNotations.

(** ** C61 get_srHNFs *)
(** Given the point group of the parent lattice the program lists exactly the Hermite normal forms
    of determinant [n] whose superlattice keeps all symmetries.  The tolerance may be as large as
    1/n. *)
Theorem C61_exact : forall eps equal P pg n H, qdet P <> 0%Qc -> tolerance eps equal ->
  (eps * zq n <= 1)%Qc -> point_group P pg ->
  In H (get_srHNFs equal P pg n) <->
  (1 <= n)%Z /\ is_hnf n H /\ keeps_symmetry P (qmul P (qof H)).
Proof. exact srHNFs_exact. Qed.
Print Assumptions C61_exact.
(** None of them twice, whatever the matrices given. *)
Theorem C61_once : forall equal P pg n, NoDup (get_srHNFs equal P pg n).
Proof. exact NoDup_get_srHNFs. Qed.
Print Assumptions C61_once.
(** Generators give the same list as the whole group. *)
Theorem C61_generators : forall eps equal P gens pg n, qdet P <> 0%Qc -> tolerance eps equal ->
  (eps * zq n <= 1)%Qc -> point_group P pg -> generators qmul gens pg ->
  get_srHNFs equal P gens n = get_srHNFs equal P pg n.
Proof. exact srHNFs_generators. Qed.
Print Assumptions C61_generators.
(** Any enumerator that is exact for the Gram matrix of the lattice, up to the unit of length,
    lists the same matrices. *)
Theorem C61_tailored : forall eps equal P pg k G enum n H, qdet P <> 0%Qc ->
  tolerance eps equal -> (eps * zq n <= 1)%Qc -> point_group P pg -> k <> 0%Qc ->
  qgram P = qscale k (qof G) -> enumerates_exactly G enum ->
  In H (get_srHNFs equal P pg n) <-> In H (enum n).
Proof. exact srHNFs_tailored. Qed.
Print Assumptions C61_tailored.
(** The simple cubic lattice, all 48 operations, comparison without tolerance. *)
Example C61_example_cubic : qdet qid <> 0%Qc /\ tolerance (Q2Qc (1 # 1000)) same /\
  (Q2Qc (1 # 1000) * zq 4 <= 1)%Qc /\ point_group qid cubic_pg /\ length cubic_pg = 48%nat /\
  get_srHNFs same qid cubic_pg 4 = [Mat3 1 0 0 1 2 0 1 0 2] /\
  qgram qid = qscale 1 (qof (gram_of 3)) /\ enumerates_exactly (gram_of 3) sc_3.
Proof.
  split; [rewrite qdet_id; discriminate|]. split; [exact same_tolerance|].
  split; [vm_compute; discriminate|]. split; [exact cubic_point_group|].
  split; [vm_compute; reflexivity|]. split; [vm_compute; reflexivity|].
  split; [|exact exact_3].
  unfold qgram, qscale, qof, qid, qtr, qmul. cbn [q11 q12 q13 q21 q22 q23 q31 q32 q33].
  f_equal; apply Qc_is_canon; reflexivity.
Qed.

(** ** C62 Generators of the point group *)
(** Fortran: if nothing in memory behind the array looks like a group element, forms_group tells
    whether the matrices generate the group. *)
Theorem C62_forms_group : forall M mul equal (pg gens : list M) zero beyond,
  finite_group mul pg -> exact_on equal pg -> incl gens pg -> NoDup gens ->
  (forall p x, In p pg -> In x (zero :: beyond) -> equal p x = false) ->
  forms_group mul equal zero beyond gens pg = true <-> generators mul gens pg.
Proof.
  intros M mul equal pg gens zero beyond HG HE Hi Hn Hj.
  exact (forms_group_iff mul equal pg HG HE gens Hi zero beyond Hj Hn).
Qed.
Print Assumptions C62_forms_group.
(** Then find_pg_gens returns two generators if two are enough, else three; it returns nothing
    only for groups that need four. *)
Theorem C62_find_pg_gens : forall M mul equal (pg : list M) zero beyond,
  finite_group mul pg -> exact_on equal pg -> (2 <= length pg)%nat ->
  (forall p x, In p pg -> In x (zero :: beyond) -> equal p x = false) ->
  match find_pg_gens mul equal zero beyond pg with
  | Some g => generators mul g pg /\ NoDup g /\
      (length g = 2%nat \/
       length g = 3%nat /\ forall h, generators mul h pg -> (3 <= length h)%nat)
  | None => forall h, generators mul h pg -> (4 <= length h)%nat
  end.
Proof.
  intros M mul equal pg zero beyond HG HE. exact (find_pg_gens_spec mul equal pg HG HE zero beyond).
Qed.
Print Assumptions C62_find_pg_gens.
(** The point groups of the lattices used for the enumerators are not among these. *)
Theorem C62_characters : forall k pg equal zero beyond, In k characters ->
  (forall X, In X pg <-> isometry (gram_of k) X) -> finite_group mmul pg -> exact_on equal pg ->
  (2 <= length pg)%nat ->
  (forall p x, In p pg -> In x (zero :: beyond) -> equal p x = false) ->
  find_pg_gens mmul equal zero beyond pg <> None.
Proof. exact characters_found. Qed.
Print Assumptions C62_characters.
Theorem C62_triclinic : forall pg equal zero beyond,
  (forall X, In X pg <-> X = mid \/ X = inversion) -> finite_group mmul pg -> exact_on equal pg ->
  (2 <= length pg)%nat ->
  (forall p x, In p pg -> In x (zero :: beyond) -> equal p x = false) ->
  find_pg_gens mmul equal zero beyond pg <> None.
Proof. exact triclinic_found. Qed.
Print Assumptions C62_triclinic.
(** The generators found give the list of superlattices that the group gives. *)
Theorem C62_same_superlattices : forall eps equal P pg zero beyond gens n, qdet P <> 0%Qc ->
  tolerance eps equal -> (eps * zq n <= 1)%Qc -> point_group P pg -> NoDup pg ->
  exact_on equal pg -> (2 <= length pg)%nat ->
  (forall p x, In p pg -> In x (zero :: beyond) -> equal p x = false) ->
  find_pg_gens qmul equal zero beyond pg = Some gens ->
  get_srHNFs equal P gens n = get_srHNFs equal P pg n.
Proof. exact srHNFs_found. Qed.
Print Assumptions C62_same_superlattices.
(** The loops read nine times as many matrices as the array holds.  If the group itself lies in
    memory behind the array, the first two elements are accepted although they do not generate
    it. *)
Theorem C62_memory_refuted : ~ forall (pg : list mat3) zero beyond g, finite_group mmul pg ->
  find_pg_gens mmul meqb zero beyond pg = Some g -> generators mmul g pg.
Proof.
  intros H. exact (monoclinic_not (H monoclinic zero3 monoclinic _ monoclinic_group
                                     (proj2 memory_accepts))).
Qed.
Print Assumptions C62_memory_refuted.
(** Python: the search ends and returns as few generators as possible. *)
Theorem C62_python : forall M mul equal (pg : list M) fuel,
  finite_group mul pg -> exact_on equal pg -> (length pg < fuel)%nat -> pg <> [] ->
  exists g, find_gens_of_pg mul equal fuel pg = Some g /\ generators mul g pg /\
    forall h, generators mul h pg -> (length g <= length h)%nat.
Proof. intros M mul equal pg fuel HG HE. exact (find_gens_spec mul equal pg HG HE fuel). Qed.
Print Assumptions C62_python.
(** forms_group of the Python program alone compares only the number of elements and the first
    one: it accepts the inversion as generator of {1, mirror}. *)
Theorem C62_first_only_refuted : ~ forall fuel gens pg x,
  py_forms_group mmul meqb fuel gens pg = Some true -> In x pg -> generated mmul gens x.
Proof.
  intros H. exact (proj2 first_only (H _ _ _ _ (proj1 first_only) (or_intror (or_introl eq_refl)))).
Qed.
Print Assumptions C62_first_only_refuted.
Example C62_example : finite_group mmul monoclinic /\ exact_on meqb monoclinic /\
  find_pg_gens mmul meqb zero3 [] monoclinic = Some [diag (-1) (-1) (-1); diag 1 (-1) 1] /\
  find_pg_gens mmul meqb zero3 [] orthorhombic =
    Some [diag (-1) (-1) (-1); diag (-1) 1 1; diag 1 (-1) 1] /\
  find_gens_of_pg mmul meqb 9 orthorhombic =
    Some [diag (-1) (-1) (-1); diag (-1) 1 1; diag 1 (-1) 1].
Proof.
  split; [exact monoclinic_group|]. split; [apply meqb_exact|].
  split; [vm_compute; reflexivity|]. split; vm_compute; reflexivity.
Qed.
