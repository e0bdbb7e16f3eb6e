(** Properties of [transform_supercells] (universal.py 5-32). *)
From Coq Require Import ZArith QArith Qcanon List.
From Verif Require Import Mat3 Spec QMat Model_transform Proofs_transform.
Import ListNotations.
Open Scope Qc_scope.

(** In all theorems [U] is the user's cell and [O] the canonical cell (basis vectors in
    columns), [Cu] and [Co] are the integer matrices of their reductions, and the function
    is called as in find_supercells: with the reduced cells [O Co] and [U Cu]. *)

(** ** C24 Supercells are supercells of the user's cell *)
Theorem C24_integer_supercells : forall U O Cu Co hs,
  qdet U <> 0 -> qdet O <> 0 ->
  (mdet Cu * mdet Cu = 1)%Z -> (mdet Co * mdet Co = 1)%Z ->
  exists l,
    transform_supercells hs (qmul O (qof Co)) (qmul U (qof Cu)) (qof Co) (qof Cu) O = Some l /\
    Forall2 (fun H B => supercell (mdet H) U B) hs l.
Proof. exact transform_supercell. Qed.
Print Assumptions C24_integer_supercells.
(** A singular canonical cell or transformation is an error, never a wrong cell. *)
Theorem C24_singular_fails : forall hs No Nu Co Cu O,
  hs <> [] -> (qdet O = 0 \/ qdet No = 0 \/ qdet Cu = 0) ->
  transform_supercells hs No Nu Co Cu O = None.
Proof. exact transform_singular. Qed.
Print Assumptions C24_singular_fails.
(** The first example has a user cell sheared against the canonical one. *)
Example C24_example :
  let O := qid in let U := QMat 1 1 0 0 1 0 0 0 (zq 2) in
  let Cu := Mat3 1 (-1) 0 0 1 0 0 0 1 in
  transform_supercells [HNF 1 0 1 0 0 2] (qmul O (qof mid)) (qmul U (qof Cu)) (qof mid) (qof Cu) O
  = Some [QMat 1 1 0 0 1 0 0 0 (zq 4)].
Proof. vm_compute. reflexivity. Qed.

(** ** C25 Supercells keep the user's symmetry *)
(** [G] is the Gram matrix for which the HNFs were enumerated.  The hypothesis says that
    the isometries of the reduced user cell are isometries of the reduced canonical cell. *)
Theorem C25_symmetry_kept : forall U O Cu Co G hs,
  qdet U <> 0 -> qdet O <> 0 ->
  (mdet Cu * mdet Cu = 1)%Z -> (mdet Co * mdet Co = 1)%Z ->
  (forall X, qisometry (qgram (qmul U (qof Cu))) X -> isometry (mmul (mtr Co) (mmul G Co)) X) ->
  Forall (symmetry_preserving G) hs ->
  exists l,
    transform_supercells hs (qmul O (qof Co)) (qmul U (qof Cu)) (qof Co) (qof Cu) O = Some l /\
    Forall (keeps_symmetry U) l.
Proof. exact transform_symmetry. Qed.
Print Assumptions C25_symmetry_kept.
(** When the isometries agree, a complete list for the canonical cell becomes a complete
    list, without repetitions, for the user's cell. *)
Theorem C25_complete : forall U O Cu Co G n hs,
  qdet U <> 0 -> qdet O <> 0 ->
  (mdet Cu * mdet Cu = 1)%Z -> (mdet Co * mdet Co = 1)%Z -> (1 <= n)%Z ->
  (forall X, qisometry (qgram (qmul U (qof Cu))) X <-> isometry (mmul (mtr Co) (mmul G Co)) X) ->
  (forall H, In H hs <-> is_hnf n H /\ symmetry_preserving G H) -> NoDup hs ->
  exists l,
    transform_supercells hs (qmul O (qof Co)) (qmul U (qof Cu)) (qof Co) (qof Cu) O = Some l /\
    Forall (fun B => supercell n U B /\ keeps_symmetry U B) l /\
    (forall B m, supercell m U B -> Z.abs m = n -> keeps_symmetry U B ->
       exists S, In S l /\ same_span S B) /\
    (forall i j Bi Bj, nth_error l i = Some Bi -> nth_error l j = Some Bj ->
       same_span Bi Bj -> i = j).
Proof. exact transform_complete. Qed.
Print Assumptions C25_complete.
(** The hypotheses hold for a cubic cell given in a sheared basis. *)
Example C25_example :
  let U := QMat 1 1 0 0 1 0 0 0 1 in let Cu := Mat3 1 (-1) 0 0 1 0 0 0 1 in
  (qdet U <> 0 /\ mdet Cu = 1%Z) /\
  (forall X, qisometry (qgram (qmul U (qof Cu))) X <-> isometry (mmul (mtr mid) (mmul mid mid)) X) /\
  transform_supercells [HNF 1 0 1 0 0 1; HNF 1 0 1 1 1 2] qid (qmul U (qof Cu)) (qof mid) (qof Cu) qid
  = Some [QMat 1 1 0 0 1 0 0 0 1; QMat 1 1 0 0 1 0 1 (zq 2) (zq 2)] /\
  keeps_symmetry qid qid.
Proof.
  cbv zeta. split; [split; [discriminate|reflexivity]|]. split; [|split; [vm_compute; reflexivity|]].
  - intros X.
    replace (qmul (QMat 1 1 0 0 1 0 0 0 1) (qof (Mat3 1 (-1) 0 0 1 0 0 0 1))) with (qof mid)
      by (vm_compute; reflexivity).
    unfold qisometry, isometry, qgram. rewrite <- !qof_tr, <- !qof_mul. split.
    + intros E. apply qof_inj in E. exact E.
    + intros E. exact (f_equal qof E).
  - intros R HR. exact HR.
Qed.
