(** Statements about [reduced_cell] assembled from the previous files, and the inputs for
    which it fails. *)
From Coq Require Import ZArith QArith Qcanon List Bool Lia.
From Verif Require Import Mat3 QMat QNum QcTac Spec_niggli Model_pyniggli Proofs_pyniggli
  Proofs_niggli_term Proofs_pyniggli2.
Import ListNotations.
Open Scope Qc_scope.

Lemma reduced_same_lattice cbrt rows eps_ N C :
  reduced_cell cbrt rows eps_ = Reduced N C ->
  exists M, rows = rows_of M /\ N = qmul M (qof C) /\ mdet C = 1%Z /\
    qdet N = qdet M /\ same_span M N.
Proof.
  intros H. destruct (reduced_cell_Reduced _ _ _ _ _ H) as (M & E & D & HR).
  destruct (reduction_Reduced _ _ _ _ HR) as (HD & EN & _ & _).
  exists M. split; [exact E|]. split; [exact EN|]. split; [exact HD|]. subst N. split.
  - rewrite qdet_mul, qof_det, HD, zq_1. ring.
  - now apply unimodular_same_span.
Qed.

Lemma reduced_niggli_upto cbrt rows eps_ N C :
  reduced_cell cbrt rows eps_ = Reduced N C ->
  exists M, rows = rows_of M /\
    (0 <= used_eps cbrt M eps_ -> is_niggli_upto (used_eps cbrt M eps_) N).
Proof.
  intros H. destruct (reduced_cell_Reduced _ _ _ _ _ H) as (M & E & D & HR).
  destruct (reduction_Reduced _ _ _ _ HR) as (HD & EN & HS & _).
  exists M. split; [exact E|]. intros He. rewrite EN. now apply settled_iff.
Qed.

Lemma reduced_niggli_exact cbrt rows N C :
  reduced_cell cbrt rows (Some 0) = Reduced N C -> is_niggli N.
Proof.
  intros H. destruct (reduced_cell_Reduced _ _ _ _ _ H) as (M & E & D & HR).
  destruct (reduction_Reduced _ _ _ _ HR) as (HD & EN & HS & _).
  assert (E0 : used_eps cbrt M (Some 0) = 0) by (unfold used_eps; ring).
  rewrite E0 in HS. apply is_niggli_upto_0.
  - rewrite EN, qdet_mul, qof_det, HD, zq_1. apply Qc_mul_neq0; [exact D|discriminate].
  - rewrite EN. apply settled_iff; [apply Qcle_refl|exact HS].
Qed.

Lemma niggli_unchanged cbrt M eps_ :
  qdet M <> 0 -> 0 <= used_eps cbrt M eps_ -> is_niggli_upto (used_eps cbrt M eps_) M ->
  reduced_cell cbrt (rows_of M) eps_ = Reduced M mid \/
  reduced_cell cbrt (rows_of M) eps_ = ReductionIncorrect.
Proof.
  intros D He HN. rewrite reduced_cell_eps by exact D.
  assert (HS : settled (used_eps cbrt M eps_) (get_params (used_eps cbrt M eps_) M mid)).
  { apply settled_iff; [exact He|]. rewrite qof_id, qmul_id_r. exact HN. }
  rewrite settled_reduction by exact HS. cbv zeta.
  destruct (niggli_check _ _ _ _ _ _ _); [now left|now right].
Qed.

(** ** The iteration limit *)
Lemma iteration_limit :
  exists M, qdet M = 1 /\
    forall cbrt, cbrt 1 = 1 -> reduced_cell cbrt (rows_of M) None = TooManyIterations.
Proof.
  exists (QMat 1 (zq 3000) 0 0 1 0 0 0 1).
  assert (D : qdet (QMat 1 (zq 3000) 0 0 1 0 0 0 1) = 1) by (vm_compute; reflexivity).
  split; [exact D|]. intros cbrt Hc.
  rewrite reduced_cell_eps by (rewrite D; discriminate).
  unfold used_eps. rewrite D.
  replace (qabs 1) with 1 by reflexivity. rewrite Hc.
  replace (qdec 1 5 * 1) with (qdec 1 5) by ring.
  vm_compute. reflexivity.
Qed.

(** ** A Niggli cell refused by the final check *)
Definition refused : qmat :=
  QMat 1 0 (qdec (-1) 1) 0 (qdec 1000008 6) (qdec (-2) 1) 0 0 (qdec 12 1).

Lemma refused_params eps :
  let p := get_params eps refused mid in
  pA p = 1 /\ pB p = qdec 1000016000064 12 /\ pC p = qdec 149 2 /\
  pxi p = qdec (-4000032) 7 /\ peta p = qdec (-2) 1 /\ pzeta p = 0.
Proof. cbv zeta. repeat split; apply Qc_is_canon; vm_compute; reflexivity. Qed.

Lemma refused_niggli : is_niggli refused.
Proof. unfold is_niggli, cell_params. cbv zeta. apply check_exact. vm_compute. reflexivity. Qed.

Ltac qnum := unfold rtol, qdec in *;
  repeat match goal with
  | |- context [Pos.pow 10 ?p] =>
    let v := eval vm_compute in (Pos.pow 10 p) in change (Pos.pow 10 p) with v
  | H : context [Pos.pow 10 ?p] |- _ =>
    let v := eval vm_compute in (Pos.pow 10 p) in change (Pos.pow 10 p) with v in H
  end; qclra.

Lemma refused_settled eps : qdec 9 6 <= eps -> eps <= qdec 12 6 -> is_niggli_upto eps refused.
Proof.
  intros H1 H2. unfold is_niggli_upto, cell_params. cbv zeta.
  replace (q11 (qgram refused)) with 1 by (apply Qc_is_canon; vm_compute; reflexivity).
  replace (q22 (qgram refused)) with (qdec 1000016000064 12) by (apply Qc_is_canon; vm_compute; reflexivity).
  replace (q33 (qgram refused)) with (qdec 149 2) by (apply Qc_is_canon; vm_compute; reflexivity).
  replace (q23 (qgram refused) + q23 (qgram refused)) with (qdec (-4000032) 7)
    by (apply Qc_is_canon; vm_compute; reflexivity).
  replace (q13 (qgram refused) + q13 (qgram refused)) with (qdec (-2) 1)
    by (apply Qc_is_canon; vm_compute; reflexivity).
  replace (q12 (qgram refused) + q12 (qgram refused)) with 0
    by (apply Qc_is_canon; vm_compute; reflexivity).
  constructor; unfold within.
  - qnum.
  - qnum.
  - split; qnum.
  - split; qnum.
  - split; qnum.
  - right. repeat split; qnum.
  - qnum.
  - intros (H & H'). exfalso. apply (Qclt_not_le eps eps); [|apply Qcle_refl]. qnum.
  - intros (H & H'). exfalso. apply (Qclt_not_le eps eps); [|apply Qcle_refl]. qnum.
  - intros (H & H'). exfalso. apply (Qclt_not_le eps eps); [|apply Qcle_refl]. qnum.
  - intros (H & H'). exfalso. apply (Qclt_not_le eps eps); [|apply Qcle_refl]. qnum.
  - intros (H & H'). exfalso. apply (Qclt_not_le eps eps); [|apply Qcle_refl]. qnum.
  - intros (H & H'). exfalso. apply (Qclt_not_le eps eps); [|apply Qcle_refl]. qnum.
  - intros (H & H'). exfalso. apply (Qclt_not_le eps eps); [|apply Qcle_refl]. qnum.
  - intros (H & H'). exfalso. apply (Qclt_not_le eps eps); [|apply Qcle_refl]. qnum.
  - intros (H & H'). exfalso. apply (Qclt_not_le eps eps); [|apply Qcle_refl]. qnum.
Qed.

Lemma refused_check eps : qdec 9 6 <= eps -> eps <= qdec 12 6 ->
  niggli_check 1 (qdec 1000016000064 12) (qdec 149 2) (qdec (-4000032) 7) (qdec (-2) 1) 0 eps = false.
Proof.
  intros H1 H2. unfold niggli_check, niggli_check_tol. cbv zeta.
  match goal with |- (if ?c then false else if ?x then false else ?r) = false =>
    assert (X : x = true); [|rewrite X; now destruct c] end.
  replace (qabs (qdec (-4000032) 7)) with (qdec 4000032 7) by (apply Qc_is_canon; vm_compute; reflexivity).
  replace (qabs (qdec (-2) 1)) with (qdec 2 1) by (apply Qc_is_canon; vm_compute; reflexivity).
  unfold allclose_r.
  replace (qabs (1 - qdec 1000016000064 12)) with (qdec 16000064 12) by (apply Qc_is_canon; vm_compute; reflexivity).
  replace (qabs (qdec 1000016000064 12)) with (qdec 1000016000064 12) by (apply Qc_is_canon; vm_compute; reflexivity).
  replace (qabs (qdec 4000032 7 - qdec 2 1)) with (qdec 2000032 7) by (apply Qc_is_canon; vm_compute; reflexivity).
  replace (qabs (qdec 2 1)) with (qdec 2 1) by (apply Qc_is_canon; vm_compute; reflexivity).
  apply andb_true_intro. split.
  - apply negb_true_iff, qltb_false. qnum.
  - apply negb_true_iff, orb_false_intro.
    + apply qltb_false. qnum.
    + apply negb_false_iff, qltb_iff. qnum.
Qed.

Lemma niggli_cell_refused :
  exists M, qdet M <> 0 /\ is_niggli M /\
    forall cbrt, qdec 9 1 <= cbrt (qabs (qdet M)) <= qdec 12 1 ->
      reduced_cell cbrt (rows_of M) None = ReductionIncorrect.
Proof.
  exists refused.
  assert (D : qdet refused <> 0) by (vm_compute; discriminate).
  split; [exact D|]. split; [exact refused_niggli|]. intros cbrt (H1 & H2).
  rewrite reduced_cell_eps by exact D. unfold used_eps.
  generalize dependent (cbrt (qabs (qdet refused))). intros c H1 H2.
  assert (L1 : qdec 9 6 <= qdec 1 5 * c) by qnum.
  assert (L2 : qdec 1 5 * c <= qdec 12 6) by qnum.
  rewrite settled_reduction.
  - destruct (refused_params (qdec 1 5 * c)) as (E1 & E2 & E3 & E4 & E5 & E6). cbv zeta in *.
    rewrite E1, E2, E3, E4, E5, E6, refused_check by assumption. reflexivity.
  - apply settled_iff; [qnum|]. rewrite qof_id, qmul_id_r. now apply refused_settled.
Qed.
