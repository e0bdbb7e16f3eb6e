(** A library for the example of C65. *)
From Coq Require Import ZArith QArith Qcanon List Bool Lia Lqa.
From Verif Require Import Mat3 Spec QMat QNum QcTac Spec_kgrids Spec_control Model_control Proofs_control
  Proofs_gridcell Model_driver Spec_driver Proofs_driver Proofs_driver2.
Import ListNotations.
Open Scope Qc_scope.

Definition eight (g : qmat) : list (qvec * Z) :=
  map (fun vw => (qmvec g (qvof (fst vw)), snd vw))
    [(Vec3 0 0 0, 1); (Vec3 1 0 0, 3); (Vec3 1 1 0, 3); (Vec3 1 1 1, 1)]%Z.
Definition half_grid : qmat := qscale (Q2Qc (1 # 2)) qid.
Definition to_nearest (p : qvec) : qvec :=
  qvsub p (QVec (zq (nint (w1 p))) (zq (nint (w2 p))) (zq (nint (w3 p)))).

Lemma id_reciprocal : reciprocal qid = qid.
Proof. unfold reciprocal, qinv, qtr, qscale, qadj, qdet, qid. qcbn. f_equal; apply Qc_is_canon; vm_compute; reflexivity. Qed.
Lemma half_kgrid : kgrid 8 qid half_grid.
Proof.
  exists (Mat3 2 0 0 0 2 0 0 0 2). split; [|reflexivity]. rewrite id_reciprocal.
  unfold half_grid, qmul, qscale, qof, qid. qcbn. cbn [m11 m12 m13 m21 m22 m23 m31 m32 m33].
  f_equal; apply Qc_is_canon; vm_compute; reflexivity.
Qed.

Lemma one_nearest x (z : Z) : let y := x - zq (nint x) in y * y <= (y + zq z) * (y + zq z).
Proof.
  intros y. pose proof (nint_nearest x) as N. unfold nearest in N. cbv zeta in N.
  assert (B : qabs (zq (nint x) - x) + qabs (zq (nint x) - x) <= 1) by (destruct N as [N|(N & _)]; qclra).
  pose proof (qabs_bounds (zq (nint x) - x)) as (Q1 & Q2).
  assert (Y : - (1) <= y + y /\ y + y <= 1) by (unfold y; split; qclra).
  clearbody y. clear - Y. destruct Y as (Y1 & Y2).
  assert (E : (y + zq z) * (y + zq z) = y * y + zq z * ((y + y) + zq z)) by ring. rewrite E.
  assert (0 <= zq z * (y + y + zq z)); [|qclra].
  destruct (Z.eq_dec z 0) as [->|Hz]; [rewrite zq_0, Qcmult_0_l; apply Qcle_refl|].
  destruct (Z_lt_le_dec 0 z) as [P|P].
  - apply mul0; [rewrite <- zq_0; apply zq_le; lia|].
    assert (1 <= zq z) by (rewrite <- zq_1; apply zq_le; lia). qclra.
  - assert (E2 : zq z * (y + y + zq z) = (- zq z) * (- (y + y) - zq z)) by ring. rewrite E2.
    assert (zq z <= - (1)) by (rewrite <- zq_1, <- zq_opp; apply zq_le; lia).
    apply mul0; qclra.
Qed.

Lemma nearest_zone : maps_into_zone qid to_nearest.
Proof.
  intros p. split.
  - exists (Vec3 (- nint (w1 p)) (- nint (w2 p)) (- nint (w3 p))).
    rewrite qmvec_id. unfold to_nearest, qvsub, qvof. cbn [w1 w2 w3 v1 v2 v3]. rewrite !zq_opp. f_equal; ring.
  - intros G (v & ->). rewrite qmvec_id. unfold to_nearest, qvsub, qvadd, qvof, norm2. cbn [w1 w2 w3].
    pose proof (one_nearest (w1 p) (v1 v)) as A. pose proof (one_nearest (w2 p) (v2 v)) as B.
    pose proof (one_nearest (w3 p) (v3 v)) as C. cbv zeta in A, B, C.
    revert A B C.
    generalize ((w1 p - zq (nint (w1 p)) + zq (v1 v)) * (w1 p - zq (nint (w1 p)) + zq (v1 v))).
    generalize ((w2 p - zq (nint (w2 p)) + zq (v2 v)) * (w2 p - zq (nint (w2 p)) + zq (v2 v))).
    generalize ((w3 p - zq (nint (w3 p)) + zq (v3 v)) * (w3 p - zq (nint (w3 p)) + zq (v3 v))).
    generalize ((w1 p - zq (nint (w1 p))) * (w1 p - zq (nint (w1 p)))).
    generalize ((w2 p - zq (nint (w2 p))) * (w2 p - zq (nint (w2 p)))).
    generalize ((w3 p - zq (nint (w3 p))) * (w3 p - zq (nint (w3 p)))).
    intros. qclra.
Qed.

Lemma half_point v : qmvec half_grid (qvof v) = qvscale (Q2Qc (1 # 2)) (qvof v).
Proof. unfold half_grid, qmvec, qscale, qid, qvscale. qcbn. f_equal; ring. Qed.
Lemma half_diff (a b : Z) (k : Z) : (a - b = 2 * k)%Z ->
  Q2Qc (1 # 2) * zq a - Q2Qc (1 # 2) * zq b = zq k.
Proof.
  intros E. replace (Q2Qc (1 # 2) * zq a - Q2Qc (1 # 2) * zq b) with (Q2Qc (1 # 2) * zq (a - b)) by (rewrite zq_sub; ring).
  rewrite E, zq_mul. rewrite Qcmult_assoc. replace (Q2Qc (1 # 2) * zq 2) with 1; [ring|].
  apply Qc_is_canon. vm_compute. reflexivity.
Qed.

Definition pm (X : mat3) : qmat := qof X.
Lemma pm_orthogonal X : mmul (mtr X) X = mid -> orthogonal (pm X).
Proof. intros H. unfold orthogonal, pm. rewrite <- qof_tr, <- qof_mul, H. apply qof_id. Qed.

Lemma eight_list : kpoint_list orthogonal qid half_grid (0, 0, 0) (eight half_grid).
Proof.
  assert (G : forall v, on_grid half_grid (0, 0, 0) (qmvec half_grid (qvof v))).
  { intros v. exists v. f_equal. unfold qvadd, qvof. cbn [w1 w2 w3]. f_equal; ring. }
  split; [|split].
  - intros p w Hp. unfold eight in Hp. apply in_map_iff in Hp. destruct Hp as ((v, u) & E & Hv).
    cbn [fst snd] in E. injection E as <- <-. split; [apply G|].
    cbn [In] in Hv. repeat (destruct Hv as [Hv|Hv]; [injection Hv as <- <-; lia|]). destruct Hv.
  - intros q (z & ->).
    replace (qvadd (qvof z) (QVec 0 0 0)) with (qvof z) by (unfold qvadd, qvof; cbn [w1 w2 w3]; f_equal; ring).
    assert (K : forall v w X, In (v, w) [(Vec3 0 0 0, 1); (Vec3 1 0 0, 3); (Vec3 1 1 0, 3); (Vec3 1 1 1, 1)]%Z ->
      mmul (mtr X) X = mid ->
      (exists k, let t := mvec X z in v1 v - v1 t = 2 * v1 k /\ v2 v - v2 t = 2 * v2 k /\ v3 v - v3 t = 2 * v3 k)%Z ->
      exists p w T, In (p, w) (eight half_grid) /\ orthogonal T /\
        in_span qid (qvsub p (qmvec T (qmvec half_grid (qvof z))))).
    { intros v w X Hv HX (k & E1 & E2 & E3). exists (qmvec half_grid (qvof v)), w, (pm X).
      split; [|split; [now apply pm_orthogonal|]].
      - unfold eight. apply in_map_iff. exists (v, w). now split.
      - exists k. rewrite qmvec_id, !half_point.
        replace (qmvec (pm X) (qvscale (Q2Qc (1 # 2)) (qvof z))) with (qvscale (Q2Qc (1 # 2)) (qvof (mvec X z))).
        + unfold qvsub, qvscale, qvof. cbn [w1 w2 w3]. f_equal; apply half_diff; assumption.
        + rewrite <- qof_mvec. unfold pm, qvscale, qmvec, qof. qcbn. f_equal; ring. }
    destruct (Z.Even_or_Odd (v1 z)) as [(a & Ea)|(a & Ea)];
    destruct (Z.Even_or_Odd (v2 z)) as [(b & Eb)|(b & Eb)];
    destruct (Z.Even_or_Odd (v3 z)) as [(c & Ec)|(c & Ec)].
    + apply (K (Vec3 0 0 0) 1%Z mid); [cbn; tauto|reflexivity|]. exists (Vec3 (-a) (-b) (-c)).
      unfold mvec, mid. cbn [m11 m12 m13 m21 m22 m23 m31 m32 m33 v1 v2 v3]. lia.
    + apply (K (Vec3 1 0 0) 3%Z (Mat3 0 0 1 0 1 0 1 0 0)); [cbn; tauto|reflexivity|]. exists (Vec3 (-c) (-b) (-a)).
      unfold mvec. cbn [m11 m12 m13 m21 m22 m23 m31 m32 m33 v1 v2 v3]. lia.
    + apply (K (Vec3 1 0 0) 3%Z (Mat3 0 1 0 1 0 0 0 0 1)); [cbn; tauto|reflexivity|]. exists (Vec3 (-b) (-a) (-c)).
      unfold mvec. cbn [m11 m12 m13 m21 m22 m23 m31 m32 m33 v1 v2 v3]. lia.
    + apply (K (Vec3 1 1 0) 3%Z (Mat3 0 0 1 0 1 0 1 0 0)); [cbn; tauto|reflexivity|]. exists (Vec3 (-c) (-b) (-a)).
      unfold mvec. cbn [m11 m12 m13 m21 m22 m23 m31 m32 m33 v1 v2 v3]. lia.
    + apply (K (Vec3 1 0 0) 3%Z mid); [cbn; tauto|reflexivity|]. exists (Vec3 (-a) (-b) (-c)).
      unfold mvec, mid. cbn [m11 m12 m13 m21 m22 m23 m31 m32 m33 v1 v2 v3]. lia.
    + apply (K (Vec3 1 1 0) 3%Z (Mat3 1 0 0 0 0 1 0 1 0)); [cbn; tauto|reflexivity|]. exists (Vec3 (-a) (-c) (-b)).
      unfold mvec. cbn [m11 m12 m13 m21 m22 m23 m31 m32 m33 v1 v2 v3]. lia.
    + apply (K (Vec3 1 1 0) 3%Z mid); [cbn; tauto|reflexivity|]. exists (Vec3 (-a) (-b) (-c)).
      unfold mvec, mid. cbn [m11 m12 m13 m21 m22 m23 m31 m32 m33 v1 v2 v3]. lia.
    + apply (K (Vec3 1 1 1) 1%Z mid); [cbn; tauto|reflexivity|]. exists (Vec3 (-a) (-b) (-c)).
      unfold mvec, mid. cbn [m11 m12 m13 m21 m22 m23 m31 m32 m33 v1 v2 v3]. lia.
  - intros M E. change (fold_right Z.add 0%Z (map snd (eight half_grid))) with 8%Z.
    assert (EM : M = Mat3 2 0 0 0 2 0 0 0 2).
    { assert (D : qdet half_grid <> 0) by (intros H; vm_compute in H; discriminate H).
      assert (H : qof M = qof (Mat3 2 0 0 0 2 0 0 0 2)).
      { assert (E1 : qid = qmul half_grid (qof (Mat3 2 0 0 0 2 0 0 0 2))).
        { unfold half_grid, qmul, qscale, qof, qid. qcbn. cbn [m11 m12 m13 m21 m22 m23 m31 m32 m33].
          f_equal; apply Qc_is_canon; vm_compute; reflexivity. }
        apply (qmul_cancel_l half_grid); [exact D|]. now rewrite <- E, <- E1. }
      now apply qof_inj in H. }
    rewrite EM. reflexivity.
Qed.
