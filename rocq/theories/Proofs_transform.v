(** [transform_supercells] carries sublattices from the canonical to the user's basis. *)
From Coq Require Import ZArith QArith Qcanon List Lia.
From Verif Require Import Mat3 Spec QMat Model_transform HnfTheory.
Import ListNotations.
Open Scope Qc_scope.

Lemma qeqb_eq x y : qeqb x y = true <-> x = y.
Proof. unfold qeqb. destruct (Qc_eq_dec x y); split; congruence. Qed.
Lemma np_inv_some A : qdet A <> 0 -> np_inv A = Some (qinv A).
Proof.
  intros H. unfold np_inv. destruct (qeqb (qdet A) 0) eqn:E; [|reflexivity].
  now apply qeqb_eq in E.
Qed.
Lemma np_inv_none A : qdet A = 0 -> np_inv A = None.
Proof.
  intros H. unfold np_inv. destruct (qeqb (qdet A) 0) eqn:E; [reflexivity|].
  apply qeqb_eq in H. congruence.
Qed.

Definition unimodular (M : mat3) : Prop := (mdet M * mdet M = 1)%Z.

Lemma unimodular_mul A B : unimodular A -> unimodular B -> unimodular (mmul A B).
Proof. unfold unimodular. rewrite mdet_mul. nia. Qed.
Lemma unimodular_inv A : unimodular A -> unimodular (minv1 A).
Proof. intros H. pose proof (minv1_det A H). unfold unimodular in *. nia. Qed.
Lemma minv1_inv A : unimodular A -> minv1 (minv1 A) = A.
Proof.
  intros H. rewrite <- (mmul_id_l (minv1 (minv1 A))).
  rewrite <- (minv1_r A H), <- mmul_assoc, (minv1_r (minv1 A)) by now apply unimodular_inv.
  apply mmul_id_r.
Qed.

(** The integer change of basis between the canonical and the user's basis. *)
Definition link (Cu Co : mat3) : mat3 := mmul Cu (minv1 Co).

Lemma transform_one_spec U O Cu Co H :
  qdet U <> 0 -> qdet O <> 0 -> unimodular Cu -> unimodular Co ->
  transform_one (qmul O (qof Co)) (qmul U (qof Cu)) (qof Co) (qof Cu) O H =
  Some (qmul U (qof (mmul (mmul (link Cu Co) H) (minv1 (link Cu Co))))).
Proof.
  intros HU HO Hu Hc. unfold transform_one.
  rewrite np_inv_some by exact HO.
  assert (HNo : qdet (qmul O (qof Co)) <> 0).
  { rewrite qdet_mul. apply Qc_mul_neq0; [exact HO|]. now apply unimodular_det. }
  rewrite np_inv_some by exact HNo.
  rewrite np_inv_some by now apply unimodular_det.
  f_equal. rewrite (qinv_qof Cu Hu).
  assert (E1 : qinv (qmul O (qof Co)) = qmul (qof (minv1 Co)) (qinv O)).
  { symmetry. apply qinv_unique; [exact HNo|].
    rewrite <- qmul_assoc, (qmul_assoc (qof Co)), <- qof_mul, minv1_r, qof_id, qmul_id_l
      by exact Hc.
    now apply qinv_r. }
  rewrite E1. unfold link.
  assert (E2 : minv1 (mmul Cu (minv1 Co)) = mmul Co (minv1 Cu)).
  { apply qof_inj. rewrite <- qinv_qof by (apply unimodular_mul; [exact Hu|now apply unimodular_inv]).
    symmetry. apply qinv_unique.
    - apply unimodular_det. apply unimodular_mul; [exact Hu|now apply unimodular_inv].
    - rewrite <- qof_mul, <- mmul_assoc, (mmul_assoc (minv1 Co)), minv1_l, mmul_id_l by exact Hc.
      rewrite minv1_r by exact Hu. apply qof_id. }
  rewrite E2, !qof_mul, <- !qmul_assoc.
  rewrite (qmul_assoc (qinv O) O), qinv_l, qmul_id_l by exact HO.
  rewrite (qmul_assoc (qinv O) O), qinv_l, qmul_id_l by exact HO.
  reflexivity.
Qed.

Definition carried (Cu Co H : mat3) : mat3 :=
  mmul (mmul (link Cu Co) H) (minv1 (link Cu Co)).

Lemma transform_map U O Cu Co hs :
  qdet U <> 0 -> qdet O <> 0 -> unimodular Cu -> unimodular Co ->
  transform_supercells hs (qmul O (qof Co)) (qmul U (qof Cu)) (qof Co) (qof Cu) O =
  Some (map (fun H => qmul U (qof (carried Cu Co H))) hs).
Proof.
  intros HU HO Hu Hc. induction hs as [|H hs IH]; [reflexivity|].
  cbn [transform_supercells map]. rewrite transform_one_spec by assumption.
  rewrite IH. reflexivity.
Qed.

Lemma link_unimodular Cu Co : unimodular Cu -> unimodular Co -> unimodular (link Cu Co).
Proof. intros. apply unimodular_mul; [assumption|now apply unimodular_inv]. Qed.

Lemma conj_det L H : unimodular L -> mdet (mmul (mmul L H) (minv1 L)) = mdet H.
Proof.
  intros HL. rewrite !mdet_mul. pose proof (minv1_det _ HL) as E.
  generalize dependent (mdet (minv1 L)). generalize (mdet L), (mdet H). intros l h i E.
  transitivity (h * (i * l))%Z; [ring|]. rewrite E. ring.
Qed.

Lemma carried_det Cu Co H : unimodular Cu -> unimodular Co ->
  mdet (carried Cu Co H) = mdet H.
Proof. intros Hu Hc. apply conj_det. now apply link_unimodular. Qed.

(** Every returned matrix is an integer supercell of the index of its HNF. *)
Lemma transform_supercell U O Cu Co hs :
  qdet U <> 0 -> qdet O <> 0 -> unimodular Cu -> unimodular Co ->
  exists l,
    transform_supercells hs (qmul O (qof Co)) (qmul U (qof Cu)) (qof Co) (qof Cu) O = Some l /\
    Forall2 (fun H B => supercell (mdet H) U B) hs l.
Proof.
  intros HU HO Hu Hc. eexists. split; [now apply transform_map|].
  induction hs as [|H hs IH]; [constructor|]. cbn [map]. constructor; [|exact IH].
  exists (carried Cu Co H). split; [reflexivity|]. now apply carried_det.
Qed.

Lemma transform_singular hs No Nu Co Cu O :
  hs <> [] -> (qdet O = 0 \/ qdet No = 0 \/ qdet Cu = 0) ->
  transform_supercells hs No Nu Co Cu O = None.
Proof.
  intros Hne Hs. destruct hs as [|H hs]; [congruence|].
  cbn [transform_supercells].
  assert (E : transform_one No Nu Co Cu O H = None); [|now rewrite E].
  unfold transform_one.
  destruct (np_inv O) eqn:E1; [|reflexivity].
  destruct (np_inv No) eqn:E2; [|reflexivity].
  destruct (np_inv Cu) eqn:E3; [|reflexivity].
  destruct Hs as [Hs|[Hs|Hs]]; apply np_inv_none in Hs; congruence.
Qed.

(** ** Symmetry transport *)

Lemma mvec_id x : mvec mid x = x.
Proof.
  destruct x as [x1 x2 x3]. unfold mvec, mid.
  cbn [m11 m12 m13 m21 m22 m23 m31 m32 m33 v1 v2 v3]. f_equal; lia.
Qed.

(** Lattice of [L H L^-1] when [L] is unimodular: the image of the lattice of [H]. *)
Lemma lattice_conj L H x : unimodular L ->
  in_lattice (mmul (mmul L H) (minv1 L)) x <-> in_lattice H (mvec (minv1 L) x).
Proof.
  intros HL. unfold in_lattice. split.
  - intros (v & ->). exists (mvec (minv1 L) v). rewrite <- !mvec_mul.
    f_equal. rewrite !mmul_assoc, minv1_l, mmul_id_l by exact HL. reflexivity.
  - intros (v & E). exists (mvec L v). rewrite <- !mvec_mul, <- !mmul_assoc, minv1_l, mmul_id_r
      by exact HL.
    rewrite mvec_mul, <- E, <- mvec_mul, minv1_r by exact HL.
    symmetry. apply mvec_id.
Qed.

Lemma preserves_conj L H X : unimodular L ->
  preserves (mmul (mmul L X) (minv1 L)) (mmul (mmul L H) (minv1 L)) <-> preserves X H.
Proof.
  intros HL. unfold preserves. split.
  - intros P y Hy. specialize (P (mvec L y)).
    rewrite !lattice_conj in P by exact HL. rewrite <- !mvec_mul in P.
    rewrite !mmul_assoc in P. rewrite minv1_l, mmul_id_l in P by exact HL.
    pose proof (mvec_id y) as E.
    rewrite <- (mmul_assoc X), minv1_l, mmul_id_r, E in P by exact HL. now apply P.
  - intros P y Hy. rewrite lattice_conj in * by exact HL.
    apply P in Hy. rewrite <- !mvec_mul in *. rewrite !mmul_assoc, minv1_l, mmul_id_l by exact HL.
    exact Hy.
Qed.

(** Isometries in another basis of the same lattice. *)
Lemma qisometry_change B C X : unimodular C ->
  qisometry (qgram (qmul B (qof C))) X <->
  qisometry (qgram B) (mmul (mmul C X) (minv1 C)).
Proof.
  intros HC. unfold qisometry, qgram. rewrite !qof_mul, !qtr_mul.
  pose proof (f_equal qof (minv1_l C HC)) as E1. pose proof (f_equal qof (minv1_r C HC)) as E2.
  rewrite qof_mul, qof_id in E1, E2.
  pose proof (f_equal qtr E1) as T1. pose proof (f_equal qtr E2) as T2.
  rewrite qtr_mul in T1, T2. change (qtr qid) with qid in T1, T2.
  set (c := qof C) in *. set (d := qof (minv1 C)) in *. set (x := qof X).
  set (G := qmul (qtr B) B).
  assert (EG : qmul (qmul (qtr c) (qtr B)) (qmul B c) = qmul (qmul (qtr c) G) c)
    by (unfold G; rewrite <- !qmul_assoc; reflexivity).
  rewrite EG. split; intros H.
  - apply (f_equal (fun M => qmul (qtr d) (qmul M d))) in H.
    rewrite <- !qmul_assoc in H. rewrite E2, qmul_id_r in H.
    rewrite (qmul_assoc (qtr d) (qtr c)), T2, qmul_id_l in H.
    rewrite <- !qmul_assoc. exact H.
  - apply (f_equal (fun M => qmul (qtr c) (qmul M c))) in H.
    rewrite <- !qmul_assoc in H. rewrite E1, qmul_id_r in H.
    rewrite (qmul_assoc (qtr c) (qtr d)), T1, qmul_id_l in H.
    rewrite <- !qmul_assoc. exact H.
Qed.

Lemma isometry_change G C X : unimodular C ->
  isometry (mmul (mtr C) (mmul G C)) X <-> isometry G (mmul (mmul C X) (minv1 C)).
Proof.
  intros HC. unfold isometry. rewrite !mtr_mul.
  pose proof (minv1_l C HC) as E1. pose proof (minv1_r C HC) as E2.
  pose proof (f_equal mtr E1) as T1. pose proof (f_equal mtr E2) as T2.
  rewrite mtr_mul in T1, T2. change (mtr mid) with mid in T1, T2.
  set (d := minv1 C) in *. split; intros H.
  - apply (f_equal (fun M => mmul (mtr d) (mmul M d))) in H.
    rewrite <- !mmul_assoc in H. rewrite E2, mmul_id_r in H.
    rewrite (mmul_assoc (mtr d) (mtr C)), T2, mmul_id_l in H.
    rewrite <- !mmul_assoc. exact H.
  - apply (f_equal (fun M => mmul (mtr C) (mmul M C))) in H.
    rewrite <- !mmul_assoc in H. rewrite E1, mmul_id_r in H.
    rewrite (mmul_assoc (mtr C) (mtr d)), T1, mmul_id_l in H.
    rewrite <- !mmul_assoc. exact H.
Qed.

(** The user's lattice has no symmetry that the canonical lattice [G] lacks, both written
    in their reduced bases. *)
Definition symmetries_within (U : qmat) (Cu Co G : mat3) : Prop :=
  forall X, qisometry (qgram (qmul U (qof Cu))) X -> isometry (mmul (mtr Co) (mmul G Co)) X.

Definition same_symmetries (U : qmat) (Cu Co G : mat3) : Prop :=
  forall X, qisometry (qgram (qmul U (qof Cu))) X <-> isometry (mmul (mtr Co) (mmul G Co)) X.

Lemma link_conj Cu Co X : unimodular Cu -> unimodular Co ->
  mmul (mmul (link Cu Co) (mmul (mmul Co X) (minv1 Co))) (minv1 (link Cu Co)) =
  mmul (mmul Cu X) (minv1 Cu).
Proof.
  intros Hu Hc. pose proof (link_unimodular Cu Co Hu Hc) as HL.
  assert (E2 : minv1 (link Cu Co) = mmul Co (minv1 Cu)).
  { unfold link. apply qof_inj. rewrite <- qinv_qof by exact HL.
    symmetry. apply qinv_unique; [now apply unimodular_det|].
    rewrite <- qof_mul. unfold link.
    rewrite <- mmul_assoc, (mmul_assoc (minv1 Co)), minv1_l, mmul_id_l by exact Hc.
    rewrite minv1_r by exact Hu. apply qof_id. }
  rewrite E2. unfold link. rewrite <- !mmul_assoc.
  rewrite (mmul_assoc (minv1 Co) Co), minv1_l, mmul_id_l by exact Hc.
  rewrite (mmul_assoc (minv1 Co) Co), minv1_l, mmul_id_l by exact Hc.
  reflexivity.
Qed.

Lemma conj_back C Y : unimodular C ->
  mmul (mmul C (mmul (mmul (minv1 C) Y) C)) (minv1 C) = Y.
Proof.
  intros HC. rewrite <- !mmul_assoc, minv1_r, mmul_id_r by exact HC.
  rewrite mmul_assoc, minv1_r, mmul_id_l by exact HC. reflexivity.
Qed.

Lemma carried_symmetry U Cu Co G H :
  qdet U <> 0 -> unimodular Cu -> unimodular Co ->
  symmetries_within U Cu Co G -> symmetry_preserving G H ->
  keeps_symmetry U (qmul U (qof (carried Cu Co H))).
Proof.
  intros HU Hu Hc HS HP. apply keeps_symmetry_iff; [exact HU|].
  intros Y HY.
  set (X := mmul (mmul (minv1 Cu) Y) Cu).
  assert (EY : Y = mmul (mmul Cu X) (minv1 Cu)) by (unfold X; now rewrite conj_back).
  rewrite EY in HY. apply (proj2 (qisometry_change U Cu X Hu)) in HY.
  apply HS in HY. apply isometry_change in HY; [|exact Hc].
  apply HP in HY. rewrite EY, <- (link_conj Cu Co) by assumption.
  unfold carried. apply preserves_conj; [now apply link_unimodular|exact HY].
Qed.

Lemma transform_symmetry U O Cu Co G hs :
  qdet U <> 0 -> qdet O <> 0 -> unimodular Cu -> unimodular Co ->
  symmetries_within U Cu Co G -> Forall (symmetry_preserving G) hs ->
  exists l,
    transform_supercells hs (qmul O (qof Co)) (qmul U (qof Cu)) (qof Co) (qof Cu) O = Some l /\
    Forall (keeps_symmetry U) l.
Proof.
  intros HU HO Hu Hc HS HP. eexists. split; [now apply transform_map|].
  induction HP as [|H hs H1 H2 IH]; [constructor|]. cbn [map]. constructor; [|exact IH].
  now apply (carried_symmetry U Cu Co G).
Qed.

(** Right multiplication by a unimodular matrix keeps the lattice. *)
Lemma same_lattice_unimodular H C : unimodular C -> same_lattice (mmul H C) H.
Proof.
  intros HC x. unfold in_lattice. split.
  - intros (v & ->). exists (mvec C v). now rewrite mvec_mul.
  - intros (v & ->). exists (mvec (minv1 C) v).
    rewrite <- mvec_mul, <- mmul_assoc, minv1_r, mmul_id_r by exact HC. reflexivity.
Qed.

Lemma conj_same L H K : unimodular L ->
  same_lattice (mmul (mmul L H) (minv1 L)) (mmul (mmul L K) (minv1 L)) <-> same_lattice H K.
Proof.
  intros HL. split; intros S x.
  - specialize (S (mvec L x)). rewrite !lattice_conj in S by exact HL.
    rewrite <- !mvec_mul, minv1_l in S by exact HL.
    pose proof (mvec_id x) as E.
    now rewrite E in S.
  - rewrite !lattice_conj by exact HL. apply S.
Qed.

Lemma minv_conj_conj L M : unimodular L ->
  mmul (mmul L (mmul (mmul (minv1 L) M) L)) (minv1 L) = M.
Proof. apply conj_back. Qed.

(** Nothing is lost when the symmetries agree: a complete list in the canonical basis
    gives a complete list in the user's basis. *)
Lemma transform_complete U O Cu Co G n hs :
  qdet U <> 0 -> qdet O <> 0 -> unimodular Cu -> unimodular Co -> (1 <= n)%Z ->
  same_symmetries U Cu Co G ->
  (forall H, In H hs <-> is_hnf n H /\ symmetry_preserving G H) -> NoDup hs ->
  exists l,
    transform_supercells hs (qmul O (qof Co)) (qmul U (qof Cu)) (qof Co) (qof Cu) O = Some l /\
    Forall (fun B => supercell n U B /\ keeps_symmetry U B) l /\
    (forall B m, supercell m U B -> Z.abs m = n -> keeps_symmetry U B ->
       exists S, In S l /\ same_span S B) /\
    (forall i j Bi Bj, nth_error l i = Some Bi -> nth_error l j = Some Bj ->
       same_span Bi Bj -> i = j).
Proof.
  intros HU HO Hu Hc Hn HS HP HN. pose proof (link_unimodular Cu Co Hu Hc) as HL.
  eexists. split; [now apply transform_map|]. split; [|split].
  - apply Forall_forall. intros B HB. apply in_map_iff in HB. destruct HB as (H & <- & HH).
    apply HP in HH. destruct HH as (HH & HG). split.
    + exists (carried Cu Co H). split; [reflexivity|]. rewrite carried_det by assumption.
      now apply (is_hnf_det n H).
    + apply (carried_symmetry U Cu Co G); try assumption. intros X HX. now apply HS.
  - intros B m (M & -> & HM) Hm HK. rewrite keeps_symmetry_iff in HK by exact HU.
    set (L := link Cu Co) in *. set (M' := mmul (mmul (minv1 L) M) L).
    assert (EM : mmul (mmul L M') (minv1 L) = M) by (unfold M'; now apply conj_back).
    assert (HG : symmetry_preserving G M').
    { intros X HX. set (X0 := mmul (mmul (minv1 Co) X) Co).
      assert (EX : X = mmul (mmul Co X0) (minv1 Co)) by (unfold X0; now rewrite conj_back).
      rewrite EX in HX. apply isometry_change in HX; [|exact Hc].
      apply HS in HX. apply (proj1 (qisometry_change U Cu X0 Hu)) in HX.
      apply HK in HX. rewrite <- (link_conj Cu Co), <- EX in HX by assumption.
      fold L in HX. rewrite <- EM in HX. apply preserves_conj in HX; [exact HX|exact HL]. }
    assert (HD : Z.abs (mdet M') = n).
    { rewrite <- EM, conj_det in HM by exact HL. now rewrite HM. }
    destruct (hnf_exists_unique n M') as (H & (HH & HSame) & _); [exact Hn|exact HD|].
    exists (qmul U (qof (carried Cu Co H))). split.
    + apply in_map_iff. exists H. split; [reflexivity|]. apply HP.
      split; [exact HH|]. intros X HX. specialize (HG X HX).
      apply (preserves_same_lattice X M' H); [|exact HG].
      intros x. split; apply HSame.
    + apply same_span_lattice; [exact HU|]. rewrite <- EM. unfold carried. fold L.
      apply conj_same; [exact HL|]. exact HSame.
  - intros i j Bi Bj Ei Ej HSame. revert Ei Ej. rewrite !nth_error_map.
    destruct (nth_error hs i) as [Hi|] eqn:Ni; [|discriminate].
    destruct (nth_error hs j) as [Hj|] eqn:Nj; [|discriminate].
    cbn [option_map]. intros [= <-] [= <-].
    rewrite same_span_lattice in HSame by exact HU. unfold carried in HSame.
    apply conj_same in HSame; [|exact HL].
    assert (E : Hi = Hj).
    { pose proof (proj1 (HP Hi) (nth_error_In _ _ Ni)) as (P1 & _).
      pose proof (proj1 (HP Hj) (nth_error_In _ _ Nj)) as (P2 & _).
      now apply (hnf_unique n n). }
    subst Hj. apply (proj1 (NoDup_nth_error hs) HN); [|congruence].
    apply nth_error_Some. congruence.
Qed.
