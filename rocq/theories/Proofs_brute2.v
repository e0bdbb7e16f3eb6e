(** Proofs about get_srHNFs (srHNF_brute.f90). *)
From Coq Require Import ZArith List Bool Lia QArith Qcanon Qround.
From Verif Require Import Mat3 Spec PyNum PyNumFacts QMat Model_grid_utils Model_sp_hnfs Model_brute Spec_brute FortFacts Proofs_grid_utils Proofs_sp_hnfs3 Proofs_nodup.
Import ListNotations.
Open Scope Z_scope.

(** ** Membership and order of the loops *)
Lemma in_get_srHNFs equal P gens n H :
  In H (get_srHNFs equal P gens n) <-> 1 <= n /\ is_hnf n H /\ symm_pres equal (qmul P (qof H)) gens = true.
Proof.
  unfold get_srHNFs. rewrite in_py_for. split.
  - intros (((a & c) & f) & Hd & Hi). apply in_f_diagonals in Hd as (Ha & Hc & Hf & E).
    apply in_py_for in Hi as (j & Hj & Hi). apply in_py_for in Hi as (k & Hk & Hi). apply in_py_for in Hi as (l & Hl & Hi).
    cbv zeta in Hi. apply in_py_if in Hi as (T & [<-|[]]). apply in_do_range1 in Hj, Hk, Hl.
    split; [nia|]. split; [|exact T]. exists a, j, c, k, l, f. now repeat split.
  - intros (_ & (a & b & c & d & e & f & -> & Ha & Hc & Hf & E & Hb & Hd & He) & T).
    exists (a, c, f). split; [now apply in_f_diagonals|].
    apply in_py_for. exists b. split; [now apply in_do_range1|].
    apply in_py_for. exists d. split; [now apply in_do_range1|].
    apply in_py_for. exists e. split; [now apply in_do_range1|].
    cbv zeta. apply in_py_if. split; [exact T|now left].
Qed.

Lemma NoDup_get_srHNFs equal P gens n : NoDup (get_srHNFs equal P gens n).
Proof.
  unfold get_srHNFs. apply NoDup_py_for with (key := fun H => (m11 H, m22 H, m33 H)).
  - rewrite f_diagonals_py. apply NoDup_diagonals.
  - intros ((a & c) & f) _. apply NoDup_py_for with (key := m21); [apply NoDup_do_range; lia| |].
    + intros j _. apply NoDup_py_for with (key := m31); [apply NoDup_do_range; lia| |].
      * intros k _. apply NoDup_py_for with (key := m32); [apply NoDup_do_range; lia| |].
        -- intros l _. cbv zeta. unfold py_if. destruct (symm_pres _ _ _); repeat constructor. intros [].
        -- intros l y _ Hy. cbv zeta in Hy. apply in_py_if in Hy as (_ & [<-|[]]). reflexivity.
      * intros k y _ Hy. apply in_py_for in Hy as (l & _ & Hy). cbv zeta in Hy. apply in_py_if in Hy as (_ & [<-|[]]). reflexivity.
    + intros j y _ Hy. apply in_py_for in Hy as (k & _ & Hy). apply in_py_for in Hy as (l & _ & Hy). cbv zeta in Hy. apply in_py_if in Hy as (_ & [<-|[]]). reflexivity.
  - intros ((a & c) & f) y _ Hy. apply in_py_for in Hy as (j & _ & Hy). apply in_py_for in Hy as (k & _ & Hy). apply in_py_for in Hy as (l & _ & Hy).
    cbv zeta in Hy. apply in_py_if in Hy as (_ & [<-|[]]). reflexivity.
Qed.

(** ** The test *)
Open Scope Qc_scope.
(** An entry of the transformation matrix is a multiple of 1/n. *)
Lemma close_integer eps n z k : (0 < n)%Z -> eps * zq n <= 1 ->
  zq z / zq n - zq k < eps -> zq k - zq z / zq n < eps -> z = (k * n)%Z.
Proof.
  intros Hn He H1 H2.
  assert (Hq : 0 < zq n) by (rewrite <- zq_0; unfold zq, Qclt; cbn [this Q2Qc]; rewrite !Qred_correct; unfold Qlt; cbn; lia).
  assert (Hn0 : zq n <> 0) by (apply zq_neq0; lia).
  assert (B1 : zq (z - k * n) < zq 1).
  { rewrite zq_1. apply Qclt_le_trans with (y := eps * zq n); [|exact He].
    replace (zq (z - k * n)) with ((zq z / zq n - zq k) * zq n) by (rewrite zq_sub, zq_mul; field; exact Hn0).
    now apply Qcmult_lt_compat_r. }
  assert (B2 : zq (k * n - z) < zq 1).
  { rewrite zq_1. apply Qclt_le_trans with (y := eps * zq n); [|exact He].
    replace (zq (k * n - z)) with ((zq k - zq z / zq n) * zq n) by (rewrite zq_sub, zq_mul; field; exact Hn0).
    now apply Qcmult_lt_compat_r. }
  unfold zq, Qclt in B1, B2. cbn [this Q2Qc] in B1, B2. rewrite !Qred_correct in B1, B2. unfold Qlt in B1, B2. cbn in B1, B2. lia.
Qed.

Lemma qmul_scale_l k A B : qmul (qscale k A) B = qscale k (qmul A B).
Proof. destruct A, B. unfold qmul, qscale; cbn. f_equal; ring. Qed.
Lemma qof_adj H : qadj (qof H) = qof (madj H).
Proof. destruct H. unfold qadj, qof, madj; cbn. f_equal; rewrite !zq_sub, !zq_mul; ring. Qed.
Lemma qinv_mul A B : qdet A <> 0 -> qdet B <> 0 -> qinv (qmul A B) = qmul (qinv B) (qinv A).
Proof.
  intros HA HB. symmetry. apply qinv_unique; [rewrite qdet_mul; now apply Qc_mul_neq0|].
  rewrite <- qmul_assoc, (qmul_assoc B), qinv_r, qmul_id_l, qinv_r by assumption. reflexivity.
Qed.
Lemma lat_coords P H R X : qdet P <> 0 -> mdet H <> 0%Z -> qmul R P = qmul P (qof X) ->
  qmul (qinv (qmul P (qof H))) (qmul R (qmul P (qof H))) = qscale (/ zq (mdet H)) (qof (mmul (madj H) (mmul X H))).
Proof.
  intros HP HH E. assert (HH' : qdet (qof H) <> 0) by (rewrite qof_det; now apply zq_neq0).
  rewrite qinv_mul by assumption. rewrite (qmul_assoc R), E, <- !qmul_assoc, (qmul_assoc (qinv P)), qinv_l, qmul_id_l by exact HP.
  unfold qinv at 1. rewrite qmul_scale_l, qof_adj, <- !qof_mul, qof_det. reflexivity.
Qed.
(** The transformation is by an integer matrix. *)
Definition integral (A : qmat) : Prop := exists N, A = qof N.
Lemma symm_pres_one eps equal P H R X n : qdet P <> 0 -> mdet H = n -> (0 < n)%Z -> eps * zq n <= 1 -> tolerance eps equal ->
  qmul R P = qmul P (qof X) ->
  let N := qmul (qinv (qmul P (qof H))) (qmul R (qmul P (qof H))) in
  equal N (qof (nint_mat N)) = true <-> integral N.
Proof.
  intros HP HH Hn He [Hr Ht] E N. split.
  - intros T. apply Ht in T. assert (EN : N = qscale (/ zq n) (qof (mmul (madj H) (mmul X H)))).
    { unfold N. rewrite (lat_coords P H R X) by (assumption || lia). now rewrite HH. }
    clearbody N. set (W := mmul (madj H) (mmul X H)) in *. clearbody W. set (K := nint_mat N) in *. clearbody K.
    exists K. rewrite EN in T |- *. clear EN Ht Hr. destruct W as [a1 a2 a3 a4 a5 a6 a7 a8 a9]. destruct K as [b1 b2 b3 b4 b5 b6 b7 b8 b9].
    unfold entries, qscale, qof in T. cbn in T. unfold qscale, qof. cbn.
    assert (C : forall z k, (/ zq n * zq z - zq k < eps) /\ (zq k - / zq n * zq z < eps) -> / zq n * zq z = zq k).
    { intros z k (C1 & C2). assert (Hn0 : zq n <> 0) by (apply zq_neq0; lia).
      replace (/ zq n * zq z) with (zq z / zq n) in * by (field; exact Hn0).
      rewrite (close_integer eps n z k Hn He C1 C2), zq_mul. field. exact Hn0. }
    repeat match goal with T : Forall _ (_ :: _) |- _ => inversion T; clear T; subst end. cbn [fst snd] in *.
    f_equal; now apply C.
  - intros (K & ->). rewrite nint_mat_qof. apply Hr.
Qed.
Lemma integral_preserves P H R X : qdet P <> 0 -> mdet H <> 0%Z -> qmul R P = qmul P (qof X) ->
  integral (qmul (qinv (qmul P (qof H))) (qmul R (qmul P (qof H)))) <-> preserves X H.
Proof.
  intros HP HH E. assert (HPH : qdet (qmul P (qof H)) <> 0) by (rewrite qdet_mul, qof_det; apply Qc_mul_neq0; [exact HP|now apply zq_neq0]).
  assert (HH' : qdet (qof H) <> 0) by (rewrite qof_det; now apply zq_neq0).
  split.
  - intros (N & EN). assert (EX : mmul X H = mmul H N).
    { apply qof_inj. apply (qmul_cancel_l P); [exact HP|]. rewrite !qof_mul, !qmul_assoc, <- E, <- !qmul_assoc, <- EN.
      rewrite (qmul_assoc P), (qmul_assoc (qmul P (qof H))), qinv_r, qmul_id_l by exact HPH. reflexivity. }
    intros y (v & ->). exists (mvec N v). rewrite <- !mvec_mul, EX. reflexivity.
  - intros Hp.
    destruct (symmetry_coords (qof H) (qof X) HH') as (N & EN).
    { intros x (v & ->). destruct (Hp (mvec H v)) as (w & Ew); [now exists v|]. exists w. rewrite !qof_mvec. now rewrite Ew. }
    exists N. apply (qmul_cancel_l (qmul P (qof H))); [exact HPH|].
    rewrite (qmul_assoc (qmul P (qof H))), qinv_r, qmul_id_l by exact HPH. rewrite qmul_assoc, E, <- !qmul_assoc, EN. reflexivity.
Qed.

Lemma symm_pres_iff eps equal P H pg n : qdet P <> 0 -> mdet H = n -> (0 < n)%Z -> eps * zq n <= 1 -> tolerance eps equal ->
  (forall R, In R pg -> exists X, qmul R P = qmul P (qof X)) ->
  symm_pres equal (qmul P (qof H)) pg = true <->
  forall R, In R pg -> integral (qmul (qinv (qmul P (qof H))) (qmul R (qmul P (qof H)))).
Proof.
  intros HP HH Hn He Ht Hpg. unfold symm_pres. rewrite forallb_forall.
  split; intros Hf R HR; destruct (Hpg R HR) as (X & E); apply (symm_pres_one eps equal P H R X n); auto.
Qed.
Lemma is_hnf_det n H : is_hnf n H -> mdet H = n /\ (0 < n)%Z.
Proof.
  intros (a & b & c & d & e & f & -> & Ha & Hc & Hf & E & _). split; [|nia].
  unfold HNF, mdet. cbn. rewrite <- E. ring.
Qed.

(** ** Results *)
Lemma srHNFs_exact eps equal P pg n H : qdet P <> 0 -> tolerance eps equal -> eps * zq n <= 1 -> point_group P pg ->
  In H (get_srHNFs equal P pg n) <-> (1 <= n)%Z /\ is_hnf n H /\ keeps_symmetry P (qmul P (qof H)).
Proof.
  intros HP Ht He Hpg. rewrite in_get_srHNFs. split; intros (Hn & Hh & HS); (split; [exact Hn|]); (split; [exact Hh|]);
    destruct (is_hnf_det n H Hh) as (HH & Hn0).
  - apply keeps_symmetry_iff; [exact HP|]. intros X HX. destruct (isometry_symmetry P X HP HX) as (HO & HR).
    set (R := qmul (qmul P (qof X)) (qinv P)) in *.
    apply (integral_preserves P H R X); [exact HP|lia|exact HR|].
    apply (proj1 (symm_pres_iff eps equal P H pg n HP HH Hn0 He Ht
      (fun R' HR' => symmetry_coords P R' HP (proj2 (proj1 (Hpg R') HR')))) HS).
    apply Hpg. split; [exact HO|]. intros x (v & ->). exists (mvec X v). now rewrite <- qmvec_mul, HR, qmvec_mul, qof_mvec.
  - apply (symm_pres_iff eps equal P H pg n); auto.
    + intros R' HR'. apply Hpg in HR' as (_ & HL). now apply symmetry_coords.
    + intros R HR. apply Hpg in HR as (HO & HL). destruct (symmetry_coords P R HP HL) as (X & E).
      apply (integral_preserves P H R X); [exact HP|lia|exact E|].
      rewrite keeps_symmetry_iff in HS by exact HP. apply HS. now apply (symmetry_isometry P R X).
Qed.

(** With generators of the point group. *)
Lemma integral_generated S gens R : qdet S <> 0 -> (forall R, In R gens -> integral (qmul (qinv S) (qmul R S))) ->
  generated qmul gens R -> integral (qmul (qinv S) (qmul R S)).
Proof.
  intros HS Hg H. induction H as [x Hx|x y Hx Hy (N & IH)]; [now apply Hg|].
  destruct (Hg x Hx) as (K & EK). exists (mmul K N). rewrite qof_mul, <- EK, <- IH.
  rewrite <- !qmul_assoc, (qmul_assoc S), qinv_r, qmul_id_l by exact HS. reflexivity.
Qed.
Lemma symm_pres_gens eps equal P H gens pg n : qdet P <> 0 -> mdet H = n -> (0 < n)%Z -> eps * zq n <= 1 -> tolerance eps equal ->
  point_group P pg -> generators qmul gens pg ->
  symm_pres equal (qmul P (qof H)) gens = symm_pres equal (qmul P (qof H)) pg.
Proof.
  intros HP HH Hn He Ht Hpg [Hi Hg].
  assert (HX : forall R, In R pg -> exists X, qmul R P = qmul P (qof X)).
  { intros R HR. apply Hpg in HR as (_ & HL). now apply symmetry_coords. }
  apply eq_true_iff_eq.
  rewrite (symm_pres_iff eps equal P H gens n), (symm_pres_iff eps equal P H pg n); auto.
  split; intros HS R HR; [|now apply HS, Hi].
  apply (integral_generated _ gens); [|exact HS|now apply Hg].
  rewrite qdet_mul, qof_det. apply Qc_mul_neq0; [exact HP|apply zq_neq0; lia].
Qed.
Lemma py_for_ext {A B} (l : list A) (f g : A -> list B) : (forall x, In x l -> f x = g x) -> py_for l f = py_for l g.
Proof.
  unfold py_for. intros H. induction l as [|x l IH]; cbn; [reflexivity|]. rewrite (H x) by now left.
  rewrite IH; [reflexivity|]. intros y Hy. apply H. now right.
Qed.
Lemma srHNFs_generators eps equal P gens pg n : qdet P <> 0 -> tolerance eps equal -> eps * zq n <= 1 -> point_group P pg ->
  generators qmul gens pg -> get_srHNFs equal P gens n = get_srHNFs equal P pg n.
Proof.
  intros HP Ht He Hpg Hg. unfold get_srHNFs. apply py_for_ext. intros ((a & c) & f) Hd. apply in_f_diagonals in Hd as (Ha & Hc & Hf & E).
  apply py_for_ext. intros j _. apply py_for_ext. intros k _. apply py_for_ext. intros l _. cbv zeta.
  rewrite (symm_pres_gens eps equal P (HNF a j c k l f) gens pg n); auto; [|nia].
  unfold HNF, mdet. cbn. rewrite <- E. ring.
Qed.

(** The tailored enumerators give the same matrices. *)
Lemma qisometry_scaled k G X : k <> 0 -> qisometry (qscale k (qof G)) X <-> isometry G X.
Proof.
  intros Hk. unfold qisometry, isometry.
  assert (E : qmul (qtr (qof X)) (qmul (qscale k (qof G)) (qof X)) = qscale k (qof (mmul (mtr X) (mmul G X)))).
  { rewrite qmul_scale_l, !qof_mul, qof_tr.
    generalize (qtr (qof X)) (qmul (qof G) (qof X)). clear. intros A B. destruct A, B. unfold qmul, qscale; cbn. f_equal; ring. }
  rewrite E. split.
  - intros H. apply qof_inj. set (U := qof (mmul (mtr X) (mmul G X))) in *. set (V := qof G) in *. clearbody U V. clear E.
    assert (C : forall A, qscale (/ k) (qscale k A) = A).
    { intros [a1 a2 a3 a4 a5 a6 a7 a8 a9]. unfold qscale. cbn [q11 q12 q13 q21 q22 q23 q31 q32 q33]. f_equal; field; exact Hk. }
    now rewrite <- (C U), <- (C V), H.
  - intros ->. reflexivity.
Qed.
Lemma srHNFs_tailored eps equal P pg k G enum n H : qdet P <> 0 -> tolerance eps equal -> eps * zq n <= 1 -> point_group P pg ->
  k <> 0 -> qgram P = qscale k (qof G) -> enumerates_exactly G enum ->
  In H (get_srHNFs equal P pg n) <-> In H (enum n).
Proof.
  intros HP Ht He Hpg Hk EG HE. rewrite (srHNFs_exact eps equal P pg n H) by assumption. rewrite (HE n H).
  rewrite keeps_symmetry_iff, EG by exact HP. unfold symmetry_preserving.
  split; intros (Hn & Hh & HS); (split; [exact Hn|]); (split; [exact Hh|]); intros X HX; apply HS; now apply (qisometry_scaled k).
Qed.
