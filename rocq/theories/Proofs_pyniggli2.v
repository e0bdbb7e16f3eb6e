(** Consequences for [reduced_cell]: exact case, failures, idempotence. *)
From Coq Require Import ZArith QArith Qcanon List Bool Lia.
From Verif Require Import Mat3 QMat QNum QcTac Spec_niggli Model_pyniggli Proofs_pyniggli
  Proofs_niggli_term.
Import ListNotations.
Open Scope Qc_scope.

(** ** Tolerance zero *)
Lemma within_0 x : within x 0 <-> x = 0.
Proof.
  unfold within. split.
  - intros (H1 & H2). apply Qcle_antisym; [exact H2|]. qclra.
  - intros ->. split; qclra.
Qed.
Lemma within_0' x y : x = 0 -> (within y 0 <-> y = x).
Proof. intros ->. apply within_0. Qed.
Lemma minus_0 (x y : Qc) : x - y = 0 <-> x = y.
Proof. split; intros H; [|rewrite H; ring]. replace x with (x - y + y) by ring. rewrite H. ring. Qed.
Lemma plus_0 (x y : Qc) : x + y = 0 <-> y = - x.
Proof. split; intros H; [|rewrite H; ring]. replace y with (x + y - x) by ring. rewrite H. ring. Qed.

Lemma abs_le_0 x y : abs_le_upto 0 x y <-> abs_le x y.
Proof.
  unfold abs_le_upto, abs_le. replace (y + 0) with y by ring. replace (- y + 0) with (- y) by ring.
  reflexivity.
Qed.

Lemma niggli_upto_0 A B C xi eta zeta : 0 < A ->
  niggli_cell_upto 0 A B C xi eta zeta <-> niggli_cell A B C xi eta zeta.
Proof.
  intros HA. split.
  - intros [K1 K2 K3 K4 K5 K6 K7 K8 K9 K10 K11 K12 K13 K14 K15 K16].
    replace (B + 0) with B in K1, K3 by ring. replace (C + 0) with C in K2 by ring.
    replace (A + 0) with A in K4, K5 by ring.
    rewrite within_0, minus_0, abs_le_0 in K8, K9. rewrite within_0, minus_0 in K10, K11, K12.
    rewrite within_0, plus_0 in K13, K14, K15. rewrite within_0 in K16.
    assert (NN : forall z : Qc, 0 < z -> - z = 0 -> False).
    { clear. intros z H1 H2. assert (z < z) by qclra. now apply (Qclt_not_eq z z). }
    assert (HB : 0 < B) by (clear - HA K1; qclra).
    constructor; try assumption.
    + intros E. apply K9. now symmetry.
    + intros E. symmetry in E. specialize (K10 E). clear - K10. qclra.
    + intros E. symmetry in E. specialize (K11 E). clear - K11. qclra.
    + intros E. symmetry in E. specialize (K12 E). clear - K12. qclra.
    + intros E. specialize (K13 E). destruct K6 as [(P & _)|(_ & _ & P)].
      * exfalso. clear - E P HB. assert (xi < xi) by qclra. now apply (Qclt_not_eq xi xi).
      * clear - K13 P. apply Qcle_antisym; qclra.
    + intros E. specialize (K14 E). destruct K6 as [(_ & P & _)|(_ & _ & P)].
      * exfalso. clear - E P HA. assert (eta < eta) by qclra. now apply (Qclt_not_eq eta eta).
      * clear - K14 P. apply Qcle_antisym; qclra.
    + intros E. specialize (K15 E). destruct K6 as [(_ & _ & P)|(_ & P & _)].
      * exfalso. clear - E P HA. assert (zeta < zeta) by qclra. now apply (Qclt_not_eq zeta zeta).
      * clear - K15 P. apply Qcle_antisym; qclra.
  - intros [K0 K1 K2 K3 K4 K5 K6 K7 K8 K9 K10 K11 K12 K13 K14 K15 K16].
    constructor.
    + clear - K1; qclra.
    + clear - K2; qclra.
    + replace (B + 0) with B by ring. exact K3.
    + replace (A + 0) with A by ring. exact K4.
    + replace (A + 0) with A by ring. exact K5.
    + exact K6.
    + clear - K7. qclra.
    + rewrite within_0, minus_0, abs_le_0. exact K8.
    + rewrite within_0, minus_0, abs_le_0. intros E. apply K9. now symmetry.
    + rewrite within_0, minus_0. intros E. symmetry in E. specialize (K10 E). clear - K10. qclra.
    + rewrite within_0, minus_0. intros E. symmetry in E. specialize (K11 E). clear - K11. qclra.
    + rewrite within_0, minus_0. intros E. symmetry in E. specialize (K12 E). clear - K12. qclra.
    + rewrite within_0, plus_0. intros E. specialize (K13 E). clear - K13. rewrite K13. qclra.
    + rewrite within_0, plus_0. intros E. specialize (K14 E). clear - K14. rewrite K14. qclra.
    + rewrite within_0, plus_0. intros E. specialize (K15 E). clear - K15. rewrite K15. qclra.
    + rewrite within_0. exact K16.
Qed.

Lemma col_pos M : qdet M <> 0 -> 0 < q11 (qgram M).
Proof.
  intros H. replace (q11 (qgram M)) with (norm2 (qmvec M (QVec 1 0 0))).
  - apply norm2_pos. intros E.
    assert (F : QVec 1 0 0 = QVec 0 0 0).
    { apply (qmvec_inj M _ _ H). rewrite E. unfold qmvec. qcbn. f_equal; ring. }
    apply (f_equal w1) in F. cbn [w1] in F. discriminate.
  - unfold norm2, qmvec, qgram, qmul, qtr. qcbn. ring.
Qed.

Lemma is_niggli_upto_0 M : qdet M <> 0 -> is_niggli_upto 0 M <-> is_niggli M.
Proof.
  intros H. unfold is_niggli_upto, is_niggli, cell_params. cbv zeta.
  apply niggli_upto_0. now apply col_pos.
Qed.

(** ** The check with exact comparisons *)
Lemma close_0 x y : allclose_r 0 0 x y = true <-> x = y.
Proof.
  unfold allclose_r. replace (0 + 0 * qabs y) with 0 by ring.
  rewrite negb_true_iff. change (qltb 0 (qabs (x - y))) with (qgtb (qabs (x - y)) 0).
  rewrite qabs_within. rewrite within_0. apply minus_0.
Qed.

Lemma le_b x y : qltb x (y - 0) || allclose_r 0 0 x y = true <-> x <= y.
Proof.
  rewrite orb_true_iff, close_0, qltb_iff. replace (y - 0) with y by ring. split.
  - intros [H| ->]; [now apply Qclt_le_weak|apply Qcle_refl].
  - intros H. destruct (Qcle_lt_or_eq _ _ H); auto.
Qed.
Lemma le_b0 x : qltb x (0 - 0) || allclose_r 0 0 x 0 = true <-> x <= 0.
Proof. exact (le_b x 0). Qed.
Lemma pos_b x : qgtb (x - 0) 0 = true <-> 0 < x.
Proof. rewrite qgtb_iff. replace (x - 0) with x by ring. reflexivity. Qed.

Lemma qabs_le_abs x y : qabs x <= qabs y <-> abs_le x y.
Proof.
  rewrite <- abs_le_0, <- abs_le_upto_qabs. replace (qabs y + 0) with (qabs y) by ring.
  symmetry. apply qgtb_false.
Qed.

Lemma ifn b (x : bool) : (if negb b then false else x) = true <-> b = true /\ x = true.
Proof. destruct b, x; cbn; intuition congruence. Qed.
Lemma ifan a b (x : bool) :
  (if a && negb b then false else x) = true <-> (a = true -> b = true) /\ x = true.
Proof. destruct a, b, x; cbn; intuition congruence. Qed.

Lemma check_exact A B C xi eta zeta :
  niggli_check_tol 0 0 A B C xi eta zeta 0 = true <-> niggli_cell A B C xi eta zeta.
Proof.
  unfold niggli_check_tol. cbv zeta.
  repeat (rewrite ifn || rewrite ifan).
  rewrite !andb_true_iff, !le_b, !close_0, !pos_b.
  rewrite orb_true_iff, !andb_true_iff, !pos_b, !le_b0, !qabs_le_abs, !qabs_le.
  unfold qtwo. split.
  - intros (((H1 & H2) & H3) & H4 & H5 & H6 & H7 & (H8 & H9) & H10 & H11 & H12 & H13 & H14 & H15 & H16 & H17 & _).
    constructor; try assumption.
    + clear - H6. tauto.
    + clear - H10. qclra.
    + intros E. specialize (H11 E). clear - H11. qclra.
    + intros E. specialize (H12 E). clear - H12. qclra.
    + intros E. specialize (H13 E). clear - H13. qclra.
    + intros E. assert (E' : C = A + B + C + xi + eta + zeta).
      { replace (A + B + C + xi + eta + zeta) with (C + (A + B + xi + eta + zeta)) by ring.
        rewrite E. ring. }
      specialize (H17 E'). clear - H17. qclra.
  - intros [K0 K1 K2 K3 K4 K5 K6 K7 K8 K9 K10 K11 K12 K13 K14 K15 K16].
    refine (conj (conj (conj K0 K1) K2) (conj K8 (conj K9 (conj _ (conj K3 (conj (conj K4 K5)
      (conj _ (conj _ (conj _ (conj _ (conj K13 (conj K14 (conj K15 (conj _ eq_refl)))))))))))))).
    + clear - K6. tauto.
    + clear - K7. qclra.
    + intros E. specialize (K10 E). clear - K10. qclra.
    + intros E. specialize (K11 E). clear - K11. qclra.
    + intros E. specialize (K12 E). clear - K12. qclra.
    + intros E. assert (E' : A + B + xi + eta + zeta = 0).
      { replace (A + B + xi + eta + zeta) with (A + B + C + xi + eta + zeta - C) by ring.
        rewrite <- E. ring. }
      specialize (K16 E'). clear - K16. qclra.
Qed.

(** ** The limit on the number of passes *)
Definition unfinished (eps : Qc) (orig : qmat) (st : mat3 * params) : Prop :=
  snd (pass eps orig st) = false.

Lemma loop_count eps orig : forall fuel count st,
  (Z.of_nat fuel + count = 1001)%Z -> (0 <= count)%Z ->
  (1000 <= snd (loop eps orig fuel false count st))%Z <->
  (forall n, (Z.of_nat n + count < 999)%Z ->
     unfinished eps orig (Nat.iter n (fun st => fst (pass eps orig st)) st)).
Proof.
  induction fuel as [|f IH]; intros count st HF HC.
  - cbn [loop]. destruct (negb false && Z.leb count 1000); cbn [snd];
      split; intros; lia.
  - cbn [loop negb andb]. destruct (Z.leb_spec count 1000); [|lia].
    unfold unfinished in *.
    destruct (pass eps orig st) as [st' r] eqn:EP.
    destruct r.
    + assert (E : loop eps orig f true (count + 1) st' = (st', (count + 1)%Z)) by (destruct f; reflexivity).
      rewrite E. cbn [snd]. split.
      * intros H1 n Hn. lia.
      * intros H1. destruct (Z_lt_le_dec count 999) as [L|L]; [|lia].
        specialize (H1 O ltac:(lia)). cbn in H1. rewrite EP in H1. discriminate.
    + rewrite IH by lia. split; intros H1 n Hn.
      * destruct n as [|n]; [cbn; now rewrite EP|].
        rewrite iter_shift, EP. cbn [fst]. apply H1. lia.
      * specialize (H1 (S n) ltac:(lia)). rewrite iter_shift, EP in H1. exact H1.
Qed.

Lemma too_many_iff eps orig :
  niggli_reduction eps orig = TooManyIterations <->
  forall n, (Z.of_nat n < 999)%Z -> snd (pass eps orig (after eps orig n)) = false.
Proof.
  rewrite reduction_final.
  assert (HF : (Z.of_nat loop_fuel + 0 = 1001)%Z) by (unfold loop_fuel; rewrite Z2Nat.id; lia).
  pose proof (loop_count eps orig loop_fuel 0 (mid, get_params eps orig mid) HF (Z.le_refl 0)) as L.
  unfold unfinished in L. unfold after, final. revert L.
  generalize (loop eps orig loop_fuel false 0 (mid, get_params eps orig mid)).
  intros [[C p] count] L. cbn [snd] in L.
  transitivity (1000 <= count)%Z.
  - destruct (Z.leb_spec 1000 count) as [H|H].
    + split; auto.
    + destruct (niggli_check _ _ _ _ _ _ _); cbn [negb]; (split; [discriminate|lia]).
  - rewrite L. split; intros H1 n Hn; apply H1; lia.
Qed.

(** Without the limit, and with exact comparisons, every cell is brought to a Niggli cell
    that the final check accepts. *)
Lemma exact_success orig : qdet orig <> 0 ->
  exists n C p, after 0 orig n = (C, p) /\ snd (pass 0 orig (C, p)) = true /\
    mdet C = 1%Z /\ is_niggli (qmul orig (qof C)) /\
    niggli_check_tol 0 0 (pA p) (pB p) (pC p) (pxi p) (peta p) (pzeta p) 0 = true.
Proof.
  intros HO. destruct (passes_finite orig HO) as (n & Hn).
  assert (HG : good 0 orig (after 0 orig n)).
  { unfold after. clear Hn. induction n as [|n IH]; [apply good_init|].
    change (good 0 orig (fst (pass 0 orig (Nat.iter n (fun st => fst (pass 0 orig st))
       (mid, get_params 0 orig mid))))). now apply good_pass. }
  destruct (after 0 orig n) as [C p] eqn:E. exists n, C, p.
  split; [exact E|]. split; [exact Hn|].
  destruct (pass_reduced 0 orig (C, p) HG Hn) as (S & _). destruct HG as (HD & HP).
  cbn [fst snd] in *. split; [exact HD|].
  assert (HN : is_niggli (qmul orig (qof C))).
  { apply is_niggli_upto_0.
    - rewrite qdet_mul, qof_det, HD. apply Qc_mul_neq0; [exact HO|discriminate].
    - apply settled_iff; [apply Qcle_refl|]. now rewrite <- HP. }
  split; [exact HN|]. apply check_exact. rewrite HP. unfold is_niggli, cell_params in HN.
  cbv zeta in HN. unfold get_params. cbv zeta. cbn [pA pB pC pxi peta pzeta].
  assert (T : forall x : Qc, qtwo * x = x + x) by (intros; unfold qtwo; ring).
  rewrite !T. revert HN. generalize (qmul orig (qof C)). intros M HN.
  replace (dot_ca M) with (q13 (qgram M)) by (unfold dot_ca, qgram, qmul, qtr; qcbn; ring).
  exact HN.
Qed.

(** ** The constructor *)
Definition rows_of (M : qmat) : list (list Qc) :=
  [[q11 M; q12 M; q13 M]; [q21 M; q22 M; q23 M]; [q31 M; q32 M; q33 M]].

Lemma as_3x3_rows M : as_3x3 (rows_of M) = Some M.
Proof. destruct M; reflexivity. Qed.

Lemma as_3x3_iff rows M : as_3x3 rows = Some M <-> rows = rows_of M.
Proof.
  split.
  - intros H.
    destruct rows as [|[|a [|b [|c [|]]]] [|[|d [|e [|f [|]]]] [|[|g [|h [|i [|]]]] [|]]]];
      try discriminate. cbn [as_3x3] in H. injection H as <-. reflexivity.
  - intros ->. apply as_3x3_rows.
Qed.

(** The array is 3 by 3. *)
Definition shape33 (rows : list (list Qc)) : Prop :=
  length rows = 3%nat /\ Forall (fun r => length r = 3%nat) rows.

Lemma shape33_iff rows : shape33 rows <-> exists M, rows = rows_of M.
Proof.
  split.
  - intros (H1 & H2).
    destruct rows as [|r1 [|r2 [|r3 [|]]]]; try discriminate.
    inversion_clear H2 as [|? ? L1 H3]. inversion_clear H3 as [|? ? L2 H4].
    inversion_clear H4 as [|? ? L3 _].
    destruct r1 as [|a [|b [|c [|]]]]; try discriminate.
    destruct r2 as [|d [|e [|f [|]]]]; try discriminate.
    destruct r3 as [|g [|h [|i [|]]]]; try discriminate.
    now exists (QMat a b c d e f g h i).
  - intros (M & ->). split; [reflexivity|]. repeat constructor.
Qed.

Lemma reduced_cell_rows cbrt M eps_ :
  reduced_cell cbrt (rows_of M) eps_ =
  if Qc_eq_dec (qdet M) 0 then ZeroVolume else
  niggli_reduction
    (match eps_ with None => qdec 1 5 * cbrt (qabs (qdet M)) | Some e => e * cbrt (qabs (qdet M)) end) M.
Proof. unfold reduced_cell. rewrite as_3x3_rows. reflexivity. Qed.

Lemma reduction_not_value eps M :
  niggli_reduction eps M <> BadShape /\ niggli_reduction eps M <> ZeroVolume.
Proof.
  rewrite reduction_final. destruct (final eps M) as [[C p] count].
  destruct (Z.leb 1000 count); [split; discriminate|].
  destruct (niggli_check _ _ _ _ _ _ _); split; discriminate.
Qed.

Lemma bad_shape cbrt rows eps_ : reduced_cell cbrt rows eps_ = BadShape <-> ~ shape33 rows.
Proof.
  split.
  - intros H HS. apply shape33_iff in HS. destruct HS as (M & ->).
    rewrite reduced_cell_rows in H. destruct (Qc_eq_dec _ _); [discriminate|].
    now apply reduction_not_value in H.
  - intros H. unfold reduced_cell. destruct (as_3x3 rows) as [M|] eqn:E; [|reflexivity].
    exfalso. apply H. apply shape33_iff. exists M. now apply as_3x3_iff.
Qed.

Lemma zero_volume cbrt rows eps_ :
  reduced_cell cbrt rows eps_ = ZeroVolume <-> exists M, rows = rows_of M /\ qdet M = 0.
Proof.
  split.
  - intros H. destruct (as_3x3 rows) as [M|] eqn:E.
    + apply as_3x3_iff in E. subst rows. exists M. split; [reflexivity|].
      rewrite reduced_cell_rows in H. destruct (Qc_eq_dec _ _) as [D|D]; [exact D|].
      exfalso. now apply reduction_not_value in H.
    + unfold reduced_cell in H. rewrite E in H. discriminate.
  - intros (M & -> & D). rewrite reduced_cell_rows.
    destruct (Qc_eq_dec _ _); [reflexivity|contradiction].
Qed.

(** The tolerance the constructor works with. *)
Definition used_eps (cbrt : Qc -> Qc) (M : qmat) (eps_ : option Qc) : Qc :=
  match eps_ with None => qdec 1 5 | Some e => e end * cbrt (qabs (qdet M)).

Lemma reduced_cell_eps cbrt M eps_ : qdet M <> 0 ->
  reduced_cell cbrt (rows_of M) eps_ = niggli_reduction (used_eps cbrt M eps_) M.
Proof.
  intros H. rewrite reduced_cell_rows. destruct (Qc_eq_dec _ _); [contradiction|].
  unfold used_eps. now destruct eps_.
Qed.

Lemma reduced_cell_Reduced cbrt rows eps_ N C : reduced_cell cbrt rows eps_ = Reduced N C ->
  exists M, rows = rows_of M /\ qdet M <> 0 /\
    niggli_reduction (used_eps cbrt M eps_) M = Reduced N C.
Proof.
  intros H. destruct (as_3x3 rows) as [M|] eqn:E.
  - apply as_3x3_iff in E. subst rows. exists M. split; [reflexivity|].
    assert (D : qdet M <> 0).
    { intros D. assert (Z0 : reduced_cell cbrt (rows_of M) eps_ = ZeroVolume).
      { apply zero_volume. now exists M. } congruence. }
    split; [exact D|]. now rewrite <- reduced_cell_eps.
  - unfold reduced_cell in H. rewrite E in H. discriminate.
Qed.

(** The result spans the same lattice. *)
Lemma unimodular_same_span M C : mdet C = 1%Z -> same_span M (qmul M (qof C)).
Proof.
  intros HD x. split; intros (v & ->).
  - exists (mvec (minv1 C) v). rewrite qmvec_mul, qof_mvec. f_equal.
    rewrite <- mvec_mul, minv1_r by (rewrite HD; reflexivity).
    rewrite <- qof_mvec, qof_id, qmvec_id. reflexivity.
  - exists (mvec C v). now rewrite qmvec_mul, qof_mvec.
Qed.

Lemma loop_done eps orig f count st : good eps orig st -> settled eps (snd st) ->
  (count <= 1000)%Z ->
  loop eps orig (S (S f)) false count st = (st, (count + 1)%Z).
Proof.
  intros HG HS HC. cbn [loop negb andb]. destruct (Z.leb_spec count 1000); [|lia].
  rewrite (settled_pass eps orig st HG HS). cbn [negb andb]. reflexivity.
Qed.

Lemma settled_reduction eps orig :
  settled eps (get_params eps orig mid) ->
  niggli_reduction eps orig =
  let p := get_params eps orig mid in
  if niggli_check (pA p) (pB p) (pC p) (pxi p) (peta p) (pzeta p) eps
  then Reduced orig mid else ReductionIncorrect.
Proof.
  intros HS. rewrite reduction_final. unfold final.
  replace loop_fuel with (S (S (Z.to_nat 999))) by reflexivity.
  rewrite (loop_done eps orig _ 0 _ (good_init eps orig) HS) by lia.
  cbv zeta. rewrite qof_id, qmul_id_r.
  destruct (niggli_check _ _ _ _ _ _ _); reflexivity.
Qed.

Lemma reduction_idem eps orig N C : niggli_reduction eps orig = Reduced N C ->
  niggli_reduction eps N = Reduced N mid.
Proof.
  intros H. destruct (reduction_Reduced eps orig N C H) as (HD & -> & HS & HK).
  assert (E : get_params eps (qmul orig (qof C)) mid = get_params eps orig C).
  { unfold get_params. rewrite qof_id, qmul_id_r. reflexivity. }
  rewrite settled_reduction by (rewrite E; exact HS).
  cbv zeta in *. rewrite E, HK. reflexivity.
Qed.

Lemma reduced_cell_idem cbrt rows eps_ N C : reduced_cell cbrt rows eps_ = Reduced N C ->
  reduced_cell cbrt (rows_of N) eps_ = Reduced N mid.
Proof.
  intros H. destruct (reduced_cell_Reduced _ _ _ _ _ H) as (M & -> & D & HR).
  destruct (reduction_Reduced _ _ _ _ HR) as (HD & EN & _ & _).
  assert (DN : qdet N = qdet M) by (rewrite EN, qdet_mul, qof_det, HD, zq_1; ring).
  rewrite reduced_cell_eps by (rewrite DN; exact D).
  replace (used_eps cbrt N eps_) with (used_eps cbrt M eps_) by (unfold used_eps; now rewrite DN).
  exact (reduction_idem _ _ _ _ HR).
Qed.
