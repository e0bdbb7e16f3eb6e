(** The reduction does not depend on the unit of length: multiplying the cell by [s] and the
    tolerances by [s^2] multiplies the result by [s] and changes nothing else. *)
From Coq Require Import ZArith QArith Qcanon List Bool Lia.
From Verif Require Import Mat3 QMat QNum QcTac Model_pyniggli Proofs_pyniggli Proofs_stable.
Import ListNotations.
Open Scope Qc_scope.

(** The reduction with the absolute tolerance of the last test of [_niggli_check] as a
    parameter; the code uses 1e-8 (pyniggli.py 283). *)
Definition reduction_tol (a8 eps : Qc) (original : qmat) : outcome :=
  let '(C, p, count) := final eps original in
  if Z.leb 1000 count then TooManyIterations else
  if negb (niggli_check_tol rtol a8 (pA p) (pB p) (pC p) (pxi p) (peta p) (pzeta p) eps)
  then ReductionIncorrect
  else Reduced (qmul original (qof C)) C.
Lemma reduction_code eps M : niggli_reduction eps M = reduction_tol (qdec 1 8) eps M.
Proof. rewrite reduction_final. unfold reduction_tol, niggli_check. reflexivity. Qed.

Lemma st_reduction_tol a8 lo hi eps M : lo <= eps -> eps <= hi -> stab_all lo hi M = true ->
  reduction_tol a8 eps M = reduction_tol a8 lo M.
Proof.
  intros Hlo Hhi H. pose proof (st_last lo hi eps Hlo Hhi M a8 H) as E.
  pose proof (st_final lo hi eps Hlo Hhi M H) as F.
  unfold reduction_tol. rewrite F. clear F H.
  destruct (final lo M) as [[C p] c]. now rewrite E.
Qed.

Section Scale.
Variable s : Qc.
Hypothesis Hs : 0 < s.
Let k := s * s.

Lemma k_pos : 0 < k.
Proof.
  unfold k. replace 0 with (0 * s) by ring. apply Qcmult_lt_compat_r; assumption.
Qed.
Lemma k_lt x y : k * x < k * y <-> x < y.
Proof.
  rewrite !(Qcmult_comm k). pose proof k_pos. split; intros H'.
  - apply Qcnot_le_lt. intros L. apply (Qclt_not_le _ _ H').
    apply Qcmult_le_compat_r; [exact L|now apply Qclt_le_weak].
  - now apply Qcmult_lt_compat_r.
Qed.
Lemma s_ltb x y : qltb (k * x) (k * y) = qltb x y.
Proof. apply eq_true_iff_eq. rewrite !qltb_iff. apply k_lt. Qed.
Lemma s_ltb_0r x : qltb (k * x) 0 = qltb x 0.
Proof. replace 0 with (k * 0) at 1 by ring. apply s_ltb. Qed.
Lemma s_ltb_0l x : qltb 0 (k * x) = qltb 0 x.
Proof. replace 0 with (k * 0) at 1 by ring. apply s_ltb. Qed.
Lemma s_add x y : k * x + k * y = k * (x + y). Proof. ring. Qed.
Lemma s_sub x y : k * x - k * y = k * (x - y). Proof. ring. Qed.
Lemma s_sub0 x : 0 - k * x = k * (0 - x). Proof. ring. Qed.
Lemma s_opp x : - (k * x) = k * (- x). Proof. ring. Qed.
Lemma s_two x : qtwo * (k * x) = k * (qtwo * x). Proof. ring. Qed.
Lemma s_abs x : qabs (k * x) = k * qabs x.
Proof. unfold qabs. rewrite s_ltb_0r. destruct (qltb x 0); ring. Qed.
Lemma s_qsign x : qsign (k * x) = qsign x.
Proof. unfold qsign. now rewrite s_ltb_0r, s_ltb_0l. Qed.
Lemma s_close r e x y : allclose_r r (k * e) (k * x) (k * y) = allclose_r r e x y.
Proof.
  unfold allclose_r. f_equal. rewrite s_sub, !s_abs.
  replace (k * e + r * (k * qabs y)) with (k * (e + r * qabs y)) by ring. apply s_ltb.
Qed.
Lemma s_close0 r e x : allclose_r r (k * e) (k * x) 0 = allclose_r r e x 0.
Proof. replace 0 with (k * 0) at 1 by ring. apply s_close. Qed.

Ltac sc := unfold qgtb;
  repeat first [rewrite s_add | rewrite s_sub | rewrite s_sub0 | rewrite s_opp | rewrite s_two |
                rewrite s_abs | rewrite s_close | rewrite s_close0 | rewrite s_ltb |
                rewrite s_ltb_0r | rewrite s_ltb_0l ]; reflexivity.

Lemma s_sign e x : sign_eps (k * e) (k * x) = sign_eps e x.
Proof. unfold sign_eps. sc. Qed.
Lemma s_check rt a8 A B C xi eta zeta eps :
  niggli_check_tol rt (k * a8) (k * A) (k * B) (k * C) (k * xi) (k * eta) (k * zeta) (k * eps) =
  niggli_check_tol rt a8 A B C xi eta zeta eps.
Proof. unfold niggli_check_tol. cbv zeta. sc. Qed.

Definition kp (p : params) : params :=
  Params (k * pA p) (k * pB p) (k * pC p) (k * pxi p) (k * peta p) (k * pzeta p) (pl p) (pm p) (pn p).
Definition kst (st : mat3 * params) : mat3 * params := (fst st, kp (snd st)).

Lemma s_conds eps p :
  cond1 (k * eps) (kp p) = cond1 eps p /\ cond2 (k * eps) (kp p) = cond2 eps p /\
  cond3 (kp p) = cond3 p /\ cond4 (kp p) = cond4 p /\
  cond5 (k * eps) (kp p) = cond5 eps p /\ cond6 (k * eps) (kp p) = cond6 eps p /\
  cond7 (k * eps) (kp p) = cond7 eps p /\ cond8 (k * eps) (kp p) = cond8 eps p.
Proof.
  unfold cond1, cond2, cond3, cond4, cond5, cond6, cond7, cond8. destruct p. cbn.
  repeat split; sc.
Qed.

Variables (eps : Qc) (orig : qmat).
Lemma s_params C : get_params (k * eps) (qscale s orig) C = kp (get_params eps orig C).
Proof.
  unfold get_params, kp. cbv zeta. cbn [pA pB pC pxi peta pzeta pl pm pn].
  assert (E : qmul (qscale s orig) (qof C) = qscale s (qmul orig (qof C))).
  { unfold qmul, qscale, qof. cbn. f_equal; ring. }
  rewrite E. generalize (qmul orig (qof C)). intros m.
  assert (E1 : dot_bc (qscale s m) = k * dot_bc m) by (unfold dot_bc, qscale, k; cbn; ring).
  assert (E2 : dot_ca (qscale s m) = k * dot_ca m) by (unfold dot_ca, qscale, k; cbn; ring).
  assert (E3 : dot_ab (qscale s m) = k * dot_ab m) by (unfold dot_ab, qscale, k; cbn; ring).
  assert (E4 : dot_aa (qscale s m) = k * dot_aa m) by (unfold dot_aa, qscale, k; cbn; ring).
  assert (E5 : dot_bb (qscale s m) = k * dot_bb m) by (unfold dot_bb, qscale, k; cbn; ring).
  assert (E6 : dot_cc (qscale s m) = k * dot_cc m) by (unfold dot_cc, qscale, k; cbn; ring).
  rewrite E1, E2, E3, E4, E5, E6, !s_two, !s_sign. reflexivity.
Qed.
Lemma s_pass st : pass (k * eps) (qscale s orig) (kst st) =
  (kst (fst (pass eps orig st)), snd (pass eps orig st)).
Proof.
  assert (U : forall C M, upd (k * eps) (qscale s orig) C M = kst (upd eps orig C M)).
  { intros C M. unfold upd, kst. cbn [fst snd]. now rewrite s_params. }
  assert (S1 : forall t, stage1 (k * eps) (qscale s orig) (kst t) =
    (kst (fst (stage1 eps orig t)), snd (stage1 eps orig t))).
  { intros t. unfold stage1. change (snd (kst t)) with (kp (snd t)).
    destruct (s_conds eps (snd t)) as (-> & _). destruct (cond1 eps (snd t)); [|reflexivity].
    cbn [fst snd]. now rewrite <- U. }
  assert (S3 : forall t b, stage3 (k * eps) (qscale s orig) (kst t, b) =
    (kst (fst (stage3 eps orig (t, b))), snd (stage3 eps orig (t, b)))).
  { intros t b. unfold stage3. cbv zeta. cbn [fst snd]. change (snd (kst t)) with (kp (snd t)).
    destruct (s_conds eps (snd t)) as (_ & _ & -> & _). destruct (cond3 (snd t)); [|reflexivity].
    cbn [fst snd]. rewrite <- U. reflexivity. }
  assert (S4 : forall t b, stage4 (k * eps) (qscale s orig) (kst t, b) =
    (kst (fst (stage4 eps orig (t, b))), snd (stage4 eps orig (t, b)))).
  { intros t b. unfold stage4. cbv zeta. cbn [fst snd]. change (snd (kst t)) with (kp (snd t)).
    destruct (s_conds eps (snd t)) as (_ & _ & _ & -> & _). destruct (cond4 (snd t)); [|reflexivity].
    cbn [fst snd]. rewrite <- U. reflexivity. }
  assert (S5 : forall t b, stage58 (k * eps) (qscale s orig) (kst t, b) =
    (kst (fst (stage58 eps orig (t, b))), snd (stage58 eps orig (t, b)))).
  { intros t b. unfold stage58. cbv zeta. cbn [fst snd]. change (snd (kst t)) with (kp (snd t)).
    destruct (s_conds eps (snd t)) as (_ & _ & _ & _ & -> & -> & -> & ->).
    unfold kp at 1 2 3. cbn [pxi peta pzeta]. unfold step5, step6, step7. rewrite !s_qsign.
    destruct (cond5 eps (snd t)); [cbn [fst snd]; now rewrite <- U|].
    destruct (cond6 eps (snd t)); [cbn [fst snd]; now rewrite <- U|].
    destruct (cond7 eps (snd t)); [cbn [fst snd]; now rewrite <- U|].
    destruct (cond8 eps (snd t)); [cbn [fst snd]; now rewrite <- U|]. reflexivity. }
  rewrite !pass_stages. cbv zeta. rewrite S1. destruct (stage1 eps orig st) as [t1 b1].
  cbn [fst snd]. change (snd (kst t1)) with (kp (snd t1)).
  destruct (s_conds eps (snd t1)) as (_ & -> & _).
  destruct (cond2 eps (snd t1)); [cbn [fst snd]; now rewrite <- U|].
  rewrite S3. destruct (stage3 eps orig (t1, b1)) as [t3 b3]. cbn [fst snd].
  rewrite S4. destruct (stage4 eps orig (t3, b3)) as [t4 b4]. cbn [fst snd]. apply S5.
Qed.
Lemma s_loop fuel : forall r count st,
  loop (k * eps) (qscale s orig) fuel r count (kst st) =
  (kst (fst (loop eps orig fuel r count st)), snd (loop eps orig fuel r count st)).
Proof.
  induction fuel as [|f IH]; intros r count st; cbn [loop].
  - destruct (negb r && Z.leb count 1000); reflexivity.
  - destruct (negb r && Z.leb count 1000); [|reflexivity].
    rewrite s_pass. destruct (pass eps orig st) as [st' r']. cbn [fst snd]. apply IH.
Qed.
Lemma s_final : final (k * eps) (qscale s orig) =
  (kst (fst (final eps orig)), snd (final eps orig)).
Proof. unfold final. rewrite s_params. apply (s_loop loop_fuel false 0%Z (mid, _)). Qed.

Definition scale_outcome (o : outcome) : outcome :=
  match o with Reduced N C => Reduced (qscale s N) C | o => o end.
Lemma s_reduction a8 :
  reduction_tol (k * a8) (k * eps) (qscale s orig) = scale_outcome (reduction_tol a8 eps orig).
Proof.
  unfold reduction_tol. rewrite s_final. destruct (final eps orig) as [[C p] c].
  unfold kst. cbn [fst snd]. unfold kp. cbn [pA pB pC pxi peta pzeta]. rewrite s_check.
  destruct (Z.leb 1000 c); [reflexivity|].
  destruct (negb _); [reflexivity|]. cbn [scale_outcome]. f_equal.
  unfold qmul, qscale, qof. cbn. f_equal; ring.
Qed.
End Scale.
