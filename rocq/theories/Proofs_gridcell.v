(** Cells whose scalar products are multiples of 1/d: with a tolerance below 1/d all
    comparisons of the reduction are exact. *)
From Coq Require Import ZArith QArith Qcanon List Bool Lia.
From Verif Require Import Mat3 QMat QNum QcTac Spec_niggli Model_pyniggli Proofs_pyniggli
  Proofs_niggli_term Proofs_pyniggli2.
Import ListNotations.
Open Scope Qc_scope.

Lemma zq_lt x y : zq x < zq y <-> (x < y)%Z.
Proof.
  apply (scale_lt 1 (zq x) (zq y) x y); [lia| |]; rewrite zq_1; ring.
Qed.
Lemma zq_le x y : zq x <= zq y <-> (x <= y)%Z.
Proof.
  split; intros H.
  - destruct (Z_lt_le_dec y x) as [L|L]; [|exact L]. apply zq_lt in L.
    exfalso. exact (Qclt_not_le _ _ L H).
  - apply Qcnot_lt_le. intros L. apply (proj1 (zq_lt y x)) in L. lia.
Qed.

Lemma qltb_ext x y x' y' : (x < y <-> x' < y') -> qltb x y = qltb x' y'.
Proof. intros H. apply eq_true_iff_eq. now rewrite !qltb_iff. Qed.

Section Grid.
Variables (d : Z) (eps : Qc).
Hypothesis Hd : (0 < d)%Z.
Hypothesis He0 : 0 <= eps.

Definition grid (x : Qc) : Prop := exists u, rep d x u.

Lemma grid_0 : grid 0. Proof. exists 0%Z. apply rep_0. Qed.
Lemma grid_add x y : grid x -> grid y -> grid (x + y).
Proof. intros (u & Hu) (w & Hw). eexists. exact (rep_add _ _ _ _ _ Hu Hw). Qed.
Lemma grid_opp x : grid x -> grid (- x).
Proof. intros (u & Hu). eexists. exact (rep_opp _ _ _ Hu). Qed.
Lemma grid_sub x y : grid x -> grid y -> grid (x - y).
Proof. intros (u & Hu) (w & Hw). eexists. exact (rep_sub _ _ _ _ _ Hu Hw). Qed.
Lemma grid_two x : grid x -> grid (qtwo * x).
Proof. intros (u & Hu). eexists. exact (rep_two _ _ _ Hu). Qed.
Lemma grid_abs x : grid x -> grid (qabs x).
Proof. intros (u & Hu). eexists. exact (rep_abs _ _ _ Hd Hu). Qed.

(** A multiple of 1/d below another stays below it after adding less than 1/d. *)
Lemma grid_gap t x y : grid x -> grid y -> 0 <= t -> zq d * t < 1 -> (x + t < y <-> x < y).
Proof.
  intros (u & Hu) (w & Hw) Ht Hs. split; intros H; [qclra|].
  apply (scale_lt d x y u w Hd Hu Hw) in H.
  assert (L : zq (u + 1) <= zq w) by (apply zq_le; lia).
  rewrite zq_add, zq_1 in L. unfold rep in Hu, Hw.
  assert (P : 0 < zq d) by (rewrite <- zq_0; apply zq_lt; exact Hd).
  apply Qcnot_le_lt. intros Q.
  assert (Q' : zq d * y <= zq d * (x + t)).
  { rewrite (Qcmult_comm _ y), (Qcmult_comm _ (x + t)). apply Qcmult_le_compat_r; [exact Q|].
    now apply Qclt_le_weak. }
  replace (zq d * (x + t)) with (zq d * x + zq d * t) in Q' by ring.
  rewrite Hu, Hw in Q'. clear - L Q' Hs. generalize dependent (zq d * t). intros s. qclra.
Qed.

Section Small.
Hypothesis He1 : zq d * eps < 1.

Lemma g_gt x y : grid x -> grid y -> qgtb x (y + eps) = qgtb x (y + 0).
Proof.
  intros Hx Hy. apply qltb_ext. replace (y + 0) with y by ring. now apply grid_gap.
Qed.
Lemma g_gt0 x : grid x -> qgtb x eps = qgtb x 0.
Proof.
  intros Hx. replace eps with (0 + eps) by ring. replace 0 with (0 + 0) at 2 by ring.
  apply g_gt; [exact Hx|apply grid_0].
Qed.
Lemma g_ltm x y : grid x -> grid y -> qltb x (y - eps) = qltb x (y - 0).
Proof.
  intros Hx Hy. apply qltb_ext.
  assert (E : x < y - eps <-> x + eps < y) by (split; intros; qclra).
  rewrite E, (grid_gap eps x y Hx Hy He0 He1). replace (y - 0) with y by ring. tauto.
Qed.
Lemma g_ltn x : grid x -> qltb x (- eps) = qltb x (- 0).
Proof.
  intros Hx. replace (- eps) with (0 - eps) by ring. replace (- 0) with (0 - 0) by ring.
  apply g_ltm; [exact Hx|apply grid_0].
Qed.
Lemma g_sign x : grid x -> sign_eps eps x = sign_eps 0 x.
Proof. intros Hx. unfold sign_eps. now rewrite g_ltn, g_gt0. Qed.

(** The parameters are on the grid. *)
Definition gridp (p : params) : Prop :=
  grid (pA p) /\ grid (pB p) /\ grid (pC p) /\ grid (pxi p) /\ grid (peta p) /\ grid (pzeta p).

Ltac gr := lazymatch goal with
  | H : grid ?x |- grid ?x => exact H
  | |- grid (qabs _) => apply grid_abs; gr
  | |- grid (qtwo * _) => apply grid_two; gr
  | |- grid (- _) => apply grid_opp; gr
  | |- grid (_ - _) => apply grid_sub; gr
  | |- grid (_ + _) => apply grid_add; gr
  | |- grid 0 => apply grid_0
  end.

Lemma g_cond1 p : gridp p -> cond1 eps p = cond1 0 p.
Proof.
  intros (GA & GB & GC & GX & GE & GZ). unfold cond1.
  rewrite (g_gt (pA p)), (g_gt0 (qabs (pA p - pB p))), (g_gt (qabs (pxi p))) by gr. reflexivity.
Qed.
Lemma g_cond2 p : gridp p -> cond2 eps p = cond2 0 p.
Proof.
  intros (GA & GB & GC & GX & GE & GZ). unfold cond2.
  rewrite (g_gt (pB p)), (g_gt0 (qabs (pC p - pB p))), (g_gt (qabs (peta p))) by gr. reflexivity.
Qed.
Lemma g_cond5 p : gridp p -> cond5 eps p = cond5 0 p.
Proof.
  intros (GA & GB & GC & GX & GE & GZ). unfold cond5.
  rewrite (g_gt (qabs (pxi p))), (g_gt0 (qabs (pB p - pxi p))), (g_gt0 (qabs (pB p + pxi p))),
    (g_ltm (qtwo * peta p)), (g_ltn (pzeta p)) by gr. reflexivity.
Qed.
Lemma g_cond6 p : gridp p -> cond6 eps p = cond6 0 p.
Proof.
  intros (GA & GB & GC & GX & GE & GZ). unfold cond6.
  rewrite (g_gt (qabs (peta p))), (g_gt0 (qabs (pA p - peta p))), (g_gt0 (qabs (pA p + peta p))),
    (g_ltm (qtwo * pxi p)), (g_ltn (pzeta p)) by gr. reflexivity.
Qed.
Lemma g_cond7 p : gridp p -> cond7 eps p = cond7 0 p.
Proof.
  intros (GA & GB & GC & GX & GE & GZ). unfold cond7.
  rewrite (g_gt (qabs (pzeta p))), (g_gt0 (qabs (pA p - pzeta p))), (g_gt0 (qabs (pA p + pzeta p))),
    (g_ltm (qtwo * pxi p)), (g_ltn (peta p)) by gr. reflexivity.
Qed.
Lemma g_cond8 p : gridp p -> cond8 eps p = cond8 0 p.
Proof.
  intros (GA & GB & GC & GX & GE & GZ). unfold cond8.
  rewrite (g_ltn (pxi p + peta p + pzeta p + pA p + pB p)),
    (g_gt0 (qabs (pxi p + peta p + pzeta p + pA p + pB p))),
    (g_gt0 (qtwo * (pA p + peta p) + pzeta p)) by gr. reflexivity.
Qed.

Variables (orig : qmat) (G : mat3).
Hypothesis HG : qscale (zq d) (qgram orig) = qof G.

Lemma grid_params C : gridp (get_params 0 orig C).
Proof.
  destruct (get_params_reps d orig G C Hd HG) as (RA & RB & RC & RX & RE & RZ & _).
  unfold gridp, grid. repeat split; eexists; eassumption.
Qed.
Lemma g_params C : get_params eps orig C = get_params 0 orig C.
Proof.
  pose proof (grid_params C) as (_ & _ & _ & GX & GE & GZ).
  unfold get_params in *. cbv zeta in *. cbn [pxi peta pzeta] in *.
  now rewrite !g_sign.
Qed.

Lemma g_upd C M : upd eps orig C M = upd 0 orig C M.
Proof. unfold upd. now rewrite g_params. Qed.

Lemma g_pass st : good 0 orig st -> pass eps orig st = pass 0 orig st.
Proof.
  intros HS.
  assert (K : forall st, good 0 orig st -> gridp (snd st)).
  { intros st' (_ & ->). apply grid_params. }
  rewrite !pass_stages. cbv zeta.
  assert (E1 : stage1 eps orig st = stage1 0 orig st).
  { unfold stage1. now rewrite g_cond1, g_upd by now apply K. }
  rewrite E1. pose proof (good_stage1 0 orig st HS) as H1.
  generalize dependent (stage1 0 orig st). intros s _ H1. clear HS.
  rewrite g_cond2, g_upd by now apply K.
  destruct (cond2 0 (snd (fst s))); [reflexivity|].
  assert (E3 : stage3 eps orig s = stage3 0 orig s).
  { unfold stage3. cbv zeta. now rewrite g_upd. }
  rewrite E3. pose proof (good_stage3 0 orig s H1) as H3.
  generalize dependent (stage3 0 orig s). intros s3 _ H3. clear H1 s.
  assert (E4 : stage4 eps orig s3 = stage4 0 orig s3).
  { unfold stage4. cbv zeta. now rewrite g_upd. }
  rewrite E4. pose proof (good_stage4 0 orig s3 H3) as H4.
  generalize dependent (stage4 0 orig s3). intros s4 _ H4. clear H3 s3.
  unfold stage58. cbv zeta. rewrite g_cond5, g_cond6, g_cond7, g_cond8, !g_upd by now apply K.
  reflexivity.
Qed.

Lemma g_loop fuel : forall r count st, good 0 orig st ->
  loop eps orig fuel r count st = loop 0 orig fuel r count st.
Proof.
  induction fuel as [|f IH]; intros r count st HS; [reflexivity|].
  cbn [loop]. destruct (negb r && Z.leb count 1000); [|reflexivity].
  rewrite g_pass by exact HS. pose proof (good_pass 0 orig st HS) as HP.
  destruct (pass 0 orig st) as [st' r']. apply IH. exact HP.
Qed.
Lemma g_final : final eps orig = final 0 orig.
Proof. unfold final. rewrite g_params. apply g_loop. apply good_init. Qed.
End Small.

(** Closeness with a relative tolerance is equality for values that are not too large. *)
Lemma g_close rt x y : 0 <= rt -> grid x -> grid y -> zq d * (eps + rt * qabs y) < 1 ->
  allclose_r rt eps x y = allclose_r 0 0 x y.
Proof.
  intros Hr Hx Hy Hs. unfold allclose_r. f_equal. apply qltb_ext.
  assert (Ha : 0 <= qabs y) by (destruct (qabs_bounds y); qclra).
  assert (Hp : 0 <= rt * qabs y).
  { replace 0 with (0 * qabs y) by ring. now apply Qcmult_le_compat_r. }
  replace (eps + rt * qabs y) with (0 + (eps + rt * qabs y)) at 1 by ring.
  rewrite (grid_gap (eps + rt * qabs y) 0 (qabs (x - y))).
  - replace (0 + 0 * qabs y) with 0 by ring. tauto.
  - apply grid_0.
  - now apply grid_abs, grid_sub.
  - qclra.
  - exact Hs.
Qed.
End Grid.

Ltac gr Hd := lazymatch goal with
  | H : grid ?d ?x |- grid ?d ?x => exact H
  | |- grid _ (qabs _) => apply grid_abs; [exact Hd|gr Hd]
  | |- grid _ (qtwo * _) => apply grid_two; gr Hd
  | |- grid _ (- _) => apply grid_opp; gr Hd
  | |- grid _ (_ - _) => apply grid_sub; gr Hd
  | |- grid _ (_ + _) => apply grid_add; gr Hd
  | |- grid _ 0 => apply grid_0
  end.

Lemma qabs_abs x : qabs (qabs x) = qabs x.
Proof.
  unfold qabs at 1. destruct (qltb (qabs x) 0) eqn:E; [|reflexivity].
  apply qltb_iff in E. destruct (qabs_bounds x). exfalso.
  apply (Qclt_not_le _ _ E). qclra.
Qed.
Lemma qabs_opp x : qabs (- x) = qabs x.
Proof.
  unfold qabs. destruct (qltb (- x) 0) eqn:E1; destruct (qltb x 0) eqn:E2; try reflexivity;
    try apply qltb_iff in E1; try apply qltb_iff in E2; try apply qltb_false in E1;
    try apply qltb_false in E2; qclra.
Qed.
Lemma qabs_0 : qabs 0 = 0.
Proof. reflexivity. Qed.

Definition pos_le (r x y : Qc) : 0 <= r -> x <= y -> r * x <= r * y.
Proof.
  intros Hr H. rewrite (Qcmult_comm r x), (Qcmult_comm r y). now apply Qcmult_le_compat_r.
Qed.

Section Check.
Variables (d : Z) (eps rt a8 Y : Qc).
Hypothesis Hd : (0 < d)%Z.
Hypothesis He : 0 <= eps.
Hypothesis Hr : 0 <= rt.
Hypothesis HY : zq d * (eps + rt * Y) < 1.

Lemma close_Y x y : grid d x -> grid d y -> qabs y <= Y ->
  allclose_r rt eps x y = allclose_r 0 0 x y.
Proof.
  intros Hx Hy H. apply (g_close d eps Hd He rt x y Hr Hx Hy).
  eapply Qcle_lt_trans; [|exact HY]. apply pos_le.
  - rewrite <- zq_0. apply zq_le. lia.
  - pose proof (pos_le rt _ _ Hr H). generalize dependent (rt * qabs y).
    generalize (rt * Y). intros. qclra.
Qed.

Lemma Y_eps : 0 <= Y -> zq d * eps < 1.
Proof.
  intros H. eapply Qcle_lt_trans; [|exact HY]. apply pos_le.
  - rewrite <- zq_0. apply zq_le. lia.
  - pose proof (pos_le rt 0 Y Hr H). generalize dependent (rt * Y). intros q H'.
    replace (rt * 0) with 0 in H' by ring. qclra.
Qed.

Hypothesis Ha : 0 <= a8.
Hypothesis Ha1 : zq d * a8 < 1.
Variables A B C xi eta zeta : Qc.
Hypotheses (GA : grid d A) (GB : grid d B) (GC : grid d C)
  (GX : grid d xi) (GE : grid d eta) (GZ : grid d zeta).
Hypotheses (YA : qabs A <= Y) (YB : qabs B <= Y) (YC : qabs C <= Y)
  (YX : qabs xi <= Y) (YE : qabs eta <= Y) (YZ : qabs zeta <= Y)
  (YX2 : qabs (qtwo * xi) <= Y) (YE2 : qabs (qtwo * eta) <= Y)
  (YS : qabs (A + B + C + xi + eta + zeta) <= Y).

Lemma check_grid : niggli_check_tol rt a8 A B C xi eta zeta eps =
  niggli_check_tol 0 0 A B C xi eta zeta 0.
Proof.
  assert (Y0 : 0 <= Y) by (destruct (qabs_bounds A); qclra).
  pose proof (Y_eps Y0) as He1.
  assert (YB' : qabs (- B) <= Y) by now rewrite qabs_opp.
  assert (YA' : qabs (- A) <= Y) by now rewrite qabs_opp.
  assert (YE' : qabs (qabs eta) <= Y) by now rewrite qabs_abs.
  assert (YZ' : qabs (qabs zeta) <= Y) by now rewrite qabs_abs.
  assert (Y0' : qabs 0 <= Y) by (rewrite qabs_0; exact Y0).
  unfold niggli_check_tol. cbv zeta.
  repeat match goal with
  | |- context [allclose_r rt eps ?x ?y] => rewrite (close_Y x y) by first [assumption | gr Hd]
  | |- context [qgtb (?x - eps) 0] =>
      replace (qgtb (x - eps) 0) with (qgtb (x - 0) 0)
        by (symmetry; unfold qgtb; apply (g_ltm d eps Hd He He1); gr Hd)
  | |- context [qltb ?x (?y - eps)] => rewrite (g_ltm d eps Hd He He1 x y) by gr Hd
  end.
  rewrite (g_close d a8 Hd Ha 0 C (A + B + C + xi + eta + zeta)).
  - reflexivity.
  - apply Qcle_refl.
  - gr Hd.
  - gr Hd.
  - generalize (qabs (A + B + C + xi + eta + zeta)). intros q.
    replace (a8 + 0 * q) with a8 by ring.
    exact Ha1.
Qed.
End Check.
