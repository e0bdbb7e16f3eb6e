(** The reduction of a cell for which no compared number is close to the tolerance. *)
From Coq Require Import ZArith QArith Qcanon List Bool Lia.
From Verif Require Import Mat3 Spec QMat QNum QcTac Spec_grid Spec_niggli Spec_niggli_f90 Spec_clear
  Model_pyniggli Model_niggli_f90 Proofs_pyniggli Proofs_niggli_term Proofs_pyniggli2 Proofs_gridcell
  Proofs_stable Proofs_niggli_f90a.
Import ListNotations.
Open Scope Qc_scope.

(** ** Comparisons that do not depend on the tolerance *)
Lemma apart_opp t v : apart t v -> apart t (- v).
Proof. unfold apart. rewrite qabs_opp. intros [-> |H]; [left; reflexivity|now right]. Qed.
Lemma apart_le t s v : s <= t -> apart t v -> apart s v.
Proof. intros H [K|K]; [now left|right]. eapply Qcle_lt_trans; eassumption. Qed.
Lemma apart_cases t v : apart t v <-> v = 0 \/ t < v \/ v < - t.
Proof.
  unfold apart. rewrite qabs_ge. split; intros [K|[K|K]]; auto; right; right; qclra.
Qed.
Lemma same_of lo hi f : f lo = f hi -> same lo hi f = true.
Proof. unfold same. intros ->. apply eqb_reflx. Qed.

Section Same.
Variable t : Qc.
Hypothesis Ht : 0 <= t.
Ltac start H :=
  apply same_of; apply eq_true_iff_eq;
  unfold gt_plus, gt_e, lt_minus, lt_opp; rewrite ?qgtb_iff, ?qltb_iff;
  apply apart_cases in H; destruct H as [H|[H|H]].
Lemma sa_gt_plus x y : apart t (x - y) -> same 0 t (gt_plus x y) = true.
Proof. intros H. start H; split; intros K; qclra. Qed.
Lemma sa_gt_plus' x y : apart t (y - x) -> same 0 t (gt_plus x y) = true.
Proof. intros H. start H; split; intros K; qclra. Qed.
Lemma sa_lt_minus x y : apart t (x - y) -> same 0 t (lt_minus x y) = true.
Proof. intros H. start H; split; intros K; qclra. Qed.
Lemma sa_lt_opp x : apart t x -> same 0 t (lt_opp x) = true.
Proof. intros H. start H; split; intros K; qclra. Qed.
Lemma sa_gt_e x : apart t x -> same 0 t (gt_e x) = true.
Proof. intros H. start H; split; intros K; qclra. Qed.
Lemma sa_abs x : apart t x -> same 0 t (gt_e (qabs x)) = true.
Proof.
  intros H. apply sa_gt_e. destruct H as [-> |H]; [left; reflexivity|right].
  now rewrite qabs_abs.
Qed.
(** B - xi and B + xi. *)
Lemma sa_pair B x : 0 < B -> apart t x -> apart t (qabs x - B) -> apart t (B - x) /\ apart t (B + x).
Proof.
  intros HB Hx Hd.
  apply apart_cases in Hx, Hd. rewrite !apart_cases. unfold qabs in Hd.
  destruct (qltb x 0) eqn:E; [apply qltb_iff in E|apply qltb_false in E];
  destruct Hd as [Hd|[Hd|Hd]].
  - split; [right; left|left; qclra]. destruct Hx as [->|[Hx|Hx]].
    + exfalso. now apply (Qclt_not_eq 0 0).
    + exfalso. apply (Qclt_not_le _ _ Hx). qclra.
    + qclra.
  - split; [right; left; qclra|right; right; qclra].
  - split; right; left; qclra.
  - split; [left; qclra|right; left]. destruct Hx as [->|[Hx|Hx]].
    + exfalso. apply (Qclt_not_eq 0 B HB). qclra.
    + qclra.
    + exfalso. apply (Qclt_not_le _ _ Hx). qclra.
  - split; [right; right; qclra|right; left; qclra].
  - split; right; left; qclra.
Qed.
(** The comparisons of a pass. *)
Lemma clear_pass A B C xi eta zeta : 0 < A -> 0 < B ->
  (forall v, In v (compared A B C xi eta zeta) -> apart t v) ->
  stab_pass 0 t A B C xi eta zeta = true.
Proof.
  intros HA HB H. apply Forall_forall in H. unfold compared in H.
  apply Forall_cons_iff in H. destruct H as (H1 & H).
  apply Forall_cons_iff in H. destruct H as (H2 & H).
  apply Forall_cons_iff in H. destruct H as (H3 & H).
  apply Forall_cons_iff in H. destruct H as (H4 & H).
  apply Forall_cons_iff in H. destruct H as (H5 & H).
  apply Forall_cons_iff in H. destruct H as (H6 & H).
  apply Forall_cons_iff in H. destruct H as (H7 & H).
  apply Forall_cons_iff in H. destruct H as (H8 & H).
  apply Forall_cons_iff in H. destruct H as (H9 & H).
  apply Forall_cons_iff in H. destruct H as (H10 & H).
  apply Forall_cons_iff in H. destruct H as (H11 & H).
  apply Forall_cons_iff in H. destruct H as (H12 & H).
  apply Forall_cons_iff in H. destruct H as (H13 & H).
  apply Forall_cons_iff in H. destruct H as (H14 & H).
  apply Forall_cons_iff in H. destruct H as (H15 & H).
  clear H.
  destruct (sa_pair B xi HB H5 H8) as (P1 & P2).
  destruct (sa_pair A eta HA H6 H9) as (P3 & P4).
  destruct (sa_pair A zeta HA H7 H10) as (P5 & P6).
  unfold stab_pass. cbn [forallb].
  assert (E1 : C - B = - (B - C)) by ring.
  assert (E2 : qtwo * eta - zeta = - (zeta - (eta + eta))) by (unfold qtwo; ring).
  assert (E3 : qtwo * xi - zeta = - (zeta - (xi + xi))) by (unfold qtwo; ring).
  assert (E4 : qtwo * xi - eta = - (eta - (xi + xi))) by (unfold qtwo; ring).
  assert (E5 : xi + eta + zeta + A + B = A + B + xi + eta + zeta) by ring.
  assert (E6 : qtwo * (A + eta) + zeta = A + A + (eta + eta) + zeta) by (unfold qtwo; ring).
  rewrite E1, E5, E6. apply apart_opp in H12, H13, H14. rewrite <- E2 in H12.
  rewrite <- E3 in H13. rewrite <- E4 in H14.
  apply apart_opp in H2 as H2'.
  repeat (apply andb_true_intro; split);
  lazymatch goal with
  | |- true = true => reflexivity
  | |- same _ _ (lt_opp _) = true => apply sa_lt_opp; assumption
  | |- same _ _ (gt_e (qabs _)) = true => apply sa_abs; assumption
  | |- same _ _ (gt_e _) = true => apply sa_gt_e; assumption
  | |- same _ _ (gt_plus _ _) = true => apply sa_gt_plus; assumption
  | |- same _ _ (lt_minus _ _) = true => apply sa_lt_minus; assumption
  end.
Qed.
End Same.

(** ** No vector gets longer *)
Lemma mul_step U C S : qmul U (qof (mmul C S)) = qmul (qmul U (qof C)) (qof S).
Proof. now rewrite qof_mul, qmul_assoc. Qed.

Lemma signs_C3 l m n : exists i j k, find_C3 l m n = mdiag i j k /\
  (i = 1 \/ i = -1)%Z /\ (j = 1 \/ j = -1)%Z /\ (k = 1 \/ k = -1)%Z.
Proof.
  unfold find_C3. do 3 eexists. split; [reflexivity|].
  destruct (Z.eqb l (-1)), (Z.eqb m (-1)), (Z.eqb n (-1)); auto.
Qed.
Lemma signs_C4 l m n : exists i j k, find_C4 l m n = mdiag i j k /\
  (i = 1 \/ i = -1)%Z /\ (j = 1 \/ j = -1)%Z /\ (k = 1 \/ k = -1)%Z.
Proof.
  unfold find_C4. cbv zeta.
  repeat match goal with |- context [if ?b then _ else _] => destruct b end;
    do 3 eexists; (split; [reflexivity|]); auto.
Qed.

Section Longest.
Variables (N : qmat) (L : Qc).
Let A := q11 (qgram N).
Let B := q22 (qgram N).
Let C := q33 (qgram N).
Let xi := q23 (qgram N) + q23 (qgram N).
Let eta := q13 (qgram N) + q13 (qgram N).
Let zeta := q12 (qgram N) + q12 (qgram N).

Lemma len_mul S : (* of the vectors of N S *)
  let col a b c := zq (a * a) * A + zq (b * b) * B + zq (c * c) * C +
    zq (b * c) * xi + zq (a * c) * eta + zq (a * b) * zeta in
  q11 (qgram (qmul N (qof S))) = col (m11 S) (m21 S) (m31 S) /\
  q22 (qgram (qmul N (qof S))) = col (m12 S) (m22 S) (m32 S) /\
  q33 (qgram (qmul N (qof S))) = col (m13 S) (m23 S) (m33 S).
Proof.
  unfold A, B, C, xi, eta, zeta. cbv zeta. rewrite !zq_mul.
  unfold qgram, qmul, qtr, qof. cbn [q11 q12 q13 q21 q22 q23 q31 q32 q33].
  repeat split; ring.
Qed.

Hypothesis HL : longest N L.

Ltac go S := let E1 := fresh in let E2 := fresh in let E3 := fresh in
  destruct (len_mul S) as (E1 & E2 & E3); unfold longest; rewrite E1, E2, E3; clear E1 E2 E3;
  unfold longest in HL; fold A B C in HL;
  cbn [m11 m12 m13 m21 m22 m23 m31 m32 m33 mdiag step1 step2 step5 step6 step7 step8].

Lemma long_1 : longest (qmul N (qof step1)) L.
Proof.
  destruct HL as (LA & LB & LC). go step1. clearbody A B C xi eta zeta. cbn [Z.mul].
  change (zq (Z.pos (1 * 1))) with (1 : Qc). rewrite ?zq_0. change (zq 1) with (1 : Qc).
  repeat split; qclra.
Qed.
Lemma long_2 : longest (qmul N (qof step2)) L.
Proof.
  destruct HL as (LA & LB & LC). go step2. clearbody A B C xi eta zeta. cbn [Z.mul].
  change (zq (Z.pos (1 * 1))) with (1 : Qc). rewrite ?zq_0. change (zq 1) with (1 : Qc).
  repeat split; qclra.
Qed.
Lemma long_diag i j k : (i = 1 \/ i = -1)%Z -> (j = 1 \/ j = -1)%Z -> (k = 1 \/ k = -1)%Z ->
  longest (qmul N (qof (mdiag i j k))) L.
Proof.
  intros Hi Hj Hk. destruct HL as (LA & LB & LC). go (mdiag i j k).
  clearbody A B C xi eta zeta.
  replace (i * i)%Z with 1%Z by (destruct Hi as [->| ->]; reflexivity).
  replace (j * j)%Z with 1%Z by (destruct Hj as [->| ->]; reflexivity).
  replace (k * k)%Z with 1%Z by (destruct Hk as [->| ->]; reflexivity).
  rewrite ?Z.mul_0_l, ?Z.mul_0_r, zq_0. change (zq 1) with (1 : Qc).
  repeat split; qclra.
Qed.

(** x |x|, with the sign the program uses. *)
Lemma sign_abs x : zq (qsign x) * x = qabs x.
Proof.
  unfold qsign, qabs. destruct (qltb x 0) eqn:E; [apply qltb_iff in E|apply qltb_false in E].
  - change (zq (-1)) with (- (1) : Qc). ring.
  - destruct (qltb 0 x) eqn:E'; [change (zq 1) with (1 : Qc); ring|].
    apply qltb_false in E'. rewrite zq_0. assert (x = 0) by (apply Qcle_antisym; assumption).
    subst x. ring.
Qed.
Lemma sign_sq x : zq (qsign x * qsign x) <= 1.
Proof.
  unfold qsign. destruct (qltb x 0), (qltb 0 x); discriminate.
Qed.
(** c |-> c - s b. *)
Lemma shorter s y x : 0 < y -> s = qsign x -> y <= qabs x ->
  zq (- s * - s) * y + zq (- s) * x <= 0.
Proof.
  intros Hy -> Hx. rewrite Z.mul_opp_opp.
  replace (zq (- qsign x) * x) with (- qabs x) by (rewrite <- sign_abs, zq_opp; ring).
  pose proof (sign_sq x) as H. generalize dependent (zq (qsign x * qsign x)). intros w H.
  apply (fun K => Qcmult_le_compat_r _ _ y K (Qclt_le_weak _ _ Hy)) in H.
  generalize dependent (w * y). intros. qclra.
Qed.
Ltac tidy := rewrite ?Z.mul_0_l, ?Z.mul_0_r, ?Z.mul_1_l, ?Z.mul_1_r, ?zq_0; change (zq 1) with (1 : Qc).
Lemma long_5 : 0 < B -> B <= qabs xi -> longest (qmul N (qof (step5 xi))) L.
Proof.
  intros HB HX. pose proof (shorter _ B xi HB eq_refl HX) as K.
  destruct HL as (LA & LB & LC). go (step5 xi). clearbody A B C xi eta zeta. tidy.
  generalize dependent (zq (- qsign xi * - qsign xi) * B). generalize dependent (zq (- qsign xi) * xi).
  intros u w K. repeat split; qclra.
Qed.
Lemma long_6 : 0 < A -> A <= qabs eta -> longest (qmul N (qof (step6 eta))) L.
Proof.
  intros HB HX. pose proof (shorter _ A eta HB eq_refl HX) as K.
  destruct HL as (LA & LB & LC). go (step6 eta). clearbody A B C xi eta zeta. tidy.
  generalize dependent (zq (- qsign eta * - qsign eta) * A). generalize dependent (zq (- qsign eta) * eta).
  intros u w K. repeat split; qclra.
Qed.
Lemma long_7 : 0 < A -> A <= qabs zeta -> longest (qmul N (qof (step7 zeta))) L.
Proof.
  intros HB HX. pose proof (shorter _ A zeta HB eq_refl HX) as K.
  destruct HL as (LA & LB & LC). go (step7 zeta). clearbody A B C xi eta zeta. tidy.
  generalize dependent (zq (- qsign zeta * - qsign zeta) * A). generalize dependent (zq (- qsign zeta) * zeta).
  intros u w K. repeat split; qclra.
Qed.
Lemma long_8 : A + B + xi + eta + zeta <= 0 -> longest (qmul N (qof step8)) L.
Proof.
  intros H. destruct HL as (LA & LB & LC). go step8. clearbody A B C xi eta zeta. tidy.
  repeat split; qclra.
Qed.
End Longest.

(** ** The conditions of the steps that shorten a vector *)
Lemma near_0 x : negb (qgtb (qabs x) 0) = true -> x = 0.
Proof. rewrite negb_true_iff, qabs_within. apply within_0. Qed.
Lemma abs_pos_eq x y : 0 < y -> x = y \/ x = - y -> y <= qabs x.
Proof. intros Hy H. destruct (qabs_bounds x) as (K1 & K2). destruct H; subst x; qclra. Qed.
Lemma cond5_long p : 0 < pB p -> cond5 0 p = true -> pB p <= qabs (pxi p).
Proof.
  intros HB. unfold cond5. rewrite !orb_true_iff, !andb_true_iff. intros [[H|(H & _)]|(H & _)].
  - apply qgtb_iff in H. generalize dependent (qabs (pxi p)). intros. qclra.
  - apply near_0 in H. apply abs_pos_eq; [exact HB|left]. qclra.
  - apply near_0 in H. apply abs_pos_eq; [exact HB|right]. qclra.
Qed.
Lemma cond6_long p : 0 < pA p -> cond6 0 p = true -> pA p <= qabs (peta p).
Proof.
  intros HB. unfold cond6. rewrite !orb_true_iff, !andb_true_iff. intros [[H|(H & _)]|(H & _)].
  - apply qgtb_iff in H. generalize dependent (qabs (peta p)). intros. qclra.
  - apply near_0 in H. apply abs_pos_eq; [exact HB|left]. qclra.
  - apply near_0 in H. apply abs_pos_eq; [exact HB|right]. qclra.
Qed.
Lemma cond7_long p : 0 < pA p -> cond7 0 p = true -> pA p <= qabs (pzeta p).
Proof.
  intros HB. unfold cond7. rewrite !orb_true_iff, !andb_true_iff. intros [[H|(H & _)]|(H & _)].
  - apply qgtb_iff in H. generalize dependent (qabs (pzeta p)). intros. qclra.
  - apply near_0 in H. apply abs_pos_eq; [exact HB|left]. qclra.
  - apply near_0 in H. apply abs_pos_eq; [exact HB|right]. qclra.
Qed.
Lemma cond8_long p : cond8 0 p = true -> pA p + pB p + pxi p + peta p + pzeta p <= 0.
Proof.
  unfold cond8. rewrite orb_true_iff, andb_true_iff. intros [H|(H & _)].
  - apply qltb_iff in H. qclra.
  - apply near_0 in H. qclra.
Qed.

(** ** The reduction *)
Section Run.
Variables (t L : Qc) (U : qmat).
Hypothesis Ht : 0 <= t.
Hypothesis HU : qdet U <> 0.
Hypothesis HC : reduction_clear t L U.

Definition short (st : mat3 * params) : Prop :=
  good 0 U st /\ longest (qmul U (qof (fst st))) L.

Lemma second_pos M : qdet M <> 0 -> 0 < q22 (qgram M).
Proof.
  intros H. replace (q22 (qgram M)) with (norm2 (qmvec M (QVec 0 1 0))).
  - apply norm2_pos. intros E.
    assert (F : QVec 0 1 0 = QVec 0 0 0).
    { apply (qmvec_inj M _ _ H). rewrite E. unfold qmvec. cbn [w1 w2 w3]. f_equal; ring. }
    apply (f_equal w2) in F. cbn [w2] in F. discriminate.
  - unfold norm2, qmvec, qgram, qmul, qtr. cbn [w1 w2 w3 q11 q12 q13 q21 q22 q23 q31 q32 q33]. ring.
Qed.
Lemma det_step C : mdet C = 1%Z -> qdet (qmul U (qof C)) <> 0.
Proof.
  intros H. rewrite qdet_mul, qof_det, H. apply Qc_mul_neq0; [exact HU|discriminate].
Qed.

Lemma short_clear st : short st -> stab 0 t U (fst st) = true.
Proof.
  intros ((HD & _) & HL). destruct (HC _ HD HL) as (_ & K).
  unfold stab. pose proof (get_params_six 0 U (fst st) _ eq_refl) as (E1 & E2 & E3 & E4 & E5 & E6).
  unfold stab_p. rewrite E1, E2, E3, E4, E5, E6. apply clear_pass.
  - exact Ht.
  - now apply col_pos, det_step.
  - now apply second_pos, det_step.
  - exact K.
Qed.

Lemma short_upd st S : short st -> mdet S = 1%Z ->
  longest (qmul (qmul U (qof (fst st))) (qof S)) L -> short (upd 0 U (fst st) S).
Proof.
  intros ((HD & _) & HL) HS H. split; [now apply good_upd|]. cbn [upd fst]. now rewrite mul_step.
Qed.
Lemma short_stage1 st : short st -> short (fst (stage1 0 U st)).
Proof.
  intros H. unfold stage1. destruct (cond1 _ _); [|exact H]. cbn [fst].
  apply short_upd; [exact H|reflexivity|]. apply long_1, H.
Qed.
Lemma short_2 st : short st -> short (upd 0 U (fst st) step2).
Proof. intros H. apply short_upd; [exact H|reflexivity|]. apply long_2, H. Qed.
Lemma short_stage3 s : short (fst s) -> short (fst (stage3 0 U s)).
Proof.
  intros H. split; [apply good_stage3, H|]. unfold stage3. cbv zeta.
  destruct (cond3 _); [|apply H]. cbn [fst upd]. rewrite mul_step.
  destruct (signs_C3 (pl (snd (fst s))) (pm (snd (fst s))) (pn (snd (fst s)))) as (i & j & k & -> & Hi & Hj & Hk).
  apply long_diag; try assumption. apply H.
Qed.
Lemma short_stage4 s : short (fst s) -> short (fst (stage4 0 U s)).
Proof.
  intros H. split; [apply good_stage4, H|]. unfold stage4. cbv zeta.
  destruct (cond4 _); [|apply H]. cbn [fst upd]. rewrite mul_step.
  destruct (signs_C4 (pl (snd (fst s))) (pm (snd (fst s))) (pn (snd (fst s)))) as (i & j & k & -> & Hi & Hj & Hk).
  apply long_diag; try assumption. apply H.
Qed.
Lemma short_stage58 s : short (fst s) -> short (fst (stage58 0 U s)).
Proof.
  intros H. pose proof H as ((HD & HP) & HL).
  pose proof (get_params_six 0 U _ _ (eq_sym HP)) as (E1 & E2 & E3 & E4 & E5 & E6).
  pose proof (col_pos _ (det_step _ HD)) as PA. pose proof (second_pos _ (det_step _ HD)) as PB.
  rewrite <- E1 in PA. rewrite <- E2 in PB.
  unfold stage58. cbv zeta.
  destruct (cond5 _ _) eqn:K5.
  { apply short_upd; [exact H|apply step5_det|]. apply (cond5_long _ PB) in K5.
    rewrite E2 in K5, PB. rewrite E4 in *. now apply long_5. }
  destruct (cond6 _ _) eqn:K6.
  { apply short_upd; [exact H|apply step6_det|]. apply (cond6_long _ PA) in K6.
    rewrite E1 in K6, PA. rewrite E5 in *. now apply long_6. }
  destruct (cond7 _ _) eqn:K7.
  { apply short_upd; [exact H|apply step7_det|]. apply (cond7_long _ PA) in K7.
    rewrite E1 in K7, PA. rewrite E6 in *. now apply long_7. }
  destruct (cond8 _ _) eqn:K8.
  { apply short_upd; [exact H|reflexivity|]. apply cond8_long in K8.
    rewrite E1, E2, E4, E5, E6 in K8. now apply long_8. }
  exact H.
Qed.
Lemma short_pass st : short st -> short (fst (pass 0 U st)).
Proof.
  intros H. rewrite pass_stages. cbv zeta. pose proof (short_stage1 st H) as H1.
  destruct (cond2 _ _); [now apply short_2|].
  now apply short_stage58, short_stage4, short_stage3.
Qed.
Lemma short_step st : short st -> stab_step 0 t U st = true.
Proof.
  intros H. unfold stab_step. cbv zeta. pose proof (short_stage1 st H) as H1.
  rewrite !andb_true_iff. refine (conj (conj (conj _ _) _) _).
  - now apply short_clear.
  - now apply short_clear.
  - destruct (cond2 _ _); [reflexivity|]. pose proof (short_stage3 _ H1) as H3.
    pose proof (short_stage4 _ H3) as H4. apply andb_true_intro; split; now apply short_clear.
  - apply short_clear. now apply short_pass.
Qed.
Lemma short_loop fuel : forall r count st, short st -> stab_loop 0 t U fuel r count st = true.
Proof.
  induction fuel as [|f IH]; intros r count st H; cbn [stab_loop];
    destruct (negb r && Z.leb count 1000); try reflexivity.
  apply andb_true_intro; split; [now apply short_step|].
  pose proof (short_pass st H) as HP. destruct (pass 0 U st) as [st' r']. now apply IH.
Qed.
Lemma loop_short fuel : forall r count st, short st -> short (fst (loop 0 U fuel r count st)).
Proof.
  induction fuel as [|f IH]; intros r count st H; cbn [loop];
    destruct (negb r && Z.leb count 1000); try exact H.
  pose proof (short_pass st H) as HP. destruct (pass 0 U st) as [st' r']. now apply IH.
Qed.

Hypothesis HL : longest U L.
Lemma short_init : short (mid, get_params 0 U mid).
Proof. split; [apply good_init|]. cbn [fst]. now rewrite qof_id, qmul_id_r. Qed.
Lemma clear_final e : 0 <= e -> e <= t -> final e U = final 0 U.
Proof.
  intros H0 H1. unfold final.
  rewrite (st_params 0 t e H0 H1 U mid) by exact (short_clear _ short_init).
  apply (st_loop 0 t e H0 H1).
  - apply good_init.
  - apply short_loop, short_init.
Qed.
Lemma final_short : short (fst (final 0 U)).
Proof. apply loop_short, short_init. Qed.
Lemma clear_params e C : 0 <= e -> e <= t -> mdet C = 1%Z -> longest (qmul U (qof C)) L ->
  get_params e U C = get_params 0 U C.
Proof.
  intros H0 H1 HD K. apply (st_params 0 t e H0 H1 U C).
  exact (short_clear (C, get_params 0 U C) (conj (conj HD eq_refl) K)).
Qed.
End Run.

(** ** reduce_cell of niggli.f90 *)
Lemma f_clear_reduce eps L U : qdet U <> 0 -> longest U L -> 0 < eps -> reduction_clear eps L U ->
  let C := fst (fst (final 0 U)) in
  if Z.leb 1000 (snd (final 0 U)) then f_reduce eps U = Gave_up
  else mdet C = 1%Z /\ is_niggli (qmul U (qof C)) /\ f_reduce eps U = FReduced (qmul U (qof C)) C.
Proof.
  intros HU HL He HC. cbv zeta.
  assert (He' : 0 <= eps) by now apply Qclt_le_weak.
  rewrite reduce_final. pose proof (final_settled eps U) as HSe.
  rewrite (clear_final eps L U He' HU HC HL eps He' (Qcle_refl _)) in *.
  pose proof (final_settled 0 U) as HS. pose proof (final_short L U HU HL) as HF.
  destruct (final 0 U) as [[C p] count]. cbn [fst snd] in HF, HS, HSe.
  cbn [fst snd]. destruct (Z.leb_spec 1000 count) as [K|K]; [reflexivity|].
  destruct HF as ((HD & HP) & HLn). cbn [fst snd] in HD, HP, HLn. split; [exact HD|].
  specialize (HS ltac:(lia)). specialize (HSe ltac:(lia)).
  assert (HN : is_niggli (qmul U (qof C))).
  { apply is_niggli_upto_0; [now apply det_step|].
    apply settled_iff; [apply Qcle_refl|]. now rewrite <- HP. }
  split; [exact HN|].
  assert (HE : is_niggli_upto eps (qmul U (qof C))).
  { apply settled_iff; [exact He'|].
    rewrite (clear_params eps L U He' HU HC eps C He' (Qcle_refl _) HD HLn). now rewrite <- HP. }
  destruct (HC C HD HLn) as (HA & HV).
  destruct (get_params_six 0 U C p (eq_sym HP)) as (E1 & E2 & E3 & E4 & E5 & E6). cbv zeta in *.
  rewrite E1, E2, E3, E4, E5, E6.
  rewrite check_passes; [reflexivity|exact He'|exact HA|exact HE|].
  intros (v & Hv & T). apply HV in Hv. apply apart_cases in Hv.
  destruct T as [T|T]; subst v; destruct Hv as [Hv|[Hv|Hv]].
  - rewrite Hv in He. now apply (Qclt_not_eq 0 0).
  - now apply (Qclt_not_eq eps eps).
  - apply (Qclt_not_eq 0 0); [|reflexivity]. qclra.
  - apply (Qclt_not_eq 0 0); [|reflexivity]. qclra.
  - apply (Qclt_not_eq 0 0); [|reflexivity]. qclra.
  - now apply (Qclt_not_eq (- eps) (- eps)).
Qed.
