(** Cells on a grid are clear; the reduction of pyniggli.py and its identification. *)
From Coq Require Import ZArith QArith Qcanon List Bool Lia.
From Verif Require Import Mat3 Spec QMat QNum QcTac Spec_grid Spec_niggli Spec_niggli_f90 Spec_clear
  Model_pyniggli Model_niggli_id Model_niggli_f90 Proofs_pyniggli Proofs_niggli_term Proofs_pyniggli2
  Proofs_pyniggli3 Proofs_niggli_id2 Proofs_gridcell Proofs_gridcell2 Proofs_niggli_f90a Proofs_niggli_f90b
  Proofs_clear Proofs_clear2.
Import ListNotations.
Open Scope Qc_scope.

(** ** Scalar products that are multiples of one number *)
Definition mult (s x : Qc) : Prop := exists u, x = zq u * s.
Lemma mult_add s x y : mult s x -> mult s y -> mult s (x + y).
Proof. intros (u & ->) (w & ->). exists (u + w)%Z. rewrite zq_add. ring. Qed.
Lemma mult_opp s x : mult s x -> mult s (- x).
Proof. intros (u & ->). exists (- u)%Z. rewrite zq_opp. ring. Qed.
Lemma mult_sub s x y : mult s x -> mult s y -> mult s (x - y).
Proof. intros H K. unfold Qcminus. now apply mult_add, mult_opp. Qed.
Lemma mult_z s n x : mult s x -> mult s (zq n * x).
Proof. intros (u & ->). exists (n * u)%Z. rewrite zq_mul. ring. Qed.
Lemma mult_abs s x : mult s x -> mult s (qabs x).
Proof. intros H. unfold qabs. destruct (qltb x 0); [now apply mult_opp|exact H]. Qed.
Lemma mult_div s n m x : n <> 0%Z -> (n * m = 12)%Z -> mult (zq 12 * s) x -> mult s (x / zq n).
Proof.
  intros Hn E (u & ->). exists (m * u)%Z. rewrite <- E, !zq_mul. field. now apply zq_neq0.
Qed.
Lemma mult_fine s x : mult (zq 12 * s) x -> mult s x.
Proof. intros (u & ->). exists (12 * u)%Z. rewrite zq_mul. ring. Qed.
Ltac mu := lazymatch goal with
  | H : mult ?d ?x |- mult ?d ?x => exact H
  | |- mult _ (qabs _) => apply mult_abs; mu
  | |- mult _ (zq _ * _) => apply mult_z; mu
  | |- mult _ (- _) => apply mult_opp; mu
  | |- mult _ (_ - _) => apply mult_sub; mu
  | |- mult _ (_ + _) => apply mult_add; mu
  end.

Lemma mult_apart s t v : 0 < s -> t < s -> mult s v -> apart t v.
Proof.
  intros Hs Ht (u & ->). apply apart_cases.
  assert (P : forall w z, (w <= z)%Z -> zq w * s <= zq z * s).
  { intros w z H. apply Qcmult_le_compat_r; [now apply zq_le|now apply Qclt_le_weak]. }
  destruct (Z.lt_trichotomy u 0) as [L|[L|L]].
  - right; right. pose proof (P u (-1)%Z ltac:(lia)) as K. change (zq (-1)) with (- (1) : Qc) in K.
    generalize dependent (zq u * s). intros. qclra.
  - left. subst u. rewrite zq_0. ring.
  - right; left. pose proof (P 1%Z u ltac:(lia)) as K. change (zq 1) with (1 : Qc) in K.
    generalize dependent (zq u * s). intros. qclra.
Qed.

(** The scalar products of all bases are multiples of [s]. *)
Definition spaced (s : Qc) (U : qmat) : Prop := exists G, qgram U = qscale s (qof G).
Lemma spaced_entries s U C : spaced s U -> let H := qgram (qmul U (qof C)) in
  mult s (q11 H) /\ mult s (q22 H) /\ mult s (q33 H) /\ mult s (q23 H) /\ mult s (q13 H) /\ mult s (q12 H).
Proof.
  intros (G & HG). cbv zeta.
  assert (E : qgram (qmul U (qof C)) = qscale s (qof (mmul (mtr C) (mmul G C)))).
  { rewrite !qof_mul, qof_tr, <- qscale_mul_r, <- qscale_mul_l, <- HG. unfold qgram.
    rewrite qtr_mul, !qmul_assoc. reflexivity. }
  rewrite E. generalize (mmul (mtr C) (mmul G C)). intros K.
  unfold mult, qscale, qof. cbn [q11 q12 q13 q21 q22 q23 q31 q32 q33].
  repeat split; eexists; apply Qcmult_comm.
Qed.

Lemma spaced_red s t L U : 0 < s -> qdet U <> 0 -> spaced s U -> t < s -> reduction_clear t L U.
Proof.
  intros Hs HU HG Ht C HC _. unfold cell_params. cbv zeta.
  assert (KU : qdet (qmul U (qof C)) <> 0).
  { rewrite qdet_mul, qof_det, HC. apply Qc_mul_neq0; [exact HU|discriminate]. }
  pose proof (spaced_entries s U C HG) as (GA & GB & GC & GX & GE & GZ). cbv zeta in *.
  pose proof (col_pos _ KU) as P.
  generalize dependent (q11 (qgram (qmul U (qof C)))). intros A GA PA.
  generalize dependent (q22 (qgram (qmul U (qof C)))). intros B GB.
  generalize dependent (q33 (qgram (qmul U (qof C)))). intros CC GC.
  generalize dependent (q23 (qgram (qmul U (qof C)))). intros D GD.
  generalize dependent (q13 (qgram (qmul U (qof C)))). intros E GE.
  generalize dependent (q12 (qgram (qmul U (qof C)))). intros F GF.
  split.
  - destruct GA as (u & ->). assert (U1 : (1 <= u)%Z).
    { destruct (Z_lt_le_dec u 1) as [L1|L1]; [exfalso|exact L1]. apply (Qclt_not_le _ _ PA).
      replace 0 with (zq 0 * s) by (rewrite zq_0; ring).
      apply Qcmult_le_compat_r; [apply zq_le; lia|now apply Qclt_le_weak]. }
    eapply Qclt_le_trans; [exact Ht|]. replace s with (zq 1 * s) at 1 by (rewrite zq_1; ring).
    apply Qcmult_le_compat_r; [apply zq_le; exact U1|now apply Qclt_le_weak].
  - intros v Hv. apply (mult_apart s); try assumption.
    revert v Hv. apply Forall_forall.
    unfold compared. repeat (apply Forall_cons; [mu|]). apply Forall_nil.
Qed.

Lemma spaced_id s t U : 0 < s -> spaced s U -> zq 12 * t < s -> identification_clear t U.
Proof.
  intros Hs HG Ht C HC _. cbv zeta.
  pose proof (spaced_entries s U C HG) as (GA & GB & GC & GX & GE & GZ). cbv zeta in *.
  generalize dependent (q11 (qgram (qmul U (qof C)))). intros A GA.
  generalize dependent (q22 (qgram (qmul U (qof C)))). intros B GB.
  generalize dependent (q33 (qgram (qmul U (qof C)))). intros CC GC.
  generalize dependent (q23 (qgram (qmul U (qof C)))). intros D GD.
  generalize dependent (q13 (qgram (qmul U (qof C)))). intros E GE.
  generalize dependent (q12 (qgram (qmul U (qof C)))). intros F GF.
  assert (ES : s = zq 12 * (s / zq 12)) by (field; discriminate).
  set (r := s / zq 12) in *. rewrite ES in GA, GB, GC, GD, GE, GF.
  assert (T12 : t < r).
  { apply Qcnot_le_lt. intros N. apply (Qclt_not_le _ _ Ht). rewrite ES. apply pos_le; [discriminate|exact N]. }
  assert (R0 : 0 < r).
  { apply Qcnot_le_lt. intros N. apply (Qclt_not_le _ _ Hs). rewrite ES.
    replace 0 with (zq 12 * 0) by ring. apply pos_le; [discriminate|exact N]. }
  intros v Hv. apply (mult_apart r t v R0 T12). revert v Hv. apply Forall_forall.
  assert (A2 : mult r (A / zq 2)) by now apply (mult_div r 2 6).
  assert (B2 : mult r (B / zq 2)) by now apply (mult_div r 2 6).
  assert (A3 : mult r (A / zq 3)) by now apply (mult_div r 3 4).
  assert (A4 : mult r (A / zq 4)) by now apply (mult_div r 4 3).
  apply mult_fine in GA, GB, GC, GD, GE, GF.
  unfold identified. repeat (apply Forall_cons; [mu|]). apply Forall_nil.
Qed.

(** Multiples of 1/d. *)
Lemma grid_spaced d G U : (0 < d)%Z -> qscale (zq d) (qgram U) = qof G -> spaced (/ zq d) U.
Proof.
  intros Hd H. exists G. rewrite <- H. assert (Z0 : zq d <> 0) by (apply zq_neq0; lia).
  destruct (qgram U) as [a1 a2 a3 b1 b2 b3 c1 c2 c3]. unfold qscale. cbn [q11 q12 q13 q21 q22 q23 q31 q32 q33]. f_equal; field; exact Z0.
Qed.
Lemma inv_lt d t : (0 < d)%Z -> zq d * t < 1 -> t < / zq d.
Proof.
  intros Hd H. assert (Z0 : zq d <> 0) by (apply zq_neq0; lia). apply Qcnot_le_lt. intros N.
  apply (Qclt_not_le _ _ H). replace 1 with (zq d * / zq d) by (field; exact Z0).
  apply pos_le; [rewrite <- zq_0; apply zq_le; lia|exact N].
Qed.
Lemma inv_pos d : (0 < d)%Z -> 0 < / zq d.
Proof. intros Hd. apply inv_lt; [exact Hd|]. replace (zq d * 0) with 0 by ring. reflexivity. Qed.
Lemma grid_red d G t L U : (0 < d)%Z -> qdet U <> 0 -> qscale (zq d) (qgram U) = qof G ->
  zq d * t < 1 -> reduction_clear t L U.
Proof.
  intros Hd HU HG Ht. apply (spaced_red (/ zq d)); [now apply inv_pos|exact HU|now apply (grid_spaced d G)|].
  now apply inv_lt.
Qed.
Lemma grid_identified_clear d G t U : (0 < d)%Z -> qscale (zq d) (qgram U) = qof G ->
  zq (12 * d) * t < 1 -> identification_clear t U.
Proof.
  intros Hd HG Ht. apply (spaced_id (/ zq d)); [now apply inv_pos|now apply (grid_spaced d G)|].
  apply inv_lt; [exact Hd|]. rewrite zq_mul in Ht.
  now replace (zq d * (zq 12 * t)) with (zq 12 * zq d * t) by ring.
Qed.

Lemma len_pos U L : qdet U <> 0 -> longest U L -> 0 <= rtol * (zq 6 * L).
Proof.
  intros HU (L1 & _). pose proof (col_pos U HU) as P.
  replace 0 with (rtol * (zq 6 * 0)) by ring. apply pos_le; [discriminate|].
  apply pos_le; [discriminate|]. eapply Qcle_trans; [apply Qclt_le_weak; exact P|exact L1].
Qed.
Lemma f_grid_clear cbrt e d L U : f_grid_cell cbrt e d L U -> f_clear_cell cbrt e L U.
Proof.
  intros [Hd HM (G & HG) HL He Hc H1 H2 H3]. split; try assumption.
  - now apply (grid_red d G).
  - now apply (grid_identified_clear d G).
  - now apply (grid_identified_clear d G).
Qed.
Lemma grid_clear cbrt d L U : grid_cell cbrt d L U -> clear_cell cbrt L U.
Proof.
  intros [Hd HM (G & HG) HL Hc H1 H2]. split; try assumption.
  - now apply (grid_red d G).
  - now apply (grid_identified_clear d G).
Qed.

(** ** The final check of the Python reduction *)
Section Check.
Variables (eps a8 Y t : Qc).
Hypothesis He : 0 <= eps.
Hypothesis Ha : 0 <= a8.
Hypothesis Ht : a8 + eps + rtol * Y <= t.
Variables A B C xi eta zeta : Qc.
Hypothesis (HA : t < A) (HB : 0 < B).
Hypothesis (HV : forall v, In v (compared A B C xi eta zeta) -> apart t v).
Hypotheses (YA : qabs A <= Y) (YB : qabs B <= Y) (YC : qabs C <= Y)
  (YX : qabs xi <= Y) (YE : qabs eta <= Y) (YZ : qabs zeta <= Y)
  (YX2 : qabs (qtwo * xi) <= Y) (YE2 : qabs (qtwo * eta) <= Y)
  (YS : qabs (A + B + C + xi + eta + zeta) <= Y).

Let Hr : 0 <= rtol. Proof. discriminate. Qed.
Let Y0 : 0 <= Y. Proof. eapply Qcle_trans; [apply abs_nonneg|exact YA]. Qed.
Let RY : 0 <= rtol * Y.
Proof. pose proof (pos_le rtol 0 Y Hr Y0) as K. now replace (rtol * 0) with 0 in K by ring. Qed.
Let Te : eps + rtol * Y <= t.
Proof. generalize dependent (rtol * Y). intros. qclra. Qed.
Let T1 : eps <= t.
Proof. generalize dependent (rtol * Y). intros. qclra. Qed.
Let T8 : a8 <= t.
Proof. generalize dependent (rtol * Y). intros. qclra. Qed.
Let T0 : 0 <= t.
Proof. exact (Qcle_trans _ _ _ He T1). Qed.

Lemma ltm_clear x y : apart t (x - y) -> qltb x (y - eps) = qltb x (y - 0).
Proof.
  intros H. apply qltb_ext. apply apart_cases in H. clear - H He T1.
  destruct H as [H|[H|H]]; split; intros K; qclra.
Qed.
Lemma close_clear x y : apart t (x - y) -> qabs y <= Y -> allclose_r rtol eps x y = allclose_r 0 0 x y.
Proof. intros H K. exact (apart_close rtol eps Y t x y He Hr Te K H). Qed.
Lemma check_clear : niggli_check_tol rtol a8 A B C xi eta zeta eps =
  niggli_check_tol 0 0 A B C xi eta zeta 0.
Proof.
  pose proof HV as H. apply Forall_forall in H. unfold compared in H.
  apply Forall_cons_iff in H. destruct H as (H1 & H).
  apply Forall_cons_iff in H. destruct H as (H2 & H).
  apply Forall_cons_iff in H. destruct H as (H3 & H).
  apply Forall_cons_iff in H. destruct H as (H4 & H).
  apply Forall_cons_iff in H. destruct H as (H5 & H).
  apply Forall_cons_iff in H. destruct H as (H6 & H).
  apply Forall_cons_iff in H. destruct H as (H7 & H).
  apply Forall_cons_iff in H. destruct H as (H8 & H).
  apply Forall_cons_iff in H. destruct H as (H9 & H).
  apply Forall_cons_iff in H. destruct H as (H10 & H).
  apply Forall_cons_iff in H. destruct H as (H11 & H).
  apply Forall_cons_iff in H. destruct H as (H12 & H).
  apply Forall_cons_iff in H. destruct H as (H13 & H).
  apply Forall_cons_iff in H. destruct H as (H14 & H).
  apply Forall_cons_iff in H. destruct H as (H15 & _).
  assert (PA : 0 < A) by (eapply Qcle_lt_trans; eassumption).
  destruct (sa_pair t T0 B xi HB H5 H8) as (P1 & P2).
  destruct (sa_pair t T0 A eta PA H6 H9) as (P3 & P4).
  destruct (sa_pair t T0 A zeta PA H7 H10) as (P5 & P6).
  apply apart_opp in P1, P3, P5.
  assert (YB' : qabs (- B) <= Y) by now rewrite qabs_opp.
  assert (YA' : qabs (- A) <= Y) by now rewrite qabs_opp.
  assert (YE' : qabs (qabs eta) <= Y) by now rewrite qabs_abs.
  assert (YZ' : qabs (qabs zeta) <= Y) by now rewrite qabs_abs.
  assert (Y0' : qabs 0 <= Y) by (rewrite qabs_0; exact Y0).
  assert (HA' : apart t A) by (apply apart_cases; right; left; exact HA).
  set (S := A + B + C + xi + eta + zeta) in *.
  assert (Q1 : apart t (xi - 0)) by (replace (xi - 0) with xi by ring; exact H5).
  assert (Q2 : apart t (eta - 0)) by (replace (eta - 0) with eta by ring; exact H6).
  assert (Q3 : apart t (zeta - 0)) by (replace (zeta - 0) with zeta by ring; exact H7).
  assert (Q4 : apart t (C - S)).
  { replace (C - S) with (- (A + B + xi + eta + zeta)) by (unfold S; ring). now apply apart_opp. }
  assert (Q5 : apart t (xi - B)) by (replace (xi - B) with (- (B - xi)) by ring; exact P1).
  assert (Q6 : apart t (eta - A)) by (replace (eta - A) with (- (A - eta)) by ring; exact P3).
  assert (Q7 : apart t (zeta - A)) by (replace (zeta - A) with (- (A - zeta)) by ring; exact P5).
  assert (Q8 : apart t (xi - - B)) by (replace (xi - - B) with (B + xi) by ring; exact P2).
  assert (Q9 : apart t (eta - - A)) by (replace (eta - - A) with (A + eta) by ring; exact P4).
  assert (Q10 : apart t (zeta - - A)) by (replace (zeta - - A) with (A + zeta) by ring; exact P6).
  assert (Q11 : apart t (zeta - qtwo * eta)) by (replace (zeta - qtwo * eta) with (zeta - (eta + eta)) by (unfold qtwo; ring); exact H12).
  assert (Q12 : apart t (zeta - qtwo * xi)) by (replace (zeta - qtwo * xi) with (zeta - (xi + xi)) by (unfold qtwo; ring); exact H13).
  assert (Q13 : apart t (eta - qtwo * xi)) by (replace (eta - qtwo * xi) with (eta - (xi + xi)) by (unfold qtwo; ring); exact H14).
  assert (Q14 : apart t (qtwo * A + qtwo * eta + zeta - 0)).
  { replace (qtwo * A + qtwo * eta + zeta - 0) with (A + A + (eta + eta) + zeta) by (unfold qtwo; ring). exact H15. }
  unfold niggli_check_tol. cbv zeta. fold S.
  repeat match goal with
  | |- context [allclose_r rtol eps ?x ?y] => rewrite (close_clear x y) by assumption
  | |- context [qgtb (?x - eps) 0] => rewrite (apart_pos eps t x He T1) by assumption
  | |- context [qltb ?x (?y - eps)] => rewrite (ltm_clear x y) by assumption
  end.
  replace (allclose_r 0 a8 C S) with (allclose_r 0 0 C S); [reflexivity|].
  symmetry. apply (apart_close 0 a8 Y t C S Ha (Qcle_refl 0)); try assumption.
  replace (a8 + 0 * Y) with a8 by ring. exact T8.
Qed.
End Check.

(** ** Lattices whose scalar products are multiples of one number *)
Lemma f_spaced_clear cbrt e s L U : qdet U <> 0 -> longest U L -> 0 < e -> 0 < cbrt (qabs (qdet U)) ->
  0 < s -> (exists G, qgram U = qscale s (qof G)) -> e * cbrt (qabs (qdet U)) < s ->
  zq 12 * (e + rtol * (zq 6 * L)) < s -> zq 12 * (e * (zq 6 * L)) < s -> f_clear_cell cbrt e L U.
Proof.
  intros HU HL He Hc Hs HG H1 H2 H3. split; try assumption.
  - now apply (spaced_red s).
  - now apply (spaced_id s).
  - now apply (spaced_id s).
Qed.
Lemma spaced_clear cbrt s L U : qdet U <> 0 -> longest U L -> 0 <= cbrt (qabs (qdet U)) ->
  0 < s -> (exists G, qgram U = qscale s (qof G)) ->
  qdec 1 8 + qdec 1 5 * cbrt (qabs (qdet U)) + rtol * (zq 6 * L) < s ->
  zq 12 * (qdec 1 5 + rtol * (zq 6 * L)) < s -> clear_cell cbrt L U.
Proof.
  intros HU HL Hc Hs HG H1 H2. split; try assumption.
  - now apply (spaced_red s).
  - now apply (spaced_id s).
Qed.
