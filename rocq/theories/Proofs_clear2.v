(** The identification of a cell for which no compared number is close to the tolerance. *)
From Coq Require Import ZArith QArith Qcanon List Bool Lia.
From Verif Require Import Mat3 Spec QMat QNum QcTac Spec_grid Spec_niggli Spec_niggli_f90 Spec_clear
  Model_pyniggli Model_niggli_id Model_niggli_f90 Proofs_pyniggli Proofs_niggli_term Proofs_pyniggli2
  Proofs_niggli_id2 Proofs_gridcell Proofs_gridcell2 Proofs_niggli_f90a Proofs_niggli_f90b Proofs_clear.
Import ListNotations.
Open Scope Qc_scope.

Lemma abs_nonneg x : 0 <= qabs x.
Proof. destruct (qabs_bounds x). qclra. Qed.
Lemma apart_gt s t v : 0 <= s -> s <= t -> apart t v -> (s < qabs v <-> 0 < qabs v).
Proof.
  intros H0 H1 [-> |H].
  - rewrite qabs_0. split; intros K; [exact (Qcle_lt_trans _ _ _ H0 K)|].
    exfalso. now apply (Qclt_not_eq 0 0).
  - split; intros _; [exact (Qcle_lt_trans _ _ _ (Qcle_trans _ _ _ H0 H1) H)|].
    exact (Qcle_lt_trans _ _ _ H1 H).
Qed.
(** Closeness is equality. *)
Lemma apart_close rt eps Y t x y : 0 <= eps -> 0 <= rt -> eps + rt * Y <= t -> qabs y <= Y ->
  apart t (x - y) -> allclose_r rt eps x y = allclose_r 0 0 x y.
Proof.
  intros He Hr HY Hy H. unfold allclose_r. f_equal. apply qltb_ext.
  replace (0 + 0 * qabs y) with 0 by ring. apply (apart_gt _ t); [| |exact H].
  - pose proof (pos_le rt 0 _ Hr (abs_nonneg y)) as K. replace (rt * 0) with 0 in K by ring.
    generalize dependent (rt * qabs y). intros. qclra.
  - pose proof (pos_le rt _ _ Hr Hy) as K. generalize dependent (rt * qabs y).
    generalize dependent (rt * Y). intros. qclra.
Qed.
Lemma abs_mul e y : 0 <= e -> qabs (e * y) = e * qabs y.
Proof.
  intros He. destruct (Qclt_le_dec y 0) as [L|L].
  - assert (N : e * y <= 0) by (replace 0 with (e * 0) by ring; apply pos_le; [exact He|now apply Qclt_le_weak]).
    assert (P : qabs y = - y) by (unfold qabs; apply qltb_iff in L; now rewrite L).
    rewrite P. unfold qabs. destruct (qltb (e * y) 0) eqn:K; [ring|].
    apply qltb_false in K. assert (Z0 : e * y = 0) by (apply Qcle_antisym; assumption).
    replace (e * - y) with (- (e * y)) by ring. rewrite Z0. ring.
  - assert (N : 0 <= e * y) by (replace 0 with (e * 0) by ring; apply pos_le; assumption).
    apply qltb_false in L. apply qltb_false in N. unfold qabs. now rewrite L, N.
Qed.
Lemma apart_rel eps Y t x y : 0 <= eps -> eps * Y <= t -> qabs y <= Y -> apart t (x - y) ->
  negb (qltb (qabs (eps * y)) (qabs (x - y))) = allclose_r 0 0 x y.
Proof.
  intros He HY Hy H. unfold allclose_r. f_equal. apply qltb_ext.
  replace (0 + 0 * qabs y) with 0 by ring. rewrite abs_mul by exact He.
  apply (apart_gt _ t); [| |exact H].
  - pose proof (pos_le eps 0 _ He (abs_nonneg y)) as K. now replace (eps * 0) with 0 in K by ring.
  - eapply Qcle_trans; [|exact HY]. now apply pos_le.
Qed.
Lemma apart_pos eps t x : 0 <= eps -> eps <= t -> apart t x -> qgtb (x - eps) 0 = qgtb (x - 0) 0.
Proof.
  intros H0 H1 H. unfold qgtb. apply qltb_ext. apply apart_cases in H.
  destruct H as [-> |[H|H]]; split; intros K; qclra.
Qed.

Section Tree.
Variables (eps Y t s : Qc).
Hypothesis He : 0 <= eps.
Hypothesis Ht : eps + rtol * Y <= t.
Variables A B C D E F : Qc.
Hypothesis (HV : forall v, In v (identified A B C D E F) -> apart t v).
Hypothesis (YB : Forall (fun y => qabs y <= Y)
    [A; B; C; D; E; F; qtwo * D; qtwo * E; A + B; A / qtwo; B / qtwo; - A / qthree; A / qfour;
     - A / qtwo; - B / qtwo]).

Let Hr : 0 <= rtol. Proof. discriminate. Qed.
Lemma bound_pos : 0 <= Y.
Proof. inversion YB; subst. eapply Qcle_trans; [apply abs_nonneg|eassumption]. Qed.
Lemma bound y : In y [0; A; B; C; D; E; F; qtwo * D; qtwo * E; A + B; A / qtwo; B / qtwo; - A / qthree; A / qfour;
     - A / qtwo; - B / qtwo] -> qabs y <= Y.
Proof.
  intros [<- |H]; [rewrite qabs_0; apply bound_pos|]. rewrite Forall_forall in YB. now apply YB.
Qed.
Lemma eps_t : eps <= t.
Proof.
  eapply Qcle_trans; [|exact Ht]. pose proof (pos_le rtol 0 Y Hr bound_pos) as K.
  replace (rtol * 0) with 0 in K by ring. generalize dependent (rtol * Y). intros. qclra.
Qed.

(** [v] or its opposite is among the differences. *)
Lemma among w v : (forall v, In v (identified A B C D E F) -> apart w v) ->
  (exists u, In u (identified A B C D E F) /\ (v = u \/ v = - u)) -> apart w v.
Proof.
  intros HW (u & Hu & [-> | ->]); [now apply HW|apply apart_opp; now apply HW].
Qed.
Ltac ask n := exists (nth n (identified A B C D E F) 0);
  split; [apply nth_In; cbn; lia|];
  unfold identified; cbn [nth];
  change (zq 2) with qtwo; change (zq 3) with qthree; change (zq 4) with qfour;
  first [left; unfold Qcdiv; ring | right; unfold Qcdiv; ring].
Ltac find := first [ask 0%nat|ask 1%nat|ask 2%nat|ask 3%nat|ask 4%nat|ask 5%nat|ask 6%nat|ask 7%nat
  |ask 8%nat|ask 9%nat|ask 10%nat|ask 11%nat|ask 12%nat|ask 13%nat|ask 14%nat|ask 15%nat|ask 16%nat
  |ask 17%nat|ask 18%nat|ask 19%nat|ask 20%nat|ask 21%nat|ask 22%nat|ask 23%nat].
Ltac inl := cbn [In]; tauto.

Lemma cl_close x y : (exists u, In u (identified A B C D E F) /\ (x - y = u \/ x - y = - u)) ->
  In y [0; A; B; C; D; E; F; qtwo * D; qtwo * E; A + B; A / qtwo; B / qtwo; - A / qthree; A / qfour;
     - A / qtwo; - B / qtwo] ->
  allclose_r rtol eps x y = allclose_r 0 0 x y.
Proof.
  intros H1 H2. apply (apart_close rtol eps Y t x y He Hr Ht (bound y H2)). now apply among.
Qed.

Lemma identify_clear positive :
  identify (allclose_r rtol eps) A B C D E F positive = identify (allclose_r 0 0) A B C D E F positive.
Proof.
  unfold identify, block1, block2, block3, block4, sum_test.
  repeat match goal with
  | |- context [allclose_r rtol eps ?x ?y] => rewrite (cl_close x y) by first [inl | find]
  end. reflexivity.
Qed.
Lemma id_params_clear : id_params_tol rtol eps A B C D E F = id_params_tol 0 0 A B C D E F.
Proof.
  unfold id_params_tol. cbv zeta. rewrite identify_clear.
  rewrite !(apart_pos eps t) by (try exact He; try apply eps_t; apply HV; cbn; tauto).
  reflexivity.
Qed.

Hypothesis Hs : eps * Y <= s.
Hypothesis (HS : forall v, In v (identified A B C D E F) -> apart s v).
Let rel (x y : Qc) : bool := negb (qltb (qabs (eps * y)) (qabs (x - y))).
Lemma rel_close x y : (exists u, In u (identified A B C D E F) /\ (x - y = u \/ x - y = - u)) ->
  In y [0; A; B; C; D; E; F; qtwo * D; qtwo * E; A + B; A / qtwo; B / qtwo; - A / qthree; A / qfour;
     - A / qtwo; - B / qtwo] -> rel x y = allclose_r 0 0 x y.
Proof.
  intros H1 H2. apply (apart_rel eps Y s x y He Hs (bound y H2)). now apply among.
Qed.
Lemma f_identify_clear positive :
  f_identify (isclose eps) rel A B C D E F positive = f_identify same same A B C D E F positive.
Proof.
  change (isclose eps) with (allclose_r rtol eps).
  unfold f_identify, f_block1, f_block2, f_block3, f_block4, f_sum.
  change f_two with qtwo. change f_three with qthree. change f_four with qfour.
  unfold same.
  repeat match goal with
  | |- context [allclose_r rtol eps ?x ?y] => rewrite (cl_close x y) by first [inl | find]
  | |- context [rel ?x ?y] => rewrite (rel_close x y) by first [inl | find]
  end. reflexivity.
Qed.
Lemma f_id_params_clear : option_map i_id (f_id_params eps A B C D E F) =
  Some (the_num (id_params_tol 0 0 A B C D E F)).
Proof.
  unfold f_id_params, id_params_tol. cbv zeta. fold rel. rewrite f_identify_clear, exact_tree.
  rewrite !(apart_pos eps t) by (try exact He; try apply eps_t; apply HV; cbn; tauto).
  reflexivity.
Qed.
End Tree.
