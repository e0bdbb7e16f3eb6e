(** The decision tree of id_cell (niggli.f90): always an answer, and the Python answer when
    the comparisons are exact. *)
From Coq Require Import ZArith QArith Qcanon List Bool Lia String.
From Verif Require Import Mat3 Spec QMat QNum QcTac Bases Bases_niggli Spec_grid Spec_niggli
  Spec_niggli_f90 Model_pyniggli Model_niggli_id Model_niggli_f90 Proofs_pyniggli Proofs_pyniggli2
  Proofs_niggli_id Proofs_niggli_id2 Proofs_gridcell Proofs_gridcell2 Proofs_niggli_id3.
Import ListNotations.
Open Scope Qc_scope.

(** ** Every cell gets a number *)
Definition f_consistent (r : f_id) : Prop :=
  (1 <= i_id r <= 44)%Z /\ i_basis r = f_canonical_basis (i_id r) /\
  (i_basis r = None -> i_range r = 1%Z) /\
  (i_basis r <> None -> i_id r <> 1%Z -> i_id r <> 3%Z -> i_id r <> 5%Z ->
     (10 <= i_range r <= 25)%Z).

Lemma f_identify_total cl rel A B C D E F positive :
  exists r, f_identify cl rel A B C D E F positive = Some r /\ f_consistent r.
Proof.
  unfold f_identify, f_block1, f_block2, f_block3, f_block4, f_found, f_triclinic.
  repeat match goal with
  | |- context [if ?b then _ else _] => destruct b
  end; (eexists; split; [reflexivity|]);
  (split; [cbn; lia|]; split; [reflexivity|]; cbn [i_basis i_range i_id]; split; intros;
     first [discriminate | reflexivity | lia | congruence]).
Qed.

(** ** Exact comparisons *)
Definition same (x y : Qc) : bool := allclose_r 0 0 x y.
Lemma same_sym x y : same x y = same y x.
Proof.
  apply eq_true_iff_eq. unfold same. rewrite !close_0. split; intros H; now symmetry.
Qed.
Lemma same_eq x y : same x y = true -> x = y.
Proof. apply close_0. Qed.
Lemma same_refl x : same x x = true.
Proof. now apply close_0. Qed.

Definition the_num (r : option lattice_id) : Z :=
  match r with Some r => niggli_num r | None => 31%Z end.

Section Same.
Variables (A B C D E F : Qc) (positive : bool).
Let go (o : option f_id) : option Z := option_map i_id o.
Let gp (o : option lattice_id) : option Z := option_map niggli_num o.

Ltac both := repeat match goal with |- context [if ?b then _ else _] => destruct b end; reflexivity.

Lemma b1 : go (f_block1 same A B C D E F positive) = gp (block1 same A B C D E F positive).
Proof.
  unfold f_block1, block1, f_sum, sum_test, go, gp, f_found, found.
  change f_two with qtwo. change f_three with qthree. change f_four with qfour.
  destruct (same A B && same B C); [|reflexivity]. destruct positive.
  - destruct (same D E && same D F) eqn:K; [|reflexivity].
    apply andb_true_iff in K. destruct K as [K1 K2]. apply same_eq in K1, K2. subst E F.
    destruct (same (A / qtwo) D); reflexivity.
  - both.
Qed.
Lemma b2 : go (f_block2 same A B D E F positive) = gp (block2 same A B D E F positive).
Proof.
  unfold f_block2, block2, f_sum, sum_test, go, gp, f_found, found.
  change f_two with qtwo. change f_three with qthree. change f_four with qfour.
  rewrite (same_sym D 0), (same_sym D (- A / qtwo)), (same_sym F 0). both.
Qed.
Lemma b3 : go (f_block3 same A B C D E F positive) = gp (block3 same A B C D E F positive).
Proof.
  unfold f_block3, block3, f_sum, sum_test, go, gp, f_found, found.
  change f_two with qtwo. change f_three with qthree. change f_four with qfour.
  rewrite (same_sym D 0), (same_sym E 0), (same_sym D (- B / qtwo)), (same_sym E (- A / qthree)). both.
Qed.
Lemma b4 : go (f_block4 same same A B D E F positive) =
  Some (the_num (block4 same A B D E F positive)).
Proof.
  unfold f_block4, block4, f_sum, sum_test, go, gp, f_found, found, f_triclinic, found_tric.
  change f_two with qtwo. change f_three with qthree. change f_four with qfour.
  rewrite (same_sym D 0), (same_sym E 0), (same_sym F 0), (same_sym D (A / qfour)),
    (same_sym E (A / qtwo)), (same_sym F (A / qtwo)), (same_sym F (qtwo * D)), (same_sym E (qtwo * D)),
    (same_sym D (B / qtwo)), (same_sym F (qtwo * E)), (same_sym E (- A / qtwo)),
    (same_sym F (- A / qtwo)).
  repeat match goal with |- context [if ?b then _ else _] => destruct b end; reflexivity.
Qed.

Lemma exact_tree : option_map i_id (f_identify same same A B C D E F positive) =
  Some (the_num (identify same A B C D E F positive)).
Proof.
  unfold f_identify, identify. pose proof b1 as E1. pose proof b2 as E2. pose proof b3 as E3.
  unfold go, gp in E1, E2, E3.
  destruct (f_block1 _ _ _ _ _ _ _ _), (block1 _ _ _ _ _ _ _ _); try discriminate E1.
  { cbn in *. congruence. }
  destruct (f_block2 _ _ _ _ _ _ _), (block2 _ _ _ _ _ _ _); try discriminate E2.
  { cbn in *. congruence. }
  destruct (f_block3 _ _ _ _ _ _ _ _), (block3 _ _ _ _ _ _ _ _); try discriminate E3.
  { cbn in *. congruence. }
  apply b4.
Qed.
End Same.

(** ** Cells on a grid *)
Section FGrid.
Variables (d : Z) (eps Y : Qc).
Hypothesis Hd : (0 < d)%Z.
Hypothesis He : 0 <= eps.
Hypothesis HY : zq (12 * d) * (eps + rtol * Y) < 1.
Hypothesis HR : zq (12 * d) * (eps * Y) < 1.
Variables A B C D E F : Qc.
Hypotheses (GA : grid d A) (GB : grid d B) (GC : grid d C)
  (GD : grid d D) (GE : grid d E) (GF : grid d F).
Hypotheses (YA : qabs A <= Y) (YB : qabs B <= Y) (YC : qabs C <= Y)
  (YD : qabs D <= Y) (YE : qabs E <= Y) (YF : qabs F <= Y)
  (YD2 : qabs (qtwo * D) <= Y) (YE2 : qabs (qtwo * E) <= Y) (YAB : qabs (A + B) <= Y)
  (YA2 : qabs (A / qtwo) <= Y) (YB2 : qabs (B / qtwo) <= Y)
  (YA3 : qabs (- A / qthree) <= Y) (YA4 : qabs (A / qfour) <= Y)
  (YAm : qabs (- A / qtwo) <= Y) (YBm : qabs (- B / qtwo) <= Y).

Let Hd12 : (0 < 12 * d)%Z. Proof. clear - Hd. lia. Qed.
Let Hr : 0 <= rtol. Proof. discriminate. Qed.

Ltac grd := lazymatch goal with
  | H : grid ?d ?x |- grid ?d ?x => exact H
  | |- grid _ (_ / qtwo) => apply (up2 d); grd
  | |- grid _ (_ / qthree) => apply (up3 d); grd
  | |- grid _ (_ / qfour) => apply (up4 d); grd
  | |- grid (12 * _)%Z _ => apply (up d); grd
  | |- grid _ _ => gr Hd
  end.

Let rel (x y : Qc) : bool := negb (qltb (qabs (eps * y)) (qabs (x - y))).

Lemma rel_same x y : grid (12 * d) x -> grid (12 * d) y -> qabs y <= Y -> rel x y = same x y.
Proof.
  intros Gx Gy Hy. unfold rel, same, allclose_r. f_equal. apply qltb_ext.
  assert (Ea : qabs (eps * y) = eps * qabs y).
  { destruct (Qclt_le_dec y 0) as [L|L].
    - assert (N : eps * y <= 0) by (replace 0 with (eps * 0) by ring; apply pos_le; [exact He|now apply Qclt_le_weak]).
      assert (P : qabs y = - y) by (unfold qabs; apply qltb_iff in L; now rewrite L).
      rewrite P. unfold qabs. destruct (qltb (eps * y) 0) eqn:K; [ring|].
      apply qltb_false in K. assert (Z0 : eps * y = 0) by (apply Qcle_antisym; assumption).
      replace (eps * - y) with (- (eps * y)) by ring. rewrite Z0. ring.
    - assert (N : 0 <= eps * y) by (replace 0 with (eps * 0) by ring; apply pos_le; assumption).
      apply qltb_false in L. apply qltb_false in N. unfold qabs. now rewrite L, N. }
  rewrite Ea. assert (Q : eps * qabs y <= eps * Y) by now apply pos_le.
  assert (Q0 : 0 <= eps * qabs y).
  { replace 0 with (eps * 0) by ring. apply pos_le; [exact He|]. destruct (qabs_bounds y). qclra. }
  replace (eps * qabs y) with (0 + eps * qabs y) by ring.
  rewrite (grid_gap (12 * d) Hd12 (eps * qabs y) 0 (qabs (x - y))).
  - replace (0 + 0 * qabs y) with 0 by ring. tauto.
  - apply grid_0.
  - apply grid_abs; [exact Hd12|]. now apply grid_sub.
  - exact Q0.
  - eapply Qcle_lt_trans; [|exact HR]. apply pos_le; [rewrite <- zq_0; apply zq_le; clear - Hd; lia|exact Q].
Qed.

Lemma f_identify_grid positive :
  f_identify (isclose eps) rel A B C D E F positive = f_identify same same A B C D E F positive.
Proof.
  assert (Y0 : qabs 0 <= Y) by (rewrite qabs_0; destruct (qabs_bounds A); qclra).
  change (isclose eps) with (allclose_r rtol eps).
  unfold f_identify, f_block1, f_block2, f_block3, f_block4, f_sum.
  change f_two with qtwo. change f_three with qthree. change f_four with qfour.
  unfold same.
  repeat match goal with
  | |- context [allclose_r rtol eps ?x ?y] =>
    rewrite (close_Y (12 * d) eps rtol Y Hd12 He Hr HY x y) by first [assumption | grd]
  | |- context [rel ?x ?y] => rewrite (rel_same x y) by first [assumption | grd]
  end. reflexivity.
Qed.

Lemma f_id_params_grid : option_map i_id (f_id_params eps A B C D E F) =
  Some (the_num (id_params_tol 0 0 A B C D E F)).
Proof.
  assert (Y0 : 0 <= Y) by (destruct (qabs_bounds A); qclra).
  pose proof (Y_eps (12 * d) eps rtol Y Hd12 Hr HY Y0) as He1.
  unfold f_id_params, id_params_tol. cbv zeta. fold rel. rewrite f_identify_grid, exact_tree.
  f_equal. unfold same. f_equal. f_equal. unfold qgtb.
  rewrite !(g_ltm (12 * d) eps Hd12 He He1) by first [apply grid_0 | grd]. reflexivity.
Qed.
End FGrid.
