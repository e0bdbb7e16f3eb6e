(** The reduction of a cell whose scalar products are multiples of 1/d. *)
From Coq Require Import ZArith QArith Qcanon List Bool Lia.
From Verif Require Import Mat3 Spec QMat QNum QcTac Spec_grid Spec_niggli Model_pyniggli Model_niggli_id Proofs_pyniggli
  Proofs_niggli_term Proofs_pyniggli2 Proofs_pyniggli3 Proofs_gridcell Proofs_niggli_short Proofs_niggli_cand
  Proofs_niggli_id2 Proofs_transform.
Import ListNotations.
Open Scope Qc_scope.

(** The third vector of a Niggli cell is not longer than the longest vector of any basis of
    the lattice. *)
Lemma third_bound A B C D E F X : zN A B C D E F -> (mdet X * mdet X = 1)%Z ->
  let G := mmul (mtr X) (mmul (symm A B C D E F) X) in
  (C <= m11 G \/ C <= m22 G \/ C <= m33 G)%Z.
Proof.
  intros N HX G.
  assert (E1 : m11 G = qf A B C D E F (m11 X) (m21 X) (m31 X)).
  { unfold G. unfold qf, symm, mmul, mtr. cbn [m11 m12 m13 m21 m22 m23 m31 m32 m33]. ring. }
  assert (E2 : m22 G = qf A B C D E F (m12 X) (m22 X) (m32 X)).
  { unfold G. unfold qf, symm, mmul, mtr. cbn [m11 m12 m13 m21 m22 m23 m31 m32 m33]. ring. }
  assert (E3 : m33 G = qf A B C D E F (m13 X) (m23 X) (m33 X)).
  { unfold G. unfold qf, symm, mmul, mtr. cbn [m11 m12 m13 m21 m22 m23 m31 m32 m33]. ring. }
  clearbody G. rewrite E1, E2, E3.
  destruct (Z.eq_dec (m31 X) 0) as [Z1|Z1]; [|left; exact (proj1 (qf_z _ _ _ _ _ _ (m11 X) (m21 X) (m31 X) N Z1))].
  destruct (Z.eq_dec (m32 X) 0) as [Z2|Z2]; [|right; left; exact (proj1 (qf_z _ _ _ _ _ _ (m12 X) (m22 X) (m32 X) N Z2))].
  destruct (Z.eq_dec (m33 X) 0) as [Z3|Z3]; [|right; right; exact (proj1 (qf_z _ _ _ _ _ _ (m13 X) (m23 X) (m33 X) N Z3))].
  exfalso. assert (E0 : mdet X = 0%Z) by (unfold mdet; rewrite Z1, Z2, Z3; ring).
  rewrite E0 in HX. discriminate.
Qed.

Lemma qscale_mul_l k A B : qmul (qscale k A) B = qscale k (qmul A B).
Proof. unfold qscale, qmul. cbn [q11 q12 q13 q21 q22 q23 q31 q32 q33]. f_equal; ring. Qed.
Lemma qscale_mul_r k A B : qmul A (qscale k B) = qscale k (qmul A B).
Proof. unfold qscale, qmul. cbn [q11 q12 q13 q21 q22 q23 q31 q32 q33]. f_equal; ring. Qed.
Lemma gram_scaled d M G C : qscale (zq d) (qgram M) = qof G ->
  qscale (zq d) (qgram (qmul M (qof C))) = qof (mmul (mtr C) (mmul G C)).
Proof.
  intros HG. rewrite !qof_mul, qof_tr, <- HG, qscale_mul_l, qscale_mul_r. f_equal.
  unfold qgram. rewrite qtr_mul, !qmul_assoc. reflexivity.
Qed.

Lemma gram_symm d M G : qscale (zq d) (qgram M) = qof G ->
  G = symm (m11 G) (m22 G) (m33 G) (m23 G) (m13 G) (m12 G).
Proof.
  intros HK. assert (T : mtr G = G).
  { apply qof_inj. rewrite qof_tr, <- HK. destruct M. unfold qscale, qgram, qmul, qtr. cbn.
    f_equal; ring. }
  destruct G as [k11 k12 k13 k21 k22 k23 k31 k32 k33]. unfold symm. cbn [m11 m22 m33 m23 m13 m12].
  pose proof (f_equal m12 T) as T1. pose proof (f_equal m13 T) as T2. pose proof (f_equal m23 T) as T3.
  cbn in T1, T2, T3. now subst.
Qed.

Lemma niggli_dots M : is_niggli M ->
  niggli_cell (dot_aa M) (dot_bb M) (dot_cc M) (dot_bc M + dot_bc M)
              (dot_ca M + dot_ca M) (dot_ab M + dot_ab M).
Proof.
  intros HN. assert (E : dot_ca M = q13 (qgram M)) by (unfold dot_ca, qgram, qmul, qtr; cbn; ring).
  rewrite E. exact HN.
Qed.

Lemma dots_rep d M K : qscale (zq d) (qgram M) = qof K ->
  rep d (dot_aa M) (m11 K) /\ rep d (dot_bb M) (m22 K) /\ rep d (dot_cc M) (m33 K) /\
  rep d (dot_bc M) (m23 K) /\ rep d (dot_ca M) (m13 K) /\ rep d (dot_ab M) (m12 K).
Proof.
  intros HK. repeat split.
  - exact (f_equal q11 HK).
  - exact (f_equal q22 HK).
  - exact (f_equal q33 HK).
  - exact (f_equal q23 HK).
  - pose proof (f_equal q13 HK) as E. cbn [q13 qscale qof] in E. unfold rep. rewrite <- E.
    unfold dot_ca, qgram, qmul, qtr. cbn. ring.
  - exact (f_equal q12 HK).
Qed.

Lemma niggli_third M C L : mdet C = 1%Z -> is_niggli (qmul M (qof C)) -> longest M L ->
  dot_cc (qmul M (qof C)) <= L.
Proof.
  intros HC HN (LA & LB & LC).
  destruct (clear_denoms (qgram M)) as (d & G & Hd & HG).
  pose proof (gram_scaled d M G C HG) as HK. set (N := qmul M (qof C)) in *.
  set (K := mmul (mtr C) (mmul G C)) in *.
  destruct (dots_rep d N K HK) as (R1 & R2 & R3 & R4 & R5 & R6).
  destruct (dots_rep d M G HG) as (S1 & S2 & S3 & S4 & S5 & S6).
  pose proof (niggli_zN d Hd _ _ _ _ _ _ _ _ _ _ _ _ R1 R2 R3 R4 R5 R6 (niggli_dots N HN)) as HZ.
  assert (HZ' : zN (m11 K) (m22 K) (m33 K) (m23 K) (m13 K) (m12 K)) by (unfold zN; tauto).
  assert (HU : (mdet C * mdet C = 1)%Z) by (rewrite HC; reflexivity).
  pose proof (third_bound _ _ _ _ _ _ (minv1 C) HZ') as TB.
  rewrite <- (gram_symm d N K HK) in TB.
  assert (EG : mmul (mtr (minv1 C)) (mmul K (minv1 C)) = G).
  { unfold K. rewrite !mmul_assoc.
    replace (mmul (mmul (mmul (mmul (mtr (minv1 C)) (mtr C)) G) C) (minv1 C))
      with (mmul (mmul (mmul (mtr (minv1 C)) (mtr C)) G) (mmul C (minv1 C))) by (rewrite !mmul_assoc; reflexivity).
    rewrite minv1_r by exact HU. rewrite <- mtr_mul, minv1_r by exact HU.
    destruct G as [g11 g12 g13 g21 g22 g23 g31 g32 g33]. unfold mmul, mtr, mid. cbn [m11 m12 m13 m21 m22 m23 m31 m32 m33]. f_equal; ring. }
  cbv zeta in TB. rewrite EG in TB.
  assert (HI : (mdet (minv1 C) * mdet (minv1 C) = 1)%Z).
  { pose proof (minv1_det C HU) as H. rewrite HC in H. nia. }
  specialize (TB HI).
  assert (LE : forall x y u w, rep d x u -> rep d y w -> (u <= w)%Z -> x <= y).
  { intros x y u w H1 H2 H. apply Qcnot_lt_le. intros H'.
    apply (scale_lt d y x w u Hd H2 H1) in H'. lia. }
  destruct TB as [T|[T|T]].
  - eapply Qcle_trans; [exact (LE _ _ _ _ R3 S1 T)|exact LA].
  - eapply Qcle_trans; [exact (LE _ _ _ _ R3 S2 T)|exact LB].
  - eapply Qcle_trans; [exact (LE _ _ _ _ R3 S3 T)|exact LC].
Qed.

Lemma qabs_bound x y : - y <= x -> x <= y -> qabs x <= y.
Proof. intros. apply qabs_le. split; assumption. Qed.

Lemma six_bounds A B C xi eta zeta L : niggli_cell A B C xi eta zeta -> 0 <= L -> C <= L ->
  qabs A <= zq 6 * L /\ qabs B <= zq 6 * L /\ qabs C <= zq 6 * L /\
  qabs xi <= zq 6 * L /\ qabs eta <= zq 6 * L /\ qabs zeta <= zq 6 * L /\
  qabs (qtwo * xi) <= zq 6 * L /\ qabs (qtwo * eta) <= zq 6 * L /\
  qabs (A + B + C + xi + eta + zeta) <= zq 6 * L.
Proof.
  intros [nA nAB nBC nX nE nZ _ _ _ _ _ _ _ _ _ _ _] HL HC.
  destruct nX as [X1 X2], nE as [E1 E2], nZ as [Z1 Z2].
  unfold zq, inject_Z, qtwo. repeat split; apply qabs_bound; qclra.
Qed.

(** The reduction of a grid cell either runs into the limit or returns an exact Niggli cell,
    the one found with exact comparisons. *)
Lemma grid_reduction_eq d G M eps L : (0 < d)%Z -> qdet M <> 0 ->
  qscale (zq d) (qgram M) = qof G -> longest M L -> 0 <= eps ->
  zq d * (qdec 1 8 + eps + rtol * (zq 6 * L)) < 1 ->
  let C := fst (fst (final 0 M)) in
  if Z.leb 1000 (snd (final 0 M)) then niggli_reduction eps M = TooManyIterations
  else mdet C = 1%Z /\ is_niggli (qmul M (qof C)) /\
    niggli_reduction eps M = Reduced (qmul M (qof C)) C.
Proof.
  intros Hd HM HG HL He HB. cbv zeta.
  assert (Hz : 0 <= zq d) by (rewrite <- zq_0; apply zq_le; lia).
  assert (HL0 : 0 <= L).
  { destruct HL as (L1 & _). pose proof (col_pos M HM) as P.
    clear - L1 P.
    eapply Qcle_trans; [apply Qclt_le_weak; exact P|exact L1]. }
  assert (H6 : 0 <= rtol * (zq 6 * L)).
  { replace 0 with (rtol * (zq 6 * 0)) by ring. apply pos_le; [discriminate|].
    apply pos_le; [discriminate|exact HL0]. }
  assert (H8 : 0 <= qdec 1 8) by discriminate.
  assert (B1 : zq d * eps < 1).
  { eapply Qcle_lt_trans; [|exact HB]. apply pos_le; [exact Hz|].
    generalize dependent (rtol * (zq 6 * L)). generalize dependent (qdec 1 8). intros. qclra. }
  assert (B2 : zq d * qdec 1 8 < 1).
  { eapply Qcle_lt_trans; [|exact HB]. apply pos_le; [exact Hz|].
    generalize dependent (rtol * (zq 6 * L)). generalize dependent (qdec 1 8). intros. qclra. }
  assert (B3 : zq d * (eps + rtol * (zq 6 * L)) < 1).
  { eapply Qcle_lt_trans; [|exact HB]. apply pos_le; [exact Hz|].
    generalize dependent (rtol * (zq 6 * L)). generalize dependent (qdec 1 8). intros. qclra. }
  rewrite reduction_final, (g_final d eps Hd He B1 M G HG).
  pose proof (final_good 0 M) as HF. pose proof (final_settled 0 M) as HS.
  destruct (final 0 M) as [[C p] count]. cbn [fst snd] in HF, HS.
  cbn [fst snd]. destruct (Z.leb_spec 1000 count) as [K|K]; [reflexivity|].
  destruct HF as (HC & HP). cbn [fst snd] in HC, HP. split; [exact HC|].
  specialize (HS ltac:(lia)).
  assert (HN : is_niggli (qmul M (qof C))).
  { apply is_niggli_upto_0.
    - rewrite qdet_mul, qof_det, HC. apply Qc_mul_neq0; [exact HM|discriminate].
    - apply settled_iff; [apply Qcle_refl|]. now rewrite <- HP. }
  split; [exact HN|].
  pose proof (niggli_third M C L HC HN HL) as H3.
  pose proof (niggli_dots _ HN) as ND.
  pose proof (grid_params d Hd M G HG C) as (GA & GB & GC & GX & GE & GZ).
  rewrite HP. clear HP HS. unfold get_params in *. cbv zeta in *.
  cbn [pA pB pC pxi peta pzeta] in *.
  assert (T : forall x : Qc, qtwo * x = x + x) by (intros; unfold qtwo; ring).
  rewrite <- !T in ND. pose proof (six_bounds _ _ _ _ _ _ L ND HL0 H3) as SB.
  unfold niggli_check. rewrite (check_grid d eps rtol (qdec 1 8) (zq 6 * L) Hd He); [| | exact B3 | exact H8 | exact B2
    | exact GA | exact GB | exact GC | exact GX | exact GE | exact GZ | .. ].
  - replace (niggli_check_tol 0 0 _ _ _ _ _ _ 0) with true; [reflexivity|].
    symmetry. apply check_exact. exact ND.
  - discriminate.
  - apply SB.
  - apply SB.
  - apply SB.
  - apply SB.
  - apply SB.
  - apply SB.
  - apply SB.
  - apply SB.
Qed.

Lemma grid_reduction d G M eps L : (0 < d)%Z -> qdet M <> 0 ->
  qscale (zq d) (qgram M) = qof G -> longest M L -> 0 <= eps ->
  zq d * (qdec 1 8 + eps + rtol * (zq 6 * L)) < 1 ->
  niggli_reduction eps M = TooManyIterations \/
  exists C, mdet C = 1%Z /\ is_niggli (qmul M (qof C)) /\
    niggli_reduction eps M = Reduced (qmul M (qof C)) C.
Proof.
  intros Hd HM HG HL He HB. pose proof (grid_reduction_eq d G M eps L Hd HM HG HL He HB) as K.
  cbv zeta in K. destruct (Z.leb 1000 (snd (final 0 M))); [now left|right].
  eexists. exact K.
Qed.
Lemma grid_same d G M eps L : (0 < d)%Z -> qdet M <> 0 ->
  qscale (zq d) (qgram M) = qof G -> longest M L -> 0 <= eps ->
  zq d * (qdec 1 8 + eps + rtol * (zq 6 * L)) < 1 ->
  niggli_reduction eps M = niggli_reduction 0 M.
Proof.
  intros Hd HM HG HL He HB. pose proof (grid_reduction_eq d G M eps L Hd HM HG HL He HB) as K.
  assert (HB0 : zq d * (qdec 1 8 + 0 + rtol * (zq 6 * L)) < 1).
  { eapply Qcle_lt_trans; [|exact HB]. apply pos_le; [rewrite <- zq_0; apply zq_le; lia|].
    generalize (rtol * (zq 6 * L)), (qdec 1 8). intros. qclra. }
  pose proof (grid_reduction_eq d G M 0 L Hd HM HG HL (Qcle_refl 0) HB0) as K0.
  cbv zeta in K, K0. destruct (Z.leb 1000 (snd (final 0 M))).
  - now rewrite K, K0.
  - destruct K as (_ & _ & ->), K0 as (_ & _ & ->). reflexivity.
Qed.

(** ** Identification of a grid cell *)
Lemma rep_mul n d x u : rep d x u -> rep (n * d) x (n * u).
Proof. unfold rep. intros H. rewrite !zq_mul, <- H. ring. Qed.
Lemma rep_quot n m d x u q : q = zq n -> n <> 0%Z -> rep d x u -> rep (n * m * d) (x / q) (m * u).
Proof.
  unfold rep. intros -> Hn H. apply zq_neq0 in Hn. rewrite !zq_mul, <- H. field. exact Hn.
Qed.

Section IdGrid.
Variables (d : Z) (eps rt Y : Qc).
Hypothesis Hd : (0 < d)%Z.
Hypothesis He : 0 <= eps.
Hypothesis Hr : 0 <= rt.
Hypothesis HY : zq (12 * d) * (eps + rt * Y) < 1.
Variables A B C D E F : Qc.
Hypotheses (GA : grid d A) (GB : grid d B) (GC : grid d C)
  (GD : grid d D) (GE : grid d E) (GF : grid d F).
Hypotheses (YA : qabs A <= Y) (YB : qabs B <= Y) (YC : qabs C <= Y)
  (YD : qabs D <= Y) (YE : qabs E <= Y) (YF : qabs F <= Y)
  (YD2 : qabs (qtwo * D) <= Y) (YE2 : qabs (qtwo * E) <= Y) (YAB : qabs (A + B) <= Y)
  (YA2 : qabs (A / qtwo) <= Y) (YB2 : qabs (B / qtwo) <= Y)
  (YA3 : qabs (- A / qthree) <= Y) (YA4 : qabs (A / qfour) <= Y)
  (YAm : qabs (- A / qtwo) <= Y) (YBm : qabs (- B / qtwo) <= Y).

Let Hd12 : (0 < 12 * d)%Z. Proof. lia. Qed.

Lemma up x : grid d x -> grid (12 * d) x.
Proof. intros (u & H). exists (12 * u)%Z. now apply rep_mul. Qed.
Lemma up2 x : grid d x -> grid (12 * d) (x / qtwo).
Proof. intros (u & H). exists (6 * u)%Z. exact (rep_quot 2 6 d x u qtwo eq_refl ltac:(lia) H). Qed.
Lemma up3 x : grid d x -> grid (12 * d) (x / qthree).
Proof. intros (u & H). exists (4 * u)%Z. exact (rep_quot 3 4 d x u qthree eq_refl ltac:(lia) H). Qed.
Lemma up4 x : grid d x -> grid (12 * d) (x / qfour).
Proof. intros (u & H). exists (3 * u)%Z. exact (rep_quot 4 3 d x u qfour eq_refl ltac:(lia) H). Qed.

Ltac grd := lazymatch goal with
  | H : grid ?d ?x |- grid ?d ?x => exact H
  | |- grid _ (_ / qtwo) => apply up2; grd
  | |- grid _ (_ / qthree) => apply up3; grd
  | |- grid _ (_ / qfour) => apply up4; grd
  | |- grid (12 * _)%Z _ => apply up; grd
  | |- grid _ _ => gr Hd
  end.

Lemma identify_grid positive :
  identify (allclose_r rt eps) A B C D E F positive = identify (allclose_r 0 0) A B C D E F positive.
Proof.
  assert (Y0 : qabs 0 <= Y) by (rewrite qabs_0; destruct (qabs_bounds A); qclra).
  unfold identify, block1, block2, block3, block4, sum_test.
  repeat match goal with
  | |- context [allclose_r rt eps ?x ?y] =>
    rewrite (close_Y (12 * d) eps rt Y Hd12 He Hr HY x y) by first [assumption | grd]
  end. reflexivity.
Qed.

Lemma id_params_grid : id_params_tol rt eps A B C D E F = id_params_tol 0 0 A B C D E F.
Proof.
  assert (Y0 : 0 <= Y) by (destruct (qabs_bounds A); qclra).
  pose proof (Y_eps (12 * d) eps rt Y Hd12 Hr HY Y0) as He1.
  unfold id_params_tol. cbv zeta. rewrite identify_grid. f_equal. unfold qgtb.
  rewrite !(g_ltm (12 * d) eps Hd12 He He1) by first [apply grid_0 | grd]. reflexivity.
Qed.
End IdGrid.

Lemma id_bounds A B C D E F L : niggli_cell A B C (D + D) (E + E) (F + F) -> 0 <= L -> C <= L ->
  Forall (fun y => qabs y <= zq 6 * L)
    [A; B; C; D; E; F; qtwo * D; qtwo * E; A + B; A / qtwo; B / qtwo; - A / qthree; A / qfour;
     - A / qtwo; - B / qtwo].
Proof.
  intros [nA nAB nBC nX nE nZ _ _ _ _ _ _ _ _ _ _ _] HL HC.
  destruct nX as [X1 X2], nE as [E1 E2], nZ as [Z1 Z2].
  assert (Q2 : forall x, x / qtwo = qdec 5 1 * x).
  { intros. unfold Qcdiv. replace (/ qtwo) with (qdec 5 1) by (apply Qc_is_canon; vm_compute; reflexivity). ring. }
  assert (Q4 : forall x, x / qfour = qdec 25 2 * x).
  { intros. unfold Qcdiv. replace (/ qfour) with (qdec 25 2) by (apply Qc_is_canon; vm_compute; reflexivity). ring. }
  assert (Q3 : forall x, x / qthree = Q2Qc (1 # 3) * x).
  { intros. unfold Qcdiv. replace (/ qthree) with (Q2Qc (1 # 3)) by (apply Qc_is_canon; vm_compute; reflexivity). ring. }
  rewrite !Q2, Q3, Q4. clear Q2 Q3 Q4.
  repeat constructor; apply qabs_bound; unfold zq, inject_Z, qtwo; qnum.
Qed.

(** Exact identification of grid cells. *)
Lemma id_grid d G M eps L : (0 < d)%Z -> qdet M <> 0 ->
  qscale (zq d) (qgram M) = qof G -> is_niggli M -> dot_cc M <= L -> 0 <= eps ->
  zq (12 * d) * (eps + rtol * (zq 6 * L)) < 1 ->
  id_params eps (dot_aa M) (dot_bb M) (dot_cc M) (dot_bc M) (dot_ca M) (dot_ab M) = id_exact M.
Proof.
  intros Hd HM HG HN H3 He HB.
  destruct (dots_rep d M G HG) as (S1 & S2 & S3 & S4 & S5 & S6).
  pose proof (niggli_dots M HN) as ND.
  assert (HL0 : 0 <= L).
  { destruct ND as [nA nAB nBC _ _ _ _ _ _ _ _ _ _ _ _ _ _]. clear - nA nAB nBC H3. qclra. }
  pose proof (id_bounds _ _ _ _ _ _ L ND HL0 H3) as FB. rewrite Forall_forall in FB.
  unfold id_params, id_exact.
  apply (id_params_grid d eps rtol (zq 6 * L) Hd He); try exact HB; try discriminate;
    first [eexists; eassumption | apply FB; cbn [In]; tauto].
Qed.
