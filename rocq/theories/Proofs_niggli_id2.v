(** niggli_id with exact comparisons on a rational cell: reduction to the integer decisions,
    and the theorem on isometries. *)
From Coq Require Import ZArith QArith Qcanon List Lia Bool String.
From Verif Require Import Mat3 Spec QMat QNum QcTac Bases Bases_niggli Spec_niggli Model_pyniggli
  Model_niggli_id PointGroup Proofs_niggli_term Proofs_pyniggli2 Proofs_niggli_short
  Proofs_niggli_cand Proofs_niggli_group Proofs_niggli_id.
Import ListNotations.
Open Scope Qc_scope.

Section Link.
Variable d : Z.
Hypothesis Hd : (0 < d)%Z.

Lemma rep_eq x y u w : rep d x u -> rep d y w -> (x = y <-> u = w).
Proof.
  unfold rep. intros H1 H2. split; intros E.
  - subst. rewrite H1 in H2. now apply zq_inj.
  - subst. rewrite <- H2 in H1. assert (zq d <> 0) by (apply zq_neq0; lia).
    apply (f_equal (fun t => t / zq d)) in H1.
    replace (zq d * x / zq d) with x in H1 by (field; assumption).
    replace (zq d * y / zq d) with y in H1 by (field; assumption). exact H1.
Qed.
Lemma rep_close x y u w : rep d x u -> rep d y w -> allclose_r 0 0 x y = (u =? w)%Z.
Proof.
  intros H1 H2. apply eq_true_iff_eq. rewrite close_0, Z.eqb_eq. now apply rep_eq.
Qed.
Lemma rep_times n x u : rep d x u -> rep d (zq n * x) (n * u).
Proof. unfold rep. intros H. rewrite zq_mul, <- H. ring. Qed.
Lemma div_eq (q x y : Qc) : q <> 0 -> (x / q = y <-> x = q * y).
Proof. intros Hq. split; intros E; [rewrite <- E|rewrite E]; field; exact Hq. Qed.
Lemma rep_div_l q n x y u w : q = zq n -> n <> 0%Z -> rep d x u -> rep d y w ->
  allclose_r 0 0 (x / q) y = (u =? n * w)%Z.
Proof.
  intros -> Hn H1 H2. apply eq_true_iff_eq. rewrite close_0, Z.eqb_eq.
  rewrite div_eq by now apply zq_neq0. apply rep_eq; [exact H1|now apply rep_times].
Qed.
Lemma rep_div_r q n x y u w : q = zq n -> n <> 0%Z -> rep d x u -> rep d y w ->
  allclose_r 0 0 y (x / q) = (u =? n * w)%Z.
Proof.
  intros -> Hn H1 H2. apply eq_true_iff_eq. rewrite close_0, Z.eqb_eq.
  split; intros E.
  - symmetry in E. apply div_eq in E; [|now apply zq_neq0].
    revert E. apply rep_eq; [exact H1|now apply rep_times].
  - symmetry. apply div_eq; [now apply zq_neq0|]. revert E.
    apply rep_eq; [exact H1|now apply rep_times].
Qed.

Variables (A B C D E F : Qc) (a b c e f g : Z).
Hypotheses (RA : rep d A a) (RB : rep d B b) (RC : rep d C c)
  (RD : rep d D e) (RE : rep d E f) (RF : rep d F g).
Variable positive : bool.

Let two : qtwo = zq 2. Proof. reflexivity. Qed.
Let three : qthree = zq 3. Proof. reflexivity. Qed.
Let four : qfour = zq 4. Proof. reflexivity. Qed.
Let n2 : 2%Z <> 0%Z. Proof. lia. Qed.
Let n3 : 3%Z <> 0%Z. Proof. lia. Qed.
Let n4 : 4%Z <> 0%Z. Proof. lia. Qed.
Let R0 : rep d 0 0 := rep_0 d.

Lemma sum_link : sum_test (allclose_r 0 0) A B D E F = (2 * Z.abs (e + f + g) =? a + b)%Z.
Proof.
  unfold sum_test. apply rep_close.
  - apply rep_two, rep_abs; [exact Hd|]. apply rep_add; [apply rep_add|]; assumption.
  - now apply rep_add.
Qed.

Ltac link :=
  rewrite ?sum_link,
    ?(rep_close _ _ _ _ RA RB), ?(rep_close _ _ _ _ RB RC), ?(rep_close _ _ _ _ RD RE),
    ?(rep_close _ _ _ _ RD RF), ?(rep_close _ _ _ _ RE RF), ?(rep_close _ _ _ _ R0 RD),
    ?(rep_close _ _ _ _ RD R0), ?(rep_close _ _ _ _ RE R0), ?(rep_close _ _ _ _ RF R0),
    ?(rep_div_l _ _ _ _ _ _ two n2 RA RD), ?(rep_div_l _ _ _ _ _ _ two n2 RA RE),
    ?(rep_div_l _ _ _ _ _ _ two n2 RA RF),
    ?(rep_div_r _ _ _ _ _ _ two n2 RA RE), ?(rep_div_r _ _ _ _ _ _ two n2 RA RF),
    ?(rep_div_l _ _ _ _ _ _ three n3 (rep_opp _ _ _ RA) RD),
    ?(rep_div_r _ _ _ _ _ _ three n3 (rep_opp _ _ _ RA) RE),
    ?(rep_div_l _ _ _ _ _ _ two n2 (rep_opp _ _ _ RA) RF),
    ?(rep_div_l _ _ _ _ _ _ two n2 (rep_opp _ _ _ RA) RE),
    ?(rep_div_l _ _ _ _ _ _ two n2 (rep_opp _ _ _ RB) RD),
    ?(rep_div_r _ _ _ _ _ _ two n2 (rep_opp _ _ _ RA) RD),
    ?(rep_div_r _ _ _ _ _ _ two n2 (rep_opp _ _ _ RA) RE),
    ?(rep_div_r _ _ _ _ _ _ two n2 (rep_opp _ _ _ RA) RF),
    ?(rep_div_r _ _ _ _ _ _ two n2 (rep_opp _ _ _ RB) RD),
    ?(rep_div_r _ _ _ _ _ _ two n2 RB RD),
    ?(rep_div_l _ _ _ _ _ _ four n4 RA RD), ?(rep_div_r _ _ _ _ _ _ four n4 RA RD),
    ?(rep_close _ _ _ _ RF (rep_two _ _ _ RD)), ?(rep_close _ _ _ _ RE (rep_two _ _ _ RD)),
    ?(rep_close _ _ _ _ RF (rep_two _ _ _ RE)),
    ?(rep_close _ _ _ _ (rep_abs _ _ _ Hd (rep_add _ _ _ _ _ (rep_two _ _ _ RD) RF)) RB);
  repeat match goal with |- context [if ?x then _ else _] => destruct x end; reflexivity.

Lemma link1 : option_map niggli_num (block1 (allclose_r 0 0) A B C D E F positive) =
  zblock1 a b c e f g positive.
Proof. unfold block1, zblock1. link. Qed.
Lemma link2 : option_map niggli_num (block2 (allclose_r 0 0) A B D E F positive) =
  zblock2 a b e f g positive.
Proof. unfold block2, zblock2. link. Qed.
Lemma link3 : option_map niggli_num (block3 (allclose_r 0 0) A B C D E F positive) =
  zblock3 a b c e f g positive.
Proof. unfold block3, zblock3. link. Qed.
Lemma link4 : option_map niggli_num (block4 (allclose_r 0 0) A B D E F positive) =
  zblock4 a b e f g positive.
Proof. unfold block4, zblock4. link. Qed.

Lemma link : option_map niggli_num (identify (allclose_r 0 0) A B C D E F positive) =
  zidentify a b c e f g positive.
Proof.
  unfold identify, zidentify. rewrite <- link1, <- link2, <- link3, <- link4.
  destruct (block1 _ _ _ _ _ _ _ _); [reflexivity|].
  destruct (block2 _ _ _ _ _ _ _); [reflexivity|].
  destruct (block3 _ _ _ _ _ _ _ _); reflexivity.
Qed.

(** A rational Niggli cell is an integer Niggli cell in units [1/d]. *)
Lemma niggli_zN : niggli_cell A B C (D + D) (E + E) (F + F) ->
  ((0 < e /\ 0 < f /\ 0 < g)%Z /\ zN1 a b c e f g) \/
  (~ (0 < e /\ 0 < f /\ 0 < g)%Z /\ zN2 a b c e f g).
Proof.
  intros N.
  assert (L : forall x y u w, rep d x u -> rep d y w -> x < y -> (u < w)%Z)
    by (intros x y u w H1 H2 H; now apply (scale_lt d x y u w)).
  assert (LE : forall x y u w, rep d x u -> rep d y w -> x <= y -> (u <= w)%Z).
  { intros x y u w H1 H2 H. destruct (Z_lt_le_dec w u) as [H'|H']; [|exact H'].
    apply (scale_lt d y x w u Hd H2 H1) in H'. exfalso. exact (Qclt_not_le _ _ H' H). }
  assert (EQ : forall x y u w, rep d x u -> rep d y w -> u = w -> x = y)
    by (intros x y u w H1 H2; apply rep_eq; assumption).
  assert (EQ' : forall x y u w, rep d x u -> rep d y w -> x = y -> u = w)
    by (intros x y u w H1 H2; apply rep_eq; assumption).
  pose proof (rep_add _ _ _ _ _ RD RD) as RX. pose proof (rep_add _ _ _ _ _ RE RE) as RY.
  pose proof (rep_add _ _ _ _ _ RF RF) as RZ.
  destruct N as [N1 N2 N3 N4 N5 N6 N7 N8 N9 N10 N11 N12 N13 N14 N15 N16 N17].
  apply (L _ _ _ _ R0 RA) in N1. apply (LE _ _ _ _ RA RB) in N2. apply (LE _ _ _ _ RB RC) in N3.
  destruct N4 as [N4 N4']. apply (LE _ _ _ _ (rep_opp _ _ _ RB) RX) in N4.
  apply (LE _ _ _ _ RX RB) in N4'.
  destruct N5 as [N5 N5']. apply (LE _ _ _ _ (rep_opp _ _ _ RA) RY) in N5.
  apply (LE _ _ _ _ RY RA) in N5'.
  destruct N6 as [N6 N6']. apply (LE _ _ _ _ (rep_opp _ _ _ RA) RZ) in N6.
  apply (LE _ _ _ _ RZ RA) in N6'.
  apply (LE _ _ _ _ R0 (rep_add _ _ _ _ _ (rep_add _ _ _ _ _ (rep_add _ _ _ _ _ (rep_add _ _ _ _ _ RA RB) RX) RY) RZ)) in N8.
  assert (M9 : a = b -> (0 <= f + f -> - (f + f) <= e + e <= f + f)%Z /\ (f + f <= 0 -> f + f <= e + e <= - (f + f))%Z).
  { intros H. apply (EQ _ _ _ _ RA RB) in H. destruct (N9 H) as [P Q]. split; intros S.
    - assert (S' : 0 <= E + E).
      { apply Qcnot_lt_le. intros T. apply (L _ _ _ _ RY R0) in T. lia. }
      destruct (P S') as [P1 P2]. apply (LE _ _ _ _ (rep_opp _ _ _ RY) RX) in P1.
      apply (LE _ _ _ _ RX RY) in P2. lia.
    - assert (S' : E + E <= 0).
      { apply Qcnot_lt_le. intros T. apply (L _ _ _ _ R0 RY) in T. lia. }
      destruct (Q S') as [P1 P2]. apply (LE _ _ _ _ (rep_opp _ _ _ (rep_opp _ _ _ RY)) RX) in P1.
      apply (LE _ _ _ _ RX (rep_opp _ _ _ RY)) in P2. lia. }
  assert (M10 : b = c -> (0 <= g + g -> - (g + g) <= f + f <= g + g)%Z /\ (g + g <= 0 -> g + g <= f + f <= - (g + g))%Z).
  { intros H. apply (EQ _ _ _ _ RB RC) in H. destruct (N10 H) as [P Q]. split; intros S.
    - assert (S' : 0 <= F + F).
      { apply Qcnot_lt_le. intros T. apply (L _ _ _ _ RZ R0) in T. lia. }
      destruct (P S') as [P1 P2]. apply (LE _ _ _ _ (rep_opp _ _ _ RZ) RY) in P1.
      apply (LE _ _ _ _ RY RZ) in P2. lia.
    - assert (S' : F + F <= 0).
      { apply Qcnot_lt_le. intros T. apply (L _ _ _ _ R0 RZ) in T. lia. }
      destruct (Q S') as [P1 P2]. apply (LE _ _ _ _ (rep_opp _ _ _ (rep_opp _ _ _ RZ)) RY) in P1.
      apply (LE _ _ _ _ RY (rep_opp _ _ _ RZ)) in P2. lia. }
  assert (M11 : (e + e = b -> g + g <= (f + f) + (f + f))%Z).
  { intros H. apply (EQ _ _ _ _ RX RB) in H. apply N11 in H.
    exact (LE _ _ _ _ RZ (rep_add _ _ _ _ _ RY RY) H). }
  assert (M12 : (f + f = a -> g + g <= (e + e) + (e + e))%Z).
  { intros H. apply (EQ _ _ _ _ RY RA) in H. apply N12 in H.
    exact (LE _ _ _ _ RZ (rep_add _ _ _ _ _ RX RX) H). }
  assert (M13 : (g + g = a -> f + f <= (e + e) + (e + e))%Z).
  { intros H. apply (EQ _ _ _ _ RZ RA) in H. apply N13 in H.
    exact (LE _ _ _ _ RY (rep_add _ _ _ _ _ RX RX) H). }
  assert (M14 : (e + e = - b -> g + g = 0)%Z).
  { intros H. apply (EQ _ _ _ _ RX (rep_opp _ _ _ RB)) in H. apply N14 in H. exact (EQ' _ _ _ _ RZ R0 H). }
  assert (M15 : (f + f = - a -> g + g = 0)%Z).
  { intros H. apply (EQ _ _ _ _ RY (rep_opp _ _ _ RA)) in H. apply N15 in H. exact (EQ' _ _ _ _ RZ R0 H). }
  assert (M16 : (g + g = - a -> f + f = 0)%Z).
  { intros H. apply (EQ _ _ _ _ RZ (rep_opp _ _ _ RA)) in H. apply N16 in H. exact (EQ' _ _ _ _ RY R0 H). }
  assert (M17 : (a + b + (e + e) + (f + f) + (g + g) = 0 -> a + a + (f + f + (f + f)) + (g + g) <= 0)%Z).
  { intros H.
    apply (EQ _ _ _ _ (rep_add _ _ _ _ _ (rep_add _ _ _ _ _ (rep_add _ _ _ _ _ (rep_add _ _ _ _ _ RA RB) RX) RY) RZ) R0) in H.
    apply N17 in H.
    exact (LE _ _ _ _ (rep_add _ _ _ _ _ (rep_add _ _ _ _ _ (rep_add _ _ _ _ _ RA RA) (rep_add _ _ _ _ _ RY RY)) RZ) R0 H). }
  assert (M7 : ((0 < e + e /\ 0 < f + f /\ 0 < g + g) \/ (e + e <= 0 /\ f + f <= 0 /\ g + g <= 0))%Z).
  { destruct N7 as [(P & Q & R)|(P & Q & R)]; [left|right].
    - apply (L _ _ _ _ R0 RX) in P. apply (L _ _ _ _ R0 RY) in Q. apply (L _ _ _ _ R0 RZ) in R. tauto.
    - apply (LE _ _ _ _ RX R0) in P. apply (LE _ _ _ _ RY R0) in Q. apply (LE _ _ _ _ RZ R0) in R. tauto. }
  clear - N1 N2 N3 N4 N4' N5 N5' N6 N6' M7 N8 M9 M10 M11 M12 M13 M14 M15 M16 M17.
  destruct M7 as [M7|M7]; [left|right]; (split; [lia|]); unfold zN1, zN2;
    repeat match goal with |- _ /\ _ => split end; lia.
Qed.
End Link.

Lemma qscale_eq d A B : d <> 0%Z -> qscale (zq d) A = qscale (zq d) B -> A = B.
Proof.
  intros Hd H. apply zq_neq0 in Hd.
  assert (K : forall x y, zq d * x = zq d * y -> x = y).
  { intros x y E. apply (f_equal (fun t => / zq d * t)) in E.
    replace (/ zq d * (zq d * x)) with x in E by (field; assumption).
    replace (/ zq d * (zq d * y)) with y in E by (field; assumption). exact E. }
  destruct A as [a1 a2 a3 a4 a5 a6 a7 a8 a9], B as [b1 b2 b3 b4 b5 b6 b7 b8 b9].
  cbn [qscale q11 q12 q13 q21 q22 q23 q31 q32 q33] in H.
  f_equal; apply K.
  - exact (f_equal q11 H). - exact (f_equal q12 H). - exact (f_equal q13 H).
  - exact (f_equal q21 H). - exact (f_equal q22 H). - exact (f_equal q23 H).
  - exact (f_equal q31 H). - exact (f_equal q32 H). - exact (f_equal q33 H).
Qed.

(** Isometries of a rational Gram matrix are those of an integer multiple of it. *)
Lemma qisometry_scaled d G K X : d <> 0%Z -> qscale (zq d) G = qof K ->
  (qisometry G X <-> isometry K X).
Proof.
  intros Hd HK.
  assert (E : qof (mmul (mtr X) (mmul K X)) = qscale (zq d) (qmul (qtr (qof X)) (qmul G (qof X)))).
  { rewrite !qof_mul, qof_tr, <- HK. destruct G. unfold qscale, qmul, qtr, qof. cbn. f_equal; ring. }
  unfold qisometry, isometry. split; intros H.
  - apply qof_inj. rewrite E, H. exact HK.
  - apply (qscale_eq d _ _ Hd). rewrite <- E, H. symmetry. exact HK.
Qed.

(** What a Niggli cell's exact identification says about its isometries. *)
Definition id_exact (M : qmat) : option lattice_id :=
  id_params_tol 0 0 (dot_aa M) (dot_bb M) (dot_cc M) (dot_bc M) (dot_ca M) (dot_ab M).

Lemma id_group_all M : qdet M <> 0 -> is_niggli M ->
  forall X, qisometry (qgram M) X <->
    isometry (class_gram (match id_exact M with Some r => niggli_num r | None => 0%Z end)) X.
Proof.
  intros HM HN X.
  destruct (clear_denoms (qgram M)) as (d & K & Hd & HK).
  assert (HG : qdet (qgram M) <> 0) by (rewrite qgram_det; now apply Qc_mul_neq0).
  assert (R11 : rep d (dot_aa M) (m11 K)) by exact (f_equal q11 HK).
  assert (R22 : rep d (dot_bb M) (m22 K)) by exact (f_equal q22 HK).
  assert (R33 : rep d (dot_cc M) (m33 K)) by exact (f_equal q33 HK).
  assert (R23 : rep d (dot_bc M) (m23 K)) by exact (f_equal q23 HK).
  assert (R13 : rep d (dot_ca M) (m13 K)).
  { pose proof (f_equal q13 HK) as E. cbn [q13 qscale qof] in E. unfold rep. rewrite <- E.
    unfold dot_ca, qgram, qmul, qtr. cbn. ring. }
  assert (R12 : rep d (dot_ab M) (m12 K)) by exact (f_equal q12 HK).
  assert (SK : K = symm (m11 K) (m22 K) (m33 K) (m23 K) (m13 K) (m12 K)).
  { assert (T : mtr K = K).
    { apply qof_inj. rewrite qof_tr, <- HK. destruct M. unfold qscale, qgram, qmul, qtr. cbn.
      f_equal; ring. }
    destruct K as [k11 k12 k13 k21 k22 k23 k31 k32 k33]. unfold symm. cbn [m11 m22 m33 m23 m13 m12].
    pose proof (f_equal m12 T) as T1. pose proof (f_equal m13 T) as T2. pose proof (f_equal m23 T) as T3.
    cbn in T1, T2, T3. now subst. }
  assert (HN' : niggli_cell (dot_aa M) (dot_bb M) (dot_cc M) (dot_bc M + dot_bc M)
                  (dot_ca M + dot_ca M) (dot_ab M + dot_ab M)).
  { assert (E : dot_ca M = q13 (qgram M)) by (unfold dot_ca, qgram, qmul, qtr; cbn; ring).
    rewrite E. exact HN. }
  pose proof (niggli_zN d Hd _ _ _ _ _ _ _ _ _ _ _ _ R11 R22 R33 R23 R13 R12 HN') as HZ.
  clear HN HN'.
  set (pos := qgtb (dot_bc M - 0) 0 && qgtb (dot_ca M - 0) 0 && qgtb (dot_ab M - 0) 0) in *.
  assert (HP : pos = true <-> (0 < m23 K /\ 0 < m13 K /\ 0 < m12 K)%Z).
  { unfold pos, qgtb.
    assert (S0 : forall x u, rep d x u -> qltb 0 (x - 0) = (0 <? u)%Z).
    { intros x u Hx. replace (x - 0) with x by ring. exact (rep_ltb d _ _ _ _ Hd (rep_0 d) Hx). }
    rewrite (S0 _ _ R23), (S0 _ _ R13), (S0 _ _ R12), !andb_true_iff, !Z.ltb_lt. tauto. }
  pose proof (link d Hd _ _ _ _ _ _ _ _ _ _ _ _ R11 R22 R33 R23 R13 R12 pos) as HL.
  assert (Q : zpath (match id_exact M with Some r => niggli_num r | None => 0%Z end)
     (m11 K) (m22 K) (m33 K) (m23 K) (m13 K) (m12 K)).
  { unfold id_exact, id_params_tol. fold pos.
    assert (P1 : pos = true -> zN1 (m11 K) (m22 K) (m33 K) (m23 K) (m13 K) (m12 K)).
    { intros E. apply HP in E. destruct HZ as [[_ HZ]|[HZ _]]; [exact HZ|contradiction]. }
    assert (P2 : pos = false -> zN2 (m11 K) (m22 K) (m33 K) (m23 K) (m13 K) (m12 K)).
    { intros E. destruct HZ as [[HZ _]|[_ HZ]]; [|exact HZ]. apply HP in HZ. congruence. }
    destruct (identify (allclose_r 0 0) (dot_aa M) (dot_bb M) (dot_cc M) (dot_bc M) (dot_ca M)
      (dot_ab M) pos) as [r|]; cbn [option_map] in HL; symmetry in HL.
    - exact (zidentify_path _ _ _ _ _ _ _ _ P1 P2 HL).
    - exact (zidentify_none _ _ _ _ _ _ _ P1 P2 HL). }
  assert (Hd' : d <> 0%Z) by lia.
  assert (I : qisometry (qgram M) X <-> iso6 (m11 K) (m22 K) (m33 K) (m23 K) (m13 K) (m12 K) X).
  { rewrite (qisometry_scaled d _ _ _ Hd' HK). rewrite SK at 1. apply iso6_isometry. }
  split; intros H.
  - assert (U : mdet X = 1%Z \/ mdet X = (-1)%Z).
    { pose proof (isometry_unimodular _ _ HG H) as U. nia. }
    exact (proj1 (zgroup _ _ _ _ _ _ _ _ Q U) (proj1 I H)).
  - assert (U : mdet X = 1%Z \/ mdet X = (-1)%Z).
    { pose proof (zpath_range _ _ _ _ _ _ _ Q) as Rk.
      destruct (class_symm _ Rk) as [_ Dk]. exact (isometry_det _ _ Dk H). }
    exact (proj2 I (proj2 (zgroup _ _ _ _ _ _ _ _ Q U) H)).
Qed.
