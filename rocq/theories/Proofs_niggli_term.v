(** In exact arithmetic (tolerance 0) the reduction needs only finitely many passes. *)
From Coq Require Import ZArith QArith Qcanon List Bool Lia.
From Verif Require Import Mat3 QMat QNum QcTac Spec_niggli Model_pyniggli Proofs_pyniggli.
Open Scope Z_scope.

(** ** Integer parameters *)
Definition zA (K : mat3) := m11 K.
Definition zB (K : mat3) := m22 K.
Definition zC (K : mat3) := m33 K.
Definition zX (K : mat3) := 2 * m23 K.
Definition zE (K : mat3) := 2 * m13 K.
Definition zZ (K : mat3) := 2 * m12 K.

Definition zcond1 K := (zB K <? zA K) || ((zA K =? zB K) && (Z.abs (zE K) <? Z.abs (zX K))).
Definition zcond2 K := (zC K <? zB K) || ((zC K =? zB K) && (Z.abs (zZ K) <? Z.abs (zE K))).
Definition zcond5 K := (zB K <? Z.abs (zX K)) || ((zB K =? zX K) && (2 * zE K <? zZ K))
  || ((zB K =? - zX K) && (zZ K <? 0)).
Definition zcond6 K := (zA K <? Z.abs (zE K)) || ((zA K =? zE K) && (2 * zX K <? zZ K))
  || ((zA K =? - zE K) && (zZ K <? 0)).
Definition zcond7 K := (zA K <? Z.abs (zZ K)) || ((zA K =? zZ K) && (2 * zX K <? zE K))
  || ((zA K =? - zZ K) && (zE K <? 0)).
Definition zcond8 K := (zX K + zE K + zZ K + zA K + zB K <? 0)
  || ((zX K + zE K + zZ K + zA K + zB K =? 0) && (0 <? 2 * (zA K + zE K) + zZ K)).

Definition znormal K := (0 < zX K /\ 0 < zE K /\ 0 < zZ K) \/ (zX K <= 0 /\ zE K <= 0 /\ zZ K <= 0).
Definition znormalb K := ((0 <? zX K) && (0 <? zE K) && (0 <? zZ K)) ||
  ((zX K <=? 0) && (zE K <=? 0) && (zZ K <=? 0)).

(** Measure components. *)
Definition mS K := zA K + zB K + zC K.
Definition mP K := 3 * zA K + 2 * zB K + zC K.
Definition mT K := Z.abs (zX K) + Z.abs (zE K) + Z.abs (zZ K).
Definition mU K := Z.abs (zE K) + 2 * Z.abs (zZ K).

Definition better K' K :=
  mS K' < mS K \/ (mS K' = mS K /\
    (mP K' < mP K \/ (mP K' = mP K /\ (mT K < mT K' \/ (mT K = mT K' /\ mU K < mU K'))))).
Definition same K' K := mS K' = mS K /\ mP K' = mP K /\ mT K' = mT K /\ mU K' = mU K.

Lemma better_trans K1 K2 K3 : better K3 K2 -> better K2 K1 -> better K3 K1.
Proof. unfold better. lia. Qed.
Lemma better_same K1 K2 K3 : better K3 K2 -> same K2 K1 -> better K3 K1.
Proof. unfold better, same. lia. Qed.
Lemma same_better K1 K2 K3 : same K3 K2 -> better K2 K1 -> better K3 K1.
Proof. unfold better, same. lia. Qed.
Lemma same_trans K1 K2 K3 : same K3 K2 -> same K2 K1 -> same K3 K1.
Proof. unfold same. lia. Qed.

(** Change of basis. *)
Definition cong (M K : mat3) : mat3 := mmul (mtr M) (mmul K M).
Definition zsym (K : mat3) : Prop := m21 K = m12 K /\ m31 K = m13 K /\ m32 K = m23 K.

Lemma cong_mul M N K : cong (mmul M N) K = cong N (cong M K).
Proof. unfold cong. rewrite mtr_mul. rewrite !mmul_assoc. reflexivity. Qed.

Ltac zun := unfold better, same, mS, mP, mT, mU, zA, zB, zC, zX, zE, zZ, cong, mmul, mtr in *;
  cbn [m11 m12 m13 m21 m22 m23 m31 m32 m33] in *.

Lemma z_step1 K : zsym K -> zcond1 K = true ->
  better (cong step1 K) K /\ zA (cong step1 K) <= zB (cong step1 K).
Proof.
  destruct K as [k11 k12 k13 k21 k22 k23 k31 k32 k33]. unfold zsym, zcond1, step1.
  rewrite orb_true_iff, andb_true_iff, !Z.ltb_lt, Z.eqb_eq. zun. intros (-> & -> & ->). lia.
Qed.
Lemma z_step1_no K : zcond1 K = false -> zA K <= zB K.
Proof. unfold zcond1. rewrite orb_false_iff, Z.ltb_ge. tauto. Qed.

Lemma z_step2 K : zsym K -> zcond2 K = true -> better (cong step2 K) K.
Proof.
  destruct K as [k11 k12 k13 k21 k22 k23 k31 k32 k33]. unfold zsym, zcond2, step2.
  rewrite orb_true_iff, andb_true_iff, !Z.ltb_lt, Z.eqb_eq. zun. intros (-> & -> & ->). lia.
Qed.

Definition sgn_mat (i j k : Z) := (i = 1 \/ i = -1) /\ (j = 1 \/ j = -1) /\ (k = 1 \/ k = -1).

Lemma z_diag K i j k : zsym K -> sgn_mat i j k ->
  same (cong (mdiag i j k) K) K /\ zA (cong (mdiag i j k) K) = zA K /\
  zB (cong (mdiag i j k) K) = zB K.
Proof.
  destruct K as [k11 k12 k13 k21 k22 k23 k31 k32 k33]. unfold zsym, sgn_mat, mdiag.
  zun. intros (-> & -> & ->) ([ -> | -> ] & [ -> | -> ] & [ -> | -> ]); lia.
Qed.

Lemma z_C3 K : zsym K ->
  (Z.sgn (zX K) * Z.sgn (zE K) * Z.sgn (zZ K) =? 1) = true ->
  let M := find_C3 (Z.sgn (zX K)) (Z.sgn (zE K)) (Z.sgn (zZ K)) in
  exists i j k, M = mdiag i j k /\ sgn_mat i j k /\ znormal (cong M K) /\
                (M = mid <-> znormal K).
Proof.
  destruct K as [k11 k12 k13 k21 k22 k23 k31 k32 k33]. unfold zsym.
  cbn [m11 m12 m13 m21 m22 m23 m31 m32 m33].
  intros (-> & -> & ->) H. cbv zeta. unfold znormal, sgn_mat, find_C3. zun.
  assert (H' : Z.sgn (2 * k23) * Z.sgn (2 * k13) * Z.sgn (2 * k12) = 1) by now apply Z.eqb_eq.
  clear H.
  destruct (Z.sgn_spec (2 * k23)) as [(S1 & E1)|[(S1 & E1)|(S1 & E1)]];
  destruct (Z.sgn_spec (2 * k13)) as [(S2 & E2)|[(S2 & E2)|(S2 & E2)]];
  destruct (Z.sgn_spec (2 * k12)) as [(S3 & E3)|[(S3 & E3)|(S3 & E3)]];
  rewrite E1, E2, E3 in *; try (exfalso; lia);
  cbn [Z.eqb Pos.eqb Z.opp]; do 3 eexists; (split; [reflexivity|]);
  clear E1 E2 E3; (split; [clear; split; [|split]; first [left; reflexivity | right; reflexivity]|]); unfold mdiag; cbn [m11 m12 m13 m21 m22 m23 m31 m32 m33];
  (split; [lia|]); unfold mid;
  (split; [intros HM; try discriminate HM; lia|intros HN; try reflexivity; exfalso; lia]).
Qed.

Lemma z_C4 K : zsym K ->
  (Z.sgn (zX K) * Z.sgn (zE K) * Z.sgn (zZ K) =? 0) ||
  (Z.sgn (zX K) * Z.sgn (zE K) * Z.sgn (zZ K) =? -1) = true ->
  let M := find_C4 (Z.sgn (zX K)) (Z.sgn (zE K)) (Z.sgn (zZ K)) in
  exists i j k, M = mdiag i j k /\ sgn_mat i j k /\ znormal (cong M K) /\
                (M = mid <-> znormal K).
Proof.
  destruct K as [k11 k12 k13 k21 k22 k23 k31 k32 k33]. unfold zsym.
  cbn [m11 m12 m13 m21 m22 m23 m31 m32 m33].
  intros (-> & -> & ->) H. cbv zeta. unfold znormal, sgn_mat. zun.
  rewrite orb_true_iff, !Z.eqb_eq in H.
  destruct (Z.sgn_spec (2 * k23)) as [(S1 & E1)|[(S1 & E1)|(S1 & E1)]];
  destruct (Z.sgn_spec (2 * k13)) as [(S2 & E2)|[(S2 & E2)|(S2 & E2)]];
  destruct (Z.sgn_spec (2 * k12)) as [(S3 & E3)|[(S3 & E3)|(S3 & E3)]];
  rewrite E1, E2, E3 in *; try (exfalso; lia);
  match goal with |- context [find_C4 ?a ?b ?c] =>
    let v := eval cbv in (find_C4 a b c) in change (find_C4 a b c) with v end;
  do 3 eexists; (split; [reflexivity|]);
  clear E1 E2 E3; (split; [clear; split; [|split]; first [left; reflexivity | right; reflexivity]|]); unfold mdiag; cbn [m11 m12 m13 m21 m22 m23 m31 m32 m33];
  (split; [lia|]); unfold mid;
  (split; [intros HM; try discriminate HM; lia|intros HN; try reflexivity; exfalso; lia]).
Qed.

Definition zstep5 K := Mat3 1 0 0 0 1 (- Z.sgn (zX K)) 0 0 1.
Definition zstep6 K := Mat3 1 0 (- Z.sgn (zE K)) 0 1 0 0 0 1.
Definition zstep7 K := Mat3 1 (- Z.sgn (zZ K)) 0 0 1 0 0 0 1.

Ltac sgncases x := destruct (Z.sgn_spec x) as [(?S & ?E)|[(?S & ?E)|(?S & ?E)]].

Lemma z_step5 K : zsym K -> 0 < zB K -> znormal K -> zcond5 K = true -> better (cong (zstep5 K) K) K.
Proof.
  destruct K as [k11 k12 k13 k21 k22 k23 k31 k32 k33]. unfold zsym, zcond5, zstep5, znormal.
  rewrite !orb_true_iff, !andb_true_iff, !Z.ltb_lt, !Z.eqb_eq. zun. intros (-> & -> & ->).
  intros HB HN HC.
  sgncases (2 * k23); rewrite E in *; clear E; lia.
Qed.
Lemma z_step6 K : zsym K -> 0 < zA K -> znormal K -> zcond6 K = true -> better (cong (zstep6 K) K) K.
Proof.
  destruct K as [k11 k12 k13 k21 k22 k23 k31 k32 k33]. unfold zsym, zcond6, zstep6, znormal.
  rewrite !orb_true_iff, !andb_true_iff, !Z.ltb_lt, !Z.eqb_eq. zun. intros (-> & -> & ->).
  intros HB HN HC.
  sgncases (2 * k13); rewrite E in *; clear E; lia.
Qed.
Lemma z_step7 K : zsym K -> 0 < zA K -> znormal K -> zcond7 K = true -> better (cong (zstep7 K) K) K.
Proof.
  destruct K as [k11 k12 k13 k21 k22 k23 k31 k32 k33]. unfold zsym, zcond7, zstep7, znormal.
  rewrite !orb_true_iff, !andb_true_iff, !Z.ltb_lt, !Z.eqb_eq. zun. intros (-> & -> & ->).
  intros HB HN HC.
  sgncases (2 * k12); rewrite E in *; clear E; lia.
Qed.
Lemma z_step8 K : zsym K -> 0 < zA K -> zA K <= zB K -> znormal K ->
  zcond6 K = false -> zcond7 K = false -> zcond8 K = true -> better (cong step8 K) K.
Proof.
  destruct K as [k11 k12 k13 k21 k22 k23 k31 k32 k33].
  unfold zsym, zcond6, zcond7, zcond8, step8, znormal.
  rewrite !orb_false_iff, !orb_true_iff, !andb_true_iff, !Z.ltb_lt, !Z.ltb_ge, !Z.eqb_eq.
  zun. intros (-> & -> & ->). intros HA HB HN ((C6 & _) & _) ((C7 & _) & _) HC. lia.
Qed.

(** ** Positive definite integer Gram matrices *)
Definition zpos (K : mat3) : Prop := zsym K /\ forall v : vec3,
  v <> Vec3 0 0 0 ->
  0 < m11 K * (v1 v * v1 v) + m22 K * (v2 v * v2 v) + m33 K * (v3 v * v3 v)
      + 2 * m12 K * (v1 v * v2 v) + 2 * m13 K * (v1 v * v3 v) + 2 * m23 K * (v2 v * v3 v).

Lemma zpos_bounds K : zpos K -> 0 < zA K /\ 0 < zB K /\ 0 < zC K /\
  Z.abs (zX K) <= zB K + zC K /\ Z.abs (zE K) <= zA K + zC K /\ Z.abs (zZ K) <= zA K + zB K.
Proof.
  intros (_ & H). zun.
  assert (P1 := H (Vec3 1 0 0) ltac:(discriminate)).
  assert (P2 := H (Vec3 0 1 0) ltac:(discriminate)).
  assert (P3 := H (Vec3 0 0 1) ltac:(discriminate)).
  assert (P4 := H (Vec3 0 1 1) ltac:(discriminate)).
  assert (P5 := H (Vec3 0 1 (-1)) ltac:(discriminate)).
  assert (P6 := H (Vec3 1 0 1) ltac:(discriminate)).
  assert (P7 := H (Vec3 1 0 (-1)) ltac:(discriminate)).
  assert (P8 := H (Vec3 1 1 0) ltac:(discriminate)).
  assert (P9 := H (Vec3 1 (-1) 0) ltac:(discriminate)).
  cbn [v1 v2 v3] in *. lia.
Qed.

(** ** The measure *)
Definition mu (N : Z) (K : mat3) : Z :=
  2 * (((mS K * (10 * N) + mP K) * (10 * N) + (2 * N - mT K)) * (10 * N) + (4 * N - mU K))
  + (if znormalb K then 0 else 1).

Lemma lexpair N x x' y y' : 0 <= y' < N -> 0 <= y ->
  x' < x \/ (x' = x /\ y' < y) -> x' * N + y' < x * N + y.
Proof. nia. Qed.
Lemma lexpair_eq N x x' y y' : x' = x -> y' = y -> x' * N + y' = x * N + y.
Proof. now intros -> ->. Qed.

Lemma comp_bounds N K : zpos K -> mS K <= N ->
  0 <= mS K /\ 0 <= mP K < 10 * N /\ 0 <= 2 * N - mT K < 10 * N /\ 0 <= 4 * N - mU K < 10 * N.
Proof.
  intros HK HS. destruct (zpos_bounds K HK) as (HA & HB & HC & HX & HE & HZ).
  unfold mS, mP, mT, mU in *. lia.
Qed.

Lemma mu_nonneg N K : zpos K -> mS K <= N -> 0 <= mu N K.
Proof.
  intros HK HS. destruct (comp_bounds N K HK HS) as (B1 & B2 & B3 & B4).
  unfold mu. assert (0 <= (mS K * (10 * N) + mP K)) by nia.
  assert (0 <= (mS K * (10 * N) + mP K) * (10 * N) + (2 * N - mT K)) by nia.
  assert (0 <= ((mS K * (10 * N) + mP K) * (10 * N) + (2 * N - mT K)) * (10 * N) + (4 * N - mU K)) by nia.
  destruct (znormalb K); lia.
Qed.

Lemma mu_better N K K' : zpos K -> zpos K' -> mS K <= N -> better K' K -> mu N K' < mu N K.
Proof.
  intros HK HK' HS HB.
  assert (HS' : mS K' <= N) by (unfold better in HB; lia).
  destruct (comp_bounds N K HK HS) as (B1 & B2 & B3 & B4).
  destruct (comp_bounds N K' HK' HS') as (B1' & B2' & B3' & B4').
  unfold mu.
  assert (L : ((mS K' * (10 * N) + mP K') * (10 * N) + (2 * N - mT K')) * (10 * N) + (4 * N - mU K')
            < ((mS K * (10 * N) + mP K) * (10 * N) + (2 * N - mT K)) * (10 * N) + (4 * N - mU K)).
  { apply lexpair; [lia|lia|]. unfold better in HB.
    assert (C : mS K' * (10 * N) + mP K' < mS K * (10 * N) + mP K \/
               (mS K' * (10 * N) + mP K' = mS K * (10 * N) + mP K /\
                (mT K < mT K' \/ mT K = mT K' /\ mU K < mU K'))).
    { destruct HB as [HB|(E & [HB|(E2 & HB)])].
      - left. apply lexpair; [lia|lia|]. now left.
      - left. apply lexpair; [lia|lia|]. right. now split.
      - right. split; [|exact HB]. now rewrite E, E2. }
    destruct C as [C|(C & [D|(D1 & D2)])].
    - left. apply lexpair; [lia|lia|]. now left.
    - left. apply lexpair; [lia|lia|]. right. split; [exact C|lia].
    - right. split; [|lia]. rewrite C, D1. reflexivity. }
  destruct (znormalb K), (znormalb K'); lia.
Qed.

Lemma znormalb_iff K : znormalb K = true <-> znormal K.
Proof.
  unfold znormalb, znormal. rewrite orb_true_iff, !andb_true_iff, !Z.ltb_lt, !Z.leb_le. tauto.
Qed.

Lemma mu_flag N K K' : same K' K -> znormal K' -> ~ znormal K -> mu N K' < mu N K.
Proof.
  intros (E1 & E2 & E3 & E4) H1 H2. unfold mu. rewrite E1, E2, E3, E4.
  apply znormalb_iff in H1. rewrite H1.
  destruct (znormalb K) eqn:E; [apply znormalb_iff in E; contradiction|]. lia.
Qed.

(** ** From rational to integer parameters *)
Open Scope Qc_scope.

Lemma clear_denom (x : Qc) : exists d z, (0 < d)%Z /\ zq d * x = zq z.
Proof.
  exists (Zpos (Qden (this x))), (Qnum (this x)). split; [lia|].
  apply Qc_is_canon. rewrite this_mult. unfold zq. rewrite !this_Q2Qc.
  destruct (this x) as [n d]. cbn [Qden Qnum]. unfold Qeq, inject_Z, Qmult. cbn [Qnum Qden].
  lia.
Qed.

Lemma clear_denoms (G : qmat) : exists d M, (0 < d)%Z /\ qscale (zq d) G = qof M.
Proof.
  destruct G as [g11 g12 g13 g21 g22 g23 g31 g32 g33].
  destruct (clear_denom g11) as (d1 & z1 & P1 & E1).
  destruct (clear_denom g12) as (d2 & z2 & P2 & E2).
  destruct (clear_denom g13) as (d3 & z3 & P3 & E3).
  destruct (clear_denom g21) as (d4 & z4 & P4 & E4).
  destruct (clear_denom g22) as (d5 & z5 & P5 & E5).
  destruct (clear_denom g23) as (d6 & z6 & P6 & E6).
  destruct (clear_denom g31) as (d7 & z7 & P7 & E7).
  destruct (clear_denom g32) as (d8 & z8 & P8 & E8).
  destruct (clear_denom g33) as (d9 & z9 & P9 & E9).
  exists (d1*d2*d3*d4*d5*d6*d7*d8*d9)%Z.
  exists (Mat3 (d2*d3*d4*d5*d6*d7*d8*d9*z1) (d1*d3*d4*d5*d6*d7*d8*d9*z2)
               (d1*d2*d4*d5*d6*d7*d8*d9*z3) (d1*d2*d3*d5*d6*d7*d8*d9*z4)
               (d1*d2*d3*d4*d6*d7*d8*d9*z5) (d1*d2*d3*d4*d5*d7*d8*d9*z6)
               (d1*d2*d3*d4*d5*d6*d8*d9*z7) (d1*d2*d3*d4*d5*d6*d7*d9*z8)
               (d1*d2*d3*d4*d5*d6*d7*d8*z9))%Z.
  split; [repeat apply Z.mul_pos_pos; assumption|].
  unfold qscale, qof. qcbn. rewrite !zq_mul.
  rewrite <- E1, <- E2, <- E3, <- E4, <- E5, <- E6, <- E7, <- E8, <- E9. f_equal; ring.
Qed.

Lemma zq_lt x y : zq x < zq y <-> (x < y)%Z.
Proof.
  unfold Qclt, zq. rewrite !this_Q2Qc. unfold Qlt, inject_Z. cbn [Qnum Qden]. lia.
Qed.

Lemma scale_lt d x y u w : (0 < d)%Z -> zq d * x = zq u -> zq d * y = zq w ->
  (x < y <-> (u < w)%Z).
Proof.
  intros Hd Hx Hy. rewrite <- zq_lt, <- Hx, <- Hy.
  assert (P : 0 < zq d) by (apply zq_lt; exact Hd).
  split; intros H.
  - rewrite (Qcmult_comm (zq d) x), (Qcmult_comm (zq d) y). now apply Qcmult_lt_compat_r.
  - apply Qcnot_le_lt. intros H'. apply (Qclt_not_le _ _ H).
    rewrite (Qcmult_comm (zq d) x), (Qcmult_comm (zq d) y). apply Qcmult_le_compat_r; [exact H'|].
    now apply Qclt_le_weak.
Qed.

(** [rep d x u]: the rational [x] is the integer [u] in units [1/d]. *)
Definition rep (d : Z) (x : Qc) (u : Z) : Prop := zq d * x = zq u.

Lemma rep_add d x y u w : rep d x u -> rep d y w -> rep d (x + y) (u + w).
Proof. unfold rep. intros H1 H2. rewrite zq_add, <- H1, <- H2. ring. Qed.
Lemma rep_opp d x u : rep d x u -> rep d (- x) (- u).
Proof. unfold rep. intros H1. rewrite zq_opp, <- H1. ring. Qed.
Lemma rep_sub d x y u w : rep d x u -> rep d y w -> rep d (x - y) (u - w).
Proof. intros. unfold Qcminus, Z.sub. apply rep_add; [assumption|now apply rep_opp]. Qed.
Lemma rep_0 d : rep d 0 0.
Proof. unfold rep. rewrite zq_0. ring. Qed.
Lemma rep_two d x u : rep d x u -> rep d (qtwo * x) (2 * u).
Proof.
  unfold rep, qtwo. intros H. replace (2 * u)%Z with (u + u)%Z by lia.
  rewrite zq_add, <- H. ring.
Qed.
Lemma rep_ltb d x y u w : (0 < d)%Z -> rep d x u -> rep d y w -> qltb x y = (u <? w)%Z.
Proof.
  intros Hd H1 H2. destruct (Z.ltb_spec u w) as [H|H].
  - apply qltb_iff. now apply (scale_lt d x y u w).
  - apply qltb_false. apply Qcnot_lt_le. intros H'. apply (scale_lt d x y u w) in H'; lia || assumption.
Qed.
Lemma rep_abs d x u : (0 < d)%Z -> rep d x u -> rep d (qabs x) (Z.abs u).
Proof.
  intros Hd H. unfold qabs. rewrite (rep_ltb d x 0 u 0 Hd H (rep_0 d)).
  destruct (Z.ltb_spec u 0).
  - rewrite Z.abs_neq by lia. now apply rep_opp.
  - rewrite Z.abs_eq by lia. exact H.
Qed.
Lemma rep_sign d x u : (0 < d)%Z -> rep d x u -> qsign x = Z.sgn u.
Proof.
  intros Hd H. unfold qsign.
  rewrite (rep_ltb d x 0 u 0 Hd H (rep_0 d)), (rep_ltb d 0 x 0 u Hd (rep_0 d) H).
  destruct (Z.ltb_spec u 0); [lia|]. destruct (Z.ltb_spec 0 u); lia.
Qed.
Lemma rep_sign_eps d x u : (0 < d)%Z -> rep d x u -> sign_eps 0 x = Z.sgn u.
Proof.
  intros Hd H. unfold sign_eps, qgtb.
  rewrite (rep_ltb d x (-(0)) u 0 Hd H).
  - rewrite (rep_ltb d 0 x 0 u Hd (rep_0 d) H).
    destruct (Z.ltb_spec u 0); [lia|]. destruct (Z.ltb_spec 0 u); lia.
  - apply (rep_opp d 0 0 (rep_0 d)).
Qed.
Lemma rep_gt_abs0 d x u : (0 < d)%Z -> rep d x u -> negb (qgtb (qabs x) 0) = (u =? 0)%Z.
Proof.
  intros Hd H. unfold qgtb. rewrite (rep_ltb d 0 (qabs x) 0 (Z.abs u) Hd (rep_0 d)).
  - destruct (Z.ltb_spec 0 (Z.abs u)), (Z.eqb_spec u 0); try reflexivity; lia.
  - now apply rep_abs.
Qed.

(** The parameters [p] are those of the integer Gram matrix [K]. *)
Definition reps (d : Z) (p : params) (K : mat3) : Prop :=
  rep d (pA p) (zA K) /\ rep d (pB p) (zB K) /\ rep d (pC p) (zC K) /\
  rep d (pxi p) (zX K) /\ rep d (peta p) (zE K) /\ rep d (pzeta p) (zZ K) /\
  pl p = Z.sgn (zX K) /\ pm p = Z.sgn (zE K) /\ pn p = Z.sgn (zZ K).

Section conds.
  Variables (d : Z) (p : params) (K : mat3).
  Hypothesis Hd : (0 < d)%Z.
  Hypothesis HR : reps d p K.

  Ltac setup := destruct HR as (RA & RB & RC & RX & RE & RZ & _).

  Lemma r_cond1 : cond1 0 p = zcond1 K.
  Proof.
    setup. unfold cond1, zcond1. f_equal; [|f_equal].
    - unfold qgtb. rewrite (rep_ltb d _ _ _ _ Hd (rep_add _ _ _ _ _ RB (rep_0 d)) RA).
      now rewrite Z.add_0_r.
    - rewrite (rep_gt_abs0 d _ _ Hd (rep_sub _ _ _ _ _ RA RB)).
      destruct (Z.eqb_spec (zA K - zB K) 0), (Z.eqb_spec (zA K) (zB K)); try reflexivity; lia.
    - unfold qgtb.
      rewrite (rep_ltb d _ _ _ _ Hd (rep_add _ _ _ _ _ (rep_abs _ _ _ Hd RE) (rep_0 d))
                 (rep_abs _ _ _ Hd RX)). now rewrite Z.add_0_r.
  Qed.
  Lemma r_cond2 : cond2 0 p = zcond2 K.
  Proof.
    setup. unfold cond2, zcond2. f_equal; [|f_equal].
    - unfold qgtb. rewrite (rep_ltb d _ _ _ _ Hd (rep_add _ _ _ _ _ RC (rep_0 d)) RB).
      now rewrite Z.add_0_r.
    - rewrite (rep_gt_abs0 d _ _ Hd (rep_sub _ _ _ _ _ RC RB)).
      destruct (Z.eqb_spec (zC K - zB K) 0), (Z.eqb_spec (zC K) (zB K)); try reflexivity; lia.
    - unfold qgtb.
      rewrite (rep_ltb d _ _ _ _ Hd (rep_add _ _ _ _ _ (rep_abs _ _ _ Hd RZ) (rep_0 d))
                 (rep_abs _ _ _ Hd RE)). now rewrite Z.add_0_r.
  Qed.

  Lemma r_main x y u w : rep d x u -> rep d y w ->
    qgtb (qabs x) (y + 0) = (w <? Z.abs u)%Z.
  Proof.
    intros H1 H2. unfold qgtb.
    rewrite (rep_ltb d _ _ _ _ Hd (rep_add _ _ _ _ _ H2 (rep_0 d)) (rep_abs _ _ _ Hd H1)).
    now rewrite Z.add_0_r.
  Qed.
  Lemma r_eqm x y u w : rep d x u -> rep d y w ->
    negb (qgtb (qabs (x - y)) 0) = (u =? w)%Z.
  Proof.
    intros H1 H2. rewrite (rep_gt_abs0 d _ _ Hd (rep_sub _ _ _ _ _ H1 H2)).
    destruct (Z.eqb_spec (u - w) 0), (Z.eqb_spec u w); try reflexivity; lia.
  Qed.
  Lemma r_eqp x y u w : rep d x u -> rep d y w ->
    negb (qgtb (qabs (x + y)) 0) = (u =? - w)%Z.
  Proof.
    intros H1 H2. rewrite (rep_gt_abs0 d _ _ Hd (rep_add _ _ _ _ _ H1 H2)).
    destruct (Z.eqb_spec (u + w) 0), (Z.eqb_spec u (- w)); try reflexivity; lia.
  Qed.
  Lemma r_two x y u w : rep d x u -> rep d y w ->
    qltb (qtwo * x) (y - 0) = (2 * u <? w)%Z.
  Proof.
    intros H1 H2. rewrite (rep_ltb d _ _ _ _ Hd (rep_two _ _ _ H1) (rep_sub _ _ _ _ _ H2 (rep_0 d))).
    now rewrite Z.sub_0_r.
  Qed.
  Lemma r_neg x u : rep d x u -> qltb x (- 0) = (u <? 0)%Z.
  Proof. intros H. now rewrite (rep_ltb d _ _ _ _ Hd H (rep_opp _ _ _ (rep_0 d))). Qed.

  Lemma r_cond5 : cond5 0 p = zcond5 K.
  Proof.
    setup. unfold cond5, zcond5.
    rewrite (r_main _ _ _ _ RX RB), (r_eqm _ _ _ _ RB RX), (r_two _ _ _ _ RE RZ),
      (r_eqp _ _ _ _ RB RX), (r_neg _ _ RZ). reflexivity.
  Qed.
  Lemma r_cond6 : cond6 0 p = zcond6 K.
  Proof.
    setup. unfold cond6, zcond6.
    rewrite (r_main _ _ _ _ RE RA), (r_eqm _ _ _ _ RA RE), (r_two _ _ _ _ RX RZ),
      (r_eqp _ _ _ _ RA RE), (r_neg _ _ RZ). reflexivity.
  Qed.
  Lemma r_cond7 : cond7 0 p = zcond7 K.
  Proof.
    setup. unfold cond7, zcond7.
    rewrite (r_main _ _ _ _ RZ RA), (r_eqm _ _ _ _ RA RZ), (r_two _ _ _ _ RX RE),
      (r_eqp _ _ _ _ RA RZ), (r_neg _ _ RE). reflexivity.
  Qed.
  Lemma r_cond8 : cond8 0 p = zcond8 K.
  Proof.
    setup. unfold cond8, zcond8.
    pose proof (rep_add _ _ _ _ _ (rep_add _ _ _ _ _ (rep_add _ _ _ _ _
                 (rep_add _ _ _ _ _ RX RE) RZ) RA) RB) as RS.
    rewrite (r_neg _ _ RS), (rep_gt_abs0 d _ _ Hd RS). f_equal. f_equal.
    unfold qgtb. rewrite (rep_ltb d _ _ _ _ Hd (rep_0 d)
      (rep_add _ _ _ _ _ (rep_two _ _ _ (rep_add _ _ _ _ _ RA RE)) RZ)). reflexivity.
  Qed.
End conds.

Lemma get_params_reps d orig G C : (0 < d)%Z -> qscale (zq d) (qgram orig) = qof G ->
  reps d (get_params 0 orig C) (cong C G).
Proof.
  intros Hd HG.
  assert (E : qscale (zq d) (qgram (qmul orig (qof C))) = qof (cong C G)).
  { unfold cong. rewrite !qof_mul, qof_tr, <- HG.
    unfold qgram. rewrite qtr_mul. set (c := qof C). clearbody c.
    unfold qscale, qmul, qtr. qcbn. f_equal; ring. }
  set (K := cong C G) in *. clearbody K.
  unfold get_params. set (mat := qmul orig (qof C)) in *. clearbody mat. cbv zeta.
  assert (RA : rep d (dot_aa mat) (zA K)).
  { unfold rep. pose proof (f_equal q11 E) as E'. unfold qscale, qof, qgram, qmul, qtr in E'.
    cbn [q11 q12 q13 q21 q22 q23 q31 q32 q33] in E'. unfold zA. rewrite <- E'. unfold dot_aa. ring. }
  assert (RB : rep d (dot_bb mat) (zB K)).
  { unfold rep. pose proof (f_equal q22 E) as E'. unfold qscale, qof, qgram, qmul, qtr in E'.
    cbn [q11 q12 q13 q21 q22 q23 q31 q32 q33] in E'. unfold zB. rewrite <- E'. unfold dot_bb. ring. }
  assert (RC : rep d (dot_cc mat) (zC K)).
  { unfold rep. pose proof (f_equal q33 E) as E'. unfold qscale, qof, qgram, qmul, qtr in E'.
    cbn [q11 q12 q13 q21 q22 q23 q31 q32 q33] in E'. unfold zC. rewrite <- E'. unfold dot_cc. ring. }
  assert (RX : rep d (qtwo * dot_bc mat) (zX K)).
  { apply rep_two. unfold rep. pose proof (f_equal q23 E) as E'. unfold qscale, qof, qgram, qmul, qtr in E'.
    cbn [q11 q12 q13 q21 q22 q23 q31 q32 q33] in E'. rewrite <- E'. unfold dot_bc. ring. }
  assert (RE : rep d (qtwo * dot_ca mat) (zE K)).
  { apply rep_two. unfold rep. pose proof (f_equal q13 E) as E'. unfold qscale, qof, qgram, qmul, qtr in E'.
    cbn [q11 q12 q13 q21 q22 q23 q31 q32 q33] in E'. rewrite <- E'. unfold dot_ca. ring. }
  assert (RZ : rep d (qtwo * dot_ab mat) (zZ K)).
  { apply rep_two. unfold rep. pose proof (f_equal q12 E) as E'. unfold qscale, qof, qgram, qmul, qtr in E'.
    cbn [q11 q12 q13 q21 q22 q23 q31 q32 q33] in E'. rewrite <- E'. unfold dot_ab. ring. }
  unfold reps. cbn [pA pB pC pxi peta pzeta pl pm pn].
  refine (conj RA (conj RB (conj RC (conj RX (conj RE (conj RZ (conj _ (conj _ _)))))))).
  - now apply (rep_sign_eps d).
  - now apply (rep_sign_eps d).
  - now apply (rep_sign_eps d).
Qed.

(** ** Squared lengths are positive *)
Lemma sq_nonneg (x : Qc) : 0 <= x * x.
Proof.
  destruct (Qclt_le_dec x 0) as [H|H].
  - replace (x * x) with ((- x) * (- x)) by ring.
    assert (H' : 0 <= - x) by qclra.
    replace 0 with (0 * - x) by ring. now apply Qcmult_le_compat_r.
  - replace 0 with (0 * x) by ring. now apply Qcmult_le_compat_r.
Qed.
Lemma sq_pos (x : Qc) : x <> 0 -> 0 < x * x.
Proof.
  intros H. destruct (Qcle_lt_or_eq _ _ (sq_nonneg x)) as [L|E]; [exact L|].
  exfalso. symmetry in E. destruct (Qcmult_integral _ _ E); contradiction.
Qed.

Definition norm2 (x : qvec) : Qc := w1 x * w1 x + w2 x * w2 x + w3 x * w3 x.

Lemma norm2_pos x : x <> QVec 0 0 0 -> 0 < norm2 x.
Proof.
  intros H. destruct x as [a b c]. unfold norm2. cbn [w1 w2 w3].
  pose proof (sq_nonneg a). pose proof (sq_nonneg b). pose proof (sq_nonneg c).
  destruct (Qc_eq_dec a 0) as [Ha|Ha]; [|pose proof (sq_pos a Ha); clear - H0 H1 H2 H3].
  - destruct (Qc_eq_dec b 0) as [Hb|Hb]; [|pose proof (sq_pos b Hb); clear - H0 H1 H2 H3].
    + destruct (Qc_eq_dec c 0) as [Hc|Hc]; [|pose proof (sq_pos c Hc); clear - H0 H1 H2 H3].
      * exfalso. apply H. now rewrite Ha, Hb, Hc.
      * generalize dependent (a * a). generalize dependent (b * b). generalize dependent (c * c).
        intros; qclra.
    + generalize dependent (a * a). generalize dependent (b * b). generalize dependent (c * c).
      intros; qclra.
  - generalize dependent (a * a). generalize dependent (b * b). generalize dependent (c * c).
    intros; qclra.
Qed.

Lemma gram_zpos d M K : (0 < d)%Z -> qdet M <> 0 ->
  qscale (zq d) (qgram M) = qof K -> zpos K.
Proof.
  intros Hd HM E.
  assert (E' : forall f : qmat -> Qc, f (qof K) = f (qscale (zq d) (qgram M))) by (intros f; now rewrite E).
  pose proof (E' q11) as E11. pose proof (E' q12) as E12. pose proof (E' q13) as E13.
  pose proof (E' q21) as E21. pose proof (E' q22) as E22. pose proof (E' q23) as E23.
  pose proof (E' q31) as E31. pose proof (E' q32) as E32. pose proof (E' q33) as E33.
  clear E'. unfold qof, qscale in *. cbn [q11 q12 q13 q21 q22 q23 q31 q32 q33] in *.
  split.
  - unfold zsym. unfold qgram, qmul, qtr in *. cbn [q11 q12 q13 q21 q22 q23 q31 q32 q33] in *.
    split; [|split]; apply zq_inj.
    + rewrite E21, E12. ring.
    + rewrite E31, E13. ring.
    + rewrite E32, E23. ring.
  - intros v Hv. apply zq_lt. rewrite !zq_add, !zq_mul.
    rewrite E11, E22, E33, E12, E13, E23.
    assert (P : 0 < norm2 (qmvec M (qvof v))).
    { apply norm2_pos. intros Z0. apply Hv. apply qvof_inj. apply (qmvec_inj M _ _ HM).
      rewrite Z0. unfold qvof, qmvec. cbn [v1 v2 v3]. rewrite zq_0. qcbn. f_equal; ring. }
    replace (_ + _ + _) with (norm2 (qmvec M (qvof v)) * zq d).
    + replace (zq 0) with (0 * zq d) by (rewrite zq_0; ring). apply Qcmult_lt_compat_r; [|exact P].
      rewrite <- zq_0. now apply zq_lt.
    + replace (zq 2) with (1 + 1) by reflexivity.
      unfold norm2, qmvec, qvof, qgram, qmul, qtr. qcbn. ring.
Qed.

Lemma iter_shift {A} (f : A -> A) n x : Nat.iter (S n) f x = Nat.iter n f (f x).
Proof.
  induction n as [|n IH]; [reflexivity|].
  change (f (Nat.iter (S n) f x) = f (Nat.iter n f (f x))). now rewrite IH.
Qed.

(** ** Every unfinished pass makes progress *)
Section progress.
  Variables (d : Z) (orig : qmat) (G : mat3).
  Hypothesis Hd : (0 < d)%Z.
  Hypothesis HO : qdet orig <> 0.
  Hypothesis HG : qscale (zq d) (qgram orig) = qof G.

  Definition KK (st : mat3 * params) : mat3 := cong (fst st) G.

  Lemma good_reps st : good 0 orig st -> reps d (snd st) (KK st).
  Proof. intros (_ & ->). now apply get_params_reps. Qed.

  Lemma good_zpos st : good 0 orig st -> zpos (KK st).
  Proof.
    intros (HD & _). apply (gram_zpos d (qmul orig (qof (fst st)))); [exact Hd| |].
    - rewrite qdet_mul, qof_det, HD. apply Qc_mul_neq0; [exact HO|]. rewrite zq_1. discriminate.
    - unfold KK, cong. rewrite !qof_mul, qof_tr, <- HG.
      unfold qgram. rewrite qtr_mul. generalize (qof (fst st)). intros c.
      unfold qscale, qmul, qtr. qcbn. f_equal; ring.
  Qed.

  Lemma KK_upd C M : KK (upd 0 orig C M) = cong M (cong C G).
  Proof. unfold KK, upd. cbn [fst]. apply cong_mul. Qed.

  Lemma prog_stage1 st : good 0 orig st ->
    let s := stage1 0 orig st in
    (zA (KK (fst s)) <= zB (KK (fst s)))%Z /\
    ((snd s = true /\ fst s = st) \/ (snd s = false /\ better (KK (fst s)) (KK st))).
  Proof.
    intros H. pose proof (good_reps st H) as HR. pose proof (good_zpos st H) as (HS & _).
    unfold stage1. rewrite (r_cond1 d _ _ Hd HR).
    destruct (zcond1 (KK st)) eqn:E; cbv zeta; cbn [fst snd].
    - rewrite KK_upd. destruct (z_step1 _ HS E) as (B1 & B2). split; [exact B2|]. right. auto.
    - split; [now apply z_step1_no|]. left. auto.
  Qed.

  Lemma prog_stage3 s : good 0 orig (fst s) ->
    cond3 (snd (fst s)) = true ->
    let s' := stage3 0 orig s in
    same (KK (fst s')) (KK (fst s)) /\ zA (KK (fst s')) = zA (KK (fst s)) /\
    zB (KK (fst s')) = zB (KK (fst s)) /\ znormal (KK (fst s')) /\
    ((snd s' = snd s /\ znormal (KK (fst s))) \/ (snd s' = false /\ ~ znormal (KK (fst s)))).
  Proof.
    intros H C. pose proof (good_reps _ H) as HR. pose proof (good_zpos _ H) as (HS & _).
    destruct HR as (_ & _ & _ & _ & _ & _ & Rl & Rm & Rn).
    unfold stage3. cbv zeta. rewrite C. cbn [fst snd]. unfold cond3 in C.
    rewrite Rl, Rm, Rn in *. rewrite KK_upd. fold (KK (fst s)).
    destruct (z_C3 _ HS C) as (i & j & k & EM & HM & HN & HI).
    destruct (z_diag _ i j k HS HM) as (D1 & D2 & D3). rewrite <- EM in D1, D2, D3.
    refine (conj D1 (conj D2 (conj D3 (conj HN _)))).
    destruct (meqb _ _) eqn:E.
    - left. split; [reflexivity|]. apply HI. now apply meqb_eq.
    - right. split; [reflexivity|]. intros N. apply HI in N. apply meqb_eq in N. congruence.
  Qed.

  Lemma prog_stage4 s : good 0 orig (fst s) ->
    cond4 (snd (fst s)) = true ->
    let s' := stage4 0 orig s in
    same (KK (fst s')) (KK (fst s)) /\ zA (KK (fst s')) = zA (KK (fst s)) /\
    zB (KK (fst s')) = zB (KK (fst s)) /\ znormal (KK (fst s')) /\
    ((snd s' = snd s /\ znormal (KK (fst s))) \/ (snd s' = false /\ ~ znormal (KK (fst s)))).
  Proof.
    intros H C. pose proof (good_reps _ H) as HR. pose proof (good_zpos _ H) as (HS & _).
    destruct HR as (_ & _ & _ & _ & _ & _ & Rl & Rm & Rn).
    unfold stage4. cbv zeta. rewrite C. cbn [fst snd]. unfold cond4 in C.
    rewrite Rl, Rm, Rn in *. rewrite KK_upd. fold (KK (fst s)).
    destruct (z_C4 _ HS C) as (i & j & k & EM & HM & HN & HI).
    destruct (z_diag _ i j k HS HM) as (D1 & D2 & D3). rewrite <- EM in D1, D2, D3.
    refine (conj D1 (conj D2 (conj D3 (conj HN _)))).
    destruct (meqb _ _) eqn:E.
    - left. split; [reflexivity|]. apply HI. now apply meqb_eq.
    - right. split; [reflexivity|]. intros N. apply HI in N. apply meqb_eq in N. congruence.
  Qed.

  Lemma prog_stage34 s : good 0 orig (fst s) ->
    let s' := stage4 0 orig (stage3 0 orig s) in
    same (KK (fst s')) (KK (fst s)) /\ zA (KK (fst s')) = zA (KK (fst s)) /\
    zB (KK (fst s')) = zB (KK (fst s)) /\ znormal (KK (fst s')) /\
    ((snd s' = snd s /\ znormal (KK (fst s))) \/ (snd s' = false /\ ~ znormal (KK (fst s)))).
  Proof.
    intros H. cbv zeta. pose proof (good_stage3 0 orig s H) as H3.
    destruct (cond34 0 orig (fst s) H) as [(C3 & _)|(C3 & C4)].
    - destruct (prog_stage3 s H C3) as (S3 & A3 & B3 & N3 & F3). cbv zeta in *.
      destruct (cond4 (snd (fst (stage3 0 orig s)))) eqn:C4.
      + destruct (prog_stage4 (stage3 0 orig s) H3 C4) as (S4 & A4 & B4 & N4 & F4). cbv zeta in *.
        refine (conj (same_trans _ _ _ S4 S3) (conj _ (conj _ (conj N4 _)))); [congruence|congruence|].
        destruct F4 as [(F4 & _)|(_ & F4)]; [|contradiction]. rewrite F4. exact F3.
      + assert (E : stage4 0 orig (stage3 0 orig s) = stage3 0 orig s).
        { unfold stage4. cbv zeta. now rewrite C4. }
        rewrite E. auto.
    - assert (E : stage3 0 orig s = s) by (unfold stage3; cbv zeta; now rewrite C3).
      rewrite E. now apply prog_stage4.
  Qed.

  Lemma prog_stage58 s : good 0 orig (fst s) -> znormal (KK (fst s)) ->
    (zA (KK (fst s)) <= zB (KK (fst s)))%Z ->
    let s' := stage58 0 orig s in
    s' = s \/ better (KK (fst s')) (KK (fst s)).
  Proof.
    intros H HN HAB. pose proof (good_reps _ H) as HR. pose proof (good_zpos _ H) as HP.
    destruct (zpos_bounds _ HP) as (PA & PB & _). destruct HP as (HS & _).
    unfold stage58. cbv zeta.
    rewrite (r_cond5 d _ _ Hd HR), (r_cond6 d _ _ Hd HR), (r_cond7 d _ _ Hd HR), (r_cond8 d _ _ Hd HR).
    destruct HR as (_ & _ & _ & RX & RE & RZ & _).
    unfold step5, step6, step7.
    rewrite (rep_sign d _ _ Hd RX), (rep_sign d _ _ Hd RE), (rep_sign d _ _ Hd RZ).
    fold (zstep5 (KK (fst s))). fold (zstep6 (KK (fst s))). fold (zstep7 (KK (fst s))).
    destruct (zcond5 _) eqn:C5; cbn [fst snd].
    { right. rewrite KK_upd. fold (KK (fst s)). now apply z_step5. }
    destruct (zcond6 _) eqn:C6; cbn [fst snd].
    { right. rewrite KK_upd. fold (KK (fst s)). now apply z_step6. }
    destruct (zcond7 _) eqn:C7; cbn [fst snd].
    { right. rewrite KK_upd. fold (KK (fst s)). now apply z_step7. }
    destruct (zcond8 _) eqn:C8; cbn [fst snd].
    { right. rewrite KK_upd. fold (KK (fst s)). now apply z_step8. }
    now left.
  Qed.

  Lemma pass_progress st : good 0 orig st -> snd (pass 0 orig st) = false ->
    let K' := KK (fst (pass 0 orig st)) in
    better K' (KK st) \/ (same K' (KK st) /\ znormal K' /\ ~ znormal (KK st)).
  Proof.
    intros H. rewrite pass_stages. cbv zeta.
    pose proof (good_stage1 0 orig st H) as H1.
    destruct (prog_stage1 st H) as (AB & F1). cbv zeta in AB, F1.
    set (s1 := stage1 0 orig st) in *.
    destruct (cond2 0 (snd (fst s1))) eqn:C2; cbn [fst snd].
    - intros _. left. rewrite KK_upd. fold (KK (fst s1)).
      rewrite (r_cond2 d _ _ Hd (good_reps _ H1)) in C2.
      pose proof (z_step2 _ (proj1 (good_zpos _ H1)) C2) as B.
      destruct F1 as [(_ & E)|(_ & B1)].
      + rewrite E in *. exact B.
      + exact (better_trans _ _ _ B B1).
    - pose proof (good_stage4 0 orig _ (good_stage3 0 orig s1 H1)) as H4.
      destruct (prog_stage34 s1 H1) as (S & A4 & B4 & N & F). cbv zeta in S, A4, B4, N, F.
      set (s4 := stage4 0 orig (stage3 0 orig s1)) in *.
      rewrite <- A4, <- B4 in AB.
      destruct (prog_stage58 s4 H4 N AB) as [E|B]; cbv zeta in *.
      + rewrite E. intros HF. destruct F1 as [(T & E1)|(_ & B1)].
        * rewrite E1 in *. right. split; [exact S|]. split; [exact N|].
          destruct F as [(F & _)|(_ & F)]; [congruence|exact F].
        * left. exact (same_better _ _ _ S B1).
      + intros _. left. pose proof (better_same _ _ _ B S) as B'.
        destruct F1 as [(_ & E1)|(_ & B1)].
        * rewrite E1 in *. exact B'.
        * exact (better_trans _ _ _ B' B1).
  Qed.

  Lemma better_S K' K : better K' K -> (mS K' <= mS K)%Z.
  Proof. unfold better. lia. Qed.

  Definition run (n : nat) (st : mat3 * params) : mat3 * params :=
    Nat.iter n (fun st => fst (pass 0 orig st)) st.

  Lemma terminates_aux : forall m N st, good 0 orig st -> (mS (KK st) <= N)%Z ->
    (mu N (KK st) < Z.of_nat m)%Z ->
    exists n, snd (pass 0 orig (run n st)) = true.
  Proof.
    induction m as [|m IH]; intros N st H HS Hm.
    - pose proof (mu_nonneg N _ (good_zpos st H) HS). lia.
    - destruct (snd (pass 0 orig st)) eqn:E.
      + exists O. exact E.
      + pose proof (pass_progress st H E) as P. cbv zeta in P.
        pose proof (good_pass 0 orig st H) as H'.
        assert (HS' : (mS (KK (fst (pass 0 orig st))) <= N)%Z).
        { destruct P as [P|(P & _)]; [apply better_S in P|destruct P as (P & _)]; lia. }
        assert (L : (mu N (KK (fst (pass 0 orig st))) < mu N (KK st))%Z).
        { destruct P as [P|(P1 & P2 & P3)].
          - apply mu_better; auto using good_zpos.
          - now apply mu_flag. }
        destruct (IH N _ H' HS') as (n & Hn); [lia|].
        exists (S n). unfold run in *. rewrite iter_shift. exact Hn.
  Qed.
End progress.

(** The state after [n] passes of the loop body, ignoring the limit of 1000. *)
Definition after (eps : Qc) (orig : qmat) (n : nat) : mat3 * params :=
  Nat.iter n (fun st => fst (pass eps orig st)) (mid, get_params eps orig mid).

Theorem passes_finite orig : qdet orig <> 0 ->
  exists n, snd (pass 0 orig (after 0 orig n)) = true.
Proof.
  intros HO. destruct (clear_denoms (qgram orig)) as (d & G & Hd & HG).
  set (st := (mid, get_params 0 orig mid)).
  pose proof (good_init 0 orig) as H. fold st in H.
  destruct (terminates_aux d orig G Hd HO HG
              (S (Z.to_nat (mu (mS (KK G st)) (KK G st)))) (mS (KK G st)) st H) as (n & Hn).
  - lia.
  - pose proof (mu_nonneg (mS (KK G st)) (KK G st) (good_zpos d orig G Hd HO HG st H)). lia.
  - exists n. exact Hn.
Qed.
