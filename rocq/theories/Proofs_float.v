(** The Python enumerators with floating point numbers. *)
From Coq Require Import ZArith QArith Qabs Lqa List Bool Lia.
From Verif Require Import Mat3 Spec PyNum PyNumFacts Model_diag Model_hx Model_rhom Model_stet Model_body_tet
  Model_sm Model_base_mono Model_base_ortho Model_body_ortho Model_face_ortho Model_float Spec_float Proofs_ortho
  Model_sc Model_bcc Model_fcc Model_universal Bases Proofs_supercells.
Import ListNotations.
Open Scope Z_scope.

Lemma iz_le x y : x <= y -> (inject_Z x <= inject_Z y)%Q.
Proof. intros H. rewrite <- Zle_Qle. exact H. Qed.
Lemma le_iz x y : (inject_Z x <= inject_Z y)%Q -> x <= y.
Proof. intros H. rewrite <- Zle_Qle in H. exact H. Qed.
Lemma iz_abs z : (Qabs (inject_Z z) == inject_Z (Z.abs z))%Q.
Proof. unfold Qabs, inject_Z. reflexivity. Qed.
Lemma iz_add x y : (inject_Z (x + y) == inject_Z x + inject_Z y)%Q.
Proof. rewrite inject_Z_plus. reflexivity. Qed.
Lemma iz_mul x y : (inject_Z (x * y) == inject_Z x * inject_Z y)%Q.
Proof. rewrite inject_Z_mult. reflexivity. Qed.

(** The exact value. *)
Fixpoint ex (e : fexp) : Q :=
  match e with
  | FZ z => inject_Z z
  | FAdd x y => ex x + ex y
  | FSub x y => ex x - ex y
  | FMul x y => ex x * ex y
  | FDiv x y => ex x / ex y
  end%Q.

(** [bd e m t]: the value is at most [m] and the error at most [t / 2^53]. *)
Inductive bd : fexp -> Z -> Z -> Prop :=
  | bd_Z z m : Z.abs z <= m -> m <= 2 ^ 53 -> bd (FZ z) m 0
  | bd_add x y m1 t1 m2 t2 : bd x m1 t1 -> bd y m2 t2 -> t1 + t2 <= 2 ^ 53 -> m1 + m2 + 1 <= 2 ^ 200 ->
      bd (FAdd x y) (m1 + m2) (t1 + t2 + m1 + m2 + 2)
  | bd_sub x y m1 t1 m2 t2 : bd x m1 t1 -> bd y m2 t2 -> t1 + t2 <= 2 ^ 53 -> m1 + m2 + 1 <= 2 ^ 200 ->
      bd (FSub x y) (m1 + m2) (t1 + t2 + m1 + m2 + 2)
  | bd_mul z x k m t : Z.abs z <= k -> 1 <= k <= 2 ^ 53 -> bd x m t -> t <= 2 ^ 53 -> k * m + k <= 2 ^ 200 ->
      bd (FMul (FZ z) x) (k * m) (k * t + k * m + k + 1)
  | bd_mulr z x k m t : Z.abs z <= k -> 1 <= k <= 2 ^ 53 -> bd x m t -> t <= 2 ^ 53 -> k * m + k <= 2 ^ 200 ->
      bd (FMul x (FZ z)) (k * m) (k * t + k * m + k + 1)
  | bd_div x q m t : 1 <= q <= 2 ^ 53 -> bd x m t -> t <= 2 ^ 53 -> m + 1 <= 2 ^ 200 ->
      bd (FDiv x (FZ q)) m (t + m + 2).

Definition U : Q := inject_Z (2 ^ 53).
Lemma U_pos : (0 < U)%Q. Proof. reflexivity. Qed.
Lemma big_200 : (inject_Z (2 ^ 200) <= inject_Z (2 ^ 900))%Q.
Proof. apply iz_le. apply Z.pow_le_mono_r; lia. Qed.

Section rounding.
Context (rnd : Q -> Q) (R : like_double rnd).
Local Notation rd := (eval_round rnd).

Lemma rnd_proper x y : (x == y)%Q -> (rnd x == rnd y)%Q.
Proof. apply R. Qed.
Lemma rnd_int z : Z.abs z <= 2 ^ 53 -> (rnd (inject_Z z) == inject_Z z)%Q.
Proof. apply R. Qed.
(** One rounded operation: [x] is the exact result of the operation on the stored numbers, [v] the true value. *)
Lemma rnd_step x v m s : (Qabs v <= m)%Q -> (Qabs (x - v) * U <= s)%Q -> (s <= U)%Q -> (m + 1 <= inject_Z (2 ^ 200))%Q ->
  (Qabs (rnd x - v) * U <= s + m + 2)%Q.
Proof.
  intros Hv Hx Hs Hm.
  assert (H1 : (Qabs (x - v) <= 1)%Q).
  { apply (Qmult_le_r _ _ U U_pos). rewrite Qmult_1_l. lra. }
  assert (H2 : (Qabs x <= m + 1)%Q).
  { assert (E : (x == v + (x - v))%Q) by ring. rewrite E. pose proof (Qabs_triangle v (x - v)). lra. }
  destruct R as (_ & _ & R3). specialize (R3 x). fold U in R3.
  assert (H3 : (Qabs (rnd x - x) * U <= Qabs x + 1)%Q) by (apply R3; pose proof big_200; lra).
  assert (E : (rnd x - v == (rnd x - x) + (x - v))%Q) by ring.
  assert (H4 : (Qabs (rnd x - v) <= Qabs (rnd x - x) + Qabs (x - v))%Q) by (rewrite E; apply Qabs_triangle).
  assert (H5 : (Qabs (rnd x - v) * U <= (Qabs (rnd x - x) + Qabs (x - v)) * U)%Q).
  { apply Qmult_le_compat_r; [exact H4|]. pose proof U_pos; lra. }
  lra.
Qed.
Lemma abs_mul_z z q k : Z.abs z <= k -> (Qabs (inject_Z z * q) <= inject_Z k * Qabs q)%Q.
Proof.
  intros H. rewrite Qabs_Qmult, iz_abs. apply Qmult_le_compat_r; [now apply iz_le|apply Qabs_nonneg].
Qed.
Lemma abs_div_z q x : 1 <= q -> (Qabs (x / inject_Z q) <= Qabs x)%Q.
Proof.
  intros H. unfold Qdiv. rewrite Qabs_Qmult.
  assert (E : (Qabs (/ inject_Z q) <= 1)%Q).
  { destruct q as [|p|p]; try lia. unfold Qabs, Qinv, inject_Z. cbn. unfold Qle. cbn. lia. }
  pose proof (Qabs_nonneg x). setoid_replace (Qabs x) with (1 * Qabs x)%Q at 2 by ring.
  rewrite Qmult_comm. apply Qmult_le_compat_r; assumption.
Qed.
Lemma bd_nonneg e m t : bd e m t -> 0 <= m /\ 0 <= t.
Proof. induction 1; lia || nia. Qed.
Lemma bd_sound e m t : bd e m t ->
  (Qabs (ex e) <= inject_Z m)%Q /\ (Qabs (rd e - ex e) * U <= inject_Z t)%Q.
Proof.
  induction 1 as [z m Hz Hm|x y m1 t1 m2 t2 B1 IH1 B2 IH2 Ht Hm|x y m1 t1 m2 t2 B1 IH1 B2 IH2 Ht Hm
    |z x k m t Hz Hk B1 IH1 Ht Hm|z x k m t Hz Hk B1 IH1 Ht Hm|x q m t Hq B1 IH1 Ht Hm]; cbn [ex eval_round].
  - split; [rewrite iz_abs; now apply iz_le|]. rewrite rnd_int by lia.
    setoid_replace (inject_Z z - inject_Z z)%Q with 0%Q by ring. apply Qle_refl.
  - destruct IH1 as (V1 & E1), IH2 as (V2 & E2). apply iz_le in Ht, Hm. change (inject_Z (2 ^ 53)) with U in Ht.
    rewrite !iz_add in *. change (inject_Z 1) with 1%Q in *. change (inject_Z 2) with 2%Q.
    assert (V : (Qabs (ex x + ex y) <= inject_Z m1 + inject_Z m2)%Q) by (pose proof (Qabs_triangle (ex x) (ex y)); lra).
    split; [exact V|].
    assert (S : (Qabs (rd x + rd y - (ex x + ex y)) * U <= inject_Z t1 + inject_Z t2)%Q).
    { setoid_replace (rd x + rd y - (ex x + ex y))%Q with ((rd x - ex x) + (rd y - ex y))%Q by ring.
      pose proof (Qabs_triangle (rd x - ex x) (rd y - ex y)) as Tr.
      apply (Qmult_le_compat_r _ _ U) in Tr; [|pose proof U_pos; lra]. lra. }
    pose proof (rnd_step _ _ _ _ V S Ht Hm). lra.
  - destruct IH1 as (V1 & E1), IH2 as (V2 & E2). apply iz_le in Ht, Hm. change (inject_Z (2 ^ 53)) with U in Ht.
    rewrite !iz_add in *. change (inject_Z 1) with 1%Q in *. change (inject_Z 2) with 2%Q.
    assert (V : (Qabs (ex x - ex y) <= inject_Z m1 + inject_Z m2)%Q).
    { pose proof (Qabs_triangle (ex x) (- ex y)) as Tr. rewrite Qabs_opp in Tr. unfold Qminus. lra. }
    split; [exact V|].
    assert (S : (Qabs (rd x - rd y - (ex x - ex y)) * U <= inject_Z t1 + inject_Z t2)%Q).
    { setoid_replace (rd x - rd y - (ex x - ex y))%Q with ((rd x - ex x) + - (rd y - ex y))%Q by ring.
      pose proof (Qabs_triangle (rd x - ex x) (- (rd y - ex y))) as Tr. rewrite Qabs_opp in Tr.
      apply (Qmult_le_compat_r _ _ U) in Tr; [|pose proof U_pos; lra]. lra. }
    pose proof (rnd_step _ _ _ _ V S Ht Hm). lra.
  - destruct IH1 as (V1 & E1).
    assert (Kn : (0 <= inject_Z k)%Q) by (apply (iz_le 0); lia).
    assert (V : (Qabs (inject_Z z * ex x) <= inject_Z k * inject_Z m)%Q).
    { eapply Qle_trans; [apply abs_mul_z, Hz|]. rewrite !(Qmult_comm (inject_Z k)). apply Qmult_le_compat_r; assumption. }
    split; [rewrite iz_mul; exact V|].
    assert (Ez : (rnd (inject_Z z) == inject_Z z)%Q) by (apply rnd_int; lia).
    assert (D : (Qabs (rd x - ex x) <= 1)%Q).
    { apply (Qmult_le_r _ _ U U_pos). rewrite Qmult_1_l. eapply Qle_trans; [exact E1|]. now apply iz_le. }
    set (y := (rnd (inject_Z z) * rd x)%Q).
    assert (Ey : (y - inject_Z z * ex x == inject_Z z * (rd x - ex x))%Q) by (unfold y; rewrite Ez; ring).
    assert (S : (Qabs (y - inject_Z z * ex x) * U <= inject_Z (k * t))%Q).
    { rewrite Ey, iz_mul. eapply Qle_trans; [apply Qmult_le_compat_r; [apply abs_mul_z, Hz|pose proof U_pos; lra]|].
      rewrite <- Qmult_assoc, !(Qmult_comm (inject_Z k)). apply Qmult_le_compat_r; assumption. }
    assert (S1 : (Qabs (y - inject_Z z * ex x) <= inject_Z k)%Q).
    { rewrite Ey. eapply Qle_trans; [apply abs_mul_z, Hz|]. setoid_replace (inject_Z k) with (1 * inject_Z k)%Q at 2 by ring.
      rewrite Qmult_comm. apply Qmult_le_compat_r; assumption. }
    assert (Y : (Qabs y <= inject_Z (k * m + k))%Q).
    { setoid_replace y with (inject_Z z * ex x + (y - inject_Z z * ex x))%Q by ring.
      eapply Qle_trans; [apply Qabs_triangle|]. rewrite iz_add, iz_mul. lra. }
    destruct R as (_ & _ & R3). specialize (R3 y). fold U in R3.
    assert (H3 : (Qabs (rnd y - y) * U <= Qabs y + 1)%Q).
    { apply R3. eapply Qle_trans; [exact Y|]. eapply Qle_trans; [apply iz_le, Hm|apply big_200]. }
    assert (H5 : (Qabs (rnd y - inject_Z z * ex x) * U <= (Qabs (rnd y - y) + Qabs (y - inject_Z z * ex x)) * U)%Q).
    { apply Qmult_le_compat_r; [|pose proof U_pos; lra].
      setoid_replace (rnd y - inject_Z z * ex x)%Q with ((rnd y - y) + (y - inject_Z z * ex x))%Q by ring. apply Qabs_triangle. }
    replace (k * t + k * m + k + 1) with (k * t + (k * m + k) + 1) by ring. rewrite (iz_add (k * t + (k * m + k)) 1), (iz_add (k * t)).
    change (inject_Z 1) with 1%Q. lra.
  - destruct IH1 as (V1 & E1).
    assert (Kn : (0 <= inject_Z k)%Q) by (apply (iz_le 0); lia).
    assert (V : (Qabs (inject_Z z * ex x) <= inject_Z k * inject_Z m)%Q).
    { eapply Qle_trans; [apply abs_mul_z, Hz|]. rewrite !(Qmult_comm (inject_Z k)). apply Qmult_le_compat_r; assumption. }
    rewrite (Qmult_comm (ex x)).
    split; [rewrite iz_mul; exact V|].
    assert (Ez : (rnd (inject_Z z) == inject_Z z)%Q) by (apply rnd_int; lia).
    assert (D : (Qabs (rd x - ex x) <= 1)%Q).
    { apply (Qmult_le_r _ _ U U_pos). rewrite Qmult_1_l. eapply Qle_trans; [exact E1|]. now apply iz_le. }
    set (y := (rd x * rnd (inject_Z z))%Q).
    assert (Ey : (y - inject_Z z * ex x == inject_Z z * (rd x - ex x))%Q) by (unfold y; rewrite Ez; ring).
    assert (S : (Qabs (y - inject_Z z * ex x) * U <= inject_Z (k * t))%Q).
    { rewrite Ey, iz_mul. eapply Qle_trans; [apply Qmult_le_compat_r; [apply abs_mul_z, Hz|pose proof U_pos; lra]|].
      rewrite <- Qmult_assoc, !(Qmult_comm (inject_Z k)). apply Qmult_le_compat_r; assumption. }
    assert (S1 : (Qabs (y - inject_Z z * ex x) <= inject_Z k)%Q).
    { rewrite Ey. eapply Qle_trans; [apply abs_mul_z, Hz|]. setoid_replace (inject_Z k) with (1 * inject_Z k)%Q at 2 by ring.
      rewrite Qmult_comm. apply Qmult_le_compat_r; assumption. }
    assert (Y : (Qabs y <= inject_Z (k * m + k))%Q).
    { setoid_replace y with (inject_Z z * ex x + (y - inject_Z z * ex x))%Q by ring.
      eapply Qle_trans; [apply Qabs_triangle|]. rewrite iz_add, iz_mul. lra. }
    destruct R as (_ & _ & R3). specialize (R3 y). fold U in R3.
    assert (H3 : (Qabs (rnd y - y) * U <= Qabs y + 1)%Q).
    { apply R3. eapply Qle_trans; [exact Y|]. eapply Qle_trans; [apply iz_le, Hm|apply big_200]. }
    assert (H5 : (Qabs (rnd y - inject_Z z * ex x) * U <= (Qabs (rnd y - y) + Qabs (y - inject_Z z * ex x)) * U)%Q).
    { apply Qmult_le_compat_r; [|pose proof U_pos; lra].
      setoid_replace (rnd y - inject_Z z * ex x)%Q with ((rnd y - y) + (y - inject_Z z * ex x))%Q by ring. apply Qabs_triangle. }
    replace (k * t + k * m + k + 1) with (k * t + (k * m + k) + 1) by ring. rewrite (iz_add (k * t + (k * m + k)) 1), (iz_add (k * t)).
    change (inject_Z 1) with 1%Q. lra.
  - destruct IH1 as (V1 & E1). apply iz_le in Ht, Hm. change (inject_Z (2 ^ 53)) with U in Ht.
    rewrite !iz_add in *. change (inject_Z 1) with 1%Q in *. change (inject_Z 2) with 2%Q.
    assert (V : (Qabs (ex x / inject_Z q) <= inject_Z m)%Q) by (eapply Qle_trans; [apply abs_div_z; lia|exact V1]).
    split; [exact V|].
    assert (Eq : (rnd (inject_Z q) == inject_Z q)%Q) by (apply rnd_int; lia).
    set (y := (rd x / rnd (inject_Z q))%Q).
    assert (Ey : (y - ex x / inject_Z q == (rd x - ex x) / inject_Z q)%Q).
    { unfold y. rewrite Eq. unfold Qdiv. ring. }
    assert (S : (Qabs (y - ex x / inject_Z q) * U <= inject_Z t)%Q).
    { rewrite Ey. eapply Qle_trans; [apply Qmult_le_compat_r; [apply abs_div_z; lia|pose proof U_pos; lra]|exact E1]. }
    pose proof (rnd_step _ _ _ _ V S Ht Hm). lra.
Qed.

(** Every part is an integer. *)
Inductive iv : fexp -> Z -> Prop :=
  | iv_Z z : iv (FZ z) z
  | iv_add x y p q : iv x p -> iv y q -> iv (FAdd x y) (p + q)
  | iv_sub x y p q : iv x p -> iv y q -> iv (FSub x y) (p - q)
  | iv_mul x y p q : iv x p -> iv y q -> iv (FMul x y) (p * q)
  | iv_div x p q k : iv x p -> p = k * q -> q <> 0 -> iv (FDiv x (FZ q)) k.
Lemma div_int p q k : p = k * q -> q <> 0 -> (inject_Z p / inject_Z q == inject_Z k)%Q.
Proof.
  intros -> Hq. rewrite iz_mul. field. change 0%Q with (inject_Z 0). rewrite inject_Z_injective. exact Hq.
Qed.
Lemma iv_ex e z : iv e z -> (ex e == inject_Z z)%Q.
Proof.
  induction 1 as [z|x y p q _ IH1 _ IH2|x y p q _ IH1 _ IH2|x y p q _ IH1 _ IH2|x p q k _ IH1 E Hq]; cbn [ex].
  - reflexivity.
  - rewrite IH1, IH2, iz_add. reflexivity.
  - rewrite IH1, IH2. unfold Z.sub. rewrite iz_add, inject_Z_opp. reflexivity.
  - rewrite IH1, IH2, iz_mul. reflexivity.
  - rewrite IH1. now apply div_int.
Qed.
Lemma iv_small e m t z : bd e m t -> iv e z -> Z.abs z <= m.
Proof.
  intros B I. apply bd_sound in B. destruct B as (V & _). rewrite (iv_ex e z I), iz_abs in V. now apply le_iz.
Qed.
Lemma iv_exact e m t : bd e m t -> m <= 2 ^ 53 -> forall z, iv e z -> (rd e == inject_Z z)%Q.
Proof.
  intros B. pose proof B as B0. induction B as [z m Hz Hm|x y m1 t1 m2 t2 B1 IH1 B2 IH2 Ht Hm|x y m1 t1 m2 t2 B1 IH1 B2 IH2 Ht Hm
    |z x k m t Hz Hk B1 IH1 Ht Hm|z x k m t Hz Hk B1 IH1 Ht Hm|x q m t Hq B1 IH1 Ht Hm]; intros Hs z' I;
    pose proof (iv_small _ _ _ _ B0 I) as Hz'; cbn [eval_round].
  - inversion I; subst. apply rnd_int. lia.
  - pose proof (bd_nonneg _ _ _ B1). pose proof (bd_nonneg _ _ _ B2). inversion I; subst.
    rewrite (rnd_proper _ (inject_Z (p + q))); [apply rnd_int; lia|]. rewrite (IH1 B1 ltac:(lia) p), (IH2 B2 ltac:(lia) q), iz_add by assumption. reflexivity.
  - pose proof (bd_nonneg _ _ _ B1). pose proof (bd_nonneg _ _ _ B2). inversion I; subst.
    rewrite (rnd_proper _ (inject_Z (p - q))); [apply rnd_int; lia|]. rewrite (IH1 B1 ltac:(lia) p), (IH2 B2 ltac:(lia) q) by assumption.
    unfold Z.sub. rewrite iz_add, inject_Z_opp. reflexivity.
  - pose proof (bd_nonneg _ _ _ B1). inversion I as [| | |? ? p q I1 I2|]; subst. inversion I1; subst.
    rewrite (rnd_proper _ (inject_Z (p * q))); [apply rnd_int; lia|].
    rewrite (IH1 B1 ltac:(nia) q I2), rnd_int, iz_mul by lia. reflexivity.
  - pose proof (bd_nonneg _ _ _ B1). inversion I as [| | |? ? p q I1 I2|]; subst. inversion I2; subst.
    rewrite (rnd_proper _ (inject_Z (p * q))); [apply rnd_int; lia|].
    rewrite (IH1 B1 ltac:(nia) p I1), rnd_int, iz_mul by lia. reflexivity.
  - inversion I as [| | | |? p ? k I1 E Hq0]; subst.
    rewrite (rnd_proper _ (inject_Z z')); [apply rnd_int; lia|].
    rewrite (IH1 B1 Hs _ I1), (rnd_int q) by lia. now apply div_int.
Qed.
(** The exact fraction of the model. *)
Lemma frac_ex e m t : bd e m t ->
  0 < fden (eval_exact e) /\ (ex e * inject_Z (fden (eval_exact e)) == inject_Z (fnum (eval_exact e)))%Q.
Proof.
  induction 1 as [z m Hz Hm|x y m1 t1 m2 t2 B1 IH1 B2 IH2 Ht Hm|x y m1 t1 m2 t2 B1 IH1 B2 IH2 Ht Hm
    |z x k m t Hz Hk B1 IH1 Ht Hm|z x k m t Hz Hk B1 IH1 Ht Hm|x q m t Hq B1 IH1 Ht Hm]; cbn [ex eval_exact fadd fsub fmul fdiv fz fnum fden].
  - split; [lia|]. change (inject_Z 1) with 1%Q. ring.
  - destruct IH1 as (P1 & E1), IH2 as (P2 & E2). split; [nia|]. rewrite iz_add, !iz_mul, <- E1, <- E2. ring.
  - destruct IH1 as (P1 & E1), IH2 as (P2 & E2). split; [nia|]. unfold Z.sub. rewrite iz_add, inject_Z_opp, !iz_mul, <- E1, <- E2. ring.
  - destruct IH1 as (P1 & E1). split; [nia|]. rewrite !iz_mul, <- E1. change (inject_Z 1) with 1%Q. ring.
  - destruct IH1 as (P1 & E1). split; [nia|]. rewrite !iz_mul, <- E1. change (inject_Z 1) with 1%Q. ring.
  - destruct IH1 as (P1 & E1). split; [nia|]. rewrite !iz_mul, <- E1. change (inject_Z 1) with 1%Q. field.
    change 0%Q with (inject_Z 0). rewrite inject_Z_injective. lia.
Qed.
Lemma multiple_q v f : 1 <= f -> (Qnum v mod (QDen v * f) =? 0) = true <-> exists k, (v == inject_Z (k * f))%Q.
Proof.
  intros Hf. rewrite Z.eqb_eq, Z.mod_divide by lia. destruct v as (p, q). cbn [Qnum Qden]. split.
  - intros (k & Hk). exists k. unfold Qeq, inject_Z. cbn. lia.
  - intros (k & Hk). exists k. unfold Qeq, inject_Z in Hk. cbn in Hk. lia.
Qed.
Lemma multiple_f e m t f : bd e m t -> 1 <= f -> test_exact e f = true <-> exists k, (ex e == inject_Z (k * f))%Q.
Proof.
  intros B Hf. destruct (frac_ex e m t B) as (P & E). unfold test_exact, fmod0.
  set (D := fden (eval_exact e)) in *. set (N := fnum (eval_exact e)) in *.
  assert (D0 : ~ (inject_Z D == 0)%Q) by (change 0%Q with (inject_Z 0); rewrite inject_Z_injective; lia).
  rewrite Z.eqb_eq, Z.mod_divide by nia. split; intros (k & Hk); exists k.
  - apply (Qmult_inj_r _ _ _ D0). rewrite E, Hk, !iz_mul. ring.
  - rewrite Hk in E. rewrite <- iz_mul in E. apply (proj1 (inject_Z_injective _ _)) in E. rewrite <- E. ring.
Qed.
(** The rounded test gives the exact answer. *)
Lemma test_agree e f m t : bd e m t -> m <= 2 ^ 53 -> 1 <= f -> t * fden (eval_exact e) < 2 ^ 53 ->
  (test_exact e f = true -> exists z, iv e z) -> test_round rnd e f = test_exact e f.
Proof.
  intros B Hm Hf Ht Hi. apply eq_true_iff_eq. unfold test_round. cbv zeta. rewrite (multiple_q _ f Hf). split.
  - intros (k & Hk). destruct (frac_ex e m t B) as (P & E). destruct (bd_sound e m t B) as (_ & Er).
    rewrite Hk in Er. set (D := fden (eval_exact e)) in *. set (N := fnum (eval_exact e)) in *.
    assert (G : Z.abs (k * f * D - N) * 2 ^ 53 <= t * D).
    { apply le_iz. rewrite !iz_mul, <- iz_abs. unfold Z.sub. rewrite iz_add, inject_Z_opp, <- E, !iz_mul. fold U.
      assert (Dp : (0 <= inject_Z D)%Q) by (apply (iz_le 0); lia).
      setoid_replace (inject_Z k * inject_Z f * inject_Z D + - (ex e * inject_Z D))%Q
        with ((inject_Z (k * f) - ex e) * inject_Z D)%Q by (rewrite iz_mul; ring).
      rewrite Qabs_Qmult, (Qabs_pos (inject_Z D)) by exact Dp.
      setoid_replace (Qabs (inject_Z (k * f) - ex e) * inject_Z D * U)%Q with
        (Qabs (inject_Z (k * f) - ex e) * U * inject_Z D)%Q by ring.
      apply Qmult_le_compat_r; assumption. }
    assert (Z0 : k * f * D - N = 0) by nia.
    apply (multiple_f e m t f B Hf). exists k.
    assert (D0 : ~ (inject_Z D == 0)%Q) by (change 0%Q with (inject_Z 0); rewrite inject_Z_injective; lia).
    apply (Qmult_inj_r _ _ _ D0). rewrite E, <- iz_mul. apply inject_Z_injective. lia.
  - intros H. destruct (Hi H) as (z & I). apply (multiple_f e m t f B Hf) in H. destruct H as (k & Hk). exists k.
    rewrite (iv_exact e m t B Hm z I), <- (iv_ex e z I). exact Hk.
Qed.

(** ** Which expressions have integer parts only *)
Definition I (e : fexp) : Prop := exists z, iv e z.
Definition ID (e : fexp) (q : Z) : Prop := exists z, iv e z /\ (q | z).
Lemma I_Z z : I (FZ z). Proof. exists z. constructor. Qed.
Lemma I_add x y : I x -> I y -> I (FAdd x y).
Proof. intros (p & P) (q & Q). exists (p + q). now constructor. Qed.
Lemma I_sub x y : I x -> I y -> I (FSub x y).
Proof. intros (p & P) (q & Q). exists (p - q). now constructor. Qed.
Lemma I_mul x y : I x -> I y -> I (FMul x y).
Proof. intros (p & P) (q & Q). exists (p * q). now constructor. Qed.
Lemma I_div x q : ID x q -> 1 <= q -> I (FDiv x (FZ q)).
Proof. intros (p & P & k & E) Hq. exists k. apply (iv_div x p q k P E). lia. Qed.
Lemma ID_Z z q : (q | z) -> ID (FZ z) q. Proof. intros H. exists z. split; [constructor|exact H]. Qed.
Lemma ID_I e q : ID e q -> I e. Proof. intros (z & H & _). now exists z. Qed.
Lemma ID_mul x y q : I x -> ID y q -> ID (FMul x y) q.
Proof. intros (p & P) (z & Z1 & Z2). exists (p * z). split; [now constructor|now apply Z.divide_mul_r]. Qed.
Lemma ID_mull x y q : ID x q -> I y -> ID (FMul x y) q.
Proof. intros (z & Z1 & Z2) (p & P). exists (z * p). split; [now constructor|now apply Z.divide_mul_l]. Qed.

(** One quotient: the test itself shows it. *)
Lemma one_quot p q f : 1 <= q -> 1 <= f -> test_exact (FDiv (FZ p) (FZ q)) f = true -> I (FDiv (FZ p) (FZ q)).
Proof.
  intros Hq Hf H. apply I_div; [|exact Hq]. apply ID_Z. unfold test_exact, fmod0 in H. cbn [eval_exact fdiv fz fnum fden] in H.
  apply Z.eqb_eq, Z.mod_divide in H; [|nia]. destruct H as (k & H). exists (k * f). lia.
Qed.
Lemma one_quot_add i p q f : 1 <= q -> 1 <= f -> test_exact (FAdd (FZ i) (FDiv (FZ p) (FZ q))) f = true ->
  I (FAdd (FZ i) (FDiv (FZ p) (FZ q))).
Proof.
  intros Hq Hf H. apply I_add; [apply I_Z|]. apply I_div; [|exact Hq]. apply ID_Z. unfold test_exact, fmod0 in H.
  cbn [eval_exact fdiv fadd fz fnum fden] in H.
  apply Z.eqb_eq, Z.mod_divide in H; [|nia]. destruct H as (k & H). exists (k * f - i). lia.
Qed.
Lemma one_quot_sub i p q f : 1 <= q -> 1 <= f -> test_exact (FSub (FZ i) (FDiv (FZ p) (FZ q))) f = true ->
  I (FSub (FZ i) (FDiv (FZ p) (FZ q))).
Proof.
  intros Hq Hf H. apply I_sub; [apply I_Z|]. apply I_div; [|exact Hq]. apply ID_Z. unfold test_exact, fmod0 in H.
  cbn [eval_exact fdiv fsub fz fnum fden] in H.
  apply Z.eqb_eq, Z.mod_divide in H; [|nia]. destruct H as (k & H). exists (i - k * f). lia.
Qed.
Lemma test_ID e f m t : bd e m t -> 1 <= f -> test_exact e f = true -> I e -> ID e f.
Proof.
  intros B Hf H (z & Hz). exists z. split; [exact Hz|]. apply (multiple_f e m t f B Hf) in H. destruct H as (k & H).
  rewrite (iv_ex e z Hz) in H. apply (proj1 (inject_Z_injective _ _)) in H. exists k. exact H.
Qed.

(** ** The loops *)
Lemma if_true {B} (c c' : bool) (x y : list B) : c = c' -> (c' = true -> x = y) -> py_if c x = py_if c' y.
Proof. intros ->. destruct c'; [|reflexivity]. intros H. cbn. now apply H. Qed.
Lemma and_true (a b a' b' : bool) : a = a' -> (a' = true -> b = b') -> a && b = a' && b'.
Proof. intros ->. destruct a'; [|reflexivity]. intros H. cbn. now apply H. Qed.
Lemma for_ext {A B} (l : list A) (f g : A -> list B) : (forall x, In x l -> f x = g x) -> py_for l f = py_for l g.
Proof.
  unfold py_for. induction l as [|x l IH]; intros H; [reflexivity|]. cbn. rewrite (H x (or_introl eq_refl)).
  f_equal. apply IH. intros y Hy. apply H. now right.
Qed.
Lemma mod0_div x y : 1 <= y -> mod0 x y = true -> (y | x).
Proof. intros Hy H. unfold mod0 in H. apply Z.eqb_eq in H. apply Z.mod_divide in H; [exact H|lia]. Qed.
Lemma diag_sizes n a c f : n <= 1000 -> 1 <= a -> 1 <= c -> 1 <= f -> a * c * f = n ->
  (a <= 1000 /\ c <= 1000 /\ f <= 1000) /\ 1 <= a * c <= 1000 /\ 1 <= a * f <= 1000 /\ 1 <= c * f <= 1000.
Proof. intros. assert (a * c <= n) by nia. assert (a * f <= n) by nia. assert (c * f <= n) by nia. nia. Qed.
Lemma root_small a c : 1 <= a -> 1 <= c -> 1 <= a * c <= 1000 -> (a | c) -> a <= 31.
Proof. intros Ha Hc H D. apply Z.divide_pos_le in D; [|lia]. nia. Qed.
Lemma prod_small x y : 0 <= x <= 1000 -> 0 <= y <= 1000 -> 0 <= x * y <= 1000000.
Proof. nia. Qed.
Lemma prod_pair x y c f m : 0 <= x <= c -> 0 <= y <= f -> 1 <= c * f <= m -> 0 <= x * y <= m.
Proof. intros. assert (x * y <= c * f) by (apply Z.mul_le_mono_nonneg; lia). nia. Qed.

Ltac numeral x := match x with Z0 => idtac | Zpos _ => idtac | Zneg _ => idtac end.
Ltac bprod x y :=
  lazymatch goal with
  | _ : 0 <= x * y <= _ |- _ => idtac
  | |- _ => first
      [ match goal with K : 1 <= ?p * ?q <= 1000 |- _ => assert (0 <= x * y <= 1000) by (apply (prod_pair x y p q); [lia|lia|exact K]) end
      | assert (0 <= x * y <= 1000000) by (apply prod_small; lia) ]
  end.
Ltac prods t :=
  lazymatch t with
  | (?u + ?v) * ?y => prods (u * y); prods (v * y)
  | (?u - ?v) * ?y => prods (u * y); prods (v * y)
  | (- ?u) * ?y => prods (u * y)
  | ?y * (?u + ?v) => prods (y * u); prods (y * v)
  | ?y * (?u - ?v) => prods (y * u); prods (y * v)
  | ?x * ?y => tryif (numeral x) then prods y else tryif (numeral y) then prods x else
      (prods x; prods y; (lazymatch x with ?k * ?z => (tryif (numeral k) then prods (z * y) else idtac) | _ => idtac end);
       (lazymatch y with ?k * ?z => (tryif (numeral k) then prods (x * z) else idtac) | _ => idtac end); try bprod x y)
  | ?x + ?y => prods x; prods y
  | ?x - ?y => prods x; prods y
  | - ?x => prods x
  | _ => idtac
  end.
Ltac atom := match goal with |- Z.abs ?t <= _ => prods t end; lia.
Ltac bdt :=
  lazymatch goal with
  | |- bd (FZ _) _ _ => apply (bd_Z _ 4000000); [atom|lia]
  | |- bd (FAdd _ _) _ _ => eapply bd_add; [bdt|bdt|lia|lia]
  | |- bd (FSub _ _) _ _ => eapply bd_sub; [bdt|bdt|lia|lia]
  | |- bd (FMul (FZ _) _) _ _ => eapply (bd_mul _ _ 1000); [atom|lia|bdt|lia|lia]
  | |- bd (FMul _ (FZ _)) _ _ => eapply (bd_mulr _ _ 1000); [atom|lia|bdt|lia|lia]
  | |- bd (FDiv _ (FZ _)) _ _ => eapply bd_div; [lia|bdt|lia|lia]
  end.
Ltac dv := solve [ assumption | auto using Z.divide_mul_l, Z.divide_mul_r, Z.divide_refl ].
Ltac it :=
  lazymatch goal with
  | |- I (FZ _) => apply I_Z
  | |- I (FAdd _ _) => apply I_add; it
  | |- I (FSub _ _) => apply I_sub; it
  | |- I (FMul _ _) => apply I_mul; it
  | |- I (FDiv _ (FZ _)) => apply I_div; [it|lia]
  | |- ID (FZ _) _ => apply ID_Z; dv
  | |- ID (FMul (FZ _) _) _ => apply ID_mul; [apply I_Z|it]
  | |- ID (FMul _ (FZ _)) _ => apply ID_mull; [it|apply I_Z]
  | |- ID _ _ => assumption
  end.
Ltac int1 := intros HT; try (lazymatch goal with |- exists z, iv ?e z => change (I e) end); first [ eapply one_quot; [| |exact HT]; lia | eapply one_quot_add; [| |exact HT]; lia
  | eapply one_quot_sub; [| |exact HT]; lia | it ].
Ltac den a c :=
  cbn [eval_exact fadd fsub fmul fdiv fz fnum fden];
  match goal with |- _ * ?D < _ =>
    assert (0 <= D <= 31000) by
      (first [ replace D with c by ring; lia | replace D with a by ring; lia | replace D with (a * c) by ring; lia
             | replace D with (a * a) by ring; nia | replace D with (a * (a * c)) by ring; nia ]); lia end.
Ltac tst a c := eapply test_agree; [bdt|lia|lia|den a c|int1].
Ltac facts :=
  repeat match goal with
  | H : _ && _ = true |- _ => apply andb_prop in H; destruct H
  | H : mod0 ?x ?y = true |- _ => apply mod0_div in H; [|nia]
  | H : test_exact ?e ?f = true |- _ =>
      let K := fresh "T" in
      assert (K : ID e f) by (eapply test_ID; [bdt|lia|exact H|generalize H; int1]); clear H
  end.
Ltac conds a c :=
  lazymatch goal with
  | |- ?x = ?x => reflexivity
  | |- _ && _ = _ && _ => let H := fresh in apply and_true; [conds a c|intros H; facts; conds a c]
  | |- test_round _ _ _ = test_exact _ _ => tst a c
  end.
Ltac roots a c f :=
  try match goal with
  | _ : a <= 31 |- _ => idtac
  | H : (a | c) |- _ => assert (a <= 31) by (apply (root_small a c); [lia|lia|lia|exact H])
  | H : (a | f) |- _ => assert (a <= 31) by (apply (root_small a f); [lia|lia|lia|exact H])
  end.
Ltac loops a c f :=
  roots a c f;
  lazymatch goal with
  | |- ?x = ?x => reflexivity
  | |- py_if _ _ = py_if _ _ => let H := fresh in apply if_true; [conds a c|intros H; facts; loops a c f]
  | |- py_for (halves _) _ = _ =>
      apply for_ext; let x := fresh "x" in let Hx := fresh in
      intros x Hx; apply in_halves in Hx; [|lia]; destruct Hx as (Hx & _); loops a c f
  | |- py_for (if _ then _ else _) _ = _ =>
      apply for_ext; let x := fresh "x" in let Hx := fresh in
      intros x Hx; apply in_halves_rev in Hx; apply in_halves in Hx; [|lia]; destruct Hx as (Hx & _); loops a c f
  | |- py_for (py_range 0 _ 1) _ = _ =>
      apply for_ext; let x := fresh "x" in let Hx := fresh in
      intros x Hx; apply in_range1 in Hx; loops a c f
  | |- py_for (py_range 0 _ _) _ = _ =>
      apply for_ext; let x := fresh "x" in let Hx := fresh in let Hd := fresh in
      intros x Hx; apply in_range_mult in Hx; [|lia]; destruct Hx as (Hx & Hd); loops a c f
  | |- _ => idtac
  end.
Ltac start m g :=
  intros Hn; change (g) with (m test_exact); unfold m; apply for_ext; intros [[a c] f] Hin; apply in_diagonals in Hin;
  destruct Hin as (Ha & Hc & Hf & Hp);
  destruct (diag_sizes _ a c f Hn Ha Hc Hf Hp) as ((La & Lc & Lf) & Fac & Faf & Fcf); clear Hp; cbv zeta;
  loops a c f.
Lemma hex_12_double n : n <= 1000 -> t_hex_12 (test_round rnd) n = hex_12 n.
Proof. start t_hex_12 hex_12. Qed.
Lemma hex_22_double n : n <= 1000 -> t_hex_22 (test_round rnd) n = hex_22 n.
Proof. start t_hex_22 hex_22. Qed.
Lemma rhom_9_24_double n : n <= 1000 -> t_rhom_9_24 (test_round rnd) n = rhom_9_24 n.
Proof. start t_rhom_9_24 rhom_9_24. Qed.
Lemma rhom_4_2_double n : n <= 1000 -> t_rhom_4_2 (test_round rnd) n = rhom_4_2 n.
Proof. start t_rhom_4_2 rhom_4_2. Qed.
Lemma stet_11_double n : n <= 1000 -> t_stet_11 (test_round rnd) n = stet_11 n.
Proof. start t_stet_11 stet_11. Qed.
Lemma stet_21_double n : n <= 1000 -> t_stet_21 (test_round rnd) n = stet_21 n.
Proof. start t_stet_21 stet_21. Qed.
Lemma body_tet_6_7_15_18_double n : n <= 1000 -> t_body_tet_6_7_15_18 (test_round rnd) n = body_tet_6_7_15_18 n.
Proof. start t_body_tet_6_7_15_18 body_tet_6_7_15_18. Qed.
Lemma sm_33_double n : n <= 1000 -> t_sm_33 (test_round rnd) n = sm_33 n.
Proof. start t_sm_33 sm_33. Qed.
Lemma base_mono_20_25_double n : n <= 1000 -> t_base_mono_20_25 (test_round rnd) n = base_mono_20_25 n.
Proof. start t_base_mono_20_25 base_mono_20_25. Qed.
Lemma base_mono_28_double n : n <= 1000 -> t_base_mono_28 (test_round rnd) n = base_mono_28 n.
Proof. start t_base_mono_28 base_mono_28. Qed.
Lemma base_mono_29_30_double n : n <= 1000 -> t_base_mono_29_30 (test_round rnd) n = base_mono_29_30 n.
Proof. start t_base_mono_29_30 base_mono_29_30. Qed.
Lemma base_mono_43_double n : n <= 1000 -> t_base_mono_43 (test_round rnd) n = base_mono_43 n.
Proof. start t_base_mono_43 base_mono_43. Qed.
Lemma base_ortho_38_13_double n : n <= 1000 -> t_base_ortho_38_13 (test_round rnd) n = base_ortho_38_13 n.
Proof. start t_base_ortho_38_13 base_ortho_38_13. Qed.
Lemma base_ortho_23_double n : n <= 1000 -> t_base_ortho_23 (test_round rnd) n = base_ortho_23 n.
Proof. start t_base_ortho_23 base_ortho_23. Qed.
Lemma base_ortho_40_double n : n <= 1000 -> t_base_ortho_40 (test_round rnd) n = base_ortho_40 n.
Proof. start t_base_ortho_40 base_ortho_40. Qed.
Lemma base_ortho_36_double n : n <= 1000 -> t_base_ortho_36 (test_round rnd) n = base_ortho_36 n.
Proof. start t_base_ortho_36 base_ortho_36. Qed.
Lemma body_ortho_19_double n : n <= 1000 -> t_body_ortho_19 (test_round rnd) n = body_ortho_19 n.
Proof. start t_body_ortho_19 body_ortho_19. Qed.
Lemma body_ortho_8_double n : n <= 1000 -> t_body_ortho_8 (test_round rnd) n = body_ortho_8 n.
Proof. start t_body_ortho_8 body_ortho_8. Qed.
Lemma body_ortho_42_double n : n <= 1000 -> t_body_ortho_42 (test_round rnd) n = body_ortho_42 n.
Proof. start t_body_ortho_42 body_ortho_42. Qed.
Lemma face_ortho_26_double n : n <= 1000 -> t_face_ortho_26 (test_round rnd) n = face_ortho_26 n.
Proof. start t_face_ortho_26 face_ortho_26. Qed.
Lemma face_ortho_16_double n : n <= 1000 -> t_face_ortho_16 (test_round rnd) n = face_ortho_16 n.
Proof. start t_face_ortho_16 face_ortho_16. Qed.

(** ** Cubic lattices *)
Lemma eq_agree e k m t : bd e m t -> m <= 2 ^ 53 -> t * fden (eval_exact e) < 2 ^ 53 ->
  (eq_exact e k = true -> I e) -> eq_round rnd e k = eq_exact e k.
Proof.
  intros B Hm Ht Hi. apply eq_true_iff_eq. unfold eq_round. rewrite Qeq_bool_iff.
  destruct (frac_ex e m t B) as (P & E). unfold eq_exact, feqz in *. rewrite Z.eqb_eq in *.
  set (D := fden (eval_exact e)) in *. set (N := fnum (eval_exact e)) in *.
  assert (D0 : ~ (inject_Z D == 0)%Q) by (change 0%Q with (inject_Z 0); rewrite inject_Z_injective; lia).
  split.
  - intros Hk. destruct (bd_sound e m t B) as (_ & Er). rewrite Hk in Er.
    assert (G : Z.abs (k * D - N) * 2 ^ 53 <= t * D).
    { apply le_iz. rewrite !iz_mul, <- iz_abs. unfold Z.sub. rewrite iz_add, inject_Z_opp, <- E, !iz_mul. fold U.
      assert (Dp : (0 <= inject_Z D)%Q) by (apply (iz_le 0); lia).
      setoid_replace (inject_Z k * inject_Z D + - (ex e * inject_Z D))%Q
        with ((inject_Z k - ex e) * inject_Z D)%Q by ring.
      rewrite Qabs_Qmult, (Qabs_pos (inject_Z D)) by exact Dp.
      setoid_replace (Qabs (inject_Z k - ex e) * inject_Z D * U)%Q with
        (Qabs (inject_Z k - ex e) * U * inject_Z D)%Q by ring.
      apply Qmult_le_compat_r; assumption. }
    nia.
  - intros H. destruct (Hi H) as (z & Hz). rewrite (iv_exact e m t B Hm z Hz), <- (iv_ex e z Hz).
    apply (Qmult_inj_r _ _ _ D0). rewrite E, <- iz_mul. apply inject_Z_injective. exact H.
Qed.
Lemma quotient_eq a f k : 1 <= a <= 1000 -> 1 <= f <= 1000 ->
  eq_round rnd (FDiv (FZ f) (FZ a)) k = eq_exact (FDiv (FZ f) (FZ a)) k.
Proof.
  intros Ha Hf. eapply eq_agree; [bdt|lia|den a f|]. intros H. unfold eq_exact, feqz in H.
  cbn [eval_exact fdiv fz fnum fden] in H. apply Z.eqb_eq in H. apply I_div; [|lia]. apply ID_Z. exists k. lia.
Qed.
Lemma diag_le n a c f : n <= 1000 -> In (a, c, f) (get_HNF_diagonals n) -> 1 <= a <= 1000 /\ 1 <= f <= 1000.
Proof.
  intros Hn H. apply in_diagonals in H. destruct H as (Ha & Hc & Hf & Hp).
  destruct (diag_sizes _ a c f Hn Ha Hc Hf Hp) as ((La & Lc & Lf) & _). lia.
Qed.
Lemma sc_3_double n : n <= 1000 -> t_sc_3 (eq_round rnd) n = sc_3 n.
Proof.
  intros Hn. unfold t_sc_3, sc_3.
  enough (G : forall l, (forall x, In x l -> In x (get_HNF_diagonals n)) -> t_sc_3_loop (eq_round rnd) l = sc_3_loop l) by (apply G; auto).
  induction l as [|((a, c), f) l IH]; intros Hl; [reflexivity|]. cbn [t_sc_3_loop sc_3_loop].
  destruct (diag_le n a c f Hn (Hl _ (or_introl eq_refl))) as (Ba & Bf).
  rewrite (quotient_eq a f 2 Ba Bf), IH by (intros x Hx; apply Hl; now right). reflexivity.
Qed.
Lemma bcc_5_double n : n <= 1000 -> t_bcc_5 (eq_round rnd) n = bcc_5 n.
Proof.
  intros Hn. unfold t_bcc_5, bcc_5. apply for_ext. intros ((a, c), f) Hin.
  destruct (diag_le n a c f Hn Hin) as (Ba & Bf). rewrite (quotient_eq a f 2 Ba Bf), (quotient_eq a f 4 Ba Bf). reflexivity.
Qed.
Lemma fcc_1_double n : n <= 1000 -> t_fcc_1 (eq_round rnd) n = fcc_1 n.
Proof.
  intros Hn. unfold t_fcc_1, fcc_1. apply for_ext. intros ((a, c), f) Hin.
  destruct (diag_le n a c f Hn Hin) as (Ba & Bf). rewrite (quotient_eq a f 2 Ba Bf), (quotient_eq a f 4 Ba Bf). reflexivity.
Qed.

(** ** find_supercells *)
Lemma collect_ext g h exact ns : (forall n, In n ns -> g n = h n) ->
  forall count sp, collect g exact ns count sp = collect h exact ns count sp.
Proof.
  induction ns as [|n ns IH]; intros H count sp; [reflexivity|]. cbn [collect]. rewrite (H n (or_introl eq_refl)).
  destruct ((1 <? Z.of_nat (length (h n))) && negb exact).
  - destruct (count + 1 =? 5); [reflexivity|]. apply IH. intros m Hm. apply H. now right.
  - destruct exact; (destruct (count =? 5); [reflexivity|]); apply IH; intros m Hm; apply H; now right.
Qed.
Lemma select_double k exact ns mult : (forall n, In n ns -> n <= 1000) ->
  t_select_hnfs (test_round rnd) (eq_round rnd) k exact ns mult = select_hnfs k exact ns mult.
Proof.
  intros Hn. unfold t_select_hnfs, select_hnfs.
  repeat match goal with
  | |- (if ?b then Some _ else _) = _ => destruct b
  | |- Some _ = Some _ => f_equal
  | |- collect_all _ _ = _ => apply for_ext; intros n Hin; specialize (Hn n Hin)
  | |- collect _ _ _ _ _ = _ => apply collect_ext; intros n Hin; specialize (Hn n Hin)
  | |- (if ?b then _ else _) = (if ?b then _ else _) => destruct b
  | |- ?x = ?x => reflexivity
  end;
  lazymatch goal with
  | |- t_sc_3 _ _ = _ => now apply sc_3_double
  | |- t_bcc_5 _ _ = _ => now apply bcc_5_double
  | |- t_fcc_1 _ _ = _ => now apply fcc_1_double
  | |- t_hex_12 _ _ = _ => now apply hex_12_double
  | |- t_hex_22 _ _ = _ => now apply hex_22_double
  | |- t_rhom_9_24 _ _ = _ => now apply rhom_9_24_double
  | |- t_rhom_4_2 _ _ = _ => now apply rhom_4_2_double
  | |- t_stet_11 _ _ = _ => now apply stet_11_double
  | |- t_stet_21 _ _ = _ => now apply stet_21_double
  | |- t_body_tet_6_7_15_18 _ _ = _ => now apply body_tet_6_7_15_18_double
  | |- t_sm_33 _ _ = _ => now apply sm_33_double
  | |- t_base_mono_20_25 _ _ = _ => now apply base_mono_20_25_double
  | |- t_base_mono_28 _ _ = _ => now apply base_mono_28_double
  | |- t_base_mono_29_30 _ _ = _ => now apply base_mono_29_30_double
  | |- t_base_mono_43 _ _ = _ => now apply base_mono_43_double
  | |- t_base_ortho_38_13 _ _ = _ => now apply base_ortho_38_13_double
  | |- t_base_ortho_23 _ _ = _ => now apply base_ortho_23_double
  | |- t_base_ortho_40 _ _ = _ => now apply base_ortho_40_double
  | |- t_base_ortho_36 _ _ = _ => now apply base_ortho_36_double
  | |- t_body_ortho_19 _ _ = _ => now apply body_ortho_19_double
  | |- t_body_ortho_8 _ _ = _ => now apply body_ortho_8_double
  | |- t_body_ortho_42 _ _ = _ => now apply body_ortho_42_double
  | |- t_face_ortho_26 _ _ = _ => now apply face_ortho_26_double
  | |- t_face_ortho_16 _ _ = _ => now apply face_ortho_16_double
  end.
Qed.
Lemma find_double k kpt exact nb : (exact = true -> kpt <= 1000) ->
  (exact = false -> forall ns mult, find_volumes k kpt nb = Some (ns, mult) -> forall n, In n ns -> n <= 1000) ->
  t_find_hnfs (test_round rnd) (eq_round rnd) k kpt exact nb = find_hnfs k kpt exact nb.
Proof.
  intros H1 H2. unfold t_find_hnfs, find_hnfs. destruct exact; cbn [negb].
  - apply select_double. intros n [<-|[]]. now apply H1.
  - destruct (find_volumes k kpt nb) as [(ns, mult)|] eqn:Ev; [|reflexivity]. apply select_double. now apply (H2 eq_refl ns mult).
Qed.
Lemma exact_double k n nb : In k lattice_numbers -> n <= 1000 ->
  exists l, t_find_hnfs (test_round rnd) (eq_round rnd) k n true nb = Some l /\ NoDup l /\
    forall H, In H l <-> 1 <= n /\ is_hnf n H /\ symmetry_preserving (gram_of k) H.
Proof.
  intros Hk Hn. rewrite find_double; [now apply exact_mode|auto|discriminate].
Qed.
End rounding.
