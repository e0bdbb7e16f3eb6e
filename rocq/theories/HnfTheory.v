(** Hermite normal forms: every full-rank integer lattice has exactly one. *)
From Coq Require Import ZArith List Lia Bool Znumtheory.
From Verif Require Import Mat3 Spec.
Import ListNotations.
Open Scope Z_scope.

Lemma same_lattice_refl H : same_lattice H H.
Proof. intros x; tauto. Qed.
Lemma same_lattice_sym H K : same_lattice H K -> same_lattice K H.
Proof. intros E x; symmetry; apply E. Qed.
Lemma same_lattice_trans H K L : same_lattice H K -> same_lattice K L -> same_lattice H L.
Proof. intros E F x; rewrite (E x); apply F. Qed.

(** Column operations. *)
Lemma same_lattice_mul H U V : mmul U V = mid -> mmul V U = mid -> same_lattice (mmul H U) H.
Proof.
  intros E F x. split; intros (v & ->).
  - exists (mvec U v). now rewrite mvec_mul.
  - exists (mvec V v). rewrite <- mvec_mul, <- mmul_assoc, E, mmul_id_r. reflexivity.
Qed.

Lemma mvec_HNF a b c d e f x y z :
  mvec (HNF a b c d e f) (Vec3 x y z) = Vec3 (a * x) (b * x + c * y) (d * x + e * y + f * z).
Proof. unfold mvec, HNF; cbn [m11 m12 m13 m21 m22 m23 m31 m32 m33 v1 v2 v3]. f_equal; ring. Qed.

Lemma in_lattice_HNF a b c d e f p q r :
  in_lattice (HNF a b c d e f) (Vec3 p q r) <->
  exists x y z, p = a * x /\ q = b * x + c * y /\ r = d * x + e * y + f * z.
Proof.
  split.
  - intros ([x y z] & E). rewrite mvec_HNF in E. injection E as -> -> ->. now exists x, y, z.
  - intros (x & y & z & -> & -> & ->). exists (Vec3 x y z). now rewrite mvec_HNF.
Qed.

Lemma mult_unit x y : 1 <= x -> 1 <= y -> (x | y) -> (y | x) -> x = y.
Proof. intros. apply Z.divide_antisym_nonneg; (lia || assumption). Qed.

Lemma hnf_unique n n' H K : is_hnf n H -> is_hnf n' K -> same_lattice H K -> H = K.
Proof.
  intros (a & b & c & d & e & f & -> & Ha & Hc & Hf & _ & Hb & Hd & He)
         (a' & b' & c' & d' & e' & f' & -> & Ha' & Hc' & Hf' & _ & Hb' & Hd' & He') S.
  assert (Q : forall a b c d e f a' b' c' d' e' f',
    1 <= a -> 1 <= c -> 1 <= f ->
    (forall x, in_lattice (HNF a' b' c' d' e' f') x -> in_lattice (HNF a b c d e f) x) ->
    (exists z, f' = f * z) /\
    (exists y z, c' = c * y /\ e' = e * y + f * z) /\
    (exists x y z, a' = a * x /\ b' = b * x + c * y /\ d' = d * x + e * y + f * z)).
  { clear. intros a b c d e f a' b' c' d' e' f' Ha Hc Hf S.
    assert (S1 := S (Vec3 0 0 f')). assert (S2 := S (Vec3 0 c' e')).
    assert (S3 := S (Vec3 a' b' d')). rewrite !in_lattice_HNF in S1, S2, S3. clear S. split; [|split].
    - destruct S1 as (x & y & z & E1 & E2 & E3); [exists 0, 0, 1; lia|].
      assert (x = 0) by nia. subst x. assert (y = 0) by nia. subst y. exists z. lia.
    - destruct S2 as (x & y & z & E1 & E2 & E3); [exists 0, 1, 0; lia|].
      assert (x = 0) by nia. subst x. exists y, z. lia.
    - destruct S3 as (x & y & z & E1 & E2 & E3); [exists 1, 0, 0; lia|]. now exists x, y, z. }
  destruct (Q a b c d e f a' b' c' d' e' f' Ha Hc Hf (fun x => proj2 (S x)))
    as ((z1 & F1) & (y2 & z2 & C1 & E1) & (x3 & y3 & z3 & A1 & B1 & D1)).
  destruct (Q a' b' c' d' e' f' a b c d e f Ha' Hc' Hf' (fun x => proj1 (S x)))
    as ((z1' & F1') & (y2' & z2' & C1' & E1') & (x3' & y3' & z3' & A1' & B1' & D1')).
  clear Q S.
  assert (f = f') by (apply mult_unit; [lia|lia|exists z1; lia|exists z1'; lia]).
  assert (c = c') by (apply mult_unit; [lia|lia|exists y2; lia|exists y2'; lia]).
  assert (a = a') by (apply mult_unit; [lia|lia|exists x3; lia|exists x3'; lia]).
  assert (U : forall x y, 1 <= x -> x = x * y -> y = 1) by (clear; intros; nia).
  assert (y2 = 1) by (apply (U c); lia). assert (x3 = 1) by (apply (U a); lia). clear U.
  clear F1' C1' A1' E1' B1' D1' F1 C1 A1. subst y2 x3 f' c' a'.
  assert (U : forall x y m z, 0 <= x < m -> 0 <= y < m -> x = y + m * z -> z = 0)
    by (clear; intros; nia).
  assert (z2 = 0) by (apply (U e' e f); lia). subst z2. assert (e' = e) by lia. subst e'.
  assert (y3 = 0) by (apply (U b' b c); lia). subst y3.
  assert (z3 = 0) by (apply (U d' d f); lia). subst z3.
  f_equal; lia.
Qed.

(** ** Existence *)

(** The unimodular matrix that replaces columns [i], [j] with a gcd step. *)
Lemma gcd_cols x y :
  exists u v p q, u * x + v * y = Z.gcd x y /\ p * x + q * y = 0 /\ u * q - v * p = 1.
Proof.
  destruct (Z.eq_dec (Z.gcd x y) 0) as [G|G].
  - apply Z.gcd_eq_0 in G. destruct G as [-> ->]. exists 1, 0, 0, 1. cbn; lia.
  - destruct (Z.gcd_bezout x y (Z.gcd x y) eq_refl) as (u & v & E).
    destruct (Z.gcd_divide_l x y) as (x' & Ex). destruct (Z.gcd_divide_r x y) as (y' & Ey).
    exists u, v, (- y'), x'. split; [exact E|]. split.
    + rewrite Ex at 1. rewrite Ey at 2. ring.
    + apply (Z.mul_reg_r _ _ (Z.gcd x y) G).
      replace ((u * x' - v * - y') * Z.gcd x y) with (u * (x' * Z.gcd x y) + v * (y' * Z.gcd x y)) by ring.
      rewrite <- Ex, <- Ey. lia.
Qed.

Lemma step12 M : exists U V,
  mmul U V = mid /\ mmul V U = mid /\
  m12 (mmul M U) = 0 /\ m13 (mmul M U) = m13 M.
Proof.
  destruct (gcd_cols (m11 M) (m12 M)) as (u & v & p & q & E1 & E2 & E3).
  exists (Mat3 u p 0 v q 0 0 0 1), (Mat3 q (- p) 0 (- v) u 0 0 0 1).
  unfold mmul, mid; cbn [m11 m12 m13 m21 m22 m23 m31 m32 m33].
  repeat split; try (f_equal; lia); lia.
Qed.

Lemma step13 M : exists U V,
  mmul U V = mid /\ mmul V U = mid /\
  m13 (mmul M U) = 0 /\ m12 (mmul M U) = m12 M.
Proof.
  destruct (gcd_cols (m11 M) (m13 M)) as (u & v & p & q & E1 & E2 & E3).
  exists (Mat3 u 0 p 0 1 0 v 0 q), (Mat3 q 0 (- p) 0 1 0 (- v) 0 u).
  unfold mmul, mid; cbn [m11 m12 m13 m21 m22 m23 m31 m32 m33].
  repeat split; try (f_equal; lia); lia.
Qed.

Lemma step23 M : m12 M = 0 -> m13 M = 0 -> exists U V,
  mmul U V = mid /\ mmul V U = mid /\
  m23 (mmul M U) = 0 /\ m12 (mmul M U) = 0 /\ m13 (mmul M U) = 0.
Proof.
  intros Z1 Z2.
  destruct (gcd_cols (m22 M) (m23 M)) as (u & v & p & q & E1 & E2 & E3).
  exists (Mat3 1 0 0 0 u p 0 v q), (Mat3 1 0 0 0 q (- p) 0 (- v) u).
  unfold mmul, mid; cbn [m11 m12 m13 m21 m22 m23 m31 m32 m33].
  rewrite Z1, Z2.
  repeat split; try (f_equal; lia); lia.
Qed.

Lemma lower_triangular M : exists a b c d e f,
  same_lattice (HNF a b c d e f) M /\ (mdet M <> 0 -> a <> 0 /\ c <> 0 /\ f <> 0).
Proof.
  destruct (step12 M) as (U1 & V1 & A1 & B1 & Z1 & _).
  destruct (step13 (mmul M U1)) as (U2 & V2 & A2 & B2 & Z2 & Y2). rewrite Z1 in Y2.
  destruct (step23 (mmul (mmul M U1) U2) Y2 Z2) as (U3 & V3 & A3 & B3 & Z3 & Y3 & X3).
  set (T := mmul (mmul (mmul M U1) U2) U3) in *.
  assert (S : same_lattice T M).
  { unfold T. eapply same_lattice_trans; [eapply same_lattice_mul; eassumption|].
    eapply same_lattice_trans; [eapply same_lattice_mul; eassumption|].
    eapply same_lattice_mul; eassumption. }
  assert (D : mdet M <> 0 -> mdet T <> 0).
  { intros HM HT. unfold T in HT. rewrite !mdet_mul in HT.
    assert (U : forall P Q, mmul P Q = mid -> mdet P <> 0).
    { intros P Q E. apply (f_equal mdet) in E. rewrite mdet_mul, mdet_id in E. nia. }
    pose proof (U _ _ A1). pose proof (U _ _ A2). pose proof (U _ _ A3).
    rewrite !Z.mul_eq_0 in HT. tauto. }
  clearbody T. destruct T as [a t1 t2 b c t3 d e f].
  cbn [m11 m12 m13 m21 m22 m23 m31 m32 m33] in *. subst t1 t2 t3.
  exists a, b, c, d, e, f. split; [exact S|].
  intros HM. specialize (D HM). unfold mdet in D. cbn [m11 m12 m13 m21 m22 m23 m31 m32 m33] in D.
  repeat split; intros ->; apply D; ring.
Qed.

Lemma same_lattice_sub H K :
  (forall x, in_lattice H x -> in_lattice K x) -> (forall x, in_lattice K x -> in_lattice H x) ->
  same_lattice H K.
Proof. intros A B x; split; auto. Qed.

(** Explicit lattice equality of lower triangular matrices. *)
Lemma same_lattice_tri a b c d e f u y z w s t :
  (u = 1 \/ u = -1) -> (y = 1 \/ y = -1) -> (w = 1 \/ w = -1) ->
  same_lattice (HNF (a * u) (b * u + c * z) (c * y) (d * u + e * z + f * s) (e * y + f * t) (f * w))
               (HNF a b c d e f).
Proof.
  intros Hu Hy Hw.
  replace (HNF (a * u) (b * u + c * z) (c * y) (d * u + e * z + f * s) (e * y + f * t) (f * w))
    with (mmul (HNF a b c d e f) (HNF u z y s t w))
    by (unfold mmul, HNF; cbn [m11 m12 m13 m21 m22 m23 m31 m32 m33]; f_equal; ring).
  apply same_lattice_mul with (V := HNF u (- u * y * z) y (u * w * (y * z * t - s)) (- y * w * t) w);
    unfold mmul, HNF, mid; cbn [m11 m12 m13 m21 m22 m23 m31 m32 m33];
    destruct Hu as [-> | ->], Hy as [-> | ->], Hw as [-> | ->]; f_equal; ring.
Qed.

Lemma sign_unit x : x <> 0 -> exists u, (u = 1 \/ u = -1) /\ x * u = Z.abs x.
Proof.
  intros Hx. destruct (Z_lt_ge_dec x 0).
  - exists (-1). split; [tauto|lia].
  - exists 1. split; [tauto|lia].
Qed.

Theorem hnf_exists M : mdet M <> 0 -> exists n H, is_hnf n H /\ same_lattice H M.
Proof.
  intros HM. destruct (lower_triangular M) as (a & b & c & d & e & f & S & N).
  destruct (N HM) as (Na & Nc & Nf). clear N.
  destruct (sign_unit a Na) as (u & Hu & Ea). destruct (sign_unit c Nc) as (y & Hy & Ec).
  destruct (sign_unit f Nf) as (w & Hw & Ef).
  assert (R : forall x m, m <> 0 -> exists k, 0 <= x + m * k < Z.abs m).
  { intros x m Hm. exists (- (Z.sgn m * (x / Z.abs m))).
    replace (x + m * - (Z.sgn m * (x / Z.abs m))) with (x - Z.abs m * (x / Z.abs m)) by nia.
    rewrite <- Z.mod_eq by lia. apply Z.mod_pos_bound. lia. }
  destruct (R (b * u) c Nc) as (z & Hz).
  destruct (R (e * y) f Nf) as (t & Ht).
  destruct (R (d * u + e * z) f Nf) as (s & Hs).
  exists (Z.abs a * Z.abs c * Z.abs f),
    (HNF (a * u) (b * u + c * z) (c * y) (d * u + e * z + f * s) (e * y + f * t) (f * w)).
  split.
  - rewrite Ea, Ec, Ef. unfold is_hnf.
    do 6 eexists. split; [reflexivity|]. repeat split; lia.
  - eapply same_lattice_trans; [|exact S]. now apply same_lattice_tri.
Qed.

(** The index is determined by the lattice. *)
Lemma in_lattice_col1 H : in_lattice H (col1 H).
Proof. exists (Vec3 1 0 0). unfold mvec, col1; cbn [v1 v2 v3]; f_equal; ring. Qed.
Lemma in_lattice_col2 H : in_lattice H (col2 H).
Proof. exists (Vec3 0 1 0). unfold mvec, col2; cbn [v1 v2 v3]; f_equal; ring. Qed.
Lemma in_lattice_col3 H : in_lattice H (col3 H).
Proof. exists (Vec3 0 0 1). unfold mvec, col3; cbn [v1 v2 v3]; f_equal; ring. Qed.

Lemma sub_lattice_factor H M :
  (forall x, in_lattice H x -> in_lattice M x) -> exists W, H = mmul M W.
Proof.
  intros S.
  destruct (S _ (in_lattice_col1 H)) as (x & Ex).
  destruct (S _ (in_lattice_col2 H)) as (y & Ey).
  destruct (S _ (in_lattice_col3 H)) as (z & Ez).
  exists (of_cols x y z). rewrite <- (of_cols_cols H), Ex, Ey, Ez. reflexivity.
Qed.

Lemma same_lattice_det H M : same_lattice H M -> Z.abs (mdet H) = Z.abs (mdet M).
Proof.
  intros S.
  destruct (sub_lattice_factor H M (fun x => proj1 (S x))) as (W & E).
  destruct (sub_lattice_factor M H (fun x => proj2 (S x))) as (W' & E').
  apply (f_equal mdet) in E, E'. rewrite mdet_mul in E, E'.

  assert ((Z.abs (mdet M) | Z.abs (mdet H))) by (apply Z.divide_abs_l, Z.divide_abs_r; exists (mdet W); lia).
  assert ((Z.abs (mdet H) | Z.abs (mdet M))) by (apply Z.divide_abs_l, Z.divide_abs_r; exists (mdet W'); lia).
  apply Z.divide_antisym_nonneg; auto; lia.
Qed.

Lemma is_hnf_det n H : is_hnf n H -> mdet H = n /\ 1 <= n.
Proof.
  intros (a & b & c & d & e & f & -> & Ha & Hc & Hf & <- & _).
  split; [unfold mdet, HNF; cbn [m11 m12 m13 m21 m22 m23 m31 m32 m33]; ring|nia].
Qed.

(** Every integer basis of index [n] spans the lattice of one HNF of determinant [n]. *)
Theorem hnf_exists_unique n M :
  1 <= n -> Z.abs (mdet M) = n ->
  exists H, (is_hnf n H /\ same_lattice H M) /\
            forall K, is_hnf n K /\ same_lattice K M -> K = H.
Proof.
  intros Hn HM. destruct (hnf_exists M) as (n' & H & Hh & HS); [lia|].
  pose proof (same_lattice_det H M HS) as E. destruct (is_hnf_det n' H Hh) as (D & Hn').
  assert (En : n' = n) by lia. rewrite En in Hh.
  exists H. split; [split; assumption|]. intros K (Kh & KS).
  apply (hnf_unique n n); auto.
  eapply same_lattice_trans; [exact KS|]. now apply same_lattice_sym.
Qed.

Lemma preserves_same_lattice X H K : same_lattice H K -> preserves X H -> preserves X K.
Proof. intros S P x Hx. apply S, P, S, Hx. Qed.

(** Exactness plus absence of repetitions give the statement about lattices. *)
Theorem lists_once G enum :
  enumerates_exactly G enum -> (forall n, NoDup (enum n)) -> lists_each_superlattice_once G enum.
Proof.
  intros HE HN n Hn. split; [apply HN|]. split; [|split].
  - intros H K H1 H2 S. apply HE in H1, H2. destruct H1 as (_ & H1 & _), H2 as (_ & H2 & _).
    now apply (hnf_unique n n).
  - intros H H1. apply HE in H1. destruct H1 as (_ & H1 & H2). split; [|exact H2].
    now apply is_hnf_det.
  - intros M HM HS. destruct (hnf_exists_unique n M Hn HM) as (H & (Hh & Hl) & _).
    exists H. split; [|exact Hl]. apply HE. split; [exact Hn|]. split; [exact Hh|].
    intros X HX. eapply preserves_same_lattice; [apply same_lattice_sym, Hl|]. now apply HS.
Qed.
