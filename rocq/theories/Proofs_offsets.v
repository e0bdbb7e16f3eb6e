(** Which offsets keep the symmetry of primitive orthorhombic, monoclinic, tetragonal and hexagonal
    grids (get_offsets). *)
From Coq Require Import ZArith List Bool Lia Qcanon.
From Verif Require Import Mat3 Spec Model_universal Model_find_kgrids Spec_kgrids.
Import ListNotations.
Open Scope Z_scope.

(** Offsets kept by inversion have components 0 or 1/2. *)
Definition half (s : vec3) : Prop := (v1 s = 0 \/ v1 s = 2) /\ (v2 s = 0 \/ v2 s = 2) /\ (v3 s = 0 \/ v3 s = 2).
Lemma isometry_mopp G : isometry G (mopp mid).
Proof. destruct G as [g1 g2 g3 g4 g5 g6 g7 g8 g9]. unfold isometry, mopp, mscale, mid, mmul, mtr. cbn [m11 m12 m13 m21 m22 m23 m31 m32 m33]. f_equal; ring. Qed.
Lemma kept_half s : unit_offset s -> offset_kept (mopp mid) s -> half s.
Proof.
  destruct s as [x y z]. unfold unit_offset, offset_kept, half, mvec, mopp, mscale, mid.
  cbn [m11 m12 m13 m21 m22 m23 m31 m32 m33 v1 v2 v3].
  intros (Hx & Hy & Hz) ([a b c] & E). cbn [v1 v2 v3] in E.
  pose proof (f_equal v1 E) as E1. pose proof (f_equal v2 E) as E2. pose proof (f_equal v3 E) as E3. cbn [v1 v2 v3] in E1, E2, E3.
  clear E.
  assert (A : forall x a, 0 <= x < 4 -> - x = x + 4 * a -> x = 0 \/ x = 2).
  { clear. intros x a Hx E. assert (E' : x = -2 * a) by lia. assert (a = 0 \/ a = -1) as [-> | ->] by lia; lia. }
  split; [apply (A x a)|split; [apply (A y b)|apply (A z c)]]; try assumption; lia.
Qed.
Lemma half_cases s : half s -> In s off_all.
Proof.
  destruct s as [x y z]. unfold half. cbn [v1 v2 v3]. intros ([-> | ->] & [-> | ->] & [-> | ->]); cbn; tauto.
Qed.
Lemma off_all_half s : In s off_all -> half s /\ unit_offset s.
Proof. cbn. intros H. repeat destruct H as [<-|H]; [..|contradiction]; unfold half, unit_offset; cbn; lia. Qed.
(** Diagonal matrices with entries 1 and -1 keep all of them. *)
Lemma signs_keep X s : signs X -> half s -> offset_kept X s.
Proof.
  intros (x & y & z & -> & Hx & Hy & Hz) Hs. destruct s as [a b c]. unfold half in Hs. cbn [v1 v2 v3] in Hs.
  assert (A : forall x a, Z.abs x = 1 -> a = 0 \/ a = 2 -> exists w, x * a = a + 4 * w).
  { intros u v Hu [-> | ->]; [exists 0; lia|]. assert (u = 1 \/ u = -1) as [-> | ->] by lia; [exists 0|exists (-1)]; lia. }
  destruct Hs as (Ha & Hb & Hc). destruct (A x a Hx Ha) as (w1 & E1), (A y b Hy Hb) as (w2 & E2), (A z c Hz Hc) as (w3 & E3).
  exists (Vec3 w1 w2 w3). unfold mvec. cbn [m11 m12 m13 m21 m22 m23 m31 m32 m33 v1 v2 v3].
  rewrite !Z.mul_0_l, !Z.add_0_r, !Z.add_0_l, E1, E2, E3. reflexivity.
Qed.

(** *** Orthorhombic and monoclinic *)
Lemma sq1 x : x * x = 1 -> Z.abs x = 1. Proof. nia. Qed.
Lemma diagonal_signs G X : isometry G X -> 0 < m11 G -> 0 < m22 G -> 0 < m33 G ->
  m12 X = 0 -> m13 X = 0 -> m21 X = 0 -> m23 X = 0 -> m31 X = 0 -> m32 X = 0 -> signs X.
Proof.
  destruct X as [x1 x2 x3 x4 x5 x6 x7 x8 x9], G as [g1 g2 g3 g4 g5 g6 g7 g8 g9]. unfold isometry, mmul, mtr.
  cbn [m11 m12 m13 m21 m22 m23 m31 m32 m33]. intros E H1 H2 H3 -> -> -> -> -> ->. injection E as E1 E2 E3 E4 E5 E6 E7 E8 E9.
  exists x1, x5, x9. split; [reflexivity|]. clear - E1 E5 E9 H1 H2 H3.
  assert (A : forall g x, 0 < g -> x * (g * x) = g -> x * x = 1) by (intros g x Hg E; apply (Z.mul_reg_l _ _ g); lia).
  split; [|split]; apply sq1; [apply (A g1)|apply (A g5)|apply (A g9)]; lia.
Qed.
Lemma offsets_signs equal k n1 n2 n3 Gm s : In k [32; 33; 34; 35] -> (forall X, isometry Gm X -> signs X) ->
  In s (get_offsets equal k n1 n2 n3) <-> unit_offset s /\ forall X, isometry Gm X -> offset_kept X s.
Proof.
  intros Hk HG. replace (get_offsets equal k n1 n2 n3) with off_all.
  - split.
    + intros Hs. destruct (off_all_half s Hs) as (Hh & Hu). split; [exact Hu|]. intros X HX. apply signs_keep; [now apply HG|exact Hh].
    + intros (Hu & H). apply half_cases. apply kept_half; [exact Hu|]. apply H, isometry_mopp.
  - destruct Hk as [<-|[<-|[<-|[<-|[]]]]]; reflexivity.
Qed.
(** A vector as short as a shortest axis of an orthogonal basis. *)
Lemma iso_eqs a b c X : isometry (Mat3 a 0 0 0 b 0 0 0 c) X ->
  let col f1 f2 f3 g1 g2 g3 := a * (f1 * g1) + b * (f2 * g2) + c * (f3 * g3) in
  col (m11 X) (m21 X) (m31 X) (m11 X) (m21 X) (m31 X) = a /\
  col (m12 X) (m22 X) (m32 X) (m12 X) (m22 X) (m32 X) = b /\
  col (m13 X) (m23 X) (m33 X) (m13 X) (m23 X) (m33 X) = c /\
  col (m11 X) (m21 X) (m31 X) (m12 X) (m22 X) (m32 X) = 0 /\
  col (m11 X) (m21 X) (m31 X) (m13 X) (m23 X) (m33 X) = 0 /\
  col (m12 X) (m22 X) (m32 X) (m13 X) (m23 X) (m33 X) = 0.
Proof.
  destruct X as [x1 x2 x3 x4 x5 x6 x7 x8 x9]. unfold isometry, mmul, mtr. cbn [m11 m12 m13 m21 m22 m23 m31 m32 m33].
  intros E. injection E as E1 E2 E3 E4 E5 E6 E7 E8 E9. cbv zeta. clear E4 E7 E8. repeat split; lia.
Qed.
Lemma too_long a b y r : 0 < a -> a < b -> 0 <= r -> b * (y * y) + r = a -> y = 0.
Proof. intros Ha Hb Hr E. destruct (Z.eq_dec y 0) as [|n]; [assumption|]. assert (1 <= y * y) by nia. nia. Qed.
(** a x^2 + b y^2 + c z^2 = a with a < b, c. *)
Lemma short1 a b c x y z : 0 < a -> a < b -> a < c -> a * (x * x) + b * (y * y) + c * (z * z) = a -> Z.abs x = 1 /\ y = 0 /\ z = 0.
Proof.
  intros Ha Hb Hc E.
  assert (Hx : 0 <= a * (x * x)) by nia. assert (Hy : 0 <= b * (y * y)) by nia. assert (Hz : 0 <= c * (z * z)) by nia.
  assert (y = 0) by (apply (too_long a b y (a * (x * x) + c * (z * z))); lia).
  assert (z = 0) by (apply (too_long a c z (a * (x * x) + b * (y * y))); lia). subst. split; [|auto]. apply sq1. apply (Z.mul_reg_l _ _ a); lia.
Qed.
(** ... with b the next. *)
Lemma short2 b c y z : 0 < b -> b < c -> b * (y * y) + c * (z * z) = b -> Z.abs y = 1 /\ z = 0.
Proof. intros Hb Hc E. assert (Hy : 0 <= b * (y * y)) by nia.
  assert (z = 0) by (apply (too_long b c z (b * (y * y))); lia). subst. split; [|auto]. apply sq1. apply (Z.mul_reg_l _ _ b); lia. Qed.
Lemma short3 c z : 0 < c -> c * (z * z) = c -> Z.abs z = 1.
Proof. intros Hc E. apply sq1. apply (Z.mul_reg_l _ _ c); lia. Qed.
(** The columns in order of length; [x_ij]: component i of the image of axis j. *)
Lemma ordered_signs a b c x11 x21 x31 x12 x22 x32 x13 x23 x33 : 0 < a -> a < b -> b < c ->
  a * (x11 * x11) + b * (x21 * x21) + c * (x31 * x31) = a ->
  a * (x12 * x12) + b * (x22 * x22) + c * (x32 * x32) = b ->
  a * (x13 * x13) + b * (x23 * x23) + c * (x33 * x33) = c ->
  a * (x11 * x12) + b * (x21 * x22) + c * (x31 * x32) = 0 ->
  a * (x11 * x13) + b * (x21 * x23) + c * (x31 * x33) = 0 ->
  a * (x12 * x13) + b * (x22 * x23) + c * (x32 * x33) = 0 ->
  (Z.abs x11 = 1 /\ x21 = 0 /\ x31 = 0) /\ (x12 = 0 /\ Z.abs x22 = 1 /\ x32 = 0) /\ (x13 = 0 /\ x23 = 0 /\ Z.abs x33 = 1).
Proof.
  intros Ha Hab Hbc E1 E2 E3 E12 E13 E23. destruct (short1 a b c x11 x21 x31) as (H1 & -> & ->); [lia..|].
  assert (P : forall u, a * (x11 * u) = 0 -> u = 0) by (intros u Hu; nia).
  assert (x12 = 0) by (apply P; lia). assert (x13 = 0) by (apply P; lia). subst x12 x13.
  destruct (short2 b c x22 x32) as (H2 & ->); [lia..|].
  assert (Q : forall u, b * (x22 * u) = 0 -> u = 0) by (intros u Hu; nia).
  assert (x23 = 0) by (apply Q; lia). subst x23. repeat split; try assumption. apply (short3 c); lia.
Qed.
Lemma ortho_signs a b c X : 0 < a -> 0 < b -> 0 < c -> a <> b -> a <> c -> b <> c ->
  isometry (Mat3 a 0 0 0 b 0 0 0 c) X -> signs X.
Proof.
  intros Ha Hb Hc Hab Hac Hbc HX. apply iso_eqs in HX. cbv zeta in HX. destruct HX as (E1 & E2 & E3 & E12 & E13 & E23).
  destruct X as [x11 x12 x13 x21 x22 x23 x31 x32 x33]. cbn [m11 m12 m13 m21 m22 m23 m31 m32 m33] in *.
  assert (S : (Z.abs x11 = 1 /\ x21 = 0 /\ x31 = 0) /\ (x12 = 0 /\ Z.abs x22 = 1 /\ x32 = 0) /\ (x13 = 0 /\ x23 = 0 /\ Z.abs x33 = 1)).
  { destruct (Z_lt_le_dec a b), (Z_lt_le_dec b c), (Z_lt_le_dec a c); try lia.
    - pose proof (ordered_signs a b c x11 x21 x31 x12 x22 x32 x13 x23 x33). intuition lia.
    - pose proof (ordered_signs a c b x11 x31 x21 x13 x33 x23 x12 x32 x22). intuition lia.
    - pose proof (ordered_signs c a b x33 x13 x23 x31 x11 x21 x32 x12 x22). intuition lia.
    - pose proof (ordered_signs b a c x22 x12 x32 x21 x11 x31 x23 x13 x33). intuition lia.
    - pose proof (ordered_signs b c a x22 x32 x12 x23 x33 x13 x21 x31 x11). intuition lia.
    - pose proof (ordered_signs c b a x33 x23 x13 x32 x22 x12 x31 x21 x11). intuition lia. }
  destruct S as ((H1 & -> & ->) & (-> & H2 & ->) & (-> & -> & H3)). now exists x11, x22, x33.
Qed.

(** *** Tetragonal and hexagonal: one axis perpendicular to two vectors of the same length *)
Lemma form_min A B x y : 0 < A -> 2 * Z.abs B <= A -> ~ (x = 0 /\ y = 0) -> A <= A * (x * x + y * y) + 2 * B * (x * y).
Proof.
  intros HA HB Hn.
  assert (H0 : 0 <= x * x) by nia. assert (H0' : 0 <= y * y) by nia. assert (H1 : 1 <= x * x + y * y) by nia.
  assert (H2 : 2 * Z.abs (x * y) <= x * x + y * y) by (pose proof (Z.square_nonneg (x - y)); pose proof (Z.square_nonneg (x + y)); lia).
  assert (H3 : Z.abs (x * y) + 1 <= x * x + y * y) by lia.
  assert (H5 : Z.abs (2 * B * (x * y)) <= A * Z.abs (x * y)).
  { rewrite (Z.abs_mul (2 * B)). apply Z.mul_le_mono_nonneg_r; lia. }
  assert (H6 : A * (Z.abs (x * y) + 1) <= A * (x * x + y * y)) by (apply Z.mul_le_mono_nonneg_l; lia).
  clear - H5 H6. lia.
Qed.
Lemma multiple_zero c B v : 0 < c -> B = c * v -> 2 * Z.abs B <= c -> B <> 0 -> False.
Proof.
  intros Hc -> H Hn. rewrite Z.abs_mul, (Z.abs_eq c) in H by lia. assert (v <> 0) by (intros ->; lia).
  assert (1 <= Z.abs v) by lia. clear - Hc H H1. nia.
Qed.
Lemma block_axis A B c x11 x21 x31 x12 x22 x32 x13 x23 x33 :
  0 < A -> 2 * Z.abs B <= A -> 0 < c -> B <> 0 \/ c <> A ->
  A * (x11 * x11 + x21 * x21) + 2 * B * (x11 * x21) + c * (x31 * x31) = A ->
  A * (x12 * x12 + x22 * x22) + 2 * B * (x12 * x22) + c * (x32 * x32) = A ->
  A * (x13 * x13 + x23 * x23) + 2 * B * (x13 * x23) + c * (x33 * x33) = c ->
  A * (x11 * x12 + x21 * x22) + B * (x11 * x22 + x21 * x12) + c * (x31 * x32) = B ->
  A * (x11 * x13 + x21 * x23) + B * (x11 * x23 + x21 * x13) + c * (x31 * x33) = 0 ->
  A * (x12 * x13 + x22 * x23) + B * (x12 * x23 + x22 * x13) + c * (x32 * x33) = 0 ->
  ~ (x31 = 0 /\ x32 = 0 /\ x33 = 0) ->
  x31 = 0 /\ x32 = 0 /\ x13 = 0 /\ x23 = 0 /\ Z.abs x33 = 1.
Proof.
  intros HA HB Hc Hor E1 E2 E3 E12 E13 E23 Hdet.
  assert (S : forall u, 0 <= c * (u * u)) by (intros u; clear - Hc; nia).
  assert (S1 : forall u, u <> 0 -> c <= c * (u * u)) by (intros u Hu; clear - Hu Hc; assert (1 <= u * u) by nia; nia).
  assert (F : forall x y, 0 <= A * (x * x + y * y) + 2 * B * (x * y) /\
    (A * (x * x + y * y) + 2 * B * (x * y) < A -> x = 0 /\ y = 0)).
  { intros x y. pose proof (form_min A B x y HA HB) as Q.
    destruct (Z.eq_dec x 0) as [->|n]; [destruct (Z.eq_dec y 0) as [->|n]|]; lia. }
  assert (Z0 : forall x y u, A * (x * x + y * y) + 2 * B * (x * y) + c * (u * u) = c -> u <> 0 -> (x = 0 /\ y = 0) /\ Z.abs u = 1).
  { intros x y u E Hu. assert (Hxy : x = 0 /\ y = 0) by (apply F; pose proof (S1 u Hu); lia).
    split; [exact Hxy|]. destruct Hxy as (-> & ->). apply (short3 c); lia. }
  assert (K : x31 = 0 /\ x32 = 0).
  { destruct (Z_lt_le_dec c A) as [L|L].
    - (* the axis is the shortest vector *)
      assert (H33 : x33 <> 0).
      { intros ->. assert (x13 = 0 /\ x23 = 0) as (-> & ->) by (apply F; lia). lia. }
      destruct (Z0 x13 x23 x33 E3 H33) as ((-> & ->) & _). clear - E13 E23 H33 Hc.
      assert (c * (x31 * x33) = 0) by lia. assert (c * (x32 * x33) = 0) by lia. split; nia.
    - assert (Q : forall x y u, A * (x * x + y * y) + 2 * B * (x * y) + c * (u * u) = A -> u <> 0 -> c = A /\ x = 0 /\ y = 0 /\ Z.abs u = 1).
      { intros x y u E Hu. pose proof (S1 u Hu). pose proof (proj1 (F x y)). assert (c = A) by lia. split; [assumption|].
        destruct (Z0 x y u) as ((-> & ->) & Hu'); [lia|exact Hu|tauto]. }
      assert (P : forall u v, Z.abs u = 1 -> c = A -> c * (u * v) = B -> False).
      { intros u v Hu Hca Hb. assert (u = 1 \/ u = -1) as [-> | ->] by lia.
        - apply (multiple_zero c B v Hc); lia.
        - apply (multiple_zero c B (- v) Hc); lia. }
      split.
      + destruct (Z.eq_dec x31 0) as [|n]; [assumption|exfalso]. destruct (Q x11 x21 x31 E1 n) as (Hca & -> & -> & Hu).
        apply (P x31 x32 Hu Hca). lia.
      + destruct (Z.eq_dec x32 0) as [|n]; [assumption|exfalso]. destruct (Q x12 x22 x32 E2 n) as (Hca & -> & -> & Hu).
        apply (P x32 x31 Hu Hca). lia. }
  destruct K as (K1 & K2). assert (H33 : x33 <> 0) by tauto. destruct (Z0 x13 x23 x33 E3 H33) as ((H1 & H2) & H3). tauto.
Qed.
(** Square basis. *)
Lemma square_block x11 x21 x12 x22 : x11 * x11 + x21 * x21 = 1 -> x12 * x12 + x22 * x22 = 1 -> x11 * x12 + x21 * x22 = 0 ->
  (Z.abs x11 = 1 /\ x21 = 0 /\ x12 = 0 /\ Z.abs x22 = 1) \/ (x11 = 0 /\ Z.abs x21 = 1 /\ Z.abs x12 = 1 /\ x22 = 0).
Proof.
  intros E1 E2 E3.
  assert (A : forall x y, x * x + y * y = 1 -> (Z.abs x = 1 /\ y = 0) \/ (x = 0 /\ Z.abs y = 1)).
  { intros x y E. destruct (Z.eq_dec x 0) as [->|n]; [right|left]; (split; [|]); try nia. }
  destruct (A _ _ E1) as [(H1 & ->)|(-> & H1)], (A _ _ E2) as [(H2 & ->)|(-> & H2)]; try tauto; nia.
Qed.

Lemma isometry_row G X : isometry G X -> mdet G <> 0 -> mdet X <> 0.
Proof.
  unfold isometry. intros E HG HX. apply (f_equal mdet) in E. rewrite !mdet_mul, mdet_tr, HX in E. lia.
Qed.
Lemma iso_scalar G X : isometry G X ->
  let p x1 x2 x3 y1 y2 y3 := x1 * (m11 G * y1 + m12 G * y2 + m13 G * y3) + x2 * (m21 G * y1 + m22 G * y2 + m23 G * y3)
                             + x3 * (m31 G * y1 + m32 G * y2 + m33 G * y3) in
  p (m11 X) (m21 X) (m31 X) (m11 X) (m21 X) (m31 X) = m11 G /\
  p (m12 X) (m22 X) (m32 X) (m12 X) (m22 X) (m32 X) = m22 G /\
  p (m13 X) (m23 X) (m33 X) (m13 X) (m23 X) (m33 X) = m33 G /\
  p (m11 X) (m21 X) (m31 X) (m12 X) (m22 X) (m32 X) = m12 G /\
  p (m11 X) (m21 X) (m31 X) (m13 X) (m23 X) (m33 X) = m13 G /\
  p (m12 X) (m22 X) (m32 X) (m13 X) (m23 X) (m33 X) = m23 G.
Proof.
  intros E. cbv zeta. unfold isometry in E.
  pose proof (f_equal m11 E) as E1. pose proof (f_equal m22 E) as E2. pose proof (f_equal m33 E) as E3.
  pose proof (f_equal m12 E) as E4. pose proof (f_equal m13 E) as E5. pose proof (f_equal m23 E) as E6.
  unfold mmul, mtr in *. cbn [m11 m12 m13 m21 m22 m23 m31 m32 m33] in *. tauto.
Qed.
Definition perm (k : Z) (X : mat3) : mat3 :=
  if k =? 3 then X
  else if k =? 2 then Mat3 (m11 X) (m13 X) (m12 X) (m31 X) (m33 X) (m32 X) (m21 X) (m23 X) (m22 X)
  else Mat3 (m22 X) (m23 X) (m21 X) (m32 X) (m33 X) (m31 X) (m12 X) (m13 X) (m11 X).
Lemma axis_block k A B c X : In k [1; 2; 3] -> 0 < A -> 2 * Z.abs B <= A -> 0 < c -> B <> 0 \/ c <> A ->
  isometry (axis_gram k A B c) X ->
  let Y := perm k X in
  (m31 Y = 0 /\ m32 Y = 0 /\ m13 Y = 0 /\ m23 Y = 0 /\ Z.abs (m33 Y) = 1) /\
  (B = 0 -> (Z.abs (m11 Y) = 1 /\ m21 Y = 0 /\ m12 Y = 0 /\ Z.abs (m22 Y) = 1) \/
            (m11 Y = 0 /\ Z.abs (m21 Y) = 1 /\ Z.abs (m12 Y) = 1 /\ m22 Y = 0)).
Proof.
  intros Hk HA HB Hc Hor HX Y.
  assert (HD : mdet (axis_gram k A B c) <> 0).
  { assert (D : 0 < c * (A * A - B * B)) by (apply Z.mul_pos_pos; [exact Hc|]; clear - HA HB; nia).
    destruct Hk as [<-|[<-|[<-|[]]]]; unfold axis_gram, mdet; cbn [Z.eqb Pos.eqb m11 m12 m13 m21 m22 m23 m31 m32 m33]; lia. }
  pose proof (isometry_row _ _ HX HD) as HXD. apply iso_scalar in HX. cbv zeta in HX. destruct HX as (E1 & E2 & E3 & E12 & E13 & E23).
  destruct X as [x11 x12 x13 x21 x22 x23 x31 x32 x33]. clear HD.
  assert (L : forall y11 y21 y31 y12 y22 y32 y13 y23 y33,
    A * (y11 * y11 + y21 * y21) + 2 * B * (y11 * y21) + c * (y31 * y31) = A ->
    A * (y12 * y12 + y22 * y22) + 2 * B * (y12 * y22) + c * (y32 * y32) = A ->
    A * (y13 * y13 + y23 * y23) + 2 * B * (y13 * y23) + c * (y33 * y33) = c ->
    A * (y11 * y12 + y21 * y22) + B * (y11 * y22 + y21 * y12) + c * (y31 * y32) = B ->
    A * (y11 * y13 + y21 * y23) + B * (y11 * y23 + y21 * y13) + c * (y31 * y33) = 0 ->
    A * (y12 * y13 + y22 * y23) + B * (y12 * y23 + y22 * y13) + c * (y32 * y33) = 0 ->
    ~ (y31 = 0 /\ y32 = 0 /\ y33 = 0) ->
    (y31 = 0 /\ y32 = 0 /\ y13 = 0 /\ y23 = 0 /\ Z.abs y33 = 1) /\
    (B = 0 -> (Z.abs y11 = 1 /\ y21 = 0 /\ y12 = 0 /\ Z.abs y22 = 1) \/ (y11 = 0 /\ Z.abs y21 = 1 /\ Z.abs y12 = 1 /\ y22 = 0))).
  { clear E1 E2 E3 E12 E13 E23 HXD Y Hk. intros y11 y21 y31 y12 y22 y32 y13 y23 y33 F1 F2 F3 F12 F13 F23 FD.
    destruct (block_axis A B c y11 y21 y31 y12 y22 y32 y13 y23 y33) as (-> & -> & -> & -> & H33); try assumption.
    split; [tauto|]. intros ->. clear Hor F3 F13 F23 FD H33 HB Hc.
    apply square_block; apply (Z.mul_reg_l _ _ A); lia. }
  destruct Hk as [<-|[<-|[<-|[]]]]; unfold axis_gram, mdet in *; unfold Y, perm; cbn [Z.eqb Pos.eqb m11 m12 m13 m21 m22 m23 m31 m32 m33] in *; clear Y;
    apply L; clear L; first [lia | intros (-> & -> & ->); apply HXD; ring].
Qed.
Definition axis_offset (k : Z) : vec3 := if k =? 3 then Vec3 0 0 2 else if k =? 2 then Vec3 0 2 0 else Vec3 2 0 0.
Definition face_offset (k : Z) : vec3 := if k =? 3 then Vec3 2 2 0 else if k =? 2 then Vec3 2 0 2 else Vec3 0 2 2.
Lemma abs1 x : Z.abs x = 1 -> x = 1 \/ x = -1. Proof. lia. Qed.
Lemma kept_compute X s x y z a b c : mvec X s = Vec3 x y z -> s = Vec3 a b c -> (x - a) mod 4 = 0 -> (y - b) mod 4 = 0 -> (z - c) mod 4 = 0 -> offset_kept X s.
Proof.
  intros E -> Hx Hy Hz. apply Z_div_exact_full_2 in Hx, Hy, Hz; try lia.
  exists (Vec3 ((x - a) / 4) ((y - b) / 4) ((z - c) / 4)). rewrite E. cbn [v1 v2 v3]. f_equal; lia.
Qed.
Lemma axis_kept k A B c X : In k [1; 2; 3] -> 0 < A -> 2 * Z.abs B <= A -> 0 < c -> B <> 0 \/ c <> A ->
  isometry (axis_gram k A B c) X ->
  offset_kept X (axis_offset k) /\ (B = 0 -> offset_kept X (face_offset k) /\ offset_kept X (Vec3 2 2 2)).
Proof.
  intros Hk HA HB Hc Hor HX. destruct (axis_block k A B c X Hk HA HB Hc Hor HX) as (H1 & H2). clear HX Hor Hc HB HA.
  destruct X as [x11 x12 x13 x21 x22 x23 x31 x32 x33].
  destruct Hk as [<-|[<-|[<-|[]]]]; unfold perm in *; cbn [Z.eqb Pos.eqb m11 m12 m13 m21 m22 m23 m31 m32 m33] in *;
    destruct H1 as (-> & -> & -> & -> & H33); (split; [clear H2|intros HB0; specialize (H2 HB0); split; destruct H2 as [(Ha & -> & -> & Hb)|(-> & Ha & Hb & ->)]; apply abs1 in Ha, Hb]);
    apply abs1 in H33; destruct H33 as [-> | ->]; try (destruct Ha as [-> | ->], Hb as [-> | ->]);
    (eapply kept_compute; [unfold mvec, axis_offset, face_offset; cbn [Z.eqb Pos.eqb m11 m12 m13 m21 m22 m23 m31 m32 m33 v1 v2 v3]; rewrite ?Z.mul_0_r, ?Z.mul_0_l, ?Z.add_0_r, ?Z.add_0_l; reflexivity|unfold axis_offset, face_offset; cbn [Z.eqb Pos.eqb]; reflexivity|reflexivity|reflexivity|reflexivity]).
Qed.

Lemma not_kept X x y z x' y' z' : mvec X (Vec3 x y z) = Vec3 x' y' z' ->
  (x' - x) mod 4 <> 0 \/ (y' - y) mod 4 <> 0 \/ (z' - z) mod 4 <> 0 -> ~ offset_kept X (Vec3 x y z).
Proof.
  intros E H (w & Ew). rewrite E in Ew. cbn [v1 v2 v3] in Ew.
  pose proof (f_equal v1 Ew) as E1. pose proof (f_equal v2 Ew) as E2. pose proof (f_equal v3 Ew) as E3. cbn [v1 v2 v3] in E1, E2, E3.
  rewrite E1, E2, E3 in H.
  assert (A : forall a b, (a + 4 * b - a) mod 4 = 0) by (intros a b; replace (a + 4 * b - a) with (b * 4) by ring; apply Z_mod_mult).
  rewrite !A in H. tauto.
Qed.
Ltac iso := unfold isometry, axis_gram, mmul, mtr; cbn [Z.eqb Pos.eqb m11 m12 m13 m21 m22 m23 m31 m32 m33]; f_equal; ring.
Lemma tetragonal_offsets equal id n1 n2 n3 k A c s : In id [11; 21] -> In k [1; 2; 3] -> unique_axis equal n1 n2 n3 k ->
  0 < A -> 0 < c -> A <> c ->
  In s (get_offsets equal id n1 n2 n3) <-> unit_offset s /\ forall X, isometry (axis_gram k A 0 c) X -> offset_kept X s.
Proof.
  intros Hid Hk Hu HA Hc Hn.
  assert (E : get_offsets equal id n1 n2 n3 = [Vec3 0 0 0; axis_offset k; face_offset k; Vec3 2 2 2]).
  { unfold get_offsets. destruct Hk as [<-|[<-|[<-|[]]]]; unfold unique_axis in Hu; cbn [Z.eqb Pos.eqb] in Hu;
      destruct Hid as [<-|[<-|[]]]; cbn [z_in existsb Z.eqb Pos.eqb orb];
      first [rewrite Hu; reflexivity | destruct Hu as (-> & ->); reflexivity | destruct Hu as (-> & -> & ->); reflexivity]. }
  rewrite E. split.
  - intros Hs. split.
    + destruct Hk as [<-|[<-|[<-|[]]]]; cbn in Hs; repeat destruct Hs as [<-|Hs]; try contradiction; unfold unit_offset; cbn [v1 v2 v3]; lia.
    + intros X HX. destruct (axis_kept k A 0 c X Hk HA ltac:(lia) Hc ltac:(lia) HX) as (K1 & K2). specialize (K2 eq_refl).
      destruct Hs as [<-|[<-|[<-|[<-|[]]]]]; try tauto.
      exists (Vec3 0 0 0). unfold mvec. cbn [v1 v2 v3]. f_equal; ring.
  - intros (Hu' & HX). pose proof (half_cases s (kept_half s Hu' (HX _ (isometry_mopp _)))) as Hs.
    destruct Hk as [<-|[<-|[<-|[]]]]; cbn [In axis_offset face_offset Z.eqb Pos.eqb];
      [specialize (HX (Mat3 1 0 0 0 0 1 0 1 0) ltac:(iso))|specialize (HX (Mat3 0 0 1 0 1 0 1 0 0) ltac:(iso))|specialize (HX (Mat3 0 1 0 1 0 0 0 0 1) ltac:(iso))];
      cbn [In off_all] in Hs; repeat destruct Hs as [<-|Hs]; try tauto; exfalso; revert HX;
      (eapply not_kept; [reflexivity|]); vm_compute; first [left; discriminate|right; left; discriminate|right; right; discriminate].
Qed.
Lemma hexagonal_offsets equal id n1 n2 n3 k h B c s : In id [12; 22] -> In k [1; 2; 3] -> unique_axis equal n1 n2 n3 k ->
  0 < h -> 0 < c -> Z.abs B = h ->
  In s (get_offsets equal id n1 n2 n3) <-> unit_offset s /\ forall X, isometry (axis_gram k (2 * h) B c) X -> offset_kept X s.
Proof.
  intros Hid Hk Hu Hh Hc HB.
  assert (E : get_offsets equal id n1 n2 n3 = [Vec3 0 0 0; axis_offset k]).
  { unfold get_offsets. destruct Hk as [<-|[<-|[<-|[]]]]; unfold unique_axis in Hu; cbn [Z.eqb Pos.eqb] in Hu;
      destruct Hid as [<-|[<-|[]]]; cbn [z_in existsb Z.eqb Pos.eqb orb];
      first [rewrite Hu; reflexivity | destruct Hu as (-> & ->); reflexivity | destruct Hu as (-> & -> & ->); reflexivity]. }
  rewrite E. split.
  - intros Hs. split.
    + destruct Hk as [<-|[<-|[<-|[]]]]; cbn in Hs; repeat destruct Hs as [<-|Hs]; try contradiction; unfold unit_offset; cbn [v1 v2 v3]; lia.
    + intros X HX. destruct (axis_kept k (2 * h) B c X Hk ltac:(lia) ltac:(lia) Hc ltac:(lia) HX) as (K1 & _).
      destruct Hs as [<-|[<-|[]]]; try tauto.
      exists (Vec3 0 0 0). unfold mvec. cbn [v1 v2 v3]. f_equal; ring.
  - intros (Hu' & HX). pose proof (half_cases s (kept_half s Hu' (HX _ (isometry_mopp _)))) as Hs.
    assert (HB' : B = h \/ B = - h) by lia. clear HB E Hu Hid Hu'.
    destruct Hk as [<-|[<-|[<-|[]]]]; destruct HB' as [-> | ->]; cbn [In axis_offset Z.eqb Pos.eqb];
      [specialize (HX (Mat3 1 0 0 0 0 (-1) 0 1 1) ltac:(iso))|specialize (HX (Mat3 1 0 0 0 1 (-1) 0 1 0) ltac:(iso))
      |specialize (HX (Mat3 0 0 (-1) 0 1 0 1 0 1) ltac:(iso))|specialize (HX (Mat3 1 0 (-1) 0 1 0 1 0 0) ltac:(iso))
      |specialize (HX (Mat3 0 (-1) 0 1 1 0 0 0 1) ltac:(iso))|specialize (HX (Mat3 1 (-1) 0 1 0 0 0 0 1) ltac:(iso))];
      cbn [In off_all] in Hs; repeat destruct Hs as [<-|Hs]; try tauto; exfalso; revert HX;
      (eapply not_kept; [reflexivity|]); vm_compute; first [left; discriminate|right; left; discriminate|right; right; discriminate].
Qed.
Lemma ortho_offsets equal n1 n2 n3 a b c s : 0 < a -> 0 < b -> 0 < c -> a <> b -> a <> c -> b <> c ->
  In s (get_offsets equal 32 n1 n2 n3) <-> unit_offset s /\ forall X, isometry (Mat3 a 0 0 0 b 0 0 0 c) X -> offset_kept X s.
Proof. intros. apply offsets_signs; [cbn; auto|]. intros X. now apply ortho_signs. Qed.
