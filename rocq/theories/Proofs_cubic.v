(** Cubic enumerators list exactly the symmetry-preserving HNFs
    (relative to generators of the point group). *)
From Coq Require Import ZArith List Lia Bool.
From Verif Require Import Mat3 Spec PyNum Model_diag PyNumFacts PointGroup PreservesDec EnumTac.
From Verif Require Import Model_sc Model_bcc Model_fcc.
From Verif Require Import Proofs_mono Proofs_ortho.
Import ListNotations.
Open Scope Z_scope.

(** ** Arithmetic of cubes *)

Lemma cube_inj x y : 1 <= x -> 1 <= y -> x * x * x = y * y * y -> x = y.
Proof.
  intros Hx Hy H.
  assert (E : (x - y) * (x * x + x * y + y * y) = 0) by lia.
  apply Z.mul_eq_0 in E. destruct E as [E|E]; [lia|]. nia.
Qed.

Lemma cube_even x k : x * x * x = 2 * k -> exists y, x = 2 * y.
Proof.
  intros H. destruct (Z.Even_or_Odd x) as [(y & E)|(y & E)]; [now exists y|].
  exfalso. subst x. ring_simplify in H. lia.
Qed.

Lemma cube2_aux : forall m : nat, forall x y, 0 <= y < Z.of_nat m ->
  x * x * x = 2 * (y * y * y) -> y = 0.
Proof.
  induction m as [|m IH]; intros x y Hy H; [lia|].
  destruct (cube_even x _ H) as (x' & ->).
  assert (H2 : y * y * y = 2 * (2 * (x' * x' * x'))) by lia.
  destruct (cube_even y _ H2) as (y' & ->).
  assert (H3 : x' * x' * x' = 2 * (y' * y' * y')) by lia.
  destruct (Z.eq_dec y' 0); [lia|].
  apply (IH x' y') in H3; lia.
Qed.

Lemma cube2 x y : 1 <= y -> x * x * x <> 2 * (y * y * y).
Proof.
  intros Hy H.
  assert (y = 0) by (apply (cube2_aux (Z.to_nat (y + 1)) x y); [lia|exact H]). lia.
Qed.

Lemma cube4 x y : 1 <= x -> x * x * x <> 4 * (y * y * y).
Proof.
  intros Hx H.
  destruct (cube_even x (2 * (y * y * y))) as (z & ->); [lia|].
  apply (cube2 y z); lia.
Qed.

Lemma feqz_quot f a k : feqz (fz f / fz a)%frac k = true <-> f = k * a.
Proof. unfold feqz. cbn [fnum fden fz fdiv]. rewrite Z.eqb_eq. lia. Qed.

(** ** Simple cubic *)

Definition gens_sc := [mopp mid; S_xy; S_yz; D_ppm; D_pmp].

Definition sc_sel (a c f : Z) : option mat3 :=
  if (a =? c) && (c =? f) then Some (HNF a 0 c 0 0 f)
  else if (a =? c) && feqz (fz f / a)%frac 2 then Some (HNF a 0 c a a f)
  else if (c =? f) && feqz (fz f / a)%frac 2 then Some (HNF a a c a 0 f)
  else None.

Lemma sc_3_loop_sel a c f l :
  sc_3_loop ((a, c, f) :: l) =
  match sc_sel a c f with Some H => H :: nil | None => sc_3_loop l end.
Proof.
  cbn [sc_3_loop]. unfold sc_sel.
  destruct ((a =? c) && (c =? f)); [reflexivity|].
  destruct ((a =? c) && feqz (fz f / a)%frac 2); [reflexivity|].
  destruct ((c =? f) && feqz (fz f / a)%frac 2); reflexivity.
Qed.

Lemma sc_sel_spec a c f H : 1 <= a ->
  (sc_sel a c f = Some H <->
   (c = a /\ f = a /\ H = HNF a 0 a 0 0 a) \/
   (c = a /\ f = 2 * a /\ H = HNF a 0 a a a (2 * a)) \/
   (c = 2 * a /\ f = 2 * a /\ H = HNF a a (2 * a) a 0 (2 * a))).
Proof.
  intros Ha. unfold sc_sel.
  destruct ((a =? c) && (c =? f)) eqn:E1.
  { apply andb_true_iff in E1. rewrite !Z.eqb_eq in E1. destruct E1 as [-> ->].
    split; [intros E; injection E as <-; left; auto|].
    intros [(_ & _ & ->)|[(_ & E & _)|(E & _)]]; [reflexivity|lia|lia]. }
  destruct ((a =? c) && feqz (fz f / a)%frac 2) eqn:E2.
  { apply andb_true_iff in E2. rewrite Z.eqb_eq, feqz_quot in E2. destruct E2 as [-> ->].
    split; [intros E; injection E as <-; right; left; auto|].
    intros [(_ & E & _)|[(_ & _ & ->)|(E & _)]]; [lia|reflexivity|lia]. }
  destruct ((c =? f) && feqz (fz f / a)%frac 2) eqn:E3.
  { apply andb_true_iff in E3. rewrite Z.eqb_eq, feqz_quot in E3. destruct E3 as [-> ->].
    split; [intros E; injection E as <-; right; right; auto|].
    intros [(E & _)|[(E & _)|(_ & _ & ->)]]; [lia|lia|reflexivity]. }
  split; [discriminate|].
  apply andb_false_iff in E1, E2, E3.
  rewrite !Z.eqb_neq in *.
  intros [(-> & -> & _)|[(-> & -> & _)|(-> & -> & _)]].
  - destruct E1; contradiction.
  - destruct E2 as [E2|E2]; [contradiction|].
    assert (X : feqz (fz (2 * a) / a)%frac 2 = true) by now apply feqz_quot.
    rewrite X in E2. discriminate.
  - destruct E3 as [E3|E3]; [contradiction|].
    assert (X : feqz (fz (2 * a) / a)%frac 2 = true) by now apply feqz_quot.
    rewrite X in E3. discriminate.
Qed.

Lemma sc_loop_sound l H : In H (sc_3_loop l) ->
  exists a c f, In (a, c, f) l /\ sc_sel a c f = Some H.
Proof.
  induction l as [|[[a c] f] l IH]; [intros []|].
  rewrite sc_3_loop_sel. destruct (sc_sel a c f) as [H'|] eqn:E.
  - intros [<-|[]]. exists a, c, f. split; [now left|exact E].
  - intros Hin. destruct (IH Hin) as (a' & c' & f' & Hl & Hs).
    exists a', c', f'. split; [now right|exact Hs].
Qed.

Lemma sc_loop_complete l a c f H :
  (forall a' c' f' H', In (a', c', f') l -> sc_sel a' c' f' = Some H' -> H' = H) ->
  In (a, c, f) l -> sc_sel a c f = Some H -> In H (sc_3_loop l).
Proof.
  induction l as [|[[a0 c0] f0] l IH]; intros HU Hin HS; [destruct Hin|].
  rewrite sc_3_loop_sel. destruct (sc_sel a0 c0 f0) as [H'|] eqn:E.
  - left. apply (HU a0 c0 f0); [now left|exact E].
  - destruct Hin as [Hin|Hin].
    + injection Hin as <- <- <-. rewrite HS in E. discriminate.
    + apply IH; [|exact Hin|exact HS]. intros a' c' f' H' Hl. apply HU. now right.
Qed.

(** The early [break] is harmless: at most one triple of diagonals is accepted. *)
Lemma sc_sel_unique a c f H a' c' f' H' :
  1 <= a -> 1 <= a' -> a * c * f = a' * c' * f' ->
  sc_sel a c f = Some H -> sc_sel a' c' f' = Some H' -> H = H'.
Proof.
  intros Ha Ha' Hn HS HS'. apply sc_sel_spec in HS; [|exact Ha].
  apply sc_sel_spec in HS'; [|exact Ha'].
  destruct HS as [(-> & -> & ->)|[(-> & -> & ->)|(-> & -> & ->)]];
  destruct HS' as [(-> & -> & ->)|[(-> & -> & ->)|(-> & -> & ->)]].
  - rewrite (cube_inj a a') by lia. reflexivity.
  - exfalso. apply (cube2 a a'); lia.
  - exfalso. apply (cube4 a a'); lia.
  - exfalso. apply (cube2 a' a); lia.
  - rewrite (cube_inj a a') by lia. reflexivity.
  - exfalso. apply (cube2 a a'); lia.
  - exfalso. apply (cube4 a' a); lia.
  - exfalso. apply (cube2 a' a); lia.
  - rewrite (cube_inj a a') by lia. reflexivity.
Qed.

Lemma in_sc_3 n H :
  In H (sc_3 n) <->
  exists a, 1 <= a /\
   ((a * a * a = n /\ H = HNF a 0 a 0 0 a) \/
    (2 * (a * a * a) = n /\ H = HNF a 0 a a a (2 * a)) \/
    (4 * (a * a * a) = n /\ H = HNF a a (2 * a) a 0 (2 * a))).
Proof.
  unfold sc_3. split.
  - intros Hin. apply sc_loop_sound in Hin. destruct Hin as (a & c & f & Hd & HS).
    apply in_diagonals in Hd. destruct Hd as (Ha & _ & _ & Hn).
    apply sc_sel_spec in HS; [|exact Ha]. exists a. split; [exact Ha|].
    destruct HS as [(-> & -> & ->)|[(-> & -> & ->)|(-> & -> & ->)]].
    + left. split; [lia|reflexivity].
    + right; left. split; [lia|reflexivity].
    + right; right. split; [lia|reflexivity].
  - intros (a & Ha & Hc).
    assert (HX : exists c f, In (a, c, f) (get_HNF_diagonals n) /\ sc_sel a c f = Some H).
    { destruct Hc as [(<- & ->)|[(<- & ->)|(<- & ->)]].
      - exists a, a. split; [apply in_diagonals; repeat split; lia|].
        apply sc_sel_spec; [exact Ha|]. left. auto.
      - exists a, (2 * a). split; [apply in_diagonals; repeat split; lia|].
        apply sc_sel_spec; [exact Ha|]. right; left. auto.
      - exists (2 * a), (2 * a). split; [apply in_diagonals; repeat split; lia|].
        apply sc_sel_spec; [exact Ha|]. right; right. auto. }
    destruct HX as (c & f & Hd & HS).
    apply (sc_loop_complete _ a c f); [|exact Hd|exact HS].
    intros a' c' f' H' Hd' HS'. apply in_diagonals in Hd, Hd'.
    apply (sc_sel_unique a' c' f' H' a c f H); [tauto|tauto| |exact HS'|exact HS].
    destruct Hd as (_ & _ & _ & ->). tauto.
Qed.

Lemma half_unit k l j x : 0 <= k < l -> 2 * k = j * l -> 1 = k * k + l * x ->
  (k = 0 /\ l = 1) \/ (k = 1 /\ l = 2).
Proof.
  intros Hk Hj H1. assert (j = 0 \/ j = 1) as [-> | ->] by nia.
  - assert (k = 0) by lia. subst k. left. split; [reflexivity|].
    assert (l * x = 1) by lia. destruct (Z.eq_mul_1 l x); lia.
  - assert (l = 2 * k) by lia. subst l. right.
    assert (E : k * (k + 2 * x) = 1) by lia. destruct (Z.eq_mul_1 k (k + 2 * x) E); lia.
Qed.

Lemma scaled_range a k l b c : 1 <= a -> b = a * k -> c = a * l -> 0 <= b < c -> 0 <= k < l.
Proof. intros Ha -> -> H. nia. Qed.

Lemma HNF_scale a b c d e f :
  HNF (a * 1) (a * b) (a * c) (a * d) (a * e) (a * f) = mscale a (HNF 1 b c d e f).
Proof. unfold HNF, mscale. cbn [m11 m12 m13 m21 m22 m23 m31 m32 m33]. f_equal; ring. Qed.

(** The families [a * H0] of the cubic enumerators, [H0] a concrete matrix. *)
Lemma family_preserved gens a b c d e f b0 c0 d0 e0 f0 :
  b = a * b0 -> c = a * c0 -> d = a * d0 -> e = a * e0 -> f = a * f0 ->
  forallb (fun g => preserves_b g (HNF 1 b0 c0 d0 e0 f0)) gens = true ->
  forall g, In g gens -> preserves g (HNF a b c d e f).
Proof.
  intros -> -> -> -> -> HF g Hg. rewrite forallb_forall in HF.
  replace (HNF a (a * b0) (a * c0) (a * d0) (a * e0) (a * f0))
    with (mscale a (HNF 1 b0 c0 d0 e0 f0)).
  - apply preserves_scale, preserves_b_sound, HF, Hg.
  - rewrite <- HNF_scale. f_equal; ring.
Qed.

Ltac family b0 c0 d0 e0 f0 :=
  apply (family_preserved _ _ _ _ _ _ _ b0 c0 d0 e0 f0); try ring; vm_compute; reflexivity.

Lemma sc_3_gens : enumerates_gens gens_sc sc_3.
Proof.
  apply enum_intro.
  - intros n H Hin. apply in_sc_3 in Hin. destruct Hin as (a & Ha & Hc).
    destruct Hc as [(<- & ->)|[(<- & ->)|(<- & ->)]].
    + exists a, 0, a, 0, 0, a. repeat (split; [first [reflexivity|lia]|]). family 0 1 0 0 1.
    + exists a, 0, a, a, a, (2 * a). repeat (split; [first [reflexivity|lia]|]). family 0 1 1 1 2.
    + exists a, a, (2 * a), a, 0, (2 * a). repeat (split; [first [reflexivity|lia]|]).
      family 1 2 1 0 2.
  - intros a b c d e f Ha Hc Hf Hb Hd He HP.
    use_gen HP S_xy x1 x2 x3 y1 y2 y3 w1 w2 w3.
    use_gen HP S_yz u1 u2 u3 r1 r2 r3 t1 t2 t3.
    zc u1 1 a. zc r1 0 a. zc t1 0 a. zc y2 (-x1) c.
    use_gen HP D_pmp o1 o2 o3 p1 p2 p3 q1 q2 q3.
    zc o1 1 a. zc p1 0 a. zc p2 (-1) c.
    use_gen HP D_ppm i1 i2 i3 j1 j2 j3 k1 k2 k3.
    zc i1 1 a. zc i2 0 c. clear HP.
    assert (Eb : b = a * x1) by lia. assert (Ec : c = a * y1) by lia.
    assert (Ee : e = c * r2) by lia. assert (Ef : f = c * t2) by lia.
    assert (E1 : 1 = x1 * x1 + y1 * x2) by (apply (cancel_fac a); [assumption|ns]).
    assert (E2 : 2 * x1 = (-o2) * y1) by (apply (cancel_fac a); [assumption|ns]).
    assert (E3 : 1 = r2 * r2 + t2 * r3) by (apply (cancel_fac c); [assumption|ns]).
    assert (E4 : 2 * r2 = p3 * t2) by (apply (cancel_fac c); [assumption|ns]).
    assert (B1 := scaled_range a x1 y1 b c Ha Eb Ec ltac:(lia)).
    assert (B2 := scaled_range c r2 t2 e f Hc Ee Ef ltac:(lia)).
    apply in_sc_3. exists a. split; [exact Ha|].
    assert (K1 := half_unit x1 y1 (-o2) x2 B1 E2 E1).
    assert (K2 := half_unit r2 t2 p3 r3 B2 E4 E3).
    clear B1 B2.
    destruct K1 as [(-> & ->)|(-> & ->)]; destruct K2 as [(-> & ->)|(-> & ->)].
    + left. assert (b = 0) by lia. assert (c = a) by lia. assert (f = a) by lia.
      assert (e = 0) by lia. split; [rewrite Ef, Ec; ring|].
      assert (Hu := scaled_range a u2 1 d a Ha ltac:(lia) ltac:(lia) ltac:(lia)).
      assert (u2 = 0) by lia. assert (d = 0) by lia. f_equal; lia.
    + right; left. assert (b = 0) by lia. assert (c = a) by lia. assert (f = 2 * a) by lia.
      assert (e = a) by lia. split; [rewrite Ef, Ec; ring|].
      assert (x2 = 1) by lia. subst x2.
      assert (Hu := scaled_range a (1 + 2 * x3) 2 d (2 * a) Ha ltac:(lia) ltac:(lia) ltac:(lia)).
      assert (x3 = 0) by lia. assert (d = a) by lia. f_equal; lia.
    + right; right. assert (b = a) by lia. assert (c = 2 * a) by lia.
      assert (f = 2 * a) by lia. assert (e = 0) by lia. split; [rewrite Ef, Ec; ring|].
      assert (Hu := scaled_range a (1 + 2 * u2) 2 d (2 * a) Ha ltac:(lia) ltac:(lia) ltac:(lia)).
      assert (u2 = 0) by lia. assert (d = a) by lia. f_equal; lia.
    + exfalso. assert (b = a) by lia. assert (c = 2 * a) by lia.
      assert (f = 4 * a) by lia. assert (e = 2 * a) by lia.
      assert (o2 = -1) by lia. subst o2.
      assert (4 * o3 = 2) by (apply (cancel_fac a); lia). lia.
Qed.

(** ** Body-centred cubic *)

Definition X_bcc := Mat3 1 0 (-1)  0 1 (-1)  0 0 (-1).
Definition gens_bcc := [mopp mid; S_xy; S_yz; X_bcc].

Lemma in_bcc_5 n H :
  In H (bcc_5 n) <->
  exists a, 1 <= a /\
   ((a * a * a = n /\ H = HNF a 0 a 0 0 a) \/
    (2 * (a * a * a) = n /\ H = HNF a 0 a a a (2 * a)) \/
    (4 * (a * a * a) = n /\ H = HNF a 0 a (3 * a) (3 * a) (4 * a))).
Proof.
  unfold bcc_5. rewrite in_py_for. split.
  - intros (((a & c) & f) & Hd & Hin). apply in_diagonals in Hd.
    destruct Hd as (Ha & _ & _ & Hn). exists a. split; [exact Ha|].
    destruct ((a =? c) && (a =? f)) eqn:E1.
    { apply andb_true_iff in E1. rewrite !Z.eqb_eq in E1. destruct E1 as [-> ->].
      destruct Hin as [<-|[]]. left. split; [lia|reflexivity]. }
    destruct ((a =? c) && feqz (fz f / a)%frac 2) eqn:E2.
    { apply andb_true_iff in E2. rewrite Z.eqb_eq, feqz_quot in E2. destruct E2 as [-> ->].
      destruct Hin as [<-|[]]. right; left. split; [lia|reflexivity]. }
    destruct ((a =? c) && feqz (fz f / a)%frac 4) eqn:E3; [|destruct Hin].
    apply andb_true_iff in E3. rewrite Z.eqb_eq, feqz_quot in E3. destruct E3 as [-> ->].
    destruct Hin as [<-|[]]. right; right. split; [lia|reflexivity].
  - assert (Q : forall k a, feqz (fz (k * a) / a)%frac k = true)
      by (intros; now apply feqz_quot).
    intros (a & Ha & [(<- & ->)|[(<- & ->)|(<- & ->)]]).
    + exists (a, a, a). split; [apply in_diagonals; repeat split; lia|].
      rewrite Z.eqb_refl. now left.
    + exists (a, a, 2 * a). split; [apply in_diagonals; repeat split; lia|].
      rewrite Z.eqb_refl, Q.
      replace (a =? 2 * a) with false by (symmetry; apply Z.eqb_neq; lia). now left.
    + exists (a, a, 4 * a). split; [apply in_diagonals; repeat split; lia|].
      rewrite Z.eqb_refl, Q.
      replace (a =? 4 * a) with false by (symmetry; apply Z.eqb_neq; lia).
      replace (feqz (fz (4 * a) / a)%frac 2) with false; [now left|].
      symmetry. apply not_true_is_false. rewrite feqz_quot. lia.
Qed.

Lemma unit_mult k l z : 0 <= k < l -> 1 - k = l * z -> k = 1 \/ (k = 0 /\ l = 1).
Proof. intros Hk H. assert (z = 0 \/ z = 1) as [-> | ->] by nia; lia. Qed.
Lemma succ_mult t u z : 0 <= t < u -> t + 1 = u * z -> t + 1 = u.
Proof. intros Ht H. assert (z = 1) by nia. subst z. lia. Qed.
Lemma congr_small m t u y : 0 <= m < u -> 0 <= t < u -> t = m + u * y -> m = t.
Proof. intros Hm Ht H. assert (y = 0) by nia. subst y. lia. Qed.
Lemma le_factor u z k : 1 <= u -> 1 <= k -> u * z = k -> u <= k.
Proof. intros Hu Hk H. assert (1 <= z) by nia. nia. Qed.

(** The arithmetic core, after division by [a]. *)
Lemma bcc_core kb kc m t u x2 y3 u2 u3 r3 o2 o3 :
  0 <= kb < kc -> 0 <= t < u -> 0 <= m < kc * u ->
  1 = kb * kb + kc * x2 ->
  t = m - t * kb + u * y3 ->
  kb + kc * u2 = m ->
  kb = m + kc * t * u2 + kc * u * u3 ->
  1 = t * t + u * r3 ->
  kb * m - m = kc * o2 ->
  - m = m * (1 - m) + kc * t * o2 + kc * u * o3 ->
  kb = 0 /\ kc = 1 /\ m = t /\
  ((u = 1 /\ t = 0) \/ (u = 2 /\ t = 1) \/ (u = 4 /\ t = 3)).
Proof.
  intros Hkb Ht Hm S1 S3 S4 S5 S6 B1 B2.
  assert (D1 : 1 - kb = kc * (o2 + x2 - u2 * (kb - 1))) by (subst m; nsatz).
  assert (kb = 1 \/ (kb = 0 /\ kc = 1)) as [-> | (-> & ->)].
  { exact (unit_mult _ _ _ Hkb D1). }
  - exfalso. subst m.
    assert (E : kc * (kc * (u2 * u2) - t * o2 - u * o3) = 1) by lia.
    destruct (Z.eq_mul_1 _ _ E); lia.
  - assert (m = t) by (apply (congr_small m t u y3); lia). subst m.
    assert (u2 = t) by lia. subst u2.
    assert (E : t + 1 = u * (r3 - u3)) by lia.
    assert (E' := succ_mult _ _ _ Ht E). assert (t = u - 1) by lia. subst t.
    assert (o2 = 1 - u) by lia. subst o2.
    assert (E4 : u * (o3 - 2 * u + 6) = 4) by lia.
    assert (u <= 4) by (refine (le_factor u _ 4 _ _ E4); lia).
    assert (u = 1 \/ u = 2 \/ u = 3 \/ u = 4) as [-> | [-> | [-> | ->]]] by lia; lia.
Qed.

Lemma bcc_5_gens : enumerates_gens gens_bcc bcc_5.
Proof.
  apply enum_intro.
  - intros n H Hin. apply in_bcc_5 in Hin. destruct Hin as (a & Ha & Hc).
    destruct Hc as [(<- & ->)|[(<- & ->)|(<- & ->)]].
    + exists a, 0, a, 0, 0, a. repeat (split; [first [reflexivity|lia]|]). family 0 1 0 0 1.
    + exists a, 0, a, a, a, (2 * a). repeat (split; [first [reflexivity|lia]|]). family 0 1 1 1 2.
    + exists a, 0, a, (3 * a), (3 * a), (4 * a). repeat (split; [first [reflexivity|lia]|]).
      family 0 1 3 3 4.
  - intros a b c d e f Ha Hc Hf Hb Hd He HP.
    use_gen HP S_xy x1 x2 x3 y1 y2 y3 w1 w2 w3.
    zc y2 (-x1) c.
    use_gen HP S_yz u1 u2 u3 r1 r2 r3 t1 t2 t3.
    zc u1 1 a. zc r1 0 a. zc t1 0 a.
    use_gen HP X_bcc o1 o2 o3 p1 p2 p3 q1 q2 q3. clear HP.
    assert (Eb : b = a * x1) by lia. assert (Ec : c = a * y1) by lia.
    assert (Ee : e = c * r2) by lia. assert (Ef : f = c * t2) by lia.
    assert (Ed : d = a * (1 - o1)) by lia.
    destruct (bcc_core x1 y1 (1 - o1) r2 t2 x2 y3 u2 u3 r3 o2 o3)
      as (-> & -> & Hm & Hu).
    + exact (scaled_range a _ _ b c Ha Eb Ec ltac:(lia)).
    + exact (scaled_range c _ _ e f Hc Ee Ef ltac:(lia)).
    + apply (scaled_range a _ _ d f Ha Ed); [rewrite Ef, Ec; ring|lia].
    + apply (cancel_fac a); [assumption|ns].
    + apply (cancel_fac c); [assumption|ns].
    + apply (cancel_fac a); [assumption|ns].
    + apply (cancel_fac a); [assumption|ns].
    + apply (cancel_fac c); [assumption|ns].
    + apply (cancel_fac a); [assumption|ns].
    + apply (cancel_fac a); [assumption|ns].
    + apply in_bcc_5. exists a. split; [exact Ha|].
      assert (b = 0) by lia. assert (c = a) by lia. rewrite Hm in Ed. subst b c.
      destruct Hu as [(-> & ->)|[(-> & ->)|(-> & ->)]].
      * left. assert (d = 0) by lia. split; [lia|]. subst d. f_equal; lia.
      * right; left. assert (d = a) by lia. split; [lia|]. subst d. f_equal; lia.
      * right; right. assert (d = 3 * a) by lia. split; [lia|]. subst d. f_equal; lia.
Qed.

(** ** Face-centred cubic *)

Definition X_fcc := Mat3 1 1 1  0 (-1) 0  0 0 (-1).
Definition gens_fcc := [mopp mid; S_xy; S_yz; X_fcc].

Lemma in_fcc_1 n H :
  In H (fcc_1 n) <->
  exists a, 1 <= a /\
   ((a * a * a = n /\ H = HNF a 0 a 0 0 a) \/
    (4 * (a * a * a) = n /\ H = HNF a a (2 * a) a 0 (2 * a)) \/
    (16 * (a * a * a) = n /\ H = HNF a a (4 * a) a 0 (4 * a))).
Proof.
  unfold fcc_1. rewrite in_py_for. split.
  - intros (((a & c) & f) & Hd & Hin). apply in_diagonals in Hd.
    destruct Hd as (Ha & _ & _ & Hn). exists a. split; [exact Ha|].
    destruct ((a =? c) && (a =? f)) eqn:E1.
    { apply andb_true_iff in E1. rewrite !Z.eqb_eq in E1. destruct E1 as [-> ->].
      destruct Hin as [<-|[]]. left. split; [lia|reflexivity]. }
    destruct ((c =? f) && (feqz (fz f / a)%frac 2 || feqz (fz f / a)%frac 4)) eqn:E2;
      [|destruct Hin].
    apply andb_true_iff in E2. rewrite Z.eqb_eq, orb_true_iff, !feqz_quot in E2.
    destruct E2 as [-> E2]. destruct Hin as [<-|[]].
    destruct E2 as [-> | ->]; right; [left|right]; (split; [lia|reflexivity]).
  - assert (Q : forall k a, feqz (fz (k * a) / a)%frac k = true)
      by (intros; now apply feqz_quot).
    intros (a & Ha & [(<- & ->)|[(<- & ->)|(<- & ->)]]).
    + exists (a, a, a). split; [apply in_diagonals; repeat split; lia|].
      rewrite Z.eqb_refl. now left.
    + exists (a, 2 * a, 2 * a). split; [apply in_diagonals; repeat split; lia|].
      rewrite Z.eqb_refl, Q.
      replace (a =? 2 * a) with false by (symmetry; apply Z.eqb_neq; lia). now left.
    + exists (a, 4 * a, 4 * a). split; [apply in_diagonals; repeat split; lia|].
      rewrite Z.eqb_refl, Q, orb_true_r.
      replace (a =? 4 * a) with false by (symmetry; apply Z.eqb_neq; lia). now left.
Qed.

Lemma fcc_core kb kc m t u x2 x3 y3 u2 r3 o2 o3 p2 p3 :
  0 <= kb < kc -> 0 <= t < u -> 0 <= m < kc * u ->
  1 = kb * kb + kc * x2 ->
  m = m * kb + kc * t * x2 + kc * u * x3 ->
  t = m - t * kb + u * y3 ->
  kb + kc * u2 = m ->
  1 = t * t + u * r3 ->
  - kb = kb * (1 + kb + m) + kc * o2 ->
  - m = m * (1 + kb + m) + kc * t * o2 + kc * u * o3 ->
  -1 = kb * (1 + t) + p2 ->
  - t = m * (1 + t) + t * p2 + u * p3 ->
  u = 1 /\ t = 0 /\ m = kb /\
  ((kc = 1 /\ kb = 0) \/ (kc = 2 /\ kb = 1) \/ (kc = 4 /\ kb = 1)).
Proof.
  intros Hkb Ht Hm S1 S2 S3 S4 S6 F1 F2 F3 F4.
  assert (D1 : t + 1 = u * ((1 + t) * y3 - p3 + r3)).
  { assert (Em : m = t + t * kb - u * y3) by lia.
    assert (Ep : p2 = -1 - kb * (1 + t)) by lia. rewrite Em, Ep in F4. lia. }
  assert (D1' := succ_mult _ _ _ Ht D1).
  assert (t = u - 1) by lia. subst t.
  assert (U : u = 1).
  { assert (Em : m = (u - 1) + (u - 1) * kb - u * y3) by lia.
    assert (Q : 0 = (2 + kb + m) * (m - (u - 1) * kb) + kc * u * o3).
    { assert (Eo : kc * o2 = - kb * (2 + kb + m)) by lia.
      replace (kc * (u - 1) * o2) with ((u - 1) * (kc * o2)) in F2 by ring.
      rewrite Eo in F2. lia. }
    rewrite Em in Q.
    assert (E : u * (kc * o3 + (1 + kb - y3) * (-1 + u * (1 - y3)) + (1 - y3)) = 1) by lia.
    destruct (Z.eq_mul_1 _ _ E); lia. }
  subst u. assert (m = kb) by (symmetry; apply (congr_small kb m kc u2); lia). clear S4. subst m.
  split; [reflexivity|]. split; [reflexivity|]. split; [reflexivity|].
  assert (D2 : 1 - kb = kc * (x2 - x3)) by lia.
  assert (kb = 1 \/ (kb = 0 /\ kc = 1)) as [-> | (-> & ->)].
  { exact (unit_mult _ _ _ Hkb D2). }
  - right. assert (E4 : kc * (- o2) = 4) by lia.
    assert (kc <= 4) by (refine (le_factor kc _ 4 _ _ E4); lia).
    assert (kc = 2 \/ kc = 3 \/ kc = 4) as [-> | [-> | ->]] by lia; lia.
  - left. auto.
Qed.

Lemma fcc_1_gens : enumerates_gens gens_fcc fcc_1.
Proof.
  apply enum_intro.
  - intros n H Hin. apply in_fcc_1 in Hin. destruct Hin as (a & Ha & Hc).
    destruct Hc as [(<- & ->)|[(<- & ->)|(<- & ->)]].
    + exists a, 0, a, 0, 0, a. repeat (split; [first [reflexivity|lia]|]). family 0 1 0 0 1.
    + exists a, a, (2 * a), a, 0, (2 * a). repeat (split; [first [reflexivity|lia]|]).
      family 1 2 1 0 2.
    + exists a, a, (4 * a), a, 0, (4 * a). repeat (split; [first [reflexivity|lia]|]).
      family 1 4 1 0 4.
  - intros a b c d e f Ha Hc Hf Hb Hd He HP.
    use_gen HP S_xy x1 x2 x3 y1 y2 y3 w1 w2 w3.
    zc y2 (-x1) c.
    use_gen HP S_yz u1 u2 u3 r1 r2 r3 t1 t2 t3.
    zc u1 1 a. zc r1 0 a. zc t1 0 a.
    use_gen HP X_fcc o1 o2 o3 p1 p2 p3 q1 q2 q3. clear HP.
    assert (Eb : b = a * x1) by lia. assert (Ec : c = a * y1) by lia.
    assert (Ee : e = c * r2) by lia. assert (Ef : f = c * t2) by lia.
    assert (Ed : d = a * (o1 - 1 - x1)) by lia.
    assert (Ep : p1 = y1 * (1 + r2)) by (apply (cancel_fac a); [assumption|ns]).
    destruct (fcc_core x1 y1 (o1 - 1 - x1) r2 t2 x2 x3 y3 u2 r3 o2 o3 p2 p3)
      as (-> & -> & Hm & Hu).
    + exact (scaled_range a _ _ b c Ha Eb Ec ltac:(lia)).
    + exact (scaled_range c _ _ e f Hc Ee Ef ltac:(lia)).
    + apply (scaled_range a _ _ d f Ha Ed); [rewrite Ef, Ec; ring|lia].
    + apply (cancel_fac a); [assumption|ns].
    + apply (cancel_fac a); [assumption|ns].
    + apply (cancel_fac c); [assumption|ns].
    + apply (cancel_fac a); [assumption|ns].
    + apply (cancel_fac c); [assumption|ns].
    + apply (cancel_fac a); [assumption|ns].
    + apply (cancel_fac a); [assumption|ns].
    + apply (cancel_fac c); [assumption|ns].
    + apply (cancel_fac c); [assumption|ns].
    + apply in_fcc_1. exists a. split; [exact Ha|].
      assert (Hd' : d = b) by (rewrite Ed, Hm, Eb; reflexivity).
      destruct Hu as [(-> & ->)|[(-> & ->)|(-> & ->)]].
      * left. split; [|f_equal; lia]. assert (c = a) by lia. assert (f = a) by lia. subst; ring.
      * right; left. assert (c = 2 * a) by lia. assert (f = 2 * a) by lia.
        split; [subst; ring|]. f_equal; lia.
      * right; right. assert (c = 4 * a) by lia. assert (f = 4 * a) by lia.
        split; [subst; ring|]. f_equal; lia.
Qed.
