(** Tetragonal enumerators list exactly the symmetry-preserving HNFs
    (relative to generators of the point group). *)
From Coq Require Import ZArith List Lia Bool.
From Verif Require Import Mat3 Spec PyNum Model_diag PyNumFacts PointGroup EnumTac.
From Verif Require Import Model_stet Model_body_tet.
From Verif Require Import Proofs_mono Proofs_ortho.
Import ListNotations.
Open Scope Z_scope.

Lemma stet_11_gens : enumerates_gens [mopp mid; S_xy; D_pmp] stet_11.
Proof.
  apply enum_intro.
  - intros n H Hin. unfold stet_11 in Hin. d_diag Hin. d_if Hin T. d_half Hin b kb.
    d_if Hin T2. d_if Hin T3. d_half Hin e ke. d_if Hin T4. d_range Hin d. d_if Hin T5.
    d_end Hin a b c d e f. destruct T5 as (T5 & T6).
    d_mod T kc. d_mod T2 k2. d_fmod T3 (- a + k2 * b) k3. d_fmod T4 (kb * e) k4.
    d_fmod T5 (- e * k3 + d * (k2 - 1)) k5. d_fmod T6 (- e * (k2 + 1) + d * kc) k6.
    gens_cases.
    + unfold S_xy; pres_goal.
      * solved k2 (-k3) (-k5).
      * solved kc (-k2) (-k6).
      * solved 0 0 1.
    + unfold D_pmp; pres_goal.
      * solved 1 (-kb) k4.
      * solved 0 (-1) ke.
      * solved 0 0 1.
  - intros a b c d e f Ha Hc Hf Hb Hd He HP.
    use_gen HP S_xy x1 x2 x3 y1 y2 y3 w1 w2 w3.
    zc y2 (-x1) c.
    use_gen HP D_pmp u1 u2 u3 r1 r2 r3 t1 t2 t3.
    zc u1 1 a. zc r1 0 a. zc r2 (-1) c.
    unfold stet_11. enc (a,c,f). encif; [e_mod y1; lia|].
    enc b; [exists (-u2); lia|]. encif; [e_mod x1; lia|].
    encif; [e_fmod (- a + x1 * b) (-x2); lia|].
    enc e; [exists r3; lia|]. encif; [e_fmod (-u2 * e) u3; lia|].
    enc d. encif; [|enc1]. split.
    + e_fmod (e * x2 + d * (x1 - 1)) (-x3); lia.
    + e_fmod (- e * (x1 + 1) + d * y1) (-y3); lia.
Qed.

(** In [stet_21] divisibility of [e] by [c] follows from the other tests. *)
Lemma stet_21_e c e f k m :
  1 <= c -> 1 <= f -> (2 * e = f \/ e = 0) -> f = k * c ->
  - c * c + e * e = m * f * c -> exists t, e = t * c.
Proof.
  intros Hc Hf [He| ->] Hk Hm; [|exists 0; ring].
  assert (E : k * k - 4 * (m * k) - 4 = 0).
  { apply (cancel_fac c); [lia|]. apply (cancel_fac c); [lia|]. nsatz. }
  assert (Ev : Z.even k = true).
  { destruct (Z.even k) eqn:O; [reflexivity|]. exfalso.
    rewrite <- Z.negb_odd in O. apply negb_false_iff in O.
    apply Z.odd_spec in O. destruct O as [j ->]. lia. }
  apply Z.even_spec in Ev. destruct Ev as [t ->]. exists t.
  apply (cancel_fac 2); lia.
Qed.

Lemma stet_21_gens : enumerates_gens [mopp mid; S_yz; D_ppm] stet_21.
Proof.
  apply enum_intro.
  - intros n H Hin. unfold stet_21 in Hin. d_diag Hin. d_if Hin T. d_half Hin b kb.
    d_half Hin d kd. d_if Hin T2. d_half Hin e ke. d_if Hin T3.
    d_end Hin a b c d e f. destruct T3 as ((T3 & T4) & T5).
    d_mod T kf. d_mod T2 k2.
    assert (Ht : exists t, e = t * c).
    { apply fmod0_true in T5; [|fpos|lia]. destruct T5 as (m & T5). cbn [fnum fden fz fadd fsub fmul fdiv fopp] in T5.
      apply (stet_21_e c e f kf m); [lia|lia| |lia|lia].
      assert (ke = 0 \/ ke = 1) as [-> | ->] by nia; lia. }
    destruct Ht as (t & Ht).
    d_fmod T4 (- b + d - k2 * e) k4. d_fmod T5 (- c + t * e) k5.
    gens_cases.
    + unfold S_yz; pres_goal.
      * solved 1 (-k2) (-k4).
      * solved 0 t (-k5).
      * solved 0 kf (-t).
    + unfold D_ppm; pres_goal.
      * solved 1 0 (-kd).
      * solved 0 1 (-ke).
      * solved 0 0 (-1).
  - intros a b c d e f Ha Hc Hf Hb Hd He HP.
    use_gen HP S_yz x1 x2 x3 y1 y2 y3 w1 w2 w3.
    zc x1 1 a. zc y1 0 a. zc w1 0 a.
    use_gen HP D_ppm u1 u2 u3 r1 r2 r3 t1 t2 t3.
    zc u1 1 a. zc u2 0 c. zc r1 0 a. zc r2 1 c.
    unfold stet_21. enc (a,c,f). encif; [e_mod w2; lia|].
    enc b; [exists (-u3 * w2 - 2 * x2); ns|]. enc d; [exists (-u3); lia|].
    encif; [e_mod (-x2); lia|]. enc e; [exists (-r3); lia|]. encif; [|enc1].
    split; [split|].
    + e_fmod (2 * d - 2 * d * y2) (- u3 + u3 * y2); ns.
    + e_fmod (- b + d + x2 * e) (-x3); lia.
    + e_fmod (- c + y2 * e) (-y3); lia.
Qed.

Lemma body_tet_gens : enumerates_gens [mopp mid; S_yz; X_bo19a] body_tet_6_7_15_18.
Proof.
  apply enum_intro.
  - intros n H Hin. unfold body_tet_6_7_15_18 in Hin. d_diag Hin. d_if Hin T.
    d_half Hin e ke. d_if Hin T2. d_if Hin T3. d_range Hin d. d_if Hin T4.
    d_range Hin b. d_if Hin T5. d_if Hin T6. d_end Hin a b c d e f.
    d_mod T kf. d_mod T2 k2. d_fmod T3 (- c + k2 * e) k3. d_mod T4 k4. d_mod T5 k5.
    d_fmod T6 (- b + d - k5 * e) k6.
    gens_cases.
    + unfold S_yz; pres_goal.
      * solved 1 (-k5) (-k6).
      * solved 0 k2 (-k3).
      * solved 0 kf (-k2).
    + unfold X_bo19a; pres_goal.
      * solved (-1) 0 k4.
      * solved 0 (-1) ke.
      * solved 0 0 1.
  - intros a b c d e f Ha Hc Hf Hb Hd He HP.
    use_gen HP S_yz x1 x2 x3 y1 y2 y3 w1 w2 w3.
    zc x1 1 a. zc y1 0 a. zc w1 0 a.
    use_gen HP X_bo19a u1 u2 u3 r1 r2 r3 t1 t2 t3.
    zc u1 (-1) a. zc u2 0 c. zc r1 0 a. zc r2 (-1) c.
    unfold body_tet_6_7_15_18. enc (a,c,f). encif; [e_mod w2; lia|].
    enc e; [exists r3; lia|]. encif; [e_mod y2; lia|].
    encif; [e_fmod (- c + y2 * e) (-y3); lia|]. enc d. encif; [e_mod u3; lia|].
    enc b. encif; [e_mod (-x2); lia|]. encif; [|enc1].
    e_fmod (- b + d + x2 * e) (-x3); lia.
Qed.
