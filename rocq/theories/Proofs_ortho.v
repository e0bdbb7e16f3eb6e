(** Orthorhombic enumerators list exactly the symmetry-preserving HNFs
    (relative to generators of the point group). *)
From Coq Require Import ZArith List Lia Bool.
From Verif Require Import Mat3 Spec PyNum Model_diag PyNumFacts PointGroup EnumTac.
From Verif Require Import Model_so Model_base_ortho Model_body_ortho Model_face_ortho.
From Verif Require Import Proofs_mono.
Import ListNotations.
Open Scope Z_scope.

Lemma so_32_gens : enumerates_gens [mopp mid; D_pmp; D_ppm] so_32.
Proof.
  apply enum_intro.
  - intros n H Hin. unfold so_32 in Hin. d_diag Hin. d_half Hin b kb. d_half Hin e ke.
    d_if Hin T. d_half Hin d kd. d_end Hin a b c d e f. d_mod T k.
    assert (T' : kb * e = k * f) by (apply (cancel_fac c); [assumption|ns]).
    gens_cases.
    + unfold D_pmp; pres_goal.
      * solved 1 (-kb) k.
      * solved 0 (-1) ke.
      * solved 0 0 1.
    + unfold D_ppm; pres_goal.
      * solved 1 0 (-kd).
      * solved 0 1 (-ke).
      * solved 0 0 (-1).
  - intros a b c d e f Ha Hc Hf Hb Hd He HP.
    use_gen HP D_pmp x1 x2 x3 y1 y2 y3 w1 w2 w3.
    zc x1 1 a. zc y1 0 a. zc w1 0 a. zc y2 (-1) c. zc w2 0 c. zc w3 1 f.
    use_gen HP D_ppm u1 u2 u3 r1 r2 r3 t1 t2 t3.
    zc u1 1 a. zc u2 0 c.
    unfold so_32. enc (a,c,f). enc b; [exists (-x2); lia|]. enc e; [exists y3; lia|].
    encif; [e_mod x3; ns|]. enc d; [exists (-u3); lia|]. enc1.
Qed.

Definition X_bo19a := Mat3 (-1) 0 0  0 (-1) 0  1 0 1.
Definition X_bo19b := Mat3 (-1) 0 0  1 1 0  1 0 1.

Lemma body_ortho_19_gens : enumerates_gens [mopp mid; X_bo19a; X_bo19b] body_ortho_19.
Proof.
  apply enum_intro.
  - intros n H Hin. unfold body_ortho_19 in Hin. d_diag Hin. d_range Hin b. d_if Hin T.
    d_half Hin e ke. d_if Hin T2. d_range Hin d. d_if Hin T3. d_end Hin a b c d e f.
    d_mod T k. d_fmod T2 (e * k) k2. d_mod T3 k3.
    gens_cases.
    + unfold X_bo19a; pres_goal.
      * solved (-1) 0 k3.
      * solved 0 (-1) ke.
      * solved 0 0 1.
    + unfold X_bo19b; pres_goal.
      * solved (-1) k (k3 - k2).
      * solved 0 1 0.
      * solved 0 0 1.
  - intros a b c d e f Ha Hc Hf Hb Hd He HP.
    use_gen HP X_bo19a x1 x2 x3 y1 y2 y3 w1 w2 w3.
    zc x1 (-1) a. zc y1 0 a. zc x2 0 c. zc y2 (-1) c.
    use_gen HP X_bo19b u1 u2 u3 r1 r2 r3 t1 t2 t3.
    zc u1 (-1) a.
    unfold body_ortho_19. enc (a,c,f). enc b. encif; [e_mod u2; lia|].
    enc e; [exists y3; lia|]. encif; [e_fmod (e * u2) (x3 - u3); lia|].
    enc d. encif; [e_mod x3; lia|]. enc1.
Qed.

Definition X_bo8a := Mat3 (-1) 0 0  (-1) 1 (-2)  0 0 (-1).
Definition X_bo8b := Mat3 (-1) 0 0  0 1 0  1 0 1.

Lemma body_ortho_8_gens : enumerates_gens [mopp mid; X_bo8a; X_bo8b] body_ortho_8.
Proof.
  apply enum_intro.
  - intros n H Hin. unfold body_ortho_8 in Hin. d_diag Hin. d_if Hin T. d_half Hin b kb.
    d_range Hin e. d_if Hin T2. d_range Hin d. d_if Hin T3. d_end Hin a b c d e f.
    destruct T2 as (T2 & T4). destruct T3 as ((T5 & T6) & T7).
    d_mod T kf. d_mod T2 ke. d_fmod T4 (- (2 * e) + ke * e) k4. d_mod T5 k5.
    d_fmod T6 (- k5 * e) k6. d_fmod T7 (a + 2 * d - ke * b) k7.
    gens_cases.
    + unfold X_bo8a; pres_goal.
      * solved (-1) k5 k6.
      * solved 0 (1 - ke) k4.
      * solved 0 (-kf) (-1 + ke).
    + unfold X_bo8b; pres_goal.
      * assert (kb * e = ke * b) by (apply (cancel_fac c); [assumption|ns]).
        solved (-1) kb k7.
      * solved 0 1 0.
      * solved 0 0 1.
  - intros a b c d e f Ha Hc Hf Hb Hd He HP.
    use_gen HP X_bo8a x1 x2 x3 y1 y2 y3 w1 w2 w3.
    zc x1 (-1) a. zc y1 0 a. zc w1 0 a.
    use_gen HP X_bo8b u1 u2 u3 r1 r2 r3 t1 t2 t3.
    zc u1 (-1) a.
    unfold body_ortho_8. enc (a,c,f). encif; [e_mod (-w2); lia|].
    enc b; [exists u2; lia|]. enc e. encif.
    + split; [e_mod (1 - y2); lia|]. e_fmod (- (2 * e) + (1 - y2) * e) y3; lia.
    + enc d. encif; [|enc1]. split; [split|].
      * e_mod x2; lia.
      * e_fmod (- x2 * e) x3; lia.
      * e_fmod (a + 2 * d - u2 * e) u3; lia.
Qed.

Definition X_bo42a := Mat3 (-1) 0 0  (-1) 1 0  (-1) 0 1.
Definition X_bo42b := Mat3 (-1) 0 0  0 (-1) 0  (-1) 0 1.

Lemma body_ortho_42_gens : enumerates_gens [mopp mid; X_bo42a; X_bo42b] body_ortho_42.
Proof.
  apply enum_intro.
  - intros n H Hin. unfold body_ortho_42 in Hin. d_diag Hin. d_half Hin e ke.
    d_range Hin b. d_if Hin T. d_range Hin d. d_if Hin T2. d_end Hin a b c d e f.
    destruct T as (T & T3). destruct T2 as (T2 & T4).
    d_mod T k. d_fmod T3 (- k * e) k3. d_fmod T2 (- a + 2 * d - k * e) k2. d_mod T4 k4.
    gens_cases.
    + unfold X_bo42a; pres_goal.
      * solved (-1) k k2.
      * solved 0 1 0.
      * solved 0 0 1.
    + unfold X_bo42b; pres_goal.
      * solved (-1) 0 k4.
      * solved 0 (-1) ke.
      * solved 0 0 1.
  - intros a b c d e f Ha Hc Hf Hb Hd He HP.
    use_gen HP X_bo42a x1 x2 x3 y1 y2 y3 w1 w2 w3.
    zc x1 (-1) a.
    use_gen HP X_bo42b u1 u2 u3 r1 r2 r3 t1 t2 t3.
    zc u1 (-1) a. zc r1 0 a. zc u2 0 c. zc r2 (-1) c.
    unfold body_ortho_42. enc (a,c,f). enc e; [exists r3; lia|]. enc b. encif.
    + split; [e_mod x2; lia|]. e_fmod (- x2 * e) (x3 - u3); lia.
    + enc d. encif; [|enc1]. split.
      * e_fmod (- a + 2 * d - x2 * e) x3; lia.
      * e_mod u3; lia.
Qed.

Definition X_fo26 := Mat3 (-1) 0 0  0 (-1) 0  1 1 1.

Lemma face_ortho_26_gens : enumerates_gens [mopp mid; X_bm20; X_fo26] face_ortho_26.
Proof.
  apply enum_intro.
  - intros n H Hin. unfold face_ortho_26 in Hin. d_diag Hin. d_half Hin b kb.
    d_range Hin e. d_if Hin T. d_range Hin d. d_if Hin T2. d_end Hin a b c d e f.
    destruct T as (T & T3). d_mod T k. d_fmod T3 (b + kb * e) k3. d_mod T2 k2.
    gens_cases.
    + unfold X_bm20; pres_goal.
      * solved 1 (-kb) k3.
      * solved 0 (-1) k.
      * solved 0 0 1.
    + unfold X_fo26; pres_goal.
      * solved (-1) 0 k2.
      * solved 0 (-1) k.
      * solved 0 0 1.
  - intros a b c d e f Ha Hc Hf Hb Hd He HP.
    use_gen HP X_bm20 x1 x2 x3 y1 y2 y3 w1 w2 w3.
    zc x1 1 a. zc y1 0 a. zc y2 (-1) c.
    use_gen HP X_fo26 u1 u2 u3 r1 r2 r3 t1 t2 t3.
    zc u1 (-1) a. zc u2 0 c.
    unfold face_ortho_26. enc (a,c,f). enc b; [exists (-x2); lia|]. enc e. encif.
    + split; [e_mod y3; lia|]. e_fmod (b + (-x2) * e) x3; lia.
    + enc d. encif; [|enc1]. e_mod u3; lia.
Qed.

Lemma in_halves_rev c x : In x (if c mod 2 =? 0 then [c / 2; 0] else [0]) <-> In x (halves c).
Proof. unfold halves. destruct (c mod 2 =? 0); cbn [In]; tauto. Qed.

Lemma face_ortho_16_gens : enumerates_gens [mopp mid; X_bm20; X_bo8b] face_ortho_16.
Proof.
  apply enum_intro.
  - intros n H Hin. unfold face_ortho_16 in Hin. d_diag Hin.
    apply in_py_for in Hin; destruct Hin as (b & Hr & Hin); cbv zeta in Hin.
    apply in_halves_rev, in_halves in Hr; [destruct Hr as (Hr & (kb & Hk))|lia].
    d_range Hin e. d_if Hin T. d_range Hin d. d_if Hin T2. d_end Hin a b c d e f.
    destruct T as (T & T3). d_fmod T (- b - kb * e) k. d_mod T3 k3.
    d_fmod T2 (a + 2 * d - kb * e) k2.
    gens_cases.
    + unfold X_bm20; pres_goal.
      * solved 1 (-kb) (-k).
      * solved 0 (-1) k3.
      * solved 0 0 1.
    + unfold X_bo8b; pres_goal.
      * solved (-1) kb k2.
      * solved 0 1 0.
      * solved 0 0 1.
  - intros a b c d e f Ha Hc Hf Hb Hd He HP.
    use_gen HP X_bm20 x1 x2 x3 y1 y2 y3 w1 w2 w3.
    zc x1 1 a. zc y1 0 a. zc y2 (-1) c.
    use_gen HP X_bo8b u1 u2 u3 r1 r2 r3 t1 t2 t3.
    zc u1 (-1) a. zc u2 (-x2) c.
    unfold face_ortho_16. enc (a,c,f).
    apply in_py_for; exists b; split.
    { apply in_halves_rev, in_halves; [lia|]. split; [lia|]. exists (-x2); lia. }
    cbv zeta. enc e. encif.
    + split; [e_fmod (- b - (-x2) * e) (-x3); lia|]. e_mod y3; lia.
    + enc d. encif; [|enc1]. e_fmod (a + 2 * d - (-x2) * e) u3; lia.
Qed.

Definition S_xy := Mat3 0 1 0  1 0 0  0 0 1.
Definition S_yz := Mat3 1 0 0  0 0 1  0 1 0.
Definition S_xz := Mat3 0 0 1  0 1 0  1 0 0.

Lemma base_ortho_38_13_gens : enumerates_gens [mopp mid; S_xy; D_ppm] base_ortho_38_13.
Proof.
  apply enum_intro.
  - intros n H Hin. unfold base_ortho_38_13 in Hin. d_diag Hin. d_if Hin T.
    d_step Hin b kb. d_if Hin T2. d_half Hin e ke. d_half Hin d kd. d_if Hin T3.
    d_end Hin a b c d e f.
    destruct T3 as (T3 & T4). d_mod T kc. d_fmod T2 (- a + kb * b) k2.
    d_fmod T3 (- d + kb * d - e * k2) k3. d_fmod T4 (kc * d - e - kb * e) k4.
    gens_cases.
    + unfold S_xy; pres_goal.
      * solved kb (-k2) (-k3).
      * solved kc (-kb) (-k4).
      * solved 0 0 1.
    + unfold D_ppm; pres_goal.
      * solved 1 0 (-kd).
      * solved 0 1 (-ke).
      * solved 0 0 (-1).
  - intros a b c d e f Ha Hc Hf Hb Hd He HP.
    use_gen HP S_xy x1 x2 x3 y1 y2 y3 w1 w2 w3.
    zc y2 (-x1) c.
    use_gen HP D_ppm u1 u2 u3 r1 r2 r3 t1 t2 t3.
    zc u1 1 a. zc u2 0 c. zc r1 0 a. zc r2 1 c.
    unfold base_ortho_38_13. enc (a,c,f). encif; [e_mod y1; lia|].
    enc b; [exists x1; lia|]. encif; [e_fmod (- a + x1 * b) (-x2); lia|].
    enc e; [exists (-r3); lia|]. enc d; [exists (-u3); lia|]. encif; [|enc1]. split.
    + e_fmod (- d + x1 * d + e * x2) (-x3); lia.
    + e_fmod (y1 * d - e - x1 * e) (-y3); lia.
Qed.

Lemma base_ortho_23_gens : enumerates_gens [mopp mid; D_pmp; S_xz] base_ortho_23.
Proof.
  apply enum_intro.
  - intros n H Hin. unfold base_ortho_23 in Hin. d_diag Hin. d_if Hin T.
    d_half Hin b kb. d_if Hin T2. d_half Hin e ke. d_if Hin T3. d_step Hin d kd.
    d_if Hin T4. d_end Hin a b c d e f.
    destruct T3 as ((T3 & T5) & T6). destruct T4 as ((T4 & T7) & T8).
    d_mod T kf. d_mod T2 k2. d_mod T3 k3. d_mod T5 k5. d_mod T6 k6.
    assert (B2 : b * kf = k2 * c) by (apply (cancel_fac a); [assumption|ns]).
    assert (B3 : b * k6 = k3 * c) by (apply (cancel_fac a); [assumption|ns]).
    assert (B5 : kb * e = k5 * f) by (apply (cancel_fac c); [assumption|ns]).
    d_fmod T4 (- b + b * kd) k4. d_fmod T7 (- a + d * kd - k4 * e) k7.
    d_fmod T8 (e + d * k6 - k3 * e) k8.
    gens_cases.
    + unfold D_pmp; pres_goal.
      * solved 1 (-kb) k5.
      * solved 0 (-1) ke.
      * solved 0 0 1.
    + unfold S_xz; pres_goal.
      * solved kd (-k4) (-k7).
      * solved k6 (1 - k3) (-k8).
      * assert (e * k2 = f * k3) by (apply (cancel_fac c); [assumption|ns]).
        solved kf (-k2) (-kd + k3).
  - intros a b c d e f Ha Hc Hf Hb Hd He HP.
    use_gen HP D_pmp x1 x2 x3 y1 y2 y3 w1 w2 w3.
    zc x1 1 a. zc y1 0 a. zc y2 (-1) c.
    use_gen HP S_xz u1 u2 u3 r1 r2 r3 t1 t2 t3.
    unfold base_ortho_23. enc (a,c,f). encif; [e_mod t1; lia|].
    enc b; [exists (-x2); lia|]. encif; [e_mod (-t2); ns|].
    enc e; [exists y3; lia|]. encif.
    + split; [split|].
      * e_mod (1 - r2); ns.
      * e_mod x3; ns.
      * e_mod r1; lia.
    + enc d; [exists u1; lia|]. encif; [|enc1]. split; [split|].
      * e_fmod (- b + b * u1) (-u2); lia.
      * e_fmod (- a + d * u1 + u2 * e) (-u3); lia.
      * e_fmod (e + d * r1 - (1 - r2) * e) (-r3); lia.
Qed.

Definition X_ba40a := Mat3 1 0 0  0 1 (-1)  0 0 (-1).
Definition X_ba40b := Mat3 (-1) 0 0  0 1 (-1)  0 0 (-1).

Lemma base_ortho_40_gens : enumerates_gens [mopp mid; X_ba40a; X_ba40b] base_ortho_40.
Proof.
  apply enum_intro.
  - intros n H Hin. unfold base_ortho_40 in Hin. d_diag Hin. d_if Hin T.
    d_step Hin e ke. d_if Hin T2. d_step Hin d kd. d_if Hin T3. d_range Hin b.
    d_if Hin T4. d_end Hin a b c d e f.
    destruct T4 as (T4 & T5). d_mod T kf. d_fmod T2 (2 * e - ke * e) k2.
    d_fmod T3 (2 * d - kd * e) k3. d_mod T4 k4. d_fmod T5 (k4 * e) k5.
    gens_cases.
    + unfold X_ba40a; pres_goal.
      * solved 1 (-kd) (-k3).
      * solved 0 (1 - ke) (-k2).
      * solved 0 (-kf) (-1 + ke).
    + unfold X_ba40b; pres_goal.
      * solved (-1) k4 (-k5).
      * solved 0 (1 - ke) (-k2).
      * solved 0 (-kf) (-1 + ke).
  - intros a b c d e f Ha Hc Hf Hb Hd He HP.
    use_gen HP X_ba40a x1 x2 x3 y1 y2 y3 w1 w2 w3.
    zc x1 1 a. zc y1 0 a. zc w1 0 a.
    use_gen HP X_ba40b u1 u2 u3 r1 r2 r3 t1 t2 t3.
    zc u1 (-1) a.
    unfold base_ortho_40. enc (a,c,f). encif; [e_mod (-w2); lia|].
    enc e; [exists (1 - y2); lia|]. encif; [e_fmod (2 * e - (1 - y2) * e) (-y3); lia|].
    enc d; [exists (-x2); lia|]. encif; [e_fmod (2 * d - (-x2) * e) (-x3); lia|].
    enc b. encif; [|enc1]. split.
    + e_mod u2; lia.
    + e_fmod (u2 * e) (-u3); lia.
Qed.

Definition X_ba36 := Mat3 (-1) 0 1  0 (-1) 0  0 0 1.

Lemma base_ortho_36_gens : enumerates_gens [mopp mid; D_pmp; X_ba36] base_ortho_36.
Proof.
  apply enum_intro.
  - intros n H Hin. unfold base_ortho_36 in Hin. d_diag Hin. d_if Hin T.
    d_half Hin b kb. d_if Hin T2. d_half Hin e ke. d_if Hin T3. d_step Hin d kd.
    d_if Hin T4. d_end Hin a b c d e f.
    destruct T3 as ((T3 & T5) & T6). destruct T4 as ((T4 & T7) & T8).
    d_mod T kf. d_fmod T2 (- b * kf) k2. d_mod T6 k6. d_fmod T3 (- b * k6) k3.
    d_fmod T5 (- kb * e) k5. d_fmod T4 (- b * kd) k4.
    d_fmod T7 (2 * d - d * kd - k4 * e) k7.
    d_fmod T8 (2 * e - d * k6 - k3 * e) k8.
    gens_cases.
    + unfold D_pmp; pres_goal.
      * solved 1 (-kb) (-k5).
      * solved 0 (-1) ke.
      * solved 0 0 1.
    + unfold X_ba36; pres_goal.
      * solved (-1 + kd) k4 k7.
      * solved k6 (-1 + k3) k8.
      * assert (e * k2 = f * k3) by (apply (cancel_fac c); [assumption|ns]).
        solved kf k2 (1 - kd - k3).
  - intros a b c d e f Ha Hc Hf Hb Hd He HP.
    use_gen HP D_pmp x1 x2 x3 y1 y2 y3 w1 w2 w3.
    zc x1 1 a. zc y1 0 a. zc y2 (-1) c.
    use_gen HP X_ba36 u1 u2 u3 r1 r2 r3 t1 t2 t3.
    unfold base_ortho_36. enc (a,c,f). encif; [e_mod t1; lia|].
    enc b; [exists (-x2); lia|]. encif; [e_fmod (- b * t1) t2; lia|].
    enc e; [exists y3; lia|]. encif.
    + split; [split|].
      * e_fmod (- b * r1) (1 + r2); lia.
      * e_fmod (x2 * e) (-x3); lia.
      * e_mod r1; lia.
    + enc d; [exists (1 + u1); lia|]. encif; [|enc1]. split; [split|].
      * e_fmod (- b * (1 + u1)) u2; lia.
      * e_fmod (2 * d - d * (1 + u1) - u2 * e) u3; lia.
      * e_fmod (2 * e - d * r1 - (1 + r2) * e) r3; lia.
Qed.
