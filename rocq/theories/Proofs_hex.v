(** Hexagonal and rhombohedral enumerators list exactly the symmetry-preserving
    HNFs (relative to generators of the point group). *)
From Coq Require Import ZArith List Lia Bool.
From Verif Require Import Mat3 Spec PyNum Model_diag PyNumFacts PointGroup EnumTac.
From Verif Require Import Model_hx Model_rhom.
From Verif Require Import Proofs_mono.
Import ListNotations.
Open Scope Z_scope.

Definition X_h12a := Mat3 (-1) 0 0  1 1 0  0 0 (-1).
Definition X_h12b := Mat3 (-1) (-1) 0  0 1 0  0 0 1.
Definition X_h12c := Mat3 (-1) (-1) 0  0 1 0  0 0 (-1).

Lemma hex_12_gens : enumerates_gens [mopp mid; X_h12a; X_h12b; X_h12c] hex_12.
Proof.
  apply enum_intro.
  - intros n H Hin. unfold hex_12 in Hin. d_diag Hin. d_if Hin T. d_step Hin b kb.
    d_if Hin T2. d_half Hin e ke. d_if Hin T3. d_range Hin d. d_if Hin T4.
    d_end Hin a b c d e f. destruct T2 as (T2 & T5). destruct T4 as (((T4 & T6) & T7) & T8).
    d_mod T kc. d_mod T2 k2. d_fmod T5 (2 * b + kb * b) k5. d_fmod T3 (k2 * e) k3.
    d_fmod T4 (kb * d - e * k5) k4. d_fmod T6 (2 * d + kb * d - e * k5) k6.
    d_fmod T7 (kc * d - 2 * e - kb * e) k7. d_fmod T8 (kc * d - kb * e) k8.
    gens_cases.
    + unfold X_h12a; pres_goal.
      * solved (-1) k2 (-k3).
      * solved 0 1 (-ke).
      * solved 0 0 (-1).
    + unfold X_h12b; pres_goal.
      * solved (-1 - kb) k5 k6.
      * solved (-kc) (1 + kb) k8.
      * solved 0 0 1.
    + unfold X_h12c; pres_goal.
      * solved (-1 - kb) k5 k4.
      * solved (-kc) (1 + kb) k7.
      * solved 0 0 (-1).
  - intros a b c d e f Ha Hc Hf Hb Hd He HP.
    use_gen HP X_h12a x1 x2 x3 y1 y2 y3 w1 w2 w3.
    zc x1 (-1) a. zc y1 0 a. zc y2 1 c.
    use_gen HP X_h12b u1 u2 u3 r1 r2 r3 t1 t2 t3.
    zc r2 (- u1) c.
    use_gen HP X_h12c o1 o2 o3 p1 p2 p3 q1 q2 q3.
    zc o1 u1 a. zc o2 u2 c. zc p1 r1 a. zc p2 (-u1) c.
    unfold hex_12. enc (a,c,f). encif; [e_mod (-r1); lia|].
    enc b; [exists (-1 - u1); lia|]. encif.
    + split; [e_mod x2; lia|]. e_fmod (2 * b + (-1 - u1) * b) u2; lia.
    + enc e; [exists (-y3); lia|]. encif; [e_fmod (x2 * e) (-x3); lia|].
      enc d. encif; [|enc1]. split; [split; [split|]|].
      * e_fmod ((-1 - u1) * d - e * u2) o3; lia.
      * e_fmod (2 * d + (-1 - u1) * d - e * u2) u3; lia.
      * e_fmod ((-r1) * d - 2 * e - (-1 - u1) * e) p3; lia.
      * e_fmod ((-r1) * d - (-1 - u1) * e) r3; lia.
Qed.

Definition X_h22a := Mat3 (-1) 0 0  0 (-1) 0  0 (-1) 1.
Definition X_h22b := Mat3 (-1) 0 0  0 (-1) 1  0 (-1) 0.

Lemma hex_22_gens : enumerates_gens [mopp mid; X_h22a; X_h22b] hex_22.
Proof.
  apply enum_intro.
  - intros n H Hin. unfold hex_22 in Hin. d_diag Hin. d_if Hin T. d_step Hin e ke.
    d_if Hin T2. d_range Hin b. d_step Hin d kd. d_if Hin T4. d_end Hin a b c d e f.
    destruct T2 as ((T2 & T3) & _). destruct T4 as (T4 & T5).
    d_mod T kf. d_mod T2 k2. d_fmod T3 (- c + e - ke * e) k3. d_mod T4 k4.
    d_fmod T5 (- b + d - kd * e) k5.
    gens_cases.
    + unfold X_h22a; pres_goal.
      * solved (-1) 0 k4.
      * solved 0 (-1) k2.
      * solved 0 0 1.
    + unfold X_h22b; pres_goal.
      * solved (-1) kd k5.
      * solved 0 (-1 + ke) k3.
      * solved 0 kf (-ke).
  - intros a b c d e f Ha Hc Hf Hb Hd He HP.
    use_gen HP X_h22a x1 x2 x3 y1 y2 y3 w1 w2 w3.
    zc x1 (-1) a. zc x2 0 c. zc y1 0 a. zc y2 (-1) c.
    use_gen HP X_h22b u1 u2 u3 r1 r2 r3 t1 t2 t3.
    zc u1 (-1) a. zc r1 0 a. zc t1 0 a.
    unfold hex_22. enc (a,c,f). encif; [e_mod t2; lia|].
    enc e; [exists (1 + r2); lia|]. encif.
    + split; [split|].
      * e_mod y3; lia.
      * e_fmod (- c + e - (1 + r2) * e) r3; lia.
      * e_mod (1 + r2); lia.
    + enc b. enc d; [exists u2; lia|]. encif; [|enc1]. split.
      * e_mod x3; lia.
      * e_fmod (- b + d - u2 * e) u3; lia.
Qed.

Definition X_r9 := Mat3 0 0 (-1)  (-1) 1 1  0 (-1) (-1).

Lemma rhom_9_24_gens : enumerates_gens [mopp mid; X_bm20; X_r9] rhom_9_24.
Proof.
  apply enum_intro.
  - intros n H Hin. unfold rhom_9_24 in Hin. d_diag Hin. d_if Hin T. d_half Hin b kb.
    d_if Hin T2. d_step Hin e ke. d_if Hin T3. d_step Hin d kd. d_if Hin T4.
    d_end Hin a b c d e f. destruct T3 as ((T3 & T5) & T6). destruct T4 as ((T4 & T7) & T8).
    d_mod T kf. d_fmod T2 (f + b * kf) k2. d_fmod T3 (e + b * ke) k3. d_mod T5 k5.
    d_fmod T6 (b + kb * e) k6. d_fmod T4 (- a + b + d + kd * b) k4.
    d_fmod T7 (- b - d + kd * d - e * k4) k7.
    d_fmod T8 (- c - 2 * e + d * ke - e * k3) k8.
    gens_cases.
    + unfold X_bm20; pres_goal.
      * solved 1 (-kb) k6.
      * solved 0 (-1) k5.
      * solved 0 0 1.
    + unfold X_r9; pres_goal.
      * solved (-kd) k4 k7.
      * solved (-ke) (1 + k3) k8.
      * assert (e * k2 = f * k3) by (apply (cancel_fac c); [assumption|ns]).
        solved (-kf) k2 (-1 + kd - k3).
  - intros a b c d e f Ha Hc Hf Hb Hd He HP.
    use_gen HP X_bm20 x1 x2 x3 y1 y2 y3 w1 w2 w3.
    zc x1 1 a. zc y1 0 a. zc y2 (-1) c.
    use_gen HP X_r9 u1 u2 u3 r1 r2 r3 t1 t2 t3.
    unfold rhom_9_24. enc (a,c,f). encif; [e_mod (-t1); lia|].
    enc b; [exists (-x2); lia|]. encif; [e_fmod (f - b * t1) t2; lia|].
    enc e; [exists (-r1); lia|]. encif.
    + split; [split|].
      * e_fmod (e - b * r1) (-1 + r2); lia.
      * e_mod y3; lia.
      * e_fmod (b - x2 * e) x3; lia.
    + enc d; [exists (-u1); lia|]. encif; [|enc1]. split; [split|].
      * e_fmod (- a + b + d - u1 * b) u2; lia.
      * e_fmod (- b - d - u1 * d - e * u2) u3; lia.
      * e_fmod (- c - 2 * e - d * r1 - e * (-1 + r2)) r3; lia.
Qed.

Definition X_r4a := Mat3 1 0 0  0 (-1) 0  0 (-1) 1.
Definition X_r4b := Mat3 0 0 (-1)  (-1) 1 (-1)  (-1) 0 0.

Lemma rhom_4_2_gens : enumerates_gens [mopp mid; X_r4a; X_r4b] rhom_4_2.
Proof.
  apply enum_intro.
  - intros n H Hin. unfold rhom_4_2 in Hin. d_diag Hin. d_if Hin T. d_half Hin b kb.
    d_if Hin T2. d_range Hin e. d_if Hin T3. d_range Hin d. d_if Hin T4.
    d_end Hin a b c d e f. destruct T3 as (((T0 & T3) & T5) & T6).
    destruct T4 as (((T9 & T4) & T7) & T8).
    d_mod T kf. d_mod T0 ke. d_mod T9 kd. d_fmod T2 (- f + b * kf) k2.
    d_fmod T3 (- e + b * ke) k3. d_fmod T5 (b - kb * e) k5. d_mod T6 k6.
    d_fmod T4 (- a + b - d + kd * b) k4.
    d_fmod T7 (- a + kd * d - e * k4) k7.
    d_fmod T8 (- e + d * ke - e * k3) k8.
    gens_cases.
    + unfold X_r4a; pres_goal.
      * solved 1 (-kb) (-k5).
      * solved 0 (-1) (-k6).
      * solved 0 0 1.
    + unfold X_r4b; pres_goal.
      * solved (-kd) k4 k7.
      * solved (-ke) (1 + k3) k8.
      * assert (e * k2 = f * k3) by (apply (cancel_fac c); [assumption|ns]).
        solved (-kf) k2 (kd - k3).
  - intros a b c d e f Ha Hc Hf Hb Hd He HP.
    use_gen HP X_r4a x1 x2 x3 y1 y2 y3 w1 w2 w3.
    zc x1 1 a. zc y1 0 a. zc y2 (-1) c.
    use_gen HP X_r4b u1 u2 u3 r1 r2 r3 t1 t2 t3.
    unfold rhom_4_2. enc (a,c,f). encif; [e_mod (-t1); lia|].
    enc b; [exists (-x2); lia|]. encif; [e_fmod (- f - b * t1) t2; lia|].
    enc e. encif.
    + split; [split; [split|]|].
      * e_mod (-r1); lia.
      * e_fmod (- e - b * r1) (-1 + r2); lia.
      * e_fmod (b + x2 * e) (-x3); lia.
      * e_mod (-y3); lia.
    + enc d. encif; [|enc1]. split; [split; [split|]|].
      * e_mod (-u1); lia.
      * e_fmod (- a + b - d - u1 * b) u2; lia.
      * e_fmod (- a - u1 * d - e * u2) u3; lia.
      * e_fmod (- e - d * r1 - e * (-1 + r2)) r3; lia.
Qed.
