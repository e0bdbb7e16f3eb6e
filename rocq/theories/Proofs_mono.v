(** Monoclinic enumerators list exactly the symmetry-preserving HNFs
    (relative to generators of the point group). *)
From Coq Require Import ZArith List Lia Bool.
From Verif Require Import Mat3 Spec PyNum Model_diag PyNumFacts PointGroup EnumTac.
From Verif Require Import Model_sm Model_base_mono.
Import ListNotations.
Open Scope Z_scope.

Definition D_pmp := Mat3 1 0 0  0 (-1) 0  0 0 1.
Definition D_ppm := Mat3 1 0 0  0 1 0  0 0 (-1).

Lemma sm_33_gens : enumerates_gens [mopp mid; D_pmp] sm_33.
Proof.
  apply enum_intro.
  - intros n H Hin. unfold sm_33 in Hin. d_diag Hin. d_half Hin b kb. d_half Hin e ke.
    d_if Hin T. d_range Hin d. d_end Hin a b c d e f.
    d_fmod T (kb * e) k.
    gens_cases; unfold D_pmp; pres_goal.
    + solved 1 (-kb) k.
    + solved 0 (-1) ke.
    + solved 0 0 1.
  - intros a b c d e f Ha Hc Hf Hb Hd He HP.
    use_gen HP D_pmp x1 x2 x3 y1 y2 y3 w1 w2 w3.
    zc x1 (1) a. zc y1 (0) a.
    zc y2 (-1) c.
    unfold sm_33. enc (a,c,f). enc b; [exists (-x2); lia|].
    enc e; [exists y3; lia|]. encif.
    + e_fmod (-x2*e) x3; ns.
    + enc d. enc1.
Qed.

Lemma sm_35_gens : enumerates_gens [mopp mid; D_ppm] sm_35.
Proof.
  apply enum_intro.
  - intros n H Hin. unfold sm_35 in Hin. d_diag Hin. d_half Hin e ke. d_half Hin d kd.
    d_range Hin b. d_end Hin a b c d e f.
    gens_cases; unfold D_ppm; pres_goal.
    + solved 1 0 (-kd).
    + solved 0 1 (-ke).
    + solved 0 0 (-1).
  - intros a b c d e f Ha Hc Hf Hb Hd He HP.
    use_gen HP D_ppm x1 x2 x3 y1 y2 y3 w1 w2 w3.
    zc x1 (1) a. zc y1 (0) a.
    zc x2 (0) c. zc y2 (1) c.
    unfold sm_35. enc (a,c,f). enc e; [exists (-y3); lia|]. enc d; [exists (-x3); lia|].
    enc b. enc1.
Qed.

Lemma sm_34_gens : enumerates_gens [mopp mid; D_ppm] sm_34.
Proof.
  apply enum_intro.
  - intros n H Hin. unfold sm_34 in Hin. d_diag Hin. d_half Hin d kd. d_half Hin e ke.
    d_range Hin b. d_end Hin a b c d e f.
    gens_cases; unfold D_ppm; pres_goal.
    + solved 1 0 (-kd).
    + solved 0 1 (-ke).
    + solved 0 0 (-1).
  - intros a b c d e f Ha Hc Hf Hb Hd He HP.
    use_gen HP D_ppm x1 x2 x3 y1 y2 y3 w1 w2 w3.
    zc x1 (1) a. zc y1 (0) a.
    zc x2 (0) c. zc y2 (1) c.
    unfold sm_34. enc (a,c,f). enc d; [exists (-x3); lia|]. enc e; [exists (-y3); lia|].
    enc b. enc1.
Qed.

Definition X_bm10 := Mat3 (-1) 0 0  0 (-1) 0  (-1) 0 1.

Lemma base_mono_10_gens :
  enumerates_gens [mopp mid; X_bm10] base_mono_10_14_17_27_37_39_41.
Proof.
  apply enum_intro.
  - intros n H Hin. unfold base_mono_10_14_17_27_37_39_41 in Hin.
    d_diag Hin. d_half Hin e ke. d_range Hin d. d_if Hin T. d_range Hin b.
    d_end Hin a b c d e f. d_mod T k.
    gens_cases; unfold X_bm10; pres_goal.
    + solved (-1) 0 k.
    + solved 0 (-1) ke.
    + solved 0 0 1.
  - intros a b c d e f Ha Hc Hf Hb Hd He HP.
    use_gen HP X_bm10 x1 x2 x3 y1 y2 y3 w1 w2 w3.
    zc x1 (-1) a. zc y1 (0) a.
    zc x2 (0) c. zc y2 (-1) c.
    unfold base_mono_10_14_17_27_37_39_41. enc (a,c,f). enc e; [exists y3; lia|].
    enc d. encif; [e_mod x3; lia|]. enc b. enc1.
Qed.

Definition X_bm20 := Mat3 1 0 0  0 (-1) 0  0 1 1.

Lemma base_mono_20_25_gens : enumerates_gens [mopp mid; X_bm20] base_mono_20_25.
Proof.
  apply enum_intro.
  - intros n H Hin. unfold base_mono_20_25 in Hin.
    d_diag Hin. d_range Hin e. d_if Hin T. d_half Hin b kb. d_if Hin T2. d_range Hin d.
    d_end Hin a b c d e f. d_mod T k. d_fmod T2 (- b - kb * e) k2.
    gens_cases; unfold X_bm20; pres_goal.
    + solved 1 (-kb) (-k2).
    + solved 0 (-1) (-k).
    + solved 0 0 1.
  - intros a b c d e f Ha Hc Hf Hb Hd He HP.
    use_gen HP X_bm20 x1 x2 x3 y1 y2 y3 w1 w2 w3.
    zc x1 (1) a. zc y1 (0) a.
    zc y2 (-1) c.
    unfold base_mono_20_25. enc (a,c,f). enc e. encif; [e_mod (-y3); lia|].
    enc b; [exists (-x2); lia|]. encif; [e_fmod (- b - (-x2) * e) (-x3); ns|].
    enc d. enc1.
Qed.

Definition X_bm28 := Mat3 (-1) 0 0  0 (-1) (-1)  0 0 1.

Lemma base_mono_28_gens : enumerates_gens [mopp mid; X_bm28] base_mono_28.
Proof.
  apply enum_intro.
  - intros n H Hin. unfold base_mono_28 in Hin.
    d_diag Hin. d_if Hin T. d_step Hin e ke. d_if Hin T2. d_step Hin d kd. d_if Hin T3.
    d_range Hin b. d_end Hin a b c d e f.
    d_mod T kf. d_fmod T2 (2 * (ke * c) + ke * (ke * c)) k2.
    d_fmod T3 (2 * (kd * c) + kd * (ke * c)) k3.
    gens_cases; unfold X_bm28; pres_goal.
    + solved (-1) (-kd) k3.
    + solved 0 (-1 - ke) k2.
    + solved 0 (-kf) (1 + ke).
  - intros a b c d e f Ha Hc Hf Hb Hd He HP.
    use_gen HP X_bm28 x1 x2 x3 y1 y2 y3 w1 w2 w3.
    zc x1 (-1) a. zc y1 (0) a. zc w1 (0) a.
    unfold base_mono_28. enc (a,c,f). encif; [e_mod (-w2); lia|].
    assert (Hd' : d = -x2 * c) by lia. assert (He' : e = (-1 - y2) * c) by lia.
    enc e; [exists (-1 - y2); exact He'|].
    encif; [e_fmod (2 * e + (-1 - y2) * e) y3; ns|].
    enc d; [exists (-x2); exact Hd'|].
    encif; [e_fmod (2 * d + (- x2) * e) x3; ns|]. enc b. enc1.
Qed.

Lemma base_mono_29_30_gens : enumerates_gens [mopp mid; X_bm28] base_mono_29_30.
Proof. exact base_mono_28_gens. Qed.

Definition X_bm43 := Mat3 (-1) 0 0  1 (-1) 1  2 0 1.

Lemma base_mono_43_gens : enumerates_gens [mopp mid; X_bm43] base_mono_43.
Proof.
  apply enum_intro.
  - intros n H Hin. unfold base_mono_43 in Hin.
    d_diag Hin. d_if Hin T. d_step Hin e ke. d_if Hin T2. d_range Hin d. d_if Hin T3.
    d_range Hin b. d_end Hin a b c d e f.
    destruct T3 as [T3 T4].
    d_mod T kf. d_fmod T2 (2 * (ke * c) - ke * (ke * c)) k2. d_mod T3 k3.
    d_fmod T4 (2 * a + 2 * d - k3 * (ke * c)) k4.
    gens_cases; unfold X_bm43; pres_goal.
    + solved (-1) k3 k4.
    + solved 0 (-1 + ke) k2.
    + solved 0 kf (1 - ke).
  - intros a b c d e f Ha Hc Hf Hb Hd He HP.
    use_gen HP X_bm43 x1 x2 x3 y1 y2 y3 w1 w2 w3.
    zc x1 (-1) a. zc y1 (0) a. zc w1 (0) a.
    unfold base_mono_43. enc (a,c,f). encif; [e_mod w2; lia|].
    assert (He' : e = (1 + y2) * c) by lia.
    enc e; [exists (1 + y2); exact He'|].
    encif; [e_fmod (2 * e - (1 + y2) * e) y3; ns|].
    enc d. encif; [split; [e_mod x2; lia|e_fmod (2 * a + 2 * d - x2 * e) x3; ns]|].
    enc b. enc1.
Qed.
