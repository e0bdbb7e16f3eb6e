(** The Fortran enumerators for monoclinic, orthorhombic and tetragonal lattices list exactly
    the symmetry-preserving HNFs (relative to generators of the point group). *)
From Coq Require Import ZArith List Lia Bool Znumtheory.
From Verif Require Import Mat3 Spec PyNum Model_diag PyNumFacts PointGroup EnumTac.
From Verif Require Import Model_sp_hnfs FortFacts Proofs_mono Proofs_ortho Proofs_tet.
Import ListNotations.
Open Scope Z_scope.

(** ** Monoclinic *)

Lemma f_sm_33_gens : enumerates_gens [mopp mid; D_pmp] f_sm_33.
Proof.
  apply enum_intro.
  - intros n H Hin. unfold f_sm_33 in Hin. fd_diag Hin. fd_half Hin b kb. fd_half Hin e ke.
    d_if Hin T. d_if Hin T2. fd_range Hin d. d_end Hin a b c d e f.
    fq T2 (kb * e). d_rem T2 k.
    gens_cases; unfold D_pmp; pres_goal.
    + solved 1 (-kb) k.
    + solved 0 (-1) ke.
    + solved 0 0 1.
  - intros a b c d e f Ha Hc Hf Hb Hd He HP.
    use_gen HP D_pmp x1 x2 x3 y1 y2 y3 w1 w2 w3.
    zc x1 (1) a. zc y1 (0) a.
    zc y2 (-1) c.
    unfold f_sm_33. fenc (a,c,f). fenc b; [exists (-x2); lia|].
    fenc e; [exists y3; lia|]. encif; [e_rem (-x2 * e); ez|]. encif.
    + gq (-x2*e). e_rem x3; ez.
    + fenc d. enc1.
Qed.

Lemma f_sm_34_35_gens : enumerates_gens [mopp mid; D_ppm] f_sm_34_35.
Proof.
  apply enum_intro.
  - intros n H Hin. unfold f_sm_34_35 in Hin. fd_diag Hin. fd_half Hin d kd. fd_half Hin e ke.
    fd_range Hin b. d_end Hin a b c d e f.
    gens_cases; unfold D_ppm; pres_goal.
    + solved 1 0 (-kd).
    + solved 0 1 (-ke).
    + solved 0 0 (-1).
  - intros a b c d e f Ha Hc Hf Hb Hd He HP.
    use_gen HP D_ppm x1 x2 x3 y1 y2 y3 w1 w2 w3.
    zc x1 (1) a. zc y1 (0) a.
    zc x2 (0) c. zc y2 (1) c.
    unfold f_sm_34_35. fenc (a,c,f). fenc d; [exists (-x3); lia|]. fenc e; [exists (-y3); lia|].
    fenc b. enc1.
Qed.

Lemma f_basecm_10_gens :
  enumerates_gens [mopp mid; X_bm10] f_basecm_10_14_17_27_37_39_41.
Proof.
  apply enum_intro.
  - intros n H Hin. unfold f_basecm_10_14_17_27_37_39_41 in Hin.
    fd_diag Hin. fd_half Hin e ke. fd_range Hin d. d_if Hin T. fd_range Hin b.
    d_end Hin a b c d e f. d_rem T k.
    gens_cases; unfold X_bm10; pres_goal.
    + solved (-1) 0 k.
    + solved 0 (-1) ke.
    + solved 0 0 1.
  - intros a b c d e f Ha Hc Hf Hb Hd He HP.
    use_gen HP X_bm10 x1 x2 x3 y1 y2 y3 w1 w2 w3.
    zc x1 (-1) a. zc y1 (0) a.
    zc x2 (0) c. zc y2 (-1) c.
    unfold f_basecm_10_14_17_27_37_39_41. fenc (a,c,f). fenc e; [exists y3; lia|].
    fenc d. encif; [e_rem x3; ez|]. fenc b. enc1.
Qed.

Lemma f_basecm_20_25_gens : enumerates_gens [mopp mid; X_bm20] f_basecm_20_25.
Proof.
  apply enum_intro.
  - intros n H Hin. unfold f_basecm_20_25 in Hin.
    fd_diag Hin. fd_range Hin e. d_if Hin T. fd_half Hin b kb. d_if Hin T1. d_if Hin T2.
    fd_range Hin d. d_end Hin a b c d e f. d_rem T k. fq T2 (kb * e). d_rem T2 k2.
    gens_cases; unfold X_bm20; pres_goal.
    + solved 1 (-kb) (-k2).
    + solved 0 (-1) (-k).
    + solved 0 0 1.
  - intros a b c d e f Ha Hc Hf Hb Hd He HP.
    use_gen HP X_bm20 x1 x2 x3 y1 y2 y3 w1 w2 w3.
    zc x1 (1) a. zc y1 (0) a.
    zc y2 (-1) c.
    unfold f_basecm_20_25. fenc (a,c,f). fenc e. encif; [e_rem (-y3); ez|].
    fenc b; [exists (-x2); lia|]. encif; [e_rem (-x2 * e); ez|].
    encif; [gq (-x2 * e); e_rem (-x3); ez|]. fenc d. enc1.
Qed.

Lemma f_basecm_28_gens : enumerates_gens [mopp mid; X_bm28] f_basecm_28.
Proof.
  apply enum_intro.
  - intros n H Hin. unfold f_basecm_28 in Hin.
    fd_diag Hin. d_if Hin T. fd_step Hin e ke. d_if Hin T2. fd_step Hin d kd. d_if Hin T3.
    fd_range Hin b. d_end Hin a b c d e f.
    d_rem T kf. fq T2 (ke * (ke * c)). d_rem T2 k2.
    fq T3 (kd * (ke * c)). d_rem T3 k3.
    gens_cases; unfold X_bm28; pres_goal.
    + solved (-1) (-kd) k3.
    + solved 0 (-1 - ke) k2.
    + solved 0 (-kf) (1 + ke).
  - intros a b c d e f Ha Hc Hf Hb Hd He HP.
    use_gen HP X_bm28 x1 x2 x3 y1 y2 y3 w1 w2 w3.
    zc x1 (-1) a. zc y1 (0) a. zc w1 (0) a.
    unfold f_basecm_28. fenc (a,c,f). encif; [e_rem (-w2); ez|].
    assert (Hd' : d = -x2 * c) by lia. assert (He' : e = (-1 - y2) * c) by lia.
    fenc e; [exists (-1 - y2); exact He'|].
    encif; [gq ((-1 - y2) * e); e_rem y3; ez|].
    fenc d; [exists (-x2); exact Hd'|].
    encif; [gq ((- x2) * e); e_rem x3; ez|]. fenc b. enc1.
Qed.

Lemma f_basecm_29_30_gens : enumerates_gens [mopp mid; X_bm28] f_basecm_29_30.
Proof. exact f_basecm_28_gens. Qed.

Lemma f_basecm_43_gens : enumerates_gens [mopp mid; X_bm43] f_basecm_43.
Proof.
  apply enum_intro.
  - intros n H Hin. unfold f_basecm_43 in Hin.
    fd_diag Hin. d_if Hin T. fd_step Hin e ke. d_if Hin T2. fd_range Hin d. d_if Hin T3.
    fd_range Hin b. d_end Hin a b c d e f.
    destruct T3 as [T3 T4].
    d_rem T kf. fq T2 (ke * (ke * c)). d_rem T2 k2. d_rem T3 k3.
    fq T4 (k3 * (ke * c)). d_rem T4 k4.
    gens_cases; unfold X_bm43; pres_goal.
    + solved (-1) k3 k4.
    + solved 0 (-1 + ke) k2.
    + solved 0 kf (1 - ke).
  - intros a b c d e f Ha Hc Hf Hb Hd He HP.
    use_gen HP X_bm43 x1 x2 x3 y1 y2 y3 w1 w2 w3.
    zc x1 (-1) a. zc y1 (0) a. zc w1 (0) a.
    unfold f_basecm_43. fenc (a,c,f). encif; [e_rem w2; ez|].
    assert (He' : e = (1 + y2) * c) by lia.
    fenc e; [exists (1 + y2); exact He'|].
    encif; [gq ((1 + y2) * e); e_rem y3; ez|].
    fenc d. encif; [split; [e_rem x2; ez|gq (x2 * e); e_rem x3; ez]|].
    fenc b. enc1.
Qed.

(** ** Orthorhombic *)

Lemma f_so_32_gens : enumerates_gens [mopp mid; D_pmp; D_ppm] f_so_32.
Proof.
  apply enum_intro.
  - intros n H Hin. unfold f_so_32 in Hin. fd_diag Hin. fd_half Hin b kb. fd_half Hin e ke.
    d_if Hin T. fd_half Hin d kd. d_end Hin a b c d e f. d_rem T k.
    assert (T' : kb * e = k * f) by (apply (cancel_fac c); [assumption|ns]).
    gens_cases.
    + unfold D_pmp; pres_goal.
      * solved 1 (-kb) k.
      * solved 0 (-1) ke.
      * solved 0 0 1.
    + unfold D_ppm; pres_goal.
      * solved 1 0 (-kd).
      * solved 0 1 (-ke).
      * solved 0 0 (-1).
  - intros a b c d e f Ha Hc Hf Hb Hd He HP.
    use_gen HP D_pmp x1 x2 x3 y1 y2 y3 w1 w2 w3.
    zc x1 1 a. zc y1 0 a. zc w1 0 a. zc y2 (-1) c. zc w2 0 c. zc w3 1 f.
    use_gen HP D_ppm u1 u2 u3 r1 r2 r3 t1 t2 t3.
    zc u1 1 a. zc u2 0 c.
    unfold f_so_32. fenc (a,c,f). fenc b; [exists (-x2); lia|]. fenc e; [exists y3; lia|].
    encif; [e_rem x3; ez|]. fenc d; [exists (-u3); lia|]. enc1.
Qed.

Lemma f_bco_19_gens : enumerates_gens [mopp mid; X_bo19a; X_bo19b] f_bco_19.
Proof.
  apply enum_intro.
  - intros n H Hin. unfold f_bco_19 in Hin. fd_diag Hin. fd_range Hin b. d_if Hin T.
    fd_half Hin e ke. d_if Hin T1. d_if Hin T2. fd_range Hin d. d_if Hin T3.
    d_end Hin a b c d e f. d_rem T k. fq T2 (e * k). d_rem T2 k2. d_rem T3 k3.
    gens_cases.
    + unfold X_bo19a; pres_goal.
      * solved (-1) 0 k3.
      * solved 0 (-1) ke.
      * solved 0 0 1.
    + unfold X_bo19b; pres_goal.
      * solved (-1) k (k3 - k2).
      * solved 0 1 0.
      * solved 0 0 1.
  - intros a b c d e f Ha Hc Hf Hb Hd He HP.
    use_gen HP X_bo19a x1 x2 x3 y1 y2 y3 w1 w2 w3.
    zc x1 (-1) a. zc y1 0 a. zc x2 0 c. zc y2 (-1) c.
    use_gen HP X_bo19b u1 u2 u3 r1 r2 r3 t1 t2 t3.
    zc u1 (-1) a.
    unfold f_bco_19. fenc (a,c,f). fenc b. encif; [e_rem u2; ez|].
    fenc e; [exists y3; lia|]. encif; [e_rem (e * u2); ez|].
    encif; [gq (e * u2); e_rem (x3 - u3); ez|].
    fenc d. encif; [e_rem x3; ez|]. enc1.
Qed.

Lemma f_bco_8_gens : enumerates_gens [mopp mid; X_bo8a; X_bo8b] f_bco_8.
Proof.
  apply enum_intro.
  - intros n H Hin. unfold f_bco_8 in Hin. fd_diag Hin. d_if Hin T. fd_half Hin b kb.
    fd_range Hin e. d_if Hin T1. d_if Hin T2. fd_range Hin d. d_if Hin T5. d_if Hin T6.
    d_end Hin a b c d e f.
    destruct T2 as (T2 & T4). destruct T6 as (T6 & T7).
    d_rem T kf. d_rem T2 ke. fq T4 (ke * e). d_rem T4 k4. d_rem T5 k5.
    fq T6 (k5 * e). d_rem T6 k6. fq T7 (ke * b). d_rem T7 k7.
    gens_cases.
    + unfold X_bo8a; pres_goal.
      * solved (-1) k5 k6.
      * solved 0 (1 - ke) k4.
      * solved 0 (-kf) (-1 + ke).
    + unfold X_bo8b; pres_goal.
      * assert (kb * e = ke * b) by (apply (cancel_fac c); [assumption|ns]).
        solved (-1) kb k7.
      * solved 0 1 0.
      * solved 0 0 1.
  - intros a b c d e f Ha Hc Hf Hb Hd He HP.
    use_gen HP X_bo8a x1 x2 x3 y1 y2 y3 w1 w2 w3.
    zc x1 (-1) a. zc y1 0 a. zc w1 0 a.
    use_gen HP X_bo8b u1 u2 u3 r1 r2 r3 t1 t2 t3.
    zc u1 (-1) a.
    unfold f_bco_8. fenc (a,c,f). encif; [e_rem (-w2); ez|].
    fenc b; [exists u2; lia|]. fenc e. encif; [e_rem ((1 - y2) * e); ez|]. encif.
    + split; [e_rem (1 - y2); ez|]. gq ((1 - y2) * e). e_rem y3; ez.
    + fenc d. encif; [e_rem x2; ez|]. encif; [|enc1]. split.
      * gq (x2 * e). e_rem x3; ez.
      * gq (u2 * e). e_rem u3; ez.
Qed.

Lemma f_bco_42_gens : enumerates_gens [mopp mid; X_bo42a; X_bo42b] f_bco_42.
Proof.
  apply enum_intro.
  - intros n H Hin. unfold f_bco_42 in Hin. fd_diag Hin. fd_half Hin e ke.
    fd_range Hin b. d_if Hin T1. d_if Hin T. fd_range Hin d. d_if Hin T2.
    d_end Hin a b c d e f.
    destruct T as (T & T3). destruct T2 as (T2 & T4).
    d_rem T k. fq T3 (k * e). d_rem T3 k3. fq T2 (k * e). d_rem T2 k2. d_rem T4 k4.
    gens_cases.
    + unfold X_bo42a; pres_goal.
      * solved (-1) k k2.
      * solved 0 1 0.
      * solved 0 0 1.
    + unfold X_bo42b; pres_goal.
      * solved (-1) 0 k4.
      * solved 0 (-1) ke.
      * solved 0 0 1.
  - intros a b c d e f Ha Hc Hf Hb Hd He HP.
    use_gen HP X_bo42a x1 x2 x3 y1 y2 y3 w1 w2 w3.
    zc x1 (-1) a.
    use_gen HP X_bo42b u1 u2 u3 r1 r2 r3 t1 t2 t3.
    zc u1 (-1) a. zc r1 0 a. zc u2 0 c. zc r2 (-1) c.
    unfold f_bco_42. fenc (a,c,f). fenc e; [exists r3; lia|]. fenc b.
    encif; [e_rem (x2 * e); ez|]. encif.
    + split; [e_rem x2; ez|]. gq (x2 * e). e_rem (x3 - u3); ez.
    + fenc d. encif; [|enc1]. split.
      * gq (x2 * e). e_rem x3; ez.
      * e_rem u3; ez.
Qed.

Lemma f_fco_26_gens : enumerates_gens [mopp mid; X_bm20; X_fo26] f_fco_26.
Proof.
  apply enum_intro.
  - intros n H Hin. unfold f_fco_26 in Hin. fd_diag Hin. fd_half Hin b kb.
    fd_range Hin e. d_if Hin T1. d_if Hin T. fd_range Hin d. d_if Hin T2.
    d_end Hin a b c d e f.
    destruct T as (T & T3). d_rem T k. fq T3 (kb * e). d_rem T3 k3. d_rem T2 k2.
    gens_cases.
    + unfold X_bm20; pres_goal.
      * solved 1 (-kb) k3.
      * solved 0 (-1) k.
      * solved 0 0 1.
    + unfold X_fo26; pres_goal.
      * solved (-1) 0 k2.
      * solved 0 (-1) k.
      * solved 0 0 1.
  - intros a b c d e f Ha Hc Hf Hb Hd He HP.
    use_gen HP X_bm20 x1 x2 x3 y1 y2 y3 w1 w2 w3.
    zc x1 1 a. zc y1 0 a. zc y2 (-1) c.
    use_gen HP X_fo26 u1 u2 u3 r1 r2 r3 t1 t2 t3.
    zc u1 (-1) a. zc u2 0 c.
    unfold f_fco_26. fenc (a,c,f). fenc b; [exists (-x2); lia|]. fenc e.
    encif; [e_rem (-x2 * e); ez|]. encif.
    + split; [e_rem y3; ez|]. gq (-x2 * e). e_rem x3; ez.
    + fenc d. encif; [|enc1]. e_rem u3; ez.
Qed.

Lemma f_fco_16_gens : enumerates_gens [mopp mid; X_bm20; X_bo8b] f_fco_16.
Proof.
  apply enum_intro.
  - intros n H Hin. unfold f_fco_16 in Hin. fd_diag Hin. fd_half Hin b kb.
    fd_range Hin e. d_if Hin T1. d_if Hin T. fd_range Hin d. d_if Hin T2.
    d_end Hin a b c d e f.
    destruct T as (T & T3). fq T (kb * e). d_rem T k. d_rem T3 k3.
    fq T2 (kb * e). d_rem T2 k2.
    gens_cases.
    + unfold X_bm20; pres_goal.
      * solved 1 (-kb) (-k).
      * solved 0 (-1) k3.
      * solved 0 0 1.
    + unfold X_bo8b; pres_goal.
      * solved (-1) kb k2.
      * solved 0 1 0.
      * solved 0 0 1.
  - intros a b c d e f Ha Hc Hf Hb Hd He HP.
    use_gen HP X_bm20 x1 x2 x3 y1 y2 y3 w1 w2 w3.
    zc x1 1 a. zc y1 0 a. zc y2 (-1) c.
    use_gen HP X_bo8b u1 u2 u3 r1 r2 r3 t1 t2 t3.
    zc u1 (-1) a. zc u2 (-x2) c.
    unfold f_fco_16. fenc (a,c,f). fenc b; [exists (-x2); lia|].
    fenc e. encif; [e_rem (-x2 * e); ez|]. encif.
    + split; [gq (-x2 * e); e_rem (-x3); ez|]. e_rem y3; ez.
    + fenc d. encif; [|enc1]. gq (-x2 * e). e_rem u3; ez.
Qed.

Lemma f_baseco_38_13_gens : enumerates_gens [mopp mid; S_xy; D_ppm] f_baseco_38_13.
Proof.
  apply enum_intro.
  - intros n H Hin. unfold f_baseco_38_13 in Hin. fd_diag Hin. d_if Hin T.
    fd_step Hin b kb. d_if Hin T1. d_if Hin T2. fd_half Hin e ke. fd_half Hin d kd.
    d_if Hin T0. d_if Hin T3. d_end Hin a b c d e f.
    destruct T3 as (T3 & T4). d_rem T kc. fq T2 (kb * b). d_rem T2 k2.
    fq T3 (kb * d). fq T3 (kb * b). fq T3 (e * k2). d_rem T3 k3.
    fq T4 (kc * d). fq T4 (kb * e). d_rem T4 k4.
    gens_cases.
    + unfold S_xy; pres_goal.
      * solved kb (-k2) (-k3).
      * solved kc (-kb) (-k4).
      * solved 0 0 1.
    + unfold D_ppm; pres_goal.
      * solved 1 0 (-kd).
      * solved 0 1 (-ke).
      * solved 0 0 (-1).
  - intros a b c d e f Ha Hc Hf Hb Hd He HP.
    use_gen HP S_xy x1 x2 x3 y1 y2 y3 w1 w2 w3.
    zc y2 (-x1) c.
    use_gen HP D_ppm u1 u2 u3 r1 r2 r3 t1 t2 t3.
    zc u1 1 a. zc u2 0 c. zc r1 0 a. zc r2 1 c.
    unfold f_baseco_38_13. fenc (a,c,f). encif; [e_rem y1; ez|].
    fenc b; [exists x1; lia|]. encif; [e_rem (x1 * b); ez|].
    encif; [gq (x1 * b); e_rem (-x2); ez|].
    fenc e; [exists (-r3); lia|]. fenc d; [exists (-u3); lia|].
    encif; [e_rem (x1 * d); ez|]. encif; [|enc1]. split.
    + gq (x1 * d). gq (x1 * b). gq (- e * x2). e_rem (-x3); ez.
    + gq (y1 * d). gq (x1 * e). e_rem (-y3); ez.
Qed.

Lemma f_baseco_23_gens : enumerates_gens [mopp mid; D_pmp; S_xz] f_baseco_23.
Proof.
  apply enum_intro.
  - intros n H Hin. unfold f_baseco_23 in Hin. fd_diag Hin. d_if Hin T.
    fd_half Hin b kb. d_if Hin T2. fd_half Hin e ke. d_if Hin T3. fd_step Hin d kd.
    d_if Hin T9. d_if Hin T0. d_if Hin T4. d_end Hin a b c d e f.
    destruct T3 as ((T3 & T5) & T6). destruct T4 as ((T4 & T7) & T8).
    d_rem T kf. d_rem T2 k2. d_rem T3 k3. d_rem T5 k5. d_rem T6 k6.
    assert (B2 : b * kf = k2 * c) by (apply (cancel_fac a); [assumption|ns]).
    assert (B3 : b * k6 = k3 * c) by (apply (cancel_fac a); [assumption|ns]).
    assert (B5 : kb * e = k5 * f) by (apply (cancel_fac c); [assumption|ns]).
    fq T4 (b * kd). d_rem T4 k4. fq T7 (d * kd). fq T7 (b * kd). fq T7 (k4 * e).
    d_rem T7 k7. fq T8 (d * k6). fq T8 (k3 * e). d_rem T8 k8.
    gens_cases.
    + unfold D_pmp; pres_goal.
      * solved 1 (-kb) k5.
      * solved 0 (-1) ke.
      * solved 0 0 1.
    + unfold S_xz; pres_goal.
      * solved kd (-k4) (-k7).
      * solved k6 (1 - k3) (-k8).
      * assert (e * k2 = f * k3) by (apply (cancel_fac c); [assumption|ns]).
        solved kf (-k2) (-kd + k3).
  - intros a b c d e f Ha Hc Hf Hb Hd He HP.
    use_gen HP D_pmp x1 x2 x3 y1 y2 y3 w1 w2 w3.
    zc x1 1 a. zc y1 0 a. zc y2 (-1) c.
    use_gen HP S_xz u1 u2 u3 r1 r2 r3 t1 t2 t3.
    unfold f_baseco_23. fenc (a,c,f). encif; [e_rem t1; ez|].
    fenc b; [exists (-x2); lia|]. encif; [e_rem (-t2); ez|].
    fenc e; [exists y3; lia|]. encif.
    + split; [split|].
      * e_rem (1 - r2); ez.
      * e_rem x3; ez.
      * e_rem r1; ez.
    + fenc d; [exists u1; lia|]. encif; [e_rem (b * u1); ez|].
      encif; [gq (b * u1); split; [e_rem (-u2 * e)|e_rem (d * u1)]; ns|].
      encif; [|enc1]. split; [split|].
      * gq (b * u1). e_rem (-u2); ez.
      * gq (d * u1). gq (b * u1). gq (-u2 * e). e_rem (-u3); ez.
      * gq (d * r1). gq ((1 - r2) * e). e_rem (-r3); ez.
Qed.

Lemma f_baseco_40_gens : enumerates_gens [mopp mid; X_ba40a; X_ba40b] f_baseco_40.
Proof.
  apply enum_intro.
  - intros n H Hin. unfold f_baseco_40 in Hin. fd_diag Hin. d_if Hin T.
    fd_step Hin e ke. d_if Hin T2. fd_step Hin d kd. d_if Hin T3. fd_range Hin b.
    d_if Hin T4. d_end Hin a b c d e f.
    destruct T4 as (T4 & T5). d_rem T kf. fq T2 (ke * e). d_rem T2 k2.
    fq T3 (kd * e). d_rem T3 k3. d_rem T4 k4. fq T5 (k4 * e). d_rem T5 k5.
    gens_cases.
    + unfold X_ba40a; pres_goal.
      * solved 1 (-kd) (-k3).
      * solved 0 (1 - ke) (-k2).
      * solved 0 (-kf) (-1 + ke).
    + unfold X_ba40b; pres_goal.
      * solved (-1) k4 (-k5).
      * solved 0 (1 - ke) (-k2).
      * solved 0 (-kf) (-1 + ke).
  - intros a b c d e f Ha Hc Hf Hb Hd He HP.
    use_gen HP X_ba40a x1 x2 x3 y1 y2 y3 w1 w2 w3.
    zc x1 1 a. zc y1 0 a. zc w1 0 a.
    use_gen HP X_ba40b u1 u2 u3 r1 r2 r3 t1 t2 t3.
    zc u1 (-1) a.
    unfold f_baseco_40. fenc (a,c,f). encif; [e_rem (-w2); ez|].
    fenc e; [exists (1 - y2); lia|]. encif; [gq ((1 - y2) * e); e_rem (-y3); ez|].
    fenc d; [exists (-x2); lia|]. encif; [gq ((-x2) * e); e_rem (-x3); ez|].
    fenc b. encif; [|enc1]. split.
    + e_rem u2; ez.
    + gq (u2 * e). e_rem (-u3); ez.
Qed.

(** In [f_baseco_36] divisibility of [d] by [a] follows from the other tests. *)
Lemma square_divide a x : 1 <= a -> (a * a | x * x) -> (a | x).
Proof.
  intros Ha (k & Hk).
  pose proof (Zis_gcd_rel_prime x a (Z.gcd a x) ltac:(lia)) as R.
  assert (Hg : 0 < Z.gcd a x).
  { pose proof (Z.gcd_nonneg a x). destruct (Z.eq_dec (Z.gcd a x) 0) as [E|E]; [|lia].
    apply Z.gcd_eq_0_l in E. lia. }
  specialize (R ltac:(lia) (Zis_gcd_sym _ _ _ (Zgcd_is_gcd a x))). apply rel_prime_sym in R.
  destruct (Z.gcd_divide_l a x) as (p & Hp). destruct (Z.gcd_divide_r a x) as (q & Hq).
  set (g := Z.gcd a x) in *.
  assert (Ep : a / g = p) by (rewrite Hp at 1; apply Z.div_mul; lia).
  assert (Eq : x / g = q) by (rewrite Hq at 1; apply Z.div_mul; lia).
  rewrite Ep, Eq in R. clearbody g.
  assert (D : (p | q * q)).
  { exists (k * p). apply (Z.mul_reg_l _ _ (g * g)); [nia|]. subst a x. nia. }
  apply (Gauss p q q D) in R. destruct R as (m & Hm). exists m. subst a x. nia.
Qed.

Lemma baseco_36_d a d k : 1 <= a -> 2 * d * a - d * d = k * a * a -> exists t, d = t * a.
Proof.
  intros Ha H.
  destruct (square_divide a (d - a) Ha) as (t & Ht).
  { exists (1 - k). nia. }
  exists (t + 1). lia.
Qed.

Lemma baseco_36_be b c e f kb k : 1 <= c -> 0 <= b < c -> 2 * b = kb * c ->
  0 <= e < f -> kb * e = k * f -> b * e = 0.
Proof.
  intros Hc Hb Hk He H. assert (kb = 0 \/ kb = 1) as [-> | ->] by nia.
  - assert (b = 0) as -> by lia. reflexivity.
  - assert (k = 0) as -> by nia. lia.
Qed.

Lemma f_baseco_36_gens : enumerates_gens [mopp mid; D_pmp; X_ba36] f_baseco_36.
Proof.
  apply enum_intro.
  - intros n H Hin. unfold f_baseco_36 in Hin. fd_diag Hin. d_if Hin T.
    fd_half Hin b kb. d_if Hin T2. fd_half Hin e ke. d_if Hin T6. d_if Hin T3. fd_range Hin d.
    d_if Hin T9. d_if Hin T0. d_if Hin T4. d_end Hin a b c d e f.
    destruct T6 as (T6 & T1). destruct T9 as (T9 & T10).
    destruct T3 as (T3 & T5). destruct T4 as ((T4 & T7) & T8).
    d_rem T kf. fq T2 (b * kf). d_rem T2 k2. d_rem T6 k6. fq T3 (b * k6). d_rem T3 k3.
    fq T5 (kb * e). d_rem T5 k5.
    assert (BE : b * e = 0) by (apply (baseco_36_be b c e f kb (-k5)); lia).
    assert (Hd' : exists t, d = t * a).
    { clear T8 T0 T4. d_rem T9 k9. d_rem T10 k10.
      assert (Q : Z.quot (- Z.quot (b * d) a * e) c = 0).
      { apply quot_is; [lia|]. rewrite (quot_is (b * d) a k9) by lia. nia. }
      rewrite Q, (quot_is (d * d) a k10) in T7 by lia. d_rem T7 k7.
      apply (baseco_36_d a d (k7 * kf)); [lia|]. nia. }
    destruct Hd' as (kd & Hd').
    fq T4 (b * kd). d_rem T4 k4.
    fq T7 (d * kd). fq T7 (b * kd). fq T7 (k4 * e). d_rem T7 k7.
    fq T8 (d * k6). fq T8 (b * k6). fq T8 (k3 * e). d_rem T8 k8.
    gens_cases.
    + unfold D_pmp; pres_goal.
      * solved 1 (-kb) (-k5).
      * solved 0 (-1) ke.
      * solved 0 0 1.
    + unfold X_ba36; pres_goal.
      * solved (-1 + kd) k4 k7.
      * solved k6 (-1 + k3) k8.
      * assert (e * k2 = f * k3) by (apply (cancel_fac c); [assumption|ns]).
        solved kf k2 (1 - kd - k3).
  - intros a b c d e f Ha Hc Hf Hb Hd He HP.
    use_gen HP D_pmp x1 x2 x3 y1 y2 y3 w1 w2 w3.
    zc x1 1 a. zc y1 0 a. zc y2 (-1) c.
    assert (BE : b * e = 0) by (apply (baseco_36_be b c e f (-x2) x3); lia).
    use_gen HP X_ba36 u1 u2 u3 r1 r2 r3 t1 t2 t3.
    unfold f_baseco_36. fenc (a,c,f). encif; [e_rem t1; ez|].
    fenc b; [exists (-x2); lia|]. encif; [gq (b * t1); e_rem t2; ez|].
    fenc e; [exists y3; lia|]. encif; [split; [e_rem r1; ez|e_rem 0; ez]|]. encif.
    + split.
      * gq (b * r1). e_rem (1 + r2); ez.
      * gq (-x2 * e). e_rem (-x3); ez.
    + fenc d. encif; [split; [e_rem (b * (1 + u1)); ez|e_rem (d * (1 + u1)); ez]|].
      encif; [gq (b * (1 + u1)); e_rem 0; ez|]. encif; [|enc1]. split; [split|].
      * gq (b * (1 + u1)). e_rem u2; ez.
      * gq (d * (1 + u1)). gq (b * (1 + u1)). gq (u2 * e). e_rem u3; ez.
      * gq (d * r1). gq (b * r1). gq ((1 + r2) * e). e_rem r3; ez.
Qed.

(** ** Tetragonal *)

Lemma f_st_11_gens : enumerates_gens [mopp mid; S_xy; D_pmp] f_st_11.
Proof.
  apply enum_intro.
  - intros n H Hin. unfold f_st_11 in Hin. fd_diag Hin. d_if Hin T. fd_half Hin b kb.
    d_if Hin T2. d_if Hin T3. fd_half Hin e ke. d_if Hin T0. d_if Hin T4. fd_range Hin d.
    d_if Hin T9. d_if Hin T5. d_end Hin a b c d e f. destruct T5 as (T5 & T6). clear T9.
    d_rem T kc.
    assert (Ht : exists t, b = t * a).
    { d_rem T2 m2. fq T3 m2. d_rem T3 m3.
      apply (stet_21_e a b c kc m3); [lia|lia| |lia|nia].
      assert (kb = 0 \/ kb = 1) as [-> | ->] by nia; lia. }
    destruct Ht as (k2 & Ht). clear T2 T0.
    fq T3 (k2 * b). d_rem T3 k3. fq T4 (kb * e). d_rem T4 k4.
    fq T5 (k2 * b). fq T5 (e * k3). fq T5 k2. d_rem T5 k5. fq T6 k2. fq T6 (d * kc). d_rem T6 k6.
    gens_cases.
    + unfold S_xy; pres_goal.
      * solved k2 (-k3) (-k5).
      * solved kc (-k2) (-k6).
      * solved 0 0 1.
    + unfold D_pmp; pres_goal.
      * solved 1 (-kb) k4.
      * solved 0 (-1) ke.
      * solved 0 0 1.
  - intros a b c d e f Ha Hc Hf Hb Hd He HP.
    use_gen HP S_xy x1 x2 x3 y1 y2 y3 w1 w2 w3.
    zc y2 (-x1) c.
    use_gen HP D_pmp u1 u2 u3 r1 r2 r3 t1 t2 t3.
    zc u1 1 a. zc r1 0 a. zc r2 (-1) c.
    unfold f_st_11. fenc (a,c,f). encif; [e_rem y1; ez|].
    fenc b; [exists (-u2); lia|]. encif; [e_rem (x1 * b); ez|].
    encif; [gq (x1 * b); e_rem (-x2); ez|].
    fenc e; [exists r3; lia|]. encif; [e_rem (-u2 * e); ez|].
    encif; [gq (-u2 * e); e_rem u3; ez|].
    fenc d. encif; [split; [split|]; [e_rem (d * x1)|e_rem (d * y1)|e_rem (e * x1)]; ez|].
    encif; [|enc1]. split.
    + gq (x1 * b). gq (- e * x2). gq x1. e_rem (-x3); ez.
    + gq x1. gq (d * y1). e_rem (-y3); ez.
Qed.

Lemma f_st_21_gens : enumerates_gens [mopp mid; S_yz; D_ppm] f_st_21.
Proof.
  apply enum_intro.
  - intros n H Hin. unfold f_st_21 in Hin. fd_diag Hin. d_if Hin T. fd_half Hin b kb.
    fd_half Hin d kd. d_if Hin T2. fd_half Hin e ke. d_if Hin T1. d_if Hin T3.
    d_end Hin a b c d e f. destruct T3 as ((T3 & T4) & T5). destruct T1 as (_ & T1).
    d_rem T kf. d_rem T2 k2.
    assert (Ht : exists t, e = t * c).
    { d_rem T1 m1. fq T5 m1. d_rem T5 m5.
      apply (stet_21_e c e f kf m5); [lia|lia| |lia|nia].
      assert (ke = 0 \/ ke = 1) as [-> | ->] by nia; lia. }
    destruct Ht as (t & Ht). clear T1.
    fq T4 (k2 * e). d_rem T4 k4. fq T5 (t * e). d_rem T5 k5.
    gens_cases.
    + unfold S_yz; pres_goal.
      * solved 1 (-k2) (-k4).
      * solved 0 t (-k5).
      * solved 0 kf (-t).
    + unfold D_ppm; pres_goal.
      * solved 1 0 (-kd).
      * solved 0 1 (-ke).
      * solved 0 0 (-1).
  - intros a b c d e f Ha Hc Hf Hb Hd He HP.
    use_gen HP S_yz x1 x2 x3 y1 y2 y3 w1 w2 w3.
    zc x1 1 a. zc y1 0 a. zc w1 0 a.
    use_gen HP D_ppm u1 u2 u3 r1 r2 r3 t1 t2 t3.
    zc u1 1 a. zc u2 0 c. zc r1 0 a. zc r2 1 c.
    unfold f_st_21. fenc (a,c,f). encif; [e_rem w2; ez|].
    fenc b; [exists (-u3 * w2 - 2 * x2); ns|]. fenc d; [exists (-u3); lia|].
    encif; [e_rem (-x2); ez|]. fenc e; [exists (-r3); lia|].
    encif; [split; [e_rem (2 * d * y2)|e_rem (y2 * e)]; ez|]. encif; [|enc1].
    split; [split|].
    + gq (2 * d * y2). e_rem (- u3 + u3 * y2); ez.
    + gq (- x2 * e). e_rem (-x3); ez.
    + gq (y2 * e). e_rem (-y3); ez.
Qed.

Lemma f_bct_gens : enumerates_gens [mopp mid; S_yz; X_bo19a] f_bct_6_7_15_18.
Proof.
  apply enum_intro.
  - intros n H Hin. unfold f_bct_6_7_15_18 in Hin. fd_diag Hin. d_if Hin T.
    fd_half Hin e ke. d_if Hin T2. d_if Hin T3. fd_range Hin d. d_if Hin T4.
    fd_range Hin b. d_if Hin T5. d_if Hin T6. d_end Hin a b c d e f.
    d_rem T kf. d_rem T2 k2. fq T3 (k2 * e). d_rem T3 k3. d_rem T4 k4. d_rem T5 k5.
    fq T6 (k5 * e). d_rem T6 k6.
    gens_cases.
    + unfold S_yz; pres_goal.
      * solved 1 (-k5) (-k6).
      * solved 0 k2 (-k3).
      * solved 0 kf (-k2).
    + unfold X_bo19a; pres_goal.
      * solved (-1) 0 k4.
      * solved 0 (-1) ke.
      * solved 0 0 1.
  - intros a b c d e f Ha Hc Hf Hb Hd He HP.
    use_gen HP S_yz x1 x2 x3 y1 y2 y3 w1 w2 w3.
    zc x1 1 a. zc y1 0 a. zc w1 0 a.
    use_gen HP X_bo19a u1 u2 u3 r1 r2 r3 t1 t2 t3.
    zc u1 (-1) a. zc u2 0 c. zc r1 0 a. zc r2 (-1) c.
    unfold f_bct_6_7_15_18. fenc (a,c,f). encif; [e_rem w2; ez|].
    fenc e; [exists r3; lia|]. encif; [e_rem y2; ez|].
    encif; [gq (y2 * e); e_rem (-y3); ez|]. fenc d. encif; [e_rem u3; ez|].
    fenc b. encif; [e_rem (-x2); ez|]. encif; [|enc1].
    gq (- x2 * e). e_rem (-x3); ez.
Qed.
