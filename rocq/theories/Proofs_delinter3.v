(** Proofs about delinter.f90: the wrong branches, and the theorems for delint. *)
From Coq Require Import Reals ZArith List Bool Lra Psatz.
From Verif Require Import Model_delinter Spec_delinter Proofs_delinter Proofs_delinter2.
Import ListNotations.
Open Scope R_scope.

Section wrong.
  Context (equal : R -> R -> bool).
  Context (a b c x y z : R) (Ha : 0 < a) (Hb : 0 < b) (Hc : 0 < c)
          (Hx : -1 <= x <= 1) (Hy : -1 <= y <= 1) (Hz : -1 <= z <= 1).
  Let p := Cell a b c (acos x) (acos y) (acos z).
  Definition same (A' B' C' D' E' F' : R) : Prop :=
    D' = b * c * x /\ E' = a * c * y /\ F' = a * b * z.
  Lemma sign_le u v w : 0 < u -> 0 < v -> u * v * w <= 0 -> w <= 0.
  Proof. intros H1 H2 H. assert (0 < u * v) by nra. nra. Qed.
  Lemma wrong_cell n q : In n wrong_numbers -> cell_products (equalities n) p ->
    cell_products (fun _ _ _ D E F => signs n D E F) p -> symmetrize equal p n = Some q ->
    ~ cell_products same q.
  Proof.
    unfold p, cell_products. cbn [ca cb cc calpha cbeta cgamma]. rewrite !cos_acos by assumption.
    intros Hn H S E. unfold symmetrize in E. cbv zeta in E. unfold signs in S.
    unfold wrong_numbers in Hn. cbn [In] in Hn.
    repeat destruct Hn as [<-|Hn]; try contradiction; cbn in S; unfold equalities in H; cbn [Z.eqb Pos.eqb orb] in E; open_sym E;
      injection E as <-; cbn [ca cb cc calpha cbeta cgamma]; unfold same; intros (ED & EE & EF).
    all: repeat match goal with H : _ = _ /\ _ |- _ => destruct H end.
    all: try match goal with H : a * a = b * b |- _ => apply sq_eq in H; [subst b|assumption|assumption] end.
    all: try match goal with H : ?u * ?u = c * c |- _ => apply sq_eq in H; [subst c|assumption|assumption] end.
    all: rewrite ?cos_acos in * by assumption.
    all: try replace ((a + a + a) / 3) with a in * by field.
    all: try replace ((a + a) / 2) with a in * by field.
    all: try replace ((b + b) / 2) with b in * by field.
    all: rewrite ?cos_PI3, ?cos_PI2 in *.
    all: repeat match goal with H : cos _ = _ |- _ => rewrite H in *; clear H end.
    - (* 6 *) destruct S as (S1 & S2 & S3). apply sign_le in S1; [|assumption|assumption]. apply sign_le in S3; [|assumption|assumption].
      assert (Q : a * a * x = a * a * (a * (1 - z) / 4)) by (rewrite <- ED; field; lra).
      apply cancel in Q; [|assumption|assumption]. nra.
    - (* 7 *) destruct S as (S1 & S2 & S3). apply sign_le in S1; [|assumption|assumption]. apply sign_le in S3; [|assumption|assumption].
      assert (Q : a * a * x = a * a * (a * (1 - 2 * z) / 2)) by (rewrite <- ED; field; lra).
      apply cancel in Q; [|assumption|assumption]. nra.
    - (* 8 *) destruct S as (S1 & S2 & S3). assert (Q : a * a * x = a * a - a * a * z - a * a * y) by (rewrite <- ED; field; lra). nra.
    - (* 12 *) nra.
    - (* 16 *) assert (Q : a * c * x = a * a / 2) by (rewrite <- ED; field; lra). nra.
    - (* 17 *) destruct S as (S1 & S2 & S3). apply sign_le in S2; [|assumption|assumption]. apply sign_le in S3; [|assumption|assumption].
      assert (Q : a * c * x = a * a + a * c * (- z) + a * a * (- y)) by (rewrite <- ED; field; lra).
      assert (0 <= a * c * (- z)) by (apply Rmult_le_pos; nra). assert (0 <= a * a * (- y)) by (apply Rmult_le_pos; nra). nra.
    - (* 24 *) assert (Q : b * b * x = 2 * (a * a + b * b) + a * a / 3 + a * a / 3) by (rewrite <- ED; field; lra). nra.
    - (* 26 *) assert (Q : a * c * y = - (a * a) / 2) by (rewrite <- EE; field; lra). nra.
    - (* 27 *) assert (Q : a * c * y = - (a * a) / 2) by (rewrite <- EE; field; lra). nra.
    - (* 28 *) assert (Q : a * c * y = - (a * a) / 2) by (rewrite <- EE; field; lra). nra.
  Qed.

  Lemma never_cell n q : In n [12; 26; 27; 28]%Z -> symmetrize equal p n = Some q ->
    ~ cell_products (equalities n) q.
  Proof.
    unfold p, cell_products. intros Hn E. unfold symmetrize in E. cbv zeta in E. cbn [In] in Hn.
    repeat destruct Hn as [<-|Hn]; try contradiction; cbn [Z.eqb Pos.eqb orb] in E; open_sym E;
      injection E as <-; cbn [ca cb cc calpha cbeta cgamma]; unfold equalities; intros H'.
    - destruct H' as (_ & _ & _ & EF). rewrite cos_PI3 in EF. nra.
    - destruct H' as (_ & EE & _). rewrite H0 in EE.
      assert (Q : a * a / 2 = - (a * a) / 2) by (rewrite <- EE; field; lra). nra.
    - destruct H' as (EE & _). rewrite H in EE.
      assert (Q : a * a / 2 = - (a * a) / 2) by (rewrite <- EE; field; lra). nra.
    - destruct H' as (EE & _). rewrite H in EE.
      assert (Q : a * a / 2 = - (a * a) / 2) by (rewrite <- EE; field; lra). nra.
  Qed.

  Lemma wrong_43 q : cell_products (equalities 43) p ->
    cell_products (fun _ _ _ D E F => signs 43 D E F) p -> symmetrize equal p 43 = Some q ->
    cell_products same q -> b = c \/ z = y.
  Proof.
    unfold p, cell_products. cbn [ca cb cc calpha cbeta cgamma]. rewrite !cos_acos by assumption.
    intros H S E. unfold symmetrize in E. cbv zeta in E. cbn [Z.eqb Pos.eqb orb] in E. cbn in S.
    destruct S as (S1 & S2 & S3). unfold equalities in H. destruct H as (H1 & H2).
    rewrite ?cos_acos in E by assumption.
    destruct (equal _ _); open_sym E; injection E as <-; cbn [ca cb cc calpha cbeta cgamma]; unfold same; intros (ED & EE & EF).
    - exfalso. rewrite H in ED. apply sign_le in S2; [|assumption|assumption]. apply sign_le in S3; [|assumption|assumption].
      assert (Q : b * c * x = (a * a + b * b) / 2 + a * c * (- z) + a * b * (- y)) by (rewrite <- ED; field; lra).
      assert (0 <= a * c * (- z)) by (apply Rmult_le_pos; nra). assert (0 <= a * b * (- y)) by (apply Rmult_le_pos; nra). nra.
    - rewrite H in ED.
      assert (Q : b * c * x = - (a * a + b * b) / 2 - z * a * c - y * a * b) by (rewrite <- ED; field; lra).
      rewrite Rabs_left1 in H1 by lra.
      assert (P : a * ((c - b) * (z - y)) = 0) by nra.
      apply Rmult_integral in P as [P|P]; [lra|]. apply Rmult_integral in P as [P|P]; [left|right]; lra.
  Qed.
End wrong.

Section delint.
  Context (equal : R -> R -> bool) (equal_mat : rmat -> rmat -> bool).
  Hypothesis equal_mat_refl : forall M, equal_mat M M = true.
  Lemma enforced V n out : In n right_numbers -> rdet V <> 0 ->
    delint equal equal_mat V n = Delinted out -> satisfies n out.
  Proof.
    intros Hn HV E. destruct (delint_products equal equal_mat equal_mat_refl (equalities n) V n out HV E) as (q & Eq & H).
    apply H. exact (enforced_cell equal n _ q Hn Eq).
  Qed.
  Lemma unchanged V n : In n right_numbers -> rdet V <> 0 -> satisfies n V ->
    delint equal equal_mat V n = Delinted V.
  Proof.
    intros Hn HV H. apply delint_fixed; [assumption|assumption|].
    pose proof (aa_pos V HV) as Ha. pose proof (bb_pos V HV) as Hb. pose proof (cc_pos V HV) as Hc.
    unfold satisfies in H. rewrite <- (params_products V HV) in H. unfold params_of in *.
    apply unchanged_cell; try (now apply sqrt_lt_R0); try (now apply cauchy); assumption.
  Qed.
  Lemma changed V n : In n wrong_numbers -> rdet V <> 0 -> perfect n V ->
    delint equal equal_mat V n <> Delinted V.
  Proof.
    intros Hn HV [H S] E. pose proof (aa_pos V HV) as Ha. pose proof (bb_pos V HV) as Hb. pose proof (cc_pos V HV) as Hc.
    unfold satisfies in H. rewrite <- (params_products V HV) in H, S.
    pose proof (delint_products equal equal_mat equal_mat_refl (same (sqrt (rdot (rcol1 V) (rcol1 V))) (sqrt (rdot (rcol2 V) (rcol2 V)))
      (sqrt (rdot (rcol3 V) (rcol3 V))) (cosine (rcol2 V) (rcol3 V)) (cosine (rcol1 V) (rcol3 V)) (cosine (rcol1 V) (rcol2 V))) V n V HV E) as (q & Eq & P).
    unfold params_of in *.
    eapply wrong_cell in Eq; try eassumption; try (now apply sqrt_lt_R0); try (now apply cauchy).
    apply Eq, P. unfold products, same. now rewrite !cosine_mul by assumption.
  Qed.
  Lemma never V n out : In n [12; 26; 27; 28]%Z -> rdet V <> 0 ->
    delint equal equal_mat V n = Delinted out -> ~ satisfies n out.
  Proof.
    intros Hn HV E. pose proof (aa_pos V HV) as Ha. pose proof (bb_pos V HV) as Hb. pose proof (cc_pos V HV) as Hc.
    destruct (delint_products equal equal_mat equal_mat_refl (equalities n) V n out HV E) as (q & Eq & P).
    unfold satisfies. rewrite P. unfold params_of in Eq.
    eapply never_cell in Eq; try eassumption; try (now apply sqrt_lt_R0); try (now apply cauchy).
  Qed.
  Lemma unchanged_43 V : rdet V <> 0 -> perfect 43 V -> delint equal equal_mat V 43 = Delinted V ->
    products (fun _ B C _ E F => B = C \/ F * F * C = E * E * B) V.
  Proof.
    intros HV [H S] E. pose proof (aa_pos V HV) as Ha. pose proof (bb_pos V HV) as Hb. pose proof (cc_pos V HV) as Hc.
    unfold satisfies in H. rewrite <- (params_products V HV) in H, S.
    pose proof (delint_products equal equal_mat equal_mat_refl (same (sqrt (rdot (rcol1 V) (rcol1 V))) (sqrt (rdot (rcol2 V) (rcol2 V)))
      (sqrt (rdot (rcol3 V) (rcol3 V))) (cosine (rcol2 V) (rcol3 V)) (cosine (rcol1 V) (rcol3 V)) (cosine (rcol1 V) (rcol2 V))) V 43%Z V HV E) as (q & Eq & P).
    assert (Q : cell_products (same (sqrt (rdot (rcol1 V) (rcol1 V))) (sqrt (rdot (rcol2 V) (rcol2 V)))
      (sqrt (rdot (rcol3 V) (rcol3 V))) (cosine (rcol2 V) (rcol3 V)) (cosine (rcol1 V) (rcol3 V)) (cosine (rcol1 V) (rcol2 V))) q).
    { apply P. unfold products, same. now rewrite !cosine_mul by assumption. }
    clear P. unfold params_of in *.
    eapply wrong_43 in Eq; try eassumption; try (now apply sqrt_lt_R0); try (now apply cauchy).
    unfold products.
    pose proof (cosine_mul _ _ Ha Hc) as Ey. pose proof (cosine_mul _ _ Ha Hb) as Ez.
    pose proof (sqrt_sqrt _ (Rlt_le _ _ Ha)) as Ea. pose proof (sqrt_sqrt _ (Rlt_le _ _ Hb)) as Eb. pose proof (sqrt_sqrt _ (Rlt_le _ _ Hc)) as Ec.
    destruct Eq as [Eq|Eq].
    - left. rewrite <- Eb, <- Ec, Eq. reflexivity.
    - right.
      set (u := sqrt (rdot (rcol1 V) (rcol1 V))) in *. set (v := sqrt (rdot (rcol2 V) (rcol2 V))) in *. set (w := sqrt (rdot (rcol3 V) (rcol3 V))) in *.
      rewrite <- Ey, <- Ez, <- Eb, <- Ec, Eq. ring.
  Qed.
End delint.
