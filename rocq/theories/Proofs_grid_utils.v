(** The running list of candidate grids, the selection among them, and the transformation of
    an HNF to the user's basis. *)
From Coq Require Import ZArith QArith Qcanon Qround List Lia Lqa Bool Arith.
From Verif Require Import Mat3 Spec QMat Model_transform Model_find_kgrids Model_grid_utils
  Proofs_kpd Proofs_search Proofs_transform.
From Verif Require Import Spec_kgrids.
Import ListNotations.
Open Scope Qc_scope.

(** Linear arithmetic on [Qc]. *)
Ltac qclra :=
  unfold Qcle, Qclt, Qcminus, Qcplus, Qcmult, Qcopp in *; cbn [this Q2Qc] in *;
  rewrite ?Qred_correct in *; cbn [this Q2Qc] in *; lra.

Lemma gt_iff x y : gt x y = true <-> y < x.
Proof.
  unfold gt. split.
  - destruct (x ?= y) eqn:E; try discriminate. intros _. apply Qcgt_alt in E. exact E.
  - intros H. apply Qcgt_alt in H. now rewrite H.
Qed.
Lemma gt_false x y : gt x y = false <-> x <= y.
Proof.
  pose proof (gt_iff x y) as H. destruct (gt x y).
  - split; [discriminate|]. intros L. exfalso. apply (Qcle_not_lt _ _ L). now apply H.
  - split; [|reflexivity]. intros _. apply Qcnot_lt_le. intros L. apply H in L. discriminate.
Qed.

Section compare.
  Context {A : Type}.
  Notation grid := (grid A).

  (** *** No element outside the arrays is ever written *)
  Definition fits (st : tiers A) : Prop :=
    (1 <= room st)%nat /\ (length (tier1 st) <= room st)%nat /\ (length (tier2 st) <= room st)%nat.

  Lemma compare_fits equal eps st (g : grid) : fits st ->
    exists st', compare_grids equal eps st g = Some st' /\ fits st'.
  Proof.
    intros (F0 & F1 & F2). unfold compare_grids. cbv zeta.
    destruct (negb (g_packed g)); [eexists; split; [reflexivity|repeat split; assumption]|].
    rewrite (proj2 (Nat.leb_le _ _) F0).
    destruct (gt _ _ && _).
    { eexists; split; [reflexivity|]. repeat split; cbn; lia. }
    destruct (gt _ _ && _ && _).
    { eexists; split; [reflexivity|]. repeat split; cbn; lia. }
    destruct (equal (g_rmin g) (rmin1 st)).
    { destruct (Nat.eqb_spec (room st) (length (tier1 st))) as [E|E].
      - rewrite (proj2 (Nat.leb_le _ _)) by lia. rewrite (proj2 (Nat.leb_le _ _)) by lia.
        cbn [andb]. eexists; split; [reflexivity|]. unfold fits. cbn [room tier1 tier2].
        rewrite app_length. cbn [length]. lia.
      - rewrite (proj2 (Nat.leb_le _ _)) by lia. rewrite (proj2 (Nat.leb_le _ _)) by lia.
        cbn [andb]. eexists; split; [reflexivity|]. unfold fits. cbn [room tier1 tier2].
        rewrite app_length. cbn [length]. lia. }
    destruct (equal (g_rmin g) (rmin2 st)).
    { destruct (Nat.eqb_spec (room st) (length (tier2 st))) as [E|E].
      - rewrite (proj2 (Nat.leb_le _ _)) by lia. rewrite (proj2 (Nat.leb_le _ _)) by lia.
        cbn [andb]. eexists; split; [reflexivity|]. unfold fits. cbn [room tier1 tier2].
        rewrite app_length. cbn [length]. lia.
      - rewrite (proj2 (Nat.leb_le _ _)) by lia. rewrite (proj2 (Nat.leb_le _ _)) by lia.
        cbn [andb]. eexists; split; [reflexivity|]. unfold fits. cbn [room tier1 tier2].
        rewrite app_length. cbn [length]. lia. }
    eexists; split; [reflexivity|]. repeat split; assumption.
  Qed.

  Lemma compare_all_fits equal eps : forall gs (st : tiers A), fits st ->
    exists st', compare_all equal eps st gs = Some st' /\ fits st'.
  Proof.
    induction gs as [|g gs IH]; intros st F; cbn [compare_all]; [eauto|].
    destruct (compare_fits equal eps st g F) as (st' & E & F'). rewrite E. apply IH, F'.
  Qed.
  Lemma fits0 : fits (@tiers0 A).
  Proof. repeat split; cbn; lia. Qed.

  (** *** Exact comparisons: the two largest lengths *)
  Record two_best (P : list grid) (st : tiers A) : Prop := {
    tb_1 : tier1 st = filter (fun g => qeqb (g_rmin g) (rmin1 st)) P;
    tb_2 : tier2 st = filter (fun g => qeqb (g_rmin g) (rmin2 st)) P;
    tb_max : forall g, In g P -> g_rmin g = rmin1 st \/ g_rmin g <= rmin2 st;
    tb_order : (P <> [] /\ rmin2 st < rmin1 st) \/ (P = [] /\ rmin1 st = 0 /\ rmin2 st = 0);
    tb_ne : P <> [] -> tier1 st <> [];
    tb_second : tier2 st <> [] \/ (rmin2 st = 0 /\ forall g, In g P -> g_rmin g = rmin1 st);
    tb_pos : forall g, In g P -> 0 < g_rmin g;
    tb_nonneg : 0 <= rmin2 st }.

  Lemma qeqb_refl x : qeqb x x = true.
  Proof. now apply qeqb_eq. Qed.
  Lemma qeqb_neq x y : qeqb x y = false <-> x <> y.
  Proof.
    pose proof (qeqb_eq x y). destruct (qeqb x y); split; intros K; try discriminate K; try reflexivity.
    - exfalso. apply K. now apply H.
    - intros E. apply H in E. discriminate.
  Qed.

  Lemma filter_none {X} (f : X -> bool) l : (forall x, In x l -> f x = false) -> filter f l = [].
  Proof.
    induction l as [|x l IH]; intros H; [reflexivity|]. cbn. rewrite H by now left.
    apply IH. intros; apply H; now right.
  Qed.

  Lemma not_empty_app {X} (l : list X) x : l ++ [x] <> [].
  Proof. destruct l; discriminate. Qed.

  Lemma Qclt_neq' x y : x < y -> y <> x.
  Proof. intros H E. subst. exact (Qclt_not_eq _ _ H eq_refl). Qed.
  Lemma Qclt_irr x : ~ x < x.
  Proof. intros H. exact (Qclt_not_eq _ _ H eq_refl). Qed.

  Lemma compare_exact P st (g : grid) st' : two_best P st -> 0 < g_rmin g ->
    compare_grids qeqb 0 st g = Some st' ->
    two_best (P ++ (if g_packed g then [g] else [])) st'.
  Proof.
    intros T Hpos. destruct T as [T1 T2 Tm To Tn Ts Tp Tz]. unfold compare_grids. cbv zeta.
    destruct (g_packed g) eqn:Pk; cbn [negb].
    2:{ intros [= <-]. rewrite app_nil_r. constructor; assumption. }
    set (t := g_rmin g) in *.
    replace (rmin1 st + t * 0) with (rmin1 st) by ring.
    replace (rmin2 st + t * 0) with (rmin2 st) by ring.
    assert (Pos' : forall g', In g' (P ++ [g]) -> 0 < g_rmin g').
    { intros g' H. apply in_app_or in H. destruct H as [H|[<-|[]]]; auto. }
    destruct (gt t (rmin1 st) && negb (qeqb t (rmin1 st))) eqn:C1.
    { apply andb_true_iff in C1. destruct C1 as (C1 & _). apply gt_iff in C1.
      destruct (Nat.leb 1 (room st)); [|discriminate]. intros [= <-].
      assert (Below : forall g', In g' P -> g_rmin g' <= rmin1 st).
      { intros g' H. destruct (Tm g' H) as [E|E]; [rewrite E; apply Qcle_refl|].
        destruct To as [(_ & L)|(-> & _)]; [|destruct H]. apply Qclt_le_weak. eapply Qcle_lt_trans; eassumption. }
      assert (R1 : 0 <= rmin1 st).
      { destruct To as [(_ & L)|(_ & -> & _)]; [|apply Qcle_refl].
        apply Qclt_le_weak. eapply Qcle_lt_trans; eassumption. }
      constructor; cbn [rmin1 rmin2 tier1 tier2].
      - rewrite filter_app. cbn [filter]. fold t. rewrite qeqb_refl.
        rewrite filter_none; [reflexivity|]. intros g' H. apply qeqb_neq. intros E.
        specialize (Below g' H). rewrite E in Below. apply (Qcle_not_lt _ _ Below C1).
      - rewrite filter_app, <- T1. cbn [filter]. fold t.
        replace (qeqb t (rmin1 st)) with false by (symmetry; apply qeqb_neq; now apply Qclt_neq').
        now rewrite app_nil_r.
      - intros g' H. apply in_app_or in H. destruct H as [H|[<-|[]]]; [right; auto|now left].
      - left. split; [apply not_empty_app|exact C1].
      - discriminate.
      - destruct To as [(Hne & _)|(-> & -> & _)].
        + left. apply Tn, Hne.
        + right. split; [reflexivity|]. intros g' [<-|[]]. reflexivity.
      - exact Pos'.
      - exact R1. }
    assert (C1' : t <= rmin1 st).
    { apply andb_false_iff in C1. destruct C1 as [C1|C1].
      - now apply gt_false in C1.
      - apply negb_false_iff, qeqb_eq in C1. rewrite C1. apply Qcle_refl. }
    clear C1.
    assert (Hne : P <> []).
    { intros ->. destruct To as [(H & _)|(_ & E & _)]; [now apply H|]. rewrite E in C1'.
      apply (Qcle_not_lt _ _ C1' Hpos). }
    assert (L21 : rmin2 st < rmin1 st) by (destruct To as [(_ & L)|(E & _)]; [exact L|contradiction]).
    destruct (gt t (rmin2 st) && negb (qeqb t (rmin1 st)) && negb (qeqb t (rmin2 st))) eqn:C2.
    { apply andb_true_iff in C2. destruct C2 as (C2 & _). apply andb_true_iff in C2.
      destruct C2 as (C2 & C3). apply gt_iff in C2. apply negb_true_iff, qeqb_neq in C3.
      destruct (Nat.leb 1 (room st)); [|discriminate]. intros [= <-].
      assert (Ltop : t < rmin1 st).
      { destruct (Qcle_lt_or_eq _ _ C1') as [L|E]; [exact L|contradiction]. }
      constructor; cbn [rmin1 rmin2 tier1 tier2].
      - rewrite filter_app, <- T1. cbn [filter]. fold t.
        replace (qeqb t (rmin1 st)) with false by (symmetry; apply qeqb_neq; exact C3).
        now rewrite app_nil_r.
      - rewrite filter_app. cbn [filter]. fold t. rewrite qeqb_refl.
        rewrite filter_none; [reflexivity|]. intros g' H. apply qeqb_neq. intros E.
        destruct (Tm g' H) as [E'|E'].
        + rewrite E in E'. contradiction.
        + rewrite E in E'. apply (Qcle_not_lt _ _ E' C2).
      - intros g' H. apply in_app_or in H. destruct H as [H|[<-|[]]]; [|right; apply Qcle_refl].
        destruct (Tm g' H) as [E|E]; [now left|]. right. apply Qclt_le_weak. eapply Qcle_lt_trans; eassumption.
      - left. split; [apply not_empty_app|exact Ltop].
      - intros _. apply Tn, Hne.
      - left. discriminate.
      - exact Pos'.
      - apply Qclt_le_weak, Hpos. }
    assert (C2' : t = rmin1 st \/ t <= rmin2 st).
    { apply andb_false_iff in C2. destruct C2 as [C2|C2].
      - apply andb_false_iff in C2. destruct C2 as [C2|C2].
        + right. now apply gt_false in C2.
        + left. now apply negb_false_iff, qeqb_eq in C2.
      - right. apply negb_false_iff, qeqb_eq in C2. rewrite C2. apply Qcle_refl. }
    clear C2.
    assert (Max' : forall g', In g' (P ++ [g]) -> g_rmin g' = rmin1 st \/ g_rmin g' <= rmin2 st).
    { intros g' H. apply in_app_or in H. destruct H as [H|[<-|[]]]; auto. }
    destruct (qeqb t (rmin1 st)) eqn:C3.
    { pose proof C3 as C3'. apply qeqb_eq in C3'.
      destruct (Nat.leb _ _ && Nat.leb _ _); [|discriminate]. intros [= <-].
      constructor; cbn [rmin1 rmin2 tier1 tier2].
      - rewrite filter_app, <- T1. cbn [filter]. fold t. now rewrite C3.
      - rewrite filter_app, <- T2. cbn [filter]. fold t.
        replace (qeqb t (rmin2 st)) with false; [now rewrite app_nil_r|]. symmetry. apply qeqb_neq.
        intros E. rewrite C3' in E. rewrite E in L21. revert L21. apply Qclt_irr.
      - exact Max'.
      - left. split; [apply not_empty_app|exact L21].
      - intros _. apply not_empty_app.
      - destruct Ts as [Ts|(Ts & Tall)]; [now left|]. right. split; [exact Ts|].
        intros g' H. apply in_app_or in H. destruct H as [H|[<-|[]]]; auto.
      - exact Pos'.
      - exact Tz. }
    apply qeqb_neq in C3. destruct C2' as [C2'|C2']; [contradiction|].
    destruct (qeqb t (rmin2 st)) eqn:C4.
    { destruct (Nat.leb _ _ && Nat.leb _ _); [|discriminate]. intros [= <-].
      constructor; cbn [rmin1 rmin2 tier1 tier2].
      - rewrite filter_app, <- T1. cbn [filter]. fold t.
        replace (qeqb t (rmin1 st)) with false by (symmetry; apply qeqb_neq; exact C3).
        now rewrite app_nil_r.
      - rewrite filter_app, <- T2. cbn [filter]. fold t. now rewrite C4.
      - exact Max'.
      - left. split; [apply not_empty_app|exact L21].
      - intros _. apply Tn, Hne.
      - left. apply not_empty_app.
      - exact Pos'.
      - exact Tz. }
    intros [= <-]. constructor.
    - rewrite filter_app, <- T1. cbn [filter]. fold t.
      replace (qeqb t (rmin1 st)) with false by (symmetry; apply qeqb_neq; exact C3).
      now rewrite app_nil_r.
    - rewrite filter_app, <- T2. cbn [filter]. fold t. rewrite C4. now rewrite app_nil_r.
    - exact Max'.
    - left. split; [apply not_empty_app|exact L21].
    - intros _. apply Tn, Hne.
    - destruct Ts as [Ts|(Ts & _)]; [now left|]. exfalso. rewrite Ts in C2'.
      apply (Qcle_not_lt _ _ C2' Hpos).
    - exact Pos'.
    - exact Tz.
  Qed.

  Lemma two_best0 : two_best [] (@tiers0 A).
  Proof.
    constructor; cbn; try reflexivity; try (intros H; contradiction); try (now intros g []).
    - right. repeat split.
    - right. split; [reflexivity|]. intros g [].
    - apply Qcle_refl.
  Qed.

  Lemma compare_all_exact : forall (gs P : list grid) st st', two_best P st ->
    (forall g, In g gs -> 0 < g_rmin g) -> compare_all qeqb 0 st gs = Some st' ->
    two_best (P ++ packed gs) st'.
  Proof.
    induction gs as [|g gs IH]; intros P st st' T Hp E; cbn [compare_all] in E.
    - injection E as <-. cbn [packed filter]. now rewrite app_nil_r.
    - destruct (compare_grids qeqb 0 st g) as [st1|] eqn:E1; [|discriminate].
      pose proof (compare_exact P st g st1 T (Hp g (or_introl eq_refl)) E1) as T1.
      specialize (IH _ st1 st' T1 (fun g' H => Hp g' (or_intror H)) E).
      unfold packed in *. cbn [filter]. rewrite <- app_assoc in IH.
      destruct (g_packed g); exact IH.
  Qed.

  (** What the two tiers hold, said without reference to the program's state. *)
  Lemma compare_all_spec (gs : list grid) : (forall g, In g gs -> 0 < g_rmin g) ->
    exists st, compare_all qeqb 0 tiers0 gs = Some st /\
      (forall g, In g (tier1 st) <->
         In g (packed gs) /\ forall h, In h (packed gs) -> g_rmin h <= g_rmin g) /\
      (forall g, In g (tier2 st) <->
         In g (packed gs) /\ ~ In g (tier1 st) /\
         forall h, In h (packed gs) -> ~ In h (tier1 st) -> g_rmin h <= g_rmin g).
  Proof.
    intros Hp. destruct (compare_all_fits qeqb 0 gs tiers0 fits0) as (st & E & _).
    exists st. split; [exact E|].
    destruct (compare_all_exact gs [] tiers0 st two_best0 Hp E) as [T1 T2 Tm To Tn Ts Tp Tz].
    cbn [app] in *. set (P := packed gs) in *.
    assert (I1 : forall g, In g (tier1 st) <-> In g P /\ g_rmin g = rmin1 st).
    { intros g. rewrite T1, filter_In, qeqb_eq. tauto. }
    assert (I2 : forall g, In g (tier2 st) <-> In g P /\ g_rmin g = rmin2 st).
    { intros g. rewrite T2, filter_In, qeqb_eq. tauto. }
    assert (Some1 : P <> [] -> exists h, In h P /\ g_rmin h = rmin1 st).
    { intros Hne. specialize (Tn Hne). destruct (tier1 st) as [|h l] eqn:El; [contradiction|].
      exists h. apply I1. now left. }
    assert (Lt : P <> [] -> rmin2 st < rmin1 st).
    { intros Hne. destruct To as [(_ & L)|(E0 & _)]; [exact L|contradiction]. }
    assert (All : forall h, In h P -> g_rmin h <= rmin1 st).
    { intros h Hh. destruct (Tm h Hh) as [-> |L]; [apply Qcle_refl|].
      assert (P <> []) by (intros Ee; rewrite Ee in Hh; destruct Hh).
      apply Qclt_le_weak. eapply Qcle_lt_trans; [exact L|auto]. }
    split.
    - intros g. rewrite I1. split.
      + intros (Hg & Eg). split; [exact Hg|]. intros h Hh. rewrite Eg. auto.
      + intros (Hg & Hmax). split; [exact Hg|].
        destruct Some1 as (h & Hh & Eh); [intros Ee; rewrite Ee in Hg; destruct Hg|].
        apply Qcle_antisym; [auto|]. rewrite <- Eh. auto.
    - intros g. rewrite I2, I1. split.
      + intros (Hg & Eg). assert (Hne : P <> []) by (intros Ee; rewrite Ee in Hg; destruct Hg).
        split; [exact Hg|]. split.
        * intros (_ & E1). specialize (Lt Hne). rewrite <- Eg, <- E1 in Lt. revert Lt. apply Qclt_irr.
        * intros h Hh Nh. rewrite Eg. destruct (Tm h Hh) as [Eh|L]; [|exact L].
          exfalso. apply Nh. apply I1. auto.
      + intros (Hg & Ng & Hmax). split; [exact Hg|].
        destruct (Tm g Hg) as [E1|L]; [exfalso; tauto|].
        destruct Ts as [Ts|(_ & Tall)]; [|exfalso; apply Ng; auto].
        destruct (tier2 st) as [|h l] eqn:El; [contradiction|].
        assert (Hh : In h P /\ g_rmin h = rmin2 st) by (apply I2; now left).
        apply Qcle_antisym; [exact L|]. rewrite <- (proj2 Hh). apply Hmax; [tauto|].
        intros C. apply I1 in C. destruct C as (Hin & C). destruct Hh as (_ & Hh). rewrite Hh in C.
        assert (Hne : P <> []) by (intros Ee; rewrite Ee in Hg; destruct Hg).
        specialize (Lt Hne). rewrite C in Lt. revert Lt. apply Qclt_irr.
  Qed.

  (** *** With a tolerance: nothing seen is better than the first tier by more than it *)
  Lemma compare_all_tolerance equal eps : 0 <= eps -> eps < 1 ->
    (forall t r, equal t r = true -> t <= r + t * eps) ->
    forall gs : list grid, (forall g, In g gs -> 0 < g_rmin g) ->
    exists st, compare_all equal eps tiers0 gs = Some st /\
      (forall g, In g (packed gs) -> g_rmin g <= rmin1 st + g_rmin g * eps) /\
      (forall g, In g (tier1 st) -> In g (packed gs) /\ (g_rmin g = rmin1 st \/ equal (g_rmin g) (rmin1 st) = true)) /\
      (packed gs <> [] -> tier1 st <> []).
  Proof.
    intros He0 He1 Heq.
    assert (Gen : forall (gs P : list grid) st st',
      (forall g, In g P -> g_rmin g <= rmin1 st + g_rmin g * eps) ->
      (forall g, In g (tier1 st) -> In g P /\ (g_rmin g = rmin1 st \/ equal (g_rmin g) (rmin1 st) = true)) ->
      (P <> [] -> tier1 st <> []) -> ((P = [] /\ rmin1 st = 0) \/ P <> []) ->
      (forall g, In g gs -> 0 < g_rmin g) -> compare_all equal eps st gs = Some st' ->
      (forall g, In g (P ++ packed gs) -> g_rmin g <= rmin1 st' + g_rmin g * eps) /\
      (forall g, In g (tier1 st') -> In g (P ++ packed gs) /\ (g_rmin g = rmin1 st' \/ equal (g_rmin g) (rmin1 st') = true)) /\
      (P ++ packed gs <> [] -> tier1 st' <> [])).
    { induction gs as [|g gs IH]; intros P st st' H1 H2 H3 H4 Hp E; cbn [compare_all] in E.
      - injection E as <-. cbn [packed filter]. rewrite app_nil_r. auto.
      - destruct (compare_grids equal eps st g) as [st1|] eqn:E1; [|discriminate].
        assert (Pg : 0 < g_rmin g) by (apply Hp; now left).
        assert (Step : (forall x, In x (P ++ packed [g]) -> g_rmin x <= rmin1 st1 + g_rmin x * eps) /\
          (forall x, In x (tier1 st1) -> In x (P ++ packed [g]) /\ (g_rmin x = rmin1 st1 \/ equal (g_rmin x) (rmin1 st1) = true)) /\
          (P ++ packed [g] <> [] -> tier1 st1 <> []) /\ ((P ++ packed [g] = [] /\ rmin1 st1 = 0) \/ P ++ packed [g] <> [])).
        { clear IH E. unfold compare_grids in E1. cbv zeta in E1. unfold packed. cbn [filter].
          destruct (g_packed g); cbn [negb] in E1.
          2:{ injection E1 as <-. rewrite app_nil_r. repeat split; auto; now apply H2. }
          set (t := g_rmin g) in *.
          assert (Keep : t <= rmin1 st + t * eps ->
            (forall x, In x (P ++ [g]) -> g_rmin x <= rmin1 st + g_rmin x * eps)).
          { intros Ht x Hx. apply in_app_or in Hx. destruct Hx as [Hx|[<-|[]]]; auto. }
          assert (NE : t <= rmin1 st + t * eps -> P <> []).
          { intros Ht. destruct H4 as [(_ & R0)|H4]; [|exact H4]. exfalso. rewrite R0 in Ht.
            assert (0 < t * (1 - eps)).
            { replace 0 with (0 * (1 - eps)) by ring. apply Qcmult_lt_compat_r; [|exact Pg].
              apply -> Qclt_minus_iff. exact He1. }
            assert (t * (1 - eps) <= 0).
            { apply (Qcplus_le_compat _ _ (- (t * eps)) (- (t * eps))) in Ht; [|apply Qcle_refl].
              replace (t * (1 - eps)) with (t + - (t * eps)) by ring.
              replace 0 with (0 + t * eps + - (t * eps)) by ring. exact Ht. }
            eapply Qcle_not_lt; eassumption. }
          destruct (gt t (rmin1 st + t * eps) && negb (equal t (rmin1 st))) eqn:C1.
          - destruct (Nat.leb 1 (room st)); [|discriminate]. injection E1 as <-. cbn [rmin1 tier1].
            apply andb_true_iff in C1. destruct C1 as (C1 & _). apply gt_iff in C1.
            split; [|split; [|split]].
            + intros x Hx. apply in_app_or in Hx. destruct Hx as [Hx|[<-|[]]].
              * specialize (H1 x Hx). set (u := g_rmin x) in *.
                assert (L : u * (1 - eps) < t * (1 - eps)).
                { apply (Qcle_lt_trans _ (rmin1 st)).
                  - apply (Qcplus_le_compat _ _ (- (u * eps)) (- (u * eps))) in H1; [|apply Qcle_refl].
                    replace (u * (1 - eps)) with (u + - (u * eps)) by ring.
                    replace (rmin1 st) with (rmin1 st + u * eps + - (u * eps)) at 1 by ring. exact H1.
                  - apply Qclt_minus_iff. apply (proj1 (Qclt_minus_iff _ _)) in C1.
                    replace (t * (1 - eps) + - rmin1 st) with (t + - (rmin1 st + t * eps)) by ring. exact C1. }
                assert (Lut : u < t).
                { apply Qcnot_le_lt. intros Ltu. apply (Qcmult_le_compat_r _ _ (1 - eps)) in Ltu.
                  - apply (Qcle_not_lt _ _ Ltu L).
                  - apply -> Qcle_minus_iff. now apply Qclt_le_weak. }
                assert (Lu' : (1 - eps) * u <= t + 0).
                { apply Qclt_le_weak. eapply Qclt_le_trans with (y := t * (1 - eps)).
                  - rewrite Qcmult_comm. exact L.
                  - apply Qcle_minus_iff. replace (t + 0 + - (t * (1 - eps))) with (t * eps) by ring.
                    replace 0 with (0 * eps) by ring. apply Qcmult_le_compat_r; [now apply Qclt_le_weak|exact He0]. }
                apply Qcle_minus_iff. apply (proj1 (Qcle_minus_iff _ _)) in Lu'.
                replace (t + u * eps + - u) with (t + 0 + - ((1 - eps) * u)) by ring. exact Lu'.
              * fold t. apply Qcle_minus_iff. replace (t + t * eps + - t) with (t * eps) by ring.
                replace 0 with (0 * eps) by ring. apply Qcmult_le_compat_r; [now apply Qclt_le_weak|exact He0].
            + intros x [<-|[]]. split; [apply in_or_app; right; now left|now left].
            + discriminate.
            + right. apply not_empty_app.
          - assert (Ht : t <= rmin1 st + t * eps).
            { apply andb_false_iff in C1. destruct C1 as [C1|C1]; [now apply gt_false in C1|].
              apply negb_false_iff in C1. now apply Heq. }
            assert (Inl : forall x, In x (tier1 st) -> In x (P ++ [g]) /\ (g_rmin x = rmin1 st \/ equal (g_rmin x) (rmin1 st) = true)).
            { intros x Hx. destruct (H2 x Hx). split; [apply in_or_app; now left|assumption]. }
            assert (N1 : tier1 st <> []) by (apply H3, NE, Ht).
            destruct (gt t (rmin2 st + t * eps) && negb (equal t (rmin1 st)) && negb (equal t (rmin2 st))).
            + destruct (Nat.leb 1 (room st)); [|discriminate]. injection E1 as <-. cbn [rmin1 tier1].
              split; [auto|]. split; [exact Inl|]. split; [auto|]. right. apply not_empty_app.
            + destruct (equal t (rmin1 st)) eqn:C3.
              * destruct (Nat.leb _ _ && Nat.leb _ _); [|discriminate]. injection E1 as <-. cbn [rmin1 tier1].
                split; [auto|]. split; [|split; [intros _; apply not_empty_app|right; apply not_empty_app]].
                intros x Hx. apply in_app_or in Hx. destruct Hx as [Hx|[<-|[]]]; [auto|].
                split; [apply in_or_app; right; now left|right; exact C3].
              * destruct (equal t (rmin2 st)).
                -- destruct (Nat.leb _ _ && Nat.leb _ _); [|discriminate]. injection E1 as <-. cbn [rmin1 tier1].
                   split; [auto|]. split; [exact Inl|]. split; [auto|]. right. apply not_empty_app.
                -- injection E1 as <-. split; [auto|]. split; [exact Inl|]. split; [auto|]. right. apply not_empty_app. }
        destruct Step as (S1 & S2 & S3 & S4).
        specialize (IH _ st1 st' S1 S2 S3 S4 (fun x Hx => Hp x (or_intror Hx)) E).
        rewrite <- app_assoc in IH. unfold packed in *. rewrite <- filter_app in IH. exact IH. }
    intros gs Hp. destruct (compare_all_fits equal eps gs tiers0 fits0) as (st & E & _).
    exists st. split; [exact E|].
    destruct (Gen gs [] tiers0 st) as (G1 & G2 & G3); auto.
  Qed.
End compare.

(** ** grid_selection *)
Lemma set_at_length {X} i (x : X) : forall a, length (set_at i x a) = length a.
Proof. induction i as [|i IH]; intros [|y a]; cbn; auto. Qed.
Lemma nth_set_at {X} (d : X) i x : forall a j, (i < length a)%nat ->
  nth j (set_at i x a) d = if Nat.eqb j i then x else nth j a d.
Proof.
  induction i as [|i IH]; intros [|y a] [|j] H; cbn in *; try lia; try reflexivity.
  apply IH. lia.
Qed.

Section selection.
  Context {A O : Type} (irr1 irr2 : A -> O -> option Z).
  Open Scope Z_scope.

  Definition wf (total : nat) (st : list Z * list (option O)) : Prop :=
    length (fst st) = total /\ length (snd st) = total.

  Lemma sel_step_wf total c t st o r : wf total st -> wf total (@sel_step O c t st o r).
  Proof.
    intros (H1 & H2). unfold sel_step. destruct r as [k|]; [|split; assumption]. cbv zeta.
    destruct (_ =? 0); [|destruct (k <? _)]; unfold wf; cbn [fst snd]; rewrite ?set_at_length; auto.
  Qed.
  Lemma sel_step_other total c t st o r j : wf total st -> (t < total)%nat -> j <> t ->
    nth j (fst (@sel_step O c t st o r)) 0 = nth j (fst st) 0 /\
    nth j (snd (@sel_step O c t st o r)) None = nth j (snd st) None.
  Proof.
    intros (H1 & H2) Ht Hj. unfold sel_step. destruct r as [k|]; [|auto]. cbv zeta.
    destruct (_ =? 0); [|destruct (k <? _)]; cbn [fst snd]; auto;
      rewrite !nth_set_at by lia; apply Nat.eqb_neq in Hj; rewrite Hj; auto.
  Qed.

  (** The slot [t] holds the best of the offsets seen so far. *)
  Definition best_of (irr : A -> O -> option Z) (g : A) (t : nat) (seen : list O)
      (st : list Z * list (option O)) : Prop :=
    (nth t (fst st) 0 = 0 /\ forall o, In o seen -> irr g o = None) \/
    (exists o, In o seen /\ irr g o = Some (nth t (fst st) 0) /\ nth t (snd st) None = Some o /\
       0 < nth t (fst st) 0 /\
       forall o' k', In o' seen -> irr g o' = Some k' -> nth t (fst st) 0 <= k').
  (** The slot [t] holds the value of one of the offsets seen so far. *)
  Definition some_of (irr : A -> O -> option Z) (g : A) (t : nat) (seen : list O)
      (st : list Z * list (option O)) : Prop :=
    nth t (fst st) 0 = 0 \/
    (exists o, In o seen /\ irr g o = Some (nth t (fst st) 0) /\ nth t (snd st) None = Some o).

  Lemma best_step total irr g t seen st o : positive irr -> wf total st -> (t < total)%nat ->
    best_of irr g t seen st -> best_of irr g t (seen ++ [o]) (sel_step t t st o (irr g o)).
  Proof.
    intros Hp (W1 & W2) Ht H. unfold sel_step. destruct (irr g o) as [k|] eqn:E.
    2:{ destruct H as [(H0 & Ha)|(o0 & I0 & E0 & S0 & P0 & M0)].
        - left. split; [exact H0|]. intros o' Ho. apply in_app_or in Ho. destruct Ho as [Ho|[<-|[]]]; auto.
        - right. exists o0. split; [apply in_or_app; now left|]. repeat split; auto.
          intros o' k' Ho Ek. apply in_app_or in Ho. destruct Ho as [Ho|[<-|[]]]; [eauto|congruence]. }
    cbv zeta. pose proof (Hp _ _ _ E) as Pk.
    assert (New : (nth t (fst st) 0 = 0 -> forall o', In o' seen -> irr g o' = None) ->
       (nth t (fst st) 0 <> 0 -> k < nth t (fst st) 0 /\ forall o' k', In o' seen -> irr g o' = Some k' -> nth t (fst st) 0 <= k') ->
       best_of irr g t (seen ++ [o]) (set_at t k (fst st), set_at t (Some o) (snd st))).
    { intros Hz Hnz. right. exists o. cbn [fst snd]. rewrite !nth_set_at by lia. rewrite Nat.eqb_refl.
      split; [apply in_or_app; right; now left|]. split; [exact E|]. split; [reflexivity|]. split; [exact Pk|].
      intros o' k' Ho Ek. apply in_app_or in Ho. destruct Ho as [Ho|[<-|[]]].
      - destruct (Z.eq_dec (nth t (fst st) 0) 0) as [Z0|Z0].
        + rewrite (Hz Z0 o' Ho) in Ek. discriminate.
        + destruct (Hnz Z0) as (L & M). specialize (M o' k' Ho Ek). lia.
      - rewrite E in Ek. injection Ek as <-. lia. }
    destruct (Z.eqb_spec (nth t (fst st) 0) 0) as [Z0|Z0].
    - apply New; [|contradiction]. intros _.
      destruct H as [(_ & Ha)|(o0 & _ & _ & _ & P0 & _)]; [exact Ha|lia].
    - destruct H as [(H0 & _)|(o0 & I0 & E0 & S0 & P0 & M0)]; [contradiction|].
      destruct (Z.ltb_spec k (nth t (fst st) 0)) as [L|L].
      + apply New; [contradiction|]. intros _. split; [exact L|exact M0].
      + right. exists o0. split; [apply in_or_app; now left|]. repeat split; auto.
        intros o' k' Ho Ek. apply in_app_or in Ho. destruct Ho as [Ho|[<-|[]]]; [eauto|].
        rewrite E in Ek. injection Ek as <-. lia.
  Qed.

  Lemma some_step total irr g c t seen st o : wf total st -> (t < total)%nat ->
    some_of irr g t seen st -> some_of irr g t (seen ++ [o]) (sel_step c t st o (irr g o)).
  Proof.
    intros (W1 & W2) Ht H. unfold sel_step.
    assert (Old : some_of irr g t (seen ++ [o]) st).
    { destruct H as [H|(o0 & I0 & E0 & S0)]; [now left|]. right. exists o0.
      split; [apply in_or_app; now left|auto]. }
    destruct (irr g o) as [k|] eqn:E; [|exact Old]. cbv zeta.
    assert (New : some_of irr g t (seen ++ [o]) (set_at t k (fst st), set_at t (Some o) (snd st))).
    { right. exists o. cbn [fst snd]. rewrite !nth_set_at by lia. rewrite Nat.eqb_refl.
      split; [apply in_or_app; right; now left|auto]. }
    destruct (_ =? 0); [exact New|]. destruct (k <? _); [exact New|exact Old].
  Qed.

  (** One grid. *)
  Lemma fold_best total irr g t : positive irr -> (t < total)%nat -> forall os seen st,
    wf total st -> best_of irr g t seen st ->
    let st' := fold_left (fun s o => sel_step t t s o (irr g o)) os st in
    wf total st' /\ best_of irr g t (seen ++ os) st' /\
    forall j, j <> t -> nth j (fst st') 0 = nth j (fst st) 0 /\ nth j (snd st') None = nth j (snd st) None.
  Proof.
    intros Hp Ht. induction os as [|o os IH]; intros seen st W B st'.
    - subst st'. cbn [fold_left]. rewrite app_nil_r. auto.
    - subst st'. cbn [fold_left].
      specialize (IH (seen ++ [o]) (sel_step t t st o (irr g o)) (sel_step_wf _ _ _ _ _ _ W)
        (best_step total irr g t seen st o Hp W Ht B)). cbv zeta in IH.
      rewrite <- app_assoc in IH. destruct IH as (W' & B' & Ot). split; [exact W'|]. split; [exact B'|].
      intros j Hj. destruct (Ot j Hj) as (E1 & E2). destruct (sel_step_other total t t st o (irr g o) j W Ht Hj) as (F1 & F2).
      split; congruence.
  Qed.
  Lemma fold_some total irr g c t : (t < total)%nat -> forall os seen st,
    wf total st -> some_of irr g t seen st ->
    let st' := fold_left (fun s o => sel_step c t s o (irr g o)) os st in
    wf total st' /\ some_of irr g t (seen ++ os) st' /\
    forall j, j <> t -> nth j (fst st') 0 = nth j (fst st) 0 /\ nth j (snd st') None = nth j (snd st) None.
  Proof.
    intros Ht. induction os as [|o os IH]; intros seen st W B st'.
    - subst st'. cbn [fold_left]. rewrite app_nil_r. auto.
    - subst st'. cbn [fold_left].
      specialize (IH (seen ++ [o]) (sel_step c t st o (irr g o)) (sel_step_wf _ _ _ _ _ _ W)
        (some_step total irr g c t seen st o W Ht B)). cbv zeta in IH.
      rewrite <- app_assoc in IH. destruct IH as (W' & B' & Ot). split; [exact W'|]. split; [exact B'|].
      intros j Hj. destruct (Ot j Hj) as (E1 & E2). destruct (sel_step_other total c t st o (irr g o) j W Ht Hj) as (F1 & F2).
      split; congruence.
  Qed.

  (** Slots from [i] on are untouched. *)
  Definition fresh_from (i : nat) (st : list Z * list (option O)) : Prop :=
    forall j, (i <= j)%nat -> nth j (fst st) 0 = 0.

  Lemma best_keep irr g t os st st' : best_of irr g t os st ->
    nth t (fst st') 0 = nth t (fst st) 0 -> nth t (snd st') None = nth t (snd st) None ->
    best_of irr g t os st'.
  Proof. unfold best_of. intros H -> ->. exact H. Qed.
  Lemma some_keep irr g t os st st' : some_of irr g t os st ->
    nth t (fst st') 0 = nth t (fst st) 0 -> nth t (snd st') None = nth t (snd st) None ->
    some_of irr g t os st'.
  Proof. unfold some_of. intros H -> ->. exact H. Qed.

  Lemma loop1_best total os : positive irr1 -> forall gs i st,
    (i + length gs <= total)%nat -> wf total st -> fresh_from i st ->
    let st' := sel_loop1 irr1 i gs os st in
    wf total st' /\ fresh_from (i + length gs) st' /\
    (forall k g, nth_error gs k = Some g -> best_of irr1 g (i + k) os st') /\
    (forall j, (j < i)%nat -> nth j (fst st') 0 = nth j (fst st) 0 /\ nth j (snd st') None = nth j (snd st) None).
  Proof.
    intros Hp. induction gs as [|g gs IH]; intros i st Hi W F st'.
    - subst st'. cbn [sel_loop1 length]. rewrite Nat.add_0_r. split; [exact W|]. split; [exact F|].
      split; [intros [|k] g; discriminate|auto].
    - subst st'. cbn [sel_loop1]. cbn [length] in Hi.
      assert (Ht : (i < total)%nat) by lia.
      assert (B0 : best_of irr1 g i [] st) by (left; split; [apply F; lia|intros o []]).
      destruct (fold_best total irr1 g i Hp Ht os [] st W B0) as (W1 & B1 & O1).
      set (st1 := fold_left (fun s o => sel_step i i s o (irr1 g o)) os st) in *. cbn [app] in B1.
      destruct (IH (S i) st1 ltac:(lia) W1) as (W2 & F2 & B2 & O2).
      { intros j Hj. rewrite (proj1 (O1 j ltac:(lia))). apply F. lia. }
      split; [exact W2|]. split; [cbn [length]; rewrite Nat.add_succ_r; exact F2|]. split.
      + intros [|k] g' E; cbn [nth_error] in E.
        * injection E as <-. rewrite Nat.add_0_r. destruct (O2 i ltac:(lia)) as (E1 & E2).
          eapply best_keep; eassumption.
        * rewrite Nat.add_succ_r. apply (B2 k g' E).
      + intros j Hj. destruct (O2 j ltac:(lia)) as (E1 & E2). destruct (O1 j ltac:(lia)) as (E3 & E4).
        split; congruence.
  Qed.

  Lemma loop2_some total count os : forall gs i st,
    (count + i + length gs <= total)%nat -> wf total st -> fresh_from (count + i) st ->
    let st' := sel_loop2 irr2 count i gs os st in
    wf total st' /\
    (forall k g, nth_error gs k = Some g -> some_of irr2 g (count + i + k) os st') /\
    (forall j, (j < count + i)%nat -> nth j (fst st') 0 = nth j (fst st) 0 /\ nth j (snd st') None = nth j (snd st) None).
  Proof.
    induction gs as [|g gs IH]; intros i st Hi W F st'.
    - subst st'. cbn [sel_loop2 length]. split; [exact W|].
      split; [intros [|k] g; discriminate|auto].
    - subst st'. cbn [sel_loop2]. cbn [length] in Hi.
      assert (Ht : (count + i < total)%nat) by lia.
      assert (B0 : some_of irr2 g (count + i) [] st) by (left; apply F; lia).
      destruct (fold_some total irr2 g i (count + i) Ht os [] st W B0) as (W1 & B1 & O1).
      set (st1 := fold_left (fun s o => sel_step i (count + i) s o (irr2 g o)) os st) in *. cbn [app] in B1.
      destruct (IH (S i) st1 ltac:(lia) W1) as (W2 & B2 & O2).
      { intros j Hj. rewrite (proj1 (O1 j ltac:(lia))). apply F. lia. }
      split; [exact W2|]. split.
      + intros [|k] g' E; cbn [nth_error] in E.
        * injection E as <-. rewrite Nat.add_0_r. destruct (O2 (count + i)%nat ltac:(lia)) as (E1 & E2).
          eapply some_keep; eassumption.
        * replace (count + i + S k)%nat with (count + S i + k)%nat by lia. apply (B2 k g' E).
      + intros j Hj. destruct (O2 j ltac:(lia)) as (E1 & E2). destruct (O1 j ltac:(lia)) as (E3 & E4).
        split; congruence.
  Qed.

  (** Facts about the final state. *)
  Lemma selection_state g1 g2 os : positive irr1 ->
    let total := (length g1 + length g2)%nat in
    let st := sel_loop2 irr2 (length g1) 0 g2 os (sel_loop1 irr1 0 g1 os (repeat 0 total, repeat None total)) in
    wf total st /\
    (forall k g, nth_error g1 k = Some g -> best_of irr1 g k os st) /\
    (forall k g, nth_error g2 k = Some g -> some_of irr2 g (length g1 + k) os st).
  Proof.
    intros Hp total st.
    assert (W0 : wf total (repeat 0 total, repeat (@None O) total)) by (split; cbn [fst snd]; apply repeat_length).
    assert (F0 : fresh_from 0 (repeat 0 total, repeat (@None O) total)).
    { intros j _. cbn [fst]. apply nth_repeat. }
    destruct (loop1_best total os Hp g1 0 _ ltac:(lia) W0 F0) as (W1 & F1 & B1 & _).
    set (s1 := sel_loop1 irr1 0 g1 os (repeat 0 total, repeat None total)) in *.
    destruct (loop2_some total (length g1) os g2 0 s1 ltac:(lia) W1) as (W2 & S2 & O2).
    { intros j Hj. apply F1. lia. }
    fold st in W2, S2, O2. split; [exact W2|]. split.
    - intros k g E. assert (k < length g1)%nat by (apply nth_error_Some; congruence).
      destruct (O2 k ltac:(lia)) as (E1 & E2). eapply best_keep; [apply (B1 k g E)|exact E1|exact E2].
    - intros k g E. specialize (S2 k g E). rewrite Nat.add_0_r in S2. exact S2.
  Qed.

  Definition irr_at (g1 : list A) (i : nat) : A -> O -> option Z :=
    if Nat.ltb i (length g1) then irr1 else irr2.

  (** What is returned belongs together, and no grid of the first tier is better. *)
  Lemma selection_sound g1 g2 os : positive irr1 ->
    match grid_selection irr1 irr2 g1 g2 os with
    | Some (g, Some o, n) =>
        In o os /\ 0 < n /\ ((In g g1 /\ irr1 g o = Some n) \/ (In g g2 /\ irr2 g o = Some n)) /\
        forall g' o' k, In g' g1 -> In o' os -> irr1 g' o' = Some k -> n <= k
    | Some (_, None, _) => False
    | None => forall g o, In g g1 -> In o os -> irr1 g o = None
    end.
  Proof.
    intros Hp. unfold grid_selection. cbv zeta.
    destruct (selection_state g1 g2 os Hp) as (W & B & S). cbv zeta in W, B, S.
    set (total := (length g1 + length g2)%nat) in *.
    set (st := sel_loop2 irr2 (length g1) 0 g2 os (sel_loop1 irr1 0 g1 os (repeat 0 total, repeat None total))) in *.
    pose proof (minloc_map_spec (fun x => x) 0 (fst st) 0) as M. rewrite map_id in M. fold (minloc (fun x => 0 <? x) (fst st)) in M.
    assert (Tier1 : forall g o k, In g g1 -> In o os -> irr1 g o = Some k ->
       exists n, In n (fst st) /\ 0 < n /\ n <= k).
    { intros g o k Hg Ho Ek. apply In_nth_error in Hg. destruct Hg as (i & Ei).
      assert (Hi : (i < length g1)%nat) by (apply nth_error_Some; congruence).
      destruct (B i g Ei) as [(_ & Hn)|(o0 & _ & _ & _ & P0 & M0)].
      - rewrite (Hn o Ho) in Ek. discriminate.
      - exists (nth i (fst st) 0). split; [apply nth_In; destruct W as (W1 & _); rewrite W1; unfold total; lia|].
        split; [exact P0|]. eapply M0; eassumption. }
    destruct (minloc (fun x => 0 <? x) (fst st)) as [(i, n)|].
    - rewrite Nat.sub_0_r in M. destruct M as (Hi & En & Pn & _ & Mn).
      assert (Len : length (g1 ++ g2) = total) by apply app_length.
      destruct W as (W1 & W2). rewrite W1 in Hi.
      destruct (nth_error (g1 ++ g2) i) as [g|] eqn:Eg.
      2:{ apply nth_error_None in Eg. lia. }
      destruct (Nat.lt_ge_cases i (length g1)) as [Lt|Ge].
      + rewrite nth_error_app1 in Eg by exact Lt.
        destruct (B i g Eg) as [(H0 & _)|(o0 & I0 & E0 & S0 & P0 & M0)]; [lia|].
        rewrite S0. rewrite En in E0. split; [exact I0|]. split; [exact Pn|]. split.
        * left. split; [eapply nth_error_In, Eg|exact E0].
        * intros g' o' k Hg Ho Ek. destruct (Tier1 g' o' k Hg Ho Ek) as (m & Hm & Pm & Lm).
          specialize (Mn m Hm Pm). cbn beta in Mn. lia.
      + rewrite nth_error_app2 in Eg by exact Ge.
        pose proof (S _ g Eg) as Sg. replace (length g1 + (i - length g1))%nat with i in Sg by lia.
        destruct Sg as [H0|(o0 & I0 & E0 & S0)]; [lia|].
        rewrite S0. rewrite En in E0. split; [exact I0|]. split; [exact Pn|]. split.
        * right. split; [eapply nth_error_In, Eg|exact E0].
        * intros g' o' k Hg Ho Ek. destruct (Tier1 g' o' k Hg Ho Ek) as (m & Hm & Pm & Lm).
          specialize (Mn m Hm Pm). cbn beta in Mn. lia.
    - intros g o Hg Ho. destruct (irr1 g o) as [k|] eqn:E; [|reflexivity]. exfalso.
      destruct (Tier1 g o k Hg Ho E) as (m & Hm & Pm & _). specialize (M m Hm). cbn beta in M. lia.
  Qed.
End selection.

(** ** transform_supercell *)
Lemma qfloor_unique (x : Q) (z : Z) : (inject_Z z <= x)%Q -> (x < inject_Z (z + 1))%Q -> Qfloor x = z.
Proof.
  intros H1 H2. apply Z.le_antisymm.
  - apply Z.lt_succ_r. rewrite Zlt_Qlt. eapply Qle_lt_trans; [apply Qfloor_le|exact H2].
  - rewrite <- (Qfloor_Z z). now apply Qfloor_resp_le.
Qed.

(** Within one half of an integer, [nint] gives that integer. *)
Lemma nint_near x z : zq z - Q2Qc (1 # 2) < x -> x < zq z + Q2Qc (1 # 2) -> nint x = z.
Proof.
  intros H1 H2.
  assert (H1' : (inject_Z z - (1 # 2) < this x)%Q).
  { clear H2. unfold zq in H1. qclra. }
  assert (H2' : (this x < inject_Z z + (1 # 2))%Q).
  { clear H1. unfold zq in H2. qclra. }
  clear H1 H2. unfold nint. destruct (Qle_bool 0 (this x)).
  - apply qfloor_unique; rewrite ?inject_Z_plus; change (inject_Z 1) with 1%Q; lra.
  - assert (Qfloor (- this x + (1 # 2)) = - z)%Z; [|lia].
    apply qfloor_unique; rewrite ?inject_Z_plus, ?inject_Z_opp; change (inject_Z 1) with 1%Q; lra.
Qed.
Lemma nint_zq z : nint (zq z) = z.
Proof. apply nint_near; unfold zq; qclra. Qed.
Lemma nint_mat_qof M : nint_mat (qof M) = M.
Proof. destruct M as [a b c d e f g h i]. unfold nint_mat, qof. cbn [q11 q12 q13 q21 q22 q23 q31 q32 q33 m11 m12 m13 m21 m22 m23 m31 m32 m33]. now rewrite !nint_zq. Qed.

Lemma nint_mat_near F M : near_mat F M -> nint_mat F = M.
Proof.
  intros (H1 & H2 & H3 & H4 & H5 & H6 & H7 & H8 & H9). destruct M as [a b c d e f g h i]. unfold nint_mat.
  cbn [m11 m12 m13 m21 m22 m23 m31 m32 m33] in *.
  f_equal; apply nint_near; (apply H1 || apply H2 || apply H3 || apply H4 || apply H5 || apply H6 || apply H7 || apply H8 || apply H9).
Qed.

Lemma unrounded_exact H Co O : qdet O <> 0 -> unimodular Co ->
  unrounded H (qmul O (qof Co)) Co O = qof (mmul (mmul (minv1 Co) H) Co).
Proof.
  intros HO Hc. unfold unrounded.
  assert (HNo : qdet (qmul O (qof Co)) <> 0).
  { rewrite qdet_mul. apply Qc_mul_neq0; [exact HO|]. now apply unimodular_det. }
  assert (E1 : qinv (qmul O (qof Co)) = qmul (qof (minv1 Co)) (qinv O)).
  { symmetry. apply qinv_unique; [exact HNo|].
    rewrite <- qmul_assoc, (qmul_assoc (qof Co)), <- qof_mul, minv1_r, qof_id, qmul_id_l
      by exact Hc.
    now apply qinv_r. }
  rewrite E1, !qof_mul, <- !qmul_assoc.
  rewrite (qmul_assoc (qinv O) O), qinv_l, qmul_id_l by exact HO.
  rewrite (qmul_assoc (qinv O) O), qinv_l, qmul_id_l by exact HO.
  reflexivity.
Qed.

(** The reduced canonical cell [No] may be off by rounding errors as long as the matrix to
    round stays within one half of an integer matrix [M]. *)
Lemma transform_near U O No Cu Co H M : qdet O <> 0 -> qdet No <> 0 -> unimodular Cu ->
  near_mat (unrounded H No Co O) M ->
  f_transform_supercell H No (qmul U (qof Cu)) Co Cu O =
  Some (qmul U (qof (mmul (mmul Cu M) (minv1 Cu)))).
Proof.
  intros HO HNo Hu HM. unfold f_transform_supercell.
  rewrite (np_inv_some O HO), (np_inv_some No HNo), (np_inv_some (qof Cu)) by now apply unimodular_det.
  cbv zeta. fold (unrounded H No Co O). rewrite (nint_mat_near _ _ HM). f_equal.
  rewrite (qinv_qof Cu Hu), !qof_mul, <- !qmul_assoc. reflexivity.
Qed.

Lemma near_mat_exact M : near_mat (qof M) M.
Proof.
  assert (K : forall z, near_int (zq z) z) by (intros z; split; unfold zq; qclra).
  destruct M as [a b c d e f g h i]. unfold near_mat, qof. cbn [q11 q12 q13 q21 q22 q23 q31 q32 q33 m11 m12 m13 m21 m22 m23 m31 m32 m33].
  repeat split; apply K.
Qed.

Lemma transform_same U O Cu Co H : qdet U <> 0 -> qdet O <> 0 -> unimodular Cu -> unimodular Co ->
  f_transform_supercell H (qmul O (qof Co)) (qmul U (qof Cu)) Co Cu O =
  transform_one (qmul O (qof Co)) (qmul U (qof Cu)) (qof Co) (qof Cu) O H.
Proof.
  intros HU HO Hu Hc.
  rewrite (transform_near U O (qmul O (qof Co)) Cu Co H (mmul (mmul (minv1 Co) H) Co)); [|exact HO| |exact Hu|].
  - unfold transform_one.
    assert (HNo : qdet (qmul O (qof Co)) <> 0).
    { rewrite qdet_mul. apply Qc_mul_neq0; [exact HO|]. now apply unimodular_det. }
    rewrite (np_inv_some O HO), (np_inv_some _ HNo), (np_inv_some (qof Cu)) by now apply unimodular_det.
    fold (unrounded H (qmul O (qof Co)) Co O). rewrite (unrounded_exact H Co O HO Hc). f_equal.
    rewrite (qinv_qof Cu Hu), !qof_mul, <- !qmul_assoc. reflexivity.
  - rewrite qdet_mul. apply Qc_mul_neq0; [exact HO|]. now apply unimodular_det.
  - rewrite (unrounded_exact H Co O HO Hc). apply near_mat_exact.
Qed.

Lemma mdet_mmul_conj Cu M : unimodular Cu -> mdet (mmul (mmul Cu M) (minv1 Cu)) = mdet M.
Proof. intros Hu. apply conj_det, Hu. Qed.

Lemma transform_near_supercell U O No Cu Co H M : qdet O <> 0 -> qdet No <> 0 -> unimodular Cu ->
  near_mat (unrounded H No Co O) M ->
  exists S, f_transform_supercell H No (qmul U (qof Cu)) Co Cu O = Some S /\ supercell (mdet M) U S.
Proof.
  intros HO HNo Hu HM. eexists. split; [now apply transform_near, HM|].
  eexists. split; [reflexivity|]. now apply mdet_mmul_conj.
Qed.

Lemma compare_all_in_bounds A equal eps (gs : list (grid A)) :
  exists st, compare_all equal eps tiers0 gs = Some st /\
    (length (tier1 st) <= room st)%nat /\ (length (tier2 st) <= room st)%nat.
Proof.
  destruct (compare_all_fits equal eps gs tiers0 fits0) as (st & E & _ & H). exists st. auto.
Qed.

Lemma selection_second_tier : exists (irr : Z -> Z -> option Z) g1 g2 os g o,
  positive irr /\ grid_selection irr irr g1 g2 os = Some (g, Some o, 4%Z) /\
  exists g' o', In g' g2 /\ In o' os /\ irr g' o' = Some 3%Z.
Proof.
  exists (fun g o => Some (if (g =? 1)%Z then 5 else if (o =? 1)%Z then 3 else 4)%Z),
    [1%Z], [2%Z], [1%Z; 2%Z], 2%Z, 2%Z. split; [|split].
  - intros g o k E. injection E as <-. destruct (g =? 1)%Z; [reflexivity|].
    destruct (o =? 1)%Z; reflexivity.
  - reflexivity.
  - exists 2%Z, 1%Z. split; [now left|]. split; [now left|reflexivity].
Qed.
