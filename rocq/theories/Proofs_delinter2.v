(** Proofs about delinter.f90: the branches of symmetrize. *)
From Coq Require Import Reals ZArith List Bool Lra Psatz.
From Verif Require Import Model_delinter Spec_delinter Proofs_delinter.
Import ListNotations.
Open Scope R_scope.

Lemma acos_half : acos (1 / 2) = PI / 3.
Proof. rewrite <- cos_PI3. apply acos_cos. pose proof PI_RGT_0. lra. Qed.
Lemma cos_acos_third : cos (acos (-1 / 3)) = -1 / 3.
Proof. apply cos_acos. lra. Qed.

(** Take [symmetrize p n = Some q] apart. *)
Ltac open_sym E :=
  repeat match type of E with
  | bind (acos_div ?x ?y) _ = _ =>
      let H := fresh "H" in let al := fresh "al" in
      destruct (acos_div x y) as [al|] eqn:H; cbn [bind] in E; [|discriminate E];
      let H0 := fresh "Hn" in apply acos_div_some in H as [H0 H]
  end.
Ltac nonzeros := repeat split; let E := fresh in intro E; match goal with H : _ <> 0 |- _ => apply H; try rewrite E; try ring end.

Section sym.
  Context (equal : R -> R -> bool).

  Lemma enforced_cell n p q : In n right_numbers -> symmetrize equal p n = Some q ->
    cell_products (equalities n) q.
  Proof.
    destruct p as [a b c al be ga]. intros Hn E. unfold symmetrize in E. cbv zeta in E.
    set (t := (a + b + c) / 3) in E. set (ab := (a + b) / 2) in E. set (bc := (c + b) / 2) in E.
    clearbody t ab bc. unfold right_numbers in Hn. cbn [In] in Hn.
    repeat destruct Hn as [<-|Hn]; try contradiction; cbn [Z.eqb Pos.eqb orb] in E; open_sym E;
      injection E as <-; unfold cell_products, equalities; cbn [ca cb cc calpha cbeta cgamma];
      rewrite ?cos_PI2, ?cos_PI3, ?cos_acos_third;
      repeat match goal with H : cos _ = _ |- _ => rewrite H; clear H end;
      repeat split; try (field; fail);
      field; repeat split; let E := fresh in intro E; match goal with H : _ <> 0 |- _ => apply H; rewrite E; ring end.
  Qed.

  (** Parameters written with the cosines. *)
  Context (a b c x y z : R) (Ha : 0 < a) (Hb : 0 < b) (Hc : 0 < c)
          (Hx : -1 <= x <= 1) (Hy : -1 <= y <= 1) (Hz : -1 <= z <= 1).
  Let p := Cell a b c (acos x) (acos y) (acos z).
  Lemma sq_eq u v : 0 < u -> 0 < v -> u * u = v * v -> u = v.
  Proof. intros H1 H2 E. nra. Qed.
  Lemma cancel u v k w : 0 < u -> 0 < v -> u * v * w = u * v * k -> w = k.
  Proof. intros H1 H2 E. apply Rmult_eq_reg_l with (u * v); [exact E|]. apply Rgt_not_eq. nra. Qed.
  Ltac nz := apply Rgt_not_eq; repeat apply Rmult_lt_0_compat; lra.
  Ltac acos_step :=
    match goal with
    | |- context [acos_div ?u ?v] =>
        first [rewrite (acos_div_ok u v x); [|nz|lra|assumption]
              |rewrite (acos_div_ok u v y); [|nz|lra|assumption]
              |rewrite (acos_div_ok u v z); [|nz|lra|assumption]]; cbn [bind]
    end.
  Ltac by_cancel := match goal with H1 : 0 < ?u, H2 : 0 < ?v |- ?w = ?k => apply (cancel u v k w H1 H2); lra end.
  Lemma unchanged_cell n : In n right_numbers -> cell_products (equalities n) p -> symmetrize equal p n = Some p.
  Proof.
    unfold p, cell_products. cbn [ca cb cc calpha cbeta cgamma]. rewrite !cos_acos by assumption.
    intros Hn H. unfold symmetrize. cbv zeta.
    unfold right_numbers in Hn. cbn [In] in Hn.
    repeat destruct Hn as [<-|Hn]; try contradiction; unfold equalities in H; cbn [Z.eqb Pos.eqb orb].
    all: repeat match goal with H : _ = _ /\ _ |- _ => destruct H end.
    all: try match goal with H : a * a = b * b |- _ => apply sq_eq in H; [subst b|assumption|assumption] end.
    all: try match goal with H : ?u * ?u = c * c |- _ => apply sq_eq in H; [subst c|assumption|assumption] end.
    all: try match goal with H : b * b = c * c |- _ => apply sq_eq in H; [subst c|assumption|assumption] end.
    all: try replace ((a + a + a) / 3) with a by field.
    all: try replace ((a + a) / 2) with a by field.
    all: try replace ((b + b) / 2) with b by field.
    all: rewrite ?cos_acos by assumption.
    all: repeat acos_step.
    all: f_equal; f_equal; try reflexivity.
    all: try (match goal with |- PI / 3 = acos ?w => rewrite <- acos_half | |- PI / 2 = acos ?w => rewrite <- acos_0 end).
    all: try (f_equal; by_cancel; fail).
    all: try (let E := fresh in assert (E : y = z) by by_cancel; rewrite <- E).
    all: try (let E := fresh in assert (E : x = y) by by_cancel; rewrite <- E).
    all: field.
  Qed.
End sym.
