(** Shared lemmas and tactics for the correctness proofs of the enumerators. *)
From Coq Require Import ZArith List Lia Bool.
From Coq Require Export NsatzTactic.
From Verif Require Import Mat3 Spec PyNum Model_diag PyNumFacts PointGroup.
Import ListNotations.
Open Scope Z_scope.

(** What is proved per enumerator, relative to a list of group generators. *)
Definition enumerates_gens (gens : list mat3) (enum : Z -> list mat3) : Prop :=
  forall n H, In H (enum n) <->
              is_hnf n H /\ (forall g, In g gens -> preserves g H).

Lemma enum_from_gens G r gens k enum :
  enumerates_gens gens enum -> pg_cert G r gens k = true -> enumerates_exactly G enum.
Proof.
  intros HE HC n H. rewrite (HE n H), <- (symmetry_preserving_gens G r gens k H HC).
  split; [|tauto]. intros (Hh & Hs). split; [|tauto].
  destruct Hh as (a & b & c & d & e & f & -> & Ha & Hc & Hf & <- & _). nia.
Qed.

Lemma preserves_opp_id H : preserves (mopp mid) H.
Proof.
  apply preserves_matrix. exists (mopp mid).
  unfold mmul, mopp, mid; cbn [m11 m12 m13 m21 m22 m23 m31 m32 m33]. f_equal; ring.
Qed.

(** It is enough to treat the generators other than -1. *)
Lemma enum_intro gens enum :
  (forall n H, In H (enum n) ->
     exists a b c d e f, H = HNF a b c d e f /\
       1 <= a /\ 1 <= c /\ 1 <= f /\ a * c * f = n /\
       0 <= b < c /\ 0 <= d < f /\ 0 <= e < f /\
       forall g, In g gens -> preserves g (HNF a b c d e f)) ->
  (forall a b c d e f,
       1 <= a -> 1 <= c -> 1 <= f ->
       0 <= b < c -> 0 <= d < f -> 0 <= e < f ->
       (forall g, In g gens -> preserves g (HNF a b c d e f)) ->
       In (HNF a b c d e f) (enum (a * c * f))) ->
  enumerates_gens (mopp mid :: gens) enum.
Proof.
  intros HS HC n H. split.
  - intros Hin. destruct (HS n H Hin)
      as (a & b & c & d & e & f & -> & Ha & Hc & Hf & Hn & Hb & Hd & He & Hg).
    split; [exists a, b, c, d, e, f; auto 10|].
    intros g [<-|Hg']; [apply preserves_opp_id|auto].
  - intros ((a & b & c & d & e & f & -> & Ha & Hc & Hf & <- & Hb & Hd & He) & Hg).
    apply HC; auto. intros g Hin. apply Hg. now right.
Qed.

(** Divisibility written with the quotient on the left. *)
Lemma dvd_ex x y : (y | x) <-> exists k, x = k * y.
Proof. reflexivity. Qed.

Ltac fcbn := cbn [fnum fden fz fadd fsub fmul fdiv fopp].
Ltac fpos := fcbn; repeat (apply Z.mul_pos_pos); lia.

(** Take apart a hypothesis [Hin : In H (enum n)], one loop at a time. *)
Ltac d_diag Hin :=
  apply in_py_for in Hin; destruct Hin as (((a & c) & f) & Hdiag & Hin);
  apply in_diagonals in Hdiag; destruct Hdiag as (Ha & Hc & Hf & Hn); cbv zeta in Hin.
(** loop over [range(hi)] *)
Ltac d_range Hin v :=
  apply in_py_for in Hin; destruct Hin as (v & ?Hr & Hin); cbv zeta in Hin;
  match goal with H : In v _ |- _ => apply in_range1 in H end.
(** loop over [range(0,hi,step)]; [k] is [v / step] *)
Ltac d_step Hin v k :=
  apply in_py_for in Hin; destruct Hin as (v & ?Hr & Hin); cbv zeta in Hin;
  match goal with H : In v _ |- _ =>
    apply in_range_mult in H; [destruct H as (?Hr & (k & ?Hk))|lia] end.
(** loop over [[0, hi/2]]; [k] is [2 * v / hi] *)
Ltac d_half Hin v k :=
  apply in_py_for in Hin; destruct Hin as (v & ?Hr & Hin); cbv zeta in Hin;
  match goal with H : In v _ |- _ =>
    apply in_halves in H; [destruct H as (?Hr & (k & ?Hk))|lia] end.
Ltac d_if Hin T :=
  apply in_py_if in Hin; destruct Hin as (T & Hin); cbv zeta in Hin;
  rewrite ?andb_true_iff in T.
(** integer test; [k] is the quotient *)
Ltac d_mod T k :=
  apply mod0_true in T; [destruct T as (k & T)|first [lia|apply Z.mul_pos_pos; lia|nia]].
(** float test whose value is the integer [m]; [k] is the quotient *)
Ltac ns :=
  repeat match goal with
  | H : @eq bool _ _ |- _ => clear H
  | H : _ /\ _ |- _ => clear H
  | H : @eq Z ?x ?y |- _ => assert_succeeds (assert (x = y) by ring); clear H
  end;
  (* [nsatz] may leave the goal that a constant factor is not zero *)
  solve [nsatz; let H := fresh in intro H; vm_compute in H; discriminate H].
Ltac d_fmod T m k :=
  apply (fmod0_int _ _ m) in T; [destruct T as (k & T)|fpos|lia|fcbn; ns].
Ltac d_end Hin a b c d e f :=
  apply in_one in Hin; match type of Hin with ?H = _ => subst H end;
  exists a, b, c, d, e, f;
  repeat (split; [first [reflexivity|assumption|lia]|]).

(** Prove a test. *)
Ltac e_mod k := apply mod0_true; [first [lia|apply Z.mul_pos_pos; lia|nia]|]; exists k.
Ltac e_fmod m k := apply (fmod0_int _ _ m); [fpos|lia|fcbn; ns|]; exists k.

(** Provide a loop variable when building a membership proof. *)
Ltac enc v :=
  apply in_py_for; exists v; split;
  [ first [ apply in_range1; lia
          | apply in_range_mult; [lia|]; split; [lia|]
          | apply in_halves; [lia|]; split; [lia|]
          | apply in_diagonals; repeat split; (lia || ring) | idtac ]
  | cbv zeta ].
Ltac encif := apply in_py_if; split; [ rewrite ?andb_true_iff | cbv zeta ].
Ltac enc1 := apply in_one; reflexivity.

(** The system of equations for [preserves g (HNF ...)]. *)
Ltac pres_hyp H x1 x2 x3 y1 y2 y3 w1 w2 w3 :=
  apply preserves_HNF in H;
  cbn [m11 m12 m13 m21 m22 m23 m31 m32 m33] in H; unfold solvable in H;
  destruct H as ((x1 & x2 & x3 & ?E) & (y1 & y2 & y3 & ?E) & (w1 & w2 & w3 & ?E));
  repeat match goal with E : _ /\ _ |- _ => destruct E end.
Ltac pres_goal :=
  apply preserves_HNF; cbn [m11 m12 m13 m21 m22 m23 m31 m32 m33]; unfold solvable;
  split; [|split].
Ltac sol z1 z2 z3 := exists z1, z2, z3; split; [|split].
Ltac solved z1 z2 z3 := sol z1 z2 z3; first [ring | ns].

(** Use the invariance under one generator. *)
Ltac use_gen HP g x1 x2 x3 y1 y2 y3 w1 w2 w3 :=
  let P := fresh "P" in
  pose proof (HP g ltac:(cbn; tauto)) as P; unfold g in P;
  pres_hyp P x1 x2 x3 y1 y2 y3 w1 w2 w3.
Ltac gens_cases :=
  let g := fresh "g" in let Hg := fresh "Hg" in
  intros g Hg; cbn [In] in Hg;
  repeat (destruct Hg as [Hg|Hg]; [subst g|]); [..|destruct Hg].

Lemma cancel_fac a x v : 1 <= a -> a * x = a * v -> x = v.
Proof. intros Ha H. apply (Z.mul_reg_l _ _ a); lia. Qed.
(** [x] is [v] because [a * x = a * v]. *)
Ltac zc x v a :=
  let E := fresh "E" in
  assert (E : x = v) by (apply (cancel_fac a); [assumption|first [lia|ns|nia]]);
  try subst x.
