(** Facts about the Fortran primitives of [Model_sp_hnfs], and tactics for its enumerators. *)
From Coq Require Import ZArith List Lia Bool Znumtheory.
From Verif Require Import Mat3 Spec PyNum Model_diag PyNumFacts PointGroup EnumTac Model_sp_hnfs.
Import ListNotations.
Open Scope Z_scope.

Lemma rem0_true x y : 0 < y -> (rem0 x y = true <-> (y | x)).
Proof. intros H. unfold rem0. rewrite Z.eqb_eq. apply Z.rem_divide. lia. Qed.

Lemma rem0_mod0 x y : 0 < y -> rem0 x y = mod0 x y.
Proof. intros H. apply eq_true_iff_eq. rewrite rem0_true, mod0_true by exact H. reflexivity. Qed.

(** An exact quotient. *)
Lemma quot_is x y m : 0 < y -> x = m * y -> Z.quot x y = m.
Proof. intros H ->. apply Z.quot_mul. lia. Qed.

Lemma do_range_py lo hi step : do_range lo (hi - 1) step = py_range lo hi step.
Proof. unfold do_range. now replace (hi - 1 + 1) with hi by ring. Qed.

Lemma f_halves_py c : 1 <= c -> f_halves c = halves c.
Proof.
  intros Hc. unfold f_halves, halves. rewrite rem0_mod0 by lia. unfold mod0.
  destruct (c mod 2 =? 0); [|reflexivity]. now rewrite Z.quot_div_nonneg by lia.
Qed.

Lemma in_f_halves_rev c x : In x (f_halves_rev c) <-> In x (f_halves c).
Proof. unfold f_halves, f_halves_rev. destruct (rem0 c 2); cbn [In]; tauto. Qed.

Lemma py_for_ext {A B} (l : list A) (f g : A -> list B) :
  (forall x, In x l -> f x = g x) -> py_for l f = py_for l g.
Proof.
  unfold py_for. induction l as [|x l IH]; intros H; cbn [flat_map]; [reflexivity|].
  rewrite (H x) by now left. rewrite IH; [reflexivity|]. intros y Hy. apply H. now right.
Qed.

Lemma f_diagonals_py n : f_diagonals n = get_HNF_diagonals n.
Proof.
  unfold f_diagonals, get_HNF_diagonals, do_range. apply py_for_ext. intros i Hi.
  apply in_py_range in Hi; [|lia]. rewrite rem0_mod0 by lia. unfold mod0.
  destruct (negb (n mod i =? 0)); [reflexivity|]. cbv zeta.
  rewrite Z.quot_div_nonneg by lia. apply py_for_ext. intros j Hj.
  apply in_py_range in Hj; [|lia]. rewrite rem0_mod0 by lia. unfold mod0.
  destruct (negb (n / i mod j =? 0)); [reflexivity|].
  now rewrite Z.quot_div_nonneg by lia.
Qed.

Lemma in_f_diagonals n a c f :
  In (a, c, f) (f_diagonals n) <-> 1 <= a /\ 1 <= c /\ 1 <= f /\ a * c * f = n.
Proof. rewrite f_diagonals_py. apply in_diagonals. Qed.

Lemma in_do_range1 hi x : In x (do_range 0 (hi - 1) 1) <-> 0 <= x < hi.
Proof. rewrite do_range_py. apply in_range1. Qed.
Lemma in_do_range_mult hi step x :
  0 < step -> (In x (do_range 0 (hi - 1) step) <-> 0 <= x < hi /\ (step | x)).
Proof. rewrite do_range_py. apply in_range_mult. Qed.
Lemma in_do_while hi step x :
  0 < step -> (In x (do_while hi step) <-> 0 <= x < hi /\ (step | x)).
Proof. apply in_range_mult. Qed.
Lemma in_f_halves c x : 1 <= c -> (In x (f_halves c) <-> 0 <= x < c /\ (c | 2 * x)).
Proof. intros H. rewrite f_halves_py by exact H. now apply in_halves. Qed.
Lemma in_f_halves_rev2 c x : 1 <= c -> (In x (f_halves_rev c) <-> 0 <= x < c /\ (c | 2 * x)).
Proof. intros H. rewrite in_f_halves_rev. now apply in_f_halves. Qed.

(** The tactics of [EnumTac] for the Fortran loops. *)
Ltac fd_diag Hin :=
  apply in_py_for in Hin; destruct Hin as (((a & c) & f) & Hdiag & Hin);
  apply in_f_diagonals in Hdiag; destruct Hdiag as (Ha & Hc & Hf & Hn); cbv zeta in Hin.
Ltac fd_range Hin v :=
  apply in_py_for in Hin; destruct Hin as (v & ?Hr & Hin); cbv zeta in Hin;
  match goal with H : In v _ |- _ => apply in_do_range1 in H end.
Ltac fd_step Hin v k :=
  apply in_py_for in Hin; destruct Hin as (v & ?Hr & Hin); cbv zeta in Hin;
  match goal with H : In v _ |- _ =>
    first [apply in_do_range_mult in H|apply in_do_while in H];
    [destruct H as (?Hr & (k & ?Hk))|lia] end.
Ltac fd_half Hin v k :=
  apply in_py_for in Hin; destruct Hin as (v & ?Hr & Hin); cbv zeta in Hin;
  match goal with H : In v _ |- _ =>
    first [apply in_f_halves in H|apply in_f_halves_rev2 in H];
    [destruct H as (?Hr & (k & ?Hk))|lia] end.
Ltac pos_tac := first [lia|apply Z.mul_pos_pos; lia|nia].
(** A test without divisions; [k] is the quotient. *)
Ltac d_rem T k := apply rem0_true in T; [destruct T as (k & T)|pos_tac].
(** A division inside a test is exact, with value [m]. *)
Ltac fq T m :=
  match type of T with
  | context [Z.quot ?x ?y] =>
      let E := fresh in
      assert (E : Z.quot x y = m) by (apply quot_is; [pos_tac|first [lia|ns]]);
      rewrite E in T; clear E
  end.
(** Prove a test. *)
Ltac ez := first [lia|ns].
Ltac e_rem k := apply rem0_true; [pos_tac|]; exists k.
Ltac gq m :=
  match goal with
  | |- context [Z.quot ?x ?y] =>
      let E := fresh in
      assert (E : Z.quot x y = m) by (apply quot_is; [pos_tac|first [lia|ns]]);
      rewrite E; clear E
  end.
Ltac fenc v :=
  apply in_py_for; exists v; split;
  [ first [ apply in_do_range1; lia
          | apply in_do_range_mult; [lia|]; split; [lia|]
          | apply in_do_while; [lia|]; split; [lia|]
          | apply in_f_halves; [lia|]; split; [lia|]
          | apply in_f_halves_rev2; [lia|]; split; [lia|]
          | apply in_f_diagonals; repeat split; (lia || ring) | idtac ]
  | cbv zeta ].
