(** How many passes the reduction needs when the Gram matrix has entries that are multiples
    of one number: a bound linear in the sum of the squared lengths. *)
From Coq Require Import ZArith QArith Qcanon List Bool Lia.
From Verif Require Import Mat3 QMat QNum QcTac Spec_niggli Model_pyniggli Proofs_pyniggli
  Proofs_niggli_term.
Open Scope Z_scope.

(** ** Passes at constant sum of squared lengths

    A state is described by the squared lengths [A B C], the absolute values [x e z] of twice
    the scalar products, and [t], which says that the product of the three is positive. *)
Definition b2z (b : bool) : Z := if b then 1 else 0.

Definition sorted3 (A B C : Z) := (A <=? B) && (B <=? C).
Definition inv3 (A B C : Z) := b2z (B <? A) + b2z (C <? A) + b2z (C <? B).
Definition late (A B C x e z : Z) :=
  ((B =? C) && (z <? e)) || ((A =? B) && (B =? C) && (z <? x)).
Definition ties (A B C x e z : Z) :=
  b2z ((A =? B) && (e <? x)) + b2z ((B =? C) && (z <? e)) +
  b2z ((A =? B) && (B =? C) && (z <? x)).
(** Some strict inequality of a reduced cell fails. *)
Definition viol (A B C x e z : Z) (t : bool) :=
  (B <? x) || (A <? e) || (A <? z) || (negb t && (A + B <? x + e + z)).
Definition small (x e z : Z) :=
  ((2 * x <? e) && (2 * x <? z)) || ((2 * e <? x) && (2 * e <? z)) ||
  ((2 * z <? x) && (2 * z <? e)).
Definition qq (A B C x e z : Z) (t : bool) : Z :=
  if t then b2z (small x e z)
  else if (x + e + z =? A + B) &&
          ((2 * e + z <? 2 * A) || ((B =? C) && (2 * z + e <? 2 * A))) then 3 else 2.
Definition rho (A B C x e z : Z) (t : bool) : Z :=
  if sorted3 A B C then
    if viol A B C x e z t then
      if t then
        if late A B C x e z then 5 + ties A B C x e z
        else 2 * (b2z (2 * e <? z) + b2z (2 * x <? z)) + ties A B C x e z
      else 9 + ties A B C x e z
    else 4 * qq A B C x e z t + ties A B C x e z
  else 16 + 2 * inv3 A B C + b2z ((A =? B) && (e <? x)).

Lemma b2z_bound b : 0 <= b2z b <= 1.
Proof. destruct b; cbn; lia. Qed.
Lemma ties_bound A B C x e z : 0 <= ties A B C x e z <= 3.
Proof.
  unfold ties. pose proof (b2z_bound ((A =? B) && (e <? x))).
  pose proof (b2z_bound ((B =? C) && (z <? e))).
  pose proof (b2z_bound ((A =? B) && (B =? C) && (z <? x))). lia.
Qed.
Lemma qq_bound A B C x e z t : 0 <= qq A B C x e z t <= 3 /\ (t = false -> 2 <= qq A B C x e z t).
Proof.
  unfold qq. destruct t; [pose proof (b2z_bound (small x e z)); split; [lia|discriminate]|].
  destruct (_ && _); lia.
Qed.

Lemma late_ties A B C x e z : late A B C x e z = false -> ties A B C x e z <= 1.
Proof.
  unfold late, ties. rewrite orb_false_iff. intros (-> & ->).
  pose proof (b2z_bound ((A =? B) && (e <? x))). cbn [b2z]. lia.
Qed.

Lemma rho_sorted A B C x e z t : sorted3 A B C = true -> 0 <= rho A B C x e z t <= 15.
Proof.
  intros H. unfold rho. rewrite H. pose proof (ties_bound A B C x e z).
  pose proof (proj1 (qq_bound A B C x e z t)).
  destruct (viol _ _ _ _ _ _ _); [|lia]. destruct t; [|lia].
  destruct (late _ _ _ _ _ _); [lia|].
  pose proof (b2z_bound (2 * e <? z)). pose proof (b2z_bound (2 * x <? z)). lia.
Qed.
Lemma rho_viol_I A B C x e z : sorted3 A B C = true -> viol A B C x e z true = true ->
  rho A B C x e z true <= 8.
Proof.
  intros H V. unfold rho. rewrite H, V. pose proof (ties_bound A B C x e z).
  destruct (late _ _ _ _ _ _) eqn:L; [lia|]. apply late_ties in L.
  pose proof (b2z_bound (2 * e <? z)). pose proof (b2z_bound (2 * x <? z)). lia.
Qed.
Lemma rho_bound A B C x e z t : 0 <= rho A B C x e z t <= 22.
Proof.
  destruct (sorted3 A B C) eqn:E; [pose proof (rho_sorted A B C x e z t E); lia|].
  unfold rho. rewrite E. unfold inv3.
  destruct (Z.ltb_spec B A), (Z.ltb_spec C A), (Z.ltb_spec C B), (Z.eqb_spec A B); cbn [b2z andb];
    pose proof (b2z_bound (e <? x)); lia.
Qed.

(** Exchanging the first two vectors. *)
Lemma sorted3_iff A B C : sorted3 A B C = true <-> A <= B /\ B <= C.
Proof. unfold sorted3. rewrite andb_true_iff, !Z.leb_le. tauto. Qed.
Lemma sorted3_no A B C : sorted3 A B C = false <-> B < A \/ C < B.
Proof. unfold sorted3. rewrite andb_false_iff, !Z.leb_gt. tauto. Qed.

Lemma rho_swap1_lt A B C x e z t : B < A -> rho B A C e x z t < rho A B C x e z t.
Proof.
  intros H. assert (S : sorted3 A B C = false) by (apply sorted3_no; lia).
  unfold rho at 2. rewrite S. destruct (sorted3 B A C) eqn:S'.
  - pose proof (rho_sorted B A C e x z t S').
    pose proof (b2z_bound ((A =? B) && (e <? x))). unfold inv3.
    rewrite (proj2 (Z.ltb_lt B A) H).
    pose proof (b2z_bound (C <? A)). pose proof (b2z_bound (C <? B)). cbn [b2z]. lia.
  - unfold rho. rewrite S'. unfold inv3. rewrite (proj2 (Z.ltb_lt B A) H).
    replace (A <? B) with false by (symmetry; apply Z.ltb_ge; lia).
    replace (B =? A) with false by (symmetry; apply Z.eqb_neq; lia).
    pose proof (b2z_bound ((A =? B) && (e <? x))). cbn [b2z andb]. lia.
Qed.

Lemma rho_swap2_lt A B C x e z t : A <= B -> C < B -> rho A C B x z e t < rho A B C x e z t.
Proof.
  intros HA H. assert (S : sorted3 A B C = false) by (apply sorted3_no; lia).
  unfold rho at 2. rewrite S. destruct (sorted3 A C B) eqn:S'.
  - pose proof (rho_sorted A C B x z e t S').
    pose proof (b2z_bound ((A =? B) && (e <? x))). unfold inv3.
    rewrite (proj2 (Z.ltb_lt C B) H).
    pose proof (b2z_bound (C <? A)). pose proof (b2z_bound (B <? A)). cbn [b2z]. lia.
  - unfold rho. rewrite S'. unfold inv3. rewrite (proj2 (Z.ltb_lt C B) H).
    replace (B <? C) with false by (symmetry; apply Z.ltb_ge; lia).
    pose proof (b2z_bound ((A =? B) && (e <? x))).
    pose proof (b2z_bound ((A =? C) && (z <? x))). cbn [b2z andb]. lia.
Qed.

Lemma small_swap1 x e z : small e x z = small x e z.
Proof.
  unfold small.
  destruct (Z.ltb_spec (2*x) e), (Z.ltb_spec (2*x) z), (Z.ltb_spec (2*e) x), (Z.ltb_spec (2*e) z),
    (Z.ltb_spec (2*z) x), (Z.ltb_spec (2*z) e); reflexivity.
Qed.
Lemma small_swap2 x e z : small x z e = small x e z.
Proof.
  unfold small.
  destruct (Z.ltb_spec (2*x) e), (Z.ltb_spec (2*x) z), (Z.ltb_spec (2*e) x), (Z.ltb_spec (2*e) z),
    (Z.ltb_spec (2*z) x), (Z.ltb_spec (2*z) e); reflexivity.
Qed.
Lemma viol_swap1 A C x e z t : viol A A C e x z t = viol A A C x e z t.
Proof.
  unfold viol. replace (e + x + z) with (x + e + z) by lia.
  destruct (A <? x), (A <? e), (A <? z); reflexivity.
Qed.
Lemma viol_swap2 A B x e z t : viol A B B x z e t = viol A B B x e z t.
Proof.
  unfold viol. replace (x + z + e) with (x + e + z) by lia.
  destruct (B <? x), (A <? e), (A <? z); reflexivity.
Qed.

Lemma ties_swap1 A C x e z : e < x -> ties A A C e x z < ties A A C x e z.
Proof.
  intros H. unfold ties. rewrite Z.eqb_refl. cbn [andb].
  destruct (Z.ltb_spec e x), (Z.ltb_spec x e), (A =? C), (z <? e), (z <? x); cbn [b2z andb]; lia.
Qed.
Lemma ties_swap2 A B x e z : z < e -> ties A B B x z e < ties A B B x e z.
Proof.
  intros H. unfold ties. rewrite Z.eqb_refl. cbn [andb].
  destruct (Z.ltb_spec e z), (Z.ltb_spec z e), (A =? B), (e <? x), (z <? x); cbn [b2z andb]; lia.
Qed.
Lemma qq_swap1 A C x e z t : e < x -> qq A A C e x z t <= qq A A C x e z t.
Proof.
  intros H. unfold qq. destruct t; [rewrite small_swap1; lia|].
  replace (e + x + z) with (x + e + z) by lia.
  destruct (Z.eqb_spec (x + e + z) (A + A)); [|cbn [andb]; lia]. cbn [andb].
  destruct (Z.ltb_spec (2 * x + z) (2 * A)), (Z.ltb_spec (2 * e + z) (2 * A)),
    (Z.ltb_spec (2 * z + x) (2 * A)), (Z.ltb_spec (2 * z + e) (2 * A)), (A =? C); cbn [andb orb]; lia.
Qed.
Lemma qq_swap2 A B x e z t : qq A B B x z e t = qq A B B x e z t.
Proof.
  unfold qq. destruct t; [now rewrite small_swap2|].
  replace (x + z + e) with (x + e + z) by lia. rewrite Z.eqb_refl. cbn [andb].
  destruct (x + e + z =? A + B); [|reflexivity]. cbn [andb].
  destruct (2 * z + e <? 2 * A), (2 * e + z <? 2 * A); reflexivity.
Qed.
Lemma late_swap1 A C x e z : late A A C x e z = false -> late A A C e x z = false.
Proof.
  unfold late. rewrite Z.eqb_refl. destruct (A =? C), (z <? e), (z <? x); cbn; auto.
Qed.

Lemma rho_swap1_tie A C x e z t : e < x -> rho A A C e x z t < rho A A C x e z t.
Proof.
  intros H. pose proof (ties_swap1 A C x e z H) as HT. unfold rho.
  destruct (sorted3 A A C).
  - rewrite viol_swap1. destruct (viol _ _ _ _ _ _ _).
    + destruct t; [|lia]. destruct (late A A C x e z) eqn:L.
      * destruct (late A A C e x z); [lia|].
        pose proof (b2z_bound (2 * e <? z)). pose proof (b2z_bound (2 * x <? z)). lia.
      * rewrite (late_swap1 _ _ _ _ _ L). lia.
    + pose proof (qq_swap1 A C x e z t H). lia.
  - rewrite Z.eqb_refl. cbn [andb].
    destruct (Z.ltb_spec e x), (Z.ltb_spec x e); cbn [b2z]; lia.
Qed.
Lemma rho_swap2_tie A B x e z t : A <= B -> z < e -> rho A B B x z e t < rho A B B x e z t.
Proof.
  intros HA H. pose proof (ties_swap2 A B x e z H) as HT. unfold rho.
  assert (S : sorted3 A B B = true) by (apply sorted3_iff; lia). rewrite S.
  rewrite viol_swap2. destruct (viol _ _ _ _ _ _ _).
  - destruct t; [|lia]. assert (L : late A B B x e z = true).
    { unfold late. rewrite Z.eqb_refl, (proj2 (Z.ltb_lt z e) H). reflexivity. }
    rewrite L. destruct (late A B B x z e) eqn:L'; [lia|].
    pose proof (late_ties _ _ _ _ _ _ L').
    pose proof (b2z_bound (2 * z <? e)). pose proof (b2z_bound (2 * x <? e)). lia.
  - rewrite qq_swap2. lia.
Qed.

(** The steps 5 to 8 at equality.  [noties]: the comparisons of steps 1 and 2 are false. *)
Definition noties (A B C x e z : Z) : Prop :=
  A <= B /\ B <= C /\ (A = B -> x <= e) /\ (B = C -> e <= z).

Lemma noties_late A B C x e z : noties A B C x e z ->
  sorted3 A B C = true /\ late A B C x e z = false /\ ties A B C x e z = 0.
Proof.
  intros (H1 & H2 & H3 & H4). split; [apply sorted3_iff; lia|]. unfold late, ties.
  destruct (Z.eqb_spec A B), (Z.eqb_spec B C), (Z.ltb_spec e x), (Z.ltb_spec z e), (Z.ltb_spec z x);
    cbn [andb orb b2z]; split; try reflexivity; lia.
Qed.

(** From non-positive scalar products to positive ones. *)
Lemma rho_II_I A B C x e z x' e' z' :
  noties A B C x e z -> viol A B C x' e' z' true = viol A B C x e z false ->
  rho A B C x' e' z' true < rho A B C x e z false.
Proof.
  intros HN HV. destruct (noties_late _ _ _ _ _ _ HN) as (S & L & T).
  destruct (viol A B C x e z false) eqn:V.
  - pose proof (rho_viol_I A B C x' e' z' S HV). unfold rho at 2. rewrite S, V, T. lia.
  - unfold rho. rewrite S, V, HV, T. pose proof (ties_bound A B C x' e' z').
    pose proof (proj2 (qq_bound A B C x e z false) eq_refl).
    unfold qq at 1. pose proof (b2z_bound (small x' e' z')). lia.
Qed.

Lemma viol_iff A B C x e z t : viol A B C x e z t = true <->
  B < x \/ A < e \/ A < z \/ (t = false /\ A + B < x + e + z).
Proof.
  unfold viol. rewrite !orb_true_iff, andb_true_iff, !Z.ltb_lt, negb_true_iff. tauto.
Qed.
Lemma viol_I_iff A B C x e z : viol A B C x e z true = true <-> B < x \/ A < e \/ A < z.
Proof. rewrite viol_iff. split; [intros [H|[H|[H|(H & _)]]]; auto; discriminate|tauto]. Qed.
Lemma viol_II_iff A B C x e z :
  viol A B C x e z false = true <-> B < x \/ A < e \/ A < z \/ A + B < x + e + z.
Proof. rewrite viol_iff. tauto. Qed.
Lemma bool_eq_iff (a b : bool) : (a = true <-> b = true) -> a = b.
Proof. destruct a, b; intros (H1 & H2); try reflexivity; [now rewrite H1|now rewrite H2]. Qed.
Lemma viol_I_eq A B C x e z x' e' z' :
  (B < x \/ A < e \/ A < z <-> B < x' \/ A < e' \/ A < z') ->
  viol A B C x' e' z' true = viol A B C x e z true.
Proof. intros H. apply bool_eq_iff. rewrite !viol_I_iff. symmetry. exact H. Qed.
Lemma viol_II_eq A B C x e z x' e' z' :
  (B < x \/ A < e \/ A < z \/ A + B < x + e + z <-> B < x' \/ A < e' \/ A < z') ->
  viol A B C x' e' z' true = viol A B C x e z false.
Proof. intros H. apply bool_eq_iff. rewrite viol_I_iff, viol_II_iff. symmetry. exact H. Qed.
Lemma viol_I_no A B C x e z : x <= B -> e <= A -> z <= A -> viol A B C x e z true = false.
Proof. intros. apply not_true_is_false. rewrite viol_I_iff. lia. Qed.
Lemma viol_II_no A B C x e z : x <= B -> e <= A -> z <= A -> x + e + z <= A + B ->
  viol A B C x e z false = false.
Proof. intros. apply not_true_is_false. rewrite viol_II_iff. lia. Qed.

(** Step 5, positive: [x = B], [2 e < z]. *)
Lemma rho_I_5 A B C e z : 0 < A -> 0 < e -> 2 * e < z -> noties A B C B e z ->
  rho A B C B (z - e) z true < rho A B C B e z true.
Proof.
  intros HA He H HN. destruct (noties_late _ _ _ _ _ _ HN) as (S & L & T).
  assert (V : viol A B C B (z - e) z true = viol A B C B e z true) by (apply viol_I_eq; lia).
  unfold rho. rewrite S, V, T. destruct (viol _ _ _ _ e _ _) eqn:VV.
  - apply viol_I_iff in VV. rewrite L.
    assert (L' : late A B C B (z - e) z = false).
    { unfold late. destruct HN as (N1 & N2 & N3 & N4).
      destruct (Z.eqb_spec A B), (Z.eqb_spec B C), (Z.ltb_spec z (z - e)), (Z.ltb_spec z B);
        cbn [andb orb]; try reflexivity; exfalso; lia. }
    rewrite L'. pose proof (late_ties _ _ _ _ _ _ L').
    rewrite (proj2 (Z.ltb_lt (2 * e) z) H).
    replace (2 * (z - e) <? z) with false by (symmetry; apply Z.ltb_ge; lia).
    cbn [b2z]. lia.
  - assert (N : ~ (B < B \/ A < e \/ A < z)) by (rewrite <- (viol_I_iff A B C); congruence).
    pose proof (ties_bound A B C B (z - e) z).
    assert (Q1 : qq A B C B e z true = 1).
    { unfold qq, small. destruct HN as (N1 & N2 & _).
      rewrite (proj2 (Z.ltb_lt (2 * e) z) H), (proj2 (Z.ltb_lt (2 * e) B)) by lia.
      now rewrite orb_true_r. }
    assert (Q2 : qq A B C B (z - e) z true = 0).
    { unfold qq, small. destruct HN as (N1 & N2 & _).
      replace (2 * B <? z - e) with false by (symmetry; apply Z.ltb_ge; lia).
      replace (2 * (z - e) <? z) with false by (symmetry; apply Z.ltb_ge; lia).
      replace (2 * z <? z - e) with false by (symmetry; apply Z.ltb_ge; lia).
      now rewrite !andb_false_r. }
    rewrite Q1, Q2. lia.
Qed.

(** Step 6, positive: [e = A], [2 x < z], [x <= B]. *)
Lemma rho_I_6 A B C x z : 0 < A -> 0 < x -> x <= B -> 2 * x < z -> noties A B C x A z ->
  rho A B C (z - x) A z true < rho A B C x A z true.
Proof.
  intros HA Hx HB H HN. destruct (noties_late _ _ _ _ _ _ HN) as (S & L & T).
  destruct (Z.ltb_spec A z) as [Hz|Hz].
  - assert (V : viol A B C x A z true = true) by (apply viol_I_iff; lia).
    assert (V' : viol A B C (z - x) A z true = true) by (apply viol_I_iff; lia).
    unfold rho. rewrite S, V, V', T, L.
    assert (L' : late A B C (z - x) A z = false).
    { unfold late. destruct HN as (N1 & N2 & N3 & N4).
      destruct (Z.eqb_spec A B), (Z.eqb_spec B C), (Z.ltb_spec z A), (Z.ltb_spec z (z - x));
        cbn [andb orb]; try reflexivity; exfalso; lia. }
    rewrite L'. pose proof (late_ties _ _ _ _ _ _ L').
    rewrite (proj2 (Z.ltb_lt (2 * x) z) H).
    replace (2 * (z - x) <? z) with false by (symmetry; apply Z.ltb_ge; lia).
    cbn [b2z]. lia.
  - destruct HN as (N1 & N2 & N3 & N4).
    assert (V : viol A B C x A z true = false) by (apply viol_I_no; lia).
    assert (V' : viol A B C (z - x) A z true = false) by (apply viol_I_no; lia).
    unfold rho. rewrite S, V, V', T. pose proof (ties_bound A B C (z - x) A z).
    assert (Q1 : qq A B C x A z true = 1).
    { unfold qq, small. rewrite (proj2 (Z.ltb_lt (2 * x) z) H), (proj2 (Z.ltb_lt (2 * x) A)) by lia.
      reflexivity. }
    assert (Q2 : qq A B C (z - x) A z true = 0).
    { unfold qq, small.
      replace (2 * (z - x) <? z) with false by (symmetry; apply Z.ltb_ge; lia).
      replace (2 * A <? z) with false by (symmetry; apply Z.ltb_ge; lia).
      replace (2 * z <? z - x) with false by (symmetry; apply Z.ltb_ge; lia).
      now rewrite !andb_false_r. }
    rewrite Q1, Q2. lia.
Qed.

(** Step 7, positive: [z = A], [2 x < e], [x <= B], [e <= A]. *)
Lemma rho_I_7 A B C x e : 0 < A -> 0 < x -> x <= B -> e <= A -> 2 * x < e -> noties A B C x e A ->
  rho A B C (e - x) e A true < rho A B C x e A true.
Proof.
  intros HA Hx HB He H HN. destruct (noties_late _ _ _ _ _ _ HN) as (S & L & T).
  destruct HN as (N1 & N2 & N3 & N4).
  assert (V : viol A B C x e A true = false) by (apply viol_I_no; lia).
  assert (V' : viol A B C (e - x) e A true = false) by (apply viol_I_no; lia).
  unfold rho. rewrite S, V, V', T. pose proof (ties_bound A B C (e - x) e A).
  assert (Q1 : qq A B C x e A true = 1).
  { unfold qq, small. rewrite (proj2 (Z.ltb_lt (2 * x) e) H), (proj2 (Z.ltb_lt (2 * x) A)) by lia.
    reflexivity. }
  assert (Q2 : qq A B C (e - x) e A true = 0).
  { unfold qq, small.
    replace (2 * (e - x) <? e) with false by (symmetry; apply Z.ltb_ge; lia).
    replace (2 * e <? e - x) with false by (symmetry; apply Z.ltb_ge; lia).
    replace (2 * A <? e - x) with false by (symmetry; apply Z.ltb_ge; lia).
    reflexivity. }
  rewrite Q1, Q2. lia.
Qed.

(** Step 8 at equality. *)
Lemma rho_II_8 A B C x e z : 0 < A -> 0 <= x -> 0 <= e -> 0 <= z ->
  x <= B -> e <= A -> z <= A -> x + e + z = A + B -> 2 * e + z < 2 * A ->
  noties A B C x e z ->
  rho A B C (B - A + e) (2 * A - e - z) z false < rho A B C x e z false.
Proof.
  intros HA Hx He Hz H1 H2 H3 HS HE HN. destruct (noties_late _ _ _ _ _ _ HN) as (S & L & T).
  destruct HN as (N1 & N2 & N3 & N4).
  assert (V : viol A B C x e z false = false) by (apply viol_II_no; lia).
  assert (V' : viol A B C (B - A + e) (2 * A - e - z) z false = false) by (apply viol_II_no; lia).
  unfold rho. rewrite S, V, V', T. pose proof (ties_bound A B C (B - A + e) (2 * A - e - z) z).
  assert (Q1 : qq A B C x e z false = 3).
  { unfold qq. rewrite (proj2 (Z.eqb_eq _ _) HS), (proj2 (Z.ltb_lt _ _) HE). reflexivity. }
  assert (Q2 : qq A B C (B - A + e) (2 * A - e - z) z false = 2).
  { unfold qq. replace (2 * (2 * A - e - z) + z <? 2 * A) with false by (symmetry; apply Z.ltb_ge; lia).
    destruct (Z.eqb_spec B C) as [EB|EB].
    - replace (2 * z + (2 * A - e - z) <? 2 * A) with false by (symmetry; apply Z.ltb_ge; lia).
      cbn [andb orb]. now rewrite andb_false_r.
    - cbn [andb orb]. now rewrite andb_false_r. }
  rewrite Q1, Q2. lia.
Qed.

(** ** Integer Gram matrices *)
Definition zt (K : mat3) : bool :=
  negb (zX K =? 0) && negb (zE K =? 0) && negb (zZ K =? 0) &&
  negb (xorb (xorb (zX K <? 0) (zE K <? 0)) (zZ K <? 0)).
Definition zrho (K : mat3) : Z :=
  rho (zA K) (zB K) (zC K) (Z.abs (zX K)) (Z.abs (zE K)) (Z.abs (zZ K)) (zt K).
Definition drop K' K := mS K' < mS K \/ (mS K' = mS K /\ zrho K' < zrho K).
(** The same lengths, absolute values and sign of the product. *)
Definition alike K' K :=
  zA K' = zA K /\ zB K' = zB K /\ zC K' = zC K /\ Z.abs (zX K') = Z.abs (zX K) /\
  Z.abs (zE K') = Z.abs (zE K) /\ Z.abs (zZ K') = Z.abs (zZ K) /\ zt K' = zt K.

Lemma alike_refl K : alike K K.
Proof. unfold alike. tauto. Qed.
Lemma alike_trans K1 K2 K3 : alike K3 K2 -> alike K2 K1 -> alike K3 K1.
Proof. unfold alike. intuition congruence. Qed.
Lemma alike_rho K' K : alike K' K -> mS K' = mS K /\ zrho K' = zrho K.
Proof.
  intros (H1 & H2 & H3 & H4 & H5 & H6 & H7). unfold mS, zrho. rewrite H1, H2, H3, H4, H5, H6, H7. auto.
Qed.
Lemma drop_trans K1 K2 K3 : drop K3 K2 -> drop K2 K1 -> drop K3 K1.
Proof. unfold drop. lia. Qed.
Lemma drop_alike K1 K2 K3 : drop K3 K2 -> alike K2 K1 -> drop K3 K1.
Proof. intros H A. apply alike_rho in A. unfold drop in *. lia. Qed.
Lemma alike_drop K1 K2 K3 : alike K3 K2 -> drop K2 K1 -> drop K3 K1.
Proof. intros A H. apply alike_rho in A. unfold drop in *. lia. Qed.

Definition noties1 K := zA K <= zB K /\ (zA K = zB K -> Z.abs (zX K) <= Z.abs (zE K)).
Definition noties2 K := zB K <= zC K /\ (zB K = zC K -> Z.abs (zE K) <= Z.abs (zZ K)).

Lemma zcond1_false K : zcond1 K = false -> noties1 K.
Proof.
  unfold zcond1, noties1. rewrite orb_false_iff, andb_false_iff, !Z.ltb_ge, Z.eqb_neq. lia.
Qed.
Lemma zcond2_false K : zcond2 K = false -> noties2 K.
Proof.
  unfold zcond2, noties2. rewrite orb_false_iff, andb_false_iff, !Z.ltb_ge, Z.eqb_neq. lia.
Qed.

(** New parameters after each step. *)
Definition six (K : mat3) : Z * Z * Z * Z * Z * Z := (zA K, zB K, zC K, zX K, zE K, zZ K).

Lemma six_eq (a b c d e f a' b' c' d' e' f' : Z) :
  a = a' -> b = b' -> c = c' -> d = d' -> e = e' -> f = f' ->
  (a, b, c, d, e, f) = (a', b', c', d', e', f').
Proof. now intros -> -> -> -> -> ->. Qed.
Ltac six_tac K := destruct K as [k11 k12 k13 k21 k22 k23 k31 k32 k33]; unfold zsym, six;
  unfold zA, zB, zC, zX, zE, zZ, cong, mmul, mtr;
  cbn [m11 m12 m13 m21 m22 m23 m31 m32 m33]; intros (-> & -> & ->);
  apply six_eq; ring.

Lemma six_step1 K : zsym K -> six (cong step1 K) = (zB K, zA K, zC K, zE K, zX K, zZ K).
Proof. unfold step1. six_tac K. Qed.
Lemma six_step2 K : zsym K -> six (cong step2 K) = (zA K, zC K, zB K, zX K, zZ K, zE K).
Proof. unfold step2. six_tac K. Qed.
Lemma six_step5 s K : zsym K -> six (cong (Mat3 1 0 0 0 1 (- s) 0 0 1) K) =
  (zA K, zB K, zC K - s * zX K + s * s * zB K, zX K - 2 * s * zB K, zE K - s * zZ K, zZ K).
Proof. six_tac K. Qed.
Lemma six_step6 s K : zsym K -> six (cong (Mat3 1 0 (- s) 0 1 0 0 0 1) K) =
  (zA K, zB K, zC K - s * zE K + s * s * zA K, zX K - s * zZ K, zE K - 2 * s * zA K, zZ K).
Proof. six_tac K. Qed.
Lemma six_step7 s K : zsym K -> six (cong (Mat3 1 (- s) 0 0 1 0 0 0 1) K) =
  (zA K, zB K - s * zZ K + s * s * zA K, zC K, zX K - s * zE K, zE K, zZ K - 2 * s * zA K).
Proof. six_tac K. Qed.
Lemma six_step8 K : zsym K -> six (cong step8 K) =
  (zA K, zB K, zC K + zA K + zB K + zX K + zE K + zZ K, zX K + 2 * zB K + zZ K,
   zE K + 2 * zA K + zZ K, zZ K).
Proof. unfold step8. six_tac K. Qed.
Lemma six_diag i j k K : zsym K -> six (cong (mdiag i j k) K) =
  (i * i * zA K, j * j * zB K, k * k * zC K, j * k * zX K, i * k * zE K, i * j * zZ K).
Proof. unfold mdiag. six_tac K. Qed.

(** The measure as a function of the six parameters. *)
Definition tt (X E Y : Z) : bool :=
  negb (X =? 0) && negb (E =? 0) && negb (Y =? 0) && negb (xorb (xorb (X <? 0) (E <? 0)) (Y <? 0)).
Lemma six_rho K A B C X E Y : six K = (A, B, C, X, E, Y) ->
  mS K = A + B + C /\ zrho K = rho A B C (Z.abs X) (Z.abs E) (Z.abs Y) (tt X E Y).
Proof. unfold six. intros H. injection H as <- <- <- <- <- <-. split; reflexivity. Qed.

Lemma six_inv K A B C X E Y : six K = (A, B, C, X, E, Y) ->
  zA K = A /\ zB K = B /\ zC K = C /\ zX K = X /\ zE K = E /\ zZ K = Y.
Proof. unfold six. intros H. injection H as <- <- <- <- <- <-. repeat split. Qed.

Lemma tt_swap1 X E Y : tt E X Y = tt X E Y.
Proof. unfold tt. destruct (X =? 0), (E =? 0), (Y =? 0), (X <? 0), (E <? 0), (Y <? 0); reflexivity. Qed.
Lemma tt_swap2 X E Y : tt X Y E = tt X E Y.
Proof. unfold tt. destruct (X =? 0), (E =? 0), (Y =? 0), (X <? 0), (E <? 0), (Y <? 0); reflexivity. Qed.
Lemma tt_true X E Y : (0 < X /\ 0 < E /\ 0 < Y) \/ (X < 0 /\ E < 0 /\ 0 < Y) \/
  (X < 0 /\ 0 < E /\ Y < 0) \/ (0 < X /\ E < 0 /\ Y < 0) -> tt X E Y = true.
Proof.
  unfold tt. intros H.
  destruct (Z.eqb_spec X 0), (Z.eqb_spec E 0), (Z.eqb_spec Y 0), (Z.ltb_spec X 0), (Z.ltb_spec E 0),
    (Z.ltb_spec Y 0); try reflexivity; exfalso; lia.
Qed.
Lemma tt_false X E Y : (X <= 0 /\ E <= 0 /\ Y <= 0) \/ (0 <= X /\ 0 <= E /\ Y <= 0) -> tt X E Y = false.
Proof.
  unfold tt. intros H.
  destruct (Z.eqb_spec X 0), (Z.eqb_spec E 0), (Z.eqb_spec Y 0), (Z.ltb_spec X 0), (Z.ltb_spec E 0),
    (Z.ltb_spec Y 0); try reflexivity; exfalso; lia.
Qed.

Lemma d_step1 K : zsym K -> zcond1 K = true -> drop (cong step1 K) K /\ noties1 (cong step1 K).
Proof.
  intros HS H. pose proof (six_step1 K HS) as E. destruct (six_rho _ _ _ _ _ _ _ E) as (E1 & E2).
  apply six_inv in E. destruct E as (e1 & e2 & e3 & e4 & e5 & e6).
  unfold zcond1 in H. rewrite orb_true_iff, andb_true_iff, !Z.ltb_lt, Z.eqb_eq in H.
  split.
  - unfold drop. rewrite E1, E2. right. split; [unfold mS; lia|]. unfold zrho.
    rewrite tt_swap1. fold (zt K). change (tt (zX K) (zE K) (zZ K)) with (zt K).
    destruct H as [H|(HE & H)].
    + now apply rho_swap1_lt.
    + rewrite <- HE. now apply rho_swap1_tie.
  - unfold noties1. rewrite e1, e2, e4, e5. lia.
Qed.
Lemma d_step2 K : zsym K -> noties1 K -> zcond2 K = true -> drop (cong step2 K) K.
Proof.
  intros HS (HA & _) H. pose proof (six_step2 K HS) as E. destruct (six_rho _ _ _ _ _ _ _ E) as (E1 & E2).
  unfold zcond2 in H. rewrite orb_true_iff, andb_true_iff, !Z.ltb_lt, Z.eqb_eq in H.
  unfold drop. rewrite E1, E2. right. split; [unfold mS; lia|]. unfold zrho.
  rewrite tt_swap2. change (tt (zX K) (zE K) (zZ K)) with (zt K).
  destruct H as [H|(HE & H)].
  - now apply rho_swap2_lt.
  - rewrite HE. now apply rho_swap2_tie.
Qed.

Lemma d_diag K i j k : zsym K -> sgn_mat i j k -> alike (cong (mdiag i j k) K) K.
Proof.
  intros HS HM. pose proof (six_diag i j k K HS) as E. apply six_inv in E.
  destruct E as (e1 & e2 & e3 & e4 & e5 & e6). unfold alike.
  change (zt (cong (mdiag i j k) K)) with
    (tt (zX (cong (mdiag i j k) K)) (zE (cong (mdiag i j k) K)) (zZ (cong (mdiag i j k) K))).
  rewrite e1, e2, e3, e4, e5, e6. change (zt K) with (tt (zX K) (zE K) (zZ K)). clear - HM.
  generalize (zA K), (zB K), (zC K), (zX K), (zE K), (zZ K). intros A B C X E Y.
  destruct HM as ([ -> | -> ] & [ -> | -> ] & [ -> | -> ]);
    (refine (conj _ (conj _ (conj _ (conj _ (conj _ (conj _ _))))));
     [lia|lia|lia|lia|lia|lia|]);
    destruct X, E, Y; reflexivity.
Qed.

(** Steps 5 to 8. *)
Definition noties12 K := noties1 K /\ noties2 K.
Lemma noties_of K : noties12 K ->
  noties (zA K) (zB K) (zC K) (Z.abs (zX K)) (Z.abs (zE K)) (Z.abs (zZ K)).
Proof. unfold noties12, noties1, noties2, noties. tauto. Qed.

Lemma d_step5 K : zsym K -> 0 < zA K -> 0 < zB K -> znormal K -> noties12 K -> zcond5 K = true ->
  drop (cong (zstep5 K) K) K.
Proof.
  intros HS HA HB HN HT H. apply noties_of in HT. pose proof (six_step5 (Z.sgn (zX K)) K HS) as E.
  unfold zstep5. destruct (six_rho _ _ _ _ _ _ _ E) as (E1 & E2). clear E.
  unfold zcond5 in H. rewrite !orb_true_iff, !andb_true_iff, !Z.ltb_lt, !Z.eqb_eq in H.
  unfold drop. rewrite E1, E2. unfold zrho. change (zt K) with (tt (zX K) (zE K) (zZ K)).
  unfold mS, znormal in *. clear E1 E2 HS.
  revert HA HB HN HT H. generalize (zA K), (zB K), (zC K), (zX K), (zE K), (zZ K). clear K.
  intros A B C X E Y HA HB HN HT H.
  destruct (Z.ltb_spec B (Z.abs X)) as [HL|HL].
  { left. destruct HN as [HN|HN]; [rewrite Z.sgn_pos by lia|rewrite Z.sgn_neg by lia]; lia. }
  right. destruct H as [[H|(H1 & H2)]|(H1 & H2)]; [exfalso; lia| |].
  - assert (0 < X /\ 0 < E /\ 0 < Y) as (PX & PE & PY) by lia.
    rewrite (Z.sgn_pos X) by lia. rewrite (tt_true X E Y) by lia.
    split; [lia|]. rewrite (tt_true (X - 2 * 1 * B) (E - 1 * Y) Y) by lia.
    replace (C - 1 * X + 1 * 1 * B) with C by lia.
    rewrite (Z.abs_neq (X - 2 * 1 * B)), (Z.abs_neq (E - 1 * Y)) by lia.
    rewrite (Z.abs_eq X), (Z.abs_eq E), (Z.abs_eq Y) in * by lia.
    replace (- (X - 2 * 1 * B)) with B by lia. replace (- (E - 1 * Y)) with (Y - E) by lia.
    rewrite <- H1 in *. apply rho_I_5; assumption || lia.
  - assert (X < 0 /\ E <= 0 /\ Y < 0) as (PX & PE & PY) by lia.
    rewrite (Z.sgn_neg X) by lia. rewrite (tt_false X E Y) by lia.
    split; [lia|]. rewrite (tt_true (X - 2 * -1 * B) (E - -1 * Y) Y) by lia.
    replace (C - -1 * X + -1 * -1 * B) with C by lia.
    apply rho_II_I; [exact HT|]. apply viol_II_eq. lia.
Qed.

Lemma d_step6 K : zsym K -> 0 < zA K -> 0 < zB K -> znormal K -> noties12 K -> zcond5 K = false ->
  zcond6 K = true -> drop (cong (zstep6 K) K) K.
Proof.
  intros HS HA HB HN HT H5 H. apply noties_of in HT. pose proof (six_step6 (Z.sgn (zE K)) K HS) as E.
  unfold zstep6. destruct (six_rho _ _ _ _ _ _ _ E) as (E1 & E2). clear E.
  unfold zcond6 in H. rewrite !orb_true_iff, !andb_true_iff, !Z.ltb_lt, !Z.eqb_eq in H.
  unfold zcond5 in H5. rewrite !orb_false_iff in H5. destruct H5 as ((H5 & _) & _).
  apply Z.ltb_ge in H5.
  unfold drop. rewrite E1, E2. unfold zrho. change (zt K) with (tt (zX K) (zE K) (zZ K)).
  unfold mS, znormal in *. clear E1 E2 HS.
  revert HA HB HN HT H5 H. generalize (zA K), (zB K), (zC K), (zX K), (zE K), (zZ K). clear K.
  intros A B C X E Y HA HB HN HT H5 H.
  destruct (Z.ltb_spec A (Z.abs E)) as [HL|HL].
  { left. destruct HN as [HN|HN]; [rewrite Z.sgn_pos by lia|rewrite Z.sgn_neg by lia]; lia. }
  right. destruct H as [[H|(H1 & H2)]|(H1 & H2)]; [exfalso; lia| |].
  - assert (0 < X /\ 0 < E /\ 0 < Y) as (PX & PE & PY) by lia.
    rewrite (Z.sgn_pos E) by lia. rewrite (tt_true X E Y) by lia.
    split; [lia|]. rewrite (tt_true (X - 1 * Y) (E - 2 * 1 * A) Y) by lia.
    replace (C - 1 * E + 1 * 1 * A) with C by lia.
    rewrite (Z.abs_neq (X - 1 * Y)), (Z.abs_neq (E - 2 * 1 * A)) by lia.
    rewrite (Z.abs_eq X), (Z.abs_eq E), (Z.abs_eq Y) in * by lia.
    replace (- (X - 1 * Y)) with (Y - X) by lia. replace (- (E - 2 * 1 * A)) with A by lia.
    rewrite <- H1 in *. apply rho_I_6; assumption || lia.
  - assert (X <= 0 /\ E < 0 /\ Y < 0) as (PX & PE & PY) by lia.
    rewrite (Z.sgn_neg E) by lia. rewrite (tt_false X E Y) by lia.
    split; [lia|]. rewrite (tt_true (X - -1 * Y) (E - 2 * -1 * A) Y) by lia.
    replace (C - -1 * E + -1 * -1 * A) with C by lia.
    apply rho_II_I; [exact HT|]. apply viol_II_eq. lia.
Qed.

Lemma d_step7 K : zsym K -> 0 < zA K -> 0 < zB K -> znormal K -> noties12 K -> zcond5 K = false ->
  zcond6 K = false -> zcond7 K = true -> drop (cong (zstep7 K) K) K.
Proof.
  intros HS HA HB HN HT H5 H6 H. apply noties_of in HT. pose proof (six_step7 (Z.sgn (zZ K)) K HS) as E.
  unfold zstep7. destruct (six_rho _ _ _ _ _ _ _ E) as (E1 & E2). clear E.
  unfold zcond7 in H. rewrite !orb_true_iff, !andb_true_iff, !Z.ltb_lt, !Z.eqb_eq in H.
  unfold zcond5 in H5. rewrite !orb_false_iff in H5. destruct H5 as ((H5 & _) & _).
  unfold zcond6 in H6. rewrite !orb_false_iff in H6. destruct H6 as ((H6 & _) & _).
  apply Z.ltb_ge in H5. apply Z.ltb_ge in H6.
  unfold drop. rewrite E1, E2. unfold zrho. change (zt K) with (tt (zX K) (zE K) (zZ K)).
  unfold mS, znormal in *. clear E1 E2 HS.
  revert HA HB HN HT H5 H6 H. generalize (zA K), (zB K), (zC K), (zX K), (zE K), (zZ K). clear K.
  intros A B C X E Y HA HB HN HT H5 H6 H.
  destruct (Z.ltb_spec A (Z.abs Y)) as [HL|HL].
  { left. destruct HN as [HN|HN]; [rewrite Z.sgn_pos by lia|rewrite Z.sgn_neg by lia]; lia. }
  right. destruct H as [[H|(H1 & H2)]|(H1 & H2)]; [exfalso; lia| |].
  - assert (0 < X /\ 0 < E /\ 0 < Y) as (PX & PE & PY) by lia.
    rewrite (Z.sgn_pos Y) by lia. rewrite (tt_true X E Y) by lia.
    split; [lia|]. rewrite (tt_true (X - 1 * E) E (Y - 2 * 1 * A)) by lia.
    replace (B - 1 * Y + 1 * 1 * A) with B by lia.
    rewrite (Z.abs_neq (X - 1 * E)), (Z.abs_neq (Y - 2 * 1 * A)) by lia.
    rewrite (Z.abs_eq X), (Z.abs_eq E), (Z.abs_eq Y) in * by lia.
    replace (- (X - 1 * E)) with (E - X) by lia. replace (- (Y - 2 * 1 * A)) with A by lia.
    rewrite <- H1 in *. apply rho_I_7; assumption || lia.
  - assert (X <= 0 /\ E < 0 /\ Y < 0) as (PX & PE & PY) by lia.
    rewrite (Z.sgn_neg Y) by lia. rewrite (tt_false X E Y) by lia.
    split; [lia|]. rewrite (tt_true (X - -1 * E) E (Y - 2 * -1 * A)) by lia.
    replace (B - -1 * Y + -1 * -1 * A) with B by lia.
    apply rho_II_I; [exact HT|]. apply viol_II_eq. lia.
Qed.

Lemma d_step8 K : zsym K -> 0 < zA K -> 0 < zB K -> znormal K -> noties12 K -> zcond5 K = false ->
  zcond6 K = false -> zcond7 K = false -> zcond8 K = true -> drop (cong step8 K) K.
Proof.
  intros HS HA HB HN HT H5 H6 H7 H. apply noties_of in HT. pose proof (six_step8 K HS) as E.
  destruct (six_rho _ _ _ _ _ _ _ E) as (E1 & E2). clear E.
  unfold zcond8 in H. rewrite !orb_true_iff, !andb_true_iff, !Z.ltb_lt, !Z.eqb_eq in H.
  unfold zcond5 in H5. rewrite !orb_false_iff in H5. destruct H5 as ((H5 & _) & _).
  unfold zcond6 in H6. rewrite !orb_false_iff in H6. destruct H6 as ((H6 & _) & _).
  unfold zcond7 in H7. rewrite !orb_false_iff in H7. destruct H7 as ((H7 & _) & _).
  apply Z.ltb_ge in H5. apply Z.ltb_ge in H6. apply Z.ltb_ge in H7.
  unfold drop. rewrite E1, E2. unfold zrho. change (zt K) with (tt (zX K) (zE K) (zZ K)).
  unfold mS, znormal in *. clear E1 E2 HS.
  revert HA HB HN HT H5 H6 H7 H. generalize (zA K), (zB K), (zC K), (zX K), (zE K), (zZ K). clear K.
  intros A B C X E Y HA HB HN HT H5 H6 H7 H.
  destruct H as [H|(H1 & H2)]; [left; lia|]. right.
  assert (X <= 0 /\ E <= 0 /\ Y <= 0) as (PX & PE & PY) by lia.
  rewrite (tt_false X E Y) by lia.
  split; [lia|]. pose proof HT as (N1 & _).
  rewrite (tt_false (X + 2 * B + Y) (E + 2 * A + Y) Y) by lia.
  replace (C + A + B + X + E + Y) with C by lia.
  rewrite (Z.abs_eq (X + 2 * B + Y)), (Z.abs_eq (E + 2 * A + Y)) by lia.
  rewrite (Z.abs_neq X), (Z.abs_neq E), (Z.abs_neq Y) in * by lia.
  replace (X + 2 * B + Y) with (B - A + - E) by lia.
  replace (E + 2 * A + Y) with (2 * A - - E - - Y) by lia.
  apply rho_II_8; assumption || lia.
Qed.

(** ** Passes *)
Definition quiet K := znormal K /\ noties12 K /\ zcond5 K = false /\ zcond6 K = false /\
  zcond7 K = false /\ zcond8 K = false.

Lemma noties1_zcond1 K : noties1 K -> zcond1 K = false.
Proof.
  unfold zcond1, noties1. rewrite orb_false_iff, andb_false_iff, !Z.ltb_ge, Z.eqb_neq. lia.
Qed.
Lemma noties2_zcond2 K : noties2 K -> zcond2 K = false.
Proof.
  unfold zcond2, noties2. rewrite orb_false_iff, andb_false_iff, !Z.ltb_ge, Z.eqb_neq. lia.
Qed.
Lemma noties12_alike K' K : alike K' K -> noties12 K -> noties12 K'.
Proof.
  intros (H1 & H2 & H3 & H4 & H5 & H6 & _). unfold noties12, noties1, noties2.
  rewrite H1, H2, H3, H4, H5, H6. tauto.
Qed.
Lemma alike_normal K' K : alike K' K -> znormal K -> znormal K' -> six K' = six K.
Proof.
  intros (H1 & H2 & H3 & H4 & H5 & H6 & H7) N N'. unfold six. rewrite H1, H2, H3.
  change (zt K') with (tt (zX K') (zE K') (zZ K')) in H7.
  change (zt K) with (tt (zX K) (zE K) (zZ K)) in H7. unfold znormal in *.
  assert (E : zX K' = zX K /\ zE K' = zE K /\ zZ K' = zZ K).
  { destruct N as [N|N], N' as [N'|N'].
    - lia.
    - rewrite (tt_true (zX K)), (tt_false (zX K')) in H7 by lia. discriminate.
    - rewrite (tt_false (zX K)), (tt_true (zX K')) in H7 by lia. discriminate.
    - lia. }
  destruct E as (-> & -> & ->). reflexivity.
Qed.
Lemma quiet_six K' K : six K' = six K -> quiet K -> quiet K'.
Proof.
  intros H. unfold quiet, znormal, noties12, noties1, noties2, zcond5, zcond6, zcond7, zcond8.
  unfold six in H. apply six_inv in H. destruct H as (-> & -> & -> & -> & -> & ->). tauto.
Qed.

Section passes.
  Variables (d : Z) (orig : qmat) (G : mat3).
  Hypothesis Hd : (0 < d)%Z.
  Hypothesis HO : qdet orig <> 0%Qc.
  Hypothesis HG : qscale (zq d) (qgram orig) = qof G.
  Let KKG := KK G.

  Lemma p_stage1 st : good 0 orig st ->
    let s := stage1 0 orig st in
    noties1 (KKG (fst s)) /\
    ((snd s = true /\ fst s = st) \/ (snd s = false /\ drop (KKG (fst s)) (KKG st))).
  Proof.
    intros H. pose proof (good_reps d orig G Hd HG st H) as HR.
    pose proof (good_zpos d orig G Hd HO HG st H) as (HS & _).
    unfold stage1. rewrite (r_cond1 d _ _ Hd HR). unfold KKG.
    destruct (zcond1 (KK G st)) eqn:E; cbv zeta; cbn [fst snd].
    - rewrite KK_upd. destruct (d_step1 _ HS E) as (B1 & B2). split; [exact B2|]. right. auto.
    - split; [now apply zcond1_false|]. left. auto.
  Qed.

  Lemma p_stage3 s : good 0 orig (fst s) -> alike (KKG (fst (stage3 0 orig s))) (KKG (fst s)).
  Proof.
    intros H. unfold stage3, KKG. cbv zeta. destruct (cond3 (snd (fst s))) eqn:C; [|apply alike_refl].
    pose proof (good_reps d orig G Hd HG _ H) as HR.
    pose proof (good_zpos d orig G Hd HO HG _ H) as (HS & _).
    destruct HR as (_ & _ & _ & _ & _ & _ & Rl & Rm & Rn).
    cbn [fst snd]. unfold cond3 in C. rewrite Rl, Rm, Rn in *. rewrite KK_upd. fold (KK G (fst s)).
    destruct (z_C3 _ HS C) as (i & j & k & EM & HM & _). rewrite EM. now apply d_diag.
  Qed.
  Lemma p_stage4 s : good 0 orig (fst s) -> alike (KKG (fst (stage4 0 orig s))) (KKG (fst s)).
  Proof.
    intros H. unfold stage4, KKG. cbv zeta. destruct (cond4 (snd (fst s))) eqn:C; [|apply alike_refl].
    pose proof (good_reps d orig G Hd HG _ H) as HR.
    pose proof (good_zpos d orig G Hd HO HG _ H) as (HS & _).
    destruct HR as (_ & _ & _ & _ & _ & _ & Rl & Rm & Rn).
    cbn [fst snd]. unfold cond4 in C. rewrite Rl, Rm, Rn in *. rewrite KK_upd. fold (KK G (fst s)).
    destruct (z_C4 _ HS C) as (i & j & k & EM & HM & _). rewrite EM. now apply d_diag.
  Qed.

  Lemma p_stage58 s : good 0 orig (fst s) -> znormal (KKG (fst s)) -> noties12 (KKG (fst s)) ->
    let s' := stage58 0 orig s in
    (s' = s /\ quiet (KKG (fst s))) \/ (~ quiet (KKG (fst s)) /\ drop (KKG (fst s')) (KKG (fst s))).
  Proof.
    intros H HN HT. pose proof (good_reps d orig G Hd HG _ H) as HR.
    pose proof (good_zpos d orig G Hd HO HG _ H) as HP.
    destruct (zpos_bounds _ HP) as (PA & PB & _). destruct HP as (HS & _).
    unfold stage58, KKG in *. cbv zeta.
    rewrite (r_cond5 d _ _ Hd HR), (r_cond6 d _ _ Hd HR), (r_cond7 d _ _ Hd HR), (r_cond8 d _ _ Hd HR).
    destruct HR as (_ & _ & _ & RX & RE & RZ & _).
    unfold step5, step6, step7.
    rewrite (rep_sign d _ _ Hd RX), (rep_sign d _ _ Hd RE), (rep_sign d _ _ Hd RZ).
    fold (zstep5 (KK G (fst s))). fold (zstep6 (KK G (fst s))). fold (zstep7 (KK G (fst s))).
    unfold quiet.
    destruct (zcond5 _) eqn:C5; cbn [fst snd].
    { right. split; [intuition discriminate|]. rewrite KK_upd. fold (KK G (fst s)). now apply d_step5. }
    destruct (zcond6 _) eqn:C6; cbn [fst snd].
    { right. split; [intuition discriminate|]. rewrite KK_upd. fold (KK G (fst s)). now apply d_step6. }
    destruct (zcond7 _) eqn:C7; cbn [fst snd].
    { right. split; [intuition discriminate|]. rewrite KK_upd. fold (KK G (fst s)). now apply d_step7. }
    destruct (zcond8 _) eqn:C8; cbn [fst snd].
    { right. split; [intuition discriminate|]. rewrite KK_upd. fold (KK G (fst s)). now apply d_step8. }
    left. split; [reflexivity|]. tauto.
  Qed.

  (** A pass that does not end the loop lowers the measure or leaves a reduced state. *)
  Lemma pass_drop st : good 0 orig st -> snd (pass 0 orig st) = false ->
    let K' := KKG (fst (pass 0 orig st)) in drop K' (KKG st) \/ quiet K'.
  Proof.
    intros H. rewrite pass_stages. cbv zeta.
    pose proof (good_stage1 0 orig st H) as H1.
    destruct (p_stage1 st H) as (T1 & F1). cbv zeta in T1, F1.
    set (s1 := stage1 0 orig st) in *.
    destruct (cond2 0 (snd (fst s1))) eqn:C2; cbn [fst snd].
    - intros _. left. unfold KKG in *. rewrite KK_upd. fold (KK G (fst s1)).
      rewrite (r_cond2 d _ _ Hd (good_reps d orig G Hd HG _ H1)) in C2.
      pose proof (d_step2 _ (proj1 (good_zpos d orig G Hd HO HG _ H1)) T1 C2) as B.
      destruct F1 as [(_ & E)|(_ & B1)].
      + rewrite E in *. exact B.
      + exact (drop_trans _ _ _ B B1).
    - rewrite (r_cond2 d _ _ Hd (good_reps d orig G Hd HG _ H1)) in C2. fold KKG in C2.
      pose proof (good_stage3 0 orig s1 H1) as H3.
      pose proof (good_stage4 0 orig _ H3) as H4.
      destruct (prog_stage34 d orig G Hd HO HG s1 H1) as (_ & _ & _ & N & _). cbv zeta in N.
      pose proof (alike_trans _ _ _ (p_stage4 _ H3) (p_stage3 s1 H1)) as S.
      set (s4 := stage4 0 orig (stage3 0 orig s1)) in *. fold KKG in N.
      assert (T : noties12 (KKG (fst s4))).
      { apply (noties12_alike _ _ S). split; [exact T1|now apply zcond2_false]. }
      destruct (p_stage58 s4 H4 N T) as [(E & Q)|(_ & B)]; cbv zeta in *.
      + rewrite E. intros _. now right.
      + intros _. left. pose proof (drop_alike _ _ _ B S) as B'.
        destruct F1 as [(_ & E1)|(_ & B1)].
        * rewrite E1 in *. exact B'.
        * exact (drop_trans _ _ _ B' B1).
  Qed.

  Lemma quiet_pass st : good 0 orig st -> quiet (KKG st) -> snd (pass 0 orig st) = true.
  Proof.
    intros H Q. rewrite pass_stages. cbv zeta.
    pose proof Q as (QN & (QT1 & QT2) & _).
    pose proof (good_reps d orig G Hd HG st H) as HR.
    assert (E1 : stage1 0 orig st = (st, true)).
    { unfold stage1. rewrite (r_cond1 d _ _ Hd HR). fold KKG. now rewrite (noties1_zcond1 _ QT1). }
    rewrite E1. cbn [fst snd]. rewrite (r_cond2 d _ _ Hd HR). fold KKG.
    rewrite (noties2_zcond2 _ QT2).
    assert (H1 : good 0 orig (fst (st, true))) by exact H.
    pose proof (good_stage3 0 orig _ H1) as H3. pose proof (good_stage4 0 orig _ H3) as H4.
    destruct (prog_stage34 d orig G Hd HO HG (st, true) H1) as (_ & _ & _ & N & F). cbv zeta in N, F.
    pose proof (alike_trans _ _ _ (p_stage4 _ H3) (p_stage3 _ H1)) as S.
    set (s4 := stage4 0 orig (stage3 0 orig (st, true))) in *. fold KKG in N, F. cbn [fst snd] in S, F.
    pose proof (quiet_six _ _ (alike_normal _ _ S QN N) Q) as Q4.
    destruct (p_stage58 s4 H4 N) as [(E & _)|(NQ & _)]; [now destruct Q4 as (_ & Q4 & _)| |contradiction].
    cbv zeta in E. rewrite E. destruct F as [(F & _)|(_ & F)]; [exact F|contradiction].
  Qed.

  (** ** The number of passes *)
  (** [T] lists the sums of squared lengths of the bases that are not longer than the given one. *)
  Variable T : list Z.
  Hypothesis HT : forall C, mdet C = 1 -> mS (cong C G) <= mS G -> In (mS (cong C G)) T.

  Definition below t := Z.of_nat (length (filter (fun v => v <? t) T)).
  Definition phi K := 23 * below (mS K) + zrho K.
  Definition start st := good 0 orig st /\ mS (KKG st) <= mS G.

  Lemma filter_le (f g : Z -> bool) l : (forall v, f v = true -> g v = true) ->
    (length (filter f l) <= length (filter g l))%nat.
  Proof.
    intros H. induction l as [|a l IH]; [auto|]. cbn [filter].
    destruct (f a) eqn:F; [rewrite (H a F); cbn [length]; lia|].
    destruct (g a); cbn [length]; lia.
  Qed.
  Lemma below_lt t t' : In t' T -> t' < t -> below t' < below t.
  Proof.
    unfold below. intros H L. apply Nat2Z.inj_lt. revert H. clear HT. induction T as [|a l IH]; [contradiction|].
    pose proof (filter_le (fun v => v <? t') (fun v => v <? t) l) as F.
    assert (F' : (length (filter (fun v => (v <? t')%Z) l) <= length (filter (fun v => (v <? t)%Z) l))%nat).
    { apply F. intros v Hv. apply Z.ltb_lt in Hv. apply Z.ltb_lt. lia. }
    intros [H|H]; cbn [filter].
    - subst a. rewrite Z.ltb_irrefl, (proj2 (Z.ltb_lt t' t) L). cbn [length]. lia.
    - specialize (IH H). destruct (Z.ltb_spec a t'), (Z.ltb_spec a t); cbn [length]; lia.
  Qed.
  Lemma below_bound t : In t T -> 0 <= below t <= Z.of_nat (length T) - 1.
  Proof.
    unfold below. intros H. split; [lia|].
    enough (length (filter (fun v => (v <? t)%Z) T) < length T)%nat by lia.
    clear HT. induction T as [|a l IH]; [contradiction|].
    assert (F : (length (filter (fun v => (v <? t)%Z) l) <= length l)%nat) 
      by (clear; induction l as [|b l]; cbn [filter length]; [lia|]; destruct (b <? t)%Z; cbn [length]; lia).
    destruct H as [H|H]; cbn [filter].
    - subst a. rewrite Z.ltb_irrefl. cbn [length]. lia.
    - specialize (IH H). destruct (a <? t); cbn [length]; lia.
  Qed.

  Lemma zrho_bound K : 0 <= zrho K <= 22.
  Proof. apply rho_bound. Qed.
  Lemma phi_nonneg K : 0 <= phi K.
  Proof. unfold phi, below. pose proof (zrho_bound K). lia. Qed.

  Lemma phi_drop st st' : start st -> good 0 orig st' -> drop (KKG st') (KKG st) ->
    start st' /\ phi (KKG st') <= phi (KKG st) - 1.
  Proof.
    intros (H1 & H2) H' D. assert (HS : mS (KKG st') <= mS G) by (unfold drop in D; lia).
    split; [now split|]. unfold phi.
    pose proof (zrho_bound (KKG st)). pose proof (zrho_bound (KKG st')).
    destruct D as [D|(E & D)].
    - assert (I : In (mS (KKG st')) T) by (apply HT; [apply H'|exact HS]).
      pose proof (below_lt _ _ I D). lia.
    - rewrite E. lia.
  Qed.

  Lemma loop_count : forall fuel m st count, start st -> phi (KKG st) <= m ->
    snd (loop 0 orig fuel false count st) <= count + m + 2.
  Proof.
    induction fuel as [|f IH]; intros m st count H Hm; pose proof (phi_nonneg (KKG st)).
    - cbn [loop negb andb]. destruct (Z.leb count 1000); cbn [snd]; lia.
    - cbn [loop negb andb]. destruct (Z.leb count 1000); cbn [snd]; [|lia].
      pose proof (good_pass 0 orig st (proj1 H)) as H'.
      pose proof (pass_drop st (proj1 H)) as P. cbv zeta in P.
      destruct (pass 0 orig st) as [st' r] eqn:Ep. cbn [fst snd] in *.
      destruct r.
      + destruct f; cbn [loop negb andb snd]; lia.
      + destruct (P eq_refl) as [D|Q].
        * destruct (phi_drop st st' H H' D) as (S' & D').
          specialize (IH (m - 1) st' (count + 1) S'). lia.
        * pose proof (quiet_pass st' H' Q) as QP.
          destruct f as [|f]; cbn [loop negb andb]; destruct (Z.leb (count + 1) 1000); cbn [snd]; try lia.
          destruct (pass 0 orig st') as [st2 r2]. cbn [snd] in QP. subst r2.
          destruct f; cbn [loop negb andb snd]; lia.
  Qed.

  Lemma first_start : start (mid, get_params 0 orig mid) /\
    phi (KKG (mid, get_params 0 orig mid)) <= 23 * Z.of_nat (length T) - 1.
  Proof.
    set (st := (mid, get_params 0 orig mid)).
    assert (E : KKG st = G).
    { unfold KKG, KK, st. cbn [fst]. unfold cong. rewrite mmul_id_r.
      change (mtr mid) with mid. apply mmul_id_l. }
    assert (S : start st) by (split; [apply good_init|rewrite E; lia]).
    split; [exact S|]. unfold phi. pose proof (zrho_bound (KKG st)).
    assert (I : In (mS (KKG st)) T) by (apply HT; [reflexivity|apply S]).
    pose proof (below_bound _ I). lia.
  Qed.

  Lemma final_count : snd (final 0 orig) <= 23 * Z.of_nat (length T) + 1.
  Proof.
    destruct first_start as (S & P).
    pose proof (loop_count loop_fuel _ _ 0 S P) as L. unfold final. lia.
  Qed.

  (** Without the limit. *)
  Lemma run_count : forall k m st, start st -> phi (KKG st) <= m -> m <= Z.of_nat k ->
    exists n, Z.of_nat n <= m + 1 /\ snd (pass 0 orig (run orig n st)) = true.
  Proof.
    induction k as [|k IH]; intros m st H Hm Hk; pose proof (phi_nonneg (KKG st)) as P0;
      (destruct (snd (pass 0 orig st)) eqn:E; [exists 0%nat; split; [lia|exact E]|]);
      pose proof (good_pass 0 orig st (proj1 H)) as H';
      (destruct (pass_drop st (proj1 H) E) as [D|Q]; cbv zeta in *;
       [|exists 1%nat; split; [lia|exact (quiet_pass _ H' Q)]]);
      destruct (phi_drop _ _ H H' D) as (S' & D').
    - pose proof (phi_nonneg (KKG (fst (pass 0 orig st)))). lia.
    - destruct (IH (m - 1) _ S') as (n & Hn & En); [lia|lia|].
      exists (S n). split; [lia|]. unfold run in *. rewrite iter_shift. exact En.
  Qed.
End passes.
