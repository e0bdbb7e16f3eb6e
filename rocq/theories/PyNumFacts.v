(** Facts about the Python primitives of [PyNum] and [get_HNF_diagonals]. *)
From Coq Require Import ZArith List Lia Bool Znumtheory FinFun.
From Verif Require Import Mat3 Spec PyNum Model_diag.
Import ListNotations.
Open Scope Z_scope.

Lemma in_py_range lo hi step x :
  0 < step ->
  (In x (py_range lo hi step) <-> lo <= x < hi /\ (step | x - lo)).
Proof.
  intros Hs. unfold py_range. rewrite in_map_iff. split.
  - intros (i & <- & Hi). apply in_seq in Hi.
    assert (Hlt : Z.of_nat i < (hi - lo + step - 1) / step).
    { destruct (Z_le_gt_dec 0 ((hi - lo + step - 1) / step)); lia. }
    assert (step * (Z.of_nat i + 1) <= hi - lo + step - 1).
    { pose proof (Z.mul_div_le (hi - lo + step - 1) step Hs). nia. }
    split; [nia|]. exists (Z.of_nat i). ring.
  - intros ((Hlo & Hhi) & (k & Hk)). exists (Z.to_nat k).
    assert (0 <= k) by nia.
    split; [rewrite Z2Nat.id; lia|].
    apply in_seq. split; [lia|]. cbn [Nat.add].
    apply Z2Nat.inj_lt; [lia| |].
    + apply Z.div_pos; lia.
    + apply Z.lt_le_trans with (k + 1); [lia|].
      apply Z.div_le_lower_bound; lia.
Qed.

Lemma NoDup_py_range lo hi step : 0 < step -> NoDup (py_range lo hi step).
Proof.
  intros Hs. unfold py_range. apply Injective_map_NoDup.
  - intros i j H. nia.
  - apply seq_NoDup.
Qed.

Lemma in_range1 hi x : In x (py_range 0 hi 1) <-> 0 <= x < hi.
Proof.
  rewrite in_py_range by lia. split; [tauto|]. intros H; split; [exact H|].
  apply Z.divide_1_l.
Qed.

Lemma in_range_mult hi step x :
  0 < step -> (In x (py_range 0 hi step) <-> 0 <= x < hi /\ (step | x)).
Proof. intros H. rewrite in_py_range by lia. now rewrite Z.sub_0_r. Qed.

Lemma in_halves c x : 1 <= c -> (In x (halves c) <-> 0 <= x < c /\ (c | 2 * x)).
Proof.
  intros Hc. unfold halves. destruct (c mod 2 =? 0) eqn:E.
  - apply Z.eqb_eq in E. apply Z.mod_divide in E; [|lia]. destruct E as [k Hk].
    assert (Hd : c / 2 = k) by (subst c; apply Z.div_mul; lia).
    rewrite Hd. cbn [In]. split.
    + intros [<-|[<-|[]]].
      * split; [lia|]. exists 0; ring.
      * split; [lia|]. exists 1; lia.
    + intros (Hx & (q & Hq)).
      assert (q = 0 \/ q = 1) as [-> | ->] by nia; [left | right; left]; nia.
  - cbn [In]. split.
    + intros [<-|[]]. split; [lia|]. exists 0; ring.
    + intros (Hx & (q & Hq)).
      assert (q = 0 \/ q = 1) as [-> | ->] by nia; [left; nia|].
      exfalso. apply Z.eqb_neq in E. apply E.
      apply Z.mod_divide; [lia|]. exists x. lia.
Qed.

Lemma NoDup_halves c : 1 <= c -> NoDup (halves c).
Proof.
  intros Hc. unfold halves. destruct (c mod 2 =? 0) eqn:E.
  - apply Z.eqb_eq in E. apply Z.mod_divide in E; [|lia]. destruct E as [k Hk].
    assert (Hd : c / 2 = k) by (subst c; apply Z.div_mul; lia).
    rewrite Hd. constructor; [|constructor; [easy|constructor]].
    cbn [In]. lia.
  - constructor; [easy|constructor].
Qed.

Lemma in_py_for {A B} (l : list A) (f : A -> list B) y :
  In y (py_for l f) <-> exists x, In x l /\ In y (f x).
Proof. apply in_flat_map. Qed.

Lemma in_py_if {B} c (l : list B) y : In y (py_if c l) <-> c = true /\ In y l.
Proof. destruct c; cbn; intuition discriminate. Qed.

Lemma in_one {B} (x y : B) : In y [x] <-> y = x.
Proof. cbn. intuition. Qed.

Lemma mod0_true x y : 0 < y -> (mod0 x y = true <-> (y | x)).
Proof.
  intros H. unfold mod0. rewrite Z.eqb_eq. apply Z.mod_divide. lia.
Qed.

(** The float test [x % y == 0] when the float [x] has the integer value [m]. *)
Lemma fmod0_int x y m :
  0 < fden x -> 0 < y -> fnum x = m * fden x ->
  (fmod0 x y = true <-> (y | m)).
Proof.
  intros Hd Hy Hm. unfold fmod0. rewrite Z.eqb_eq.
  rewrite Z.mod_divide by nia. rewrite Hm. split.
  - intros (k & Hk). exists k. apply (Z.mul_reg_r _ _ (fden x)); lia.
  - intros (k & ->). exists k. ring.
Qed.

(** The float test in general. *)
Lemma fmod0_true x y :
  0 < fden x -> 0 < y -> (fmod0 x y = true <-> exists k, fnum x = k * y * fden x).
Proof.
  intros Hd Hy. unfold fmod0. rewrite Z.eqb_eq, Z.mod_divide by nia.
  split; intros (k & Hk); exists k; rewrite Hk; ring.
Qed.

Lemma feqz_true x k : 0 < fden x -> (feqz x k = true <-> fnum x = k * fden x).
Proof. intros H. unfold feqz. apply Z.eqb_eq. Qed.

(** Membership in the list of diagonals. *)
Lemma in_diagonals n a c f :
  In (a, c, f) (get_HNF_diagonals n) <->
  1 <= a /\ 1 <= c /\ 1 <= f /\ a * c * f = n.
Proof.
  unfold get_HNF_diagonals. rewrite in_py_for. split.
  - intros (i & Hi & H). apply in_py_range in Hi; [|lia].
    destruct (negb (n mod i =? 0)) eqn:E; [destruct H|].
    apply negb_false_iff, Z.eqb_eq, Z.mod_divide in E; [|lia].
    destruct E as [q Hq].
    replace (n / i) with q in H by (subst n; rewrite Z.div_mul; lia).
    apply in_py_for in H. destruct H as (j & Hj & H).
    apply in_py_range in Hj; [|lia].
    destruct (negb (q mod j =? 0)) eqn:E2; [destruct H|].
    apply negb_false_iff, Z.eqb_eq, Z.mod_divide in E2; [|lia].
    destruct E2 as [r Hr].
    replace (q / j) with r in H by (subst q; rewrite Z.div_mul; lia).
    apply in_one in H. injection H as -> -> ->.
    repeat split; nia.
  - intros (Ha & Hc & Hf & Hn). exists a.
    split; [apply in_py_range; [lia|]; split; [assert (1 <= c * f) by nia; nia | apply Z.divide_1_l]|].
    assert (E : n mod a = 0) by (apply Z.mod_divide; [lia|]; exists (c * f); nia).
    rewrite E. cbn [Z.eqb negb].
    replace (n / a) with (c * f)
      by (subst n; replace (a * c * f) with (c * f * a) by ring; rewrite Z.div_mul; lia).
    apply in_py_for. exists c.
    split; [apply in_py_range; [lia|]; split; [assert (1 <= c * f) by nia; nia | apply Z.divide_1_l]|].
    assert (E2 : (c * f) mod c = 0) by (apply Z.mod_divide; [lia|]; exists f; ring).
    rewrite E2. cbn [Z.eqb negb].
    replace (c * f / c) with f by (rewrite Z.mul_comm, Z.div_mul; lia).
    now left.
Qed.

(** No duplicates in nested loops: the loop variable can be recovered from what
    the body produced. *)
Lemma NoDup_py_for {A B} (l : list A) (f : A -> list B) (key : B -> A) :
  NoDup l -> (forall x, In x l -> NoDup (f x)) ->
  (forall x y, In x l -> In y (f x) -> key y = x) ->
  NoDup (py_for l f).
Proof.
  unfold py_for. induction l as [|x l IH]; intros Hl Hf Hk; cbn; [constructor|].
  apply NoDup_cons_iff in Hl; destruct Hl as [Hx Hl'].
  assert (App : forall l1 l2 : list B, NoDup l1 -> NoDup l2 ->
            (forall y, In y l1 -> ~ In y l2) -> NoDup (l1 ++ l2)).
  { induction l1 as [|y l1 IH1]; cbn; intros l2 H1 H2 H3; [exact H2|].
    apply NoDup_cons_iff in H1; destruct H1 as [H1 H1']. constructor.
    - rewrite in_app_iff. intros [?|?]; [contradiction|]. apply (H3 y); auto.
    - apply IH1; [exact H1'|exact H2|]. intros z Hz. apply H3; now right. }
  apply App.
  - apply Hf; now left.
  - apply IH; [exact Hl'| |].
    + intros y Hy; apply Hf; now right.
    + intros y z Hy Hz; apply Hk; [now right|exact Hz].
  - intros y Hy Hy'. apply in_flat_map in Hy'. destruct Hy' as (z & Hz & Hyz).
    assert (key y = x) by (apply Hk; [now left|exact Hy]).
    assert (key y = z) by (apply Hk; [now right|exact Hyz]).
    subst. contradiction.
Qed.

Lemma NoDup_py_if {B} c (l : list B) : NoDup l -> NoDup (py_if c l).
Proof. destruct c; cbn; [auto|constructor]. Qed.

Lemma NoDup_one {B} (x : B) : NoDup [x].
Proof. constructor; [easy|constructor]. Qed.

Lemma NoDup_diagonals n : NoDup (get_HNF_diagonals n).
Proof.
  unfold get_HNF_diagonals. apply NoDup_py_for with (key := fun t => fst (fst t)).
  - apply NoDup_py_range; lia.
  - intros i Hi. destruct (negb (n mod i =? 0)); [constructor|].
    apply NoDup_py_for with (key := fun t => snd (fst t)).
    + apply NoDup_py_range; lia.
    + intros j Hj. destruct (negb _); [constructor|apply NoDup_one].
    + intros j y Hj Hy. destruct (negb _); [destruct Hy|].
      apply in_one in Hy. now subst.
  - intros i y Hi Hy. destruct (negb (n mod i =? 0)); [destruct Hy|].
    apply in_py_for in Hy. destruct Hy as (j & _ & Hy).
    destruct (negb _); [destruct Hy|]. apply in_one in Hy. now subst.
Qed.
