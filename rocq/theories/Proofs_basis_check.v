(** Lemmas for C34 and C35. *)
From Coq Require Import ZArith List Bool Lia Znumtheory.
From Verif Require Import PyNum PyNumFacts Model_universal Model_basis_check Model_body_tet.
Import ListNotations.
Open Scope Z_scope.

Lemma z_in_iff k l : z_in k l = true <-> In k l.
Proof.
  unfold z_in. rewrite existsb_exists. split.
  - intros (x & Hx & E). apply Z.eqb_eq in E. now subst x.
  - intros H. exists k. split; [exact H|apply Z.eqb_refl].
Qed.

Lemma kps_append_in kmax l p q : In q (kps_append kmax l p) <-> In q l \/ (q = p /\ p <= kmax).
Proof.
  unfold kps_append. destruct (Z.leb_spec p kmax); cbn [andb].
  - destruct (z_in p l) eqn:E; cbn [negb].
    + apply z_in_iff in E. split; [tauto|]. intros [A|(-> & _)]; assumption.
    + rewrite in_app_iff. cbn [In]. intuition (subst; auto).
  - split; [tauto|]. intros [A|(-> & A)]; [assumption|lia].
Qed.
Lemma kps_append_nodup kmax l p : NoDup l -> NoDup (kps_append kmax l p).
Proof.
  intros H. unfold kps_append. destruct (p <=? kmax); cbn [andb]; [|exact H].
  destruct (z_in p l) eqn:E; cbn [negb]; [exact H|].
  assert (N : ~ In p l) by (intros A; apply z_in_iff in A; congruence).
  clear E. induction H as [|x l Hx Hl IH]; [constructor; [intros []|constructor]|].
  cbn [app]. constructor.
  - rewrite in_app_iff. cbn [In] in *. intuition (subst; auto).
  - apply IH. cbn [In] in N. tauto.
Qed.

Lemma kps_inner ms kmax k l q :
  In q (fold_left (fun kpds m => kps_append kmax kpds (m * k ^ 3)) ms l) <->
  In q l \/ exists m, In m ms /\ q = m * k ^ 3 /\ q <= kmax.
Proof.
  revert l. induction ms as [|m ms IH]; intros l; cbn [fold_left In].
  - split; [tauto|]. intros [A|(m & [] & _)]. assumption.
  - rewrite IH, kps_append_in. split.
    + intros [[A|(-> & A)]|(m' & A & B)]; [tauto|right; exists m; auto|right; exists m'; tauto].
    + intros [A|(m' & [->|A] & -> & B)]; [tauto|left; right; auto|right; exists m'; auto].
Qed.
Lemma kps_inner_nodup ms kmax k l : NoDup l ->
  NoDup (fold_left (fun kpds m => kps_append kmax kpds (m * k ^ 3)) ms l).
Proof.
  revert l. induction ms as [|m ms IH]; intros l H; cbn [fold_left]; [exact H|].
  apply IH. now apply kps_append_nodup.
Qed.

Lemma kps_loop_in ms kmax q :
  In q (kps_loop ms kmax) <-> exists m k, In m ms /\ 0 <= k < kmax /\ q = m * k ^ 3 /\ q <= kmax.
Proof.
  unfold kps_loop.
  assert (G : forall ks l, In q (fold_left (fun kpds k =>
      fold_left (fun kpds m => kps_append kmax kpds (m * k ^ 3)) ms kpds) ks l) <->
    In q l \/ exists m k, In m ms /\ In k ks /\ q = m * k ^ 3 /\ q <= kmax).
  { induction ks as [|k ks IH]; intros l; cbn [fold_left In].
    - split; [tauto|]. intros [A|(m & k & _ & [] & _)]. assumption.
    - rewrite IH, kps_inner. split.
      + intros [[A|(m & A & B & C)]|(m & k' & A & B & C)];
          [tauto|right; exists m, k; auto|right; exists m, k'; tauto].
      + intros [A|(m & k' & A & [->|B] & C & D)];
          [tauto|left; right; exists m; auto|right; exists m, k'; auto]. }
  rewrite G. cbn [In]. split.
  - intros [[]|(m & k & A & B & C)]. exists m, k. apply in_range1 in B. tauto.
  - intros (m & k & A & B & C). right. exists m, k. rewrite in_range1. tauto.
Qed.
Lemma kps_loop_nodup ms kmax : NoDup (kps_loop ms kmax).
Proof.
  unfold kps_loop. generalize (py_range 0 kmax 1). intros ks.
  assert (G : forall l, NoDup l -> NoDup (fold_left (fun kpds k =>
      fold_left (fun kpds m => kps_append kmax kpds (m * k ^ 3)) ms kpds) ks l)).
  { induction ks as [|k ks IH]; intros l H; cbn [fold_left]; [exact H|].
    apply IH. now apply kps_inner_nodup. }
  apply G. constructor.
Qed.

Lemma kps_cubes kmax q : In q (sc_and_bcc_kps kmax) <-> exists k, 0 <= k < kmax /\ q = k ^ 3 /\ q <= kmax.
Proof.
  unfold sc_and_bcc_kps. rewrite kps_loop_in. change (py_range 1 2 4) with [1]. split.
  - intros (m & k & [<-|[]] & A & B & C). exists k. lia.
  - intros (k & A & B & C). exists 1, k. split; [now left|]. lia.
Qed.
Lemma fcc_kps_same kmax : fcc_kps kmax = sc_and_bcc_kps kmax.
Proof. reflexivity. Qed.

(** ** smallest_prime *)
Lemma in_range2 lo hi x : In x (py_range lo hi 1) <-> lo <= x < hi.
Proof.
  rewrite in_py_range by lia. split; [tauto|]. intros H; split; [exact H|]. apply Z.divide_1_l.
Qed.
Lemma smallest_loop a ps : (forall p, In p ps -> 0 < p) ->
  match smallest_prime_loop a ps with
  | Some p => In p ps /\ (p | a) /\ exists l r, ps = l ++ p :: r /\ forall q, In q l -> ~ (q | a)
  | None => forall q, In q ps -> ~ (q | a)
  end.
Proof.
  induction ps as [|p ps IH]; intros H; cbn [smallest_prime_loop]; [intros q []|].
  destruct (Z.eqb_spec (a mod p) 0) as [E|E].
  - split; [now left|]. split; [apply Z.mod_divide; [specialize (H p (or_introl eq_refl)); lia|exact E]|].
    exists [], ps. split; [reflexivity|]. intros q [].
  - assert (N : ~ (p | a)).
    { intros D. apply E. apply Z.mod_divide; [specialize (H p (or_introl eq_refl)); lia|exact D]. }
    specialize (IH (fun q Hq => H q (or_intror Hq))).
    destruct (smallest_prime_loop a ps) as [r|].
    + destruct IH as (I1 & I2 & l & r' & -> & I3). split; [now right|]. split; [exact I2|].
      exists (p :: l), r'. split; [reflexivity|]. intros q [<-|Hq]; auto.
    + intros q [<-|Hq]; auto.
Qed.

Lemma range_split_lt lo hi l p r q : py_range lo hi 1 = l ++ p :: r -> lo <= q < p -> In q l.
Proof.
  intros E Hq.
  assert (N : (List.length l < List.length (py_range lo hi 1))%nat) by (rewrite E, app_length; cbn; lia).
  assert (P : p = lo + Z.of_nat (List.length l)).
  { assert (X : nth (List.length l) (py_range lo hi 1) 0 = p).
    { rewrite E, app_nth2, Nat.sub_diag by lia. reflexivity. }
    rewrite <- X. unfold py_range in *. rewrite map_length, seq_length in N.
    rewrite (nth_indep _ 0 (lo + 1 * Z.of_nat 0)) by (rewrite map_length, seq_length; exact N).
    rewrite (map_nth (fun i => lo + 1 * Z.of_nat i)). rewrite seq_nth by exact N. lia. }
  assert (Q : nth (Z.to_nat (q - lo)) (py_range lo hi 1) 0 = q).
  { unfold py_range in *. rewrite map_length, seq_length in N.
    rewrite (nth_indep _ 0 (lo + 1 * Z.of_nat 0)) by (rewrite map_length, seq_length; lia).
    rewrite (map_nth (fun i => lo + 1 * Z.of_nat i)). rewrite seq_nth by lia. lia. }
  rewrite E, app_nth1 in Q by lia. rewrite <- Q. apply nth_In. lia.
Qed.

Lemma smallest_prime_spec a : 2 <= a ->
  exists p, smallest_prime a = Some p /\ prime p /\ (p | a) /\ forall q, prime q -> (q | a) -> p <= q.
Proof.
  intros Ha. unfold smallest_prime. destruct (Z.leb_spec a 2).
  - assert (a = 2) as -> by lia. exists 2. split; [reflexivity|]. split; [exact prime_2|].
    split; [apply Z.divide_refl|]. intros q Hq _. destruct Hq. lia.
  - pose proof (smallest_loop a (py_range 2 (a + 1) 1)) as L.
    assert (P : forall p, In p (py_range 2 (a + 1) 1) -> 0 < p).
    { intros p Hp. apply in_range2 in Hp. lia. }
    specialize (L P). destruct (smallest_prime_loop a (py_range 2 (a + 1) 1)) as [p|].
    + destruct L as (L1 & L2 & l & r & E & L3). exists p. apply in_range2 in L1.
      assert (M : forall q, 2 <= q < p -> ~ (q | a)).
      { intros q Hq. apply L3. exact (range_split_lt 2 (a + 1) l p r q E Hq). }
      split; [reflexivity|]. split; [|split; [exact L2|]].
      * apply prime_alt. split; [lia|]. intros n Hn D. apply (M n ltac:(lia)).
        now apply Z.divide_trans with p.
      * intros q Hq D. destruct (Z.le_gt_cases p q); [assumption|].
        exfalso. apply (M q); [destruct Hq; lia|exact D].
    + exfalso. apply (L a); [apply in_range2; lia|apply Z.divide_refl].
Qed.

(** 2, 4 and 16 are not ratios of cubes. *)
Lemma two_divides_cube x : (2 | x ^ 3) -> (2 | x).
Proof.
  intros H. replace (x ^ 3) with (x * (x * x)) in H by ring.
  apply prime_mult in H; [|exact prime_2]. destruct H as [H|H]; [exact H|].
  apply prime_mult in H; [|exact prime_2]. tauto.
Qed.
Lemma even_or x : (2 | x) \/ exists y, x = 2 * y + 1.
Proof.
  destruct (Z.eq_dec (x mod 2) 0) as [E|E]; [left; apply Z.mod_divide; [lia|exact E]|].
  right. exists (x / 2). pose proof (Z.div_mod x 2 ltac:(lia)). pose proof (Z.mod_pos_bound x 2 ltac:(lia)). lia.
Qed.
(** By descent: [2 x^3 = y^3] and [4 x^3 = y^3] have no positive solutions. *)
Lemma no_cube_ratio : forall N x y, 1 <= x <= N -> 2 * x ^ 3 <> y ^ 3 /\ 4 * x ^ 3 <> y ^ 3.
Proof.
  assert (G : forall (n : nat) x y, 1 <= x <= Z.of_nat n -> 2 * x ^ 3 <> y ^ 3 /\ 4 * x ^ 3 <> y ^ 3).
  { induction n as [|n IH]; intros x y Hx; [lia|].
    assert (D : forall m x y, 1 <= x <= Z.of_nat (S n) -> (m = 2 \/ m = 4) -> m * x ^ 3 = y ^ 3 ->
      (2 | x) -> (2 | y) -> m * (x / 2) ^ 3 = (y / 2) ^ 3 /\ 1 <= x / 2 <= Z.of_nat n).
    { intros m u v Hu Hm E (a & ->) (b & ->). rewrite !Z.div_mul by lia.
      split; [|nia]. nia. }
    split; intros E.
    - assert (Dy : (2 | y)) by (apply two_divides_cube; rewrite <- E; exists (x ^ 3); ring).
      assert (Dx : (2 | x)).
      { apply two_divides_cube. destruct Dy as (b & ->). exists (2 * b ^ 3). nia. }
      destruct (D 2 x y Hx ltac:(auto) E Dx Dy) as (E' & R). apply (proj1 (IH _ _ R)) in E'. exact E'.
    - assert (Dy : (2 | y)) by (apply two_divides_cube; rewrite <- E; exists (2 * x ^ 3); ring).
      assert (Dx : (2 | x)).
      { apply two_divides_cube. destruct Dy as (b & ->). exists (b ^ 3). nia. }
      destruct (D 4 x y Hx ltac:(auto) E Dx Dy) as (E' & R). apply (proj2 (IH _ _ R)) in E'. exact E'. }
  intros N x y Hx. apply (G (Z.to_nat N)). lia.
Qed.
Lemma kps_missing kmax k : 1 <= k ->
  ~ In (2 * k ^ 3) (sc_and_bcc_kps kmax) /\ ~ In (4 * k ^ 3) (sc_and_bcc_kps kmax) /\
  ~ In (4 * k ^ 3) (fcc_kps kmax) /\ ~ In (16 * k ^ 3) (fcc_kps kmax).
Proof.
  intros Hk. change (fcc_kps kmax) with (sc_and_bcc_kps kmax). rewrite !kps_cubes.
  assert (A : forall y, 2 * k ^ 3 <> y ^ 3 /\ 4 * k ^ 3 <> y ^ 3) by (intros y; apply (no_cube_ratio k); lia).
  assert (B : forall y, 16 * k ^ 3 <> y ^ 3).
  { intros y E. apply (proj1 (no_cube_ratio (2 * k) (2 * k) y ltac:(lia))). rewrite <- E. ring. }
  repeat split; intros (y & _ & E & _); [apply (proj1 (A y))|apply (proj2 (A y))|apply (proj2 (A y))|apply (B y)]; exact E.
Qed.
