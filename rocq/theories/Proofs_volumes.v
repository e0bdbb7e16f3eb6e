(** Candidate volumes ([find_volumes]) and the choice of HNFs ([find_supercells]). *)
From Coq Require Import ZArith List Lia Bool Sorted Permutation.
From Verif Require Import Mat3 Spec PyNum Model_diag PyNumFacts Model_universal Bases HnfTheory.
From Verif Require Import Model_sc Model_bcc Model_fcc Proofs_cubic Proofs_enum Proofs_nodup
  Proofs_enum_extra Proofs_two.
Import ListNotations.
Open Scope Z_scope.

(** ** Sorting *)

Lemma z_insert_perm x l : Permutation (z_insert x l) (x :: l).
Proof.
  induction l as [|y l IH]; cbn; [reflexivity|].
  destruct (x <=? y); [reflexivity|]. rewrite IH. apply perm_swap.
Qed.

Lemma z_sort_perm l : Permutation (z_sort l) l.
Proof. induction l as [|x l IH]; cbn; [reflexivity|]. rewrite z_insert_perm. now constructor. Qed.

Lemma z_insert_sorted x l : StronglySorted Z.le l -> StronglySorted Z.le (z_insert x l).
Proof.
  induction 1 as [|y l HS IH HF]; cbn; [repeat constructor|].
  destruct (x <=? y) eqn:E.
  - apply Z.leb_le in E. constructor; [now constructor|]. constructor; [exact E|].
    rewrite Forall_forall in *. intros z Hz. specialize (HF z Hz). lia.
  - apply Z.leb_gt in E. constructor; [exact IH|]. rewrite Forall_forall in *. intros z Hz.
    apply (Permutation_in _ (z_insert_perm x l)) in Hz. destruct Hz as [<-|Hz]; [lia|auto].
Qed.

Lemma z_sort_sorted l : StronglySorted Z.le (z_sort l).
Proof. induction l; cbn; [constructor|]. now apply z_insert_sorted. Qed.

Lemma z_sort_fix l : StronglySorted Z.le l -> z_sort l = l.
Proof.
  induction 1 as [|x l HS IH HF]; cbn; [reflexivity|]. rewrite IH.
  destruct l as [|y l]; cbn; [reflexivity|].
  rewrite Forall_forall in HF. specialize (HF y (or_introl eq_refl)).
  destruct (Z.leb_spec x y); [reflexivity|lia].
Qed.

Lemma firstn_sorted n l : StronglySorted Z.le l -> StronglySorted Z.le (firstn n l).
Proof.
  intros H. revert n. induction H as [|x l HS IH HF]; intros [|n]; cbn; try constructor; [apply IH|].
  rewrite Forall_forall in *. intros z Hz. apply HF. rewrite <- (firstn_skipn n l). apply in_or_app; auto.
Qed.

Lemma sorted_split_le l n x y :
  StronglySorted Z.le l -> In x (firstn n l) -> In y (skipn n l) -> x <= y.
Proof.
  intros H. revert n. induction H as [|z l HS IH HF]; intros [|n]; cbn; try tauto.
  intros [<-|Hx] Hy; [|eauto].
  rewrite Forall_forall in HF. apply HF. rewrite <- (firstn_skipn n l). apply in_or_app; auto.
Qed.

(** ** The cubic volumes *)

Lemma pow3 x : x ^ 3 = x * x * x.
Proof. ring. Qed.

Lemma cube_mono x y : x <= y -> x ^ 3 <= y ^ 3.
Proof.
  intros H. rewrite !pow3.
  assert (0 <= (y - x) * (x * x + x * y + y * y)).
  { apply Z.mul_nonneg_nonneg; [lia|].
    pose proof (Z.square_nonneg (2 * x + y)). pose proof (Z.square_nonneg y). lia. }
  lia.
Qed.

Definition block (ms : list Z) (kpd b : Z) : list Z :=
  flat_map (fun m => if kpd <=? m * b ^ 3 then [m * b ^ 3] else []) ms.

Lemma cubic_loop_blocks fuel ms kpd nmax nb ns :
  1 <= nmax -> nmax - nb <= Z.of_nat fuel ->
  exists bs, cubic_loop fuel ms kpd nmax nb ns = ns ++ flat_map (block ms kpd) bs /\
    NoDup bs /\ forall b, In b bs <-> nb <= b /\ b ^ 3 < nmax.
Proof.
  intros Hm. revert nb ns. induction fuel as [|fuel IH]; intros nb ns Hf; cbn [cubic_loop].
  - exists []. cbn [flat_map In]. rewrite app_nil_r. split; [reflexivity|]. split; [constructor|].
    intros b. split; [tauto|]. intros (H1 & H2).
    assert (nmax <= b) by lia. rewrite pow3 in H2. nia.
  - destruct (Z.ltb_spec (nb ^ 3) nmax) as [L|L].
    + destruct (IH (nb + 1) (ns ++ block ms kpd nb)) as (bs & E & ND & C); [lia|].
      exists (nb :: bs). cbv zeta. fold (block ms kpd nb). rewrite E. cbn [flat_map].
      rewrite app_assoc. split; [reflexivity|]. split.
      * constructor; [|exact ND]. rewrite C. lia.
      * intros b. cbn [In]. rewrite C. split.
        -- intros [<-|(H1 & H2)]; [lia|lia].
        -- intros (H1 & H2). destruct (Z.eq_dec nb b); [now left|right; lia].
    + exists []. cbn [flat_map In]. rewrite app_nil_r. split; [reflexivity|]. split; [constructor|].
      intros b. split; [tauto|]. intros (H1 & H2). pose proof (cube_mono nb b H1). lia.
Qed.

Lemma in_block ms kpd b x : In x (block ms kpd b) <-> exists m, In m ms /\ x = m * b ^ 3 /\ kpd <= x.
Proof.
  unfold block. rewrite in_flat_map. split.
  - intros (m & Hm & Hx). exists m. destruct (Z.leb_spec kpd (m * b ^ 3)); [|destruct Hx].
    apply in_one in Hx. subst. auto.
  - intros (m & Hm & -> & Hk). exists m. split; [exact Hm|].
    destruct (Z.leb_spec kpd (m * b ^ 3)); [now left|lia].
Qed.

Lemma NoDup_flat_map_disj {A B} (f : A -> list B) l :
  NoDup l -> (forall x, In x l -> NoDup (f x)) ->
  (forall x y z, In x l -> In y l -> In z (f x) -> In z (f y) -> x = y) -> NoDup (flat_map f l).
Proof.
  induction l as [|x l IH]; cbn; intros HN HF HD; [constructor|].
  apply NoDup_cons_iff in HN. destruct HN as (Hx & HN).
  assert (App : forall l1 l2 : list B, NoDup l1 -> NoDup l2 ->
            (forall y, In y l1 -> ~ In y l2) -> NoDup (l1 ++ l2)).
  { clear. induction l1 as [|y l1 IH1]; cbn; intros l2 H1 H2 H3; [exact H2|].
    apply NoDup_cons_iff in H1; destruct H1 as [H1 H1']. constructor.
    - rewrite in_app_iff. intros [?|?]; [contradiction|]. apply (H3 y); auto.
    - apply IH1; [exact H1'|exact H2|]. intros z Hz. apply H3; now right. }
  apply App; [auto|apply IH; auto|].
  - intros; eapply HD; eauto.
  - intros z Hz Hz'. apply in_flat_map in Hz'. destruct Hz' as (y & Hy & Hz').
    assert (x = y) by (eapply HD; eauto). subst. contradiction.
Qed.

(** Multipliers for which the sizes [m * b^3] determine [m] and [b]. *)
Definition separated (ms : list Z) : Prop :=
  NoDup ms /\
  forall m m' b b', In m ms -> In m' ms -> 1 <= b -> 1 <= b' ->
    m * b ^ 3 = m' * b' ^ 3 -> m = m' /\ b = b'.

Lemma separated_124 : separated [1; 2; 4].
Proof.
  split; [repeat constructor; cbn; lia|].
  intros m m' b b' Hm Hm' Hb Hb'. rewrite !pow3. cbn [In] in Hm, Hm'.
  destruct Hm as [<-|[<-|[<-|[]]]], Hm' as [<-|[<-|[<-|[]]]]; intros E;
    try (split; [reflexivity|apply cube_inj; lia]); exfalso;
    first [ apply (cube2 b b'); lia | apply (cube2 b' b); lia
          | apply (cube4 b b'); lia | apply (cube4 b' b); lia ].
Qed.

Lemma separated_1416 : separated [1; 4; 16].
Proof.
  split; [repeat constructor; cbn; lia|].
  intros m m' b b' Hm Hm' Hb Hb'. rewrite !pow3. cbn [In] in Hm, Hm'.
  destruct Hm as [<-|[<-|[<-|[]]]], Hm' as [<-|[<-|[<-|[]]]]; intros E;
    try (split; [reflexivity|apply cube_inj; lia]); exfalso;
    first [ apply (cube4 b b'); lia | apply (cube4 b' b); lia
          | apply (cube2 b (2 * b')); lia | apply (cube2 b' (2 * b)); lia ].
Qed.

Lemma block_base ms kpd b x : (forall m, In m ms -> 1 <= m) -> 1 <= kpd ->
  In x (block ms kpd b) -> 1 <= b.
Proof.
  intros Hms Hk Hx. apply in_block in Hx. destruct Hx as (m & Hm & -> & Hx).
  specialize (Hms m Hm). rewrite pow3 in Hx. destruct (Z_lt_ge_dec b 1); [|lia]. nia.
Qed.

(** What the guess [nb] for the first base must satisfy: it is one or two below the
    integer cube root. *)
Definition root_guess (kpd nb : Z) : Prop :=
  exists k, 1 <= k /\ k ^ 3 <= kpd < (k + 1) ^ 3 /\ k - 2 <= nb <= k - 1.

Definition good_mults (ms : list Z) : Prop :=
  separated ms /\ (forall m, In m ms -> 1 <= m) /\
  exists p q, In 1 ms /\ In p ms /\ In q ms /\ 2 <= p < q /\ 4 <= q /\ q < 17.

Lemma good_124 : good_mults [1; 2; 4].
Proof.
  split; [apply separated_124|]. split; [cbn; lia|]. exists 2, 4. cbn. lia.
Qed.
Lemma good_1416 : good_mults [1; 4; 16].
Proof.
  split; [apply separated_1416|]. split; [cbn; lia|]. exists 4, 16. cbn. lia.
Qed.

Lemma cubic_candidates ms kpd nb :
  good_mults ms -> 1 <= kpd -> root_guess kpd nb ->
  exists L, cubic_volumes ms kpd nb = firstn 3 (z_sort L) /\ NoDup L /\ (3 <= length L)%nat /\
    forall x, In x L <-> exists m b, In m ms /\ nb <= b /\ 1 <= b /\ b ^ 3 < kpd + 1000 /\
                                     x = m * b ^ 3 /\ kpd <= x.
Proof.
  intros ((HND & HS) & Hms & (p & q & H1 & Hp & Hq & Hpq & Hq4 & Hq17)) Hk (k & Hk1 & Hkk & Hnb).
  unfold cubic_volumes, cubic_fuel.
  assert (Hge : nb <= kpd + 1000).
  { rewrite !pow3 in Hkk. nia. }
  destruct (cubic_loop_blocks (Z.to_nat (kpd + 1000 - nb)) ms kpd (kpd + 1000) nb [])
    as (bs & E & NDb & Cb); [lia|lia|].
  exists (flat_map (block ms kpd) bs). cbv zeta. rewrite E. cbn [app].
  assert (C : forall x, In x (flat_map (block ms kpd) bs) <->
    exists m b, In m ms /\ nb <= b /\ 1 <= b /\ b ^ 3 < kpd + 1000 /\ x = m * b ^ 3 /\ kpd <= x).
  { intros x. rewrite in_flat_map. split.
    - intros (b & Hb & Hx). pose proof (block_base ms kpd b x Hms Hk Hx).
      apply Cb in Hb. apply in_block in Hx. destruct Hx as (m & Hm & Ex & Hkx).
      exists m, b. tauto.
    - intros (m & b & Hm & Hb1 & Hb2 & Hb3 & Ex & Hkx). exists b. split; [apply Cb; tauto|].
      apply in_block. exists m. tauto. }
  split; [reflexivity|]. split; [|split; [|exact C]].
  - apply NoDup_flat_map_disj; [exact NDb| |].
    + intros b Hb. unfold block. apply NoDup_flat_map_disj; [exact HND| |].
      * intros m Hm. destruct (kpd <=? m * b ^ 3); [apply NoDup_one|constructor].
      * intros m m' z Hm Hm' Hz Hz'.
        assert (B : 1 <= b).
        { apply (block_base ms kpd b z Hms Hk). unfold block. apply in_flat_map. eauto. }
        destruct (kpd <=? m * b ^ 3); [|destruct Hz].
        destruct (kpd <=? m' * b ^ 3); [|destruct Hz'].
        apply in_one in Hz, Hz'. subst z. now apply (HS m m' b b).
    + intros b b' z Hb Hb' Hz Hz'.
      pose proof (block_base ms kpd b z Hms Hk Hz). pose proof (block_base ms kpd b' z Hms Hk Hz').
      apply in_block in Hz, Hz'. destruct Hz as (m & Hm & Ez & _), Hz' as (m' & Hm' & Ez' & _).
      subst z. now apply (HS m m' b b').
  - assert (T : forall x y z, x <> y -> x <> z -> y <> z ->
      In x (flat_map (block ms kpd) bs) -> In y (flat_map (block ms kpd) bs) ->
      In z (flat_map (block ms kpd) bs) -> (3 <= length (flat_map (block ms kpd) bs))%nat).
    { intros x y z N1 N2 N3 I1 I2 I3.
      change 3%nat with (length [x; y; z]). apply NoDup_incl_length.
      - repeat constructor; cbn; intuition congruence.
      - intros w [<-|[<-|[<-|[]]]]; assumption. }
    destruct (Z_le_gt_dec k 17) as [K|K].
    + assert (B : (k + 1) ^ 3 < kpd + 1000 /\ 1 <= (k + 1) ^ 3).
      { assert (E3 : (k + 1) ^ 3 = k ^ 3 + 3 * (k * k) + 3 * k + 1) by ring.
        assert (k * k <= 17 * 17) by nia. assert (0 <= k * k) by nia.
        assert (0 <= k ^ 3) by (apply Z.pow_nonneg; lia). lia. }
      set (c := (k + 1) ^ 3) in *.
      assert (I : forall m, In m ms -> In (m * c) (flat_map (block ms kpd) bs)).
      { intros m Hm. apply C. exists m, (k + 1). specialize (Hms m Hm). fold c.
        split; [exact Hm|]. repeat split; nia. }
      apply (T (1 * c) (p * c) (q * c)); auto; nia.
    + assert (A : 4 * (k - 1) ^ 3 >= (k + 1) ^ 3) by (rewrite !pow3; nia).
      apply (T (p * k ^ 3) (q * k ^ 3) (q * (k - 1) ^ 3)).
      * rewrite pow3. nia.
      * intros Eq. apply (HS p q k (k - 1)) in Eq; auto; lia.
      * intros Eq. apply (HS q q k (k - 1)) in Eq; auto; lia.
      * apply C. exists p, k. split; [exact Hp|]. assert (2 * k ^ 3 >= (k + 1) ^ 3) by (rewrite !pow3; nia).
        assert (0 <= k ^ 3) by (rewrite pow3; nia). repeat split; nia.
      * apply C. exists q, k. split; [exact Hq|]. assert (2 * k ^ 3 >= (k + 1) ^ 3) by (rewrite !pow3; nia).
        assert (0 <= k ^ 3) by (rewrite pow3; nia). repeat split; nia.
      * apply C. exists q, (k - 1). split; [exact Hq|].
        assert (0 <= (k - 1) ^ 3 <= k ^ 3) by (rewrite !pow3; nia).
        repeat split; nia.
Qed.

Lemma cubic_volumes_spec ms kpd nb :
  good_mults ms -> 1 <= kpd -> root_guess kpd nb ->
  exists x y z, z_sort (cubic_volumes ms kpd nb) = [x; y; z] /\ kpd <= x /\ x < y /\ y < z /\
    (forall v, In v [x; y; z] -> exists m b, In m ms /\ 1 <= b /\ v = m * b ^ 3 /\
                                             nb <= b /\ b ^ 3 < kpd + 1000) /\
    (forall m b, In m ms -> nb <= b -> b ^ 3 < kpd + 1000 -> kpd <= m * b ^ 3 ->
       In (m * b ^ 3) [x; y; z] \/ z < m * b ^ 3).
Proof.
  intros HG Hk HR. destruct (cubic_candidates ms kpd nb HG Hk HR) as (L & E & ND & Len & C).
  rewrite E. rewrite (z_sort_fix _ (firstn_sorted 3 _ (z_sort_sorted L))).
  pose proof (z_sort_sorted L) as S. pose proof (z_sort_perm L) as P.
  assert (Len' : (3 <= length (z_sort L))%nat) by (rewrite (Permutation_length P); exact Len).
  assert (ND' : NoDup (z_sort L)) by (eapply Permutation_NoDup; [symmetry; exact P|exact ND]).
  assert (C' : forall x, In x (z_sort L) <-> In x L)
    by (intros x; split; apply Permutation_in; [exact P|symmetry; exact P]).
  clear E Len ND P. destruct (z_sort L) as [|x [|y [|z R]]]; cbn in Len'; try lia. clear Len'.
  exists x, y, z. cbn [firstn]. split; [reflexivity|].
  assert (Hx : In x L) by (apply C'; cbn; tauto).
  apply StronglySorted_inv in S. destruct S as (S1 & F1).
  apply StronglySorted_inv in S1. destruct S1 as (S2 & F2).
  apply StronglySorted_inv in S2. destruct S2 as (S3 & F3).
  apply NoDup_cons_iff in ND'. destruct ND' as (N1 & ND').
  apply NoDup_cons_iff in ND'. destruct ND' as (N2 & ND').
  apply NoDup_cons_iff in ND'. destruct ND' as (N3 & _).
  rewrite Forall_forall in F1, F2, F3. cbn [In] in *.
  split; [apply C in Hx; destruct Hx as (m & b & Hx); tauto|].
  assert (x <= y) by (apply F1; tauto). assert (y <= z) by (apply F2; tauto).
  split; [assert (x <> y) by (intros ->; tauto); lia|].
  split; [assert (y <> z) by (intros ->; tauto); lia|]. split.
  - intros v Hv. assert (Hv' : In v L) by (apply C'; tauto).
    apply C in Hv'. destruct Hv' as (m & b & Hv'). exists m, b. tauto.
  - intros m b Hm Hb H3 H4. destruct HG as (_ & Hms & _). specialize (Hms m Hm).
    assert (1 <= b) by (rewrite pow3 in H4; destruct (Z_lt_ge_dec b 1); [|lia]; nia).
    assert (I : In (m * b ^ 3) L) by (apply C; exists m, b; tauto).
    apply C' in I. destruct I as [I|[I|[I|I]]]; [tauto|tauto|tauto|].
    right. specialize (F3 _ I). assert (z <> m * b ^ 3) by (intros Ez; rewrite <- Ez in I; tauto). lia.
Qed.

(** ** Triclinic *)

Lemma tric_loop_spec fuel kpd t :
  0 <= kpd -> 1 <= t -> kpd + 1 - t <= Z.of_nat fuel - 1 ->
  (forall s, 1 <= s < t -> 100 * s ^ 3 < kpd) ->
  exists m, tric_loop fuel kpd t = Some (kpd / m ^ 3, m) /\ 1 <= m /\ kpd <= 100 * m ^ 3 /\
            forall s, 1 <= s < m -> 100 * s ^ 3 < kpd.
Proof.
  intros Hk. revert t. induction fuel as [|fuel IH]; intros t Ht Hf Hs; [|cbn [tric_loop]].
  - exfalso. destruct (Z.eq_dec t 1) as [->|N]; [cbn in Hf; lia|].
    assert (Hs' : 100 * (t - 1) ^ 3 < kpd) by (apply Hs; lia).
    rewrite pow3 in Hs'. cbn in Hf. assert (kpd + 1 <= t - 1) by lia.
    assert (t - 1 <= (t - 1) * (t - 1)) by nia. nia.
  - destruct (Z.leb_spec kpd (100 * t ^ 3)) as [L|L].
    + exists t. tauto.
    + apply IH; [lia|lia|]. intros s Hs'. destruct (Z.eq_dec s t); [now subst|apply Hs; lia].
Qed.

Lemma tric_volumes kpd :
  1 <= kpd ->
  exists n m, tric_loop (tric_fuel kpd) kpd 1 = Some (n, m) /\
    1 <= m /\ kpd <= 100 * m ^ 3 /\ (forall s, 1 <= s < m -> 100 * s ^ 3 < kpd) /\
    1 <= n <= 100 /\ m ^ 3 * n <= kpd < m ^ 3 * n + m ^ 3.
Proof.
  intros Hk. destruct (tric_loop_spec (tric_fuel kpd) kpd 1) as (m & E & Hm & H1 & H2);
    [lia|lia|unfold tric_fuel; lia|lia|].
  exists (kpd / m ^ 3), m. split; [exact E|]. split; [exact Hm|]. split; [exact H1|].
  split; [exact H2|].
  assert (P : 1 <= m ^ 3) by (rewrite pow3; nia).
  assert (Q : m ^ 3 <= kpd).
  { destruct (Z.eq_dec m 1) as [->|N]; [cbn; lia|].
    specialize (H2 (m - 1)). assert (X : 1 <= m - 1 < m) by lia. specialize (H2 X).
    rewrite !pow3 in *. assert (m <= 2 * (m - 1)) by lia.
    assert (m * m <= 4 * ((m - 1) * (m - 1))) by nia.
    assert (m * m * m <= 8 * ((m - 1) * (m - 1) * (m - 1))) by nia. nia. }
  pose proof (Z.div_mod kpd (m ^ 3)) as DM. pose proof (Z.mod_pos_bound kpd (m ^ 3)) as MB.
  assert (1 <= kpd / m ^ 3) by (apply Z.div_le_lower_bound; lia).
  assert (kpd / m ^ 3 <= 100) by (apply Z.div_le_upper_bound; lia).
  lia.
Qed.

(** ** The loop over the volumes *)

Definition usable (enum : Z -> list mat3) (n : Z) : bool := 1 <? Z.of_nat (length (enum n)).

Lemma collect_exact enum ns count sp :
  count <> 5 -> collect enum true ns count sp = sp ++ flat_map enum ns.
Proof.
  intros Hc. revert sp. induction ns as [|n ns IH]; intros sp; cbn [collect flat_map].
  - now rewrite app_nil_r.
  - rewrite andb_false_r. destruct (Z.eqb_spec count 5); [contradiction|].
    now rewrite IH, app_assoc.
Qed.

(** Without [exact], the first five usable volumes are taken. *)
Lemma collect_default enum ns count sp :
  0 <= count < 5 ->
  collect enum false ns count sp =
  sp ++ flat_map enum (firstn (Z.to_nat (5 - count)) (filter (usable enum) ns)).
Proof.
  revert count sp. induction ns as [|n ns IH]; intros count sp Hc; cbn [collect filter].
  - rewrite firstn_nil. cbn. now rewrite app_nil_r.
  - fold (usable enum n). rewrite andb_true_r. destruct (usable enum n) eqn:U.
    + destruct (Z.to_nat (5 - count)) as [|k] eqn:Ek; [lia|]. cbn [firstn flat_map].
      destruct (Z.eqb_spec (count + 1) 5) as [E|E].
      * assert (k = 0)%nat by lia. subst k. cbn [firstn flat_map]. now rewrite app_nil_r.
      * rewrite IH by lia. replace (Z.to_nat (5 - (count + 1))) with k by lia.
        now rewrite app_assoc.
    + destruct (Z.eqb_spec count 5); [lia|]. now apply IH.
Qed.

Lemma two_usable enum m : two_at_4 enum -> 1 <= m -> usable enum (4 * m) = true.
Proof.
  intros HT Hm. destruct (HT m Hm) as (H & K & N & H1 & K1). unfold usable. apply Z.ltb_lt.
  destruct (enum (4 * m)) as [|x [|y l]]; cbn in *; [tauto| |lia].
  destruct H1 as [->|[]], K1 as [->|[]]. now destruct N.
Qed.

Lemma window_usable enum kpd : two_at_4 enum -> 1 <= kpd ->
  exists n, kpd <= n < kpd + 11 /\ usable enum n = true.
Proof.
  intros HT Hk. exists (4 * ((kpd + 3) / 4)).
  assert (E : kpd <= 4 * ((kpd + 3) / 4) <= kpd + 3) by (Z.to_euclidean_division_equations; lia).
  split; [lia|]. apply two_usable; [exact HT|]. Z.to_euclidean_division_equations; lia.
Qed.
