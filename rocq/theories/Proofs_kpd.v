(** Densities tried by find_grid: [get_kpd_cubic], [get_kpd_tric]. *)
From Coq Require Import ZArith List Lia Bool Sorted Permutation Arith.
From Verif Require Import Mat3 PyNum PyNumFacts Model_universal Model_find_kgrids Proofs_volumes.
From Verif Require Import Spec_kgrids.
Import ListNotations.
Open Scope Z_scope.

(** ** Sorted lists *)
Lemma sorted_unique l1 : forall l2, StronglySorted Z.le l1 -> StronglySorted Z.le l2 ->
  Permutation l1 l2 -> l1 = l2.
Proof.
  induction l1 as [|x l1 IH]; intros l2 S1 S2 P.
  - apply Permutation_nil in P. now subst.
  - destruct l2 as [|y l2]; [symmetry in P; apply Permutation_nil in P; discriminate|].
    apply StronglySorted_inv in S1, S2. destruct S1 as (S1 & F1), S2 as (S2 & F2).
    rewrite Forall_forall in F1, F2.
    assert (x = y).
    { assert (Hx : In x (y :: l2)) by (apply (Permutation_in _ P); now left).
      assert (Hy : In y (x :: l1)) by (apply (Permutation_in _ (Permutation_sym P)); now left).
      destruct Hx as [->|Hx]; [reflexivity|]. destruct Hy as [->|Hy]; [reflexivity|].
      specialize (F1 y Hy). specialize (F2 x Hx). lia. }
    subst y. f_equal. apply IH; auto. now apply Permutation_cons_inv in P.
Qed.

Lemma sorted_app A B : StronglySorted Z.le A -> StronglySorted Z.le B ->
  (forall x y, In x A -> In y B -> x <= y) -> StronglySorted Z.le (A ++ B).
Proof.
  induction 1 as [|x A HS IH HF]; cbn; intros SB H; [exact SB|].
  constructor; [apply IH; auto|]. rewrite Forall_forall in *. intros z Hz.
  apply in_app_or in Hz. destruct Hz; auto.
Qed.

Lemma sorted_app_inv A B : StronglySorted Z.le (A ++ B) ->
  StronglySorted Z.le A /\ StronglySorted Z.le B /\ (forall x y, In x A -> In y B -> x <= y).
Proof.
  induction A as [|x A IH]; cbn; intros S; [repeat split; [constructor|exact S|tauto]|].
  apply StronglySorted_inv in S. destruct S as (S & F). destruct (IH S) as (SA & SB & H).
  rewrite Forall_forall in F. repeat split.
  - constructor; [exact SA|]. rewrite Forall_forall. intros z Hz. apply F, in_or_app; auto.
  - exact SB.
  - intros a b [<-|Ha] Hb; [apply F, in_or_app; auto|auto].
Qed.

Lemma sorted_split t L : StronglySorted Z.le L ->
  exists A B, L = A ++ B /\ (forall x, In x A -> x <= t) /\ (forall x, In x B -> t < x).
Proof.
  induction 1 as [|x L HS IH HF].
  - exists [], []. cbn. tauto.
  - rewrite Forall_forall in HF. destruct (Z_le_gt_dec x t) as [H|H].
    + destruct IH as (A & B & -> & HA & HB). exists (x :: A), B.
      split; [reflexivity|]. split; [|exact HB]. intros y [<-|Hy]; auto.
    + exists [], (x :: L). split; [reflexivity|]. split; [intros y []|].
      intros y [<-|Hy]; [lia|]. specialize (HF y Hy). lia.
Qed.

Lemma insert_split t A B : StronglySorted Z.le (A ++ B) -> (forall x, In x A -> x <= t) ->
  (forall x, In x B -> t < x) -> z_insert t (A ++ B) = A ++ t :: B.
Proof.
  intros S HA HB. apply sorted_unique.
  - now apply z_insert_sorted.
  - apply sorted_app_inv in S. destruct S as (SA & SB & H). apply sorted_app; [exact SA| |].
    + constructor; [exact SB|]. rewrite Forall_forall. intros x Hx. specialize (HB x Hx). lia.
    + intros x y Hx [<-|Hy]; auto.
  - rewrite z_insert_perm. apply Permutation_middle.
Qed.

Lemma firstn_insert n t : forall S, firstn n (z_insert t (firstn n S)) = firstn n (z_insert t S).
Proof.
  induction n as [|n IH]; intros S; [reflexivity|]. destruct S as [|x S]; [reflexivity|].
  cbn [firstn z_insert]. destruct (t <=? x).
  - cbn [firstn]. f_equal. change (x :: firstn n S) with (firstn (Datatypes.S n) (x :: S)).
    rewrite firstn_firstn. f_equal. lia.
  - cbn [firstn]. f_equal. apply IH.
Qed.

(** ** The array operations *)
Lemma set_at_app {X} (A : list X) y x Z : set_at (length A) x (A ++ y :: Z) = A ++ x :: Z.
Proof. induction A as [|a A IH]; cbn; [reflexivity|now rewrite IH]. Qed.

Lemma last_default (x y : Z) : forall B z, last (z :: B) x = last (z :: B) y.
Proof. induction B as [|b B IH]; intros z; [reflexivity|]. exact (IH b). Qed.

Lemma bump_spec : forall B A Z t,
  bump (length B) (length A) (A ++ B ++ Z) t = (A ++ removelast (t :: B) ++ Z, last (t :: B) t).
Proof.
  induction B as [|x B IH]; intros A Z t; [reflexivity|].
  cbn [length bump]. cbn [app]. rewrite set_at_app, app_nth2, Nat.sub_diag by lia. cbn [nth].
  replace (S (length A)) with (length (A ++ [t])) by (rewrite app_length; cbn; lia).
  replace (A ++ t :: B ++ Z) with ((A ++ [t]) ++ B ++ Z) by (rewrite <- app_assoc; reflexivity).
  rewrite IH. rewrite <- app_assoc. cbn [app]. f_equal.
  change (last (t :: x :: B) t) with (last (x :: B) t). apply last_default.
Qed.

Lemma minloc_none mask a : forall i, (forall x, In x a -> mask x = false) -> minloc_from mask i a = None.
Proof.
  induction a as [|x a IH]; intros i H; cbn; [reflexivity|].
  rewrite IH by (intros y Hy; apply H; now right). rewrite (H x) by now left. reflexivity.
Qed.

Lemma minloc_app mask A Z : forall i, (forall x, In x A -> mask x = false) ->
  minloc_from mask i (A ++ Z) = minloc_from mask (length A + i) Z.
Proof.
  induction A as [|x A IH]; intros i H; [reflexivity|].
  cbn [app minloc_from length]. rewrite IH by (intros y Hy; apply H; now right).
  rewrite (H x) by now left. cbn [andb]. replace (S (length A) + i)%nat with (length A + S i)%nat by lia.
  destruct (minloc_from mask (length A + S i) Z) as [(j, y)|]; reflexivity.
Qed.

Lemma minloc_le mask a : forall i j y, minloc_from mask i a = Some (j, y) -> In y a.
Proof.
  induction a as [|x a IH]; intros i j y; cbn; [discriminate|].
  destruct (minloc_from mask (S i) a) as [(j', y')|] eqn:E.
  - destruct (mask x && (x <=? y')).
    + intros [= _ <-]. now left.
    + intros [= _ <-]. right. eapply IH, E.
  - destruct (mask x); [|discriminate]. intros [= _ <-]. now left.
Qed.

Lemma minloc_head mask x a i : mask x = true -> (forall y, In y a -> mask y = true -> x <= y) ->
  minloc_from mask i (x :: a) = Some (i, x).
Proof.
  intros Hx H. cbn [minloc_from]. destruct (minloc_from mask (S i) a) as [(j, y)|] eqn:E.
  - assert (M : forall a i j y, minloc_from mask i a = Some (j, y) -> mask y = true).
    { clear. induction a as [|x a IH]; intros i j y; cbn; [discriminate|].
      destruct (minloc_from mask (S i) a) as [(j', y')|] eqn:E.
      - destruct (mask x && (x <=? y')) eqn:Ex; intros [= _ <-]; [|eapply IH, E].
        apply andb_true_iff in Ex. tauto.
      - destruct (mask x) eqn:Ex; [|discriminate]. intros [= _ <-]. exact Ex. }
    rewrite Hx. destruct (Z.leb_spec x y) as [L|L]; [reflexivity|].
    specialize (H y (minloc_le _ _ _ _ _ E) (M _ _ _ _ E)). lia.
  - now rewrite Hx.
Qed.

Definition pad (L : list Z) : list Z := L ++ repeat 0 (10 - length L).

Lemma removelast_last (t : Z) B : removelast (t :: B) ++ [last (t :: B) t] = t :: B.
Proof. symmetry. apply app_removelast_last. discriminate. Qed.

Lemma kpd_step_insert kpd nc m L :
  1 <= kpd -> kpd <= m * nc -> StronglySorted Z.le L -> (length L <= 10)%nat ->
  kpd_step kpd nc (pad L, length L) m =
  (pad (firstn 10 (z_insert (m * nc) L)), length (firstn 10 (z_insert (m * nc) L))).
Proof.
  intros Hk Ht HS HL. unfold kpd_step. cbv zeta. destruct (Z.leb_spec kpd (m * nc)); [|lia].
  set (t := m * nc) in *. clearbody t.
  destruct (sorted_split t L HS) as (A & B & E & HA & HB). subst L.
  rewrite insert_split by assumption.
  set (Z := repeat 0 (10 - length (A ++ B))).
  assert (Core : (if existsb (fun x => t <? x) (pad (A ++ B)) then
      match minloc (fun x => t <? x) (pad (A ++ B)) with
      | Some (i, _) => bump (length (A ++ B) - i) i (pad (A ++ B)) t
      | None => (pad (A ++ B), t) end else (pad (A ++ B), t)) =
      (A ++ removelast (t :: B) ++ Z, last (t :: B) t)).
  { unfold pad. fold Z.
    assert (HZ : forall x, In x Z -> t <? x = false).
    { intros x Hx. apply repeat_spec in Hx. subst x. apply Z.ltb_ge. lia. }
    destruct B as [|b B].
    - cbn [removelast last app]. rewrite app_nil_r.
      destruct (existsb (fun x => t <? x) (A ++ Z)) eqn:Ex; [|reflexivity]. exfalso.
      apply existsb_exists in Ex. destruct Ex as (x & Hx & Hlt). apply in_app_or in Hx.
      destruct Hx as [Hx|Hx]; [|rewrite (HZ x Hx) in Hlt; discriminate].
      specialize (HA x Hx). apply Z.ltb_lt in Hlt. lia.
    - replace (existsb (fun x => t <? x) ((A ++ b :: B) ++ Z)) with true.
      2:{ symmetry. apply existsb_exists. exists b. split; [apply in_or_app; left; apply in_or_app; right; now left|].
          apply Z.ltb_lt, HB. now left. }
      unfold minloc. rewrite <- app_assoc. rewrite minloc_app.
      2:{ intros x Hx. apply Z.ltb_ge. auto. }
      cbn [app]. rewrite minloc_head.
      + rewrite Nat.add_0_r. replace (length (A ++ b :: B) - length A)%nat with (length (b :: B))
          by (rewrite app_length; lia).
        exact (bump_spec (b :: B) A Z t).
      + apply Z.ltb_lt, HB. now left.
      + intros y Hy Hm. apply in_app_or in Hy. destruct Hy as [Hy|Hy]; [|rewrite (HZ y Hy) in Hm; discriminate].
        apply sorted_app_inv in HS. destruct HS as (_ & SB & _). apply StronglySorted_inv in SB.
        destruct SB as (_ & F). rewrite Forall_forall in F. auto. }
  rewrite Core. clear Core.
  assert (LE : length (removelast (t :: B)) = length B).
  { pose proof (f_equal (@length _) (removelast_last t B)) as E. rewrite app_length in E. cbn [length] in E. lia. }
  destruct (Nat.ltb_spec (length (A ++ B)) 10) as [Hlt|Hge].
  - rewrite (firstn_all2 (n := 10) (A ++ t :: B)) by (rewrite app_length in *; cbn [length]; lia).
    f_equal; [|rewrite !app_length; cbn [length]; lia].
    unfold Z. destruct (10 - length (A ++ B))%nat as [|k] eqn:Ek; [lia|]. cbn [repeat].
    rewrite app_assoc.
    replace (length (A ++ B)) with (length (A ++ removelast (t :: B))) by (rewrite !app_length; lia).
    rewrite set_at_app. unfold pad. rewrite <- !app_assoc. cbn [app].
    replace (10 - length (A ++ t :: B))%nat with k by (rewrite app_length in *; cbn [length]; lia).
    f_equal. change (t :: B ++ repeat 0 k) with ((t :: B) ++ repeat 0 k).
    transitivity ((removelast (t :: B) ++ [last (t :: B) t]) ++ repeat 0 k).
    { rewrite <- app_assoc. reflexivity. }
    f_equal. apply removelast_last.
  - assert (H10 : length (A ++ B) = 10%nat) by lia.
    unfold Z. rewrite H10. cbn [Nat.sub repeat]. rewrite app_nil_r.
    assert (F : firstn 10 (A ++ t :: B) = A ++ removelast (t :: B)).
    { replace (t :: B) with (removelast (t :: B) ++ [last (t :: B) t]) at 1 by apply removelast_last.
      rewrite app_assoc. replace 10%nat with (length (A ++ removelast (t :: B))) by (rewrite app_length in *; lia).
      rewrite firstn_app, Nat.sub_diag, firstn_all. cbn [firstn]. apply app_nil_r. }
    rewrite F. unfold pad.
    assert (L10 : length (A ++ removelast (t :: B)) = 10%nat) by (rewrite app_length in *; lia).
    rewrite L10. cbn [Nat.sub repeat]. now rewrite app_nil_r.
Qed.

(** ** The whole loop *)
Definition state_of (seen : list Z) : list Z * nat :=
  (pad (firstn 10 (z_sort seen)), length (firstn 10 (z_sort seen))).

Lemma kpd_step_state kpd b m seen : 1 <= kpd ->
  kpd_step kpd (b ^ 3) (state_of seen) m =
  state_of ((if kpd <=? m * b ^ 3 then [m * b ^ 3] else []) ++ seen).
Proof.
  intros Hk. destruct (Z.leb_spec kpd (m * b ^ 3)) as [H|H].
  - unfold state_of at 1. rewrite kpd_step_insert.
    + rewrite firstn_insert. reflexivity.
    + exact Hk.
    + exact H.
    + apply firstn_sorted, z_sort_sorted.
    + rewrite firstn_length. lia.
  - unfold state_of at 1. unfold kpd_step. cbv zeta. destruct (Z.leb_spec kpd (m * b ^ 3)); [lia|]. reflexivity.
Qed.

Lemma state_perm l1 l2 : Permutation l1 l2 -> state_of l1 = state_of l2.
Proof.
  intros P. unfold state_of. replace (z_sort l2) with (z_sort l1); [reflexivity|].
  apply sorted_unique; try apply z_sort_sorted. now rewrite !z_sort_perm.
Qed.

Lemma kpd_block kpd b ms : 1 <= kpd -> forall seen,
  fold_left (kpd_step kpd (b ^ 3)) ms (state_of seen) = state_of (block ms kpd b ++ seen).
Proof.
  intros Hk. induction ms as [|m ms IH]; intros seen; [reflexivity|].
  cbn [fold_left]. rewrite kpd_step_state by exact Hk. rewrite IH.
  apply state_perm. unfold block. cbn [flat_map].
  rewrite <- app_assoc. apply Permutation_app_swap_app.
Qed.

Lemma kpd_blocks kpd ms : 1 <= kpd -> forall bs seen,
  fold_left (fun st b => fold_left (kpd_step kpd (b ^ 3)) ms st) bs (state_of seen)
  = state_of (flat_map (block ms kpd) bs ++ seen).
Proof.
  intros Hk. induction bs as [|b bs IH]; intros seen; [reflexivity|].
  cbn [fold_left]. rewrite kpd_block by exact Hk. rewrite IH. apply state_perm.
  cbn [flat_map]. rewrite <- app_assoc. apply Permutation_app_swap_app.
Qed.

Definition cands (lat_id kpd root : Z) : list Z :=
  let nb := Z.quot root 16 - 1 in flat_map (block (mults_of lat_id) kpd) (py_range nb (nb + 100) 1).

Lemma kpd_cubic_sorted lat_id kpd root : 1 <= kpd ->
  kpd_cubic_state lat_id kpd root = state_of (cands lat_id kpd root).
Proof.
  intros Hk. unfold kpd_cubic_state, cands. cbv zeta. fold (mults_of lat_id).
  change (repeat 0 10, 0%nat) with (state_of []). rewrite kpd_blocks by exact Hk. now rewrite app_nil_r.
Qed.

Lemma good_mults_of lat_id : good_mults (mults_of lat_id).
Proof. unfold mults_of. destruct (lat_id =? 1); [apply good_1416|apply good_124]. Qed.

Lemma in_cands lat_id kpd root x : 1 <= kpd ->
  In x (cands lat_id kpd root) <->
  exists m b, In m (mults_of lat_id) /\ 1 <= b /\
    Z.quot root 16 - 1 <= b < Z.quot root 16 + 99 /\ x = m * b ^ 3 /\ kpd <= x.
Proof.
  intros Hk. destruct (good_mults_of lat_id) as (_ & Hms & _). unfold cands. cbv zeta. rewrite in_flat_map. split.
  - intros (b & Hb & Hx). pose proof (block_base _ _ _ _ Hms Hk Hx) as B.
    apply in_py_range in Hb; [|lia]. apply in_block in Hx. destruct Hx as (m & Hm & E & H).
    exists m, b. split; [exact Hm|]. split; [exact B|]. split; [lia|]. auto.
  - intros (m & b & Hm & B & Hb & E & H). exists b. split.
    { apply in_py_range; [lia|]. split; [lia|apply Z.divide_1_l]. }
    apply in_block. exists m. auto.
Qed.

Lemma nodup_cands lat_id kpd root : 1 <= kpd -> NoDup (cands lat_id kpd root).
Proof.
  intros Hk. destruct (good_mults_of lat_id) as ((HND & HS) & Hms & _).
  unfold cands. cbv zeta. generalize (Z.quot root 16 - 1). intros nb.
  apply NoDup_flat_map_disj.
  - unfold py_range. apply FinFun.Injective_map_NoDup; [|apply seq_NoDup]. intros i j. lia.
  - intros b Hb. unfold block. apply NoDup_flat_map_disj; [exact HND| |].
    + intros m Hm. destruct (kpd <=? m * b ^ 3); repeat constructor; cbn; tauto.
    + intros m m' z Hm Hm' Hz Hz'.
      assert (B : 1 <= b).
      { apply (block_base _ kpd b z Hms Hk). unfold block. apply in_flat_map. eauto. }
      destruct (kpd <=? m * b ^ 3); [|destruct Hz].
      destruct (kpd <=? m' * b ^ 3); [|destruct Hz'].
      destruct Hz as [<-|[]]. destruct Hz' as [Hz'|[]]. symmetry in Hz'.
      now apply (HS m m' b b).
  - intros b b' z Hb Hb' Hz Hz'.
    pose proof (block_base _ kpd b z Hms Hk Hz). pose proof (block_base _ kpd b' z Hms Hk Hz').
    apply in_block in Hz, Hz'. destruct Hz as (m & Hm & Ez & _), Hz' as (m' & Hm' & Ez' & _).
    subst z. now apply (HS m m' b b').
Qed.

(** ** Main statements *)

Lemma sorted_lt L : StronglySorted Z.le L -> NoDup L -> StronglySorted Z.lt L.
Proof.
  induction 1 as [|x L HS IH HF]; intros ND; constructor; apply NoDup_cons_iff in ND.
  - apply IH, ND.
  - rewrite Forall_forall in *. intros y Hy. specialize (HF y Hy).
    assert (x <> y) by (intros ->; tauto). lia.
Qed.

Lemma nodup_firstn {X} n (l : list X) : NoDup l -> NoDup (firstn n l).
Proof.
  intros H. revert n. induction H as [|x l Hx ND IH]; intros [|n]; cbn; constructor; auto.
  intros Hin. apply Hx. rewrite <- (firstn_skipn n l). apply in_or_app. auto.
Qed.

Lemma kpd_cubic_form lat_id kpd root : 1 <= kpd ->
  exists L : list Z, get_kpd_cubic lat_id kpd root = L ++ repeat 0 (10 - length L) /\
    (length L <= 10)%nat /\ StronglySorted Z.lt L /\
    (forall x, In x L -> kpd <= x /\ exists m b, In m (mults_of lat_id) /\ 1 <= b /\ x = m * b ^ 3) /\
    (forall x, In x (cands lat_id kpd root) -> In x L \/ length L = 10%nat /\ forall y, In y L -> y < x) /\
    incl L (cands lat_id kpd root).
Proof.
  intros Hk. unfold get_kpd_cubic. rewrite kpd_cubic_sorted by exact Hk. cbn [fst state_of].
  set (C := cands lat_id kpd root). exists (firstn 10 (z_sort C)).
  assert (I : forall x, In x (z_sort C) <-> In x C).
  { intros x. split; apply Permutation_in; [|symmetry]; apply z_sort_perm. }
  assert (ND : NoDup (z_sort C)).
  { eapply Permutation_NoDup; [symmetry; apply z_sort_perm|]. now apply nodup_cands. }
  assert (J : forall x, In x (firstn 10 (z_sort C)) -> In x (z_sort C)).
  { intros x Hx. rewrite <- (firstn_skipn 10 (z_sort C)). apply in_or_app. auto. }
  pose proof (z_sort_sorted C) as S.
  split; [reflexivity|]. split; [rewrite firstn_length; lia|].
  split; [apply sorted_lt; [now apply firstn_sorted|now apply nodup_firstn]|].
  split; [|split].
  - intros x Hx. apply J, I, in_cands in Hx; [|exact Hk]. destruct Hx as (m & b & H). split; [tauto|].
    exists m, b. tauto.
  - intros x Hx. apply I in Hx. pose proof Hx as Hx'. rewrite <- (firstn_skipn 10 (z_sort C)) in Hx'. apply in_app_or in Hx'.
    destruct Hx' as [Hx'|Hx']; [now left|]. right. split.
    + rewrite firstn_length. assert (10 < length (z_sort C))%nat; [|lia].
      destruct (Nat.lt_ge_cases 10 (length (z_sort C))) as [H|H]; [exact H|].
      rewrite skipn_all2 in Hx' by exact H. destruct Hx'.
    + intros y Hy. pose proof (sorted_split_le _ _ _ _ S Hy Hx') as Hle.
      assert (x <> y); [|lia]. intros <-.
      rewrite <- (firstn_skipn 10 (z_sort C)) in ND. revert Hy Hx' ND.
      generalize (firstn 10 (z_sort C)) (skipn 10 (z_sort C)). clear. intros A B HA HB ND.
      apply in_split in HA. destruct HA as (A1 & A2 & ->). rewrite <- app_assoc in ND.
      apply NoDup_remove_2 in ND. apply ND. apply in_or_app; right. apply in_or_app; now right.
  - intros x Hx. apply I, J, Hx.
Qed.

Lemma mults_range lat_id m : In m (mults_of lat_id) -> 1 <= m <= 16.
Proof. unfold mults_of. destruct (lat_id =? 1); cbn; lia. Qed.

Lemma cube_lt x y : x < y -> x ^ 3 < y ^ 3.
Proof. intros H. pose proof (cube_mono x y ltac:(lia)). assert (x ^ 3 <> y ^ 3); [|lia].
  rewrite !pow3. intros E. assert (F : (y - x) * (x * x + x * y + y * y) = 0) by lia.
  apply Z.mul_eq_0 in F. destruct F as [F|F]; [lia|].
  pose proof (Z.square_nonneg (2 * x + y)). pose proof (Z.square_nonneg y). pose proof (Z.square_nonneg x).
  assert (y * y = 0) by lia. assert (y = 0) by nia. subst. assert (x = 0) by nia. lia. Qed.

Lemma quot16 root k : 0 <= k -> k - 1 <= root <= k -> 16 * Z.quot root 16 <= k /\ k - 16 <= 16 * Z.quot root 16.
Proof.
  intros Hk Hr. destruct (Z_lt_ge_dec root 0) as [N|N].
  - assert (root = -1) by lia. assert (k = 0) by lia. subst. cbn. lia.
  - rewrite Z.quot_div_nonneg by lia. pose proof (Z.div_mod root 16 ltac:(lia)).
    pose proof (Z.mod_pos_bound root 16 ltac:(lia)). lia.
Qed.

Lemma kpd_cubic_ten lat_id kpd root : 1 <= kpd <= 830583 -> root_approx kpd root ->
  exists L : list Z, get_kpd_cubic lat_id kpd root = L /\ length L = 10%nat /\ StronglySorted Z.lt L /\
    (forall x, In x L -> kpd <= x /\ exists m b, In m (mults_of lat_id) /\ 1 <= b /\ x = m * b ^ 3) /\
    (forall m b, In m (mults_of lat_id) -> 1 <= b -> kpd <= m * b ^ 3 ->
       In (m * b ^ 3) L \/ forall y, In y L -> y < m * b ^ 3).
Proof.
  intros Hk (k & Hk0 & Hkk & Hr).
  destruct (kpd_cubic_form lat_id kpd root) as (L & E & HL & HS & HI & HC & Hincl); [lia|].
  pose proof (quot16 root k Hk0 Hr) as (Q1 & Q2).
  assert (K93 : k <= 93).
  { destruct (Z_le_gt_dec k 93) as [H|H]; [exact H|]. pose proof (cube_mono 94 k ltac:(lia)).
    change (94 ^ 3) with 830584 in *. lia. }
  assert (Qtop : k + 10 <= Z.quot root 16 + 98).
  { destruct (Z.eq_dec k 93) as [->|].
    - assert (root = 92 \/ root = 93) as [-> | ->] by lia; cbn; lia.
    - assert (0 <= Z.quot root 16 \/ root < 0) as [|] by (destruct (Z_lt_ge_dec root 0); [now right|left; apply Z.quot_pos; lia]).
      + destruct (Z_le_gt_dec k 88); [lia|].
        assert (5 <= Z.quot root 16); [|lia]. change 5 with (Z.quot 88 16). apply Z.quot_le_mono; lia.
      + assert (root = -1) by lia. subst. cbn. lia. }
  set (cubes := map (fun i => (k + i) ^ 3) [1; 2; 3; 4; 5; 6; 7; 8; 9; 10]).
  assert (Cin : forall i, 1 <= i <= 10 -> In ((k + i) ^ 3) (cands lat_id kpd root)).
  { intros i Hi. apply in_cands; [lia|]. exists 1, (k + i).
    split; [unfold mults_of; destruct (lat_id =? 1); now left|].
    split; [lia|]. split; [lia|]. split; [lia|].
    pose proof (cube_mono (k + 1) (k + i) ltac:(lia)). lia. }
  assert (NDc : NoDup cubes).
  { unfold cubes. apply FinFun.Injective_map_NoDup.
    - intros i j Hij. destruct (Z.lt_total i j) as [H|[H|H]]; [|exact H|];
        [pose proof (cube_lt (k + i) (k + j) ltac:(lia))|pose proof (cube_lt (k + j) (k + i) ltac:(lia))]; lia.
    - repeat constructor; cbn; lia. }
  assert (Cc : forall x, In x cubes -> In x (cands lat_id kpd root) /\ x <= (k + 10) ^ 3).
  { intros x Hx. apply in_map_iff in Hx. destruct Hx as (i & <- & Hi).
    assert (1 <= i <= 10) by (cbn in Hi; lia). split; [apply Cin; lia|apply cube_mono; lia]. }
  assert (NDL : NoDup L).
  { clear -HS. induction HS as [|x L HS IH HF]; constructor; [|exact IH]. intros H.
    rewrite Forall_forall in HF. specialize (HF x H). lia. }
  assert (L10 : length L = 10%nat).
  { destruct (Nat.eq_dec (length L) 10) as [H|H]; [exact H|]. exfalso.
    assert (Inc : incl cubes L).
    { intros x Hx. destruct (HC x (proj1 (Cc x Hx))) as [I|(I & _)]; [exact I|contradiction]. }
    pose proof (NoDup_incl_length NDc Inc) as Len. change (length cubes) with 10%nat in Len. lia. }
  assert (Top : forall x, In x L -> x <= (k + 10) ^ 3).
  { intros x Hx. destruct (Z_le_gt_dec x ((k + 10) ^ 3)) as [H|H]; [exact H|]. exfalso.
    assert (Inc : incl (x :: cubes) L).
    { intros y [<-|Hy]; [exact Hx|]. destruct (Cc y Hy) as (C1 & C2).
      destruct (HC y C1) as [I|(_ & I)]; [exact I|]. specialize (I x Hx). lia. }
    assert (ND1 : NoDup (x :: cubes)).
    { constructor; [|exact NDc]. intros Hy. destruct (Cc x Hy). lia. }
    pose proof (NoDup_incl_length ND1 Inc) as Len. cbn [length] in Len.
    change (length cubes) with 10%nat in Len. lia. }
  exists L. rewrite L10 in E. cbn [Nat.sub repeat] in E. rewrite app_nil_r in E.
  split; [exact E|]. split; [exact L10|]. split; [exact HS|]. split; [exact HI|].
  intros m b Hm Hb Hx. pose proof (mults_range lat_id m Hm) as Mr.
  destruct (Z_lt_ge_dec b (Z.quot root 16 - 1)) as [B|B].
  - exfalso. pose proof (cube_mono (16 * b) (k - 1) ltac:(lia)) as C1.
    pose proof (cube_lt (k - 1) k ltac:(lia)) as C2.
    assert (E3 : (16 * b) ^ 3 = 4096 * b ^ 3) by ring.
    assert (0 < b ^ 3) by (rewrite pow3; nia). nia.
  - destruct (Z_lt_ge_dec b (Z.quot root 16 + 99)) as [B2|B2].
    + destruct (HC (m * b ^ 3)) as [I|(_ & I)]; [|now left|now right].
      apply in_cands; [lia|]. exists m, b. split; [exact Hm|]. split; [exact Hb|]. split; [lia|]. split; [reflexivity|exact Hx].
    + right. intros y Hy. specialize (Top y Hy). pose proof (cube_lt (k + 10) b ltac:(lia)).
      assert (0 < b ^ 3) by (rewrite pow3; nia). nia.
Qed.

(** For large densities the window of bases ends too early. *)
Lemma kpd_cubic_misses lat_id k root : 105 <= k -> k - 1 <= root <= k ->
  ~ In (k ^ 3) (get_kpd_cubic lat_id (k ^ 3) root).
Proof.
  intros Hk Hr Hin.
  assert (P : 1 <= k ^ 3) by (pose proof (cube_mono 1 k ltac:(lia)); change (1 ^ 3) with 1 in *; lia).
  destruct (kpd_cubic_form lat_id (k ^ 3) root P) as (L & E & _ & _ & _ & _ & Hincl).
  rewrite E in Hin. apply in_app_or in Hin. destruct Hin as [Hin|Hin].
  - apply Hincl, in_cands in Hin; [|exact P]. destruct Hin as (m & b & Hm & Hb & Hq & Ex & _).
    destruct (good_mults_of lat_id) as ((_ & HS) & _ & (_ & _ & H1 & _)).
    assert (Ek : 1 * k ^ 3 = m * b ^ 3) by lia.
    apply (HS 1 m k b H1 Hm) in Ek; [|lia|lia].
    pose proof (quot16 root k ltac:(lia) Hr). lia.
  - apply repeat_spec in Hin. lia.
Qed.

Lemma kpd_cubic_nothing lat_id kpd k root : lat_id <> 1 -> 180 <= k -> k ^ 3 <= kpd -> k - 1 <= root <= k ->
  get_kpd_cubic lat_id kpd root = repeat 0 10.
Proof.
  intros Hid Hk Hkpd Hr.
  assert (P : 1 <= kpd) by (pose proof (cube_mono 1 k ltac:(lia)); change (1 ^ 3) with 1 in *; lia).
  destruct (kpd_cubic_form lat_id kpd root P) as (L & E & _ & _ & _ & _ & Hincl).
  destruct L as [|x L]; [exact E|]. exfalso.
  specialize (Hincl x (or_introl eq_refl)). apply in_cands in Hincl; [|exact P].
  destruct Hincl as (m & b & Hm & Hb & Hq & Ex & Hx).
  assert (M4 : m <= 4).
  { unfold mults_of in Hm. destruct (Z.eqb_spec lat_id 1); [contradiction|]. cbn in Hm. lia. }
  pose proof (quot16 root k ltac:(lia) Hr) as (Q1 & Q2).
  pose proof (cube_mono (100 * b) (61 * k) ltac:(lia)) as C.
  assert (E1 : (100 * b) ^ 3 = 1000000 * b ^ 3) by ring.
  assert (E2 : (61 * k) ^ 3 = 226981 * k ^ 3) by ring.
  assert (0 < b ^ 3) by (rewrite !pow3; nia).
  assert (m * b ^ 3 <= 4 * b ^ 3) by nia. lia.
Qed.

(** ** Triclinic *)
Lemma kpd_tric_loop_spec kpd M : 0 <= kpd -> 1 <= M -> kpd < 101 * M ^ 3 ->
  (forall t, 1 <= t < M -> 101 * t ^ 3 <= kpd) ->
  forall fuel t, 1 <= t <= M -> M - t < Z.of_nat fuel ->
  kpd_tric_loop fuel kpd t = Some (kpd / M ^ 3, M).
Proof.
  intros Hk HM HkM Hbelow. induction fuel as [|fuel IH]; intros t Ht Hf; [lia|].
  cbn [kpd_tric_loop]. cbv zeta.
  assert (P : forall t, 1 <= t -> 0 < t ^ 3) by (intros u Hu; rewrite pow3; nia).
  rewrite Z.quot_div_nonneg by (try exact Hk; apply P; lia).
  destruct (Z.eq_dec t M) as [->|N].
  - destruct (Z.leb_spec (kpd / M ^ 3) 100) as [H|H]; [reflexivity|].
    pose proof (P M HM). pose proof (Z.mul_div_le kpd (M ^ 3) ltac:(lia)). nia.
  - specialize (Hbelow t ltac:(lia)). pose proof (P t ltac:(lia)).
    destruct (Z.leb_spec (kpd / t ^ 3) 100) as [H'|H'].
    + pose proof (Z.mul_succ_div_gt kpd (t ^ 3) ltac:(lia)). nia.
    + apply IH; lia.
Qed.

(** The least number with a property that holds somewhere. *)
Lemma least (P : Z -> bool) : forall n a, (exists b, a <= b <= a + Z.of_nat n /\ P b = true) ->
  exists b, a <= b /\ P b = true /\ forall c, a <= c < b -> P c = false.
Proof.
  induction n as [|n IH]; intros a (b & Hb & HP).
  - exists a. assert (b = a) by lia. subst. split; [lia|]. split; [exact HP|]. intros c Hc. lia.
  - destruct (P a) eqn:E.
    + exists a. split; [lia|]. split; [exact E|]. intros c Hc. lia.
    + destruct (IH (a + 1)) as (d & Hd & HPd & Hl).
      { exists b. assert (b <> a) by congruence. split; [lia|exact HP]. }
      exists d. split; [lia|]. split; [exact HPd|]. intros c Hc.
      destruct (Z.eq_dec c a) as [->|]; [exact E|]. apply Hl. lia.
Qed.

Lemma kpd_tric_spec kpd : 1 <= kpd ->
  exists fuel0 mult, forall fuel, (fuel0 <= fuel)%nat ->
    get_kpd_tric fuel kpd = Some (kpd / mult ^ 3, mult) /\
    1 <= mult /\ 1 <= kpd / mult ^ 3 <= 100 /\
    forall t, 1 <= t < mult -> 100 < kpd / t ^ 3.
Proof.
  intros Hk.
  assert (P : forall t, 1 <= t -> 0 < t ^ 3) by (intros u Hu; rewrite pow3; nia).
  destruct (least (fun t => kpd <? 101 * t ^ 3) (Z.to_nat kpd) 1) as (M & HM & HPM & Hl).
  { exists kpd. split; [lia|]. apply Z.ltb_lt. rewrite pow3. nia. }
  apply Z.ltb_lt in HPM.
  assert (B : forall t, 1 <= t < M -> 101 * t ^ 3 <= kpd).
  { intros t Ht. specialize (Hl t Ht). apply Z.ltb_ge in Hl. exact Hl. }
  exists (Z.to_nat M), M. intros fuel Hf. split.
  - apply (kpd_tric_loop_spec kpd M); try assumption; lia.
  - split; [exact HM|]. pose proof (P M HM) as PM. split.
    + split.
      * apply Z.div_le_lower_bound; [lia|]. destruct (Z.eq_dec M 1) as [->|].
        { change (1 ^ 3) with 1. lia. }
        specialize (B (M - 1) ltac:(lia)). rewrite pow3 in *. nia.
      * apply Z.lt_succ_r. apply Z.div_lt_upper_bound; lia.
    + intros t Ht. specialize (B t Ht). pose proof (P t ltac:(lia)).
      apply Z.lt_le_trans with 101; [lia|]. apply Z.div_le_lower_bound; lia.
Qed.

Lemma kpd_cubic_sizes lat_id kpd root : 1 <= kpd ->
  exists L : list Z, get_kpd_cubic lat_id kpd root = L ++ repeat 0 (10 - length L) /\
    (length L <= 10)%nat /\ StronglySorted Z.lt L /\
    forall x, In x L -> kpd <= x /\
      exists m b, In m (mults_of lat_id) /\ 1 <= b /\ x = m * b ^ 3.
Proof.
  intros H. destruct (kpd_cubic_form lat_id kpd root H) as (L & H1 & H2 & H3 & H4 & _).
  exists L. auto.
Qed.
