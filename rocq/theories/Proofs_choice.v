(** The grid find_grid takes. *)
From Coq Require Import ZArith QArith Qcanon List Bool Lia Sorted.
From Verif Require Import Mat3 PyNum Spec QMat QNum Spec_kgrids Spec_choice Bases Model_universal Model_find_kgrids
  Model_grid_utils Model_transform Model_sp_hnfs Model_find_grid Proofs_enum_extra Proofs_sp_hnfs2 Proofs_grid_utils
  Proofs_transform Proofs_search Proofs_kpd Proofs_find_grid1 Proofs_find_grid2 Proofs_find_grid3 HnfTheory.
Import ListNotations.
Open Scope Z_scope.

(** ** The search, with the number of sizes tried *)
Lemma general_best2 {G} (try : Z -> option (cand G)) min_kpts s_range kpd fuel a count :
  5 <= s_range -> (forall k c, try k = Some c -> 0 < c_irr c /\ 0 < c_tot c) ->
  general try fuel s_range kpd = Slots a count ->
  exists k c, kpd <= k /\ try k = Some c /\ select min_kpts kpd a count = Use (c_grid c) /\
    (k < kpd + s_range \/ (length (successes try kpd (Z.to_nat (k - kpd))) < 5)%nat) /\
    forall k' d, kpd <= k' < kpd + s_range -> try k' = Some d ->
      not_worse min_kpts kpd (c_irr c) (c_tot c) (c_irr d) (c_tot d).
Proof.
  intros Hs Hpos E.
  destruct (general_outcome try s_range kpd fuel Hs) as [(N & E' & Hlen & HN & HM)|(E' & _)];
    rewrite E in E'; [|discriminate].
  injection E' as -> ->.
  destruct (select_best min_kpts kpd (successes try kpd N)
    (Z.to_nat s_range - length (successes try kpd N))) as (c & Es & Hc & B1 & B2).
  - intros c Hc. apply in_successes in Hc. destruct Hc as (i & _ & Hc). exact (Hpos _ _ Hc).
  - intros E0. rewrite E0 in Hlen. cbn in Hlen. lia.
  - pose proof (proj1 (in_successes try kpd N c) Hc) as (i & Hi0 & Hi).
    exists (kpd + Z.of_nat i), c. split; [lia|]. split; [exact Hi|]. split; [exact Es|]. split.
    + replace (Z.to_nat (kpd + Z.of_nat i - kpd)) with i by lia. destruct (HM i Hi0); [now right|left; lia].
    + intros k' d Hk' Hd. assert (Hin : In d (successes try kpd N)).
      { apply in_successes. exists (Z.to_nat (k' - kpd)). split; [lia|].
        replace (kpd + Z.of_nat (Z.to_nat (k' - kpd))) with k' by lia. exact Hd. }
      split; intros C; auto.
Qed.

(** Sizes with a candidate, counted. *)
Lemma successes_count {G} (try : Z -> option (cand G)) kpd N (L : list Z) : NoDup L ->
  (forall m, In m L -> kpd <= m < kpd + Z.of_nat N /\ exists c, try m = Some c) ->
  (length L <= length (successes try kpd N))%nat.
Proof.
  revert L. induction N as [|N IH]; intros L ND HL.
  - destruct L as [|m L]; [cbn; lia|]. destruct (HL m (or_introl eq_refl)). lia.
  - rewrite successes_S, app_length.
    destruct (in_dec Z.eq_dec (kpd + Z.of_nat N) L) as [I|I].
    + destruct (HL _ I) as (_ & c & ->). cbn [Spec_kgrids.opt_list length].
      apply in_split in I. destruct I as (l1 & l2 & ->).
      pose proof (NoDup_remove_1 _ _ _ ND) as ND1. pose proof (NoDup_remove_2 _ _ _ ND) as ND2.
      specialize (IH (l1 ++ l2) ND1). rewrite !app_length in *. cbn [length].
      enough (length l1 + length l2 <= length (successes try kpd N))%nat by lia.
      apply IH. intros m Hm. destruct (HL m) as (R & C).
      { rewrite in_app_iff in *. cbn. tauto. }
      assert (m <> kpd + Z.of_nat N) by (intros ->; now apply ND2). split; [lia|exact C].
    + enough (length L <= length (successes try kpd N))%nat by lia. apply IH; [exact ND|].
      intros m Hm. destruct (HL m Hm) as (R & C). assert (m <> kpd + Z.of_nat N) by congruence. split; [lia|exact C].
Qed.

Section FG.
  Context {Off : Type}.
  Context (grid_of : mat3 -> qmat) (mink : qmat -> qmat) (rmin : qmat -> Qc)
          (packed : qmat -> bool) (irr1 irr2 : qmat -> Off -> option Z) (offsets : list Off).
  Local Notation R := (fun H => mink (grid_of H)).
  Local Notation Cg := (cand_grid grid_of mink rmin packed).
  Local Notation Best := (f_best grid_of mink rmin packed qeqb 0%Qc irr1 irr2 offsets).
  Local Notation First := (first_layer R rmin packed).
  Local Notation Second := (second_layer R rmin packed).
  Local Notation Choice := (choice_of R rmin packed irr1 irr2 offsets).
  Local Notation Usable := (usable R rmin packed irr1 offsets).

  Hypothesis Hirr : positive irr1.

  Lemma acc_cand (P : mat3 -> Prop) hnfs : (forall H, In H hnfs <-> P H) -> forall x,
    In x (Spec_kgrids.packed (map Cg hnfs)) <-> exists H, accepted R packed P H /\ x = Cg H.
  Proof.
    intros HP x. unfold Spec_kgrids.packed. rewrite filter_In, in_map_iff. split.
    - intros ((H & <- & HH) & Hp). exists H. split; [|reflexivity]. split; [now apply HP|exact Hp].
    - intros (H & (HH & Hp) & ->). split; [|exact Hp]. exists H. split; [reflexivity|now apply HP].
  Qed.
  Lemma cand_inj H K : Cg H = Cg K -> H = K.
  Proof. unfold cand_grid. intros E. exact (f_equal (fun g => snd (g_item g)) E). Qed.

  Lemma best_choice (P : mat3 -> Prop) hnfs : (forall H, In H hnfs <-> P H) ->
    (forall H, P H -> (0 < rmin (mink (grid_of H)))%Qc) ->
    match Best hnfs with
    | Some ((g, H), o, n) => g = mink (grid_of H) /\ exists s, o = Some s /\ Choice P H s n
    | None => ~ Usable P
    end.
  Proof.
    intros HP Hr. unfold f_best.
    destruct (compare_all_spec (map Cg hnfs)) as (st & -> & T1 & T2).
    { intros g Hg. apply in_map_iff in Hg. destruct Hg as (K & <- & HK). now apply Hr, HP. }
    assert (L1 : forall x, In x (tier1 st) <-> exists H, First P H /\ x = Cg H).
    { intros x. rewrite T1. rewrite (acc_cand P hnfs HP). split.
      - intros ((H & HA & ->) & HM). exists H. split; [|reflexivity]. split; [exact HA|].
        intros K HK. apply (HM (Cg K)). apply (acc_cand P hnfs HP). eauto.
      - intros (H & (HA & HM) & ->). split; [eauto|]. intros h Hh. apply (acc_cand P hnfs HP) in Hh.
        destruct Hh as (K & HK & ->). now apply HM. }
    assert (L1' : forall H, In (Cg H) (tier1 st) <-> First P H).
    { intros H. rewrite L1. split; [|eauto]. intros (K & HK & E). apply cand_inj in E. now subst. }
    assert (L2 : forall x, In x (tier2 st) <-> exists H, Second P H /\ x = Cg H).
    { intros x. rewrite T2. rewrite (acc_cand P hnfs HP). split.
      - intros ((H & HA & ->) & HN & HM). exists H. split; [|reflexivity]. split; [exact HA|].
        split; [now rewrite <- L1'|].
        intros K HK HNK. apply (HM (Cg K)); [|now rewrite L1']. apply (acc_cand P hnfs HP). eauto.
      - intros (H & (HA & HN & HM) & ->). split; [eauto|]. split; [now rewrite L1'|].
        intros h Hh HNh. apply (acc_cand P hnfs HP) in Hh.
        destruct Hh as (K & HK & ->). rewrite L1' in HNh. now apply HM. }
    assert (I1 : forall it, In it (map g_item (tier1 st)) <-> exists H, First P H /\ it = (mink (grid_of H), H)).
    { intros it. rewrite in_map_iff. split.
      - intros (x & <- & Hx). apply L1 in Hx. destruct Hx as (H & HF & ->). exists H. split; [exact HF|reflexivity].
      - intros (H & HF & ->). exists (Cg H). split; [reflexivity|]. now apply L1'. }
    assert (I2 : forall it, In it (map g_item (tier2 st)) <-> exists H, Second P H /\ it = (mink (grid_of H), H)).
    { intros it. rewrite in_map_iff. split.
      - intros (x & <- & Hx). apply L2 in Hx. destruct Hx as (H & HF & ->). exists H. split; [exact HF|reflexivity].
      - intros (H & HF & ->). exists (Cg H). split; [reflexivity|]. apply L2. eauto. }
    assert (ES : match tier1 st, tier2 st with
                 | [], [] => None
                 | _, _ => f_select irr1 irr2 offsets (map g_item (tier1 st)) (map g_item (tier2 st))
                 end = f_select irr1 irr2 offsets (map g_item (tier1 st)) (map g_item (tier2 st))).
    { destruct (tier1 st), (tier2 st); reflexivity. }
    rewrite ES. clear ES. unfold f_select.
    set (g1 := map g_item (tier1 st)) in *. set (g2 := map g_item (tier2 st)) in *. clearbody g1 g2.
    pose proof (selection_sound (fun (it : item) o => irr1 (fst it) o) (fun it o => irr2 (fst it) o) g1 g2 offsets) as S.
    cbv beta in S. unfold item in *. specialize (S ltac:(intros g o k; apply Hirr)).
    destruct (grid_selection _ _ g1 g2 offsets) as [[[[g H] [s|]] n]|]; [|destruct S|].
    - destruct S as (Ho & Hn & Hg & HM).
      assert (HM' : forall K t i, First P K -> In t offsets -> irr1 (mink (grid_of K)) t = Some i -> n <= i).
      { intros K t i HK Ht Ei. apply (HM (mink (grid_of K), K) t i); [apply I1; eauto|exact Ht|exact Ei]. }
      destruct Hg as [(Hg & E)|(Hg & E)].
      + apply I1 in Hg. destruct Hg as (K & HK & EK). injection EK as -> ->. split; [reflexivity|].
        exists s. split; [reflexivity|]. split; [exact Hn|]. split; [exact Ho|]. split; [left; split; assumption|exact HM'].
      + apply I2 in Hg. destruct Hg as (K & HK & EK). injection EK as -> ->. split; [reflexivity|].
        exists s. split; [reflexivity|]. split; [exact Hn|]. split; [exact Ho|]. split; [right; split; assumption|exact HM'].
    - intros (H & s & j & HF & Hs & Ej). specialize (S (mink (grid_of H), H) s).
      cbn [fst] in S. rewrite S in Ej; [discriminate|apply I1; eauto|exact Hs].
  Qed.

  Lemma choice_P (P : mat3 -> Prop) H s j : Choice P H s j -> P H.
  Proof. intros (_ & _ & [(((HP & _) & _) & _)|(((HP & _) & _) & _)] & _); exact HP. Qed.

  Lemma cand_choice (P : mat3 -> Prop) least tot hnfs : (forall H, In H hnfs <-> P H) ->
    (forall H, P H -> (0 < rmin (mink (grid_of H)))%Qc) -> (forall H, P H -> any_pos H = true) ->
    match f_cand grid_of mink rmin packed qeqb 0%Qc irr1 irr2 offsets least tot hnfs with
    | Some c => least <= Z.of_nat (length hnfs) /\ c_tot c = tot /\
        exists H s, c_grid c = (mink (grid_of H), Some s) /\ Choice P H s (c_irr c)
    | None => ~ (least <= Z.of_nat (length hnfs) /\ Usable P)
    end.
  Proof.
    intros HP Hr Ha. unfold f_cand. pose proof (best_choice P hnfs HP Hr) as B.
    destruct (Best hnfs) as [[[[g H] o] n]|]; [|tauto].
    destruct B as (-> & s & -> & HC). rewrite (Ha H (choice_P P H s n HC)), andb_true_r.
    destruct (Z.leb_spec least (Z.of_nat (length hnfs))).
    - split; [assumption|]. split; [reflexivity|]. exists H, s. split; [reflexivity|exact HC].
    - intros (L & _). lia.
  Qed.

  Hypothesis Hrmin : forall H, mdet H <> 0 -> (0 < rmin (mink (grid_of H)))%Qc.
  Context (k : Z).
  Hypothesis Hk : 1 <= k <= 44.

  Lemma two_length n (hnfs : list mat3) : NoDup hnfs -> (forall H, In H hnfs <-> symmetric_hnf k n H) ->
    2 <= Z.of_nat (length hnfs) <-> two_symmetric k n.
  Proof.
    intros ND HI. split.
    - destruct hnfs as [|H [|K l]]; cbn [length]; try lia. intros _. exists H, K.
      split; [intros ->; inversion ND as [|? ? N _]; apply N; now left|].
      split; apply HI; cbn; tauto.
    - intros (H & K & N & HH & HK). apply HI in HH. apply HI in HK.
      destruct hnfs as [|x [|y l]]; cbn [length]; try lia; [destruct HH|].
      destruct HH as [<-|[]], HK as [<-|[]]. now destruct N.
  Qed.

  (** *** Lattices neither cubic nor triclinic *)
  Lemma general_choice_at enum n : f_enumerator k = Some enum -> 1 <= n ->
    match general_try grid_of mink rmin packed qeqb 0%Qc irr1 irr2 offsets enum n with
    | Some c => two_symmetric k n /\ c_tot c = n /\
        exists H s, c_grid c = (mink (grid_of H), Some s) /\ Choice (symmetric_hnf k n) H s (c_irr c)
    | None => ~ (two_symmetric k n /\ Usable (symmetric_hnf k n))
    end.
  Proof.
    intros Ee Hn. destruct (ef_basis _ _ (f_enumerator_facts k enum Hk Ee)) as (B & _ & HE & _ & ND).
    assert (HI : forall H, In H (enum n) <-> symmetric_hnf k n H).
    { intros H. rewrite (HE n H). unfold symmetric_hnf. tauto. }
    unfold general_try.
    pose proof (cand_choice (symmetric_hnf k n) 2 n (enum n) HI) as C.
    assert (T : 2 <= Z.of_nat (length (enum n)) <-> two_symmetric k n) by (apply two_length; [exact (proj1 (ND n Hn))|exact HI]).
    destruct (f_cand _ _ _ _ _ _ _ _ _ _ _ _) as [c|]; rewrite T in C; apply C.
    - intros H (HH & _). apply Hrmin. rewrite (proj1 (is_hnf_det n H HH)). lia.
    - intros H (HH & _). now apply (any_pos_hnf n).
    - intros H (HH & _). apply Hrmin. rewrite (proj1 (is_hnf_det n H HH)). lia.
    - intros H (HH & _). now apply (any_pos_hnf n).
  Qed.

  Lemma choice_general fuel s_range kpd root min_kpts g o : ~ In k [1; 3; 5; 31; 44] ->
    1 <= kpd -> 5 <= s_range ->
    find_grid grid_of mink rmin packed qeqb 0%Qc irr1 irr2 offsets fuel k s_range kpd root min_kpts = Found g o ->
    exists n H s j, kpd <= n /\ two_symmetric k n /\ g = mink (grid_of H) /\ o = Some s /\
      Choice (symmetric_hnf k n) H s j /\
      (forall m K t i, kpd <= m < kpd + s_range -> two_symmetric k m ->
         First (symmetric_hnf k m) K -> In t offsets -> irr1 (mink (grid_of K)) t = Some i ->
         not_worse min_kpts kpd j n i m) /\
      (n < kpd + s_range \/
       forall L, NoDup L ->
         (forall m, In m L -> kpd <= m < n /\ two_symmetric k m /\ Usable (symmetric_hnf k m)) ->
         (length L < 5)%nat).
  Proof.
    intros NK Hkpd Hs. unfold find_grid.
    destruct (lat_kind k Hk) as [(_ & Hc)|[(_ & _ & Ht)|(-> & -> & enum & Ee)]].
    { exfalso. apply NK. cbn in Hc |- *. tauto. }
    { exfalso. apply NK. destruct Ht as [->| ->]; cbn; tauto. }
    rewrite Ee. unfold fg_finish. set (try := general_try grid_of mink rmin packed qeqb 0%Qc irr1 irr2 offsets enum).
    pose proof (fun n Hn => general_choice_at enum n Ee Hn) as A. fold try in A.
    destruct (general try fuel s_range kpd) as [a count| |] eqn:E; try discriminate.
    assert (Hpos : forall j c, try j = Some c -> 0 < c_irr c /\ 0 < c_tot c).
    { intros j c Ec. unfold try, general_try in Ec. destruct (cand_sound _ _ _ _ _ _ _ _ _ Hirr _ _ _ _ Ec) as (H & s & HH & _ & _ & Hi & ->).
      split; [exact Hi|]. destruct (ef_basis _ _ (f_enumerator_facts k enum Hk Ee)) as (B & _ & HE & _).
      apply HE in HH. lia. }
    destruct (general_best2 try min_kpts s_range kpd fuel a count Hs Hpos E) as (n & c & Hn & Tn & -> & HU & HB).
    pose proof (A n ltac:(lia)) as An. rewrite Tn in An. destruct An as (H2 & Et & H & s & Ec & HC).
    rewrite Ec. intros X. injection X as <- <-. exists n, H, s, (c_irr c).
    split; [exact Hn|]. split; [exact H2|]. split; [reflexivity|]. split; [reflexivity|]. split; [exact HC|]. split.
    - intros m K t i Hm H2m HK Ht Ei. pose proof (A m ltac:(lia)) as Am.
      destruct (try m) as [d|] eqn:Td.
      + destruct Am as (_ & Etd & K' & t' & _ & (_ & _ & _ & HM)). specialize (HM K t i HK Ht Ei).
        destruct (HB m d Hm Td) as (B1 & B2). rewrite Et, Etd in B2. split.
        * intros C. specialize (B1 C). lia.
        * intros C. specialize (B2 C). clear - B2 HM Hn Hkpd. nia.
      + exfalso. apply Am. split; [exact H2m|]. exists K, t, i. auto.
    - destruct HU as [HU|HU]; [now left|]. right. intros L ND HL.
      eapply Nat.le_lt_trans; [|exact HU]. apply successes_count; [exact ND|].
      intros m Hm. destruct (HL m Hm) as (Rm & Um). split; [lia|].
      pose proof (A m ltac:(lia)) as Am. destruct (try m) as [d|]; [eauto|]. now destruct Am.
  Qed.

  (** *** Triclinic lattices *)
  Lemma choice_tric fuel s_range kpd root min_kpts g o : k = 31 \/ k = 44 -> 1 <= kpd ->
    find_grid grid_of mink rmin packed qeqb 0%Qc irr1 irr2 offsets fuel k s_range kpd root min_kpts = Found g o ->
    exists mult n H s j,
      (1 <= mult /\ kpd / mult ^ 3 <= 100 /\ forall t, 1 <= t < mult -> 100 < kpd / t ^ 3) /\
      kpd / mult ^ 3 <= n /\ (forall m, kpd / mult ^ 3 <= m < n -> ~ Usable (multiple_hnf mult m)) /\
      g = mink (grid_of H) /\ o = Some s /\ Choice (multiple_hnf mult n) H s j.
  Proof.
    intros Ht Hkpd. unfold find_grid.
    assert (E1 : z_in k [3; 5; 1] = false) by (destruct Ht as [->| ->]; reflexivity).
    assert (E2 : z_in k [44; 31] = true) by (destruct Ht as [->| ->]; reflexivity).
    rewrite E1, E2. destruct (get_kpd_tric fuel kpd) as [[a_kpd mult]|] eqn:EK; [|discriminate].
    assert (HM : (1 <= mult /\ kpd / mult ^ 3 <= 100 /\ forall t, 1 <= t < mult -> 100 < kpd / t ^ 3) /\
                 a_kpd = kpd / mult ^ 3).
    { unfold get_kpd_tric in EK.
      assert (Gen : forall fuel t, 1 <= t -> (forall u, 1 <= u < t -> 100 < kpd / u ^ 3) ->
                kpd_tric_loop fuel kpd t = Some (a_kpd, mult) ->
                (1 <= mult /\ kpd / mult ^ 3 <= 100 /\ forall t, 1 <= t < mult -> 100 < kpd / t ^ 3) /\
                a_kpd = kpd / mult ^ 3).
      { clear - Hkpd. induction fuel as [|fuel IH]; intros t Ht Hu; cbn [kpd_tric_loop]; [discriminate|].
        assert (Q : Z.quot kpd (t ^ 3) = kpd / t ^ 3).
        { apply Z.quot_div_nonneg; [lia|]. apply Z.pow_pos_nonneg; lia. }
        rewrite Q. destruct (Z.leb_spec (kpd / t ^ 3) 100).
        - intros E. injection E as <- <-. auto.
        - apply IH; [lia|]. intros u Hu'. destruct (Z.eq_dec u t) as [->|]; [assumption|apply Hu; lia]. }
      apply (Gen fuel 1); [lia| |exact EK]. intros u Hu. lia. }
    destruct HM as (HM & ->). pose proof HM as (Hm & _).
    set (try := tric_try grid_of mink rmin packed qeqb 0%Qc irr1 irr2 offsets mult).
    assert (P3 : 0 < mult ^ 3) by (apply Z.pow_pos_nonneg; lia).
    assert (A : forall n, match try n with
      | Some c => 0 < n /\ c_tot c = n * mult /\
          exists H s, c_grid c = (mink (grid_of H), Some s) /\ Choice (multiple_hnf mult n) H s (c_irr c)
      | None => ~ Usable (multiple_hnf mult n)
      end).
    { intros n. unfold try, tric_try. rewrite f_tric_always.
      assert (HI : forall H, In H (triclinic_hnfs mult n) <-> multiple_hnf mult n H).
      { intros H. rewrite triclinic_exact by exact Hm. reflexivity. }
      pose proof (cand_choice (multiple_hnf mult n) 1 (n * mult) (triclinic_hnfs mult n) HI) as C.
      assert (D : forall H, multiple_hnf mult n H -> 0 < n /\ mdet H <> 0 /\ any_pos H = true).
      { intros H (K & HK & ->). pose proof (proj1 (is_hnf_det n K HK)) as DK.
        assert (Pn : 0 < n).
        { destruct HK as (a & b & c1 & d & e & f & _ & Ha & Hc1 & Hf & En & _). rewrite <- En. nia. }
        split; [exact Pn|]. split; [rewrite mdet_scale, DK; nia|]. apply (any_pos_scale qeqb 0%Qc k Hk); [exact Hm|].
        now apply (any_pos_hnf n). }
      specialize (C (fun H HH => Hrmin H (proj1 (proj2 (D H HH)))) (fun H HH => proj2 (proj2 (D H HH)))).
      destruct (f_cand _ _ _ _ _ _ _ _ _ _ _ _) as [c|].
      - destruct C as (_ & Et & H & s & Ec & HC). split; [apply (D H), (choice_P _ _ _ _ HC)|]. split; [exact Et|]. eauto.
      - intros HU. apply C. split; [|exact HU]. destruct HU as (H & s & j & ((HH & _) & _) & _). apply HI in HH.
        destruct (triclinic_hnfs mult n); [destruct HH|cbn [length]; lia]. }
    assert (S : forall fuel a0 b count, tric_search try fuel a0 = Slots b count ->
       exists n c, a0 <= n /\ (forall m, a0 <= m < n -> try m = None) /\ try n = Some c /\ b = [Some c] /\ count = 1%nat).
    { clear. induction fuel as [|fuel IH]; intros a0 b count; cbn [tric_search]; [discriminate|].
      destruct (try a0) as [c|] eqn:T.
      - intros E. injection E as <- <-. exists a0, c. repeat split; try lia; try assumption.
      - intros E. destruct (IH _ _ _ E) as (n & c & Hn & HN & Tn & -> & ->). exists n, c.
        split; [lia|]. split; [|auto]. intros m Hm. destruct (Z.eq_dec m a0) as [->|]; [exact T|apply HN; lia]. }
    unfold fg_finish. destruct (tric_search try fuel (kpd / mult ^ 3)) as [b count| |] eqn:E; try discriminate.
    destruct (S _ _ _ _ E) as (n & c & Hn & HN & Tn & -> & ->).
    pose proof (A n) as An. rewrite Tn in An. destruct An as (Pn & Et & H & s & Ec & HC).
    assert (Sel : select min_kpts kpd [Some c] 1 = Use (c_grid c)).
    { destruct (select_best min_kpts kpd [c] 0) as (c' & Es & [<-|[]] & _); [|discriminate|exact Es].
      intros d [<-|[]]. split; [apply HC|]. rewrite Et. nia. }
    rewrite Sel, Ec. intros X. injection X as <- <-. exists mult, n, H, s, (c_irr c).
    split; [exact HM|]. split; [exact Hn|]. split; [|auto].
    intros m Hm'. specialize (A m). rewrite (HN m Hm') in A. exact A.
  Qed.

  (** *** Cubic lattices *)
  Lemma cubic_choice_at n : In k [1; 3; 5] ->
    match cubic_try grid_of irr1 irr2 offsets k n with
    | Some c => 1 <= n /\ c_tot c = n /\ 0 < c_irr c /\
        exists H s, symmetric_hnf k n H /\ c_grid c = (grid_of H, Some s) /\ In s offsets /\
          irr1 (grid_of H) s = Some (c_irr c) /\
          forall K t i, symmetric_hnf k n K -> In t offsets -> irr1 (grid_of K) t = Some i -> c_irr c <= i
    | None => forall K t, 1 <= n -> symmetric_hnf k n K -> In t offsets -> irr1 (grid_of K) t = None
    end.
  Proof.
    intros Hc. unfold cubic_try. cbv zeta.
    destruct (f_cubic_correct k Hc) as (B & _ & HE & _). specialize (HE n). cbv beta in HE.
    pose proof (cubic_matrix k n Hc) as CM. cbv zeta in CM.
    assert (U : any_pos (cubic_one (f_cubic_loop k (f_diagonals n))) = true -> forall K, 1 <= n ->
              symmetric_hnf k n K -> K = cubic_one (f_cubic_loop k (f_diagonals n))).
    { intros A K Hn HK. assert (IK : In K (cubic_all (f_cubic_loop k (f_diagonals n)))) by (apply HE; split; assumption).
      unfold cubic_all, cubic_one in *. destruct (negb _); cbn [In] in IK; intuition congruence. }
    set (H := cubic_one _) in *. clearbody H.
    unfold f_select.
    pose proof (selection_sound (fun (it : item) o => irr1 (fst it) o) (fun it o => irr2 (fst it) o) [(grid_of H, H)] [] offsets) as S.
    cbv beta in S. unfold item in *. specialize (S ltac:(intros g o j; apply Hirr)).
    destruct (grid_selection _ _ [(grid_of H, H)] [] offsets) as [[[[g K] [s|]] j]|]; [|destruct S|].
    - destruct S as (Hs & Hj & [([E|[]] & Ej)|([] & _)] & HM). injection E as <- <-.
      destruct (any_pos H) eqn:A.
      + destruct CM as [(X & _)|(_ & Hn & HH & HP)]; [discriminate|].
        split; [exact Hn|]. split; [reflexivity|]. split; [exact Hj|]. exists H, s. cbn [c_irr c_grid].
        split; [split; assumption|]. split; [reflexivity|]. split; [exact Hs|]. split; [exact Ej|].
        intros K t i HK Ht Ei. rewrite (U eq_refl K Hn HK) in Ei.
        apply (HM (grid_of H, H) t i); [now left|exact Ht|exact Ei].
      + destruct CM as [(_ & N)|(X & _)]; [|discriminate]. intros K t Hn HK. exfalso. apply (N K). split; [exact Hn|exact HK].
    - intros K t Hn HK Ht. destruct CM as [(_ & N)|(A & _ & HH & HP)].
      + exfalso. apply (N K). split; [exact Hn|exact HK].
      + rewrite (U A K Hn HK). apply (S (grid_of H, H) t); [now left|exact Ht].
  Qed.

  Lemma first_five kpd k1 k2 k3 k4 k5 r : smallest_sizes k kpd 10 (k1 :: k2 :: k3 :: k4 :: k5 :: r) ->
    smallest_sizes k kpd 5 [k1; k2; k3; k4; k5].
  Proof.
    intros (_ & SS & HI & HM). 
    assert (ST : forall a l1 l2, StronglySorted Z.lt (l1 ++ l2) -> In a l1 -> StronglySorted Z.lt l1 /\ forall b, In b l2 -> a < b).
    { intros a. induction l1 as [|x l1 IH]; intros l2 S Ia; [destruct Ia|].
      cbn [app] in S. inversion S as [|? ? S' F]; subst. rewrite Forall_forall in F. split.
      - destruct l1 as [|y l1']; [repeat constructor|].
        constructor; [|apply Forall_forall; intros z Hz; apply F, in_or_app; now left].
        clear - S'. revert S'. generalize (y :: l1'). intros l. revert l2. induction l as [|z l IHl]; intros l2 S; [constructor|].
        cbn [app] in S. inversion S as [|? ? S1 F]; subst. constructor; [now apply (IHl l2)|].
        rewrite Forall_forall in *. intros w Hw. apply F, in_or_app. now left.
      - intros b Hb. destruct Ia as [->|Ia]; [apply F, in_or_app; now right|]. now apply (IH l2 S' Ia). }
    change (k1 :: k2 :: k3 :: k4 :: k5 :: r) with ([k1; k2; k3; k4; k5] ++ r) in *.
    split; [reflexivity|]. split; [exact (proj1 (ST k1 _ _ SS (or_introl eq_refl)))|]. split.
    - intros x Hx. apply HI, in_or_app. now left.
    - intros m b Hm Hb Hg. destruct (HM m b Hm Hb Hg) as [I|I].
      + apply in_app_or in I. destruct I as [I|I]; [now left|]. right. intros y Hy. exact (proj2 (ST y _ _ SS Hy) _ I).
      + right. intros y Hy. apply I, in_or_app. now left.
  Qed.

  Lemma choice_cubic fuel s_range kpd root min_kpts g o : In k [1; 3; 5] ->
    1 <= kpd <= 830583 -> root_approx kpd root ->
    (forall H, mdet H <> 0 -> exists s j, In s offsets /\ irr1 (grid_of H) s = Some j) ->
    find_grid grid_of mink rmin packed qeqb 0%Qc irr1 irr2 offsets fuel k s_range kpd root min_kpts = Found g o ->
    exists L n H s j, smallest_sizes k kpd 5 L /\ In n L /\ symmetric_hnf k n H /\
      g = grid_of H /\ o = Some s /\ In s offsets /\ irr1 g s = Some j /\
      forall m K t i, In m L -> symmetric_hnf k m K -> In t offsets -> irr1 (grid_of K) t = Some i ->
        not_worse min_kpts kpd j n i m.
  Proof.
    intros Hc Hkpd Hroot Hans. unfold find_grid.
    assert (E1 : z_in k [3; 5; 1] = true) by (destruct Hc as [<-|[<-|[<-|[]]]]; reflexivity).
    rewrite E1. set (try := cubic_try grid_of irr1 irr2 offsets k).
    destruct (kpd_cubic_ten k kpd root Hkpd Hroot) as (L & EL & HL & HS & HI & HM). rewrite EL.
    assert (A : forall n, 1 <= n -> _) by (exact (fun n _ => cubic_choice_at n Hc)). fold try in A.
    assert (T : forall n, In n L -> exists c, try n = Some c).
    { intros n Hn. destruct (HI n Hn) as (Hn0 & Hmb).
      apply (proj2 (f_cubic_lists k n Hc)) in Hmb.
      destruct (f_cubic_correct k Hc) as (B & _ & HE & _). specialize (HE n). cbv beta in HE.
      destruct (cubic_all (f_cubic_loop k (f_diagonals n))) as [|K l]; [now destruct Hmb|].
      destruct (proj1 (HE K) (or_introl eq_refl)) as (Hn1 & HK & HP).
      specialize (A n Hn1). destruct (try n) as [c|]; [eauto|].
      destruct (Hans K) as (t & j & Ht & Ej); [rewrite (proj1 (is_hnf_det n K HK)); lia|].
      rewrite (A K t Hn1 (conj HK HP) Ht) in Ej. discriminate. }
    destruct L as [|k1 [|k2 [|k3 [|k4 [|k5 r]]]]]; try (cbn in HL; discriminate HL).
    assert (S5 : smallest_sizes k kpd 5 [k1; k2; k3; k4; k5]) by (apply (first_five _ _ _ _ _ _ r); split; auto).
    destruct (T k1 ltac:(cbn; tauto)) as (x1 & T1). destruct (T k2 ltac:(cbn; tauto)) as (x2 & T2).
    destruct (T k3 ltac:(cbn; tauto)) as (x3 & T3). destruct (T k4 ltac:(cbn; tauto)) as (x4 & T4).
    destruct (T k5 ltac:(cbn; tauto)) as (x5 & T5).
    rewrite (cubic_five try k1 k2 k3 k4 k5 r x1 x2 x3 x4 x5 T1 T2 T3 T4 T5). unfold fg_finish.
    assert (D : forall n, In n [k1; k2; k3; k4; k5] -> exists c, In c [x1; x2; x3; x4; x5] /\ try n = Some c).
    { intros n Hn. cbn [In] in Hn. decompose [or] Hn; subst; try contradiction; eexists; (split; [|eassumption]); cbn; tauto. }
    assert (D' : forall c, In c [x1; x2; x3; x4; x5] -> exists n, In n [k1; k2; k3; k4; k5] /\ try n = Some c).
    { intros c Hn. cbn [In] in Hn. decompose [or] Hn; subst; try contradiction; eexists; (split; [|eassumption]); cbn; tauto. }
    assert (P : forall n, In n [k1; k2; k3; k4; k5] -> 1 <= n).
    { intros n Hn. destruct S5 as (_ & _ & X & _). destruct (X n Hn). lia. }
    destruct (select_best min_kpts kpd [x1; x2; x3; x4; x5] 0) as (c & Es & Ic & B1 & B2); [|discriminate|].
    { intros d Hd. destruct (D' d Hd) as (n & Hn & Tn). specialize (A n (P n Hn)). rewrite Tn in A.
      destruct A as (X1 & X2 & X3 & _). lia. }
    cbn [repeat length] in Es. rewrite app_nil_r in Es. rewrite Es.
    destruct (D' c Ic) as (n & Hn & Tn). pose proof (A n (P n Hn)) as An. rewrite Tn in An.
    destruct An as (_ & Et & Pj & H & s & HH & Ec & Hs & Ej & _). rewrite Ec. intros X. injection X as <- <-.
    exists [k1; k2; k3; k4; k5], n, H, s, (c_irr c).
    do 7 (split; [assumption || reflexivity|]).
    intros m K t i Hm HK Ht Ei. destruct (D m Hm) as (d & Id & Td). pose proof (A m (P m Hm)) as Am. rewrite Td in Am.
    destruct Am as (Pm & Etd & _ & _ & _ & _ & _ & _ & _ & HMd). specialize (HMd K t i HK Ht Ei). split.
    - intros C. specialize (B1 C d Id). lia.
    - intros C. specialize (B2 C d Id). rewrite Et, Etd in B2. specialize (P n Hn). clear - B2 HMd P. nia.
  Qed.
End FG.

(** ** The single k-point *)
Lemma two_not_one k : ~ two_symmetric k 1.
Proof.
  intros (H & K & N & (HH & _) & (HK & _)). apply N.
  assert (One : forall M, is_hnf 1 M -> M = mid).
  { clear. intros M (a & b & c & d & e & f & -> & Ha & Hc & Hf & E & Hb & Hd & He).
    assert (a = 1 /\ c = 1 /\ f = 1) as (-> & -> & ->).
    { assert (a * (c * f) = 1) as X by (rewrite <- E; ring).
      destruct (Z.eq_mul_1 _ _ X) as [Y|Y]; [|lia]. rewrite Y, Z.mul_1_l in X.
      destruct (Z.eq_mul_1 _ _ X) as [Y'|Y']; [|lia]. rewrite Y' in X. lia. }
    unfold HNF, mid. f_equal; lia. }
  rewrite (One H HH), (One K HK). reflexivity.
Qed.

Lemma kgrid_supercell n U M Y : (qdet U <> 0)%Qc -> mdet M = n -> (0 < n)%Z -> unimodular Y ->
  kgrid n U (qmul (reciprocal (qmul U (qof M))) (qof Y)).
Proof.
  intros HU HM Hn HY.
  assert (DM : (qdet (qof M) <> 0)%Qc) by (rewrite qof_det; apply zq_neq0; lia).
  exists (mmul (minv1 Y) (mtr M)). split.
  - rewrite reciprocal_mul by assumption. rewrite qof_mul, qof_tr.
    rewrite <- !qmul_assoc, (qmul_assoc (qof Y)), <- (qof_mul Y (minv1 Y)), minv1_r, qof_id, qmul_id_l by exact HY.
    unfold reciprocal at 3. rewrite qinv_l by now rewrite qdet_tr. now rewrite qmul_id_r.
  - rewrite mdet_mul, mdet_tr, HM. pose proof (minv1_det Y HY) as D.
    assert (mdet (minv1 Y) = 1 \/ mdet (minv1 Y) = -1)%Z by (destruct (Z.eq_mul_1 _ _ D); tauto). nia.
Qed.
Lemma kgrid_unique n m U g : (qdet U <> 0)%Qc -> kgrid n U g -> kgrid m U g -> n = m.
Proof.
  intros HU (M & EM & <-) (N & EN & <-).
  assert (HG : (qdet g <> 0)%Qc).
  { intros Z0. pose proof (f_equal qdet EM) as D. rewrite qdet_mul, Z0, Qcmult_0_l in D.
    exact (reciprocal_det U HU D). }
  assert (E : qof M = qof N).
  { assert (X : qmul g (qof M) = qmul g (qof N)) by congruence.
    apply (f_equal (qmul (qinv g))) in X. rewrite !qmul_assoc, qinv_l, !qmul_id_l in X by exact HG. exact X. }
  apply (f_equal qdet) in E. rewrite !qof_det in E. apply zq_inj in E. now rewrite E.
Qed.

Section Statement.
  Context {Off : Type}.
  Context (undefined : mat3 -> qmat) (mink : qmat -> qmat) (rmin : qmat -> Qc)
          (packed : qmat -> bool) (irr1 irr2 : qmat -> Off -> option Z) (offsets : list Off).
  Context (U O : qmat) (Cu Co : mat3) (k : Z).
  Local Notation grid_of := (f_grid undefined (qmul O (qof Co)) (qmul U (qof Cu)) Co Cu O).

  Lemma never_one fuel s_range kpd root min_kpts g o :
    positive irr1 -> (forall H, mdet H <> 0 -> (0 < rmin (mink (grid_of H)))%Qc) -> 1 <= k <= 44 ->
    (qdet U <> 0)%Qc -> (qdet O <> 0)%Qc -> unimodular Cu -> unimodular Co ->
    (forall B, (qdet B <> 0)%Qc -> exists Y, unimodular Y /\ mink B = qmul B (qof Y)) ->
    ~ In k [1; 3; 5; 31; 44] -> 1 <= kpd -> 5 <= s_range ->
    find_grid grid_of mink rmin packed qeqb 0%Qc irr1 irr2 offsets fuel k s_range kpd root min_kpts = Found g o ->
    ~ kgrid 1 U g.
  Proof.
    intros Hp Hr Hk HU HO HCu HCo Hm NK Hkpd Hs E.
    destruct (choice_general _ _ _ _ _ _ _ Hp Hr k Hk _ _ _ _ _ _ _ NK Hkpd Hs E)
      as (n & H & s & j & Hn & H2 & -> & _ & HC & _).
    apply choice_P in HC. destruct HC as (HH & _). pose proof (proj1 (is_hnf_det n H HH)) as D.
    assert (Nz : mdet H <> 0) by lia.
    intros K1.
    assert (Kn : kgrid n U (mink (grid_of H))).
    { rewrite (f_grid_exact undefined U O Cu Co H) by assumption.
      destruct (Hm (reciprocal (qmul U (qof (carried Cu Co H))))) as (Y & HY & ->).
      { apply reciprocal_det. rewrite qdet_mul, qof_det, carried_det by assumption.
        apply Qc_mul_neq0; [exact HU|now apply zq_neq0]. }
      apply kgrid_supercell; [exact HU|now rewrite carried_det|lia|exact HY]. }
    rewrite (kgrid_unique n 1 U _ HU Kn K1) in H2. exact (two_not_one k H2).
  Qed.
End Statement.
