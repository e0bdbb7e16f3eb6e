(** find_grid: what it returns, and when it ends. *)
From Coq Require Import ZArith QArith Qcanon List Bool Lia.
From Verif Require Import Mat3 PyNum Spec QMat QNum Spec_kgrids Bases Model_universal Model_find_kgrids Model_grid_utils
  Model_transform Model_fcc Model_sc Model_bcc Model_sp_hnfs Model_find_grid Proofs_enum_extra Proofs_two Proofs_sp_hnfs2 Proofs_sp_hnfs3
  Proofs_transform Proofs_grid_utils Proofs_search Proofs_kpd HnfTheory Proofs_find_supercells Proofs_find_grid1.
Import ListNotations.
Open Scope Z_scope.

(** ** Nothing comes from nowhere *)
Lemma in_set_at {A} (x y : A) : forall a i, In y (set_at i x a) -> y = x \/ In y a.
Proof.
  induction a as [|z a IH]; intros [|i]; cbn [set_at In]; [tauto|tauto| |].
  - intros [<-|H]; tauto.
  - intros [<-|H]; [tauto|]. destruct (IH i H); tauto.
Qed.

Section From.
  Context {G : Type} (try : Z -> option (cand G)).
  Definition from (P : Z -> Prop) (a : list (option (cand G))) : Prop :=
    forall c, In (Some c) a -> exists k, P k /\ try k = Some c.
  Lemma from_set P a i k c : from P a -> P k -> try k = Some c -> from P (set_at i (Some c) a).
  Proof.
    intros HF HP HT d Hd. apply in_set_at in Hd. destruct Hd as [E|Hd]; [|now apply HF].
    injection E as ->. eauto.
  Qed.
  Lemma from_empty P n : from P (repeat None n).
  Proof. intros c H. apply repeat_spec in H. discriminate. Qed.

  Lemma general_from s_range kpd : forall fuel k a count b m, kpd <= k -> from (Z.le kpd) a ->
    general_search try fuel s_range kpd k a count = Slots b m -> from (Z.le kpd) b.
  Proof.
    induction fuel as [|fuel IH]; intros k a count b m Hk HF; cbn [general_search]; [discriminate|].
    destruct (_ || _); [|intros E; injection E as <- _; exact HF].
    destruct (try k) as [c|] eqn:T.
    - destruct (Nat.ltb _ _); [|discriminate]. intros E. refine (IH _ _ _ _ _ _ _ E); [lia|].
      now apply (from_set _ _ _ k).
    - intros E. refine (IH _ _ _ _ _ _ _ E); [lia|exact HF].
  Qed.
  Lemma tric_from : forall fuel k b m, tric_search try fuel k = Slots b m ->
    exists k' c, k <= k' /\ try k' = Some c /\ b = [Some c] /\ m = 1%nat.
  Proof.
    induction fuel as [|fuel IH]; intros k b m; cbn [tric_search]; [discriminate|].
    destruct (try k) as [c|] eqn:T.
    - intros E. injection E as <- <-. exists k, c. repeat split; [lia|exact T].
    - intros E. destruct (IH _ _ _ E) as (k' & c & H & R). exists k', c. split; [lia|exact R].
  Qed.
  Lemma cubic_from L : forall l i a count b m, incl l L -> from (fun k => In k L) a ->
    cubic_search try l i a count = Slots b m -> from (fun k => In k L) b.
  Proof.
    induction l as [|k l IH]; intros i a count b m HI HF; cbn [cubic_search].
    - intros E. injection E as <- _. exact HF.
    - destruct (Nat.ltb count 5); [|intros E; injection E as <- _; exact HF].
      destruct (try k) as [c|] eqn:T.
      + destruct (Nat.ltb _ _); [|discriminate]. apply IH; [intros x Hx; apply HI; now right|].
        apply (from_set _ _ _ k); [exact HF|apply HI; now left|exact T].
      + apply IH; [intros x Hx; apply HI; now right|exact HF].
  Qed.

  Lemma min_ratio_from : forall (a : list (option (cand G))) c, min_ratio a = Some (Some c) -> In (Some c) a.
  Proof.
    induction a as [|[x|] a IH]; intros c; cbn [min_ratio]; try discriminate.
    destruct (min_ratio a) as [[d|]|]; try discriminate.
    - destruct (_ <=? _); intros E; injection E as <-; [now left|right; now apply IH].
    - intros E. injection E as <-. now left.
  Qed.
  Lemma select_from min_kpts kpd (a : list (option (cand G))) count g :
    select min_kpts kpd a count = Use g -> exists c, In (Some c) a /\ g = c_grid c.
  Proof.
    unfold select. destruct (Nat.ltb 0 count); [|discriminate].
    destruct (_ && _).
    - destruct (min_ratio (firstn count a)) as [[c|]|] eqn:E; try discriminate.
      intros U. injection U as <-. exists c. split; [|reflexivity].
      apply min_ratio_from in E. rewrite <- (firstn_skipn count a). apply in_or_app. now left.
    - destruct (minloc _ _) as [(i, y)|]; [|discriminate].
      destruct (nth i a None) as [c|] eqn:E; [|discriminate].
      intros U. injection U as <-. exists c. split; [|reflexivity].
      destruct (nth_in_or_default i a None) as [H|H]; rewrite E in H; [exact H|discriminate].
  Qed.
End From.

Lemma compare_from {A} equal eps (st st' : tiers A) g : compare_grids equal eps st g = Some st' ->
  forall x, In x (tier1 st') \/ In x (tier2 st') -> x = g \/ In x (tier1 st) \/ In x (tier2 st).
Proof.
  unfold compare_grids. cbv zeta. intros E x.
  repeat match type of E with (if ?c then _ else _) = _ => destruct c end;
    try discriminate E; injection E as <-; cbn [tier1 tier2]; rewrite ?in_app_iff; cbn [In];
    intuition congruence.
Qed.
Lemma compare_all_from {A} equal eps : forall gs (st st' : tiers A), compare_all equal eps st gs = Some st' ->
  forall x, In x (tier1 st') \/ In x (tier2 st') -> In x gs \/ In x (tier1 st) \/ In x (tier2 st).
Proof.
  induction gs as [|g gs IH]; intros st st' E x Hx; cbn [compare_all] in E.
  - injection E as <-. now right.
  - destruct (compare_grids equal eps st g) as [st1|] eqn:E1; [|discriminate].
    destruct (IH _ _ E x Hx) as [H|H]; [left; now right|].
    destruct (compare_from _ _ _ _ _ E1 x H) as [->|H']; [left; now left|now right].
Qed.

Lemma successes_at {G} (try : Z -> option (cand G)) kpd : 1 <= kpd ->
  (forall n, kpd <= n < kpd + 20 -> (4 | n) -> exists c, try n = Some c) ->
  (5 <= length (successes try kpd 20))%nat.
Proof.
  intros Hkp HT.
  assert (Q : exists q, q * 4 < kpd + 4 /\ kpd <= q * 4).
  { exists ((kpd + 3) / 4). Z.to_euclidean_division_equations. lia. }
  destruct Q as (q & Q1 & Q2).
  assert (Gen : forall N l, (forall i, In i l -> (N <= i)%nat) -> NoDup l ->
            (forall i, In i l -> exists c, try (kpd + Z.of_nat i) = Some c) ->
            forall M, (forall i, In i l -> (i < N + M)%nat) ->
            (length l <= length (flat_map (fun i => Spec_kgrids.opt_list (try (kpd + Z.of_nat i)%Z)) (seq N M)))%nat).
  { clear. intros N l HN ND HT M. revert N l HN ND HT.
    induction M as [|M IH]; intros N l HN ND HT HB.
    - destruct l as [|i l]; [cbn; lia|]. specialize (HN i (or_introl eq_refl)). specialize (HB i (or_introl eq_refl)). lia.
    - cbn [seq flat_map]. rewrite app_length.
      destruct (in_dec Nat.eq_dec N l) as [Hin|Hin].
      + destruct (HT N Hin) as (c & ->). cbn [Spec_kgrids.opt_list length].
        apply in_split in Hin. destruct Hin as (l1 & l2 & ->).
        pose proof (NoDup_remove_1 _ _ _ ND) as ND1. pose proof (NoDup_remove_2 _ _ _ ND) as ND2.
        specialize (IH (S N) (l1 ++ l2)).
        rewrite !app_length in *. cbn [length].
        assert (forall i, In i (l1 ++ l2) -> In i (l1 ++ N :: l2)) by (intros i; rewrite !in_app_iff; cbn; tauto).
        enough (length l1 + length l2 <= length (flat_map (fun i => Spec_kgrids.opt_list (try (kpd + Z.of_nat i)%Z)) (seq (S N) M)))%nat by lia.
        apply IH; auto.
        * intros i Hi. specialize (HN i (H i Hi)). assert (i <> N) by (intros ->; now apply ND2). lia.
        * intros i Hi. specialize (HB i (H i Hi)). lia.
      + specialize (IH (S N) l).
        enough (length l <= length (flat_map (fun i => Spec_kgrids.opt_list (try (kpd + Z.of_nat i)%Z)) (seq (S N) M)))%nat by lia.
        apply IH; auto.
        * intros i Hi. specialize (HN i Hi). assert (i <> N) by congruence. lia.
        * intros i Hi. specialize (HB i Hi). lia. }
  set (r := Z.to_nat (q * 4 - kpd)).
  pose proof (Gen 0%nat [r; (r + 4)%nat; (r + 8)%nat; (r + 12)%nat; (r + 16)%nat]) as X.
  apply X.
  - intros; lia.
  - repeat constructor; cbn; lia.
  - intros i Hi. apply HT; cbn in Hi.
    + unfold r in Hi. lia.
    + exists (q + (Z.of_nat i - Z.of_nat r) / 4). unfold r in *.
      decompose [or] Hi; try contradiction; subst i;
        rewrite ?Nat2Z.inj_add, Z2Nat.id by lia; cbn [Z.of_nat Pos.of_succ_nat Pos.succ]; Z.to_euclidean_division_equations; lia.
  - intros i Hi. cbn in Hi. unfold r in Hi. lia.
Qed.

(** ** find_grid *)
Section FG.
  Context {Off : Type}.
  Context (grid_of : mat3 -> qmat) (mink : qmat -> qmat) (rmin : qmat -> Qc)
          (packed : qmat -> bool) (equal : Qc -> Qc -> bool) (eps : Qc)
          (irr1 irr2 : qmat -> Off -> option Z) (offsets : list Off).
  Local Notation Best := (f_best grid_of mink rmin packed equal eps irr1 irr2 offsets).
  Local Notation Sel := (f_select irr1 irr2 offsets).

  Hypothesis Hirr : positive irr1.

  Lemma sel_sound g1 g2 :
    match Sel g1 g2 with
    | Some (it, o, n) => 0 < n /\ (In it g1 \/ In it g2) /\ exists s, o = Some s /\ In s offsets
    | None => forall it o, In it g1 -> In o offsets -> irr1 (fst it) o = None
    end.
  Proof.
    unfold f_select.
    pose proof (selection_sound (fun (it : item) o => irr1 (fst it) o) (fun it o => irr2 (fst it) o) g1 g2 offsets) as S.
    cbv beta in S. unfold item in *. specialize (S ltac:(intros g o k; apply Hirr)).
    destruct (grid_selection _ _ g1 g2 offsets) as [[[it [s|]] n]|]; [|destruct S|exact S].
    destruct S as (Ho & Hn & Hg & _). split; [exact Hn|]. split; [tauto|]. eauto.
  Qed.

  Lemma best_sound hnfs R H o n : Best hnfs = Some ((R, H), o, n) ->
    0 < n /\ In H hnfs /\ R = mink (grid_of H) /\ exists s, o = Some s /\ In s offsets.
  Proof.
    unfold f_best. destruct (compare_all _ _ _ _) as [st|] eqn:E; [|discriminate].
    assert (F : forall it, In it (map g_item (tier1 st)) \/ In it (map g_item (tier2 st)) ->
              exists K, In K hnfs /\ it = (mink (grid_of K), K)).
    { intros it. rewrite !in_map_iff. intros Hit.
      assert (X : exists x, g_item x = it /\ (In x (tier1 st) \/ In x (tier2 st))).
      { destruct Hit as [(x & E' & Hx)|(x & E' & Hx)]; eauto. }
      destruct X as (x & <- & Hx).
      destruct (compare_all_from _ _ _ _ _ E x Hx) as [Hc|[[]|[]]].
      apply in_map_iff in Hc. destruct Hc as (K & <- & HK). exists K. split; [exact HK|reflexivity]. }
    intros ES.
    assert (ES' : Sel (map g_item (tier1 st)) (map g_item (tier2 st)) = Some ((R, H), o, n)).
    { destruct (tier1 st), (tier2 st); exact ES. }
    pose proof (sel_sound (map g_item (tier1 st)) (map g_item (tier2 st))) as S. rewrite ES' in S.
    destruct S as (Hn & Hit & Ho). destruct (F _ Hit) as (K & HK & EK). injection EK as -> ->. auto.
  Qed.

  Lemma cand_sound least tot hnfs c :
    f_cand grid_of mink rmin packed equal eps irr1 irr2 offsets least tot hnfs = Some c ->
    exists H s, In H hnfs /\ c_grid c = (mink (grid_of H), Some s) /\ In s offsets /\ 0 < c_irr c /\ c_tot c = tot.
  Proof.
    unfold f_cand. destruct (Best hnfs) as [[[[R H] o] n]|] eqn:E; [|discriminate].
    destruct (best_sound _ _ _ _ _ E) as (Hn & HH & -> & s & -> & Hs).
    destruct (_ && _); [|discriminate]. intros X. injection X as <-. exists H, s. repeat split; assumption.
  Qed.
  Lemma cubic_sound k n c : In k [1; 3; 5] ->
    cubic_try grid_of irr1 irr2 offsets k n = Some c ->
    exists H s, 1 <= n /\ is_hnf n H /\ symmetry_preserving (gram_of k) H /\
      c_grid c = (grid_of H, Some s) /\ In s offsets /\ 0 < c_irr c /\ c_tot c = n.
  Proof.
    intros Hk. pose proof (cubic_matrix k n Hk) as CM. unfold cubic_try. cbv zeta in CM |- *.
    set (H := cubic_one _) in *.
    pose proof (sel_sound [(grid_of H, H)] []) as S.
    destruct (Sel [(grid_of H, H)] []) as [[[[R K] o] m]|]; [|discriminate].
    destruct S as (Hm & [[E|[]]|[]] & s & -> & Hs). injection E as <- <-.
    destruct (any_pos H) eqn:A; [|discriminate]. intros E. injection E as <-.
    destruct CM as [(N & _)|(_ & Hn & HH & HP)]; [congruence|].
    exists H, s. repeat split; assumption.
  Qed.

  (** ** What is returned *)
  Section Good.
  Context (U : qmat) (Cu Co : mat3) (k : Z).
  Hypothesis HU : (qdet U <> 0)%Qc.
  Hypothesis HCu : unimodular Cu.
  Hypothesis HCo : unimodular Co.
  Hypothesis Hk : 1 <= k <= 44.
  Hypothesis Hmink : forall B, (qdet B <> 0)%Qc -> exists Y, unimodular Y /\ mink B = qmul B (qof Y).
  Hypothesis Hgrid : forall H, mdet H <> 0 -> grid_of H = reciprocal (qmul U (qof (carried Cu Co H))).
  Hypothesis Hsym :
    (k <> 31 /\ k <> 44 /\ symmetries_within U Cu Co (gram_of k)) \/
    ((k = 31 \/ k = 44) /\ forall X, qisometry (qgram (qmul U (qof Cu))) X -> X = mid \/ X = mopp mid).

  Definition good_grid (n : Z) (g : qmat) : Prop := kgrid n U g /\ keeps_symmetry U g.

  Lemma grid_good n H Y : mdet H = n -> 0 < n -> unimodular Y ->
    (k <> 31 /\ k <> 44 -> symmetry_preserving (gram_of k) H) ->
    good_grid n (qmul (grid_of H) (qof Y)).
  Proof.
    intros HD Hn HY HP. rewrite Hgrid by (rewrite HD; clear - Hn; lia).
    apply grid_of_supercell; try assumption; [now rewrite carried_det|].
    destruct Hsym as [(K1 & K2 & HS)|(T & HS)].
    - apply (carried_symmetry U Cu Co (gram_of k)); auto.
    - apply (carried_symmetry U Cu Co (tric_gram Co)); auto.
      + intros X HX. apply tric_gram_iso; auto.
      + now apply trivial_preserving.
  Qed.
  Lemma grid_good1 n H : mdet H = n -> 0 < n ->
    (k <> 31 /\ k <> 44 -> symmetry_preserving (gram_of k) H) -> good_grid n (grid_of H).
  Proof.
    intros HD Hn HP. pose proof (grid_good n H mid HD Hn ltac:(reflexivity) HP) as X.
    now rewrite qof_id, qmul_id_r in X.
  Qed.
  Lemma grid_det H : mdet H <> 0 -> (qdet (grid_of H) <> 0)%Qc.
  Proof.
    intros HD. rewrite Hgrid by exact HD. apply reciprocal_det. rewrite qdet_mul, qof_det, carried_det by assumption.
    apply Qc_mul_neq0; [exact HU|]. now apply zq_neq0.
  Qed.

  Lemma mdet_scale m H : mdet (mscale m H) = m ^ 3 * mdet H.
  Proof.
    destruct H as [a b c d e f g h i]. unfold mdet, mscale. cbn [m11 m12 m13 m21 m22 m23 m31 m32 m33]. ring.
  Qed.

  (** Number of k-points per cell: at least the requested one; for triclinic lattices the
      multiple of a cube next to it. *)
  Definition size_fits (kpd n : Z) : Prop :=
    if z_in k [44; 31] then
      exists m a, 1 <= m /\ n = m ^ 3 * a /\ kpd / m ^ 3 <= a
    else kpd <= n.

  Lemma find_grid_sound fuel s_range kpd root min_kpts g o : 1 <= kpd ->
    find_grid grid_of mink rmin packed equal eps irr1 irr2 offsets fuel k s_range kpd root min_kpts = Found g o ->
    exists n s, size_fits kpd n /\ good_grid n g /\ o = Some s /\ In s offsets.
  Proof.
    intros Hkpd. unfold find_grid, size_fits.
    destruct (lat_kind k Hk) as [(-> & Hc)|[(-> & -> & Ht)|(-> & -> & enum & Ee)]].
    - (* cubic *)
      assert (NT : z_in k [44; 31] = false) by (destruct Hc as [<-|[<-|[<-|[]]]]; reflexivity).
      rewrite NT. unfold fg_finish.
      destruct (cubic _ _) as [a count| |] eqn:E; try discriminate.
      destruct (select min_kpts kpd a count) as [[g' o']| |] eqn:S; try discriminate.
      intros X. injection X as -> ->.
      destruct (select_from _ _ _ _ _ S) as (c & Hin & EG).
      destruct (cubic_from (cubic_try grid_of irr1 irr2 offsets k) (get_kpd_cubic k kpd root) (get_kpd_cubic k kpd root) _ _ _ _ _ (incl_refl _) (from_empty _ _ _) E c Hin)
        as (n & Hn & T).
      destruct (cubic_sound k n c Hc T) as (H & s & Hn1 & HH & HP & EC & Hs & _).
      rewrite EC in EG. injection EG as -> ->. exists n, s.
      split; [|split; [|split; [reflexivity|exact Hs]]].
      + destruct (kpd_cubic_form k kpd root Hkpd) as (L & EL & _ & _ & HI & _).
        rewrite EL in Hn. apply in_app_or in Hn. destruct Hn as [Hn|Hn]; [now apply HI in Hn|].
        apply repeat_spec in Hn. lia.
      + apply grid_good1; [now apply (is_hnf_det n H)|lia|]. intros _. exact HP.
    - (* triclinic *)
      destruct (get_kpd_tric fuel kpd) as [[a_kpd mult]|] eqn:EK; [|discriminate].
      unfold fg_finish.
      destruct (tric_search _ _ _) as [a count| |] eqn:E; try discriminate.
      destruct (select min_kpts kpd a count) as [[g' o']| |] eqn:S; try discriminate.
      intros X. injection X as -> ->.
      destruct (select_from _ _ _ _ _ S) as (c & Hin & EG).
      destruct (tric_from _ _ _ _ _ E) as (n & c' & Hn & T & -> & ->).
      destruct Hin as [Hin|[]]. injection Hin as ->.
      unfold tric_try in T. rewrite f_tric_always in T.
      destruct (cand_sound _ _ _ _ T) as (H & s & HH & EC & Hs & _).
      rewrite EC in EG. injection EG as -> ->.
      assert (HM : 1 <= mult /\ a_kpd = kpd / mult ^ 3).
      { unfold get_kpd_tric in EK.
        assert (Gen : forall fuel t, 1 <= t -> kpd_tric_loop fuel kpd t = Some (a_kpd, mult) ->
                  1 <= mult /\ a_kpd = kpd / mult ^ 3).
        { clear - Hkpd. induction fuel as [|fuel IH]; intros t Ht; cbn [kpd_tric_loop]; [discriminate|].
          destruct (_ <=? 100); [|apply IH; lia]. intros E. injection E as <- <-. split; [exact Ht|].
          apply Z.quot_div_nonneg; [lia|]. apply Z.pow_pos_nonneg; lia. }
        exact (Gen fuel 1 ltac:(lia) EK). }
      destruct HM as (Hm & ->).
      apply triclinic_exact in HH; [|exact Hm]. destruct HH as (H0 & HH & ->).
      exists (mult ^ 3 * n), s. split; [|split; [|split; [reflexivity|exact Hs]]].
      + exists mult, n. repeat split; [exact Hm|exact Hn].
      + assert (D : mdet (mscale mult H0) = mult ^ 3 * n).
        { rewrite mdet_scale. f_equal. now apply is_hnf_det. }
        assert (P3 : 0 < mult ^ 3) by (apply Z.pow_pos_nonneg; lia).
        assert (Pn : 0 < n).
        { destruct HH as (a & b & c1 & d & e & f & _ & Ha & Hc1 & Hf & En & _). rewrite <- En. nia. }
        destruct (Hmink (grid_of (mscale mult H0))) as (Y & HY & ->); [apply grid_det; nia|].
        apply grid_good; [exact D|nia|exact HY|]. intros (N1 & N2). tauto.
    - (* general *)
      rewrite Ee. unfold fg_finish.
      destruct (general _ _ _ _) as [a count| |] eqn:E; try discriminate.
      destruct (select min_kpts kpd a count) as [[g' o']| |] eqn:S; try discriminate.
      intros X. injection X as -> ->.
      destruct (select_from _ _ _ _ _ S) as (c & Hin & EG).
      destruct (general_from _ _ _ _ _ _ _ _ _ (Z.le_refl kpd) (from_empty _ _ _) E c Hin) as (n & Hn & T).
      unfold general_try in T. destruct (cand_sound _ _ _ _ T) as (H & s & HH & EC & Hs & _).
      rewrite EC in EG. injection EG as -> ->.
      destruct (ef_basis _ _ (f_enumerator_facts k enum Hk Ee)) as (B & _ & HE & _).
      apply HE in HH. destruct HH as (Hn1 & HH & HP).
      pose proof (proj1 (is_hnf_det n H HH)) as D.
      exists n, s. split; [exact Hn|split; [|split; [reflexivity|exact Hs]]].
      destruct (Hmink (grid_of H)) as (Y & HY & ->); [apply grid_det; lia|].
      apply grid_good; [exact D|lia|exact HY|]. intros _. exact HP.
  Qed.

  End Good.

  (** ** When it ends *)
  Context (k : Z).
  Hypothesis Hk : 1 <= k <= 44.
  Lemma any_pos_hnf n H : is_hnf n H -> any_pos H = true.
  Proof.
    intros (a & b & c & d & e & f & -> & Ha & _). unfold any_pos, HNF. cbn [m11 existsb].
    apply orb_true_iff. left. apply Z.ltb_lt. lia.
  Qed.
  Lemma any_pos_scale m H : 1 <= m -> any_pos H = true -> any_pos (mscale m H) = true.
  Proof.
    intros Hm. unfold any_pos. rewrite !existsb_exists. intros (x & Hx & Px). exists (m * x).
    split; [|apply Z.ltb_lt; apply Z.ltb_lt in Px; nia].
    destruct H as [a b c d e f g h i]. unfold mscale. cbn [m11 m12 m13 m21 m22 m23 m31 m32 m33 In] in *.
    intuition (subst; tauto).
  Qed.

  Hypothesis He0 : (0 <= eps)%Qc.
  Hypothesis He1 : (eps < 1)%Qc.
  Hypothesis Heq : forall t r, equal t r = true -> (t <= r + t * eps)%Qc.

  (** The symmetry reduction answers for some offset. *)
  Definition answers (g : qmat) : Prop := exists o m, In o offsets /\ irr1 g o = Some m.

  Lemma best_answers hnfs :
    (forall H, In H hnfs -> (0 < rmin (mink (grid_of H)))%Qc) ->
    (forall H, In H hnfs -> answers (mink (grid_of H))) ->
    (exists H, In H hnfs /\ packed (mink (grid_of H)) = true) ->
    exists x, Best hnfs = Some x.
  Proof.
    intros Hr Ha (H & HH & HP). unfold f_best.
    destruct (compare_all_tolerance equal eps He0 He1 Heq (map (cand_grid grid_of mink rmin packed) hnfs))
      as (st & -> & _ & T1 & T2).
    { intros g Hg. apply in_map_iff in Hg. destruct Hg as (K & <- & HK). now apply Hr. }
    destruct (tier1 st) as [|x l] eqn:E1.
    { exfalso. apply T2; [|reflexivity]. intros Z.
      assert (X : In (cand_grid grid_of mink rmin packed H) (Spec_kgrids.packed (map (cand_grid grid_of mink rmin packed) hnfs))).
      { apply filter_In. split; [now apply in_map|exact HP]. }
      rewrite Z in X. destruct X. }
    pose proof (sel_sound (map g_item (x :: l)) (map g_item (tier2 st))) as S.
    destruct (Sel (map g_item (x :: l)) (map g_item (tier2 st))) as [y|]; [eauto|].
    exfalso. destruct (T1 x (or_introl eq_refl)) as (HX & _). apply filter_In in HX. destruct HX as (HX & _).
    apply in_map_iff in HX. destruct HX as (K & EK & HK).
    destruct (Ha K HK) as (o & m & Ho & Em).
    specialize (S (g_item x) o ltac:(now left) Ho). rewrite <- EK in S. cbn [g_item cand_grid fst] in S. congruence.
  Qed.

  Lemma cand_answers least tot hnfs :
    (forall H, In H hnfs -> (0 < rmin (mink (grid_of H)))%Qc) ->
    (forall H, In H hnfs -> answers (mink (grid_of H))) ->
    (exists H, In H hnfs /\ packed (mink (grid_of H)) = true) ->
    least <= Z.of_nat (length hnfs) -> (forall H, In H hnfs -> any_pos H = true) ->
    exists c, f_cand grid_of mink rmin packed equal eps irr1 irr2 offsets least tot hnfs = Some c.
  Proof.
    intros Hr Ha HP HL HA. destruct (best_answers hnfs Hr Ha HP) as ([[[R H] o] n] & E). unfold f_cand. rewrite E.
    destruct (best_sound _ _ _ _ _ E) as (_ & HH & _). rewrite (HA H HH), andb_true_r.
    destruct (Z.leb_spec least (Z.of_nat (length hnfs))); [eauto|lia].
  Qed.

  (** What is asked of the library and of the packing test. *)
  Hypothesis Hrmin : forall H, mdet H <> 0 -> (0 < rmin (mink (grid_of H)))%Qc.
  Hypothesis Hans : forall H, mdet H <> 0 -> answers (mink (grid_of H)) /\ answers (grid_of H).

  Lemma finish_general kpd min_kpts a (try : Z -> option (cand (qmat * option Off))) fuel s_range count :
    5 <= s_range -> (forall j c, try j = Some c -> 0 < c_irr c /\ 0 < c_tot c) ->
    general try fuel s_range kpd = Slots a count ->
    exists c, select min_kpts kpd a count = Use (c_grid c).
  Proof.
    intros Hs HT E. destruct (general_best try min_kpts s_range kpd fuel a count Hs HT E) as (j & c & _ & _ & S & _).
    eauto.
  Qed.

  (** Lattices neither cubic nor triclinic. *)
  Lemma find_grid_general fuel s_range kpd root min_kpts enum : 1 <= kpd -> 5 <= s_range ->
    f_enumerator k = Some enum ->
    (forall n, kpd <= n < kpd + 20 -> (4 | n) -> exists H, In H (enum n) /\ packed (mink (grid_of H)) = true) ->
    (20 < fuel)%nat -> s_range < Z.of_nat fuel ->
    exists g o, find_grid grid_of mink rmin packed equal eps irr1 irr2 offsets fuel k s_range kpd root min_kpts = Found g o.
  Proof.
    intros Hkpd Hs Ee HP Hf1 Hf2. pose proof (f_enumerator_facts k enum Hk Ee) as F.
    destruct (ef_basis _ _ F) as (B & EB & HE & _).
    unfold find_grid.
    destruct (lat_kind k Hk) as [(_ & Hc)|[(_ & _ & Ht)|(-> & -> & _)]].
    { exfalso. destruct Hc as [<-|[<-|[<-|[]]]]; discriminate Ee. }
    { exfalso. destruct Ht as [->| ->]; discriminate Ee. }
    rewrite Ee. set (try := general_try grid_of mink rmin packed equal eps irr1 irr2 offsets enum).
    assert (DH : forall n H, In H (enum n) -> mdet H <> 0 /\ any_pos H = true).
    { intros n H HH. apply HE in HH. destruct HH as (Hn & HH & _). rewrite (proj1 (is_hnf_det n H HH)).
      split; [lia|]. now apply (any_pos_hnf n). }
    assert (S5 : (5 <= length (successes try kpd 20))%nat).
    { apply successes_at; [exact Hkpd|]. intros n Hn (m & ->). unfold try, general_try.
      apply cand_answers.
      - intros H HH. apply Hrmin. now apply (DH (m * 4)).
      - intros H HH. apply Hans. now apply (DH (m * 4)).
      - apply HP; [exact Hn|now exists m].
      - destruct (ef_two _ _ F m ltac:(lia)) as (H & K & N & H1 & K1). rewrite Z.mul_comm in H1, K1.
        destruct (enum (m * 4)) as [|x [|y l]]; cbn in H1, K1; [tauto| |cbn [length]; lia].
        destruct H1 as [->|[]], K1 as [->|[]]. now destruct N.
      - intros H HH. now apply (DH (m * 4)). }
    destruct (general_ends try s_range kpd 20 fuel Hs S5 Hf1 Hf2) as (a & count & E).
    unfold fg_finish. rewrite E.
    destruct (finish_general kpd min_kpts a try fuel s_range count Hs) as (c & Ec).
    - intros j c Ec. unfold try, general_try in Ec. destruct (cand_sound _ _ _ _ Ec) as (H & s & HH & _ & _ & Hi & ->).
      split; [exact Hi|]. apply HE in HH. lia.
    - exact E.
    - rewrite Ec. destruct (c_grid c) as [g o]. eauto.
  Qed.

  (** Triclinic lattices. *)
  Lemma find_grid_tric fuel0 mult s_range kpd root min_kpts : k = 31 \/ k = 44 -> 1 <= kpd ->
    (forall fuel, (fuel0 <= fuel)%nat -> get_kpd_tric fuel kpd = Some (kpd / mult ^ 3, mult)) ->
    1 <= mult -> 1 <= kpd / mult ^ 3 ->
    (exists H, is_hnf (kpd / mult ^ 3) H /\ packed (mink (grid_of (mscale mult H))) = true) ->
    exists fuel1, forall fuel, (fuel1 <= fuel)%nat -> exists g o,
      find_grid grid_of mink rmin packed equal eps irr1 irr2 offsets fuel k s_range kpd root min_kpts = Found g o.
  Proof.
    intros Ht Hkpd HF Hm Hq (H0 & HH0 & HP0). exists (S fuel0). intros fuel Hfuel.
    unfold find_grid.
    assert (E1 : z_in k [3; 5; 1] = false) by (destruct Ht as [->| ->]; reflexivity).
    assert (E2 : z_in k [44; 31] = true) by (destruct Ht as [->| ->]; reflexivity).
    rewrite E1, E2, HF by lia. set (n := kpd / mult ^ 3) in *.
    set (try := tric_try grid_of mink rmin packed equal eps irr1 irr2 offsets mult).
    assert (P3 : 0 < mult ^ 3) by (apply Z.pow_pos_nonneg; lia).
    assert (DH : forall H, In H (triclinic_hnfs mult n) -> mdet H <> 0 /\ any_pos H = true).
    { intros H HH. apply triclinic_exact in HH; [|exact Hm]. destruct HH as (K & HK & ->).
      rewrite mdet_scale, (proj1 (is_hnf_det n K HK)). split; [nia|]. apply any_pos_scale; [exact Hm|].
      now apply (any_pos_hnf n). }
    assert (HI : In (mscale mult H0) (triclinic_hnfs mult n)) by (apply triclinic_exact; eauto).
    assert (T : exists c, try n = Some c).
    { unfold try, tric_try. rewrite f_tric_always. apply cand_answers.
      - intros H HH. apply Hrmin. now apply DH.
      - intros H HH. apply Hans. now apply DH.
      - eauto.
      - destruct (triclinic_hnfs mult n); [destruct HI|cbn [length]; lia].
      - intros H HH. now apply DH. }
    destruct T as (c & T). unfold fg_finish.
    destruct fuel as [|fuel]; [lia|]. cbn [tric_search]. rewrite T.
    assert (Hc : 0 < c_irr c /\ 0 < c_tot c).
    { unfold try, tric_try in T. rewrite f_tric_always in T.
      destruct (cand_sound _ _ _ _ T) as (H & s & _ & _ & _ & Hi & ->). split; [exact Hi|nia]. }
    destruct (select_best min_kpts kpd [c] 0) as (c' & Es & _); [|discriminate|].
    { intros d [<-|[]]. exact Hc. }
    cbn [map repeat app length] in Es. rewrite Es. destruct (c_grid c') as [g o]. eauto.
  Qed.

  (** Cubic lattices. *)
  Lemma find_grid_cubic fuel s_range kpd root min_kpts : In k [1; 3; 5] ->
    1 <= kpd <= 830583 -> root_approx kpd root ->
    exists g o,
      find_grid grid_of mink rmin packed equal eps irr1 irr2 offsets fuel k s_range kpd root min_kpts = Found g o.
  Proof.
    intros Hc Hkpd Hroot. unfold find_grid.
    assert (E1 : z_in k [3; 5; 1] = true) by (destruct Hc as [<-|[<-|[<-|[]]]]; reflexivity).
    rewrite E1. set (try := cubic_try grid_of irr1 irr2 offsets k).
    destruct (kpd_cubic_ten k kpd root Hkpd Hroot) as (L & EL & HL & _ & HI & _). rewrite EL.
    assert (T : forall n, In n L -> exists c, try n = Some c /\ 0 < c_irr c /\ 0 < c_tot c).
    { intros n Hn. destruct (HI n Hn) as (_ & m & b & Hmm & Hb & En).
      destruct (cubic_matrix k n Hc) as [(_ & N)|(A & Hn1 & HH & _)].
      - exfalso.
        assert (NE : exists K, 1 <= n /\ is_hnf n K /\ symmetry_preserving (gram_of k) K).
        { destruct Hc as [<-|[<-|[<-|[]]]].
          - destruct (fcc_1 n) as [|K l] eqn:EF.
            + exfalso. apply (proj2 (fcc_1_nonempty n)); [|exact EF]. exists b. split; [exact Hb|].
              rewrite En; clear - Hmm; unfold mults_of in Hmm; cbn in Hmm; lia.
            + assert (HF : In K (f_fcc_1 n)) by (apply in_f_fcc_1; rewrite EF; now left).
              exists K. exact (proj1 (proj1 f_correct_1 n K) HF).
          - destruct (sc_3 n) as [|K l] eqn:EF.
            + exfalso. apply (proj2 (sc_3_nonempty n)); [|exact EF]. exists b. split; [exact Hb|].
              rewrite En; clear - Hmm; unfold mults_of in Hmm; cbn in Hmm; lia.
            + assert (HF : In K (f_sc_3 n)) by (apply in_f_sc_3; rewrite EF; now left).
              exists K. exact (proj1 (proj1 f_correct_3 n K) HF).
          - destruct (bcc_5 n) as [|K l] eqn:EF.
            + exfalso. apply (proj2 (bcc_5_nonempty n)); [|exact EF]. exists b. split; [exact Hb|].
              rewrite En; clear - Hmm; unfold mults_of in Hmm; cbn in Hmm; lia.
            + assert (HF : In K (f_bcc_5 n)) by (apply in_f_bcc_5; rewrite EF; now left).
              exists K. exact (proj1 (proj1 f_correct_5 n K) HF). }
        destruct NE as (K & HK). exact (N K HK).
      - assert (TT : exists c, try n = Some c).
        { unfold try, cubic_try. cbv zeta. set (H := cubic_one _) in *.
          pose proof (sel_sound [(grid_of H, H)] []) as S.
          destruct (Sel [(grid_of H, H)] []) as [[[[R K] o] j]|].
          - destruct S as (_ & [[E|[]]|[]] & _). injection E as <- <-. rewrite A. eauto.
          - exfalso. destruct (Hans H) as (_ & o & j & Ho & Ej); [rewrite (proj1 (is_hnf_det n H HH)); lia|].
            specialize (S (grid_of H, H) o (or_introl eq_refl) Ho). cbn [fst] in S. congruence. }
        destruct TT as (c & Ec). exists c. split; [exact Ec|].
        unfold try in Ec. destruct (cubic_sound k n c Hc Ec) as (? & ? & ? & ? & ? & ? & ? & ? & ->). lia. }
    destruct L as [|k1 [|k2 [|k3 [|k4 [|k5 r]]]]]; try (cbn in HL; discriminate HL).
    destruct (T k1 ltac:(cbn; tauto)) as (x1 & T1 & P1). destruct (T k2 ltac:(cbn; tauto)) as (x2 & T2 & P2).
    destruct (T k3 ltac:(cbn; tauto)) as (x3 & T3 & P3). destruct (T k4 ltac:(cbn; tauto)) as (x4 & T4 & P4).
    destruct (T k5 ltac:(cbn; tauto)) as (x5 & T5 & P5).
    rewrite (cubic_five try k1 k2 k3 k4 k5 r x1 x2 x3 x4 x5 T1 T2 T3 T4 T5). unfold fg_finish.
    destruct (select_best min_kpts kpd [x1; x2; x3; x4; x5] 0) as (c' & Es & _); [|discriminate|].
    { intros d Hd. cbn in Hd. intuition (subst; assumption). }
    cbn [repeat length] in Es. rewrite app_nil_r in Es. rewrite Es. destruct (c_grid c') as [g o]. eauto.
  Qed.
End FG.

(** [f_grid] with exact numbers. *)
Lemma f_grid_exact undefined U O Cu Co H : (qdet U <> 0)%Qc -> (qdet O <> 0)%Qc -> unimodular Cu -> unimodular Co ->
  mdet H <> 0 ->
  f_grid undefined (qmul O (qof Co)) (qmul U (qof Cu)) Co Cu O H = reciprocal (qmul U (qof (carried Cu Co H))).
Proof.
  intros HU HO Hu Hc HH. unfold f_grid.
  rewrite (transform_same U O Cu Co H HU HO Hu Hc).
  pose proof (transform_map U O Cu Co [H] HU HO Hu Hc) as E. cbn [transform_supercells map] in E.
  destruct (transform_one _ _ _ _ _ H) as [S|]; [|discriminate E]. injection E as ->.
  rewrite np_inv_some; [reflexivity|]. rewrite qdet_tr, qdet_mul, qof_det, carried_det by assumption.
  apply Qc_mul_neq0; [exact HU|now apply zq_neq0].
Qed.
