(** Search loops and final choice of find_grid; symmetry check; offsets. *)
From Coq Require Import ZArith List Lia Bool Arith Qcanon.
From Verif Require Import Mat3 Spec PyNum PyNumFacts Model_universal Model_find_kgrids Proofs_kpd Spec_id.
From Verif Require Import Spec_kgrids.
Import ListNotations.
Open Scope Z_scope.

Section search.
  Context {G : Type} (try : Z -> option (cand G)).

  Lemma successes_S kpd n :
    successes try kpd (S n) = successes try kpd n ++ opt_list (try (kpd + Z.of_nat n)).
  Proof.
    unfold successes. rewrite seq_S, flat_map_app. cbn [flat_map Nat.add]. now rewrite app_nil_r.
  Qed.
  Lemma successes_len kpd n : (length (successes try kpd n) <= n)%nat.
  Proof.
    induction n as [|n IH]; [cbn; lia|]. rewrite successes_S, app_length.
    destruct (try _); cbn [opt_list length]; lia.
  Qed.
  Lemma successes_mono kpd n m : (n <= m)%nat ->
    (length (successes try kpd n) <= length (successes try kpd m))%nat.
  Proof.
    induction 1 as [|m H IH]; [lia|]. rewrite successes_S, app_length. lia.
  Qed.

  Lemma slots_len s (acc : list (cand G)) : (length acc <= s)%nat -> length (slots s acc) = s.
  Proof. intros H. unfold slots. rewrite app_length, map_length, repeat_length. lia. Qed.

  Lemma slots_set s (acc : list (cand G)) c : (length acc < s)%nat ->
    set_at (length acc) (Some c) (slots s acc) = slots s (acc ++ [c]).
  Proof.
    intros H. unfold slots. rewrite app_length. cbn [length].
    destruct (s - length acc)%nat as [|k] eqn:E; [lia|]. cbn [repeat].
    rewrite <- (map_length (@Some (cand G)) acc) at 1. rewrite set_at_app, map_app. cbn [map].
    rewrite <- app_assoc. cbn [app]. do 3 f_equal. lia.
  Qed.

  (** The loop goes on after [n] densities. *)
  Definition goes_on (s_range kpd : Z) (n : nat) : Prop :=
    (length (successes try kpd n) < 5)%nat \/ Z.of_nat n < s_range.

  Lemma general_loop s_range kpd : 5 <= s_range ->
    forall fuel n, (length (successes try kpd n) <= Z.to_nat s_range)%nat ->
    let r := general_search try fuel s_range kpd (kpd + Z.of_nat n)
               (slots (Z.to_nat s_range) (successes try kpd n)) (length (successes try kpd n)) in
    (exists N, (n <= N)%nat /\ (N - n <= fuel)%nat /\
       r = Slots (slots (Z.to_nat s_range) (successes try kpd N)) (length (successes try kpd N)) /\
       ~ goes_on s_range kpd N /\ (length (successes try kpd N) <= Z.to_nat s_range)%nat /\
       forall n', (n <= n' < N)%nat -> goes_on s_range kpd n') \/
    (r = Running (slots (Z.to_nat s_range) (successes try kpd (n + fuel)))
           (length (successes try kpd (n + fuel))) /\
     forall n', (n <= n' < n + fuel)%nat -> goes_on s_range kpd n').
  Proof.
    intros Hs. induction fuel as [|fuel IH]; intros n Hn r.
    - right. subst r. rewrite Nat.add_0_r. split; [reflexivity|]. intros n' H. lia.
    - subst r. cbn [general_search].
      destruct (Nat.ltb (length (successes try kpd n)) 5 ||
        (Nat.leb 5 (length (successes try kpd n)) && (kpd + Z.of_nat n - kpd <? s_range))) eqn:C.
      + assert (GO : goes_on s_range kpd n).
        { apply orb_true_iff in C. destruct C as [C|C].
          - left. now apply Nat.ltb_lt in C.
          - apply andb_true_iff in C. destruct C as (_ & C). apply Z.ltb_lt in C. right. lia. }
        assert (LT : (length (successes try kpd n) < Z.to_nat s_range)%nat).
        { destruct GO as [GO|GO]; [lia|]. pose proof (successes_len kpd n). lia. }
        assert (Step : match try (kpd + Z.of_nat n) with
            | Some c => if Nat.ltb (length (successes try kpd n)) (length (slots (Z.to_nat s_range) (successes try kpd n)))
               then general_search try fuel s_range kpd (kpd + Z.of_nat n + 1)
                 (set_at (length (successes try kpd n)) (Some c) (slots (Z.to_nat s_range) (successes try kpd n)))
                 (S (length (successes try kpd n)))
               else Out_of_bounds (length (successes try kpd n))
            | None => general_search try fuel s_range kpd (kpd + Z.of_nat n + 1)
                 (slots (Z.to_nat s_range) (successes try kpd n)) (length (successes try kpd n)) end
          = general_search try fuel s_range kpd (kpd + Z.of_nat (S n))
               (slots (Z.to_nat s_range) (successes try kpd (S n))) (length (successes try kpd (S n)))).
        { replace (kpd + Z.of_nat (S n)) with (kpd + Z.of_nat n + 1) by lia. rewrite successes_S.
          destruct (try (kpd + Z.of_nat n)) as [c|]; cbn [opt_list].
          - rewrite slots_len by lia. rewrite (proj2 (Nat.ltb_lt _ _) LT).
            rewrite slots_set by exact LT. rewrite app_length. cbn [length]. now rewrite Nat.add_1_r.
          - now rewrite app_nil_r. }
        rewrite Step. clear Step.
        assert (Hn' : (length (successes try kpd (S n)) <= Z.to_nat s_range)%nat).
        { rewrite successes_S, app_length. destruct (try _); cbn [opt_list length]; lia. }
        destruct (IH (S n) Hn') as [(N & HN & HN2 & E & St & Hl & Hg)|(E & Hg)].
        * left. exists N. split; [lia|]. split; [lia|]. split; [exact E|]. split; [exact St|]. split; [exact Hl|].
          intros n' H. destruct (Nat.eq_dec n' n) as [->|]; [exact GO|]. apply Hg. lia.
        * right. replace (n + S fuel)%nat with (S n + fuel)%nat by lia. split; [exact E|].
          intros n' H. destruct (Nat.eq_dec n' n) as [->|]; [exact GO|]. apply Hg. lia.
      + left. exists n. split; [lia|]. split; [lia|]. split; [reflexivity|]. split; [|split; [exact Hn|intros; lia]].
        apply orb_false_iff in C. destruct C as (C1 & C2). apply Nat.ltb_ge in C1.
        intros [H|H]; [lia|]. rewrite (proj2 (Nat.leb_le _ _) C1) in C2. cbn [andb] in C2.
        apply Z.ltb_ge in C2. lia.
  Qed.

  Lemma general_outcome s_range kpd fuel : 5 <= s_range ->
    (exists N, general try fuel s_range kpd =
         Slots (slots (Z.to_nat s_range) (successes try kpd N)) (length (successes try kpd N)) /\
       (5 <= length (successes try kpd N) <= Z.to_nat s_range)%nat /\ s_range <= Z.of_nat N /\
       forall n, (n < N)%nat -> (length (successes try kpd n) < 5)%nat \/ Z.of_nat n < s_range) \/
    (general try fuel s_range kpd =
         Running (slots (Z.to_nat s_range) (successes try kpd fuel)) (length (successes try kpd fuel)) /\
       forall n, (n < fuel)%nat -> (length (successes try kpd n) < 5)%nat \/ Z.of_nat n < s_range).
  Proof.
    intros Hs. unfold general.
    pose proof (general_loop s_range kpd Hs fuel 0) as H. cbv zeta in H.
    change (successes try kpd 0) with (@nil (cand G)) in H. cbn [length] in H.
    unfold slots at 1 3 in H. cbn [map app length] in H. rewrite Nat.sub_0_r, Z.add_0_r in H.
    specialize (H ltac:(lia)). destruct H as [(N & HN & HN2 & E & St & Hl & Hg)|(E & Hg)].
    - left. exists N. split; [exact E|]. unfold goes_on in St. split; [lia|]. split; [lia|].
      intros n Hn. apply Hg. lia.
    - right. split; [exact E|]. intros n Hn. apply Hg. lia.
  Qed.

  (** The loop ends as soon as five densities have succeeded and the range is exhausted. *)
  Lemma general_ends s_range kpd N fuel : 5 <= s_range -> (5 <= length (successes try kpd N))%nat ->
    (N < fuel)%nat -> s_range < Z.of_nat fuel ->
    exists a count, general try fuel s_range kpd = Slots a count.
  Proof.
    intros Hs H5 HN Hf. destruct (general_outcome s_range kpd fuel Hs) as [(M & E & _)|(_ & Hg)]; [eauto|].
    exfalso. destruct (Hg (Nat.max N (Z.to_nat s_range)) ltac:(lia)) as [H|H]; [|lia].
    pose proof (successes_mono kpd N (Nat.max N (Z.to_nat s_range)) ltac:(lia)). lia.
  Qed.

  (** With fewer than five successes try it never ends. *)
  Lemma general_endless s_range kpd fuel : 5 <= s_range ->
    (forall n, (length (successes try kpd n) < 5)%nat) ->
    exists a count, general try fuel s_range kpd = Running a count.
  Proof.
    intros Hs H5. destruct (general_outcome s_range kpd fuel Hs) as [(M & _ & H & _)|(E & _)]; [|eauto].
    specialize (H5 M). lia.
  Qed.

  (** *** Cubic lattices *)
  Lemma cubic_five k1 k2 k3 k4 k5 r x1 x2 x3 x4 x5 :
    try k1 = Some x1 -> try k2 = Some x2 -> try k3 = Some x3 -> try k4 = Some x4 -> try k5 = Some x5 ->
    cubic try (k1 :: k2 :: k3 :: k4 :: k5 :: r) = Slots (map Some [x1; x2; x3; x4; x5]) 5.
  Proof.
    intros E1 E2 E3 E4 E5. unfold cubic. cbn. rewrite E1. cbn. rewrite E2. cbn. rewrite E3. cbn.
    rewrite E4. cbn. rewrite E5. cbn. destruct r; reflexivity.
  Qed.

  Lemma cubic_out k1 k2 k3 k4 k5 k6 r x :
    In None [try k1; try k2; try k3; try k4; try k5] -> try k6 = Some x ->
    cubic try (k1 :: k2 :: k3 :: k4 :: k5 :: k6 :: r) = Out_of_bounds 5.
  Proof.
    intros HN E6. unfold cubic. cbn in HN. cbn.
    destruct (try k1) as [c1|]; cbn; destruct (try k2) as [c2|]; cbn; destruct (try k3) as [c3|]; cbn;
      destruct (try k4) as [c4|]; cbn; destruct (try k5) as [c5|]; cbn; try (rewrite E6; reflexivity).
    exfalso. intuition discriminate.
  Qed.

  (** *** Triclinic lattices *)
  Lemma tric_first : forall n fuel kpd c,
    (forall i, (i < n)%nat -> try (kpd + Z.of_nat i) = None) -> try (kpd + Z.of_nat n) = Some c ->
    (n < fuel)%nat -> tric_search try fuel kpd = Slots [Some c] 1.
  Proof.
    induction n as [|n IH]; intros [|fuel] kpd c Hn Hc Hf; try lia; cbn [tric_search].
    - rewrite Z.add_0_r in Hc. now rewrite Hc.
    - pose proof (Hn 0%nat ltac:(lia)) as H0. rewrite Z.add_0_r in H0. rewrite H0.
      apply IH; [|replace (kpd + 1 + Z.of_nat n) with (kpd + Z.of_nat (S n)) by lia; exact Hc|lia].
      intros i Hi. replace (kpd + 1 + Z.of_nat i) with (kpd + Z.of_nat (S i)) by lia. apply Hn. lia.
  Qed.
End search.

(** ** The final choice *)
Section choice.
  Context {G : Type}.

  Lemma min_ratio_spec (acc : list (cand G)) : (forall c, In c acc -> 0 < c_tot c) -> acc <> [] ->
    exists c, min_ratio (map Some acc) = Some (Some c) /\ In c acc /\
      forall d, In d acc -> c_irr c * c_tot d <= c_irr d * c_tot c.
  Proof.
    induction acc as [|x acc IH]; intros Hp Hne; [contradiction|].
    destruct acc as [|y acc].
    - exists x. split; [reflexivity|]. split; [now left|]. intros d [<-|[]]. lia.
    - destruct IH as (c & E & Hc & Hm); [intros; apply Hp; now right|discriminate|].
      cbn [map min_ratio] in E |- *. rewrite E.
      assert (Pc : 0 < c_tot c) by (apply Hp; now right).
      assert (Px : 0 < c_tot x) by (apply Hp; now left).
      destruct (Z.leb_spec (c_irr x * c_tot c) (c_irr c * c_tot x)) as [L|L].
      + exists x. split; [reflexivity|]. split; [now left|]. intros d [<-|Hd]; [lia|].
        specialize (Hm d Hd). assert (Pd : 0 < c_tot d) by (apply Hp; now right).
        apply (Z.mul_le_mono_pos_l _ _ (c_tot c)); [exact Pc|]. nia.
      + exists c. split; [reflexivity|]. split; [now right|]. intros d [<-|Hd]; [lia|auto].
  Qed.

  Lemma minloc_map_spec {X} (f : X -> Z) d (l : list X) : forall i,
    match minloc_from (fun x => 0 <? x) i (map f l) with
    | Some (j, y) => (i <= j < i + length l)%nat /\ f (nth (j - i) l d) = y /\ 0 < y /\
        In (nth (j - i) l d) l /\ forall x, In x l -> 0 < f x -> y <= f x
    | None => forall x, In x l -> f x <= 0
    end.
  Proof.
    induction l as [|x l IH]; intros i; cbn [map minloc_from]; [intros x []|].
    specialize (IH (S i)). destruct (minloc_from (fun x => 0 <? x) (S i) (map f l)) as [(j, y)|].
    - destruct IH as (H1 & H2 & H3 & H4 & H5).
      destruct ((0 <? f x) && (f x <=? y)) eqn:C.
      + apply andb_true_iff in C. destruct C as (C1 & C2). apply Z.ltb_lt in C1. apply Z.leb_le in C2.
        rewrite Nat.sub_diag. cbn [nth length In]. split; [lia|]. split; [reflexivity|]. split; [exact C1|].
        split; [now left|]. intros z [<-|Hz] Pz; [lia|]. specialize (H5 z Hz Pz). lia.
      + replace (j - i)%nat with (S (j - S i)) by lia. cbn [nth length In].
        split; [lia|]. split; [exact H2|]. split; [exact H3|]. split; [now right|].
        intros z [<-|Hz] Pz; [|auto]. apply andb_false_iff in C. destruct C as [C|C].
        * apply Z.ltb_ge in C. lia.
        * apply Z.leb_gt in C. lia.
    - destruct (Z.ltb_spec 0 (f x)) as [C|C].
      + rewrite Nat.sub_diag. cbn [nth length In]. split; [lia|]. split; [reflexivity|]. split; [exact C|].
        split; [now left|]. intros z [<-|Hz] Pz; [lia|]. specialize (IH z Hz). lia.
      + intros z [<-|Hz]; auto.
  Qed.

  (** The grid that is used is the best of the candidates. *)
  Lemma select_best min_kpts kpd (acc : list (cand G)) r :
    (forall c, In c acc -> 0 < c_irr c /\ 0 < c_tot c) -> acc <> [] ->
    exists c, select min_kpts kpd (map Some acc ++ repeat None r) (length acc) = Use (c_grid c) /\
      In c acc /\
      (min_kpts = true \/ kpd <= 500 -> forall d, In d acc -> c_irr c <= c_irr d) /\
      (min_kpts = false /\ 500 < kpd -> forall d, In d acc -> c_irr c * c_tot d <= c_irr d * c_tot c).
  Proof.
    intros Hp Hne. unfold select. destruct (Nat.ltb_spec 0 (length acc)) as [L|L].
    2:{ destruct acc; [contradiction|cbn in L; lia]. }
    replace (firstn (length acc) (map Some acc ++ repeat None r)) with (map (@Some (cand G)) acc).
    2:{ rewrite <- (map_length (@Some (cand G)) acc). rewrite firstn_app, Nat.sub_diag, firstn_all.
        cbn [firstn]. now rewrite app_nil_r. }
    destruct (negb min_kpts && (500 <? kpd)) eqn:C.
    - apply andb_true_iff in C. destruct C as (C1 & C2). apply negb_true_iff in C1. apply Z.ltb_lt in C2.
      destruct (min_ratio_spec acc) as (c & E & Hc & Hm); [intros; now apply Hp|exact Hne|].
      rewrite E. exists c. split; [reflexivity|]. split; [exact Hc|]. split; [|intros _; exact Hm].
      intros [H|H]; [congruence|lia].
    - pose proof (minloc_map_spec irr_of None (map Some acc ++ repeat (@None (cand G)) r) 0) as M.
      unfold minloc. destruct (minloc_from _ 0 _) as [(j, y)|].
      + rewrite Nat.sub_0_r in M. destruct M as (_ & E & Py & HI & Hm). revert E HI.
        destruct (nth j (map Some acc ++ repeat None r) None) as [c|]; cbn [irr_of]; [|lia].
        intros E HI. exists c. split; [reflexivity|].
        assert (Hc : In c acc).
        { apply in_app_or in HI. destruct HI as [HI|HI].
          - apply in_map_iff in HI. destruct HI as (c' & [= <-] & Hc). exact Hc.
          - apply repeat_spec in HI. discriminate. }
        split; [exact Hc|]. split.
        * intros _ d Hd. rewrite E. apply (Hm (Some d)); [|apply Hp, Hd].
          apply in_or_app. left. apply in_map, Hd.
        * intros (H1 & H2). apply andb_false_iff in C. rewrite H1 in C. cbn [negb] in C.
          destruct C as [C|C]; [discriminate|]. apply Z.ltb_ge in C. lia.
      + exfalso. destruct acc as [|c acc]; [contradiction|].
        specialize (M (Some c) ltac:(now left)). specialize (Hp c ltac:(now left)). cbn in M. lia.
  Qed.
End choice.

(** ** Point-group sizes *)
Lemma check_sym_spec k size : 1 <= k <= 44 ->
  (check_sym k size = Some true <-> size = Z.of_nat (holohedry_order (family (character k)))) /\
  (check_sym k size = None <-> ~ In size [48; 24; 12; 16; 8; 4; 2]).
Proof.
  intros Hk.
  assert (E : size = 48 \/ size = 24 \/ size = 12 \/ size = 16 \/ size = 8 \/ size = 4 \/ size = 2 \/
     ~ In size [48; 24; 12; 16; 8; 4; 2]) by (cbn; lia).
  assert (K : In k (map (fun i => Z.of_nat i) (seq 1 44))).
  { apply in_map_iff. exists (Z.to_nat k). split; [lia|]. apply in_seq. lia. }
  assert (D : check_sym k size = None \/ In size [48; 24; 12; 16; 8; 4; 2]).
  { destruct E as [-> | [-> | [-> | [-> | [-> | [-> | [-> | E]]]]]]]; try (right; cbn; tauto).
    left. unfold check_sym. cbn in E.
    repeat (match goal with |- context [Z.eqb ?a ?b] => destruct (Z.eqb_spec a b); [exfalso; lia|] end). reflexivity. }
  destruct D as [D|D].
  - rewrite D. split.
    + split; [discriminate|]. intros ->. exfalso. clear -D K. cbn in K.
      repeat (destruct K as [<-|K]; [vm_compute in D; discriminate D|]). destruct K.
    + split; [|reflexivity]. intros _. clear E K. intros H. cbn in H.
      destruct H as [<-|[<-|[<-|[<-|[<-|[<-|[<-|[]]]]]]]]; vm_compute in D; discriminate D.
  - clear E. split.
    + cbn in K, D. 
      repeat (destruct K as [<-|K];
        [destruct D as [<-|[<-|[<-|[<-|[<-|[<-|[<-|[]]]]]]]]; split; intros H; vm_compute in H |- *; first [reflexivity|discriminate H]|]).
      destruct K.
    + split; [|intros H; contradiction]. intros H. exfalso. clear K. cbn in D.
      destruct D as [<-|[<-|[<-|[<-|[<-|[<-|[<-|[]]]]]]]]; discriminate H.
Qed.

(** ** Offsets *)
Lemma offsets_first equal k n1 n2 n3 : exists r, get_offsets equal k n1 n2 n3 = Vec3 0 0 0 :: r.
Proof.
  unfold get_offsets, off_all. cbv zeta.
  repeat match goal with |- context [if ?c then _ else _] => destruct c end; eexists; reflexivity.
Qed.

Lemma offsets_unit equal k n1 n2 n3 s : In s (get_offsets equal k n1 n2 n3) -> unit_offset s.
Proof.
  unfold get_offsets, off_all. cbv zeta.
  repeat match goal with |- context [if ?c then _ else _] => destruct c end;
    intros H; cbn in H;
    repeat (destruct H as [<-|H]; [unfold unit_offset; cbn; lia|]); destruct H.
Qed.

Lemma z_in_perm k l l' : (forall x, In x l <-> In x l') -> z_in k l = z_in k l'.
Proof.
  intros H. unfold z_in.
  destruct (existsb (Z.eqb k) l) eqn:E, (existsb (Z.eqb k) l') eqn:E'; try reflexivity; exfalso.
  - apply existsb_exists in E. destruct E as (x & Hx & Ex).
    assert (existsb (Z.eqb k) l' = true) by (apply existsb_exists; exists x; split; [now apply H|exact Ex]). congruence.
  - apply existsb_exists in E'. destruct E' as (x & Hx & Ex).
    assert (existsb (Z.eqb k) l = true) by (apply existsb_exists; exists x; split; [now apply H|exact Ex]). congruence.
Qed.

Lemma not_in_z_in k l : ~ In k l -> z_in k l = false.
Proof.
  intros H. unfold z_in. destruct (existsb (Z.eqb k) l) eqn:E; [|reflexivity].
  apply existsb_exists in E. destruct E as (x & Hx & Ex). apply Z.eqb_eq in Ex. subst. contradiction.
Qed.

(** Distinct unless the cell is base-centred with the third vector the shortest. *)
Lemma offsets_nodup equal k n1 n2 n3 :
  ~ In k base_centred \/ ~ ((n3 < n1)%Qc /\ (n3 < n2)%Qc) -> NoDup (get_offsets equal k n1 n2 n3).
Proof.
  intros H. unfold get_offsets, off_all. cbv zeta.
  destruct (z_in k [1; 3; 5; 32; 33; 34; 35]); [|].
  { repeat constructor; cbn; intuition discriminate. }
  destruct (z_in k [12; 22; 4; 2; 9; 24; 6; 7; 15; 18]).
  { destruct (equal n1 n2), (equal n1 n3), (equal n2 n3); repeat constructor; cbn; intuition discriminate. }
  destruct (z_in k [11; 21]).
  { destruct (equal n1 n2), (equal n1 n3), (equal n2 n3); repeat constructor; cbn; intuition discriminate. }
  destruct (z_in k [16; 26]). { repeat constructor; cbn; intuition discriminate. }
  destruct (z_in k [19; 8; 42]). { repeat constructor; cbn; intuition discriminate. }
  destruct (z_in k [40; 38; 36; 23; 13; 10; 14; 17; 20; 25; 27; 28; 29; 30; 37; 39; 41; 43]) eqn:B.
  2:{ destruct (z_in k [31; 44]); repeat constructor; cbn; intuition discriminate. }
  assert (N : ~ ((n3 < n1)%Qc /\ (n3 < n2)%Qc)).
  { destruct H as [H|H]; [|exact H]. exfalso. apply H. unfold z_in in B. apply existsb_exists in B.
    destruct B as (x & Hx & Ex). apply Z.eqb_eq in Ex. subst x. cbn in Hx |- *. tauto. }
  match goal with |- context [if ?c then _ else _] => destruct c end;
    [repeat constructor; cbn; intuition discriminate|].
  match goal with |- context [if ?c then _ else _] => destruct c end;
    [repeat constructor; cbn; intuition discriminate|].
  match goal with |- context [if ?c then _ else _] => destruct c eqn:C end;
    [|repeat constructor; cbn; intuition discriminate].
  exfalso. apply N. apply andb_true_iff in C. destruct C as (C1 & C2).
  destruct (n3 ?= n1)%Qc eqn:D1; try discriminate C1. destruct (n3 ?= n2)%Qc eqn:D2; try discriminate C2.
  split; assumption.
Qed.

(** Inversion keeps every offset unless the cell is base-centred. *)
Lemma offsets_inversion equal k n1 n2 n3 s : ~ In k base_centred ->
  In s (get_offsets equal k n1 n2 n3) -> offset_kept (mopp mid) s.
Proof.
  intros Hk. unfold get_offsets, off_all. cbv zeta.
  rewrite (not_in_z_in k [40; 38; 36; 23; 13; 10; 14; 17; 20; 25; 27; 28; 29; 30; 37; 39; 41; 43]).
  2:{ intros H. apply Hk. cbn in H |- *. tauto. }
  assert (K : forall a b c, offset_kept (mopp mid) (Vec3 (2 * a) (2 * b) (2 * c))).
  { intros a b c. exists (Vec3 (- a) (- b) (- c)). unfold mvec, mopp, mid. cbn [m11 m12 m13 m21 m22 m23 m31 m32 m33 v1 v2 v3]. f_equal; lia. }
  assert (K' : forall a b c, a mod 2 = 0 -> b mod 2 = 0 -> c mod 2 = 0 -> offset_kept (mopp mid) (Vec3 a b c)).
  { intros a b c Ha Hb Hc. apply Z.mod_divide in Ha, Hb, Hc; try lia.
    destruct Ha as (x & ->), Hb as (y & ->), Hc as (z & ->).
    rewrite (Z.mul_comm x), (Z.mul_comm y), (Z.mul_comm z). apply K. }
  repeat match goal with |- context [if ?c then _ else _] => destruct c end;
    intros H; cbn in H; repeat (destruct H as [<-|H]; [apply K'; reflexivity|]); destruct H.
Qed.

(** Triclinic lattices (no isometries but 1 and -1): every offset keeps the symmetry. *)
Lemma offsets_triclinic equal k n1 n2 n3 s Gm : k = 31 \/ k = 44 ->
  (forall X, isometry Gm X -> X = mid \/ X = mopp mid) ->
  In s (get_offsets equal k n1 n2 n3) -> forall X, isometry Gm X -> offset_kept X s.
Proof.
  intros Hk HG Hs X HX. destruct (HG X HX) as [-> | ->].
  - exists (Vec3 0 0 0). destruct s as [a b c]. unfold mvec, mid. cbn [m11 m12 m13 m21 m22 m23 m31 m32 m33 v1 v2 v3]. f_equal; lia.
  - apply (offsets_inversion equal k n1 n2 n3); [|exact Hs]. destruct Hk as [-> | ->]; cbn; lia.
Qed.

(** ** Forms used by the properties *)
Lemma offsets_zero_unit equal k n1 n2 n3 :
  (exists r, get_offsets equal k n1 n2 n3 = Vec3 0 0 0 :: r) /\
  forall s, In s (get_offsets equal k n1 n2 n3) -> unit_offset s.
Proof. split; [apply offsets_first|intros s; apply offsets_unit]. Qed.

Lemma lt_true (x y : Qc) : (x < y)%Qc ->
  match Qccompare x y with Lt => true | _ => false end = true.
Proof. intros H. rewrite (proj1 (Qclt_alt x y) H). reflexivity. Qed.
Lemma lt_false (x y : Qc) : (x < y)%Qc ->
  match Qccompare y x with Lt => true | _ => false end = false.
Proof. intros H. rewrite (proj1 (Qcgt_alt y x) H). reflexivity. Qed.

Lemma offsets_repeat equal k n1 n2 n3 : In k base_centred ->
  (n3 < n1)%Qc -> (n3 < n2)%Qc -> ~ NoDup (get_offsets equal k n1 n2 n3).
Proof.
  intros Hk H1 H2.
  assert (E : get_offsets equal k n1 n2 n3 =
    [Vec3 0 0 0; Vec3 0 2 0; Vec3 2 0 0; Vec3 2 2 0; Vec3 0 1 3; Vec3 2 1 3; Vec3 2 1 1; Vec3 2 1 1]).
  { unfold base_centred in Hk. cbn [In] in Hk.
    repeat (destruct Hk as [<- | Hk];
      [cbn -[Qccompare]; rewrite (lt_false n3 n1 H1), (lt_false n3 n2 H2), (lt_true n3 n1 H1),
         (lt_true n3 n2 H2), !andb_false_r; reflexivity|]).
    destruct Hk. }
  rewrite E. intros N. do 6 (apply NoDup_cons_iff in N; destruct N as (_ & N)).
  apply NoDup_cons_iff in N. destruct N as (N & _). apply N. now left.
Qed.

Lemma offsets_break_cubic equal k n1 n2 n3 : In k [1; 3; 5] ->
  exists s X, In s (get_offsets equal k n1 n2 n3) /\ isometry mid X /\ ~ offset_kept X s.
Proof.
  intros Hk. exists (Vec3 2 0 0), (Mat3 0 1 0 1 0 0 0 0 1). split; [|split].
  - cbn [In] in Hk. destruct Hk as [<- | [<- | [<- | []]]]; cbn; tauto.
  - reflexivity.
  - intros (w & E). apply (f_equal v1) in E. cbn [mvec v1 v2 v3 m11 m12 m13] in E. lia.
Qed.

Lemma offsets_break_inversion equal k n1 n2 n3 : In k base_centred ->
  (n1 < n2)%Qc -> (n1 < n3)%Qc ->
  exists s, In s (get_offsets equal k n1 n2 n3) /\ ~ offset_kept (mopp mid) s.
Proof.
  intros Hk H1 H2. exists (Vec3 3 1 0). split.
  - unfold base_centred in Hk. cbn [In] in Hk.
    repeat (destruct Hk as [<- | Hk];
      [cbn -[Qccompare]; rewrite (lt_true n1 n2 H1), (lt_true n1 n3 H2); cbn [andb In]; tauto|]).
    destruct Hk.
  - intros (w & E). apply (f_equal v1) in E.
    cbn [mvec mopp mid v1 v2 v3 m11 m12 m13] in E. lia.
Qed.

Lemma in_successes {G} (try : Z -> option (cand G)) kpd n c :
  In c (successes try kpd n) <-> exists i, (i < n)%nat /\ try (kpd + Z.of_nat i) = Some c.
Proof.
  unfold successes. rewrite in_flat_map. split.
  - intros (i & Hi & H). apply in_seq in Hi. exists i. split; [lia|].
    destruct (try _) as [d|]; cbn in H; [destruct H as [-> | []]; reflexivity|destruct H].
  - intros (i & Hi & E). exists i. split; [apply in_seq; lia|]. rewrite E. now left.
Qed.

Lemma general_best {G} (try : Z -> option (cand G)) min_kpts s_range kpd fuel a count :
  5 <= s_range -> (forall k c, try k = Some c -> 0 < c_irr c /\ 0 < c_tot c) ->
  general try fuel s_range kpd = Slots a count ->
  exists k c, kpd <= k /\ try k = Some c /\ select min_kpts kpd a count = Use (c_grid c) /\
    forall k' d, kpd <= k' < kpd + s_range -> try k' = Some d ->
      (min_kpts = true \/ kpd <= 500 -> c_irr c <= c_irr d) /\
      (min_kpts = false /\ 500 < kpd -> c_irr c * c_tot d <= c_irr d * c_tot c).
Proof.
  intros Hs Hpos E.
  destruct (general_outcome try s_range kpd fuel Hs) as [(N & E' & Hlen & HN & _)|(E' & _)];
    rewrite E in E'; [|discriminate].
  injection E' as -> ->.
  destruct (select_best min_kpts kpd (successes try kpd N)
    (Z.to_nat s_range - length (successes try kpd N))) as (c & Es & Hc & B1 & B2).
  - intros c Hc. apply in_successes in Hc. destruct Hc as (i & _ & Hc). exact (Hpos _ _ Hc).
  - intros E0. rewrite E0 in Hlen. cbn in Hlen. lia.
  - pose proof (proj1 (in_successes try kpd N c) Hc) as (i & _ & Hi).
    exists (kpd + Z.of_nat i), c. split; [lia|]. split; [exact Hi|]. split; [exact Es|].
    intros k' d Hk' Hd. assert (Hin : In d (successes try kpd N)).
    { apply in_successes. exists (Z.to_nat (k' - kpd)). split; [lia|].
      replace (kpd + Z.of_nat (Z.to_nat (k' - kpd))) with k' by lia. exact Hd. }
    split; intros C; auto.
Qed.

Lemma cubic_nothing {G} (try : Z -> option (cand G)) r : (forall k, In k r -> try k = None) ->
  forall i a count, cubic_search try r i a count = Slots a count.
Proof.
  induction r as [|k r IH]; intros H i a count; [reflexivity|]. cbn [cubic_search].
  destruct (Nat.ltb count 5); [|reflexivity]. rewrite (H k (or_introl eq_refl)).
  apply IH. intros k' Hk'. apply H. now right.
Qed.

Lemma cubic_hole {G} (try : Z -> option (cand G)) kpd k1 k2 k3 k4 k5 r x2 x3 x4 x5 :
  500 < kpd -> try k1 = None -> try k2 = Some x2 -> try k3 = Some x3 -> try k4 = Some x4 ->
  try k5 = Some x5 -> (forall k, In k r -> try k = None) ->
  exists a count, cubic try (k1 :: k2 :: k3 :: k4 :: k5 :: r) = Slots a count /\
    select false kpd a count = Unset.
Proof.
  intros Hk E1 E2 E3 E4 E5 Hr. exists [None; Some x2; Some x3; Some x4; Some x5], 4%nat. split.
  - unfold cubic. cbn. rewrite E1, E2, E3, E4, E5. cbn. apply cubic_nothing, Hr.
  - unfold select. cbn. rewrite (proj2 (Z.ltb_lt _ _) Hk). reflexivity.
Qed.
