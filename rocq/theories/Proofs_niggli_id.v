(** Proofs about niggli_id: when it answers, what the answers contain, and that the answer
    determines the isometries of the reduced cell. *)
From Coq Require Import ZArith QArith Qcanon List Lia Bool String.
From Verif Require Import Mat3 Spec QMat QNum QcTac Bases Bases_niggli Spec_niggli Model_pyniggli
  Model_niggli_id PointGroup Proofs_niggli_term Proofs_pyniggli2 Proofs_niggli_short
  Proofs_niggli_cand Proofs_niggli_group.
Import ListNotations.
Open Scope Z_scope.

(** ** The integer theorem *)
Lemma iso6_isometry A B C D E F X : isometry (symm A B C D E F) X <-> iso6 A B C D E F X.
Proof.
  destruct X as [x1 x2 x3 y1 y2 y3 z1 z2 z3]. unfold isometry, iso6, symm, mmul, mtr, qf, bf.
  cbn [m11 m12 m13 m21 m22 m23 m31 m32 m33]. split.
  - intros H.
    pose proof (f_equal m11 H) as E1. pose proof (f_equal m22 H) as E2.
    pose proof (f_equal m33 H) as E3. pose proof (f_equal m23 H) as E4.
    pose proof (f_equal m13 H) as E5. pose proof (f_equal m12 H) as E6.
    cbn [m11 m12 m13 m21 m22 m23 m31 m32 m33] in *. clear H.
    refine (conj _ (conj _ (conj _ (conj _ (conj _ _))))).
    + etransitivity; [|exact E1]. ring.
    + etransitivity; [|exact E2]. ring.
    + etransitivity; [|exact E3]. ring.
    + etransitivity; [|exact E4]. ring.
    + etransitivity; [|exact E5]. ring.
    + etransitivity; [|exact E6]. ring.
  - intros (E1 & E2 & E3 & E4 & E5 & E6). f_equal.
    + etransitivity; [|exact E1]. ring.
    + etransitivity; [|exact E6]. ring.
    + etransitivity; [|exact E5]. ring.
    + etransitivity; [|exact E6]. ring.
    + etransitivity; [|exact E2]. ring.
    + etransitivity; [|exact E4]. ring.
    + etransitivity; [|exact E5]. ring.
    + etransitivity; [|exact E4]. ring.
    + etransitivity; [|exact E3]. ring.
Qed.

Lemma isometry_det G X : mdet G <> 0 -> isometry G X -> mdet X = 1 \/ mdet X = -1.
Proof.
  intros H I. unfold isometry in I. apply (f_equal mdet) in I.
  rewrite !mdet_mul, mdet_tr in I.
  assert (E : mdet G * (mdet X * mdet X - 1) = 0) by lia.
  apply Z.mul_eq_0 in E. destruct E as [E|E]; [contradiction|].
  assert (E' : (mdet X - 1) * (mdet X + 1) = 0) by lia.
  apply Z.mul_eq_0 in E'. lia.
Qed.

(** The six parameters of a Gram matrix. *)
Definition gA (G : mat3) := m11 G. Definition gB (G : mat3) := m22 G.
Definition gC (G : mat3) := m33 G. Definition gD (G : mat3) := m23 G.
Definition gE (G : mat3) := m13 G. Definition gF (G : mat3) := m12 G.

(** The canonical Gram matrix belonging to an answer; triclinic for the answers 31 and 44
    (and for 0, no answer). *)
Definition class_gram (k : Z) : mat3 :=
  if (k =? 0) || (k =? 31) then mtric1 else if k =? 44 then mtric2 else niggli_gram k.

Lemma class_symm k : 0 <= k <= 44 ->
  class_gram k = symm (gA (class_gram k)) (gB (class_gram k)) (gC (class_gram k))
                      (gD (class_gram k)) (gE (class_gram k)) (gF (class_gram k)) /\
  mdet (class_gram k) <> 0.
Proof.
  intros H.
  assert (F : Forall (fun k => meqb (class_gram k)
     (symm (gA (class_gram k)) (gB (class_gram k)) (gC (class_gram k))
           (gD (class_gram k)) (gE (class_gram k)) (gF (class_gram k))) && negb (mdet (class_gram k) =? 0) = true)
     (map Z.of_nat (seq 0 45))) by (repeat constructor; vm_compute; reflexivity).
  rewrite Forall_forall in F. specialize (F k).
  assert (I : In k (map Z.of_nat (seq 0 45))).
  { apply in_map_iff. exists (Z.to_nat k). split; [lia|]. apply in_seq. lia. }
  specialize (F I). apply andb_true_iff in F. destruct F as [F1 F2].
  apply meqb_eq in F1. split; [exact F1|]. apply negb_true_iff, Z.eqb_neq in F2. exact F2.
Qed.

Definition positive_type (k : Z) : bool :=
  existsb (Z.eqb k) [0; 1; 2; 9; 10; 18; 19; 20; 26; 27; 28; 29; 30; 31].

Ltac each_k H :=
  match type of H with zpath ?k _ _ _ _ _ _ => 
    destruct k as [|p|p]; [| |destruct H];
    [|do 6 (try destruct p as [p|p|]); try (exfalso; exact H)]
  end.

Lemma zpath_range k A B C D E F : zpath k A B C D E F -> 0 <= k <= 44.
Proof. intros H. each_k H; lia. Qed.

Lemma zpath_type k A B C D E F : zpath k A B C D E F ->
  if positive_type k then zN1 A B C D E F else zN2 A B C D E F.
Proof. intros H. each_k H; cbn; cbn in H; tauto. Qed.

Lemma zpath_agree k A B C D E F : zpath k A B C D E F ->
  Forall (agree A B C D E F (class_gram k)) (if positive_type k then half1 else half2).
Proof.
  intros H. each_k H; cbn [positive_type existsb];
  first [exact (agree_0 _ _ _ _ _ _ H) | exact (agree_1 _ _ _ _ _ _ H)
  | exact (agree_2 _ _ _ _ _ _ H)
  | exact (agree_3 _ _ _ _ _ _ H)
  | exact (agree_4 _ _ _ _ _ _ H)
  | exact (agree_5 _ _ _ _ _ _ H)
  | exact (agree_6 _ _ _ _ _ _ H)
  | exact (agree_7 _ _ _ _ _ _ H)
  | exact (agree_8 _ _ _ _ _ _ H)
  | exact (agree_9 _ _ _ _ _ _ H)
  | exact (agree_10 _ _ _ _ _ _ H)
  | exact (agree_11 _ _ _ _ _ _ H)
  | exact (agree_12 _ _ _ _ _ _ H)
  | exact (agree_13 _ _ _ _ _ _ H)
  | exact (agree_14 _ _ _ _ _ _ H)
  | exact (agree_15 _ _ _ _ _ _ H)
  | exact (agree_16 _ _ _ _ _ _ H)
  | exact (agree_17 _ _ _ _ _ _ H)
  | exact (agree_18 _ _ _ _ _ _ H)
  | exact (agree_19 _ _ _ _ _ _ H)
  | exact (agree_20 _ _ _ _ _ _ H)
  | exact (agree_21 _ _ _ _ _ _ H)
  | exact (agree_22 _ _ _ _ _ _ H)
  | exact (agree_23 _ _ _ _ _ _ H)
  | exact (agree_24 _ _ _ _ _ _ H)
  | exact (agree_25 _ _ _ _ _ _ H)
  | exact (agree_26 _ _ _ _ _ _ H)
  | exact (agree_27 _ _ _ _ _ _ H)
  | exact (agree_28 _ _ _ _ _ _ H)
  | exact (agree_29 _ _ _ _ _ _ H)
  | exact (agree_30 _ _ _ _ _ _ H)
  | exact (agree_31 _ _ _ _ _ _ H)
  | exact (agree_32 _ _ _ _ _ _ H)
  | exact (agree_33 _ _ _ _ _ _ H)
  | exact (agree_34 _ _ _ _ _ _ H)
  | exact (agree_35 _ _ _ _ _ _ H)
  | exact (agree_36 _ _ _ _ _ _ H)
  | exact (agree_37 _ _ _ _ _ _ H)
  | exact (agree_38 _ _ _ _ _ _ H)
  | exact (agree_39 _ _ _ _ _ _ H)
  | exact (agree_40 _ _ _ _ _ _ H)
  | exact (agree_41 _ _ _ _ _ _ H)
  | exact (agree_42 _ _ _ _ _ _ H)
  | exact (agree_43 _ _ _ _ _ _ H)
  | exact (agree_44 _ _ _ _ _ _ H)
  ].
Qed.

Lemma class_zN k : 0 <= k <= 44 ->
  let G := class_gram k in
  if positive_type k then zN1 (gA G) (gB G) (gC G) (gD G) (gE G) (gF G)
  else zN2 (gA G) (gB G) (gC G) (gD G) (gE G) (gF G).
Proof.
  intros H.
  assert (F : Forall (fun k => let G := class_gram k in
     if positive_type k then zN1 (gA G) (gB G) (gC G) (gD G) (gE G) (gF G)
     else zN2 (gA G) (gB G) (gC G) (gD G) (gE G) (gF G)) (map Z.of_nat (seq 0 45))).
  { repeat constructor; unfold zN1, zN2; vm_compute; intuition congruence. }
  rewrite Forall_forall in F. apply F.
  apply in_map_iff. exists (Z.to_nat k). split; [lia|]. apply in_seq. lia.
Qed.

Lemma cand_half b X : In X (if b : bool then cand1 else cand2) ->
  exists Y, In Y (if b then half1 else half2) /\ (X = Y \/ X = mneg Y).
Proof.
  assert (E1 : cand1 = flat_map (fun Y => [Y; mneg Y]) half1) by (vm_compute; reflexivity).
  assert (E2 : cand2 = flat_map (fun Y => [Y; mneg Y]) half2) by (vm_compute; reflexivity).
  assert (E : (if b then cand1 else cand2) = flat_map (fun Y => [Y; mneg Y]) (if b then half1 else half2))
    by (destruct b; assumption).
  rewrite E. clear E E1 E2. rewrite in_flat_map. intros (Y & HY & H). exists Y.
  split; [exact HY|]. cbn in H. destruct H as [H|[H|[]]]; [left|right]; congruence.
Qed.

(** The isometries of a Niggli cell are those of the reduced canonical lattice. *)
Lemma zgroup k A B C D E F X : zpath k A B C D E F -> mdet X = 1 \/ mdet X = -1 ->
  (iso6 A B C D E F X <-> isometry (class_gram k) X).
Proof.
  intros H Hd. pose proof (zpath_range _ _ _ _ _ _ _ H) as Hk.
  pose proof (zpath_type _ _ _ _ _ _ _ H) as HN.
  pose proof (zpath_agree _ _ _ _ _ _ _ H) as HA. clear H.
  pose proof (class_zN k Hk) as HN'. cbv zeta in HN'.
  destruct (class_symm k Hk) as [ES _]. set (G := class_gram k) in *. clearbody G.
  rewrite ES at 1. rewrite iso6_isometry.
  assert (K : In X (if positive_type k then cand1 else cand2) ->
    (iso6 A B C D E F X <-> iso6 (gA G) (gB G) (gC G) (gD G) (gE G) (gF G) X)).
  { intros HX. destruct (cand_half (positive_type k) X HX) as (Y & HY & HXY).
    rewrite Forall_forall in HA. specialize (HA Y HY). unfold agree in HA.
    assert (Q : iso6 A B C D E F Y <-> iso6 (gA G) (gB G) (gC G) (gD G) (gE G) (gF G) Y).
    { rewrite <- iso6b_iff with (X := Y) (A := gA G).
      unfold gA, gB, gC, gD, gE, gF.
      destruct (iso6b (m11 G) (m22 G) (m33 G) (m23 G) (m13 G) (m12 G) Y);
        [tauto|]. split; [tauto|discriminate]. }
    destruct HXY as [-> | ->]; [exact Q|]. rewrite !iso6_neg. exact Q. }
  split; intros I.
  - apply K; [|exact I]. destruct (positive_type k).
    + exact (candidates1 _ _ _ _ _ _ _ HN I Hd).
    + exact (candidates2 _ _ _ _ _ _ _ HN I Hd).
  - apply K; [|exact I]. destruct (positive_type k).
    + exact (candidates1 _ _ _ _ _ _ _ HN' I Hd).
    + exact (candidates2 _ _ _ _ _ _ _ HN' I Hd).
Qed.

Lemma mtric_iso X : isometry mtric1 X \/ isometry mtric2 X -> X = mid \/ X = mopp mid.
Proof.
  assert (C1 : class_gram 31 = mtric1) by reflexivity.
  assert (C2 : class_gram 44 = mtric2) by reflexivity.
  intros [H|H].
  - assert (Hd : mdet X = 1 \/ mdet X = -1) by (apply (isometry_det mtric1); [discriminate|exact H]).
    rewrite <- C1 in H. destruct (class_symm 31 ltac:(lia)) as [ES _]. rewrite ES in H.
    apply iso6_isometry in H.
    pose proof (candidates1 _ _ _ _ _ _ _ (class_zN 31 ltac:(lia)) H Hd) as I.
    apply iso6b_iff in H. revert H I. clear. cbn [In cand1]. intros H I.
    repeat (destruct I as [I|I]; [subst X; first [left; reflexivity|right; reflexivity|discriminate H]|]).
    destruct I.
  - assert (Hd : mdet X = 1 \/ mdet X = -1) by (apply (isometry_det mtric2); [discriminate|exact H]).
    rewrite <- C2 in H. destruct (class_symm 44 ltac:(lia)) as [ES _]. rewrite ES in H.
    apply iso6_isometry in H.
    pose proof (candidates2 _ _ _ _ _ _ _ (class_zN 44 ltac:(lia)) H Hd) as I.
    apply iso6b_iff in H. revert H I. clear. cbn [In cand2]. intros H I.
    repeat (destruct I as [I|I]; [subst X; first [left; reflexivity|right; reflexivity|discriminate H]|]).
    destruct I.
Qed.

(** ** The decisions on integers *)
Section ZBlocks.
Variables (A B C D E F : Z) (positive : bool).
Definition zblock1 : option Z :=
  if (A =? B) && (B =? C) then
    if positive then
      if (D =? E) && (D =? F) then
        if (A =? 2 * D) && (A =? 2 * E) && (A =? 2 * F)
        then Some 1
        else Some 2
      else None
    else
      if (D =? E) && (D =? F) then
        if 0 =? D then Some 3
        else if - A =? 3 * D then Some 5
        else Some 4
      else if (2 * Z.abs (D + E + F) =? A + B) then
        if D =? E then Some 6
        else if E =? F then Some 7
        else Some 8
      else None
  else None.

Definition zblock2 : option Z :=
  if A =? B then
    if positive then
      if (D =? E) && (D =? F) && (A =? 2 * D) then Some 9
      else if D =? E then Some 10
      else None
    else
      if (D =? E) && (D =? F) && (D =? 0) then Some 11
      else if D =? E then
        if (D =? 0) && (- A =? 2 * F) then Some 12
        else if (- A =? 2 * D) && (F =? 0) then Some 15
        else if D =? 0 then Some 13
        else if (2 * Z.abs (D + E + F) =? A + B) then Some 16
        else Some 14
      else if (2 * Z.abs (D + E + F) =? A + B) then Some 17
      else None
  else None.

Definition zblock3 : option Z :=
  if B =? C then
    if positive then
      if E =? F then
        if (A =? 4 * D) && (A =? 2 * E) then Some 18
        else if A =? 2 * E then Some 19
        else Some 20
      else None
    else
      if E =? F then
        if (D =? 0) && (E =? 0) then Some 21
        else if (- B =? 2 * D) && (E =? 0) then Some 22
        else if E =? 0 then Some 23
        else if (2 * Z.abs (D + E + F) =? A + B) && (- A =? 3 * E) then Some 24
        else Some 25
      else None
  else None.

Definition zblock4 : option Z :=
  if positive then
    if E =? F then
      if (A =? 4 * D) && (A =? 2 * E) then Some 26
      else if A =? 2 * E then Some 27
      else None
    else
      if (A =? 2 * E) && (F =? 2 * D) then Some 28
      else if (A =? 2 * F) && (E =? 2 * D) then Some 29
      else if (B =? 2 * D) && (F =? 2 * E) then Some 30
      else Some 31
  else
    if (E =? F) && (E =? 0) then
      if D =? 0 then Some 32
      else if - B =? 2 * D then Some 40
      else Some 35
    else if (D =? F) && (D =? 0) then
      if - A =? 2 * E then Some 36
      else Some 33
    else if (D =? E) && (D =? 0) then
      if - A =? 2 * F then Some 38
      else Some 34
    else
      if (- B =? 2 * D) && (- A =? 2 * E) && (F =? 0)
      then Some 42
      else if (- B =? 2 * D) && (F =? 0) then Some 41
      else if (- A =? 2 * E) && (F =? 0) then Some 37
      else if (E =? 0) && (- A =? 2 * F) then Some 39
      else if (2 * Z.abs (D + E + F) =? A + B) && (Z.abs (2 * D + F) =? B)
      then Some 43
      else Some 44.


Definition zidentify : option Z :=
  match zblock1 with Some r => Some r | None =>
  match zblock2 with Some r => Some r | None =>
  match zblock3 with Some r => Some r | None => zblock4 end end end.
End ZBlocks.

Ltac zcases H :=
  repeat match type of H with context [if ?b then _ else _] => destruct b eqn:? end;
  try discriminate H;
  repeat match goal with
  | X : (_ && _)%bool = true |- _ => apply andb_true_iff in X; destruct X
  | X : (_ && _)%bool = false |- _ => apply andb_false_iff in X
  | X : (_ =? _) = true |- _ => apply Z.eqb_eq in X
  | X : (_ =? _) = false |- _ => apply Z.eqb_neq in X
  end.

Lemma zblock1_none A B C D E F positive : (positive = true <-> zpos3 D E F) ->
  zblock1 A B C D E F positive = None -> none1 A B C D E F.
Proof.
  unfold zblock1, none1, zpos3, st2. intros Hp H.
  assert (Hn : positive = false -> ~ (0 < D /\ 0 < E /\ 0 < F)) by (intros E0 Q; apply Hp in Q; congruence).
  destruct Hp as [Hp _]. destruct positive; [specialize (Hp eq_refl); clear Hn|specialize (Hn eq_refl); clear Hp];
    zcases H; rewrite ?Z.eqb_neq in *; lia.
Qed.
Lemma zblock2_none A B D E F positive : (positive = true <-> zpos3 D E F) ->
  zblock2 A B D E F positive = None -> none2 A B D E F.
Proof.
  unfold zblock2, none2, zpos3, st2. intros Hp H.
  assert (Hn : positive = false -> ~ (0 < D /\ 0 < E /\ 0 < F)) by (intros E0 Q; apply Hp in Q; congruence).
  destruct Hp as [Hp _]. destruct positive; [specialize (Hp eq_refl); clear Hn|specialize (Hn eq_refl); clear Hp];
    zcases H; rewrite ?Z.eqb_neq in *; lia.
Qed.
Lemma zblock3_none A B C D E F positive :
  zblock3 A B C D E F positive = None -> B <> C \/ E <> F.
Proof. unfold zblock3. intros H. destruct positive; zcases H; lia. Qed.

Ltac zleaf H :=
  injection H as <-; cbn [zpath]; unfold st2; rewrite ?andb_false_iff, ?Z.eqb_neq in *;
  repeat match goal with |- _ /\ _ => split end; try assumption;
  first [tauto | lia].

Lemma zidentify_path A B C D E F positive k :
  (positive = true -> zN1 A B C D E F) -> (positive = false -> zN2 A B C D E F) ->
  zidentify A B C D E F positive = Some k -> zpath k A B C D E F.
Proof.
  intros HP HN H.
  assert (Hp : positive = true <-> zpos3 D E F).
  { unfold zpos3. destruct positive; [specialize (HP eq_refl); unfold zN1 in HP|
      specialize (HN eq_refl); unfold zN2 in HN]; [intuition lia|].
    split; [discriminate|lia]. }
  unfold zidentify in H.
  destruct (zblock1 A B C D E F positive) as [r|] eqn:B1.
  { injection H as <-. clear Hp. unfold zblock1 in B1.
    destruct positive; [specialize (HP eq_refl); clear HN|specialize (HN eq_refl); clear HP];
    zcases B1; zleaf B1. }
  apply (zblock1_none _ _ _ _ _ _ _ Hp) in B1.
  destruct (zblock2 A B D E F positive) as [r|] eqn:B2.
  { injection H as <-. clear Hp. unfold zblock2 in B2.
    destruct positive; [specialize (HP eq_refl); clear HN|specialize (HN eq_refl); clear HP];
    zcases B2; zleaf B2. }
  apply (zblock2_none _ _ _ _ _ _ Hp) in B2.
  destruct (zblock3 A B C D E F positive) as [r|] eqn:B3.
  { injection H as <-. clear Hp. unfold zblock3 in B3.
    destruct positive; [specialize (HP eq_refl); clear HN|specialize (HN eq_refl); clear HP];
    zcases B3; zleaf B3. }
  apply zblock3_none in B3. clear Hp. unfold zblock4 in H.
  destruct positive; [specialize (HP eq_refl); clear HN|specialize (HN eq_refl); clear HP];
    zcases H; zleaf H.
Qed.

Lemma zidentify_none A B C D E F positive :
  (positive = true -> zN1 A B C D E F) -> (positive = false -> zN2 A B C D E F) ->
  zidentify A B C D E F positive = None -> zpath 0 A B C D E F.
Proof.
  intros HP HN H.
  assert (Hp : positive = true <-> zpos3 D E F).
  { unfold zpos3. destruct positive; [specialize (HP eq_refl); unfold zN1 in HP|
      specialize (HN eq_refl); unfold zN2 in HN]; [intuition lia|].
    split; [discriminate|lia]. }
  unfold zidentify in H.
  destruct (zblock1 A B C D E F positive) as [r|] eqn:B1; [discriminate|].
  apply (zblock1_none _ _ _ _ _ _ _ Hp) in B1.
  destruct (zblock2 A B D E F positive) as [r|] eqn:B2; [discriminate|].
  apply (zblock2_none _ _ _ _ _ _ Hp) in B2.
  destruct (zblock3 A B C D E F positive) as [r|] eqn:B3; [discriminate|].
  apply zblock3_none in B3. clear Hp. unfold zblock4 in H.
  destruct positive; [specialize (HP eq_refl); clear HN|]; zcases H.
  cbn [zpath]. repeat match goal with |- _ /\ _ => split end; assumption || lia.
Qed.
