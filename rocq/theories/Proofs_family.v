(** Every lattice belongs to one of the seven families, and a lattice that keeps all symmetries
    of another belongs to the same family or to one with a smaller number. *)
From Coq Require Import ZArith QArith Qcanon List Bool Lia.
From Verif Require Import Mat3 QMat QNum Spec_niggli Spec_id Spec_niggli_f90 Spec_basis_check Bases Bases_niggli
  NearSym PointGroup Proofs_transform Model_niggli_id Proofs_pyniggli2 Proofs_niggli_id2 Proofs_niggli_id3
  Proofs_volumes Proofs_supercells Proofs_find_supercells Proofs_niggli_f90d Proofs_brute3 Proofs_brute4.
Import ListNotations.

(** ** Lagrange *)
Section Lagrange.
  Context {A : Type} (eqd : forall x y : A, {x = y} + {x <> y}) (mul : A -> A -> A) (e : A) (H : list A).
  Hypothesis assoc : forall x y z, mul x (mul y z) = mul (mul x y) z.
  Hypothesis one : forall x, mul e x = x.
  Hypothesis e_in : In e H.
  Hypothesis H_nodup : NoDup H.
  Hypothesis H_mul : forall x y, In x H -> In y H -> In (mul x y) H.
  Hypothesis H_inv : forall x, In x H -> exists y, In y H /\ mul y x = e.

  Definition coset (x : A) : list A := map (fun h => mul h x) H.
  Definition outside (x : A) (L : list A) : list A :=
    filter (fun y => negb (if in_dec eqd y (coset x) then true else false)) L.

  Lemma outside_in x L y : In y (outside x L) <-> In y L /\ ~ In y (coset x).
  Proof.
    unfold outside. rewrite filter_In. destruct (in_dec eqd y (coset x)); cbn [negb]; intuition congruence.
  Qed.
  Lemma split_filter (f : A -> bool) L :
    (length L = length (filter f L) + length (filter (fun y => negb (f y)) L))%nat.
  Proof. induction L as [|y L IH]; [reflexivity|]. cbn [filter]. destruct (f y); cbn [negb length]; lia. Qed.
  Lemma NoDup_map_on (f : A -> A) l : NoDup l -> (forall x y, In x l -> In y l -> f x = f y -> x = y) -> NoDup (map f l).
  Proof.
    induction 1 as [|x l N ND IH]; intros I; [constructor|]. cbn [map]. constructor.
    - intros K. apply in_map_iff in K as (y & E & K). apply I in E; [now subst|now right|now left].
    - apply IH. intros a b Ka Kb. apply I; now right.
  Qed.

  Lemma lagrange : forall L, NoDup L -> (forall h x, In h H -> In x L -> In (mul h x) L) ->
    (forall h h' x, In x L -> mul h x = mul h' x -> h = h') ->
    Nat.divide (length H) (length L).
  Proof.
    intros L. remember (length L) as n eqn:En. revert L En.
    induction n as [n IH] using lt_wf_ind. intros L -> ND CL RC.
    destruct L as [|x L']; [exists 0%nat; reflexivity|]. set (L := x :: L') in *.
    assert (XL : In x L) by now left.
    assert (NC : NoDup (coset x)).
    { unfold coset. apply NoDup_map_on; [exact H_nodup|]. intros a b _ _ K. now apply (RC a b x). }
    assert (SP := split_filter (fun y => if in_dec eqd y (coset x) then true else false) L).
    cbv beta in SP. fold (outside x L) in SP.
    assert (E1 : length (filter (fun y => if in_dec eqd y (coset x) then true else false) L) = length H).
    { rewrite <- (map_length (fun h => mul h x) H). fold (coset x).
      apply same_order; [now apply NoDup_filter|exact NC|]. intros y. rewrite filter_In.
      destruct (in_dec eqd y (coset x)) as [I|I].
      - split; [easy|]. intros _. split; [|reflexivity]. apply in_map_iff in I as (h & <- & Hh). now apply CL.
      - split; [intros (_ & K); discriminate K|easy]. }
    rewrite E1 in SP. rewrite SP. apply Nat.divide_add_r; [apply Nat.divide_refl|].
    assert (LT : (length (outside x L) < length L)%nat).
    { assert (P : (0 < length H)%nat) by (clear - e_in; destruct H; [now destruct e_in|cbn [length]; lia]).
      clear - P SP. lia. }
    apply (IH _ LT (outside x L) eq_refl).
    - now apply NoDup_filter.
    - intros h y Hh Hy. apply outside_in in Hy as (Hy & Ny). apply outside_in. split; [now apply CL|].
      intros K. apply Ny. apply in_map_iff in K as (h' & E & Hh'). destruct (H_inv h Hh) as (g & Hg & Eg).
      apply in_map_iff. exists (mul g h'). split; [|now apply H_mul].
      rewrite <- assoc, E, assoc, Eg. apply one.
    - intros h h' y Hy. apply RC. now apply outside_in in Hy.
  Qed.
End Lagrange.

Lemma qmat_eq_dec (A B : qmat) : {A = B} + {A <> B}.
Proof. decide equality; apply Qc_eq_dec. Defined.

(** ** The rotations of a lattice *)
Lemma rotation_inj P X Y : qdet P <> 0%Qc -> rotation P X = rotation P Y -> X = Y.
Proof.
  intros HP E. apply (f_equal (fun R => qmul (qinv P) (qmul R P))) in E. rewrite !coordinates_rotation in E by exact HP.
  now apply qof_inj.
Qed.
Lemma order_rotations P n : qdet P <> 0%Qc -> point_group_order P n ->
  exists l, NoDup l /\ Z.of_nat (length l) = n /\ forall R, In R l <-> lattice_symmetry P R.
Proof.
  intros HP (l & N & E & I). exists (map (rotation P) l). split; [|split].
  - clear E I. induction N as [|X l K N IH]; [constructor|]. cbn [map]. constructor; [|exact IH].
    intros J. apply in_map_iff in J as (Y & J & HY). apply rotation_inj in J; [|exact HP]. now subst Y.
  - now rewrite map_length.
  - intros R. rewrite in_map_iff. split.
    + intros (X & <- & HX). apply rotation_symmetry; [exact HP|now apply I].
    + intros HR. destruct (symmetry_rotation P R HP HR) as (X & -> & HX). exists X. split; [reflexivity|now apply I].
Qed.
Lemma symmetry_id P : lattice_symmetry P qid.
Proof.
  split; [unfold orthogonal; rewrite qmul_id_r; reflexivity|]. intros x H.
  replace (qmvec qid x) with x; [exact H|]. destruct x as [a b c]. unfold qmvec, qid. cbn. f_equal; ring.
Qed.
Lemma symmetry_mul P R S : lattice_symmetry P R -> lattice_symmetry P S -> lattice_symmetry P (qmul R S).
Proof.
  intros (O1 & H1) (O2 & H2). split.
  - unfold orthogonal in *. rewrite qtr_mul.
    rewrite <- qmul_assoc, (qmul_assoc (qtr R)), O1, qmul_id_l. exact O2.
  - intros x Hx. rewrite qmvec_mul. apply H1, H2, Hx.
Qed.
Lemma orthogonal_det R : orthogonal R -> qdet R <> 0%Qc.
Proof.
  intros H K. apply (f_equal qdet) in H. rewrite qdet_mul, K in H. unfold qid in H.
  apply (f_equal this) in H. revert H. rewrite Qcmult_0_r. vm_compute. discriminate.
Qed.

(** A finite set closed under multiplication has inverses. *)
Lemma symmetry_inverse P l R : NoDup l -> (forall S, In S l <-> lattice_symmetry P S) -> In R l ->
  exists S, In S l /\ qmul S R = qid.
Proof.
  intros N I HR. assert (DR : qdet R <> 0%Qc) by (apply orthogonal_det; now apply I in HR as (O & _)).
  assert (INC : incl (map (fun S => qmul S R) l) l).
  { intros T HT. apply in_map_iff in HT as (S & <- & HS). apply I. apply symmetry_mul; now apply I. }
  assert (NM : NoDup (map (fun S => qmul S R) l)).
  { clear INC HR I. induction N as [|S l K N IH]; [constructor|]. cbn [map]. constructor; [|exact IH].
    intros J. apply in_map_iff in J as (T & J & HT).
    apply (f_equal (fun M => qmul M (qinv R))) in J. rewrite <- !qmul_assoc, qinv_r, !qmul_id_r in J by exact DR.
    now subst T. }
  assert (J : In qid (map (fun S => qmul S R) l)).
  { apply (NoDup_length_incl (l' := l) NM); [now rewrite map_length|exact INC|]. apply I, symmetry_id. }
  apply in_map_iff in J as (S & E & HS). now exists S.
Qed.

(** The order of the point group of a lattice divides that of every lattice with its symmetries. *)
Lemma order_divides P B m n : qdet P <> 0%Qc -> qdet B <> 0%Qc -> keeps_symmetry P B ->
  point_group_order P m -> point_group_order B n -> (m | n)%Z.
Proof.
  intros HP HB K OP OB. destruct (order_rotations P m HP OP) as (lp & Np & <- & Ip).
  destruct (order_rotations B n HB OB) as (lb & Nb & <- & Ib).
  enough (D : Nat.divide (length lp) (length lb)).
  { destruct D as (q & ->). exists (Z.of_nat q). lia. }
  apply (lagrange qmat_eq_dec qmul qid lp qmul_assoc qmul_id_l); try assumption.
  - apply Ip, symmetry_id.
  - intros R S HR HS. apply Ip, symmetry_mul; now apply Ip.
  - intros R HR. exact (symmetry_inverse P lp R Np Ip HR).
  - intros R S HR HS. apply Ib, symmetry_mul; [apply K; now apply Ip|now apply Ib].
  - intros R R' S HS E. assert (DS : qdet S <> 0%Qc) by (apply orthogonal_det; now apply Ib in HS as (O & _)).
    apply (f_equal (fun M => qmul M (qinv S))) in E. rewrite <- !qmul_assoc, qinv_r, !qmul_id_r in E by exact DS.
    exact E.
Qed.

Lemma family_cases f : (1 <= f <= 7)%Z -> In f [1; 2; 3; 4; 5; 6; 7]%Z.
Proof. cbn [In]. lia. Qed.

(** ** Families *)
Lemma family_le P B f g : qdet P <> 0%Qc -> qdet B <> 0%Qc -> keeps_symmetry P B ->
  in_family P f -> in_family B g -> (g <= f)%Z.
Proof.
  intros HP HB K (Hf & OP) (Hg & OB). pose proof (order_divides P B _ _ HP HB K OP OB) as D.
  clear - Hf Hg D. apply Znumtheory.Zdivide_mod in D. apply family_cases in Hf, Hg.
  repeat (destruct Hf as [<-|Hf]; [|]); try (now destruct Hf);
    repeat (destruct Hg as [<-|Hg]; [|]); try (now destruct Hg); try lia; exfalso; revert D; vm_compute; discriminate.
Qed.
Lemma order_unique U m n : point_group_order U m -> point_group_order U n -> m = n.
Proof.
  intros (l & N & <- & I) (l' & N' & <- & I'). f_equal. apply same_order; try assumption.
  intros X. now rewrite I, I'.
Qed.
Lemma family_unique U f g : in_family U f -> in_family U g -> f = g.
Proof.
  intros (Hf & Of) (Hg & Og). pose proof (order_unique U _ _ Of Og) as E. clear - Hf Hg E.
  apply family_cases in Hf, Hg.
  repeat (destruct Hf as [<-|Hf]; [|]); try (now destruct Hf);
    repeat (destruct Hg as [<-|Hg]; [|]); try (now destruct Hg); try reflexivity; exfalso; revert E; vm_compute; discriminate.
Qed.
Lemma family_change U C f : unimodular C -> in_family U f <-> in_family (qmul U (qof C)) f.
Proof. intros HC. unfold in_family. now rewrite (order_change U C _ HC). Qed.

Lemma family_range b : (1 <= family b <= 7)%Z.
Proof. destruct b; cbn; lia. Qed.
Lemma trivial_family M : (forall X, qisometry (qgram M) X <-> X = mid \/ X = mopp mid) -> in_family M 7.
Proof.
  intros I. split; [lia|]. exists [mid; mopp mid]. split; [|split; [reflexivity|]].
  - constructor; [|constructor; [easy|constructor]]. cbn [In]. intros [Q|[]]. discriminate Q.
  - intros X. rewrite I. cbn [In]. split; intros [Q|Q]; auto; destruct Q as [Q|[]]; auto.
Qed.

(** The family named by the identification of a Niggli cell is that of the cell. *)
Lemma exact_family M r : qdet M <> 0%Qc -> is_niggli M -> id_exact M = Some r -> in_family M (lat_fam r).
Proof.
  intros HD HN E. pose proof (id_exact_group M r HD HN E) as I. assert (HC : consistent r).
  { revert E. unfold id_exact, id_params_tol. cbv zeta. intros E. exact (identify_consistent _ _ _ _ _ _ _ _ _ E). }
  clear E. destruct HC as (K & _ & -> & _). set (k := niggli_num r) in *. clearbody k.
  split; [apply family_range|]. destruct (canonical_basis k) as [B|] eqn:EB.
  - destruct (basis_point_group k B EB) as (l & N & <- & _ & IL).
    assert (U : unimodular (canonical_C k)).
    { apply uni_canonical, in_characters; [exact K|]. now rewrite EB. }
    exists (map (fun X => mmul (mmul (minv1 (canonical_C k)) X) (canonical_C k)) l).
    assert (HC' : unimodular (minv1 (canonical_C k))).
    { pose proof (minv1_det _ U) as Q. unfold unimodular in *. clear - Q U. nia. }
    split; [|split; [now rewrite map_length|]].
    + rewrite (map_ext _ (fun X => mmul (mmul (minv1 (canonical_C k)) X) (minv1 (minv1 (canonical_C k))))).
      * now apply NoDup_conj.
      * intros X. f_equal. symmetry. now apply minv1_inv.
    + intros X. rewrite I, in_map_iff. unfold niggli_gram. rewrite (isometry_change (gram_of k) _ X U), <- IL. split.
      * intros (Y & <- & IY). now rewrite (Proofs_transform.conj_back (canonical_C k) Y U).
      * intros IX. eexists. split; [|exact IX].
        rewrite <- !mmul_assoc, minv1_l, mmul_id_r, mmul_assoc, minv1_l, mmul_id_l by exact U. reflexivity.
  - assert (T : triclinic k).
    { destruct (number_cases k K) as [C|[T|O]]; [|exact T|].
      - destruct C as [-> | [-> | ->]]; discriminate EB.
      - assert (L : In k lattice_numbers) by (apply lattice_number_cases; now right).
        destruct (branch_basis k L) as (B & _ & E & _). congruence. }
    replace (family (character k)) with 7%Z by (destruct T as [-> | ->]; reflexivity).
    now apply trivial_family.
Qed.

Lemma family_exists U : qdet U <> 0%Qc -> exists f, in_family U f.
Proof.
  intros HU. destruct (exact_success U HU) as (n & C & p & _ & _ & HC & HN & _).
  pose proof (det1_unimodular C HC) as UC.
  assert (HD : qdet (qmul U (qof C)) <> 0%Qc).
  { rewrite qdet_mul, qof_det, HC. intros K. apply HU. rewrite <- K. change (zq 1) with 1%Qc. ring. }
  destruct (id_exact (qmul U (qof C))) as [r|] eqn:E.
  - exists (lat_fam r). apply (family_change U C _ UC). now apply exact_family.
  - exists 7%Z. apply (family_change U C _ UC). apply trivial_family. now apply id_hole_group.
Qed.
