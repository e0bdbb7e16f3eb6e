(** Statements about the Fortran enumerators and find_grid as used in the property files. *)
From Coq Require Import ZArith QArith Qcanon List Bool Lia Permutation.
From Verif Require Import Mat3 PyNum Spec QMat QNum Spec_kgrids Bases Model_universal Model_find_kgrids Model_grid_utils
  Model_transform Model_fcc Model_sc Model_bcc Model_sp_hnfs Model_find_grid Proofs_enum_extra Proofs_nodup Proofs_two Proofs_sp_hnfs1 Proofs_sp_hnfs2 Proofs_sp_hnfs3
  Proofs_sp_hnfs4 Proofs_transform Proofs_volumes Proofs_supercells Proofs_grid_utils Proofs_search Proofs_kpd HnfTheory Proofs_find_supercells
  Proofs_find_grid1 Proofs_find_grid2.
Import ListNotations.
Open Scope Z_scope.

Lemma mid_unimodular : unimodular mid. Proof. reflexivity. Qed.

Lemma perm_same (l1 l2 : list mat3) : NoDup l1 -> NoDup l2 -> (forall H, In H l1 <-> In H l2) -> Permutation l1 l2.
Proof. intros. now apply NoDup_Permutation. Qed.

Lemma f_enumerator_correct k enum : 1 <= k <= 44 -> f_enumerator k = Some enum ->
  exists B, canonical_basis k = Some B /\ enumerates_exactly (gram_of k) enum /\
    enumerates_for_basis B eps3 enum /\ lists_each_superlattice_once (gram_of k) enum.
Proof. intros Hk E. exact (ef_basis _ _ (f_enumerator_facts k enum Hk E)). Qed.

Lemma f_cubic_correct k : In k [1; 3; 5] ->
  let enum n := cubic_all (f_cubic_loop k (f_diagonals n)) in
  exists B, canonical_basis k = Some B /\ enumerates_exactly (gram_of k) enum /\
    enumerates_for_basis B eps3 enum /\ lists_each_superlattice_once (gram_of k) enum.
Proof.
  intros Hk enum. destruct Hk as [<-|[<-|[<-|[]]]].
  - exists basis_1. split; [reflexivity|exact f_correct_1].
  - exists basis_3. split; [reflexivity|exact f_correct_3].
  - exists basis_5. split; [reflexivity|exact f_correct_5].
Qed.

Lemma f_tric_correct mult n : 1 <= mult ->
  exists l, f_tric_31_44 mult n = Some l /\ NoDup l /\
    forall K, In K l <-> exists H, is_hnf n H /\ K = mscale mult H.
Proof.
  intros Hm. exists (triclinic_hnfs mult n). split; [apply f_tric_always|].
  split; [apply triclinic_nodup; lia|]. intros K. now apply triclinic_exact.
Qed.

Lemma f_all_kinds k : 1 <= k <= 44 ->
  (In k [1; 3; 5] \/ In k [31; 44]) <-> f_enumerator k = None.
Proof.
  intros Hk. destruct (lat_kind k Hk) as [(_ & H)|[(_ & _ & H)|(H1 & H2 & e & E)]].
  - split; [|tauto]. intros _. destruct H as [<-|[<-|[<-|[]]]]; reflexivity.
  - split; [|cbn; intuition auto]. intros _. destruct H as [->| ->]; reflexivity.
  - rewrite E. split; [|discriminate]. intros H. exfalso. unfold z_in in H1, H2.
    destruct H as [[<-|[<-|[<-|[]]]]|[<-|[<-|[]]]]; discriminate.
Qed.

(** The same lists as the Python program, up to order. *)
Lemma f_same_as_python k n nb l : 1 <= k <= 44 -> 1 <= n -> find_hnfs k n true nb = Some l ->
  (forall enum, f_enumerator k = Some enum -> Permutation (enum n) l) /\
  (In k [1; 3; 5] -> Permutation (cubic_all (f_cubic_loop k (f_diagonals n))) l) /\
  (k = 31 \/ k = 44 -> exists l', f_tric_31_44 1 n = Some l' /\ Permutation l' l).
Proof.
  intros Hk Hn F. destruct (exact_list k n nb mid mid_unimodular Hk Hn) as (l' & F' & ND & I).
  rewrite F in F'. injection F' as <-. split; [|split].
  - intros enum E. destruct (f_enumerator_correct k enum Hk E) as (B & EB & HE & _ & HO).
    apply perm_same; [apply (HO n Hn)|exact ND|]. intros H. rewrite (HE n H), I. unfold working_gram.
    rewrite EB. tauto.
  - intros HC. destruct (f_cubic_correct k HC) as (B & EB & HE & _ & HO).
    apply perm_same; [apply (HO n Hn)|exact ND|]. intros H. rewrite (HE n H), I. unfold working_gram.
    rewrite EB. tauto.
  - intros T. destruct (f_tric_correct 1 n ltac:(lia)) as (l' & E' & ND' & I'). exists l'. split; [exact E'|].
    apply perm_same; [exact ND'|exact ND|]. intros H. rewrite I', I. unfold working_gram.
    rewrite (triclinic_no_basis k T). split.
    + intros (K & HK & ->). rewrite mscale_1. split; [exact HK|]. now apply trivial_preserving.
    + intros (HH & _). exists H. now rewrite mscale_1.
Qed.

(** Arrays. *)
Lemma f_arrays k enum n : 1 <= k <= 44 -> f_enumerator k = Some enum -> 1 <= n ->
  Z.of_nat (length (enum n)) <= f_total_hnfs n.
Proof.
  intros Hk E Hn. destruct (ef_basis _ _ (f_enumerator_facts k enum Hk E)) as (B & _ & HC).
  now apply (correct_fit _ _ _ _ HC).
Qed.

(** Non-empty lists. *)
Lemma f_some k enum n : 1 <= k <= 44 -> f_enumerator k = Some enum -> 1 <= n -> enum n <> [].
Proof. intros Hk E Hn. exact (ef_some _ _ (f_enumerator_facts k enum Hk E) n Hn). Qed.
Lemma f_two k enum m : 1 <= k <= 44 -> f_enumerator k = Some enum -> 1 <= m ->
  (2 <= length (enum (4 * m)%Z))%nat.
Proof.
  intros Hk E Hm. destruct (ef_two _ _ (f_enumerator_facts k enum Hk E) m Hm) as (H & K & N & H1 & K1).
  destruct (enum (4 * m)) as [|x [|y l]]; cbn in H1, K1; [tauto| |cbn [length]; lia].
  destruct H1 as [->|[]], K1 as [->|[]]. now destruct N.
Qed.
Lemma f_cubic_lists k n : In k [1; 3; 5] ->
  (length (cubic_all (f_cubic_loop k (f_diagonals n))) <= 1)%nat /\
  (cubic_all (f_cubic_loop k (f_diagonals n)) <> [] <->
   exists m b, In m (mults_of k) /\ 1 <= b /\ n = m * b ^ 3).
Proof.
  intros Hk. split; [apply cubic_single|].
  assert (T : forall (f p : Z -> list mat3), (forall n H, In H (f n) <-> In H (p n)) -> (f n <> [] <-> p n <> [])).
  { intros f p HI. split; intros HN E; apply HN.
    - destruct (f n) as [|x l] eqn:Ef; [reflexivity|]. exfalso.
      assert (In x (p n)) by (apply HI; rewrite Ef; now left). rewrite E in H. destruct H.
    - destruct (p n) as [|x l] eqn:Ef; [reflexivity|]. exfalso.
      assert (In x (f n)) by (apply HI; rewrite Ef; now left). rewrite E in H. destruct H. }
  destruct Hk as [<-|[<-|[<-|[]]]].
  - change (cubic_all (f_cubic_loop 1 (f_diagonals n))) with (f_fcc_1 n).
    rewrite (T f_fcc_1 fcc_1 in_f_fcc_1), fcc_1_nonempty. unfold mults_of. cbn [Z.eqb Pos.eqb In]. split.
    + intros (b & Hb & [->|[->| ->]]); [exists 1|exists 4|exists 16]; exists b; split; auto; split; lia.
    + intros (m & b & Hm & Hb & ->). exists b. split; [exact Hb|].
      destruct Hm as [<-|[<-|[<-|[]]]]; lia.
  - change (cubic_all (f_cubic_loop 3 (f_diagonals n))) with (f_sc_3 n).
    rewrite (T f_sc_3 sc_3 in_f_sc_3), sc_3_nonempty. unfold mults_of. cbn [Z.eqb Pos.eqb In]. split.
    + intros (b & Hb & [->|[->| ->]]); [exists 1|exists 2|exists 4]; exists b; split; auto; split; lia.
    + intros (m & b & Hm & Hb & ->). exists b. split; [exact Hb|].
      destruct Hm as [<-|[<-|[<-|[]]]]; lia.
  - change (cubic_all (f_cubic_loop 5 (f_diagonals n))) with (f_bcc_5 n).
    rewrite (T f_bcc_5 bcc_5 in_f_bcc_5), bcc_5_nonempty. unfold mults_of. cbn [Z.eqb Pos.eqb In]. split.
    + intros (b & Hb & [->|[->| ->]]); [exists 1|exists 2|exists 4]; exists b; split; auto; split; lia.
    + intros (m & b & Hm & Hb & ->). exists b. split; [exact Hb|].
      destruct Hm as [<-|[<-|[<-|[]]]]; lia.
Qed.
(** The matrix handed on is that HNF, and the zero matrix for all other sizes. *)
Lemma f_cubic_zero k n : In k [1; 3; 5] -> cubic_all (f_cubic_loop k (f_diagonals n)) = [] ->
  cubic_one (f_cubic_loop k (f_diagonals n)) = zero_mat.
Proof.
  intros Hk. unfold cubic_all, cubic_one. set (T := temp_hnf _). destruct (all_zero T) eqn:E; cbn [negb]; [|discriminate].
  intros _. destruct T as [a b c d e f g h i]. unfold all_zero in E. cbn [m11 m12 m13 m21 m22 m23 m31 m32 m33] in E.
  rewrite !andb_true_iff, !Z.eqb_eq in E. unfold zero_mat. intuition (subst; reflexivity).
Qed.

(** ** find_grid *)
Section Statement.
  Context {Off : Type}.
  Context (undefined : mat3 -> qmat) (mink : qmat -> qmat) (rmin : qmat -> Qc)
          (packed : qmat -> bool) (equal : Qc -> Qc -> bool) (eps : Qc)
          (irr1 irr2 : qmat -> Off -> option Z) (offsets : list Off).
  Context (U O : qmat) (Cu Co : mat3) (k : Z).
  Local Notation grid_of := (f_grid undefined (qmul O (qof Co)) (qmul U (qof Cu)) Co Cu O).

  Lemma fg_sound fuel s_range kpd root min_kpts g o :
    positive irr1 -> (qdet U <> 0)%Qc -> (qdet O <> 0)%Qc -> unimodular Cu -> unimodular Co -> 1 <= k <= 44 ->
    (forall B, (qdet B <> 0)%Qc -> exists Y, unimodular Y /\ mink B = qmul B (qof Y)) ->
    (k <> 31 /\ k <> 44 /\ symmetries_within U Cu Co (gram_of k)) \/
    ((k = 31 \/ k = 44) /\ forall X, qisometry (qgram (qmul U (qof Cu))) X -> X = mid \/ X = mopp mid) ->
    1 <= kpd ->
    find_grid grid_of mink rmin packed equal eps irr1 irr2 offsets fuel k s_range kpd root min_kpts = Found g o ->
    exists n s, kgrid n U g /\ keeps_symmetry U g /\ o = Some s /\ In s offsets /\
      (k <> 31 /\ k <> 44 -> kpd <= n) /\
      (k = 31 \/ k = 44 -> exists m a, 1 <= m /\ n = m ^ 3 * a /\ kpd / m ^ 3 <= a).
  Proof.
    intros H1 H2 H3 H4 H5 H6 H7 H8 Hkpd E.
    destruct (find_grid_sound grid_of mink rmin packed equal eps irr1 irr2 offsets H1 U Cu Co k H2 H4 H5 H6 H7
                (fun H => f_grid_exact undefined U O Cu Co H H2 H3 H4 H5) H8 fuel s_range kpd root min_kpts g o Hkpd E)
      as (n & s & HS & (HG1 & HG2) & Eo & Hs).
    exists n, s. unfold size_fits in HS. do 4 (split; [assumption|]). split.
    - intros (K1 & K2). unfold z_in in HS. cbn [existsb] in HS.
      destruct (Z.eqb_spec k 44); [congruence|]. destruct (Z.eqb_spec k 31); [congruence|]. exact HS.
    - intros [->| ->]; exact HS.
  Qed.

  Context (H1 : positive irr1) (H2 : (qdet U <> 0)%Qc) (H3 : (qdet O <> 0)%Qc) (H4 : unimodular Cu)
          (H5 : unimodular Co) (H6 : 1 <= k <= 44)
          (He0 : (0 <= eps)%Qc) (He1 : (eps < 1)%Qc)
          (Heq : forall t r, equal t r = true -> (t <= r + t * eps)%Qc)
          (Hrmin : forall H, mdet H <> 0 -> (0 < rmin (mink (grid_of H)))%Qc)
          (Hans : forall H, mdet H <> 0 ->
             (exists s m, In s offsets /\ irr1 (mink (grid_of H)) s = Some m) /\
             (exists s m, In s offsets /\ irr1 (grid_of H) s = Some m)).

  Lemma fg_ends_general fuel s_range kpd root min_kpts enum : 1 <= kpd -> 5 <= s_range ->
    f_enumerator k = Some enum ->
    (forall n, kpd <= n < kpd + 20 -> (4 | n) -> exists H, In H (enum n) /\ packed (mink (grid_of H)) = true) ->
    (20 < fuel)%nat -> s_range < Z.of_nat fuel ->
    exists g o,
      find_grid grid_of mink rmin packed equal eps irr1 irr2 offsets fuel k s_range kpd root min_kpts = Found g o.
  Proof.
    intros Hkpd Hs Ee HP Hf1 Hf2.
    exact (find_grid_general grid_of mink rmin packed equal eps irr1 irr2 offsets H1 k H6
                He0 He1 Heq Hrmin Hans fuel s_range kpd root min_kpts enum Hkpd Hs Ee HP Hf1 Hf2).
  Qed.
  Lemma fg_ends_tric s_range kpd root min_kpts : k = 31 \/ k = 44 -> 1 <= kpd ->
    (forall n mult, 1 <= n -> 1 <= mult -> exists H, is_hnf n H /\ packed (mink (grid_of (mscale mult H))) = true) ->
    exists fuel1, forall fuel, (fuel1 <= fuel)%nat -> exists g o,
      find_grid grid_of mink rmin packed equal eps irr1 irr2 offsets fuel k s_range kpd root min_kpts = Found g o.
  Proof.
    intros Ht Hkpd HP. destruct (kpd_tric_spec kpd Hkpd) as (f0 & mult & HF).
    destruct (HF f0 (le_n _)) as (_ & Hm & (Hq & _) & _).
    exact (find_grid_tric grid_of mink rmin packed equal eps irr1 irr2 offsets H1 k H6
             He0 He1 Heq Hrmin Hans f0 mult s_range kpd root min_kpts Ht Hkpd
             (fun f Hf => proj1 (HF f Hf)) Hm Hq (HP _ _ Hq Hm)).
  Qed.
  Lemma fg_ends_cubic fuel s_range kpd root min_kpts : In k [1; 3; 5] ->
    1 <= kpd <= 830583 -> root_approx kpd root ->
    exists g o,
      find_grid grid_of mink rmin packed equal eps irr1 irr2 offsets fuel k s_range kpd root min_kpts = Found g o.
  Proof.
    intros Hc Hkpd Hroot.
    exact (find_grid_cubic grid_of mink rmin packed equal eps irr1 irr2 offsets H1 k H6 Hans
             fuel s_range kpd root min_kpts Hc Hkpd Hroot).
  Qed.
End Statement.
