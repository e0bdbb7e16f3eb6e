(** [find_supercells] from beginning to end. *)
From Coq Require Import ZArith QArith Qcanon List Bool Lia.
From Verif Require Import Mat3 PyNum Spec QMat QNum QcTac Spec_grid Spec_find Spec_niggli Bases Bases_niggli NearSym PointGroup Proofs_niggli_group
  Model_universal Model_transform Model_pyniggli Model_niggli_id Model_find_supercells
  HnfTheory Proofs_pyniggli Proofs_pyniggli2 Proofs_pyniggli3 Proofs_transform Proofs_volumes
  Proofs_supercells Proofs_enum_extra Proofs_niggli_id Proofs_niggli_id3 Proofs_niggli_canon Spec_clear Proofs_clear4.
Import ListNotations.
Open Scope Qc_scope.

Lemma as_matrix_rows M : as_matrix (rows_of M) = M.
Proof. unfold as_matrix. now rewrite as_3x3_rows. Qed.
Lemma basis_rows_of M : basis_rows (Some M) = rows_of M.
Proof. destruct M. reflexivity. Qed.

(** What happens once the cell is identified. *)
Record parts (U : qmat) (k : Z) (Cu Co : mat3) (O : qmat) : Prop := {
  pt_det : qdet U <> 0;
  pt_odet : qdet O <> 0;
  pt_cu : mdet Cu = 1%Z;
  pt_co : mdet Co = 1%Z;
  pt_kind : (triclinic k /\ O = U /\ Co = Cu) \/
            (exists B, canonical_basis k = Some B /\ O = dec_basis B /\ Co = canonical_C k) }.

Lemma det1_unimodular C : mdet C = 1%Z -> unimodular C.
Proof. intros H. unfold unimodular. now rewrite H. Qed.

Lemma id_reduced cbrt rows r : niggli_id cbrt rows None None = Identified r ->
  exists U Cu, rows = rows_of U /\ qdet U <> 0 /\ mdet Cu = 1%Z /\
    reduced_cell cbrt rows None = Reduced (qmul U (qof Cu)) Cu.
Proof.
  unfold niggli_id. cbv zeta.
  destruct (reduced_cell cbrt rows None) as [| | | |N C] eqn:R; try discriminate. intros _.
  destruct (reduced_cell_Reduced _ _ _ _ _ R) as (U & E & D & HR).
  destruct (reduction_Reduced _ _ _ _ HR) as (HD & EN & _ & _).
  exists U, C. subst N. repeat split; assumption.
Qed.

Lemma number_kind r : consistent r ->
  triclinic (niggli_num r) /\ z_in (niggli_num r) [31; 44]%Z = true \/
  exists B, canonical_basis (niggli_num r) = Some B /\ z_in (niggli_num r) [31; 44]%Z = false /\
    id_basis r = Some (dec_basis B) /\ In (niggli_num r) lattice_numbers.
Proof.
  intros (Hk & _ & _ & HB). set (k := niggli_num r) in *. clearbody k.
  destruct (number_cases k Hk) as [C|[T|O]].
  - right. assert (L : In k lattice_numbers) by (apply lattice_number_cases; now left).
    assert (Z : z_in k [31; 44]%Z = false) by (destruct C as [-> | [-> | ->]]; reflexivity).
    destruct (canonical_basis k) as [B|] eqn:E.
    + exists B. repeat split; assumption.
    + destruct C as [-> | [-> | ->]]; discriminate E.
  - left. split; [exact T|]. destruct T as [-> | ->]; reflexivity.
  - right. assert (L : In k lattice_numbers) by (apply lattice_number_cases; now right).
    destruct (branch_basis k L) as (B & _ & E & _). rewrite E in HB. exists B.
    assert (Z : z_in k [31; 44]%Z = false).
    { apply other_not in O. destruct O as (_ & O). unfold triclinic in O. clear - O. unfold z_in.
      cbn [existsb]. destruct (Z.eqb_spec k 31); [tauto|]. destruct (Z.eqb_spec k 44); [tauto|].
      reflexivity. }
    repeat split; assumption.
Qed.

Lemma qabs_pos x : x <> 0 -> 0 < qabs x.
Proof.
  intros H. unfold qabs. destruct (qltb x 0) eqn:E.
  - apply qltb_iff in E. qclra.
  - apply qltb_false in E. apply Qcle_lt_or_eq in E. destruct E as [E|E]; [exact E|now symmetry in E].
Qed.

Lemma fs_form cbrt rows r : cube_root cbrt -> niggli_id cbrt rows None None = Identified r ->
  exists U Cu Co O, rows = rows_of U /\ parts U (niggli_num r) Cu Co O /\
    reduced_cell cbrt rows None = Reduced (qmul U (qof Cu)) Cu /\
    forall kpt exact nb, find_supercells cbrt rows kpt exact nb =
      match find_hnfs (niggli_num r) kpt exact nb with
      | None => NoLattice
      | Some hs => Supercells (map (fun H => qmul U (qof (carried Cu Co H))) hs)
      end.
Proof.
  intros HR HI. destruct (id_reduced cbrt rows r HI) as (U & Cu & -> & HU & HCu & RU).
  pose proof (niggli_id_consistent _ _ _ _ _ HI) as HC.
  destruct (number_kind r HC) as [(T & Z)|(B & HB & Z & EB & L)].
  - exists U, Cu, Cu, U. split; [reflexivity|].
    split; [exact (Build_parts U _ Cu Cu U HU HU HCu HCu (or_introl (conj T (conj eq_refl eq_refl))))|]. split; [exact RU|]. intros kpt exact nb.
    unfold find_supercells. rewrite HI. cbv zeta. rewrite RU, Z, RU, as_matrix_rows.
    destruct (find_hnfs _ _ _ _); [|reflexivity].
    rewrite (transform_map U U Cu Cu _ HU HU (det1_unimodular _ HCu) (det1_unimodular _ HCu)). reflexivity.
  - pose proof (dec_basis_det _ _ HB) as HO.
    destruct (canonical_reduced cbrt _ B HB (HR _ (qabs_pos _ HO))) as (HCo & RO).
    exists U, Cu, (canonical_C (niggli_num r)), (dec_basis B). split; [reflexivity|].
    split; [refine (Build_parts U _ Cu _ _ HU HO HCu HCo (or_intror _)); exists B; exact (conj HB (conj eq_refl eq_refl))|]. split; [exact RU|].
    intros kpt exact nb.
    unfold find_supercells. rewrite HI. cbv zeta. rewrite RU, Z, EB, basis_rows_of, RO, as_matrix_rows.
    destruct (find_hnfs _ _ _ _); [|reflexivity].
    rewrite (transform_map U _ Cu _ _ HU HO (det1_unimodular _ HCu) (det1_unimodular _ HCo)). reflexivity.
Qed.

(** ** Failures come from the user's cell only *)
Lemma fs_outcomes cbrt rows kpt exact nb : cube_root cbrt -> (1 <= kpt)%Z ->
  (exists o, niggli_id cbrt rows None None = ReductionFailed o /\
     find_supercells cbrt rows kpt exact nb = NotReduced o) \/
  (niggli_id cbrt rows None None = Unbound /\
     find_supercells cbrt rows kpt exact nb = NotIdentified) \/
  (exists r l, niggli_id cbrt rows None None = Identified r /\
     find_supercells cbrt rows kpt exact nb = Supercells l).
Proof.
  intros HR Hk. destruct (niggli_id cbrt rows None None) as [o| |r] eqn:HI.
  - left. exists o. split; [reflexivity|]. unfold find_supercells. now rewrite HI.
  - right. left. split; [reflexivity|]. unfold find_supercells. now rewrite HI.
  - right. right. exists r. destruct (fs_form cbrt rows r HR HI) as (U & Cu & Co & O & _ & _ & _ & F).
    destruct (niggli_id_consistent _ _ _ _ _ HI) as (K & _).
    pose proof (all_handled (niggli_num r) kpt exact nb K Hk) as A.
    destruct (find_hnfs (niggli_num r) kpt exact nb) as [hs|] eqn:E; [|contradiction].
    eexists. split; [reflexivity|]. rewrite F, E. reflexivity.
Qed.

(** ** Whatever the cell, the results are supercells of it *)
Lemma fs_supercells cbrt rows kpt exact nb l : cube_root cbrt -> (1 <= kpt)%Z ->
  find_supercells cbrt rows kpt exact nb = Supercells l ->
  exists U r hs, rows = rows_of U /\ niggli_id cbrt rows None None = Identified r /\
    find_hnfs (niggli_num r) kpt exact nb = Some hs /\
    Forall2 (fun H B => supercell (mdet H) U B) hs l.
Proof.
  intros HR Hk HF. destruct (fs_outcomes cbrt rows kpt exact nb HR Hk)
    as [(o & _ & E)|[(_ & E)|(r & l' & HI & E)]]; rewrite E in HF; try discriminate HF.
  injection HF as ->. destruct (fs_form cbrt rows r HR HI) as (U & Cu & Co & O & EU & P & _ & F).
  rewrite F in E. destruct (find_hnfs (niggli_num r) kpt exact nb) as [hs|] eqn:EH; [|discriminate E].
  injection E as <-. exists U, r, hs. split; [exact EU|]. split; [exact HI|]. split; [exact EH|].
  destruct P as [P1 P2 P3 P4 _].
  clear - P3 P4. induction hs as [|H hs IH]; [constructor|]. cbn [map]. constructor; [|exact IH].
  exists (carried Cu Co H). split; [reflexivity|]. now apply carried_det; apply det1_unimodular.
Qed.

(** ** Grid cells *)
(** A Gram matrix without symmetries whose transform by [C] is [mtric1]. *)
Definition tric_gram (C : mat3) : mat3 := mmul (mtr (minv1 C)) (mmul mtric1 (minv1 C)).
Lemma tric_gram_iso C X : unimodular C ->
  isometry (mmul (mtr C) (mmul (tric_gram C) C)) X <-> X = mid \/ X = mopp mid.
Proof.
  intros HC. assert (E : mmul (mtr C) (mmul (tric_gram C) C) = mtric1).
  { unfold tric_gram. pose proof (minv1_l C HC) as E1.
    pose proof (f_equal mtr (minv1_l C HC)) as T1. rewrite mtr_mul in T1. change (mtr mid) with mid in T1.
    rewrite <- !mmul_assoc, E1, mmul_id_r, mmul_assoc, T1, mmul_id_l. reflexivity. }
  rewrite E. clear. split; [intros H; exact (mtric_iso X (or_introl H))|].
  intros [-> | ->]; vm_compute; reflexivity.
Qed.
Lemma trivial_preserving C H : unimodular C -> symmetry_preserving (tric_gram C) H.
Proof.
  intros HC X HX.
  assert (K : X = mid \/ X = mopp mid).
  { set (Y := mmul (mmul (minv1 C) X) C).
    assert (EX : X = mmul (mmul C Y) (minv1 C)).
    { unfold Y. rewrite <- !mmul_assoc, minv1_r, mmul_id_r, mmul_assoc, minv1_r, mmul_id_l by exact HC.
      reflexivity. }
    rewrite EX in HX. apply (proj2 (isometry_change _ C Y HC)) in HX.
    apply (proj1 (tric_gram_iso C Y HC)) in HX. rewrite EX. destruct HX as [-> | ->].
    - left. rewrite mmul_id_r. now apply minv1_r.
    - right. rewrite mmul_opp_r, mmul_id_r, mmul_opp_l. f_equal. now apply minv1_r. }
  destruct K as [-> | ->]; [|apply inversion_preserves].
  intros x HL. now rewrite mvec_id.
Qed.

(** The Gram matrix whose superlattices [find_supercells] looks for. *)
Definition working_gram (k : Z) (C : mat3) : mat3 :=
  match canonical_basis k with Some _ => gram_of k | None => tric_gram C end.
Lemma triclinic_no_basis k : triclinic k -> canonical_basis k = None.
Proof. intros [-> | ->]; reflexivity. Qed.

Lemma clear_same_symmetries cbrt L U r Cu Co O : clear_cell cbrt L U ->
  niggli_id cbrt (rows_of U) None None = Identified r ->
  reduced_cell cbrt (rows_of U) None = Reduced (qmul U (qof Cu)) Cu ->
  parts U (niggli_num r) Cu Co O ->
  same_symmetries U Cu Co (working_gram (niggli_num r) Co).
Proof.
  intros HG HI HR [P1 P2 P3 P4 P5] X.
  destruct (clear_identified cbrt L U r HG HI) as (N & C & R & EN & _ & _ & S).
  rewrite HR in R. injection R as E1 E2. rewrite <- E1 in S. rewrite S. unfold working_gram.
  destruct P5 as [(T & _ & ->)|(B & HB & _ & ->)].
  - rewrite (triclinic_no_basis _ T). rewrite tric_gram_iso by now apply det1_unimodular. tauto.
  - rewrite HB. unfold niggli_gram. tauto.
Qed.

Lemma exact_list k n nb C : unimodular C -> (1 <= k <= 44)%Z -> (1 <= n)%Z ->
  exists l, find_hnfs k n true nb = Some l /\ NoDup l /\
    forall H, In H l <-> is_hnf n H /\ symmetry_preserving (working_gram k C) H.
Proof.
  intros HC Hk Hn. destruct (number_cases k Hk) as [K|[T|K]].
  2: { destruct (exact_mode_triclinic k n nb T) as (l & F & N & I). exists l.
       split; [exact F|]. split; [exact N|]. intros H. rewrite I. unfold working_gram.
       rewrite (triclinic_no_basis k T). split; [|tauto]. intros HH. split; [exact HH|].
       now apply trivial_preserving. }
  all: assert (LN : In k lattice_numbers) by (apply lattice_number_cases; tauto);
    destruct (exact_mode k n nb LN) as (l & F & N & I); exists l;
    (split; [exact F|]); (split; [exact N|]); intros H; rewrite I; unfold working_gram;
    destruct (branch_basis k LN) as (B & _ & -> & _); tauto.
Qed.

Lemma exact_carried cbrt L U r Cu Co O n nb : clear_cell cbrt L U ->
  niggli_id cbrt (rows_of U) None None = Identified r ->
  reduced_cell cbrt (rows_of U) None = Reduced (qmul U (qof Cu)) Cu ->
  parts U (niggli_num r) Cu Co O -> (1 <= n)%Z ->
  exists hs, find_hnfs (niggli_num r) n true nb = Some hs /\
    all_supercells U n (map (fun H => qmul U (qof (carried Cu Co H))) hs).
Proof.
  intros HG HI HR HP Hn. pose proof (clear_same_symmetries _ _ _ _ _ _ _ HG HI HR HP) as HS.
  destruct HP as [P1 P2 P3 P4 P5]. apply det1_unimodular in P3, P4.
  destruct (niggli_id_consistent _ _ _ _ _ HI) as (K & _).
  destruct (exact_list (niggli_num r) n nb Co P4 K Hn) as (hs & F & N & I).
  exists hs. split; [exact F|].
  destruct (transform_complete U O Cu Co _ n hs P1 P2 P3 P4 Hn HS I N) as (l & T & A).
  rewrite transform_map in T by assumption. injection T as <-. exact A.
Qed.

Lemma id_result_fail x o : id_result x <> ReductionFailed o.
Proof. destruct x; discriminate. Qed.
Lemma clear_fail cbrt L U o : clear_cell cbrt L U ->
  niggli_id cbrt (rows_of U) None None = ReductionFailed o -> o = TooManyIterations.
Proof.
  intros HG HI. destruct (clear_niggli_id cbrt L U HG) as [K|(N & C & _ & _ & _ & _ & _ & K)].
  - apply niggli_id_too_many in K. rewrite K in HI. injection HI as HI. now symmetry.
  - rewrite K in HI. now apply id_result_fail in HI.
Qed.

Lemma fs_exact cbrt L U n nb : cube_root cbrt -> clear_cell cbrt L U -> (1 <= n)%Z ->
  find_supercells cbrt (rows_of U) n true nb = NotReduced TooManyIterations \/
  (find_supercells cbrt (rows_of U) n true nb = NotIdentified /\
   forall X, qisometry (qgram U) X <-> X = mid \/ X = mopp mid) \/
  exists l, find_supercells cbrt (rows_of U) n true nb = Supercells l /\ all_supercells U n l.
Proof.
  intros HR HG Hn.
  destruct (fs_outcomes cbrt (rows_of U) n true nb HR Hn)
    as [(o & HI & E)|[(HI & E)|(r & l & HI & E)]].
  - left. rewrite (clear_fail cbrt L U o HG HI) in E. exact E.
  - right. left. split; [exact E|]. exact (clear_unbound cbrt L U HG HI).
  - right. right. destruct (fs_form cbrt _ r HR HI) as (U' & Cu & Co & O & EU & P & RU & F).
    assert (U' = U) as ->.
    { apply (f_equal as_matrix) in EU. now rewrite !as_matrix_rows in EU. }
    destruct (exact_carried cbrt L U r Cu Co O n nb HG HI RU P Hn) as (hs & FH & A).
    eexists. rewrite F, FH. split; [reflexivity|exact A].
Qed.

(** The default mode: the sizes it uses, and everything for each of them. *)
Lemma mscale_det m H : mdet (mscale m H) = (m * m * m * mdet H)%Z.
Proof. unfold mdet, mscale. cbn [m11 m12 m13 m21 m22 m23 m31 m32 m33]. ring. Qed.

(** The HNFs of the default mode preserve the working symmetry, and there are some. *)
Lemma default_list k kpt nb C : unimodular C -> (1 <= k <= 44)%Z -> (1 <= kpt)%Z -> root_guess kpt nb ->
  exists l vs, find_hnfs k kpt false nb = Some l /\ l <> [] /\ default_sizes k kpt vs /\
    (forall H, In H l -> In (mdet H) vs /\ symmetry_preserving (working_gram k C) H) /\
    (~ triclinic k -> forall v H, In v vs -> is_hnf v H -> symmetry_preserving (working_gram k C) H -> In H l).
Proof.
  intros HC Hk Hp HN. destruct (number_cases k Hk) as [K|[T|K]].
  - assert (LN : In k lattice_numbers) by (apply lattice_number_cases; tauto).
    destruct (branch_basis k LN) as (B & _ & EB & _).
    destruct (default_mode_cubic k kpt nb K Hp HN) as (x & y & z & l & _ & F & NE & H1 & H2 & I).
    exists l, [x; y; z]. split; [exact F|]. split; [exact NE|].
    unfold working_gram. rewrite EB. split; [|split].
    + right. split; [destruct K as [-> | [-> | ->]]; unfold triclinic; lia|]. cbn [In]. intros v Hv. unfold cubic in K. lia.
    + intros H HH. apply I in HH. destruct HH as (v & Iv & Hh & HS).
      rewrite (proj1 (is_hnf_det v H Hh)). exact (conj Iv HS).
    + intros _ v H Iv Hh HS. apply I. exists v. repeat split; assumption.
  - destruct (find_volumes_tric k kpt nb T Hp) as (n & m & FV & Hm & _ & _ & Hnn & Hmn).
    destruct (default_mode_triclinic k kpt nb T Hp) as (n' & m' & l & FV' & F & NE & _ & I).
    rewrite FV in FV'. injection FV' as <- <-.
    exists l, [(m * m * m * n)%Z]. split; [exact F|]. split; [exact NE|].
    replace (m ^ 3)%Z with (m * m * m)%Z in Hmn by ring.
    split; [left; split; [exact T|]; exists n, m; repeat split; lia|]. split.
    + intros H HH. apply I in HH. destruct HH as (H0 & Hh & ->).
      rewrite mscale_det, (proj1 (is_hnf_det n H0 Hh)). split; [now left|].
      unfold working_gram. rewrite (triclinic_no_basis k T). now apply trivial_preserving.
    + intros NT. contradiction.
  - assert (LN : In k lattice_numbers) by (apply lattice_number_cases; tauto).
    destruct (branch_basis k LN) as (B & _ & EB & _).
    destruct (default_mode_other k kpt nb K Hp) as (l & F & NE & _ & vs & _ & _ & V & I).
    exists l, vs. split; [exact F|]. split; [exact NE|].
    unfold working_gram. rewrite EB. split; [|split].
    + right. split; [apply (other_not k K)|]. intros v Hv. apply V in Hv. split; [lia|]. right. right. right. lia.
    + intros H HH. apply I in HH. destruct HH as (v & Iv & Hh & HS).
      rewrite (proj1 (is_hnf_det v H Hh)). exact (conj Iv HS).
    + intros _ v H Iv Hh HS. apply I. exists v. repeat split; assumption.
Qed.

Lemma fs_default cbrt L U r kpt nb : cube_root cbrt -> clear_cell cbrt L U -> (1 <= kpt)%Z ->
  root_guess kpt nb -> niggli_id cbrt (rows_of U) None None = Identified r ->
  exists l vs, find_supercells cbrt (rows_of U) kpt false nb = Supercells l /\ l <> [] /\
    default_sizes (niggli_num r) kpt vs /\
    Forall (fun B => (exists m, In m vs /\ supercell m U B) /\ keeps_symmetry U B) l /\
    (~ triclinic (niggli_num r) -> forall v B, In v vs -> supercell v U B -> keeps_symmetry U B ->
       exists S, In S l /\ same_span S B).
Proof.
  intros HR HG Hp HN HI. destruct (fs_form cbrt _ r HR HI) as (U' & Cu & Co & O & EU & P & RU & F).
  assert (U' = U) as ->.
  { apply (f_equal as_matrix) in EU. now rewrite !as_matrix_rows in EU. }
  pose proof (clear_same_symmetries _ _ _ _ _ _ _ HG HI RU P) as HS.
  pose proof P as [P1 P2 P3 P4 P5]. apply det1_unimodular in P3, P4.
  destruct (niggli_id_consistent _ _ _ _ _ HI) as (K & _).
  destruct (default_list (niggli_num r) kpt nb Co P4 K Hp HN) as (hs & vs & FH & NE & SZ & A & CM).
  exists (map (fun H => qmul U (qof (carried Cu Co H))) hs), vs. rewrite F, FH. split; [reflexivity|].
  split; [destruct hs; [contradiction|discriminate]|]. split; [exact SZ|]. split.
  - apply Forall_forall. intros B HB. apply in_map_iff in HB. destruct HB as (H & <- & HH).
    destruct (A H HH) as (A1 & A2). split.
    + exists (mdet H). split; [exact A1|]. exists (carried Cu Co H). split; [reflexivity|].
      now apply carried_det.
    + apply (carried_symmetry U Cu Co (working_gram (niggli_num r) Co)); try assumption.
      intros X HX. now apply HS.
  - intros NT v B Iv HB KB.
    destruct SZ as [(T & _)|(_ & SZ)]; [contradiction|]. destruct (SZ v Iv) as (SV & _). clear SZ.
    destruct (exact_carried cbrt L U r Cu Co O v nb HG HI RU P ltac:(lia)) as (hv & FV & _ & AV & _).
    destruct (AV B v HB ltac:(lia) KB) as (S & IS & SS). exists S. split; [|exact SS].
    apply in_map_iff in IS. destruct IS as (H & <- & IH). apply in_map_iff. exists H.
    split; [reflexivity|].
    destruct (exact_list (niggli_num r) v nb Co P4 K ltac:(lia)) as (hv' & FV' & _ & I).
    rewrite FV in FV'. injection FV' as <-. apply I in IH. destruct IH as (I1 & I2).
    exact (CM NT v H Iv I1 I2).
Qed.

Lemma fs_failures cbrt rows kpt exact nb : cube_root cbrt -> (1 <= kpt)%Z ->
  match find_supercells cbrt rows kpt exact nb with
  | NotReduced o => niggli_id cbrt rows None None = ReductionFailed o
  | NotIdentified => niggli_id cbrt rows None None = Unbound
  | Supercells _ => exists r, niggli_id cbrt rows None None = Identified r
  | BasisNotReduced _ | NoLattice | Singular => False
  end.
Proof.
  intros HR Hk. destruct (fs_outcomes cbrt rows kpt exact nb HR Hk)
    as [(o & HI & E)|[(HI & E)|(r & l & HI & E)]]; rewrite E; [exact HI|exact HI|now exists r].
Qed.
Lemma default_positive k kpt nb hs H : (1 <= k <= 44)%Z -> (1 <= kpt)%Z ->
  find_hnfs k kpt false nb = Some hs -> In H hs -> (1 <= mdet H)%Z.
Proof.
  intros Hk Hp F I. destruct (number_cases k Hk) as [K|[T|K]].
  - destruct (cubic_branch k K) as (enum & E & HE & _).
    assert (V : exists vs, find_volumes k kpt nb = Some (vs, None)).
    { destruct K as [-> | [-> | ->]]; eexists; [apply find_volumes_1|apply find_volumes_35; now left|
        apply find_volumes_35; now right]. }
    destruct V as (vs & V). unfold find_hnfs in F. cbn [negb] in F. rewrite V, E in F.
    injection F as <-. unfold collect_all, py_for in I. apply in_flat_map in I.
    destruct I as (v & _ & I). apply HE in I. destruct I as (I1 & I2 & _).
    rewrite (proj1 (is_hnf_det v H I2)). exact I1.
  - destruct (find_volumes_tric k kpt nb T Hp) as (n & m & FV & Hm & _ & _ & Hnn & Hmn).
    destruct (default_mode_triclinic k kpt nb T Hp) as (n' & m' & l & FV' & F' & _ & _ & J).
    rewrite FV in FV'. injection FV' as <- <-. rewrite F in F'. injection F' as <-.
    apply J in I. destruct I as (H0 & Hh & ->).
    rewrite mscale_det, (proj1 (is_hnf_det n H0 Hh)). clear - Hm Hnn.
    assert (1 <= m * m * m)%Z by nia. nia.
  - destruct (default_mode_other k kpt nb K Hp) as (l & F' & _ & A & _).
    rewrite F in F'. injection F' as <-. apply A in I. lia.
Qed.
Lemma fs_members cbrt rows kpt exact nb l : cube_root cbrt -> (1 <= kpt)%Z ->
  find_supercells cbrt rows kpt exact nb = Supercells l ->
  exists U, rows = rows_of U /\ qdet U <> 0 /\
    forall B, In B l -> exists n, (1 <= n)%Z /\ supercell n U B /\ (exact = true -> n = kpt).
Proof.
  intros HR Hk HF. destruct (fs_supercells cbrt rows kpt exact nb l HR Hk HF) as (U & r & hs & EU & HI & FH & A).
  destruct (id_reduced cbrt rows r HI) as (U' & Cu & EU' & HU & _).
  assert (U' = U) as ->.
  { rewrite EU in EU'. apply (f_equal as_matrix) in EU'. rewrite !as_matrix_rows in EU'. now symmetry. }
  exists U. split; [exact EU|]. split; [exact HU|]. intros B HB.
  assert (S : exists H, In H hs /\ supercell (mdet H) U B).
  { clear - A HB. induction A as [|H B' hs l A1 A2 IH]; [destruct HB|].
    destruct HB as [->|HB]; [exists H; split; [now left|exact A1]|].
    destruct (IH HB) as (K & K1 & K2). exists K. split; [now right|exact K2]. }
  destruct S as (H & IH & SH). exists (mdet H).
  destruct (niggli_id_consistent _ _ _ _ _ HI) as (K & _).
  assert (D : (1 <= mdet H)%Z /\ (exact = true -> mdet H = kpt)).
  { destruct exact.
    - destruct (exact_list (niggli_num r) kpt nb mid eq_refl K Hk) as (hs' & FH' & _ & I).
      rewrite FH in FH'. injection FH' as <-. apply I in IH. destruct IH as (I1 & _).
      rewrite (proj1 (is_hnf_det _ _ I1)). split; [exact Hk|reflexivity].
    - split; [|discriminate]. exact (default_positive (niggli_num r) kpt nb hs H K Hk FH IH). }
  destruct D as (D1 & D2). split; [exact D1|]. split; [exact SH|exact D2].
Qed.
