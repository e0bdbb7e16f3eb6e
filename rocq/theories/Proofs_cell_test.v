(** Lemmas for C69 and C70. *)
From Coq Require Import ZArith QArith Qcanon Qround List Bool Lia.
From Verif Require Import Mat3 PyNum PyNumFacts Spec QMat QNum QcTac Spec_grid Spec_find Spec_niggli Spec_niggli_f90 Spec_clear Spec_id
  Spec_basis_check Bases Bases_niggli Model_universal Model_transform Model_pyniggli Model_niggli_id Model_find_supercells
  Model_basis_check Model_cell_test Proofs_pyniggli Proofs_pyniggli2 Proofs_pyniggli3 Proofs_niggli_id2 Proofs_niggli_id3 Proofs_niggli_canon Proofs_transform Proofs_volumes
  Proofs_supercells Proofs_find_supercells Proofs_clear4 Proofs_passes Proofs_passes2 Proofs_gridcell Proofs_basis_check Proofs_family Proofs_scale Proofs_clear Proofs_clear2.
Import ListNotations.

(** ** Identification with another tolerance *)
Lemma clear_at_id cbrt e L U : clear_at cbrt e L U ->
  let Cu := fst (fst (final 0 U)) in let N := qmul U (qof Cu) in
  if Z.leb 1000 (snd (final 0 U)) then
    niggli_id cbrt (rows_of U) (Some e) None = ReductionFailed TooManyIterations
  else mdet Cu = 1%Z /\ is_niggli N /\ niggli_id cbrt (rows_of U) (Some e) None = id_result (id_exact N).
Proof.
  intros [HM HL He Hc H1 H2]. cbv zeta.
  assert (E : reduced_cell cbrt (rows_of U) (Some e) = niggli_reduction (e * cbrt (qabs (qdet U))) U)
    by now apply reduced_cell_eps.
  assert (He' : (0 <= e * cbrt (qabs (qdet U)))%Qc).
  { replace (0%Qc) with (e * 0)%Qc by ring. apply pos_le; [exact He|exact Hc]. }
  pose proof (clear_reduction _ L U HM HL He' H1) as K. cbv zeta in K.
  unfold niggli_id. cbv zeta. rewrite E.
  set (C := fst (fst (final 0 U))) in *. clearbody C.
  destruct (Z.leb 1000 (snd (final 0 U))); [now rewrite K|].
  destruct K as (HC & HN & K). split; [exact HC|]. split; [exact HN|]. rewrite K. f_equal.
  now apply (id_clear U C L).
Qed.
(** The identification of a clear cell names its family; it fails only at the limit of passes, and
    cells without an answer are triclinic. *)
Lemma clear_at_family cbrt e L U : clear_at cbrt e L U ->
  match niggli_id cbrt (rows_of U) (Some e) None with
  | ReductionFailed o => o = TooManyIterations /\ ~ few_sums 43 U
  | Unbound => in_family U 7
  | Identified r => in_family U (lat_fam r)
  end.
Proof.
  intros HC. pose proof (clear_at_id cbrt e L U HC) as K. cbv zeta in K. pose proof (ca_det _ _ _ _ HC) as HD.
  pose proof (few_limit U HD) as FL.
  set (C := fst (fst (final 0 U))) in *. clearbody C.
  destruct (Z.leb 1000 (snd (final 0 U))).
  { rewrite K. split; [reflexivity|]. intros F. discriminate (FL F). }
  destruct K as (K1 & K2 & ->). pose proof (det1_unimodular C K1) as UC.
  assert (KD : qdet (qmul U (qof C)) <> 0%Qc) by (apply det_step; assumption).
  destruct (id_exact (qmul U (qof C))) as [r|] eqn:E; cbn [id_result]; apply (family_change U C _ UC).
  - now apply exact_family.
  - apply trivial_family. now apply id_hole_group.
Qed.
Lemma clear_family cbrt L U r : clear_cell cbrt L U -> niggli_id cbrt (rows_of U) None None = Identified r ->
  in_family U (lat_fam r).
Proof.
  intros H HI. destruct (clear_niggli_id cbrt L U H) as [K|(N & C & K1 & K2 & K3 & K4 & K5 & K6)].
  - apply niggli_id_too_many in K. rewrite K in HI. discriminate HI.
  - rewrite K6 in HI. destruct (id_exact N) as [r'|] eqn:E; [|discriminate HI]. injection HI as ->.
    apply (family_change U C _ (det1_unimodular C K3)). rewrite <- K2. now apply exact_family.
Qed.

(** ** The test for integers *)
Lemma floor_zq z : Qfloor (this (zq z)) = z.
Proof.
  assert (E : (this (zq z) == inject_Z z)%Q) by apply Qred_correct. rewrite E. apply Qfloor_Z.
Qed.
Lemma round3_zq z : round3 (zq z) = zq z.
Proof.
  unfold round3, rint. rewrite <- zq_mul, floor_zq. replace (zq (z * 1000) - zq (z * 1000))%Qc with 0%Qc by ring.
  replace (qltb 0 (Q2Qc (1 # 2))) with true by reflexivity. rewrite zq_mul. field. discriminate.
Qed.
Lemma mod1_zq z : mod1 (zq z) = 0%Qc.
Proof. unfold mod1. rewrite floor_zq. ring. Qed.
Lemma whole_qof M : whole (qof M) = true.
Proof.
  unfold whole, qof. rewrite !round3_zq, !mod1_zq.
  replace (allclose (qdec 1 8) 0 0) with true by (vm_compute; reflexivity). reflexivity.
Qed.
Lemma np_inv_some A : qdet A <> 0%Qc -> np_inv A = Some (qinv A).
Proof. intros H. unfold np_inv. destruct (qeqb (qdet A) 0) eqn:E; [|reflexivity]. apply qeqb_eq in E. now destruct H. Qed.
Lemma qdet_tr A : qdet (qtr A) = qdet A.
Proof. unfold qdet, qtr. cbn. ring. Qed.
Lemma qinv_det A : qdet A <> 0%Qc -> qdet (qinv A) <> 0%Qc.
Proof.
  intros H K. pose proof (f_equal qdet (qinv_l A H)) as E. rewrite qdet_mul, K, Qcmult_0_l in E.
  apply (f_equal this) in E. revert E. vm_compute. discriminate.
Qed.
Lemma qinv_qinv A : qdet A <> 0%Qc -> qinv (qinv A) = A.
Proof.
  intros H. rewrite <- (qmul_id_r (qinv (qinv A))), <- (qinv_l A H), qmul_assoc, (qinv_l (qinv A)) by now apply qinv_det.
  apply qmul_id_l.
Qed.
Lemma qtr_qof M : qtr (qof M) = qof (mtr M).
Proof. reflexivity. Qed.
Lemma commensurate U M : qdet U <> 0%Qc -> mdet M <> 0%Z ->
  np_inv (qtr U) = Some (qinv (qtr U)) /\ np_inv (qtr (qmul U (qof M))) = Some (qinv (qtr (qmul U (qof M)))) /\
  np_inv (qinv (qtr (qmul U (qof M)))) = Some (qtr (qmul U (qof M))) /\
  whole (qmul (qtr (qmul U (qof M))) (qinv (qtr U))) = true.
Proof.
  intros HU HM.
  assert (DU : qdet (qtr U) <> 0%Qc) by now rewrite qdet_tr.
  assert (DB : qdet (qtr (qmul U (qof M))) <> 0%Qc).
  { rewrite qdet_tr, qdet_mul, qof_det. intros K. apply Qcmult_integral in K as [K|K]; [now apply HU|].
    apply HM. now apply zq_inj. }
  split; [now apply np_inv_some|]. split; [now apply np_inv_some|]. split.
  - rewrite np_inv_some by now apply qinv_det. f_equal. now apply qinv_qinv.
  - rewrite qtr_mul, <- qmul_assoc, qinv_r, qmul_id_r, qtr_qof by exact DU. apply whole_qof.
Qed.

(** ** The supercells of one size *)
Section Test.
  Context (cbrt : Qc -> Qc) (U : qmat) (fam : Z).
  Hypothesis HU : qdet U <> 0%Qc.
  Local Notation ident B := (niggli_id cbrt (rows_of B) (Some (qdec 1 2)) None).
  (** What the members say about the outcome. *)
  Definition verdict (P : qmat -> Prop) (c : case_result) : Prop :=
    match c with
    | Passed => forall B, P B -> exists r, ident B = Identified r /\ (lat_fam r <= fam)%Z
    | Failed => exists B r, P B /\ ident B = Identified r /\ (fam < lat_fam r)%Z
    | Raised (SupercellNotReduced o) => exists B, P B /\ ident B = ReductionFailed o
    | Raised SupercellNotIdentified => exists B, P B /\ ident B = Unbound
    | Raised _ => False
    end.
  Lemma verdict_mono (P Q : qmat -> Prop) c : c <> Passed -> (forall B, P B -> Q B) -> verdict P c -> verdict Q c.
  Proof.
    intros N H. destruct c as [| |e]; cbn [verdict]; [congruence| |].
    - intros (B & r & HB & K). exists B, r. split; [now apply H|exact K].
    - destruct e; try easy; intros (B & HB & K); exists B; (split; [now apply H|exact K]).
  Qed.
  Lemma test_supercells_verdict Bs : (forall B, In B Bs -> exists M, B = qmul U (qof M) /\ mdet M <> 0%Z) ->
    verdict (fun B => In B Bs) (test_supercells cbrt U fam Bs).
  Proof.
    induction Bs as [|B Bs IH]; intros HB; [intros B []|]. cbn [test_supercells]. rewrite basis_rows_of.
    destruct (HB B (or_introl eq_refl)) as (M & EB & HM).
    destruct (commensurate U M HU HM) as (C1 & C2 & C3 & C4). rewrite <- EB in C2, C3, C4.
    destruct (ident B) as [o| |r] eqn:E.
    - cbn [verdict]. exists B. split; [now left|exact E].
    - cbn [verdict]. exists B. split; [now left|exact E].
    - rewrite C1, C2, C3, C4. cbn [negb]. rewrite orb_false_r. destruct (Z.ltb_spec fam (lat_fam r)) as [K|K].
      + cbn [verdict]. exists B, r. split; [now left|]. split; [exact E|exact K].
      + specialize (IH (fun x H => HB x (or_intror H))).
        destruct (test_supercells cbrt U fam Bs) eqn:ET.
        * cbn [verdict] in *. intros x [<-|Hx]; [exists r; split; [exact E|exact K]|now apply IH].
        * revert IH. apply verdict_mono; [discriminate|intros x Hx; now right].
        * revert IH. apply verdict_mono; [discriminate|intros x Hx; now right].
  Qed.
  (** All sizes. *)
  Lemma test_sizes_verdict hnfs Bs kpds :
    (forall n, In n kpds -> exists hs, hnfs n = Some hs /\
      forall B, In B (map Bs hs) -> exists M, B = qmul U (qof M) /\ mdet M <> 0%Z) ->
    verdict (fun B => exists n hs, In n kpds /\ hnfs n = Some hs /\ In B (map Bs hs))
      (test_sizes hnfs (fun hs => test_supercells cbrt U fam (map Bs hs)) kpds).
  Proof.
    induction kpds as [|n kpds IH]; intros HS; [intros B (n & hs & [] & _)|]. cbn [test_sizes].
    destruct (HS n (or_introl eq_refl)) as (hs & E & HB). rewrite E.
    pose proof (test_supercells_verdict (map Bs hs) HB) as V.
    destruct (test_supercells cbrt U fam (map Bs hs)) eqn:ET.
    - specialize (IH (fun x H => HS x (or_intror H))).
      destruct (test_sizes _ _ kpds) eqn:ES.
      + cbn [verdict] in *. intros B (n' & hs' & [<-|Hn] & E' & HB').
        * rewrite E in E'. injection E' as <-. now apply V.
        * apply IH. exists n', hs'. now repeat split.
      + revert IH. apply verdict_mono; [discriminate|]. intros B (n' & hs' & Hn & K). exists n', hs'. split; [now right|exact K].
      + revert IH. apply verdict_mono; [discriminate|]. intros B (n' & hs' & Hn & K). exists n', hs'. split; [now right|exact K].
    - revert V. apply verdict_mono; [discriminate|]. intros B HB'. exists n, hs. split; [now left|]. now split.
    - revert V. apply verdict_mono; [discriminate|]. intros B HB'. exists n, hs. split; [now left|]. now split.
  Qed.
End Test.

(** ** The HNFs of each size *)
Lemma collect_exact enum n : collect enum true [n] 0 [] = enum n.
Proof. cbn [collect]. cbv zeta. rewrite andb_false_r. cbn [negb app]. reflexivity. Qed.
Lemma collect_all_one enum n : collect_all enum [n] = enum n.
Proof. unfold collect_all, py_for. cbn [flat_map]. apply app_nil_r. Qed.
Lemma test_exact k n nb : In k lattice_numbers -> ~ In k untestable -> find_hnfs k n true nb = test_hnfs k n.
Proof.
  intros H N. unfold find_hnfs. cbn [negb]. unfold lattice_numbers in H. cbn [In app] in H.
  repeat (destruct H as [<-|H];
    [first [exfalso; apply N; cbn [untestable In]; now auto 20
           |clear N; unfold select_hnfs, test_hnfs; cbn [z_in existsb Z.eqb Pos.eqb orb];
            rewrite ?collect_exact, ?collect_all_one; reflexivity]|]).
  destruct H.
Qed.
Lemma test_zero k : In k lattice_numbers -> ~ In k untestable -> test_hnfs k 0 = Some [].
Proof.
  intros H N. unfold lattice_numbers in H. cbn [In app] in H.
  repeat (destruct H as [<-|H];
    [first [exfalso; apply N; cbn [untestable In]; now auto 20|vm_compute; reflexivity]|]).
  destruct H.
Qed.
Lemma test_none k n : In k untestable -> test_hnfs k n = None.
Proof.
  intros H. cbn [untestable In] in H. repeat (destruct H as [<-|H]; [reflexivity|]). destruct H.
Qed.
Lemma kpds_sizes k max n : In n (test_kpds k max) <-> tested_size k max n.
Proof.
  unfold test_kpds, tested_size. cbn [In].
  destruct (Z.eqb_spec k 1) as [-> | N1]; [|destruct (Z.eqb_spec k 3) as [-> | N3]; [|destruct (Z.eqb_spec k 5) as [-> | N5]]];
    cbn [orb].
  - unfold fcc_kps. rewrite kps_loop_in. change (py_range 1 4 16) with [1%Z]. cbn [In]. split.
    + intros (m & j & [<-|[]] & A & -> & B). left. split; [auto|]. exists j. split; [exact A|]. split; lia.
    + intros [(_ & j & A & -> & B)|(K & _)]; [|exfalso; apply K; auto]. exists 1%Z, j. split; [auto|]. split; [exact A|]. lia.
  - unfold sc_and_bcc_kps. rewrite kps_loop_in. change (py_range 1 2 4) with [1%Z]. cbn [In]. split.
    + intros (m & j & [<-|[]] & A & -> & B). left. split; [auto|]. exists j. split; [exact A|]. split; lia.
    + intros [(_ & j & A & -> & B)|(K & _)]; [|exfalso; apply K; auto]. exists 1%Z, j. split; [auto|]. split; [exact A|]. lia.
  - unfold sc_and_bcc_kps. rewrite kps_loop_in. change (py_range 1 2 4) with [1%Z]. cbn [In]. split.
    + intros (m & j & [<-|[]] & A & -> & B). left. split; [auto|]. exists j. split; [exact A|]. split; lia.
    + intros [(_ & j & A & -> & B)|(K & _)]; [|exfalso; apply K; auto]. exists 1%Z, j. split; [auto|]. split; [exact A|]. lia.
  - rewrite in_range1. split.
    + intros A. right. split; [|lia]. intros [K|[K|[K|[]]]]; congruence.
    + intros [([K|[K|[K|[]]]] & _)|(_ & A)]; [congruence|congruence|congruence|lia].
Qed.
Lemma tested_nonneg k max n : tested_size k max n -> (0 <= n)%Z.
Proof.
  intros [(_ & j & A & -> & _)|(_ & A)]; [apply Z.pow_nonneg; lia|lia].
Qed.

(** ** The whole test *)
Lemma test_sizes_ext hnfs c c' kpds : (forall hs, c hs = c' hs) -> test_sizes hnfs c kpds = test_sizes hnfs c' kpds.
Proof.
  intros H. induction kpds as [|n kpds IH]; [reflexivity|]. cbn [test_sizes]. destruct (hnfs n); [|reflexivity].
  rewrite H, IH. reflexivity.
Qed.
Definition limit_of (max_ : option Z) : Z := match max_ with None => 100000%Z | Some m => m end.
Definition finish (count : list (Z * Z)) (c : case_result) : test_outcome :=
  match c with Passed => Tested true count | Failed => Tested false count | Raised e => e end.

Lemma ct_form cbrt rows r : cube_root cbrt -> niggli_id cbrt rows None None = Identified r ->
  exists U Cu Co O, rows = rows_of U /\ parts U (niggli_num r) Cu Co O /\
    reduced_cell cbrt rows None = Reduced (qmul U (qof Cu)) Cu /\
    forall count max_, cell_test cbrt rows count max_ =
      match bump (niggli_num r) count with
      | None => NoCounter
      | Some count =>
        if z_in (niggli_num r) [31; 44]%Z then Tested true count
        else finish count (test_sizes (test_hnfs (niggli_num r))
               (fun hs => test_supercells cbrt U (lat_fam r) (map (fun H => qmul U (qof (carried Cu Co H))) hs))
               (test_kpds (niggli_num r) (limit_of max_)))
      end.
Proof.
  intros HR HI. destruct (id_reduced cbrt rows r HI) as (U & Cu & -> & HU & HCu & RU).
  pose proof (niggli_id_consistent _ _ _ _ _ HI) as HC.
  destruct (number_kind r HC) as [(T & Z)|(B & HB & Z & EB & L)].
  - exists U, Cu, Cu, U. split; [reflexivity|].
    split; [exact (Build_parts U _ Cu Cu U HU HU HCu HCu (or_introl (conj T (conj eq_refl eq_refl))))|].
    split; [exact RU|]. intros count max_. unfold cell_test. cbv zeta. rewrite RU, HI, Z.
    destruct HC as (_ & _ & _ & ->). rewrite (triclinic_no_basis _ T). cbn [option_map].
    destruct (bump _ _); reflexivity.
  - pose proof (dec_basis_det _ _ HB) as HO.
    destruct (canonical_reduced cbrt _ B HB (HR _ (qabs_pos _ HO))) as (HCo & RO).
    exists U, Cu, (canonical_C (niggli_num r)), (dec_basis B). split; [reflexivity|].
    split; [refine (Build_parts U _ Cu _ _ HU HO HCu HCo (or_intror _)); exists B; exact (conj HB (conj eq_refl eq_refl))|].
    split; [exact RU|]. intros count max_.
    unfold cell_test. cbv zeta. rewrite RU, HI, Z, EB, basis_rows_of, RO, as_matrix_rows.
    destruct (bump _ _) as [count'|]; [|reflexivity]. fold (limit_of max_).
    rewrite (test_sizes_ext _ _ (fun hs => test_supercells cbrt U (lat_fam r)
       (map (fun H => qmul U (qof (carried Cu (canonical_C (niggli_num r)) H))) hs))); [reflexivity|].
    intros hs. unfold test_case.
    rewrite (transform_map U _ Cu _ _ HU HO (det1_unimodular _ HCu) (det1_unimodular _ HCo)). reflexivity.
Qed.

Lemma bump_spec k count : match bump k count with
  | None => ~ In k (map fst count)
  | Some c => exists l1 v l2, count = l1 ++ (k, v) :: l2 /\ c = l1 ++ (k, v + 1)%Z :: l2 /\ ~ In k (map fst l1)
  end.
Proof.
  induction count as [|[k' v] count IH]; [easy|]. cbn [bump]. destruct (Z.eqb_spec k k') as [<-|N].
  - exists [], v, count. repeat split. easy.
  - destruct (bump k count) as [c|]; cbn [option_map].
    + destruct IH as (l1 & w & l2 & -> & -> & K). exists ((k', v) :: l1), w, l2. repeat split.
      cbn [map fst In]. intros [E|E]; [now apply N|now apply K].
    + cbn [map fst In]. intros [E|E]; [now apply N|now apply IH].
Qed.

Lemma limit_is max_ max : test_limit max_ max -> limit_of max_ = max.
Proof. intros [-> | (-> & ->)]; reflexivity. Qed.

(** A cell that is not identified. *)
Lemma ct_unidentified cbrt rows count max_ :
  match niggli_id cbrt rows None None with
  | ReductionFailed o => cell_test cbrt rows count max_ = CellNotReduced o
  | Unbound => cell_test cbrt rows count max_ = CellNotIdentified
  | Identified _ => True
  end.
Proof.
  assert (N : match reduced_cell cbrt rows None with
              | Reduced _ _ => forall o, niggli_id cbrt rows None None <> ReductionFailed o
              | o => niggli_id cbrt rows None None = ReductionFailed o
              end).
  { unfold niggli_id. cbv zeta. destruct (reduced_cell cbrt rows None) as [| | | |N C]; try reflexivity.
    intros o. apply id_result_fail. }
  unfold cell_test. cbv zeta. destruct (niggli_id cbrt rows None None) as [o| |r]; [| |exact I].
  - destruct (reduced_cell cbrt rows None) as [| | | |M C]; try (injection N as <-; reflexivity). now destruct (N o).
  - destruct (reduced_cell cbrt rows None) as [| | | |M C]; try discriminate N. reflexivity.
Qed.

Lemma untestable_other k : In k untestable -> z_in k [31; 44]%Z = false /\ ~ In k [1; 3; 5]%Z.
Proof.
  intros H. cbn [untestable In] in H.
  repeat (destruct H as [<-|H]; [split; [reflexivity|cbn [In]; lia]|]). destruct H.
Qed.

(** A missing function. *)
Lemma ct_missing cbrt rows r count max_ max : cube_root cbrt -> niggli_id cbrt rows None None = Identified r ->
  test_limit max_ max -> (1 <= max)%Z -> In (niggli_num r) untestable -> In (niggli_num r) (map fst count) ->
  cell_test cbrt rows count max_ = NoFunction.
Proof.
  intros HR HI HL Hm HU HC. destruct (ct_form cbrt rows r HR HI) as (U & Cu & Co & O & _ & _ & _ & F). rewrite F. clear F.
  pose proof (bump_spec (niggli_num r) count) as B. destruct (bump (niggli_num r) count) as [c|]; [|now destruct B].
  destruct (untestable_other _ HU) as (-> & NC). rewrite (limit_is _ _ HL).
  destruct (test_kpds (niggli_num r) max) as [|n l] eqn:EK.
  - exfalso. apply (in_nil (a := 0%Z)). rewrite <- EK. apply kpds_sizes. right. split; [exact NC|lia].
  - cbn [test_sizes]. now rewrite test_none.
Qed.

Lemma ct_verdict cbrt L U r count max_ max : cube_root cbrt -> clear_cell cbrt L U ->
  niggli_id cbrt (rows_of U) None None = Identified r -> test_limit max_ max ->
  match cell_test cbrt (rows_of U) count max_ with
  | NoCounter => ~ In (niggli_num r) (map fst count)
  | NoFunction => In (niggli_num r) untestable /\ (1 <= max)%Z
  | Tested true c => counted (niggli_num r) count c /\
      ((niggli_num r = 31 \/ niggli_num r = 44)%Z \/
       forall B, tested (niggli_num r) max U B -> exists S r', same_span S B /\
         niggli_id cbrt (rows_of S) (Some (qdec 1 2)) None = Identified r' /\ (lat_fam r' <= lat_fam r)%Z)
  | Tested false c => counted (niggli_num r) count c /\
      exists S r', tested (niggli_num r) max U S /\
        niggli_id cbrt (rows_of S) (Some (qdec 1 2)) None = Identified r' /\ ~ in_family S (lat_fam r')
  | SupercellNotReduced o => exists S, tested (niggli_num r) max U S /\
        niggli_id cbrt (rows_of S) (Some (qdec 1 2)) None = ReductionFailed o
  | SupercellNotIdentified => exists S, tested (niggli_num r) max U S /\
        niggli_id cbrt (rows_of S) (Some (qdec 1 2)) None = Unbound /\ ~ in_family S 7
  | _ => False
  end.
Proof.
  intros HR HG HI HL. destruct (ct_form cbrt (rows_of U) r HR HI) as (U' & Cu & Co & O & EU & P & RU & F).
  assert (U' = U) as ->.
  { apply (f_equal as_matrix) in EU. now rewrite !as_matrix_rows in EU. }
  rewrite F. clear F EU. rewrite (limit_is _ _ HL).
  pose proof (bump_spec (niggli_num r) count) as BS. destruct (bump (niggli_num r) count) as [c|]; [|exact BS].
  fold (counted (niggli_num r) count c) in BS.
  pose proof (niggli_id_consistent _ _ _ _ _ HI) as HC.
  pose proof (clear_family cbrt L U r HG HI) as FU. pose proof (cc_det _ _ _ HG) as HU.
  destruct (number_kind r HC) as [(T & Z)|(B & HB & Z & EB & LN)]; rewrite Z.
  { split; [exact BS|]. left. exact T. }
  assert (F6 : (lat_fam r <= 6)%Z).
  { destruct HC as (_ & _ & -> & _). clear - LN HB. set (k := niggli_num r) in *. clearbody k.
    unfold lattice_numbers in LN. cbn [In] in LN. repeat (destruct LN as [<-|LN]; [vm_compute; discriminate|]). destruct LN. }
  assert (U0 : forall n, tested_size (niggli_num r) max n -> (1 <= max)%Z).
  { intros n [(_ & j & A & _)|(_ & A)]; lia. }
  assert (HT : In (niggli_num r) untestable \/ ~ In (niggli_num r) untestable).
  { destruct (in_dec Z.eq_dec (niggli_num r) untestable); [now left|now right]. }
  destruct HT as [HT|HT].
  { destruct (test_kpds (niggli_num r) max) as [|n l] eqn:EK; cbn [test_sizes finish].
    - split; [exact BS|]. right. intros S (n & _ & HS & _). apply kpds_sizes in HS. rewrite EK in HS. destruct HS.
    - rewrite test_none by exact HT. cbn [finish]. split; [exact HT|]. apply (U0 n). apply kpds_sizes. rewrite EK. now left. }
  set (k := niggli_num r) in *.
  assert (LIST : forall n, In n (test_kpds k max) -> exists hs, test_hnfs k n = Some hs /\
    (n = 0%Z /\ hs = [] \/ (1 <= n)%Z /\ all_supercells U n (map (fun H => qmul U (qof (carried Cu Co H))) hs))).
  { intros n Hn. apply kpds_sizes in Hn. pose proof (tested_nonneg _ _ _ Hn) as N0.
    destruct (Z.eq_dec n 0) as [-> | NZ].
    - exists []. split; [now apply test_zero|]. left. now split.
    - destruct (exact_carried cbrt L U r Cu Co O n 0 HG HI RU P ltac:(lia)) as (hs & E & A). exists hs.
      split; [now rewrite <- (test_exact k n 0 LN HT)|]. right. split; [lia|exact A]. }
  set (Bs := fun H => qmul U (qof (carried Cu Co H))) in *.
  assert (MEM : forall n hs S, In n (test_kpds k max) -> test_hnfs k n = Some hs -> In S (map Bs hs) -> tested k max U S).
  { intros n hs S Hn E HS. destruct (LIST n Hn) as (hs' & E' & [(-> & ->)|(N1 & A)]); rewrite E in E'; injection E' as ->; [destruct HS|].
    exists n. split; [exact N1|]. split; [now apply kpds_sizes|]. destruct A as (A & _). rewrite Forall_forall in A. now apply A. }
  pose proof (test_sizes_verdict cbrt U (lat_fam r) HU (test_hnfs k) Bs (test_kpds k max)) as V.
  assert (PRE : forall n, In n (test_kpds k max) -> exists hs, test_hnfs k n = Some hs /\
      forall B, In B (map Bs hs) -> exists M, B = qmul U (qof M) /\ mdet M <> 0%Z).
  { intros n Hn. destruct (LIST n Hn) as (hs & E & C). exists hs. split; [exact E|]. intros S HS.
    destruct (MEM n hs S Hn E HS) as (m & M1 & _ & (M & -> & DM) & _). exists M. split; [reflexivity|lia]. }
  specialize (V PRE). clear PRE.
  assert (FAM : forall S g, tested k max U S -> in_family S g -> (g <= lat_fam r)%Z).
  { intros S g (n & N1 & _ & (M & ES & DM) & K) HS. refine (family_le U S (lat_fam r) g HU _ K FU HS).
    rewrite ES, qdet_mul, qof_det, DM. intros Q. apply Qcmult_integral in Q as [Q|Q]; [now apply HU|].
    change 0%Qc with (zq 0) in Q. apply zq_inj in Q. lia. }
  destruct (test_sizes _ _ _) as [| |e]; cbn [finish verdict] in *.
  - split; [exact BS|]. right. intros S (n & N1 & HS & SC & K).
    apply kpds_sizes in HS. destruct (LIST n HS) as (hs & E & [(-> & _)|(_ & A)]); [lia|].
    destruct A as (_ & A & _). destruct (A S n SC ltac:(lia) K) as (T & HT' & SP).
    destruct (V T) as (r' & E1 & E2); [exists n, hs; repeat split; assumption|].
    exists T, r'. split; [exact SP|]. split; [exact E1|exact E2].
  - split; [exact BS|]. destruct V as (S & r' & (n & hs & Hn & E & HS) & E1 & E2). exists S, r'.
    split; [now apply (MEM n hs)|]. split; [exact E1|]. intros FS.
    pose proof (FAM S _ (MEM n hs S Hn E HS) FS). lia.
  - destruct e; try contradiction V.
    + destruct V as (S & (n & hs & Hn & E & HS) & E1). exists S. split; [now apply (MEM n hs)|exact E1].
    + destruct V as (S & (n & hs & Hn & E & HS) & E1). exists S. split; [now apply (MEM n hs)|]. split; [exact E1|].
      intros FS. pose proof (FAM S _ (MEM n hs S Hn E HS) FS). lia.
Qed.

(** ** The test does not see rotated superlattices *)
Definition rotated_hnf : mat3 := HNF 1 18 25 0 0 5.
Definition swap_xy : qmat := QMat 0 1 0 1 0 0 0 0 1.
Lemma swap_symmetry : lattice_symmetry qid swap_xy.
Proof.
  split; [vm_compute; reflexivity|]. intros x ([a b c] & ->). exists (Vec3 b a c).
  unfold qmvec, swap_xy, qid, qvof. cbn. f_equal; ring.
Qed.
Lemma rotated_breaks : ~ keeps_symmetry qid (qmul qid (qof rotated_hnf)).
Proof.
  intros K. destruct (K swap_xy swap_symmetry) as (_ & H). rewrite qmul_id_l in H.
  destruct (H (qmvec (qof rotated_hnf) (qvof (Vec3 4 (-3) 0)))) as ([a b c] & E); [now exists (Vec3 4 (-3) 0)|].
  assert (E1 : qvof (Vec3 (-3) 4 0) = qvof (Vec3 a (18 * a + 25 * b) (5 * c))).
  { transitivity (qmvec swap_xy (qmvec (qof rotated_hnf) (qvof (Vec3 4 (-3) 0)))); [vm_compute; reflexivity|].
    rewrite E. unfold qmvec, rotated_hnf, HNF, qof, qvof. cbn [q11 q12 q13 q21 q22 q23 q31 q32 q33 m11 m12 m13 m21 m22 m23 m31 m32 m33 w1 w2 w3 v1 v2 v3].
    rewrite !zq_add, !zq_mul. change (zq 0) with 0%Qc. change (zq 1) with 1%Qc. f_equal; ring. }
  pose proof (f_equal w1 E1) as Ea. pose proof (f_equal w2 E1) as Eb. unfold qvof in Ea, Eb. cbn [w1 w2 v1 v2 v3] in Ea, Eb.
  apply zq_inj in Ea, Eb. clear - Ea Eb. lia.
Qed.
