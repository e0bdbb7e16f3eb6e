(** id_cell of niggli.f90 and niggli_id of the Python program. *)
From Coq Require Import ZArith QArith Qcanon List Bool Lia.
From Verif Require Import Mat3 Spec QMat QNum QcTac Spec_grid Spec_niggli Spec_niggli_f90
  Bases Bases_niggli Model_pyniggli Model_niggli_id Model_niggli_f90
  Proofs_pyniggli Proofs_pyniggli2 Proofs_pyniggli3 Proofs_gridcell Proofs_gridcell2
  Proofs_niggli_id2 Proofs_niggli_id3 Proofs_cbrt
  Proofs_niggli_f90a Proofs_niggli_f90b Proofs_niggli_f90c Proofs_niggli_f90d Proofs_niggli_f90e
  Spec_clear Proofs_clear Proofs_clear2 Proofs_clear3 Proofs_clear4
  Spec_kgrids Model_find_kgrids Model_find_grid Model_find_grid_top Proofs_search Model_transform Proofs_transform.
Import ListNotations.
Open Scope Qc_scope.

Lemma f_user_count cbrt e L U dep : f_clear_cell cbrt e L U -> dep (qdet U) = false ->
  reduce_cell dep cbrt U (Some e) = Gave_up -> Z.leb 1000 (snd (final 0 U)) = true.
Proof.
  intros HC Hdep K. pose proof (f_clear_reduction cbrt e L U dep HC Hdep) as Q. cbv zeta in Q.
  destruct (Z.leb 1000 (snd (final 0 U))); [reflexivity|].
  destruct Q as (_ & _ & Q). rewrite Q in K. discriminate K.
Qed.
Lemma f_user_count' cbrt e L U dep N C : f_clear_cell cbrt e L U -> dep (qdet U) = false ->
  reduce_cell dep cbrt U (Some e) = FReduced N C -> Z.leb 1000 (snd (final 0 U)) = false.
Proof.
  intros HC Hdep K. pose proof (f_clear_reduction cbrt e L U dep HC Hdep) as Q. cbv zeta in Q.
  destruct (Z.leb 1000 (snd (final 0 U))); [|reflexivity]. rewrite Q in K. discriminate K.
Qed.

Lemma same_answer dep cbrt e L L' U : cube_root cbrt -> dependence_test dep ->
  clear_cell cbrt L U -> f_clear_cell cbrt e L' U -> qdec 22 6 <= e -> e <= qdec 11 4 ->
  dep (qdet U) = false ->
  (reduced_cell cbrt (rows_of U) None = TooManyIterations /\
   id_cell dep cbrt U (Some e) = Id_user_failed Gave_up) \/
  exists N C O No Co k s_range,
    reduced_cell cbrt (rows_of U) None = Reduced N C /\
    id_cell dep cbrt U (Some e) = Id_cell N C O No Co k s_range /\
    match niggli_id cbrt (rows_of U) None None with
    | Identified r => k = niggli_num r
    | Unbound => k = 31%Z
    | ReductionFailed _ => False
    end.
Proof.
  intros HR HD HG HF L1 L2 Hdep. pose proof (py_clear cbrt L U HG) as P. cbv zeta in P.
  destruct (id_cell_clear dep cbrt e L' U HR HD HF L1 L2 Hdep) as [K|(Cu & Co & O & sr & K)].
  - left. split; [|exact K].
    assert (R : reduce_cell dep cbrt U (Some e) = Gave_up).
    { unfold id_cell in K. cbv zeta in K. destruct (reduce_cell dep cbrt U (Some e)) as [| | |N C].
      - discriminate K.
      - reflexivity.
      - discriminate K.
      - destruct (f_id_params _ _ _ _ _ _ _) as [r|]; [|discriminate K].
        destruct (reduce_cell _ _ _ _); discriminate K. }
    rewrite (f_user_count cbrt e L' U dep HF Hdep R) in P. exact P.
  - right. cbv zeta in K. destruct K as (K & EC & _).
    pose proof (id_cell_form _ _ _ _ _ _ _ _ _ _ _ K) as (_ & R & _).
    rewrite (f_user_count' cbrt e L' U dep _ _ HF Hdep R) in P. rewrite <- EC in P.
    destruct P as (_ & _ & P1 & P2). do 7 eexists. split; [exact P1|]. split; [exact K|].
    rewrite P2. destruct (id_exact _); reflexivity.
Qed.

(** ** A cell for which the two answers differ *)
(** Columns (0.6, 0, 0), (0.3, 0.9, 0), (0.3, 0.00001, 2). *)
Definition near_26 : qmat := qscale (qdec 1 5) (qof (Mat3 60000 30000 30000  0 90000 1  0 0 200000)).
Definition small_volume (v : Qc) : bool := qltb (qabs v) (qdec 1 6).
Lemma small_volume_test : dependence_test small_volume.
Proof.
  intros v H. unfold small_volume. apply qltb_false. eapply Qcle_trans; [|exact H]. vm_compute. discriminate.
Qed.
Lemma near_26_py : exists r, niggli_id qcbrt (rows_of near_26) None None = Identified r /\ niggli_num r = 26%Z.
Proof. eexists. split; [vm_compute; reflexivity|reflexivity]. Qed.
Definition id_number (o : f_id_outcome) : option Z :=
  match o with Id_cell _ _ _ _ _ k _ => Some k | _ => None end.
Lemma near_26_f : id_number (id_cell small_volume qcbrt near_26 None) = Some 27%Z.
Proof. vm_compute. reflexivity. Qed.
Lemma near_26_id : exists Nu Cu O No Co s_range,
  id_cell small_volume qcbrt near_26 None = Id_cell Nu Cu O No Co 27 s_range.
Proof.
  pose proof near_26_f as H. destruct (id_cell small_volume qcbrt near_26 None); try discriminate H.
  injection H as ->. do 6 eexists. reflexivity.
Qed.

(** ** reduce_cell *)
Lemma cell_same dep cbrt M eps_ N C N' C' : reduce_cell dep cbrt M eps_ = FReduced N C ->
  reduced_cell cbrt (rows_of M) eps_ = Reduced N' C' -> N = N' /\ C = C'.
Proof.
  intros H1 H2. destruct (reduced_cell_Reduced _ _ _ _ _ H2) as (M' & E & D & _).
  assert (M' = M) as ->.
  { apply (f_equal as_3x3) in E. rewrite !as_3x3_rows in E. now injection E as ->. }
  rewrite reduced_cell_eps in H2 by exact D.
  destruct (dep (qdet M)) eqn:Hd; [rewrite (proj1 (reduce_cell_dep _ _ _ _) Hd) in H1; discriminate H1|].
  rewrite reduce_cell_eps in H1 by exact Hd. exact (f_same _ _ _ _ _ _ H1 H2).
Qed.
Lemma cell_gave_up dep cbrt M eps_ : qdet M <> 0 -> dep (qdet M) = false ->
  reduce_cell dep cbrt M eps_ = Gave_up <-> reduced_cell cbrt (rows_of M) eps_ = TooManyIterations.
Proof.
  intros HM Hd. rewrite reduced_cell_eps by exact HM. rewrite reduce_cell_eps by exact Hd.
  apply f_gave_up.
Qed.
Lemma cell_reduced dep cbrt M eps_ N C : reduce_cell dep cbrt M eps_ = FReduced N C ->
  N = qmul M (qof C) /\ mdet C = 1%Z /\ qdet N = qdet M /\ same_span M N /\
  (0 <= used_eps cbrt M eps_ -> is_niggli_upto (used_eps cbrt M eps_) N).
Proof.
  intros H. destruct (dep (qdet M)) eqn:Hd.
  { rewrite (proj1 (reduce_cell_dep _ _ _ _) Hd) in H. discriminate H. }
  rewrite reduce_cell_eps in H by exact Hd. destruct (f_reduced _ _ _ _ H) as (HC & -> & HS).
  split; [reflexivity|]. split; [exact HC|]. split.
  { rewrite qdet_mul, qof_det, HC. change (zq 1) with 1. ring. }
  split; [now apply unimodular_same_span|].
  intros He. now apply settled_iff.
Qed.
Lemma cell_refused dep cbrt M eps_ : 0 <= used_eps cbrt M eps_ ->
  reduce_cell dep cbrt M eps_ = Not_niggli ->
  exists C, mdet C = 1%Z /\ is_niggli_upto (used_eps cbrt M eps_) (qmul M (qof C)) /\
    (q11 (qgram (qmul M (qof C))) <= used_eps cbrt M eps_ \/
     cell_params (at_tolerance (used_eps cbrt M eps_)) (qmul M (qof C))).
Proof.
  intros He H. destruct (dep (qdet M)) eqn:Hd.
  { rewrite (proj1 (reduce_cell_dep _ _ _ _) Hd) in H. discriminate H. }
  rewrite reduce_cell_eps in H by exact Hd. now apply f_refused.
Qed.
Lemma cell_accepts dep cbrt M eps_ N C : dep (qdet M) = false -> 0 <= used_eps cbrt M eps_ ->
  reduced_cell cbrt (rows_of M) eps_ = Reduced N C ->
  used_eps cbrt M eps_ < q11 (qgram N) -> ~ cell_params (at_tolerance (used_eps cbrt M eps_)) N ->
  reduce_cell dep cbrt M eps_ = FReduced N C.
Proof.
  intros Hd He H. destruct (reduced_cell_Reduced _ _ _ _ _ H) as (M' & E & D & _).
  assert (M' = M) as ->.
  { apply (f_equal as_3x3) in E. rewrite !as_3x3_rows in E. now injection E as ->. }
  rewrite reduced_cell_eps in H by exact D. rewrite reduce_cell_eps by exact Hd.
  now apply f_accepts.
Qed.
Lemma zero_eps_cube dep cbrt : dep 1 = false -> reduce_cell dep cbrt qid (Some 0) = Not_niggli.
Proof.
  intros Hd. assert (E : qdet qid = 1) by (apply Qc_is_canon; vm_compute; reflexivity).
  rewrite reduce_cell_eps by now rewrite E. unfold used_eps. rewrite Qcmult_0_l, <- qof_id.
  exact zero_cube.
Qed.
Lemma zero_eps_lengths dep cbrt M N C : reduce_cell dep cbrt M (Some 0) = FReduced N C ->
  q11 (qgram N) < q22 (qgram N) /\ q22 (qgram N) < q33 (qgram N) /\
  q23 (qgram N) <> 0 /\ q13 (qgram N) <> 0 /\ q12 (qgram N) <> 0.
Proof.
  intros H. destruct (dep (qdet M)) eqn:Hd.
  { rewrite (proj1 (reduce_cell_dep _ _ _ _) Hd) in H. discriminate H. }
  rewrite reduce_cell_eps in H by exact Hd. unfold used_eps in H. rewrite Qcmult_0_l in H.
  exact (zero_strict_lengths _ _ _ H).
Qed.
Lemma qid_niggli : is_niggli qid.
Proof. unfold is_niggli, cell_params. cbv zeta. apply check_exact. vm_compute. reflexivity. Qed.
Lemma zero_eps_refused dep cbrt : dep (qdet qid) = false -> reduce_cell dep cbrt qid (Some 0) = Not_niggli.
Proof.
  intros Hd. assert (E : qdet qid = 1) by (apply Qc_is_canon; vm_compute; reflexivity).
  apply zero_eps_cube. now rewrite <- E.
Qed.
Lemma C_6_small_gram : mmul (mtr C_6_small) (mmul (gram_of 6) C_6_small) <> niggli_gram 6.
Proof. vm_compute. discriminate. Qed.

Lemma id_check dep cbrt e L U Nu Cu O No Co k s_range n :
  cube_root cbrt -> dependence_test dep -> f_clear_cell cbrt e L U ->
  qdec 22 6 <= e -> e <= qdec 11 4 ->
  id_cell dep cbrt U (Some e) = Id_cell Nu Cu O No Co k s_range -> point_group_order U n ->
  forall m, check_sym k m = Some true <-> m = n.
Proof.
  intros HR HD HG L1 L2 K HO m.
  assert (Hdep : dep (qdet U) = false).
  { destruct (dep (qdet U)) eqn:Hd; [|reflexivity]. exfalso. unfold id_cell in K. cbv zeta in K.
    rewrite (proj1 (reduce_cell_dep dep cbrt U (Some e)) Hd) in K. discriminate K. }
  destruct (id_cell_clear dep cbrt e L U HR HD HG L1 L2 Hdep) as [Q|(Cu' & Co' & O' & sr & Q)].
  { rewrite Q in K. discriminate K. }
  cbv zeta in Q. destruct Q as (Q & _ & P). rewrite K in Q.
  assert (Ek : k = the_num (id_exact (qmul U (qof Cu')))).
  { apply (f_equal id_number) in Q. cbn [id_number] in Q. congruence. }
  rewrite <- Ek in P. clear Q Ek K.
  pose proof (parts_order _ _ _ _ _ _ _ P HO) as En.
  rewrite En. exact (proj1 (check_sym_spec k m (fp_num _ _ _ _ _ _ P))).
Qed.

Lemma small_eps_grid dep cbrt pg_size norms equal_norm undefined mink rmin packed equal irr1 irr2 fuel
    root e given min_kpts :
  cube_root cbrt -> dependence_test dep -> positive irr1 ->
  (forall B, qdet B <> 0 -> exists Y, unimodular Y /\ mink B = qmul B (qof Y)) ->
  qdec 1 12 <= e -> e <= qdec 1 6 -> pg_size bct_cell = 16%Z -> (fuel <= 40)%nat ->
  f_grid_cell cbrt e 1 (zq 97) bct_cell /\
  exists r, find_grid_top dep cbrt pg_size norms equal_norm undefined mink rmin packed equal irr1
      irr2 fuel root bct_cell (Some e) given 65 min_kpts = Searched 6 r /\
    forall g o, r = Found g o -> ~ keeps_symmetry bct_cell g.
Proof.
  intros HR HD HP HM L1 L2 HS Hf. split; [now apply bct_grid|]. now apply small_eps.
Qed.
