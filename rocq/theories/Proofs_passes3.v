(** Clear cells with few sums of squared lengths: the limit of passes is not reached. *)
From Coq Require Import ZArith QArith Qcanon List Bool Lia.
From Verif Require Import Mat3 Spec QMat QNum QcTac Spec_grid Spec_find Spec_niggli Spec_niggli_f90 Spec_clear
  Model_pyniggli Model_niggli_id Model_niggli_f90 Model_find_supercells
  Proofs_pyniggli Proofs_pyniggli2 Proofs_clear4 Proofs_clear5
  Spec_kgrids Model_find_kgrids Model_find_grid Model_find_grid_top Proofs_search
  Proofs_find_supercells Proofs_niggli_f90d Proofs_niggli_f90f Proofs_passes Proofs_passes2 Model_transform Proofs_transform.
Open Scope Qc_scope.

Lemma few_py cbrt L U : clear_cell cbrt L U -> few_sums 43 U ->
  reduced_cell cbrt (rows_of U) None <> TooManyIterations.
Proof.
  intros HC HF. pose proof (py_clear cbrt L U HC) as K. cbv zeta in K.
  rewrite (few_limit U (cc_det _ _ _ HC) HF) in K. destruct K as (_ & _ & K & _).
  rewrite K. discriminate.
Qed.
Lemma few_f dep cbrt e L U : f_clear_cell cbrt e L U -> few_sums 43 U ->
  id_cell dep cbrt U (Some e) <> Id_user_failed Gave_up.
Proof.
  intros HC HF K. destruct (dep (qdet U)) eqn:Hdep.
  { unfold id_cell in K. cbv zeta in K.
    rewrite (proj1 (Proofs_niggli_f90a.reduce_cell_dep dep cbrt U (Some e)) Hdep) in K. discriminate K. }
  assert (R : reduce_cell dep cbrt U (Some e) = Gave_up).
  { unfold id_cell in K. cbv zeta in K. destruct (reduce_cell dep cbrt U (Some e)) as [| | |N C].
    - discriminate K.
    - reflexivity.
    - discriminate K.
    - destruct (f_id_params _ _ _ _ _ _ _) as [r|]; [|discriminate K].
      destruct (reduce_cell _ _ _ _); discriminate K. }
  apply (f_user_count cbrt e L U dep HC Hdep) in R.
  rewrite (few_limit U (fc_det _ _ _ _ HC) HF) in R. discriminate R.
Qed.

Lemma clear_reduced_few cbrt L M : clear_cell cbrt L M ->
  (reduced_cell cbrt (rows_of M) None = TooManyIterations /\ ~ few_sums 43 M) \/
  exists N C, reduced_cell cbrt (rows_of M) None = Reduced N C /\ N = qmul M (qof C) /\
    mdet C = 1%Z /\ is_niggli N.
Proof.
  intros H. destruct (clear_reduced cbrt L M H) as [K|K]; [left|now right].
  split; [exact K|]. intros F. exact (few_py cbrt L M H F K).
Qed.

Lemma same_answer_few dep cbrt e L L' U : cube_root cbrt -> dependence_test dep ->
  clear_cell cbrt L U -> f_clear_cell cbrt e L' U -> qdec 22 6 <= e -> e <= qdec 11 4 ->
  dep (qdet U) = false ->
  (reduced_cell cbrt (rows_of U) None = TooManyIterations /\
   id_cell dep cbrt U (Some e) = Id_user_failed Gave_up /\ ~ few_sums 43 U) \/
  exists N C O No Co k s_range,
    reduced_cell cbrt (rows_of U) None = Reduced N C /\
    id_cell dep cbrt U (Some e) = Id_cell N C O No Co k s_range /\
    match niggli_id cbrt (rows_of U) None None with
    | Identified r => k = niggli_num r
    | Unbound => k = 31%Z
    | ReductionFailed _ => False
    end.
Proof.
  intros HR HD HG HF L1 L2 Hdep.
  destruct (same_answer dep cbrt e L L' U HR HD HG HF L1 L2 Hdep) as [(K1 & K2)|K]; [left|now right].
  split; [exact K1|]. split; [exact K2|]. intros F. exact (few_py cbrt L U HG F K1).
Qed.

Lemma fs_exact_few cbrt L U n nb : cube_root cbrt -> clear_cell cbrt L U -> (1 <= n)%Z ->
  (find_supercells cbrt (rows_of U) n true nb = NotReduced TooManyIterations /\ ~ few_sums 43 U) \/
  (find_supercells cbrt (rows_of U) n true nb = NotIdentified /\
   forall X, qisometry (qgram U) X <-> X = mid \/ X = mopp mid) \/
  exists l, find_supercells cbrt (rows_of U) n true nb = Supercells l /\ all_supercells U n l.
Proof.
  intros HR HG Hn. destruct (fs_exact cbrt L U n nb HR HG Hn) as [K|K]; [left|now right].
  split; [exact K|]. intros F. pose proof (fs_failures cbrt (rows_of U) n true nb HR Hn) as E.
  rewrite K in E. pose proof (py_clear cbrt L U HG) as P. cbv zeta in P.
  rewrite (few_limit U (cc_det _ _ _ HG) F) in P. destruct P as (_ & _ & _ & P). rewrite P in E.
  exact (id_result_fail _ _ E).
Qed.

Section Top.
  Context (dep : Qc -> bool) (cbrt : Qc -> Qc) (pg_size : qmat -> Z) (norms : qmat -> Qc * Qc * Qc)
          (equal_norm : Qc -> Qc -> bool) (undefined : mat3 -> qmat) (mink : qmat -> qmat)
          (rmin : qmat -> Qc) (packed : qmat -> bool) (equal : Qc -> Qc -> bool)
          (irr1 irr2 : qmat -> offset -> option Z).
  Lemma top_sound_few fuel root U eps_ e given kpd min_kpts L :
    tolerance eps_ e -> cube_root cbrt -> dependence_test dep -> positive irr1 ->
    (forall B, qdet B <> 0 -> exists Y, unimodular Y /\ mink B = qmul B (qof Y)) ->
    f_clear_cell cbrt e L U -> qdec 22 6 <= e -> e <= qdec 11 4 -> (1 <= kpd)%Z ->
    match find_grid_top dep cbrt pg_size norms equal_norm undefined mink rmin packed
                           equal irr1 irr2 fuel root U eps_ given kpd min_kpts with
    | Not_identified o => (o = Id_user_failed Dependent /\ dep (qdet U) = true) \/
        (o = Id_user_failed Gave_up /\ ~ few_sums 43 U)
    | Symmetry_stop k => forall n, point_group_order U n -> pg_size U <> n
    | Searched k r => forall g o, r = Found g o ->
        exists n s, kgrid n U g /\ keeps_symmetry U g /\ o = Some s /\
          allowed_offset norms equal_norm given k U s /\
          (k <> 31 /\ k <> 44 -> kpd <= n)%Z /\
          (k = 31 \/ k = 44 -> exists m a, 1 <= m /\ n = m ^ 3 * a /\ kpd / m ^ 3 <= a)%Z
    end.
  Proof.
    intros HE HR HD HP HM HG L1 L2 Hk.
    pose proof (top_sound dep cbrt pg_size norms equal_norm undefined mink rmin packed equal irr1 irr2
      fuel root U eps_ e given kpd min_kpts L HE HR HD HP HM HG L1 L2 Hk) as T.
    destruct (find_grid_top dep cbrt pg_size norms equal_norm undefined mink rmin packed equal irr1 irr2
      fuel root U eps_ given kpd min_kpts) as [o|k|k r] eqn:E; [|exact T|exact T].
    destruct T as [T|T]; [now left|right]. split; [exact T|]. intros F. subst o.
    unfold find_grid_top in E. cbv zeta in E. rewrite (tolerance_top _ _ HE) in E.
    pose proof (few_f dep cbrt e L U HG F) as N.
    destruct (id_cell dep cbrt U (Some e)) as [| | |Nu Cu Ob No Co k sr].
    1,2,3: injection E as E; congruence.
    destruct (check_sym k (pg_size U)) as [[|]|]; discriminate E.
  Qed.
End Top.
