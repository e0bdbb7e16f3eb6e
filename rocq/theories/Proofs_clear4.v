(** pyniggli.py and niggli_lat_id.py on clear cells, with the tolerances of the program. *)
From Coq Require Import ZArith QArith Qcanon List Bool Lia.
From Verif Require Import Mat3 Spec QMat QNum QcTac Spec_grid Spec_niggli Spec_niggli_f90 Spec_clear Spec_id
  Bases Bases_niggli Model_pyniggli Model_niggli_id Model_niggli_f90 Proofs_pyniggli Proofs_niggli_term Proofs_pyniggli2
  Proofs_pyniggli3 Proofs_niggli_id Proofs_niggli_id2 Proofs_niggli_id3 Proofs_transform Proofs_gridcell Proofs_gridcell2
  Proofs_niggli_f90a Proofs_niggli_f90b Proofs_clear Proofs_clear2 Proofs_clear3.
Import ListNotations.
Open Scope Qc_scope.

Lemma gram_dots M : q11 (qgram M) = dot_aa M /\ q22 (qgram M) = dot_bb M /\ q33 (qgram M) = dot_cc M /\
  q23 (qgram M) = dot_bc M /\ q13 (qgram M) = dot_ca M /\ q12 (qgram M) = dot_ab M.
Proof.
  unfold dot_aa, dot_bb, dot_cc, dot_bc, dot_ca, dot_ab, qgram, qmul, qtr.
  cbn [q11 q12 q13 q21 q22 q23 q31 q32 q33]. repeat split; ring.
Qed.
(** The reduction either runs into the limit or returns an exact Niggli cell, the one found
    with exact comparisons. *)
Lemma clear_reduction eps L U : qdet U <> 0 -> longest U L -> 0 <= eps ->
  reduction_clear (qdec 1 8 + eps + rtol * (zq 6 * L)) L U ->
  let C := fst (fst (final 0 U)) in
  if Z.leb 1000 (snd (final 0 U)) then niggli_reduction eps U = TooManyIterations
  else mdet C = 1%Z /\ is_niggli (qmul U (qof C)) /\
    niggli_reduction eps U = Reduced (qmul U (qof C)) C.
Proof.
  intros HU HL He HC. cbv zeta. pose proof (len_pos U L HU HL) as H6.
  assert (HL0 : 0 <= L).
  { destruct HL as (L1 & _). eapply Qcle_trans; [apply Qclt_le_weak, (col_pos U HU)|exact L1]. }
  assert (H8 : 0 <= qdec 1 8) by discriminate.
  set (t := qdec 1 8 + eps + rtol * (zq 6 * L)) in *.
  assert (T0 : 0 <= t).
  { unfold t. generalize dependent (rtol * (zq 6 * L)). generalize dependent (qdec 1 8). intros. qclra. }
  assert (T1 : eps <= t).
  { unfold t. generalize dependent (rtol * (zq 6 * L)). generalize dependent (qdec 1 8). intros. qclra. }
  rewrite reduction_final, (clear_final t L U T0 HU HC HL eps He T1).
  pose proof (final_settled 0 U) as HS. pose proof (final_short L U HU HL) as HF.
  destruct (final 0 U) as [[C p] count]. cbn [fst snd] in HF, HS.
  cbn [fst snd]. destruct (Z.leb_spec 1000 count) as [K|K]; [reflexivity|].
  destruct HF as ((HD & HP) & HLn). cbn [fst snd] in HD, HP, HLn. split; [exact HD|].
  specialize (HS ltac:(lia)).
  assert (DN : qdet (qmul U (qof C)) <> 0) by now apply det_step.
  assert (HN : is_niggli (qmul U (qof C))).
  { apply is_niggli_upto_0; [exact DN|].
    apply settled_iff; [apply Qcle_refl|]. now rewrite <- HP. }
  split; [exact HN|].
  pose proof (niggli_third U C L HD HN HL) as H3.
  destruct (HC C HD HLn) as (HA & HV).
  destruct (get_params_six 0 U C p (eq_sym HP)) as (E1 & E2 & E3 & E4 & E5 & E6). cbv zeta in *.
  rewrite E1, E2, E3, E4, E5, E6. clear E1 E2 E3 E4 E5 E6 HP HS.
  pose proof HN as ND. unfold is_niggli, cell_params in ND. cbv zeta in ND.
  destruct (gram_dots (qmul U (qof C))) as (_ & _ & EC & _). rewrite <- EC in H3. clear EC.
  pose proof (six_bounds _ _ _ _ _ _ L ND HL0 H3) as (S1 & S2 & S3 & S4 & S5 & S6 & S7 & S8 & S9).
  pose proof (second_pos _ DN) as PB.
  unfold niggli_check. rewrite (check_clear eps (qdec 1 8) (zq 6 * L) t He H8 (Qcle_refl _)); try assumption.
  replace (niggli_check_tol 0 0 _ _ _ _ _ _ 0) with true; [reflexivity|].
  symmetry. apply check_exact. exact ND.
Qed.

(** Exact identification. *)
Lemma id_clear_bounds U C L : qdet U <> 0 -> longest U L -> mdet C = 1%Z -> is_niggli (qmul U (qof C)) ->
  let M := qmul U (qof C) in
  let A := dot_aa M in let B := dot_bb M in let CC := dot_cc M in
  let D := dot_bc M in let E := dot_ca M in let F := dot_ab M in
  Forall (fun y => qabs y <= zq 6 * L)
    [A; B; CC; D; E; F; qtwo * D; qtwo * E; A + B; A / qtwo; B / qtwo; - A / qthree; A / qfour;
     - A / qtwo; - B / qtwo].
Proof.
  intros HU HL HD HN. cbv zeta. apply id_bounds.
  - now apply niggli_dots.
  - destruct HL as (L1 & _). eapply Qcle_trans; [apply Qclt_le_weak, (col_pos U HU)|exact L1].
  - now apply niggli_third.
Qed.
Lemma identified_dots t U C : identification_clear t U -> mdet C = 1%Z -> is_niggli (qmul U (qof C)) ->
  let M := qmul U (qof C) in
  forall v, In v (identified (dot_aa M) (dot_bb M) (dot_cc M) (dot_bc M) (dot_ca M) (dot_ab M)) -> apart t v.
Proof.
  intros H HD HN. pose proof (H C HD HN) as K. cbv zeta in *.
  destruct (gram_dots (qmul U (qof C))) as (E1 & E2 & E3 & E4 & E5 & E6).
  rewrite E1, E2, E3, E4, E5, E6 in K. exact K.
Qed.
Lemma id_clear U C L eps : qdet U <> 0 -> longest U L -> mdet C = 1%Z -> is_niggli (qmul U (qof C)) ->
  0 <= eps -> identification_clear (eps + rtol * (zq 6 * L)) U ->
  let M := qmul U (qof C) in
  id_params eps (dot_aa M) (dot_bb M) (dot_cc M) (dot_bc M) (dot_ca M) (dot_ab M) = id_exact M.
Proof.
  intros HU HL HD HN He HI. cbv zeta. unfold id_params, id_exact.
  apply (id_params_clear eps (zq 6 * L) (eps + rtol * (zq 6 * L)) He (Qcle_refl _)).
  - exact (identified_dots _ U C HI HD HN).
  - exact (id_clear_bounds U C L HU HL HD HN).
Qed.

Lemma py_clear cbrt L U : clear_cell cbrt L U ->
  let Cu := fst (fst (final 0 U)) in let N := qmul U (qof Cu) in
  if Z.leb 1000 (snd (final 0 U)) then
    reduced_cell cbrt (rows_of U) None = TooManyIterations
  else mdet Cu = 1%Z /\ is_niggli N /\ reduced_cell cbrt (rows_of U) None = Reduced N Cu /\
    niggli_id cbrt (rows_of U) None None = id_result (id_exact N).
Proof.
  intros [HM HL Hc H1 H2]. cbv zeta.
  assert (E : reduced_cell cbrt (rows_of U) None = niggli_reduction (qdec 1 5 * cbrt (qabs (qdet U))) U)
    by now apply reduced_cell_eps.
  assert (He : 0 <= qdec 1 5 * cbrt (qabs (qdet U))).
  { replace 0 with (qdec 1 5 * 0) by ring. apply pos_le; [discriminate|exact Hc]. }
  pose proof (clear_reduction _ L U HM HL He H1) as K. cbv zeta in K.
  set (C := fst (fst (final 0 U))) in *. clearbody C.
  destruct (Z.leb 1000 (snd (final 0 U))); [now rewrite E|].
  destruct K as (HC & HN & K). rewrite E. split; [exact HC|]. split; [exact HN|]. split; [exact K|].
  unfold niggli_id. cbv zeta. rewrite E, K. f_equal.
  apply (id_clear U C L); try assumption. discriminate.
Qed.
Lemma clear_niggli_id cbrt L M : clear_cell cbrt L M ->
  reduced_cell cbrt (rows_of M) None = TooManyIterations \/
  exists N C, reduced_cell cbrt (rows_of M) None = Reduced N C /\ N = qmul M (qof C) /\
    mdet C = 1%Z /\ qdet N <> 0 /\ is_niggli N /\
    niggli_id cbrt (rows_of M) None None = id_result (id_exact N).
Proof.
  intros H. pose proof (py_clear cbrt L M H) as K. cbv zeta in K.
  set (C := fst (fst (final 0 M))) in *. clearbody C.
  destruct (Z.leb 1000 (snd (final 0 M))); [now left|right].
  destruct K as (K1 & K2 & K3 & K4). exists (qmul M (qof C)), C.
  assert (KD : qdet (qmul M (qof C)) <> 0) by (apply det_step; [exact (cc_det _ _ _ H)|exact K1]).
  exact (conj K3 (conj eq_refl (conj K1 (conj KD (conj K2 K4))))).
Qed.
Lemma clear_reduced cbrt L M : clear_cell cbrt L M ->
  reduced_cell cbrt (rows_of M) None = TooManyIterations \/
  exists N C, reduced_cell cbrt (rows_of M) None = Reduced N C /\ N = qmul M (qof C) /\
    mdet C = 1%Z /\ is_niggli N.
Proof.
  intros H. destruct (clear_niggli_id cbrt L M H) as [K|(N & C & K1 & K2 & K3 & _ & K5 & _)];
    [now left|]. right. now exists N, C.
Qed.

(** The answer for a clear cell is right about the symmetry of its reduced cell. *)
Lemma clear_identified cbrt L M r : clear_cell cbrt L M ->
  niggli_id cbrt (rows_of M) None None = Identified r ->
  exists N C, reduced_cell cbrt (rows_of M) None = Reduced N C /\ N = qmul M (qof C) /\
    mdet C = 1%Z /\ is_niggli N /\
    forall X, qisometry (qgram N) X <->
     (match canonical_basis (niggli_num r) with
     | Some _ => isometry (niggli_gram (niggli_num r)) X
     | None => X = mid \/ X = mopp mid
     end).
Proof.
  intros H HI. destruct (clear_niggli_id cbrt L M H) as [K|(N & C & K1 & K2 & K3 & K4 & K5 & K6)].
  - apply niggli_id_too_many in K. rewrite K in HI. discriminate HI.
  - exists N, C. split; [exact K1|]. split; [exact K2|]. split; [exact K3|]. split; [exact K5|].
    rewrite K6 in HI. destruct (id_exact N) as [r'|] eqn:Ie; [|discriminate HI]. injection HI as ->.
    exact (id_exact_group N r K4 K5 Ie).
Qed.
(** A clear cell without an answer has the symmetry of a triclinic lattice. *)
Lemma clear_unbound cbrt L M : clear_cell cbrt L M ->
  niggli_id cbrt (rows_of M) None None = Unbound ->
  forall R, qisometry (qgram M) R <-> R = mid \/ R = mopp mid.
Proof.
  intros H HI. destruct (clear_niggli_id cbrt L M H) as [K|(N & C & K1 & K2 & K3 & K4 & K5 & K6)].
  - apply niggli_id_too_many in K. rewrite K in HI. discriminate HI.
  - rewrite K6 in HI. destruct (id_exact N) eqn:Ie; [discriminate HI|].
    intros R. assert (UC : unimodular C) by (unfold unimodular; now rewrite K3).
    pose proof (qisometry_change M C (mmul (mmul (minv1 C) R) C) UC) as Q. rewrite <- K2 in Q.
    replace (mmul (mmul C (mmul (mmul (minv1 C) R) C)) (minv1 C)) with R in Q.
    2: { rewrite <- !mmul_assoc, minv1_r, mmul_id_r, mmul_assoc, minv1_r, mmul_id_l by exact UC.
         reflexivity. }
    rewrite <- Q, (id_hole_group N K4 K5 Ie).
    assert (B : forall Y, mmul (mmul (minv1 C) R) C = Y -> R = mmul (mmul C Y) (minv1 C)).
    { intros Y <-. rewrite <- !mmul_assoc, minv1_r, mmul_id_r, mmul_assoc, minv1_r, mmul_id_l by exact UC.
      reflexivity. }
    split; intros [E|E].
    + left. rewrite (B _ E), mmul_id_r. now apply minv1_r.
    + right. rewrite (B _ E), mmul_opp_r, mmul_id_r, mmul_opp_l. f_equal. now apply minv1_r.
    + left. rewrite E, mmul_id_r. now apply minv1_l.
    + right. rewrite E, mmul_opp_r, mmul_id_r, mmul_opp_l. f_equal. now apply minv1_l.
Qed.
