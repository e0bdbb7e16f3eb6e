(** A small tolerance: find_grid returns grids without the symmetry of the lattice. *)
From Coq Require Import ZArith QArith Qcanon List Bool Lia.
From Verif Require Import Mat3 Spec QMat QNum QcTac Spec_grid Spec_niggli Spec_niggli_f90 Spec_id Spec_kgrids
  Bases Bases_niggli PointGroup PreservesDec PyNum Model_universal Model_pyniggli Model_niggli_id Model_niggli_f90 Model_find_kgrids Model_sp_hnfs Model_find_grid
  Model_find_grid_top Model_transform Proofs_pyniggli Proofs_niggli_term Proofs_pyniggli2 Proofs_pyniggli3 Proofs_gridcell Proofs_gridcell2
  Proofs_niggli_id Proofs_niggli_id2 Proofs_niggli_id3 Proofs_niggli_canon Proofs_transform
  Proofs_find_supercells Proofs_find_grid1 Proofs_find_grid2 Proofs_find_grid3
  Proofs_niggli_f90a Proofs_niggli_f90b Proofs_niggli_f90c Proofs_niggli_f90d Spec_clear Proofs_clear3.
Import ListNotations.
Open Scope Qc_scope.

(** ** Grids and supercells *)
Lemma reciprocal_twice U : qdet U <> 0 -> reciprocal (reciprocal U) = U.
Proof.
  intros HU. unfold reciprocal. symmetry.
  assert (HT : qdet (qtr U) <> 0) by now rewrite qdet_tr.
  apply qinv_unique; [rewrite qdet_tr; now apply qdet_inv|].
  pose proof (f_equal qtr (qinv_r (qtr U) HT)) as E. rewrite qtr_mul, qtr_tr in E. exact E.
Qed.
Lemma grid_of_broken U M Y : qdet U <> 0 -> mdet M <> 0%Z -> unimodular Y ->
  keeps_symmetry U (qmul (reciprocal (qmul U (qof M))) (qof Y)) -> keeps_symmetry U (qmul U (qof M)).
Proof.
  intros HU HM HY HK R HR.
  assert (DM : qdet (qof M) <> 0) by (rewrite qof_det; now apply zq_neq0).
  assert (DS : qdet (qmul U (qof M)) <> 0) by (rewrite qdet_mul; now apply Qc_mul_neq0).
  assert (HY' : unimodular (minv1 Y)).
  { pose proof (minv1_det Y HY) as Q. unfold unimodular in *. clear - Q HY. nia. }
  rewrite <- (reciprocal_twice _ DS). apply reciprocal_symmetry; [now apply reciprocal_det|].
  apply HK in HR.
  apply (symmetry_unimodular _ (minv1 Y)) in HR; [|rewrite qdet_mul; apply Qc_mul_neq0; [now apply reciprocal_det|now apply unimodular_det]|exact HY'].
  rewrite <- qmul_assoc, <- (qof_mul Y (minv1 Y)), minv1_r, qof_id, qmul_id_r in HR by exact HY. exact HR.
Qed.

Section Upto.
  Context {G : Type} (try : Z -> option (cand G)).
  Lemma general_upto s_range kpd top : forall fuel k a count b m, (kpd <= k)%Z -> (k + Z.of_nat fuel <= top)%Z ->
    from try (fun n => kpd <= n < top)%Z a ->
    general_search try fuel s_range kpd k a count = Slots b m -> from try (fun n => kpd <= n < top)%Z b.
  Proof.
    induction fuel as [|fuel IH]; intros k a count b m Hk Ht HF; cbn [general_search]; [discriminate|].
    destruct (_ || _); [|intros E; injection E as <- _; exact HF].
    destruct (try k) as [c|] eqn:T.
    - destruct (Nat.ltb _ _); [|discriminate]. intros E. refine (IH _ _ _ _ _ _ _ _ E); [lia|lia|].
      apply (from_set try (fun n => kpd <= n < top)%Z a count k c HF); [clear - Hk Ht; lia|exact T].
    - intros E. refine (IH _ _ _ _ _ _ _ _ E); [lia|lia|exact HF].
  Qed.
End Upto.

(** The grids [find_grid] can return in a lattice neither cubic nor triclinic. *)
Lemma found_from {Off} grid_of mink rmin packed equal eps irr1 irr2 (offsets : list Off) fuel k s_range kpd root min_kpts enum g o :
  positive irr1 -> z_in k [3; 5; 1]%Z = false -> z_in k [44; 31]%Z = false -> f_enumerator k = Some enum ->
  find_grid grid_of mink rmin packed equal eps irr1 irr2 offsets fuel k s_range kpd root min_kpts = Found g o ->
  exists n H, (kpd <= n < kpd + Z.of_nat fuel)%Z /\ In H (enum n) /\ g = mink (grid_of H).
Proof.
  intros HP N1 N2 Ee. unfold find_grid. rewrite N1, N2, Ee. unfold fg_finish.
  destruct (general _ _ _ _) as [a count| |] eqn:E; try discriminate.
  destruct (select min_kpts kpd a count) as [[g' o']| |] eqn:S; try discriminate.
  intros X. injection X as -> ->.
  destruct (select_from _ _ _ _ _ S) as (c & Hin & EG).
  destruct (general_upto _ _ _ (kpd + Z.of_nat fuel) _ _ _ _ _ _ (Z.le_refl kpd) (Z.le_refl _) (from_empty _ _ _) E c Hin)
    as (n & Hn & T).
  unfold general_try in T.
  destruct (cand_sound grid_of mink rmin packed equal eps irr1 irr2 offsets HP _ _ _ _ T) as (H & s & HH & EC & _).
  rewrite EC in EG. injection EG as -> _. eauto.
Qed.

(** ** The cell *)
(** Body-centred tetragonal with edges 12, 12 and 10. *)
Definition bct_mat : mat3 := Mat3 (-6) 6 6  6 (-6) 6  5 5 (-5).
Definition bct_cell : qmat := qof bct_mat.
Definition basis_6 : mat3 := f_basis_6.
(** What reduce_cell finds for basis 6 with a small tolerance. *)
Definition C_6_small : mat3 := Mat3 (-1) 1 (-1)  0 0 1  1 0 0.

Lemma basis_6_facts : f_facts 10 (10 ^ 7) C_6_small basis_6 (root basis_6) = true.
Proof.
  vm_compute. reflexivity.
Qed.
Lemma basis_6_reduced dep cbrt e : cube_root cbrt -> dependence_test dep ->
  qdec 1 12 <= e -> e <= qdec 1 6 ->
  reduce_cell dep cbrt (dec_basis basis_6) (Some e) =
    FReduced (qmul (dec_basis basis_6) (qof C_6_small)) C_6_small.
Proof.
  intros HR HD L1 L2.
  refine (proj2 (f_basis_reduced 10 (10 ^ 7) dep cbrt e C_6_small basis_6 basis_6_facts _ _ _ _ _ _)); try lia.
  - apply HR. apply qabs_pos. exact (f_basis_det 6 basis_6 eq_refl).
  - apply (mul_le (zq (10 ^ 13))) in L1; [|vm_compute; discriminate].
    replace (zq (10 ^ 13) * qdec 1 12) with (zq 10) in L1
      by (apply Qc_is_canon; vm_compute; reflexivity). exact L1.
  - apply (mul_le (zq (10 ^ 13))) in L2; [|vm_compute; discriminate].
    replace (zq (10 ^ 13) * qdec 1 6) with (zq (10 ^ 7)) in L2
      by (apply Qc_is_canon; vm_compute; reflexivity). exact L2.
  - apply HD. exact (basis_volume 6 basis_6 eq_refl).
Qed.

Lemma bct_det : qdet bct_cell = zq 720.
Proof. apply Qc_is_canon. vm_compute. reflexivity. Qed.
Lemma bct_root c : near_root c (qabs (qdet bct_cell)) -> 0 < c /\ c < zq 10.
Proof.
  rewrite bct_det. intros (C1 & C2 & C3).
  assert (E : qabs (zq 720) = zq 720) by reflexivity. rewrite E in C2, C3. clear E. split.
  - apply Qcle_lt_or_eq in C1. destruct C1 as [C1|<-]; [exact C1|exfalso].
    revert C2. vm_compute. intros C2. now apply C2.
  - apply Qcnot_le_lt. intros H.
    assert (K : zq 10 * zq 10 * zq 10 <= c * c * c).
    { apply Qcle_trans with (c * zq 10 * zq 10).
      - apply Qcmult_le_compat_r; [|discriminate]. apply Qcmult_le_compat_r; [exact H|discriminate].
      - rewrite <- !Qcmult_assoc. apply mul_le; [exact C1|].
        apply Qcle_trans with (c * zq 10); [apply Qcmult_le_compat_r; [exact H|discriminate]|now apply mul_le]. }
    pose proof (Qcle_trans _ _ _ K C3) as Q. revert Q. vm_compute. intros Q. now apply Q.
Qed.
Lemma bct_grid cbrt e : cube_root cbrt -> qdec 1 12 <= e -> e <= qdec 1 6 ->
  f_grid_cell cbrt e 1 (zq 97) bct_cell.
Proof.
  intros HR L1 L2.
  assert (HD : qdet bct_cell <> 0) by (rewrite bct_det; discriminate).
  destruct (bct_root _ (HR _ (qabs_pos _ HD))) as (C1 & C2).
  assert (P : 0 < e) by (eapply Qclt_le_trans; [|exact L1]; reflexivity).
  split; try assumption.
  - reflexivity.
  - exists (mmul (mtr bct_mat) bct_mat). vm_compute. reflexivity.
  - unfold longest. repeat split; vm_compute; discriminate.
  - change (zq 1) with 1. rewrite Qcmult_1_l.
    eapply Qcle_lt_trans; [apply (Qcmult_le_compat_r _ _ _ L2); now apply Qclt_le_weak|].
    eapply Qclt_le_trans; [rewrite Qcmult_comm; apply Qcmult_lt_compat_r; [reflexivity|exact C2]|].
    vm_compute. discriminate.
  - eapply Qcle_lt_trans; [apply mul_le; [discriminate|]; apply Qcplus_le_compat; [exact L2|apply Qcle_refl]|].
    reflexivity.
  - eapply Qcle_lt_trans; [apply mul_le; [discriminate|]; apply Qcmult_le_compat_r; [exact L2|discriminate]|].
    reflexivity.
Qed.

Lemma bct_id dep cbrt e : cube_root cbrt -> dependence_test dep ->
  qdec 1 12 <= e -> e <= qdec 1 6 ->
  exists s_range, id_cell dep cbrt bct_cell (Some e) =
    Id_cell (qmul bct_cell (qof mid)) mid (dec_basis basis_6) (qmul (dec_basis basis_6) (qof C_6_small)) C_6_small 6 s_range.
Proof.
  intros HR HD L1 L2. pose proof (bct_grid cbrt e HR L1 L2) as HG.
  assert (Hdep : dep (qdet bct_cell) = false) by (apply HD; rewrite bct_det; vm_compute; discriminate).
  assert (F1 : Z.leb 1000 (snd (final 0 bct_cell)) = false) by (vm_compute; reflexivity).
  assert (F2 : fst (fst (final 0 bct_cell)) = mid) by (vm_compute; reflexivity).
  destruct (f_clear_user cbrt e _ _ dep (f_grid_clear cbrt e 1 _ _ HG) Hdep) as [K|K].
  { exfalso. destruct HG as [Hd HM (G & HGr) HL He Hc H1 H2 H3].
    rewrite reduce_cell_eps in K by exact Hdep. unfold used_eps in K.
    assert (Hp : 0 < e * cbrt (qabs (qdet bct_cell))).
    { replace 0 with (0 * cbrt (qabs (qdet bct_cell))) by ring. now apply Qcmult_lt_compat_r. }
    pose proof (f_grid_reduce 1 G bct_cell _ Hd HM HGr Hp H1) as Q. cbv zeta in Q.
    rewrite F1 in Q. destruct Q as (_ & _ & Q). rewrite Q in K. discriminate K. }
  cbv zeta in K. rewrite F2 in K. destruct K as (_ & _ & _ & K4 & K5).
  assert (E6 : the_num (id_exact (qmul bct_cell (qof mid))) = 6%Z) by (vm_compute; reflexivity).
  rewrite E6 in K5.
  destruct (id_cell_step dep cbrt bct_cell e _ _ _ K4 K5) as (s_range & E & _).
  exists s_range. assert (EB : f_canonical_basis 6 = Some basis_6) by reflexivity.
  rewrite EB in E. cbv zeta iota in E. clear EB.
  rewrite (basis_6_reduced dep cbrt e HR HD L1 L2) in E. exact E.
Qed.

(** ** The grids *)
Definition bct_gram : mat3 := mmul (mtr bct_mat) bct_mat.
Definition bct_group : list mat3 := isometries bct_gram 2.
Definition breaks (H : mat3) : bool :=
  negb (mdet H =? 0)%Z &&
  existsb (fun X => negb (preserves_b X (carried mid C_6_small H))) bct_group.
Lemma bct_breaks : forallb (fun n => forallb breaks (f_bct_6_7_15_18 n))
  (map (fun i => 65 + Z.of_nat i)%Z (seq 0 40)) = true.
Proof. vm_compute. reflexivity. Qed.
Lemma bct_group_ok : forallb (fun X => meqb (mmul (mtr X) (mmul bct_gram X)) bct_gram) bct_group = true.
Proof. vm_compute. reflexivity. Qed.
Lemma bct_order : point_group_order bct_cell 16.
Proof.
  exists bct_group. split; [apply nodupb_NoDup; vm_compute; reflexivity|]. split; [vm_compute; reflexivity|].
  assert (E : forall X, qisometry (qgram bct_cell) X <-> isometry bct_gram X).
  { intros X. apply (qisometry_scaled 1); [discriminate|]. vm_compute. reflexivity. }
  intros X. rewrite E. split.
  - intros HX. apply meqb_eq. pose proof bct_group_ok as B. rewrite forallb_forall in B. exact (B X HX).
  - intros HX. apply isometries_complete; [vm_compute; reflexivity|vm_compute; reflexivity|exact HX].
Qed.

Lemma bct_broken H n : (65 <= n < 105)%Z -> In H (f_bct_6_7_15_18 n) ->
  mdet H <> 0%Z /\ ~ keeps_symmetry bct_cell (qmul bct_cell (qof (carried mid C_6_small H))).
Proof.
  intros Hn HH. pose proof bct_breaks as B. rewrite forallb_forall in B.
  assert (I : In n (map (fun i => 65 + Z.of_nat i)%Z (seq 0 40))).
  { apply in_map_iff. exists (Z.to_nat (n - 65)). split; [lia|]. apply in_seq. lia. }
  specialize (B n I). rewrite forallb_forall in B. specialize (B H HH).
  unfold breaks in B. apply andb_true_iff in B. destruct B as (B1 & B2).
  apply negb_true_iff, Z.eqb_neq in B1. split; [exact B1|]. intros K.
  assert (HD : qdet bct_cell <> 0) by (rewrite bct_det; discriminate).
  pose proof (proj1 (keeps_symmetry_iff bct_cell _ HD) K) as P. clear K.
  apply existsb_exists in B2. destruct B2 as (X & HX & B2). apply negb_true_iff in B2.
  assert (Q : qisometry (qgram bct_cell) X).
  { apply (qisometry_scaled 1 _ bct_gram); [discriminate|vm_compute; reflexivity|].
    apply meqb_eq. pose proof bct_group_ok as G. rewrite forallb_forall in G. exact (G X HX). }
  apply P in Q. apply preserves_b_complete in Q; [congruence|].
  rewrite carried_det; [exact B1| |]; reflexivity.
Qed.

Section SmallEps.
  Context (dep : Qc -> bool) (cbrt : Qc -> Qc) (pg_size : qmat -> Z) (norms : qmat -> Qc * Qc * Qc)
          (equal_norm : Qc -> Qc -> bool) (undefined : mat3 -> qmat) (mink : qmat -> qmat)
          (rmin : qmat -> Qc) (packed : qmat -> bool) (equal : Qc -> Qc -> bool)
          (irr1 irr2 : qmat -> offset -> option Z).
  Local Notation top := (find_grid_top dep cbrt pg_size norms equal_norm undefined mink rmin packed
                           equal irr1 irr2).
  Lemma small_eps fuel root e given min_kpts :
    cube_root cbrt -> dependence_test dep -> positive irr1 ->
    (forall B, qdet B <> 0 -> exists Y, unimodular Y /\ mink B = qmul B (qof Y)) ->
    qdec 1 12 <= e -> e <= qdec 1 6 -> pg_size bct_cell = 16%Z -> (fuel <= 40)%nat ->
    exists r, top fuel root bct_cell (Some e) given 65 min_kpts = Searched 6 r /\
      forall g o, r = Found g o -> ~ keeps_symmetry bct_cell g.
  Proof.
    intros HR HD HP HM L1 L2 HS Hf. unfold find_grid_top. cbv zeta. cbn [top_eps].
    destruct (bct_id dep cbrt e HR HD L1 L2) as (s_range & E). rewrite E, HS.
    change (check_sym 6 16) with (Some true). cbv iota. eexists. split; [reflexivity|].
    intros g o F HK.
    destruct (found_from _ _ _ _ _ _ _ _ _ _ 6%Z _ _ _ _ f_bct_6_7_15_18 _ _ HP eq_refl eq_refl eq_refl F)
      as (n & H & Hn & HH & EG).
    assert (Hn' : (65 <= n < 105)%Z) by lia. clear Hn.
    destruct (bct_broken H n Hn' HH) as (DH & NB).
    assert (DU : qdet bct_cell <> 0) by (rewrite bct_det; discriminate).
    assert (DO : qdet (dec_basis basis_6) <> 0) by exact (f_basis_det 6 basis_6 eq_refl).
    rewrite (f_grid_exact undefined bct_cell (dec_basis basis_6) mid C_6_small H DU DO eq_refl eq_refl DH) in EG.
    assert (DC : mdet (carried mid C_6_small H) <> 0%Z) by (rewrite carried_det; [exact DH| |]; reflexivity).
    assert (DS : qdet (qmul bct_cell (qof (carried mid C_6_small H))) <> 0).
    { rewrite qdet_mul, qof_det. apply Qc_mul_neq0; [exact DU|now apply zq_neq0]. }
    destruct (HM _ (reciprocal_det _ DS)) as (Y & HY & EY). rewrite EY in EG. subst g.
    apply NB. exact (grid_of_broken _ _ Y DU DC HY HK).
  Qed.
End SmallEps.
