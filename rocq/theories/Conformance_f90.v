(** The Fortran model against the repository's own test data (fidelity evidence, not a proof of any
    claim): every case of the test suites of niggli.f90, find_kgrids.f90 and sp_hnfs.f90 that is in
    Data_f90 and Data_sp is computed with the model and compared with the expected output.
    The definitions [.._value] hold what the model computes.

    Two of the 44 id_cell cases do not agree, and in both the test data cannot be right for the source
    at this commit: O.out.17 is another basis than the one assigned at niggli.f90 588-589, and
    No.out.34 is not O.out.34 times Co.out.34.  See DESIGN.md. *)
From Coq Require Import ZArith List Bool Qcanon.
From Verif Require Import Mat3 QMat QNum Model_diag Model_sp_hnfs Model_niggli_f90 Model_find_kgrids Model_grid_utils
  Proofs_cbrt Data_f90 Data_sp.
Import ListNotations.
Open Scope Z_scope.

(** The tolerance of the test suites, 0.00001. *)
Definition tol : Qc := qdec 1 5.
Definition close (x y : Qc) : bool := negb (qltb tol (qabs (x - y))).
Definition mclose (A B : qmat) : bool :=
  close (q11 A) (q11 B) && close (q12 A) (q12 B) && close (q13 A) (q13 B) &&
  close (q21 A) (q21 B) && close (q22 A) (q22 B) && close (q23 A) (q23 B) &&
  close (q31 A) (q31 B) && close (q32 A) (q32 B) && close (q33 A) (q33 B).
(** The test for linear dependence, exact. *)
Definition dep (v : Qc) : bool := match Qccompare v 0 with Eq => true | _ => false end.
Definition index {A} (l : list A) : list (nat * A) := combine (seq 1 (length l)) l.
(** The numbers of the cases that do not agree. *)
Definition disagree {A} (ok : A -> bool) (l : list A) : list nat :=
  map fst (filter (fun p => negb (ok (snd p))) (index l)).

Definition reduce_ok '(IN, N, Tr) : bool :=
  match reduce_cell dep qcbrt IN (Some (qdec 1 5)) with
  | FReduced n t => mclose n N && meqb t Tr
  | _ => false
  end.
Definition reduce_cell_value := Eval vm_compute in
  (length reduce_cases, disagree reduce_ok reduce_cases).
Example reduce_cell_agrees : reduce_cell_value = (60%nat, []).
Proof. reflexivity. Qed.

(** The six outputs compared one by one. *)
Definition id_flags (c : qmat * (qmat * mat3 * qmat * qmat * mat3 * Z)) : list bool :=
  let '(U, (Nu, Cu, Ob, No, Co, id)) := c in
  match id_cell dep qcbrt U (Some (qdec 1 5)) with
  | Id_cell Nu' Cu' O' No' Co' id' _ =>
      [mclose Nu Nu'; meqb Cu Cu'; mclose Ob O'; mclose No No'; meqb Co Co'; id' =? id]
  | _ => []
  end.
Definition id_disagree :=
  map (fun p => (fst p, id_flags (snd p)))
    (filter (fun p => negb (forallb (fun b => b) (id_flags (snd p)))) (index id_cases)).
Definition id_cell_value := Eval vm_compute in
  (length id_cases, id_disagree).
Example id_cell_agrees : id_cell_value = (44%nat, [(17%nat, [true; true; false; true; true; true]); (34%nat, [true; true; true; false; true; true])]).
Proof. reflexivity. Qed.
Definition id_cell_outputs_value := Eval vm_compute in
  forallb (fun c => Nat.eqb (length (id_flags c)) 6) id_cases.
Example id_cell_outputs_agrees : id_cell_outputs_value = true.
Proof. reflexivity. Qed.
(** No.out.34 is not O.out.34 times Co.out.34. *)
Definition case_34_product_value := Eval vm_compute in
  option_map (fun '(_, (_, _, Ob, No, Co, _)) => mclose No (qmul Ob (qof Co))) (nth_error id_cases 33).
Example case_34_inconsistent : case_34_product_value = Some false.
Proof. reflexivity. Qed.

Definition params_ok '(IN, e, (a, b, c, x, y, z), (l, m, n)) : bool :=
  let p := f_get_params e IN in
  close a (fA p) && close b (fB p) && close c (fC p) && close x (fxi p) && close y (feta p) && close z (fzeta p) &&
  (l =? fl p) && (m =? fm p) && (n =? fn p).
Definition get_params_value := Eval vm_compute in
  (length params_cases, disagree params_ok params_cases).
Example get_params_agrees : get_params_value = (16%nat, []).
Proof. reflexivity. Qed.

Definition condition_check_value := Eval vm_compute in
  (length check_cases,
  disagree (fun '((a, b, c, x, y, z), e, r) => Bool.eqb r (f_condition_check a b c x y z e)) check_cases).
Example condition_check_agrees : condition_check_value = (14%nat, []).
Proof. reflexivity. Qed.

Example get_sign_agrees : disagree (fun '(x, s) => s =? f_get_sign x) sign_cases = [].
Proof. vm_compute. reflexivity. Qed.
Example find_C3_agrees : disagree (fun '(l, m, n, M) => meqb M (f_find_C3 l m n)) C3_cases = [].
Proof. vm_compute. reflexivity. Qed.
Example find_C4_agrees : disagree (fun '(l, m, n, M) => meqb M (f_find_C4 l m n)) C4_cases = [].
Proof. vm_compute. reflexivity. Qed.

Definition transform_supercell_value := Eval vm_compute in
  (length transform_cases,
  disagree (fun '(h, No, Nu, Co, Cu, Ob, B) =>
    match f_transform_supercell h No Nu Co Cu Ob with Some X => mclose X B | None => false end)
    transform_cases).
Example transform_supercell_agrees : transform_supercell_value = (6%nat, []).
Proof. reflexivity. Qed.

(** The cube root of [kpd], rounded down. *)
Definition zroot (k : Z) : Z := fold_left (fun r i => if i ^ 3 <=? k then i else r) (map Z.of_nat (seq 1 20)) 0.
Example get_kpd_cubic_agrees :
  map (fun '(id, kpd, _) => get_kpd_cubic id kpd (zroot kpd)) kpd_cubic_cases = map snd kpd_cubic_cases /\
  length kpd_cubic_cases = 4%nat.
Proof. split; vm_compute; reflexivity. Qed.
Example get_kpd_tric_agrees :
  map (fun '(kpd, _, _) => get_kpd_tric 20 kpd) kpd_tric_cases =
  map (fun '(_, r, m) => Some (r, m)) kpd_tric_cases /\ length kpd_tric_cases = 3%nat.
Proof. split; vm_compute; reflexivity. Qed.

(** The lists of HNFs, in order. *)
Definition hnf6 (H : mat3) := (m11 H, m21 H, m22 H, m31 H, m32 H, m33 H).
Definition lists (f : Z -> list mat3) (cases : list (Z * list (Z * Z * Z * Z * Z * Z))) :=
  map (fun c => map hnf6 (f (fst c))) cases.
Definition cases_sc_3_value := Eval vm_compute in
  lists f_sc_3 cases_sc_3.
Example cases_sc_3_agrees : cases_sc_3_value = map snd cases_sc_3.
Proof. reflexivity. Qed.
Definition cases_fcc_1_value := Eval vm_compute in
  lists f_fcc_1 cases_fcc_1.
Example cases_fcc_1_agrees : cases_fcc_1_value = map snd cases_fcc_1.
Proof. reflexivity. Qed.
Definition cases_bcc_5_value := Eval vm_compute in
  lists f_bcc_5 cases_bcc_5.
Example cases_bcc_5_agrees : cases_bcc_5_value = map snd cases_bcc_5.
Proof. reflexivity. Qed.
Definition cases_hex_12_value := Eval vm_compute in
  lists f_hex_12 cases_hex_12.
Example cases_hex_12_agrees : cases_hex_12_value = map snd cases_hex_12.
Proof. reflexivity. Qed.
Definition cases_hex_22_value := Eval vm_compute in
  lists f_hex_22 cases_hex_22.
Example cases_hex_22_agrees : cases_hex_22_value = map snd cases_hex_22.
Proof. reflexivity. Qed.
Definition cases_rhom_9_24_value := Eval vm_compute in
  lists f_rhom_9_24 cases_rhom_9_24.
Example cases_rhom_9_24_agrees : cases_rhom_9_24_value = map snd cases_rhom_9_24.
Proof. reflexivity. Qed.
Definition cases_rhom_4_2_value := Eval vm_compute in
  lists f_rhom_4_2 cases_rhom_4_2.
Example cases_rhom_4_2_agrees : cases_rhom_4_2_value = map snd cases_rhom_4_2.
Proof. reflexivity. Qed.
Definition cases_st_11_value := Eval vm_compute in
  lists f_st_11 cases_st_11.
Example cases_st_11_agrees : cases_st_11_value = map snd cases_st_11.
Proof. reflexivity. Qed.
Definition cases_st_21_value := Eval vm_compute in
  lists f_st_21 cases_st_21.
Example cases_st_21_agrees : cases_st_21_value = map snd cases_st_21.
Proof. reflexivity. Qed.
Definition cases_bct_6_7_15_18_value := Eval vm_compute in
  lists f_bct_6_7_15_18 cases_bct_6_7_15_18.
Example cases_bct_6_7_15_18_agrees : cases_bct_6_7_15_18_value = map snd cases_bct_6_7_15_18.
Proof. reflexivity. Qed.
Definition cases_so_32_value := Eval vm_compute in
  lists f_so_32 cases_so_32.
Example cases_so_32_agrees : cases_so_32_value = map snd cases_so_32.
Proof. reflexivity. Qed.
Definition cases_fco_26_value := Eval vm_compute in
  lists f_fco_26 cases_fco_26.
Example cases_fco_26_agrees : cases_fco_26_value = map snd cases_fco_26.
Proof. reflexivity. Qed.
Definition cases_fco_16_value := Eval vm_compute in
  lists f_fco_16 cases_fco_16.
Example cases_fco_16_agrees : cases_fco_16_value = map snd cases_fco_16.
Proof. reflexivity. Qed.
Definition cases_bco_19_value := Eval vm_compute in
  lists f_bco_19 cases_bco_19.
Example cases_bco_19_agrees : cases_bco_19_value = map snd cases_bco_19.
Proof. reflexivity. Qed.
Definition cases_bco_8_value := Eval vm_compute in
  lists f_bco_8 cases_bco_8.
Example cases_bco_8_agrees : cases_bco_8_value = map snd cases_bco_8.
Proof. reflexivity. Qed.
Definition cases_bco_42_value := Eval vm_compute in
  lists f_bco_42 cases_bco_42.
Example cases_bco_42_agrees : cases_bco_42_value = map snd cases_bco_42.
Proof. reflexivity. Qed.
Definition cases_baseco_38_13_value := Eval vm_compute in
  lists f_baseco_38_13 cases_baseco_38_13.
Example cases_baseco_38_13_agrees : cases_baseco_38_13_value = map snd cases_baseco_38_13.
Proof. reflexivity. Qed.
Definition cases_baseco_23_value := Eval vm_compute in
  lists f_baseco_23 cases_baseco_23.
Example cases_baseco_23_agrees : cases_baseco_23_value = map snd cases_baseco_23.
Proof. reflexivity. Qed.
Definition cases_baseco_40_value := Eval vm_compute in
  lists f_baseco_40 cases_baseco_40.
Example cases_baseco_40_agrees : cases_baseco_40_value = map snd cases_baseco_40.
Proof. reflexivity. Qed.
Definition cases_baseco_36_value := Eval vm_compute in
  lists f_baseco_36 cases_baseco_36.
Example cases_baseco_36_agrees : cases_baseco_36_value = map snd cases_baseco_36.
Proof. reflexivity. Qed.
Definition cases_sm_33_value := Eval vm_compute in
  lists f_sm_33 cases_sm_33.
Example cases_sm_33_agrees : cases_sm_33_value = map snd cases_sm_33.
Proof. reflexivity. Qed.
Definition cases_sm_34_35_value := Eval vm_compute in
  lists f_sm_34_35 cases_sm_34_35.
Example cases_sm_34_35_agrees : cases_sm_34_35_value = map snd cases_sm_34_35.
Proof. reflexivity. Qed.
Definition cases_basecm_10_14_17_27_37_39_41_value := Eval vm_compute in
  lists f_basecm_10_14_17_27_37_39_41 cases_basecm_10_14_17_27_37_39_41.
Example cases_basecm_10_14_17_27_37_39_41_agrees : cases_basecm_10_14_17_27_37_39_41_value = map snd cases_basecm_10_14_17_27_37_39_41.
Proof. reflexivity. Qed.
Definition cases_basecm_20_25_value := Eval vm_compute in
  lists f_basecm_20_25 cases_basecm_20_25.
Example cases_basecm_20_25_agrees : cases_basecm_20_25_value = map snd cases_basecm_20_25.
Proof. reflexivity. Qed.
Definition cases_basecm_28_value := Eval vm_compute in
  lists f_basecm_28 cases_basecm_28.
Example cases_basecm_28_agrees : cases_basecm_28_value = map snd cases_basecm_28.
Proof. reflexivity. Qed.
Definition cases_basecm_29_30_value := Eval vm_compute in
  lists f_basecm_29_30 cases_basecm_29_30.
Example cases_basecm_29_30_agrees : cases_basecm_29_30_value = map snd cases_basecm_29_30.
Proof. reflexivity. Qed.
Definition cases_basecm_43_value := Eval vm_compute in
  lists f_basecm_43 cases_basecm_43.
Example cases_basecm_43_agrees : cases_basecm_43_value = map snd cases_basecm_43.
Proof. reflexivity. Qed.
Definition cases_tric_31_44_value := Eval vm_compute in
  lists (f_tric_loop 1) cases_tric_31_44.
Example cases_tric_31_44_agrees : cases_tric_31_44_value = map snd cases_tric_31_44.
Proof. reflexivity. Qed.
