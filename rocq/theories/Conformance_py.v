(** The Python model against the repository's own test data (fidelity evidence, not a proof of any
    claim): every case of test_pyniggli.py (reductions), test_niggli_id.py, test_universal.py and, up to
    the sizes in Data_enum, test_cases.py is computed with the model and compared with the expected
    output.  The definitions [.._value] hold what the model computes.
    All agree, except that one file holds the supercells for another basis (see below). *)
From Coq Require Import ZArith List Bool Qcanon.
From Verif Require Import Mat3 QMat QNum PyNum Model_sc Model_bcc Model_fcc Model_stet Model_rhom Model_hx
  Model_body_tet Model_so Model_base_ortho Model_body_ortho Model_face_ortho Model_sm Model_base_mono
  Bases Model_pyniggli Model_niggli_id Model_universal Model_transform Model_find_supercells Proofs_cbrt
  Data_py Data_enum.
Import ListNotations.
Open Scope Z_scope.

(** numpy.allclose: |x - y| <= 1e-8 + 1e-5 |y|. *)
Definition allclose_by (a : Qc) (x y : Qc) : bool := negb (qltb (a + qdec 1 5 * qabs y)%Qc (qabs (x - y))).
Definition allclose : Qc -> Qc -> bool := allclose_by (qdec 1 8).
(** The same with room for the rounding of the data to seven decimals. *)
Definition allclose7 : Qc -> Qc -> bool := allclose_by (qdec 7 8).
Definition mall (c : Qc -> Qc -> bool) (A B : qmat) : bool :=
  c (q11 A) (q11 B) && c (q12 A) (q12 B) && c (q13 A) (q13 B) &&
  c (q21 A) (q21 B) && c (q22 A) (q22 B) && c (q23 A) (q23 B) &&
  c (q31 A) (q31 B) && c (q32 A) (q32 B) && c (q33 A) (q33 B).
Fixpoint lall (c : qmat -> qmat -> bool) (l m : list qmat) : bool :=
  match l, m with
  | [], [] => true
  | a :: l, b :: m => c a b && lall c l m
  | _, _ => false
  end.

Definition py_reduce_ok '(rows, e, N) : bool :=
  match reduced_cell qcbrt rows e with Reduced n _ => mall allclose n N | _ => false end.
Definition reduction_value := Eval vm_compute in
  (length py_reduce_cases, forallb py_reduce_ok py_reduce_cases).
Example reduction_agrees : reduction_value = (16%nat, true).
Proof. reflexivity. Qed.
(** The three arrays of test_reduction that raise ValueError. *)
Definition reduction_errors_value := Eval vm_compute in
  (reduced_cell qcbrt [[zq 0; zq 0; zq 0]; [zq 0; zq 0; zq 0]; [zq 0; zq 0; zq 0]] None,
  reduced_cell qcbrt [[zq 2; zq 2; zq 2]; [zq 1; zq 1; zq 1]] None).
Example reduction_errors_agrees : reduction_errors_value = (ZeroVolume, BadShape).
Proof. reflexivity. Qed.

Definition py_id_ok '(rows, G, num) : bool :=
  match niggli_id qcbrt rows None G with Identified r => niggli_num r =? num | _ => false end.
Definition niggli_id_value := Eval vm_compute in
  (length py_id_cases, forallb py_id_ok py_id_cases).
Example niggli_id_agrees : niggli_id_value = (49%nat, true).
Proof. reflexivity. Qed.
Definition niggli_id_family_value := Eval vm_compute in
  (let '(rows, e, fam) := py_fam_case in
   match niggli_id qcbrt rows (Some e) None with Identified r => lat_fam r =? fam | _ => false end).
Example niggli_id_family_agrees : niggli_id_family_value = true.
Proof. reflexivity. Qed.

Definition py_transform_value := Eval vm_compute in
  (length py_transform_cases,
  forallb (fun '(h, No, Nu, Co, Cu, Ob, B) =>
    match transform_supercells h No Nu Co Cu Ob with Some X => lall (mall allclose) X B | None => false end)
    py_transform_cases).
Example py_transform_agrees : py_transform_value = (3%nat, true).
Proof. reflexivity. Qed.

(** test_find_volumes; the last argument is [int(floor(nt**(1.0/3.0))-1)]. *)
Example find_volumes_agrees :
  find_volumes 1 10 1 = Some ([16; 27; 32], None) /\ find_volumes 3 10 1 = Some ([16; 27; 32], None) /\
  find_volumes 31 111 3 = Some ([13], Some 2) /\ find_volumes 31 1110 9 = Some ([41], Some 3) /\
  find_volumes 10 50 2 = Some ([50; 51; 52; 53; 54; 55; 56; 57; 58; 59; 60], None).
Proof. repeat split; vm_compute; reflexivity. Qed.

Definition py_super_ok '(rows, kpt, exact, nb, B) : bool :=
  match find_supercells qcbrt rows kpt exact nb with
  | Supercells X => lall (mall allclose7) X B
  | _ => false
  end.
(** All cases agree except one, the list of lattice 34 (number 24 of 30).  There the file holds the
    supercells for another, equivalent basis of that lattice, O times [M34] instead of O of
    niggli_lat_id.py 299-300: with it in place of O the list comes out as in the file. *)
Definition py_supercells_value := Eval vm_compute in
  (length py_super_cases,
  map fst (filter (fun p => negb (py_super_ok (snd p))) (combine (seq 1 30) py_super_cases))).
Example py_supercells_agrees : py_supercells_value = (30%nat, [24%nat]).
Proof. reflexivity. Qed.
Definition M34 : mat3 := Mat3 (-1) 1 0 0 1 0 0 0 1.
Definition M34_inv : mat3 := Mat3 (-1) 1 0 0 1 0 0 0 1.
Definition super_34 '(rows, kpt, exact, nb, B) : bool :=
  match niggli_id qcbrt rows None None, reduced_cell qcbrt rows None,
        reduced_cell qcbrt (basis_rows (Some (dec_basis basis_34))) None, find_hnfs 34 kpt exact nb with
  | Identified r, Reduced Nu Cu, Reduced No Co, Some hnfs =>
      (niggli_num r =? 34) &&
      match transform_supercells hnfs No Nu (qof (mmul M34_inv Co)) (qof Cu)
              (qmul (dec_basis basis_34) (qof M34)) with
      | Some X => lall (mall allclose7) X B
      | None => false
      end
  | _, _, _, _ => false
  end.
Definition supercells_34_value := Eval vm_compute in
  (mmul M34 M34_inv, option_map super_34 (nth_error py_super_cases 23)).
Example find_supercells_34 : supercells_34_value = (mid, Some true).
Proof. reflexivity. Qed.

(** The enumerators against the brute-force lists: as many HNFs of size 1 to [N], and every one of the list. *)
Definition hnf_of '(a, b, c, d, e, f) : mat3 := Mat3 a 0 0 b c 0 d e f.
Definition agrees (f : Z -> list mat3) (N : Z) (l : list (Z * Z * Z * Z * Z * Z)) : bool :=
  let r := flat_map f (py_range 1 (N + 1) 1) in
  Nat.eqb (length r) (length l) && forallb (fun h => existsb (meqb (hnf_of h)) r) l.
Definition brute_sc_value := Eval vm_compute in
  agrees sc_3 216 brute_sc.
Example brute_sc_agrees : brute_sc_value = true.
Proof. reflexivity. Qed.
Definition brute_bcc_value := Eval vm_compute in
  agrees bcc_5 216 brute_bcc.
Example brute_bcc_agrees : brute_bcc_value = true.
Proof. reflexivity. Qed.
Definition brute_fcc_value := Eval vm_compute in
  agrees fcc_1 216 brute_fcc.
Example brute_fcc_agrees : brute_fcc_value = true.
Proof. reflexivity. Qed.
Definition brute_stet_11_value := Eval vm_compute in
  agrees stet_11 24 brute_stet_11.
Example brute_stet_11_agrees : brute_stet_11_value = true.
Proof. reflexivity. Qed.
Definition brute_stet_21_value := Eval vm_compute in
  agrees stet_21 24 brute_stet_21.
Example brute_stet_21_agrees : brute_stet_21_value = true.
Proof. reflexivity. Qed.
Definition brute_rhom_9_value := Eval vm_compute in
  agrees rhom_9_24 32 brute_rhom_9.
Example brute_rhom_9_agrees : brute_rhom_9_value = true.
Proof. reflexivity. Qed.
Definition brute_rhom_2_value := Eval vm_compute in
  agrees rhom_4_2 32 brute_rhom_2.
Example brute_rhom_2_agrees : brute_rhom_2_value = true.
Proof. reflexivity. Qed.
Definition brute_hex_12_value := Eval vm_compute in
  agrees hex_12 32 brute_hex_12.
Example brute_hex_12_agrees : brute_hex_12_value = true.
Proof. reflexivity. Qed.
Definition brute_hex_22_value := Eval vm_compute in
  agrees hex_22 32 brute_hex_22.
Example brute_hex_22_agrees : brute_hex_22_value = true.
Proof. reflexivity. Qed.
Definition brute_body_tet_6_value := Eval vm_compute in
  agrees body_tet_6_7_15_18 32 brute_body_tet_6.
Example brute_body_tet_6_agrees : brute_body_tet_6_value = true.
Proof. reflexivity. Qed.
Definition brute_so_value := Eval vm_compute in
  agrees so_32 8 brute_so.
Example brute_so_agrees : brute_so_value = true.
Proof. reflexivity. Qed.
Definition brute_base_ortho_38_value := Eval vm_compute in
  agrees base_ortho_38_13 10 brute_base_ortho_38.
Example brute_base_ortho_38_agrees : brute_base_ortho_38_value = true.
Proof. reflexivity. Qed.
Definition brute_base_ortho_23_value := Eval vm_compute in
  agrees base_ortho_23 10 brute_base_ortho_23.
Example brute_base_ortho_23_agrees : brute_base_ortho_23_value = true.
Proof. reflexivity. Qed.
Definition brute_base_ortho_40_value := Eval vm_compute in
  agrees base_ortho_40 10 brute_base_ortho_40.
Example brute_base_ortho_40_agrees : brute_base_ortho_40_value = true.
Proof. reflexivity. Qed.
Definition brute_base_ortho_36_value := Eval vm_compute in
  agrees base_ortho_36 10 brute_base_ortho_36.
Example brute_base_ortho_36_agrees : brute_base_ortho_36_value = true.
Proof. reflexivity. Qed.
Definition brute_body_ortho_19_value := Eval vm_compute in
  agrees body_ortho_19 10 brute_body_ortho_19.
Example brute_body_ortho_19_agrees : brute_body_ortho_19_value = true.
Proof. reflexivity. Qed.
Definition brute_body_ortho_8_value := Eval vm_compute in
  agrees body_ortho_8 10 brute_body_ortho_8.
Example brute_body_ortho_8_agrees : brute_body_ortho_8_value = true.
Proof. reflexivity. Qed.
Definition brute_body_ortho_42_value := Eval vm_compute in
  agrees body_ortho_42 10 brute_body_ortho_42.
Example brute_body_ortho_42_agrees : brute_body_ortho_42_value = true.
Proof. reflexivity. Qed.
Definition brute_face_ortho_26_value := Eval vm_compute in
  agrees face_ortho_26 10 brute_face_ortho_26.
Example brute_face_ortho_26_agrees : brute_face_ortho_26_value = true.
Proof. reflexivity. Qed.
Definition brute_face_ortho_16_value := Eval vm_compute in
  agrees face_ortho_16 10 brute_face_ortho_16.
Example brute_face_ortho_16_agrees : brute_face_ortho_16_value = true.
Proof. reflexivity. Qed.
Definition brute_sm_33_value := Eval vm_compute in
  agrees sm_33 6 brute_sm_33.
Example brute_sm_33_agrees : brute_sm_33_value = true.
Proof. reflexivity. Qed.
Definition brute_sm_35_value := Eval vm_compute in
  agrees sm_35 6 brute_sm_35.
Example brute_sm_35_agrees : brute_sm_35_value = true.
Proof. reflexivity. Qed.
Definition brute_base_mono_20_value := Eval vm_compute in
  agrees base_mono_20_25 6 brute_base_mono_20.
Example brute_base_mono_20_agrees : brute_base_mono_20_value = true.
Proof. reflexivity. Qed.
Definition brute_base_mono_28_value := Eval vm_compute in
  agrees base_mono_28 6 brute_base_mono_28.
Example brute_base_mono_28_agrees : brute_base_mono_28_value = true.
Proof. reflexivity. Qed.
Definition brute_base_mono_29_value := Eval vm_compute in
  agrees base_mono_29_30 6 brute_base_mono_29.
Example brute_base_mono_29_agrees : brute_base_mono_29_value = true.
Proof. reflexivity. Qed.
Definition brute_base_mono_43_value := Eval vm_compute in
  agrees base_mono_43 6 brute_base_mono_43.
Example brute_base_mono_43_agrees : brute_base_mono_43_value = true.
Proof. reflexivity. Qed.
Definition brute_base_mono_37_value := Eval vm_compute in
  agrees base_mono_10_14_17_27_37_39_41 6 brute_base_mono_37.
Example brute_base_mono_37_agrees : brute_base_mono_37_value = true.
Proof. reflexivity. Qed.
