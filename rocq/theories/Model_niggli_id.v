(** Model of [niggli_id] (support/python_dev/opf_python/niggli_lat_id.py).

    Floats are exact rationals; rounding is not modelled.  The decimal bases are taken from
    Bases.v.  Printing the lattice name is irrelevant; the names are kept as strings. *)
From Coq Require Import ZArith QArith Qcanon List Bool String.
From Verif Require Import Mat3 QMat QNum Bases Model_pyniggli.
Open Scope Qc_scope.

(** A decimal basis of Bases.v (units of 10^-16) as a rational matrix. *)
Definition dec_basis (B : mat3) : qmat := qscale (qdec 1 16) (qof B).

(** What line 339 returns: lat_type, niggli_num, lat_fam, basis ([None] is Python's None). *)
Record lattice_id : Type := LatticeId {
  lat_type : string; niggli_num : Z; lat_fam : Z; id_basis : option qmat }.

(** One answer: the four assignments made in a branch. *)
Definition found (fam : Z) (name : string) (num : Z) (basis : mat3) : option lattice_id :=
  Some (LatticeId name num fam (Some (dec_basis basis))).
Definition found_tric (num : Z) : option lattice_id :=
  Some (LatticeId "triclinic" num 7 None).

Definition qthree : Qc := 1 + 1 + 1.
Definition qfour : Qc := 1 + 1 + 1 + 1.

Section Blocks.
(** [cl x y] is [np.allclose(x,y,atol=eps)]; [positive] is computed in lines 55-57. *)
Variable cl : Qc -> Qc -> bool.
Variables (A B C D E F : Qc) (positive : bool).
Local Notation "x =~ y" := (cl x y) (at level 70).

(** 2.0*abs(D+E+F) close to A+B, lines 93, 150, 162, 207, 326. *)
Definition sum_test : bool := qtwo * qabs (D + E + F) =~ A + B.

(** Lines 60-112. *)
Definition block1 : option lattice_id :=
  if (A =~ B) && (B =~ C) then
    if positive then
      if (D =~ E) && (D =~ F) then
        if (A / qtwo =~ D) && (A / qtwo =~ E) && (A / qtwo =~ F)
        then found 1 "face centered cubic" 1 basis_1
        else found 3 "rhombohedral" 2 basis_2
      else None
    else
      if (D =~ E) && (D =~ F) then
        if 0 =~ D then found 1 "simple cubic" 3 basis_3
        else if - A / qthree =~ D then found 1 "body centered cubic" 5 basis_5
        else found 3 "rhombohedral" 4 basis_4
      else if sum_test then
        if D =~ E then found 4 "body centered tetragonal" 6 basis_6
        else if E =~ F then found 4 "body centered tetragonal" 7 basis_7
        else found 5 "body centered orthorhombic" 8 basis_8
      else None
  else None.

(** Lines 114-167. *)
Definition block2 : option lattice_id :=
  if A =~ B then
    if positive then
      if (D =~ E) && (D =~ F) && (A / qtwo =~ D) then found 3 "rhombohedral" 9 basis_9
      else if D =~ E then found 6 "base centered monoclinic" 10 basis_10
      else None
    else
      if (D =~ E) && (D =~ F) && (D =~ 0) then found 4 "simple tetragonal" 11 basis_11
      else if D =~ E then
        if (D =~ 0) && (- A / qtwo =~ F) then found 2 "hexagonal" 12 basis_12
        else if (D =~ - A / qtwo) && (F =~ 0) then found 4 "body centered tetragonal" 15 basis_15
        else if D =~ 0 then found 5 "base centered orthorhombic" 13 basis_13
        else if sum_test then found 5 "face centered orthorhombic" 16 basis_16
        else found 6 "base centered monoclinic" 14 basis_14
      else if sum_test then found 6 "base centered monoclinic" 17 basis_17
      else None
  else None.

(** Lines 169-218. *)
Definition block3 : option lattice_id :=
  if B =~ C then
    if positive then
      if E =~ F then
        if (A / qfour =~ D) && (A / qtwo =~ E) then found 4 "body centered tetragonal" 18 basis_18
        else if A / qtwo =~ E then found 5 "body centered orthorhombic" 19 basis_19
        else found 6 "base centered monoclinic" 20 basis_20
      else None
    else
      if E =~ F then
        if (D =~ 0) && (E =~ 0) then found 4 "simple tetragonal" 21 basis_21
        else if (D =~ - B / qtwo) && (E =~ 0) then found 2 "hexagonal" 22 basis_22
        else if E =~ 0 then found 5 "base centered orthorhombic" 23 basis_23
        else if sum_test && (E =~ - A / qthree) then found 3 "rhombohedral" 24 basis_24
        else found 6 "base centered monoclinic" 25 basis_25
      else None
  else None.

(** Lines 220-337.  [None]: no variable is assigned (the [if] of line 228 has no [else]). *)
Definition block4 : option lattice_id :=
  if positive then
    if E =~ F then
      if (D =~ A / qfour) && (A / qtwo =~ E) then found 5 "face centered orthorhombic" 26 basis_26
      else if A / qtwo =~ E then found 6 "base centered monoclinic" 27 basis_27
      else None
    else
      if (E =~ A / qtwo) && (F =~ qtwo * D) then found 6 "base centered monoclinic" 28 basis_28
      else if (F =~ A / qtwo) && (E =~ qtwo * D) then found 6 "base centered monoclinic" 29 basis_29
      else if (D =~ B / qtwo) && (F =~ qtwo * E) then found 6 "base centered monoclinic" 30 basis_30
      else found_tric 31
  else
    if (E =~ F) && (E =~ 0) then
      if D =~ 0 then found 5 "simple orthorhombic" 32 basis_32
      else if D =~ - B / qtwo then found 5 "base centered orthorhombic" 40 basis_40
      else found 6 "simple monoclinic" 35 basis_35
    else if (D =~ F) && (D =~ 0) then
      if E =~ - A / qtwo then found 5 "base centered orthorhombic" 36 basis_36
      else found 6 "simple monoclinic" 33 basis_33
    else if (D =~ E) && (D =~ 0) then
      if F =~ - A / qtwo then found 5 "base centered orthorhombic" 38 basis_38
      else found 6 "simple monoclinic" 34 basis_34
    else
      if (- B / qtwo =~ D) && (- A / qtwo =~ E) && (F =~ 0)
      then found 5 "body centered orthorhombic" 42 basis_42
      else if (- B / qtwo =~ D) && (F =~ 0) then found 6 "base centered monoclinic" 41 basis_41
      else if (E =~ - A / qtwo) && (F =~ 0) then found 6 "base centered monoclinic" 37 basis_37
      else if (E =~ 0) && (F =~ - A / qtwo) then found 6 "base centered monoclinic" 39 basis_39
      else if sum_test && (qabs (qtwo * D + F) =~ B)
      then found 6 "body centered monoclinc" 43 basis_43
      else found_tric 44.

(** Lines 59-339: a block is entered only while [niggli_num is None].  [None] is the
    UnboundLocalError of line 339. *)
Definition identify : option lattice_id :=
  match block1 with Some r => Some r | None =>
  match block2 with Some r => Some r | None =>
  match block3 with Some r => Some r | None => block4 end end end.
End Blocks.

(** Lines 55-339 with relative tolerance [rt] inside [np.allclose]. *)
Definition id_params_tol (rt eps A B C D E F : Qc) : option lattice_id :=
  let positive := qgtb (D - eps) 0 && qgtb (E - eps) 0 && qgtb (F - eps) 0 in
  identify (allclose_r rt eps) A B C D E F positive.
(** The code: numpy's default relative tolerance. *)
Definition id_params : Qc -> Qc -> Qc -> Qc -> Qc -> Qc -> Qc -> option lattice_id :=
  id_params_tol rtol.

Inductive id_outcome : Type :=
| ReductionFailed (o : outcome)     (* the exception raised by reduced_cell *)
| Unbound                           (* UnboundLocalError, line 339 *)
| Identified (r : lattice_id).

Definition id_result (r : option lattice_id) : id_outcome :=
  match r with None => Unbound | Some r => Identified r end.

(** Lines 6-339.  [G] is the optional list of the six parameters. *)
Definition niggli_id (cbrt : Qc -> Qc) (lattice : list (list Qc)) (eps_ : option Qc)
    (G : option (Qc * Qc * Qc * Qc * Qc * Qc)) : id_outcome :=
  let eps := match eps_ with None => qdec 1 5 | Some e => e end in
  match G with
  | Some (A, B, C, D, E, F) => id_result (id_params eps A B C D E F)
  | None =>
    match reduced_cell cbrt lattice eps_ with
    | Reduced niggli _ =>
      id_result (id_params eps (dot_aa niggli) (dot_bb niggli) (dot_cc niggli)
                   (dot_bc niggli) (dot_ca niggli) (dot_ab niggli))
    | o => ReductionFailed o
    end
  end.
