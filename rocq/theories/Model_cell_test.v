(** Model of [cell_test] and [_test_case] (support/python_dev/opf_python/basis_check.py 22-358,
    398-430).

    Floats are exact rationals; rounding is modelled only where the program rounds ([np.round]).
    [cbrt] is the power [x**(1./3.)] used for the tolerance of the reduction.  The dictionary
    [count] is a list of keys and values, with numbers in place of their decimal names; what
    happens to it when an exception is raised is not modelled, nor is the printing. *)
From Coq Require Import ZArith QArith Qcanon Qround List Bool.
From Verif Require Import Mat3 QMat QNum PyNum Model_sc Model_bcc Model_fcc Model_so Model_stet Model_hx
  Model_body_ortho Model_sm Model_face_ortho Model_base_mono Model_rhom Model_base_ortho
  Model_universal Model_transform Model_pyniggli Model_niggli_id Model_find_supercells Model_basis_check.
Import ListNotations.

(** [np.round(x,3)]: the nearest multiple of 1/1000, halves to the even one. *)
Definition rint (x : Qc) : Z :=
  let f := Qfloor (this x) in
  let d := (x - zq f)%Qc in
  if qltb d (Q2Qc (1 # 2)) then f
  else if qltb (Q2Qc (1 # 2)) d then (f + 1)%Z
  else if Z.even f then f else (f + 1)%Z.
Definition round3 (x : Qc) : Qc := (zq (rint (x * zq 1000)) / zq 1000)%Qc.
(** [x % 1] *)
Definition mod1 (x : Qc) : Qc := (x - zq (Qfloor (this x)))%Qc.
(** [np.allclose(temp%1,0)] with numpy's default tolerances; only the nine numbers matter. *)
Definition whole (A : qmat) : bool :=
  let f x := allclose (qdec 1 8) (mod1 (round3 x)) 0 in
  match A with QMat a b c d e f' g h i =>
    f a && f b && f c && f d && f e && f f' && f g && f h && f i
  end.

Inductive test_outcome : Type :=
| CellNotReduced (o : outcome)      (* exception of reduced_cell, line 42 *)
| CellNotIdentified                 (* UnboundLocalError in niggli_id, line 46 *)
| BasisNotReducible (o : outcome)   (* exception of reduced_cell, line 49 *)
| NoCounter                         (* KeyError, line 53 *)
| NoFunction                        (* AttributeError: no such function in the module *)
| NoBasis                           (* UnboundLocalError: No, when O is None *)
| NoInverse                         (* LinAlgError *)
| SupercellNotReduced (o : outcome) (* exception of reduced_cell, line 419 *)
| SupercellNotIdentified            (* UnboundLocalError in niggli_id, line 419 *)
| Tested (b : bool) (count : list (Z * Z)).

(** What [_test_case] and the loops give: a verdict or an exception. *)
Inductive case_result : Type := Passed | Failed | Raised (e : test_outcome).

(** Lines 416-430. *)
Fixpoint test_supercells (cbrt : Qc -> Qc) (U : qmat) (crystal_fam : Z) (Bs : list qmat) : case_result :=
  match Bs with
  | [] => Passed
  | B :: rest =>
    match niggli_id cbrt (basis_rows (Some B)) (Some (qdec 1 2)) None with
    | ReductionFailed o => Raised (SupercellNotReduced o)
    | Unbound => Raised SupercellNotIdentified
    | Identified id =>
      match np_inv (qtr U) with
      | None => Raised NoInverse
      | Some r =>
        match np_inv (qtr B) with
        | None => Raised NoInverse
        | Some g =>
          match np_inv g with
          | None => Raised NoInverse
          | Some gi =>
            if (Z.ltb crystal_fam (lat_fam id) || negb (whole (qmul gi r)))%bool then Failed
            else test_supercells cbrt U crystal_fam rest
          end
        end
      end
    end
  end.
(** Lines 398-430. *)
Definition test_case (cbrt : Qc -> Qc) (U Nu Cu O No Co : qmat) (crystal_fam : Z) (HNFs : list mat3) : case_result :=
  match transform_supercells HNFs No Nu Co Cu O with
  | None => Raised NoInverse
  | Some Bs => test_supercells cbrt U crystal_fam Bs
  end.

(** The loop shared by all branches; [hnfs] is [None] when the module lacks the function. *)
Fixpoint test_sizes (hnfs : Z -> option (list mat3)) (case : list mat3 -> case_result) (kpds : list Z) : case_result :=
  match kpds with
  | [] => Passed
  | kpd :: rest =>
    match hnfs kpd with
    | None => Raised NoFunction
    | Some HNFs =>
      match case HNFs with
      | Passed => test_sizes hnfs case rest
      | r => r
      end
    end
  end.

(** The function called in the branch of each number (lines 55-355).  The functions of 6, 7, 9, 10,
    14, 15, 17, 18, 24, 27, 37, 39 and 41 do not exist: the modules have body_tet_6_7_15_18,
    rhom_9_24 and base_mono_10_14_17_27_37_39_41 instead. *)
Definition test_hnfs (k : Z) (kpd : Z) : option (list mat3) :=
  match k with
  | 1 => Some (fcc_1 kpd)
  | 2 | 4 => Some (rhom_4_2 kpd)
  | 3 => Some (sc_3 kpd)
  | 5 => Some (bcc_5 kpd)
  | 8 => Some (body_ortho_8 kpd)
  | 11 => Some (stet_11 kpd)
  | 12 => Some (hex_12 kpd)
  | 13 | 38 => Some (base_ortho_38_13 kpd)
  | 16 => Some (face_ortho_16 kpd)
  | 19 => Some (body_ortho_19 kpd)
  | 20 | 25 => Some (base_mono_20_25 kpd)
  | 21 => Some (stet_21 kpd)
  | 22 => Some (hex_22 kpd)
  | 23 => Some (base_ortho_23 kpd)
  | 26 => Some (face_ortho_26 kpd)
  | 28 => Some (base_mono_28 kpd)
  | 29 | 30 => Some (base_mono_29_30 kpd)
  | 32 => Some (so_32 kpd)
  | 33 => Some (sm_33 kpd)
  | 34 => Some (sm_34 kpd)
  | 35 => Some (sm_35 kpd)
  | 36 => Some (base_ortho_36 kpd)
  | 40 => Some (base_ortho_40 kpd)
  | 42 => Some (body_ortho_42 kpd)
  | 43 => Some (base_mono_43 kpd)
  | _ => None
  end%Z.
(** The sizes of that branch. *)
Definition test_kpds (k : Z) (max_kpd : Z) : list Z :=
  if Z.eqb k 1 then fcc_kps max_kpd
  else if (Z.eqb k 3 || Z.eqb k 5)%bool then sc_and_bcc_kps max_kpd
  else py_range 0 max_kpd 1.

(** Line 53: [count[str(n)] += 1]; [None] is the KeyError. *)
Fixpoint bump (k : Z) (count : list (Z * Z)) : option (list (Z * Z)) :=
  match count with
  | [] => None
  | (k', c) :: rest =>
    if Z.eqb k k' then Some ((k', c + 1)%Z :: rest)
    else option_map (cons (k', c)) (bump k rest)
  end.

(** Lines 22-358. *)
Definition cell_test (cbrt : Qc -> Qc) (U : list (list Qc)) (count : list (Z * Z)) (max_kpd_ : option Z) : test_outcome :=
  let max_kpd := match max_kpd_ with None => 100000%Z | Some m => m end in
  match reduced_cell cbrt U None with
  | Reduced Nu Cu =>
    match niggli_id cbrt U None None with
    | ReductionFailed o => CellNotReduced o
    | Unbound => CellNotIdentified
    | Identified r =>
      let k := niggli_num r in
      match (match id_basis r with
             | None => inl None
             | Some Ob =>
               match reduced_cell cbrt (basis_rows (Some Ob)) None with
               | Reduced No Co => inl (Some (Ob, No, Co))
               | o => inr o
               end
             end) with
      | inr o => BasisNotReducible o
      | inl basis =>
        match bump k count with
        | None => NoCounter
        | Some count =>
          if z_in k [31; 44]%Z then Tested true count                  (* lines 268-269, 355-356 *)
          else
            let case HNFs :=
              match basis with
              | None => Raised NoBasis
              | Some (Ob, No, Co) => test_case cbrt (as_matrix U) Nu (qof Cu) Ob No (qof Co) (lat_fam r) HNFs
              end in
            match test_sizes (test_hnfs k) case (test_kpds k max_kpd) with
            | Passed => Tested true count
            | Failed => Tested false count
            | Raised e => e
            end
        end
      end
    end
  | o => CellNotReduced o
  end.
