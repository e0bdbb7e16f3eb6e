(** Model of [find_supercells] (support/python_dev/opf_python/universal.py 58-315) as a whole:
    identification, the two reductions, the choice of HNFs and the transformation.

    Arithmetic as in the models of the parts.  [cbrt] is the power [x**(1./3.)] used for the
    tolerance of the reduction, [nb] the rounded cube root of [find_volumes]. *)
From Coq Require Import ZArith QArith Qcanon List Bool.
From Verif Require Import Mat3 QMat QNum Model_universal Model_transform Model_pyniggli Model_niggli_id.
Import ListNotations.

Inductive fs_outcome : Type :=
| NotReduced (o : outcome)          (* exception of reduced_cell: in niggli_id, or in line 80 *)
| NotIdentified                     (* UnboundLocalError in niggli_id *)
| BasisNotReduced (o : outcome)     (* exception of reduced_cell, line 86 *)
| NoLattice                         (* ValueError, line 311, or find_volumes does not end *)
| Singular                          (* LinAlgError in transform_supercells *)
| Supercells (l : list qmat).

(** [None] as argument of reduced_cell: [np.array(None)] does not have shape (3,3). *)
Definition basis_rows (b : option qmat) : list (list Qc) :=
  match b with
  | Some (QMat a b c d e f g h i) => [[a; b; c]; [d; e; f]; [g; h; i]]
  | None => []
  end.

(** The matrix with these rows; only used on arrays accepted by reduced_cell. *)
Definition as_matrix (rows : list (list Qc)) : qmat :=
  match as_3x3 rows with Some A => A | None => qid end.

Definition find_supercells (cbrt : Qc -> Qc) (U : list (list Qc)) (kpt : Z) (exact : bool) (nb : Z)
  : fs_outcome :=
  match niggli_id cbrt U None None with                               (* line 79 *)
  | ReductionFailed o => NotReduced o
  | Unbound => NotIdentified
  | Identified r =>
    let nig_n := niggli_num r in
    match reduced_cell cbrt U None with                               (* line 80 *)
    | Reduced Nu Cu =>
      let basis := if z_in nig_n [31; 44]%Z then U else basis_rows (id_basis r) in
      match reduced_cell cbrt basis None with                         (* line 86 *)
      | Reduced No Co =>
        match find_hnfs nig_n kpt exact nb with                       (* lines 90-311 *)
        | None => NoLattice
        | Some spHNFs =>
          match transform_supercells spHNFs No Nu (qof Co) (qof Cu) (as_matrix basis) with
          | None => Singular
          | Some supercells => Supercells supercells
          end
        end
      | o => BasisNotReduced o
      end
    | o => NotReduced o
    end
  end.
