(** Model of [transform_supercells] (support/python_dev/opf_python/universal.py).

    Floating point matrices are modelled as matrices of exact rationals; rounding is not
    modelled. *)
From Coq Require Import ZArith QArith Qcanon List.
From Verif Require Import Mat3 QMat.
Import ListNotations.
Open Scope Qc_scope.

Definition qeqb (x y : Qc) : bool := if Qc_eq_dec x y then true else false.

(** [np.linalg.inv]: [None] stands for the [LinAlgError] raised on a singular matrix. *)
Definition np_inv (A : qmat) : option qmat :=
  if qeqb (qdet A) 0 then None else Some (qinv A).

(** universal.py 27-29, the body of the loop:
    L = O H O^-1;  F = No^-1 (L O Co);  Bu = Nu F Cu^-1. *)
Definition transform_one (No Nu Co Cu O : qmat) (H : mat3) : option qmat :=
  match np_inv O with
  | None => None
  | Some Oi =>
    let L := qmul (qmul O (qof H)) Oi in
    match np_inv No with
    | None => None
    | Some Noi =>
      let F := qmul Noi (qmul (qmul L O) Co) in
      match np_inv Cu with
      | None => None
      | Some Cui => Some (qmul (qmul Nu F) Cui)
      end
    end
  end.

(** universal.py 5-32. *)
Fixpoint transform_supercells (spHNFs : list mat3) (No Nu Co Cu O : qmat)
  : option (list qmat) :=
  match spHNFs with
  | [] => Some []
  | H :: rest =>
    match transform_one No Nu Co Cu O H with
    | None => None
    | Some Bu =>
      match transform_supercells rest No Nu Co Cu O with
      | None => None
      | Some r => Some (Bu :: r)
      end
    end
  end.
