(** Model of find_grid (src/find_kgrids.f90 280-535) as a whole: lines 297-345, which identify
    the cell, check its point group and choose the offsets, and then the search of
    Model_find_grid.v.

    Library results are parameters: [dependent] and [cbrt] as in Model_niggli_f90.v, [pg_size]
    the size of the list returned by get_lattice_pointGroup, [norms] the lengths of the three
    lattice vectors, [equal_norm] and [equal] the comparison up to a tolerance; the others as in
    Model_find_grid.v.  The flag [symm_flag] and the atoms only reach the library, through
    [irr1] and [irr2]. *)
From Coq Require Import ZArith QArith Qcanon List Bool.
From Verif Require Import Mat3 QMat QNum Model_find_kgrids Model_find_grid Model_niggli_f90.
Import ListNotations.
Open Scope Z_scope.

(** An offset, in units of the grid vectors. *)
Definition offset : Type := (Qc * Qc * Qc)%type.
Definition of_quarters (v : vec3) : offset :=
  (zq (v1 v) / zq 4, zq (v2 v) / zq 4, zq (v3 v) / zq 4)%Qc.

(** What the whole procedure can do: a [stop] in [id_cell], the [stop]s of lines 321-329 and of
    [check_sym], or the result of the search for a lattice with the given number. *)
Inductive top_result : Type :=
| Not_identified (o : f_id_outcome)
| Symmetry_stop (lat_id : Z)
| Searched (lat_id : Z) (r : fg_result offset).

(** Lines 297-301: the default tolerance [1E-3]. *)
Definition top_eps (eps_ : option Qc) : Qc := match eps_ with Some e => e | None => qdec 1 3 end.

(** Lines 331-336; [given]: the offset of the user, if [find_offset] is false. *)
Definition top_offsets (norms : qmat -> Qc * Qc * Qc) (equal_norm : Qc -> Qc -> bool)
    (given : option offset) (lat_id : Z) (U : qmat) : list offset :=
  match given with
  | Some o => [o]
  | None => let '(n1, n2, n3) := norms U in map of_quarters (get_offsets equal_norm lat_id n1 n2 n3)
  end.

Section top.
  Context (dependent : Qc -> bool) (cbrt : Qc -> Qc) (pg_size : qmat -> Z)
          (norms : qmat -> Qc * Qc * Qc) (equal_norm : Qc -> Qc -> bool)
          (undefined : mat3 -> qmat) (mink : qmat -> qmat) (rmin : qmat -> Qc)
          (packed : qmat -> bool) (equal : Qc -> Qc -> bool)
          (irr1 irr2 : qmat -> offset -> option Z).

  Definition find_grid_top (fuel : nat) (root : Z) (U : qmat) (eps_ : option Qc)
      (given : option offset) (kpd : Z) (min_kpts : bool) : top_result :=
    let eps := top_eps eps_ in
    match id_cell dependent cbrt U (Some eps) with
    | Id_cell Nu Cu Ob No Co lat_id s_range =>
      match check_sym lat_id (pg_size U) with
      | Some true =>
          Searched lat_id
            (find_grid (f_grid undefined No Nu Co Cu Ob) mink rmin packed equal eps irr1 irr2
               (top_offsets norms equal_norm given lat_id U) fuel lat_id s_range kpd root min_kpts)
      | _ => Symmetry_stop lat_id
      end
    | o => Not_identified o
    end.
End top.
