(** Model of the main program (src/driver.f90): from the lines of the files POSCAR and KPGEN to
    the lines of the file KPOINTS.

    The routines of the library [kpointgeneration] are parameters, as are those of
    Model_find_grid_top.v and Model_control.v.  The formatted output of the Fortran runtime is
    modelled: it decides what the user of the file can read.  Reals are exact rationals. *)
From Coq Require Import ZArith QArith Qcanon List Bool Ascii String.
From Verif Require Import Mat3 QMat QNum Model_find_grid Model_niggli_f90 Model_find_grid_top
  Model_control.
Import ListNotations.
Open Scope string_scope.

(** ** Edit descriptors *)
Fixpoint copies (n : nat) (c : ascii) : string :=
  match n with O => "" | S n => String c (copies n c) end.
Definition digit (d : Z) : ascii := ascii_of_nat (48 + Z.to_nat d).
(** The last [n] decimal digits of [x]. *)
Fixpoint digits (n : nat) (x : Z) : string :=
  match n with O => "" | S n => digits n (x / 10) ++ String (digit (x mod 10)) "" end.
(** The number of digits of [x], at least 1. *)
Fixpoint ndigits (fuel : nat) (x : Z) : nat :=
  match fuel with
  | O => 1
  | S fuel => if Z.ltb x 10 then 1 else S (ndigits fuel (x / 10))
  end.
Definition numeral (x : Z) : string := digits (ndigits (Z.to_nat (Z.log2 x)) x) x.
(** Right-justified in a field of [w] characters; asterisks if it does not fit. *)
Definition justify (w : nat) (s : string) : string :=
  if Nat.leb (length s) w then copies (w - length s) " " ++ s else copies w "*".
(** [Iw] *)
Definition i_edit (w : nat) (n : Z) : string :=
  justify w ((if Z.ltb n 0 then "-" else "") ++ numeral (Z.abs n)).
(** [Fw.d]: rounded to [d] places (halves away from zero); the zero before the point is left out
    if the field is too short for it. *)
Definition f_edit (w d : nat) (x : Qc) : string :=
  let ten := (10 ^ Z.of_nat d)%Z in
  let a := nint (qabs x * zq ten)%Qc in
  let sign := if qltb x 0 then "-" else "" in
  let fraction := "." ++ digits d (a mod ten) in
  let s := sign ++ numeral (a / ten) ++ fraction in
  if Nat.leb (length s) w then justify w s
  else if Z.eqb (a / ten) 0 then justify w (sign ++ fraction)
  else justify w s.
(** A list-directed integer of 4 bytes, as gfortran writes it. *)
Definition i_list (n : Z) : string := " " ++ i_edit 11 n.

(** ** The file KPOINTS *)
(** Line 47: format [(3(F15.12,1X),I5)]. *)
Definition point_line (x : qvec) (w : Z) : string :=
  f_edit 15 12 (w1 x) ++ " " ++ f_edit 15 12 (w2 x) ++ " " ++ f_edit 15 12 (w3 x) ++ " " ++
  i_edit 5 w.
Definition total (l : list (qvec * Z)) : Z := fold_right Z.add 0%Z (map snd l).
(** Lines 33-35. *)
Definition header (l : list (qvec * Z)) : list string :=
  let n := Z.of_nat (List.length l) in
  ["Dynamic K-point generation: irreducible/reducible: " ++ i_edit 12 n ++ "/" ++ i_edit 6 (total l);
   i_list n;
   " Fractional"].
(** Lines 32-48.  Lines 38-41 write to unit 5, which no [open] connects.  If the runtime refuses
    (in gfortran it is the standard input), the program ends there: [unit5] is false.
    [R]: [r_vecs]; [Rinv] is its inverse. *)
Definition kpoints_file (unit5 : bool) (R : qmat) (l : list (qvec * Z)) : list string :=
  if unit5 then (header l ++ map (fun pw => point_line (qmvec (qinv R) (fst pw)) (snd pw)) l)%list
  else header l.

(** ** The program *)
(** What the library is told about the crystal: lattice vectors, atoms, their types, the kind of
    symmetry to use and the tolerance. *)
Record crystal : Type := Crystal {
  cr_lat : qmat; cr_atoms : list qvec; cr_types : list Z; cr_symm : Z; cr_eps : Qc }.

Inductive run_result : Type :=
| Bad_poscar                      (* a [read] of the POSCAR fails *)
| Bad_inputs                      (* the [stop] of get_inputs, or an undefined variable *)
| No_grid (r : top_result)        (* find_grid stops or returns no defined grid or offset *)
| Kpoints (lines : list string).

Section driver.
  Context (read_int : string -> io Z) (read_real : string -> io Qc)
          (read_3 : string -> io (Qc * Qc * Qc)) (sqrt2 : Qc).
  Context (dependent : Qc -> bool) (cbrt : Qc -> Qc) (pg_size : qmat -> Z)
          (norms : qmat -> Qc * Qc * Qc) (equal_norm : Qc -> Qc -> bool)
          (undefined : mat3 -> qmat) (mink reduce_R : Qc -> qmat -> qmat) (rmin : qmat -> Qc)
          (packed : qmat -> bool) (equal : Qc -> Qc -> bool)
          (irr1 irr2 : crystal -> qmat -> offset -> option Z) (fuel : nat) (root : Z -> Z).
  (** [reduce_R]: [minkowski_reduce_basis] of line 22 (that of find_grid has another argument);
      [generateIrredKpointList] for a grid, the reduced reciprocal basis and an offset: points
      with weights; [mapKptsIntoBZ] for one point. *)
  Context (generate : crystal -> qmat -> qmat -> offset -> list (qvec * Z))
          (to_bz : qmat -> Qc -> qvec -> qvec) (unit5 : bool).

  (** Lines 19-30. *)
  Definition driver (poscar_lines kpgen_lines : list string) : run_result :=
    match read_POSCAR read_int read_real read_3 poscar_lines with
    | None => Bad_poscar
    | Some p =>
      match get_inputs read_int read_real read_3 sqrt2 (p_allocated p) (p_param p) (p_lat p)
              kpgen_lines with
      | Inputs (Some nkpts) off find_offset symm min_kpts (Some eps) =>
        let U := p_lat p in
        let R := qinv (qtr U) in
        let cr := Crystal U (p_atoms p) (p_types p) symm eps in
        let search given :=
          match find_grid_top dependent cbrt pg_size norms equal_norm undefined (mink eps) rmin
                  packed equal (irr1 cr) (irr2 cr) fuel (root nkpts) U (Some eps) given nkpts
                  min_kpts with
          | Searched _ (Found g (Some o)) =>
              let l := generate cr g (reduce_R eps R) o in
              Kpoints (kpoints_file unit5 R (map (fun pw => (to_bz R eps (fst pw), snd pw)) l))
          | r => No_grid r
          end in
        if find_offset then search None
        else match off with Some o => search (Some o) | None => Bad_inputs end
      | _ => Bad_inputs
      end
    end.
End driver.
