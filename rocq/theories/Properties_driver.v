(** Properties C64 and C65: the file KPOINTS, and the program as a whole. *)
From Coq Require Import ZArith QArith Qcanon List Bool Ascii String Lia.
From Verif Require Import Mat3 Spec QMat QNum QcTac Spec_kgrids Spec_control Model_control Spec_niggli
  Spec_niggli_f90 Spec_grid Model_find_kgrids Model_find_grid Model_niggli_f90 Model_find_grid_top
  Proofs_transform Model_driver Spec_driver Proofs_driver Proofs_driver2 Proofs_driver3 Properties_control
  Model_transform Proofs_niggli_f90f Proofs_cbrt Model_pyniggli Model_niggli_id Spec_clear Properties_niggli_id Properties_find_grid Properties_niggli_f90.
Import ListNotations.
Open Scope string_scope.

(** ** C64 Numbers in the file KPOINTS *)
(** A coordinate is written with an error of at most 5e-13, or as asterisks. *)
Theorem C64_coordinate : forall x,
  (fits x -> exists v, words (f_edit 15 12 x) <> [] /\
     (forall t, In t (words (f_edit 15 12 x)) -> decimal t = Some v) /\ within v x) /\
  (~ fits x -> f_edit 15 12 x = "***************").
Proof. exact coordinate. Qed.
Print Assumptions C64_coordinate.
(** A line can be read back if its coordinates fit. *)
Theorem C64_line : forall x w, fits (w1 x) -> fits (w2 x) -> fits (w3 x) -> (0 <= w < 100000)%Z ->
  reads_point (point_line x w) x w.
Proof. exact line_reads. Qed.
Print Assumptions C64_line.
(** They fit for all points of the first zone, unless the cell is very skewed. *)
Theorem C64_readable : forall U p w, qdet U <> 0%Qc -> not_too_skewed U ->
  in_first_zone (reciprocal U) p -> (1 <= w <= 48)%Z ->
  let x := qmvec (qinv (reciprocal U)) p in
  qmvec (reciprocal U) x = p /\ reads_point (point_line x w) x w.
Proof. exact readable_points. Qed.
Print Assumptions C64_readable.
(** Points of the first zone are short: at most half of the root of the sum of the squared lengths
    of the basis vectors. *)
Theorem C64_zone : forall R x, in_first_zone R (qmvec R x) ->
  let '(a, b, c) := col_norms R in (zq 4 * norm2 (qmvec R x) <= a + b + c)%Qc.
Proof. exact zone_length. Qed.
Print Assumptions C64_zone.
(** For a skewed cell of a simple cubic lattice a point of the first zone becomes a line without
    the third coordinate. *)
Theorem C64_skewed_refuted : exists U p, qdet U = 1%Qc /\ in_first_zone (reciprocal U) p /\
  ~ exists x w, reads_point (point_line (qmvec (qinv (reciprocal U)) p) 1) x w.
Proof.
  exact (ex_intro _ skewed (ex_intro _ (QVec (Q2Qc (1 # 2)) 0 0) (conj eq_refl skewed_unreadable))).
Qed.
Print Assumptions C64_skewed_refuted.
(** The title gives the numbers of points before and after the reduction by symmetry, the first
    only below a million. *)
Theorem C64_title : forall l, (Z.of_nat (List.length l) < 10 ^ 12)%Z -> (0 <= total l < 10 ^ 6)%Z ->
  exists k1 k2 a b, nth 0 (header l) "" =
    "Dynamic K-point generation: irreducible/reducible: " ++ (copies k1 " " ++ a) ++ "/" ++ (copies k2 " " ++ b) /\
    integer a = Some (Z.of_nat (List.length l)) /\ integer b = Some (total l).
Proof. exact title_reads. Qed.
Print Assumptions C64_title.
Theorem C64_title_refuted : forall l, (10 ^ 6 <= total l)%Z ->
  exists s, nth 0 (header l) "" = s ++ "/******".
Proof. exact title_stars. Qed.
Print Assumptions C64_title_refuted.
Example C64_example :
  f_edit 15 12 (Q2Qc (-1 # 3)) = "-0.333333333333" /\ f_edit 15 12 (Q2Qc (2 # 3)) = " 0.666666666667" /\
  f_edit 15 12 (Q2Qc (-10 # 1)) = "***************" /\ f_edit 15 12 (Q2Qc (399999999999999999 # 4000000000000000)) = "***************" /\
  f_edit 5 2 (Q2Qc (-1 # 3)) = "-0.33" /\ f_edit 4 2 (Q2Qc (-1 # 3)) = "-.33" /\
  i_edit 5 48 = "   48" /\ i_edit 5 (-3) = "   -3" /\ i_edit 3 1000 = "***" /\
  point_line (QVec (Q2Qc (1 # 4)) (Q2Qc (-1 # 2)) 0) 12 =
    " 0.250000000000 -0.500000000000  0.000000000000    12" /\
  words " 0.250000000000 -0.5  0.0    12" = ["0.250000000000"; "-0.5"; "0.0"; "12"] /\
  decimal "-0.5" = Some (Q2Qc (-1 # 2)) /\ integer "12" = Some 12%Z /\ decimal "1.x" = None /\
  fits (Q2Qc (19 # 2)) /\ ~ fits (Q2Qc (-10 # 1)) /\ not_too_skewed qid.
Proof.
  repeat (apply conj); try (vm_compute; reflexivity).
  - intros (H & _). vm_compute in H. discriminate H.
Qed.

(** ** C65 From POSCAR and KPGEN to KPOINTS *)
(** For clear cells that are not very skewed and EPS between 0.000022 and 0.0011: if the program
    writes a file, the file lists the points of a grid that has the reciprocal lattice as a
    sublattice, has all symmetries of the cell and is at least as dense as required, with the
    offset of the user or an allowed one; the weights add up to the number of points. *)
Theorem C65_program : forall read_int read_real read_3 sqrt2 dep cbrt pg_size norms equal_norm
    undefined mink reduce_R rmin packed equal irr1 irr2 fuel root generate to_bz
    ops poscar kpgen p kpd off find symm min_kpts e L,
  cube_root cbrt -> dependence_test dep -> (forall cr, positive (irr1 cr)) ->
  (forall B, qdet B <> 0%Qc -> exists Y, unimodular Y /\ mink e B = qmul B (qof Y)) ->
  read_POSCAR read_int read_real read_3 poscar = Some p ->
  get_inputs read_int read_real read_3 sqrt2 (p_allocated p) (p_param p) (p_lat p) kpgen =
    Inputs (Some kpd) off find symm min_kpts (Some e) ->
  f_clear_cell cbrt e L (p_lat p) -> (qdec 22 6 <= e)%Qc -> (e <= qdec 11 4)%Qc -> (1 <= kpd)%Z ->
  not_too_skewed (p_lat p) ->
  (let R := reciprocal (p_lat p) in
   maps_into_zone R (to_bz R e) /\
   forall g s n, kgrid n (p_lat p) g -> kpoint_list ops R g s
     (generate (Crystal (p_lat p) (p_atoms p) (p_types p) symm e) g (reduce_R e R) s)) ->
  forall lines,
  driver read_int read_real read_3 sqrt2 dep cbrt pg_size norms equal_norm undefined mink reduce_R
    rmin packed equal irr1 irr2 fuel root generate to_bz true poscar kpgen = Kpoints lines ->
  exists k g n s,
    kgrid n (p_lat p) g /\ keeps_symmetry (p_lat p) g /\
    (if find then allowed_offset norms equal_norm None k (p_lat p) s else off = Some s) /\
    (k <> 31 /\ k <> 44 -> kpd <= n)%Z /\
    (k = 31 \/ k = 44 -> exists m a, 1 <= m /\ n = m ^ 3 * a /\ kpd / m ^ 3 <= a)%Z /\
    ((n < 10 ^ 11)%Z -> exists pts,
       lists_grid ops (reciprocal (p_lat p)) g s lines pts /\ total pts = n).
Proof. exact program_sound. Qed.
Print Assumptions C65_program.
(** If the runtime does not let the program write to unit 5, which it never opens, the file has
    its three title lines and no points. *)
Theorem C65_unit5_refuted : forall read_int read_real read_3 sqrt2 dep cbrt pg_size norms
    equal_norm undefined mink reduce_R rmin packed equal irr1 irr2 fuel root generate to_bz
    poscar kpgen lines,
  driver read_int read_real read_3 sqrt2 dep cbrt pg_size norms equal_norm undefined mink reduce_R
    rmin packed equal irr1 irr2 fuel root generate to_bz false poscar kpgen = Kpoints lines ->
  List.length lines = 3%nat.
Proof. exact no_points. Qed.
Print Assumptions C65_unit5_refuted.

(** A run: a library that finds 48 symmetries, accepts every grid and lists the irreducible
    points of a grid of 2 x 2 x 2 points of a simple cubic lattice. *)
Definition ex_driver (unit5 : bool) (poscar kpgen : list string) : run_result :=
  driver ex_int ex_real ex_3 1 small_volume qcbrt (fun _ => 48%Z) (fun _ => (1, 1, 1))%Qc qeqb
    (fun _ => qid) (fun _ B => B) (fun _ B => B) (fun _ => 1%Qc) (fun _ => true) qeqb
    (fun _ _ _ => Some 1%Z) (fun _ _ _ => None) 40 (fun _ => 1%Z)
    (fun _ g _ _ => eight g) (fun _ _ p => to_nearest p) unit5 poscar kpgen.
Example C65_example :
  ex_driver true ["Po"; "3"; "1 0 0"; "0 1 0"; "0 0 1"; "1"; "Direct"; "0 0 0"] ["NKPTS=7"] = Kpoints
    ["Dynamic K-point generation: irreducible/reducible:            4/     8";
     "           4";
     " Fractional";
     " 0.000000000000  0.000000000000  0.000000000000     1";
     "-0.500000000000  0.000000000000  0.000000000000     3";
     "-0.500000000000 -0.500000000000  0.000000000000     3";
     "-0.500000000000 -0.500000000000 -0.500000000000     1"] /\
  ex_driver true ["Po"; "3"; "1 0 0"; "0 1 0"; "300 0 1"; "1"; "Direct"; "0 0 0"] ["NKPTS=7"] = Kpoints
    ["Dynamic K-point generation: irreducible/reducible:            4/     8";
     "           4";
     " Fractional";
     " 0.000000000000  0.000000000000  0.000000000000     1";
     "-0.500000000000  0.000000000000 ***************     3";
     "-0.500000000000 -0.500000000000 ***************     3";
     "-0.500000000000 -0.500000000000 ***************     1"] /\
  ex_driver true ["Po"; "3"; "1 0 0"; "0 1 0"; "0 0 1"; "1"; "Direct"; "0 0 0"] ["EPS=1"] = Bad_inputs /\
  ex_driver true ["Po"; "3"; "1 0 0"; "0 1 0"] [] = Bad_poscar.
Proof. repeat split; vm_compute; reflexivity. Qed.
(** The list is one that C65_program expects, and mapping each coordinate to the nearest integer
    is what it expects of mapKptsIntoBZ. *)
Example C65_library : kpoint_list orthogonal qid half_grid (0, 0, 0)%Qc (eight half_grid) /\
  maps_into_zone qid to_nearest /\ reciprocal qid = qid /\ kgrid 8 qid half_grid.
Proof. exact (conj eight_list (conj nearest_zone (conj id_reciprocal half_kgrid))). Qed.
