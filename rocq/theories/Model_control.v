(** Model of the module control_file (src/control_file.f90).

    The runtime library that reads a number from text is a parameter; its three outcomes are
    below.  Reals are exact rationals.  The files are lists of lines. *)
From Coq Require Import ZArith QArith Qcanon Qround List Bool Ascii String.
From Verif Require Import Mat3 QMat QNum.
Import ListNotations.
Open Scope string_scope.

(** [read(buffer, *, iostat=ios) x]: the value read, a null value (an empty field before a comma
    or slash, which leaves [x] as it was), or [ios /= 0], which leaves [x] undefined. *)
Inductive io (A : Type) : Type := Value (a : A) | Null | Failed.
Arguments Value {A}.
Arguments Null {A}.
Arguments Failed {A}.

(** ** Text *)
(** A Fortran string of fixed length is padded with blanks and compared without regard to
    trailing blanks.  It is represented by its text without trailing blanks. *)
Definition blank (c : ascii) : bool := Ascii.eqb c " "%char.
Fixpoint rtrim (s : string) : string :=
  match s with
  | "" => ""
  | String c s => let r := rtrim s in
      if blank c && String.eqb r "" then "" else String c r
  end.
(** [adjustl] *)
Fixpoint adjustl (s : string) : string :=
  match s with String c r => if blank c then adjustl r else s | "" => "" end.
(** [character(len=n) :: x; x = s] *)
Definition fixed (n : nat) (s : string) : string := rtrim (substring 0 n s).

(** [pos = scan(buffer, '='); label = buffer(1:pos-1); buffer = buffer(pos+1:)]: [pos] is 0
    when there is no '='. *)
Fixpoint scan_eq (s : string) : option (string * string) :=
  match s with
  | "" => None
  | String c s => if Ascii.eqb c "="%char then Some ("", s)
      else match scan_eq s with Some (l, r) => Some (String c l, r) | None => None end
  end.
Definition split_line (buffer : string) : string * string :=
  match scan_eq buffer with
  | Some (l, r) => (rtrim l, r)
  | None => ("", buffer)
  end.

(** ** Numbers *)
(** [NINT]: the nearest integer, halves away from zero. *)
Definition nint (q : Qc) : Z :=
  if Qle_bool 0 (this q) then Qfloor (this q + (1 # 2)) else (- Qfloor (- this q + (1 # 2)))%Z.
(** Line 111. *)
Definition f_pi : Qc := Q2Qc (31415926535897932385 # 10000000000000000000).

(** ** get_inputs *)
Section get_inputs.
  Open Scope Qc_scope.
  Context (read_int : string -> io Z) (read_real : string -> io Qc)
          (read_3 : string -> io (Qc * Qc * Qc)).
  (** [sqrt2]: [2**(0.5_dp)]; [natoms]: [size(atom_base,2)]; [lat]: the lattice read from the
      POSCAR, [lat_param] its factor. *)
  Context (sqrt2 : Qc) (natoms : Z) (lat_param : Qc) (lat : qmat).

  (** Lines 119-123. *)
  Definition c_vol : Qc := qabs (qdet (qscale lat_param lat)).
  Definition c_r_vol : Qc :=
    qabs (qdet (qscale ((1 + 1) * f_pi) (qinv (qtr (qscale lat_param lat))))).

  (** The variables; [None] is "undefined". *)
  Record vars : Type := Vars {
    v_ios : bool;             (* ios == 0 *)
    v_nkpts : option Z; v_set : bool;
    v_kpd : option Qc; v_lkpd : option Qc; v_kppra : option Z; v_rmin : option Qc;
    v_offset : option (Qc * Qc * Qc); v_find : bool;
    v_symm : Z; v_min : bool; v_eps : option Qc; v_def_eps : bool }.
  (** Lines 109-115, 128-129. *)
  Definition vars0 : vars :=
    Vars true None false None None None None None true 0 false None true.

  Definition assign {A} (x : option A) (r : io A) : option A :=
    match r with Value a => Some a | Null => x | Failed => None end.
  Definition ok {A} (r : io A) : bool := match r with Failed => false | _ => true end.

  (** Lines 136-181: the body of the loop for one line. *)
  Definition do_line (line : string) (v : vars) : vars :=
    let '(label, buffer) := split_line (fixed 100 line) in
    let '(Vars ios nkpts set kpd lkpd kppra rmin off find symm mn eps de) := v in
    if String.eqb label "SHIFT" then
      let r := read_3 buffer in
      Vars (ok r) nkpts set kpd lkpd kppra rmin (assign off r) false symm mn eps de
    else if String.eqb label "NKPTS" then
      let r := read_int buffer in
      Vars (ok r) (assign nkpts r) true kpd lkpd kppra rmin off find symm mn eps de
    else if String.eqb label "KPDENSITY" then
      let r := read_real buffer in
      let kpd := assign kpd r in
      Vars (ok r) (option_map (fun kpd => nint (kpd * c_r_vol)) kpd) true
        kpd lkpd kppra rmin off find symm mn eps de
    else if String.eqb label "KSPACING" then
      let r := read_real buffer in
      let lkpd := assign lkpd r in
      Vars (ok r) (option_map (fun lkpd => let x := 1 / ((1 + 1) * f_pi * lkpd) in
                                 nint (x * x * x * c_r_vol)) lkpd) true
        kpd lkpd kppra rmin off find symm mn eps de
    else if String.eqb label "KPPRA" then
      let r := read_int buffer in
      let kppra := assign kppra r in
      Vars (ok r) (option_map (fun kppra => (natoms * kppra)%Z) kppra) true
        kpd lkpd kppra rmin off find symm mn eps de
    else if String.eqb label "RMIN" then
      let r := read_real buffer in
      let rmin := assign rmin r in
      Vars (ok r) (option_map (fun rmin => nint (rmin * rmin * rmin / (c_vol * sqrt2))) rmin) true
        kpd lkpd kppra rmin off find symm mn eps de
    else if String.eqb label "USE_SYMMETRY" then
      let b := adjustl buffer in
      let symm := if String.eqb b "NONE" then 3%Z
                  else if String.eqb b "TIME_REVERSAL" then 2%Z
                  else if String.eqb b "STRUCTURAL" then 1%Z
                  else if String.eqb b "ALL" then 0%Z else symm in
      Vars ios nkpts set kpd lkpd kppra rmin off find symm mn eps de
    else if String.eqb label "MIN_IRR_KPTS" then
      Vars ios nkpts set kpd lkpd kppra rmin off find symm
        (if String.eqb (adjustl buffer) "TRUE" then true else mn) eps de
    else if String.eqb label "EPS" then
      let r := read_real buffer in
      Vars (ok r) nkpts set kpd lkpd kppra rmin off find symm mn (assign eps r) false
    else v.

  (** Lines 130-183. *)
  Fixpoint do_lines (lines : list string) (v : vars) : vars :=
    match lines with
    | [] => v                                    (* end of file *)
    | line :: lines => if v_ios v then do_lines lines (do_line line v) else v
    end.

  (** The output arguments, or the [stop] of line 189.  [None] is "undefined". *)
  Inductive inputs : Type :=
  | Not_set
  | Inputs (nkpts : option Z) (off : option (Qc * Qc * Qc)) (find_offset : bool)
      (symm_flag : Z) (min_kpts : bool) (eps : option Qc).

  (** Lines 109-189. *)
  Definition get_inputs (lines : list string) : inputs :=
    let v := do_lines lines vars0 in
    let eps := if v_def_eps v then Some (qdec 1 3) else v_eps v in
    if v_set v then Inputs (v_nkpts v) (v_offset v) (v_find v) (v_symm v) (v_min v) eps
    else Not_set.
End get_inputs.

(** ** POSCAR *)
(** Lines 198-208 [split_str] on a string of 300 characters: first word and rest.  [SCAN(instr,
    " ")] is taken after the leading blanks are removed.  A string of 300 characters without a
    blank (then [index] is 0) is not modelled separately: its word is the whole string. *)
Fixpoint word (s : string) : string * string :=
  match s with
  | "" => ("", "")
  | String c s => if blank c then ("", s) else let '(w, r) := word s in (String c w, r)
  end.
Definition split_str (instr : string) : string * string :=
  let '(w, r) := word (adjustl instr) in (w, rtrim (adjustl r)).

Section poscar.
  Context (read_int : string -> io Z).

  (** Lines 217-259 [parse_line_for_numbers]: [readEntries] and the values.  [values] has 300
      entries, all zero at first; only those assigned are listed, the others count as zero.  An
      entry whose reading fails is taken to stay zero (as with gfortran).  [fuel]: the rest of the
      line gets shorter each time. *)
  Fixpoint parse_numbers (fuel : nat) (line : string) (values : list Z) : Z * list Z :=
    match fuel with
    | O => (Z.of_nat (List.length values), values)
    | S fuel =>
      let '(temp, line) := split_str line in
      if String.eqb temp "" then (Z.of_nat (List.length values) + 1, values)%Z
      else match read_int temp with
        | Failed => (Z.of_nat (List.length values), values)
        | r =>
          let values := (values ++ [match r with Value a => a | _ => 0%Z end])%list in
          if String.eqb line "" then (Z.of_nat (List.length values), values)
          else parse_numbers fuel line values
        end
    end.
  Definition parse_line_for_numbers (line : string) : Z * list Z :=
    let line := rtrim (adjustl (fixed 300 line)) in
    if String.eqb line "" then (0%Z, [])
    else parse_numbers (S (String.length line)) line [].
End poscar.

(** Lines 57-65: the types of the atoms, in the order in which they are written; [i] is the
    number of the first entry of [concs]. *)
Fixpoint atom_types (i : Z) (concs : list Z) : list Z :=
  match concs with
  | [] => []
  | c :: concs => (repeat (i - 1) (Z.to_nat c) ++ atom_types (i + 1) concs)%list%Z
  end.
(** Line 41: [allocate(atom_type(sum(concs)), ...)]. *)
Definition n_atoms (concs : list Z) : Z := fold_right Z.add 0%Z concs.

(** Lines 49-55: is the line of the coordinate type one of the four letters? *)
Definition is_cartesian (line : string) : bool :=
  match adjustl (fixed 300 line) with
  | String c _ => (Ascii.eqb c "c" || Ascii.eqb c "C" || Ascii.eqb c "k" || Ascii.eqb c "K")%char
  | "" => false
  end.
(** Lines 49-55: the position of an atom, in units of the lattice vectors. *)
Definition atom_position (lat_param : Qc) (lat : qmat) (kind : string) (x : qvec) : qvec :=
  if is_cartesian kind then qmvec (qinv (qscale lat_param lat)) x else x.

(** Lines 28-65 [read_POSCAR].  Each list-directed [read] is taken to find its numbers on one
    line.  [None]: a [read] fails and the program ends. *)
Record poscar : Type := Poscar {
  p_param : Qc; p_lat : qmat; p_types : list Z; p_allocated : Z; p_atoms : list qvec }.
Section read_poscar.
  Context (read_int : string -> io Z) (read_real : string -> io Qc)
          (read_3 : string -> io (Qc * Qc * Qc)).
  Definition value {A} (r : io A) : option A := match r with Value a => Some a | _ => None end.
  Definition row (line : string) : option qvec :=
    match value (read_3 line) with Some (x, y, z) => Some (QVec x y z) | None => None end.
  Fixpoint rows (n : nat) (lines : list string) : option (list qvec) :=
    match n, lines with
    | O, _ => Some []
    | S n, l :: lines =>
        match row l, rows n lines with Some x, Some r => Some (x :: r) | _, _ => None end
    | S _, [] => None
    end.
  Definition read_POSCAR (lines : list string) : option poscar :=
    match lines with
    | _title :: l :: l1 :: l2 :: l3 :: l5 :: rest =>
      match value (read_real l), row l1, row l2, row l3 with
      | Some s, Some a, Some b, Some c =>
        let lat := QMat (w1 a) (w1 b) (w1 c) (w2 a) (w2 b) (w2 c) (w3 a) (w3 b) (w3 c) in
        let '(count, concs) := parse_line_for_numbers read_int l5 in
        let after := if Z.eqb count 0 then
            match rest with
            | l6 :: rest => let '(count, concs) := parse_line_for_numbers read_int l6 in Some (count, concs, rest)
            | [] => None
            end
          else Some (count, concs, rest) in
        match after with
        | Some (count, concs, kind :: rest) =>
          match rows (Z.to_nat (n_atoms concs)) rest with
          | Some xs => Some (Poscar s lat (atom_types 1 (firstn (Z.to_nat count) concs)) (n_atoms concs)
                               (map (atom_position s lat kind) xs))
          | None => None
          end
        | _ => None
        end
      | _, _, _, _ => None
      end
    | _ => None
    end.
End read_poscar.
