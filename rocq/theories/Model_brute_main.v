(** Model of the main programs of support/brute_force (driver.f90 and driver2.f90) and of the
    module io_utils, which reads struct_enum.in.

    As in Model_control the runtime library that reads a number from text is a parameter, reals
    are exact rationals, files are lists of lines, and each list-directed [read] is taken to find
    its values on one line. *)
From Coq Require Import ZArith QArith Qcanon List Bool Ascii String.
From Verif Require Import Mat3 QMat QNum Model_control Model_driver Model_sp_hnfs Model_brute.
Import ListNotations.
Open Scope string_scope.

(** ** co_ca *)
(** The part of [s] before the first [c]; all of [s] if there is none. *)
Fixpoint upto (c : ascii) (s : string) : string :=
  match s with
  | "" => ""
  | String d s => if Ascii.eqb d c then "" else String d (upto c s)
  end.
(** io_utils.f90 230-245: is the line passed over?  Only its first 50 characters are read. *)
Definition passed (line : string) : bool := String.eqb (rtrim (upto "#" (fixed 50 line))) "".
(** io_utils.f90 220-250 [co_ca]: the lines from the first one that is not passed over; none at
    the end of the file. *)
Fixpoint co_ca (lines : list string) : list string :=
  match lines with
  | [] => []
  | line :: rest => if passed line then co_ca rest else lines
  end.

(** ** read_input *)
(** [ucase] (library): upper case. *)
Definition upper (c : ascii) : ascii :=
  let n := nat_of_ascii c in
  if Nat.leb 97 n && Nat.leb n 122 then ascii_of_nat (n - 32) else c.
Fixpoint ucase (s : string) : string :=
  match s with "" => "" | String c s => String (upper c) (ucase s) end.

(** A [read] fails or leaves a variable undefined; one of the [stop]s; or the value. *)
Inductive step (A : Type) : Type := Unread | Stopped | Ok (a : A).
Arguments Unread {A}.
Arguments Stopped {A}.
Arguments Ok {A}.
Definition bind {A B} (x : step A) (f : A -> step B) : step B :=
  match x with Ok a => f a | Unread => Unread | Stopped => Stopped end.
(** [call co_ca(10,err); read(10, * ) x]: the value and the lines after it. *)
Definition read_line {A} (read : string -> io A) (lines : list string) : step (A * list string) :=
  match co_ca lines with
  | line :: rest => match read line with Value a => Ok (a, rest) | _ => Unread end
  | [] => Unread
  end.
Definition check (b : bool) : step unit := if b then Ok tt else Stopped.

(** The output arguments.  [e_digit]: the numbers of labels of each d-vector. *)
Record enum_input : Type := EnumInput {
  e_title : string; e_dim : Z; e_lat : qmat; e_k : Z; e_d : list qvec; e_labels : list (list Z);
  e_digit : list Z; e_eq : list Z; e_min : Z; e_max : Z; e_eps : Qc; e_full : bool;
  e_conc : bool; e_ranges : list (Z * Z * Z) }.

Section read_input.
  Context (read_int : string -> io Z) (read_2 : string -> io (Z * Z)) (read_i3 : string -> io (Z * Z * Z))
          (read_ints : nat -> string -> io (list Z)) (read_real : string -> io Qc)
          (read_3 : string -> io (Qc * Qc * Qc)) (read_word : string -> io string)
          (flat : Qc -> Qc -> Qc -> bool).     (* [equal((/x,y/),(/0,0/),eps)] *)

  (** Lines 83-86: a coordinate, and the line without its first word.  A line of 100 characters
      without a blank is not modelled separately (see [word]). *)
  Definition coordinate (line : string) : step (Qc * string) :=
    match read_real line with
    | Value x => Ok (x, rtrim (adjustl (snd (word line))))
    | _ => Unread
    end.
  (** Lines 94-108: the labels of a d-vector; [n]: how many may still come.  A null value leaves
      the -1 of line 76.  The second component: was the loop left by [exit]? *)
  Fixpoint get_labels (n : nat) (k : Z) (line : string) : step (list Z * bool) :=
    match n with
    | O => Ok ([], false)
    | S n =>
        if String.eqb (upto "/" line) line then Stopped
        else match read_int line with
        | Failed => Unread
        | r =>
            let x := match r with Value x => x | _ => (-1)%Z end in
            if (Z.ltb (k - 1) x || Z.ltb x 0)%bool then Stopped
            else
              let line := rtrim (adjustl (substring (S (String.length (upto "/" line)))
                                                    (String.length line) line)) in
              if String.eqb line "" then Ok ([x], true)
              else bind (get_labels n k line) (fun '(l, e) => Ok (x :: l, e))
        end
    end.
  (** Lines 80-110: one d-vector with its labels and the value of [digit]. *)
  Definition d_vector (k : Z) (line : string) : step (qvec * list Z * Z) :=
    let line := rtrim (adjustl (fixed 100 line)) in
    bind (coordinate line) (fun '(x, line) =>
    bind (coordinate line) (fun '(y, line) =>
    bind (coordinate line) (fun '(z, line) =>
    (* line(100:100) = "#"; line = trim(line(1:index(line,"#")-1))//"/" *)
    let line := rtrim (upto "#" (substring 0 99 line)) ++ "/" in
    bind (get_labels (Z.to_nat k) k line) (fun '(l, e) =>
    Ok (QVec x y z, l, if e then Z.of_nat (List.length l) else (k + 1)%Z))))).
  (** Lines 79-113. *)
  Fixpoint d_vectors (n : nat) (k : Z) (lines : list string)
    : step (list (qvec * list Z * Z) * list string) :=
    match n with
    | O => Ok ([], lines)
    | S n =>
        match co_ca lines with
        | [] => Unread
        | line :: rest =>
            bind (d_vector k line) (fun d =>
            bind (d_vectors n k rest) (fun '(ds, rest) => Ok (d :: ds, rest)))
        end
    end.
  (** Lines 114-119: each label appears. *)
  Definition all_used (k : Z) (labels : list (list Z)) : bool :=
    forallb (fun i => existsb (Z.eqb i) (List.concat labels)) (do_range 0 (k - 1) 1).
  (** Lines 120-127: no label appears twice for one d-vector. *)
  Definition none_twice (k : Z) (labels : list (list Z)) : bool :=
    forallb (fun l => forallb (fun i => Nat.leb (count_occ Z.eq_dec l i) 1) (do_range 0 (k - 1) 1))
      labels.
  (** Lines 129-138: the equivalences, if the next word begins with an E; otherwise the line is
      read again ([backspace]). *)
  Definition get_eq (nd : Z) (lines : list string) : step (list Z * list string) :=
    bind (read_line read_word lines) (fun '(w, rest) =>
    match ucase (fixed 100 w) with
    | String "E" _ => read_line (read_ints (Z.to_nat nd)) rest
    | _ => Ok (do_range 1 nd 1, co_ca lines)
    end).
  (** Lines 162-179: the concentration ranges; [None]: not (all) given. *)
  Fixpoint get_ranges (n : nat) (lines : list string) : option (list (Z * Z * Z)) :=
    match n with
    | O => Some []
    | S n =>
        match co_ca lines with
        | [] => None
        | line :: rest =>
            match read_i3 line with
            | Value r => match get_ranges n rest with Some l => Some (r :: l) | None => None end
            | _ => None
            end
        end
    end.
  (** Lines 201-208. *)
  Definition range_ok (r : Z * Z * Z) : bool :=
    let '(a, b, c) := r in
    (Z.leb 0 a && Z.leb 0 b && Z.leb 0 c && Z.leb (Z.max a b) c)%bool.

  (** Lines 34-213.  A null value counts as a failure of [read].  (For k = 0 [conc_check] is left
      undefined; here it is true.) *)
  Definition read_input (lines : list string) : step enum_input :=
    match co_ca lines with
    | [] => Unread
    | l1 :: lines =>
    match co_ca lines with
    | [] => Unread
    | l2 :: lines =>
    let kind := ucase (fixed 4 l2) in
    bind (read_line read_3 lines) (fun '((a1, a2, a3), lines) =>
    bind (read_line read_3 lines) (fun '((b1, b2, b3), lines) =>
    bind (read_line read_3 lines) (fun '((c1, c2, c3), lines) =>
    let lat := QMat a1 b1 c1 a2 b2 c2 a3 b3 c3 in
    bind (read_line read_int lines) (fun '(k, lines) =>
    bind (read_line read_int lines) (fun '(nd, lines) =>
    bind (d_vectors (Z.to_nat nd) k lines) (fun '(ds, lines) =>
    let labels := map (fun '(_, l, _) => l) ds in
    bind (check (all_used k labels)) (fun _ =>
    bind (check (none_twice k labels)) (fun _ =>
    bind (get_eq nd lines) (fun '(eq, lines) =>
    bind (read_line read_2 lines) (fun '((nmin, nmax), lines) =>
    bind (read_line read_real lines) (fun '(eps, lines) =>
    bind (read_line read_word lines) (fun '(w, lines) =>
    let mode := fixed 4 (ucase (adjustl (fixed 80 w))) in
    bind (if String.eqb kind "SURF" then bind (check (flat a2 a3 eps)) (fun _ => Ok 2%Z)
          else if String.eqb kind "BULK" then Ok 3%Z else Stopped) (fun dim =>
    bind (if String.eqb mode "FULL" then Ok true
          else if String.eqb mode "PART" then Ok false else Stopped) (fun full =>
    let ranges := get_ranges (Z.to_nat k) lines in
    let '(conc, ranges) := match ranges with
                           | Some l => (true, l)
                           | None => (false, repeat (0, 0, 0)%Z (Z.to_nat k))
                           end in
    bind (check (forallb range_ok ranges)) (fun _ =>
    Ok (EnumInput (fixed 80 l1) dim lat k (map (fun '(d, _, _) => d) ds) labels
          (map (fun '(_, _, n) => n) ds) eq nmin nmax eps full conc ranges))))))))))))))))
    end
    end.
End read_input.

(** ** driver.f90 (program srHNF.x) *)
(** Lines 75-112: the numbers written.  [find_pg_gens] (line 49) is called, but the generators are
    not used: get_srHNFs gets the whole point group. *)
Definition counts (equal : qmat -> qmat -> bool) (P : qmat) (pg : list qmat) (nmax : Z) : list (Z * Z) :=
  flat_map (fun i => let found := Z.of_nat (List.length (get_srHNFs equal P pg i)) in
                     if Z.eqb found 0 then [] else [(i, found)]) (do_range 1 nmax 1).
(** Line 93: format [(2i16)]. *)
Definition count_line (r : Z * Z) : string := i_edit 16 (fst r) ++ i_edit 16 (snd r).
(** The file n_srHNFs.out and the number printed at the end (line 121).  [pg_of]: the library's
    get_lattice_pointGroup. *)
Definition srHNF_main (equal : qmat -> qmat -> bool) (pg_of : qmat -> list qmat)
    (input : step enum_input) : step (list string * Z) :=
  bind input (fun e =>
    let c := counts equal (e_lat e) (pg_of (e_lat e)) (e_max e) in
    Ok (map count_line c, fold_left Z.add (map snd c) 0%Z)).

(** ** driver2.f90 (program pg.x) *)
(** Lines 48-66: the generators in lattice coordinates, as printed.  [None]: find_pg_gens found
    none and [gens] is not allocated. *)
Definition pg_main (equal : qmat -> qmat -> bool) (zero : qmat) (beyond : list qmat)
    (pg_of : qmat -> list qmat) (input : step enum_input) : step (option (list qmat)) :=
  bind input (fun e =>
    let P := e_lat e in
    Ok (option_map (map (fun g => qmul (qinv P) (qmul g P)))
          (find_pg_gens qmul equal zero beyond (pg_of P)))).
