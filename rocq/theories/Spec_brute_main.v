(** Words used in the statements about the main programs of support/brute_force. *)
From Coq Require Import ZArith QArith Qcanon List Bool Ascii String Sorted.
From Verif Require Import Mat3 Spec QMat Model_control Spec_driver.
Import ListNotations.
Open Scope string_scope.

(** ** Counts *)
(** [c] superlattices of the lattice [P] of index [n] keep all its symmetries. *)
Definition superlattices (P : qmat) (n c : Z) : Prop :=
  exists l, NoDup l /\ Z.of_nat (List.length l) = c /\
    forall H, In H l <-> is_hnf n H /\ keeps_symmetry P (qmul P (qof H)).
(** The line consists of the numbers [n] and [c]. *)
Definition reads_two (line : string) (r : Z * Z) : Prop :=
  exists s t, words line = [s; t] /\ integer s = Some (fst r) /\ integer t = Some (snd r).

(** ** The input file *)
Fixpoint blanks (n : nat) : string := match n with O => "" | S n => " " ++ blanks n end.
(** The first 50 characters of the line are blank, at least those before the first #. *)
Definition blank_or_comment (line : string) : Prop :=
  exists n rest, substring 0 50 line = blanks n ++ rest /\ (rest = "" \/ exists c, rest = "#" ++ c).

(** Texts without the characters [bad]. *)
Fixpoint free_of (bad : list ascii) (s : string) : Prop :=
  match s with "" => True | String c s => ~ In c bad /\ free_of bad s end.
(** The line of a d-vector: three numbers and the labels, with slashes between them; perhaps a
    comment. *)
Fixpoint slashed (l : list string) : string :=
  match l with [] => "" | [t] => t | t :: l => t ++ "/" ++ slashed l end.
(** The line starts with one of the words. *)
Definition starts_with (ws : list string) (s : string) : Prop := exists w r, In w ws /\ s = w ++ r.
Section files.
  Context (read_int : string -> io Z) (read_i3 : string -> io (Z * Z * Z)) (read_real : string -> io Qc)
          (read_ints : nat -> string -> io (list Z)) (read_word : string -> io string).
  Definition d_line (line : string) (x : qvec) (labels : list Z) : Prop :=
    exists a b c ts n0 n1 n2 n3 n4 comment,
      line = blanks n0 ++ a ++ " " ++ blanks n1 ++ b ++ " " ++ blanks n2 ++ c ++ " " ++ blanks n3 ++
             slashed ts ++ blanks n4 ++ comment /\
      (comment = "" \/ exists r, comment = "#" ++ r) /\ (String.length line < 100)%nat /\ a <> "" /\ b <> "" /\ c <> "" /\ ts <> [] /\
      free_of [" "%char] a /\ free_of [" "%char] b /\ free_of [" "%char] c /\
      (forall r, read_real (a ++ " " ++ r) = Value (w1 x)) /\
      (forall r, read_real (b ++ " " ++ r) = Value (w2 x)) /\
      (forall r, read_real (c ++ " " ++ r) = Value (w3 x)) /\
      Forall2 (fun t l => t <> "" /\ free_of [" "; "/"; "#"]%char t /\
                 forall r, read_int (t ++ "/" ++ r) = Value l) ts labels.
  (** Labels of [k] kinds: each between 0 and k-1, none twice at one site, all of them used. *)
  Definition good_labels (k : Z) (labels : list (list Z)) : Prop :=
    Forall (fun l => NoDup l /\ Forall (fun i => 0 <= i < k)%Z l) labels /\
    forall i, (0 <= i < k)%Z -> exists l, In l labels /\ In i l.
  (** Smallest and largest number of atoms out of a number of atoms. *)
  Definition range_line (line : string) (r : Z * Z * Z) : Prop :=
    let '(a, b, c) := r in read_i3 line = Value r /\ (0 <= a <= c)%Z /\ (0 <= b <= c)%Z.
  (** The equivalences of [n] sites: their numbers after a line that begins with E, or none (each
      site only equivalent to itself) if the line of the sizes comes next. *)
  Definition equivalences (lines : list string) (n : nat) (sizes : string) (eqs : list Z) : Prop :=
    (lines = [] /\ exists w, read_word sizes = Value w /\ ~ starts_with ["e"; "E"] w /\
       eqs = map Z.of_nat (seq 1 n)) \/
    (exists l1 l2 w, lines = [l1; l2] /\ read_word l1 = Value w /\ starts_with ["e"; "E"] w /\
       read_ints n l2 = Value eqs).
End files.
