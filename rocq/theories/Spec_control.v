(** Words used in the statements about the control file. *)
From Coq Require Import ZArith QArith Qcanon List Bool Ascii String.
From Verif Require Import Mat3 QMat QNum Model_control.
Import ListNotations.
Open Scope string_scope.

(** Text that consists of blanks; text that does not end with one. *)
Fixpoint blanks (s : string) : Prop :=
  match s with "" => True | String c s => c = " "%char /\ blanks s end.
Definition no_blank_end (s : string) : Prop := forall t, s <> t ++ " ".
Fixpoint no_equals (s : string) : Prop :=
  match s with "" => True | String c s => c <> "="%char /\ no_equals s end.

(** The line is "k = v": the keyword starts in the first column, blanks may precede the first
    '=' and end the line. *)
Definition says (line k v : string) : Prop :=
  exists b1 b2, line = k ++ b1 ++ "=" ++ v ++ b2 /\ blanks b1 /\ blanks b2 /\ no_equals k /\
    no_blank_end k /\ no_blank_end v.
(** The same up to blanks before the value. *)
Definition says_word (line k w : string) : Prop := exists b, blanks b /\ says line k (b ++ w).

(** [n] is the integer nearest to [q]; of two, the one farther from zero. *)
Definition nearest (n : Z) (q : Qc) : Prop :=
  let d := qabs (zq n - q)%Qc in
  (d + d < 1 \/ (d + d = 1 /\ qabs q <= qabs (zq n)))%Qc.

(** The five ways to give the number of k-points for a cell of volume [vol] with [natoms] atoms;
    [pi] and [sqrt2] are the constants of the program. *)
Inductive density (read_int : string -> io Z) (read_real : string -> io Qc) (pi sqrt2 vol : Qc)
    (natoms : Z) : string -> string -> Z -> Prop :=
| by_number v n : read_int v = Value n ->
    density read_int read_real pi sqrt2 vol natoms "NKPTS" v n
| by_density v x n : read_real v = Value x ->
    (let p := (1 + 1) * pi in nearest n (x * (p * p * p / vol)))%Qc ->
    density read_int read_real pi sqrt2 vol natoms "KPDENSITY" v n
| by_spacing v x n : read_real v = Value x -> nearest n (1 / (x * x * x * vol))%Qc ->
    density read_int read_real pi sqrt2 vol natoms "KSPACING" v n
| by_atom v m : read_int v = Value m ->
    density read_int read_real pi sqrt2 vol natoms "KPPRA" v (natoms * m)
| by_distance v x n : read_real v = Value x -> nearest n (x * x * x / (vol * sqrt2))%Qc ->
    density read_int read_real pi sqrt2 vol natoms "RMIN" v n.

Definition density_words : list string := ["NKPTS"; "KPDENSITY"; "KSPACING"; "KPPRA"; "RMIN"].

(** The last line that satisfies [P]. *)
Definition last_line (P : string -> Prop) (lines : list string) (l : string) : Prop :=
  exists before after, lines = (before ++ l :: after)%list /\ P l /\ forall x, In x after -> ~ P x.

(** The keywords that are followed by numbers, and whether the runtime can read them. *)
Definition readable (read_int : string -> io Z) (read_real : string -> io Qc)
    (read_3 : string -> io (Qc * Qc * Qc)) (k v : string) : Prop :=
  (In k ["NKPTS"; "KPPRA"] -> exists n, read_int v = Value n) /\
  (In k ["KPDENSITY"; "KSPACING"; "RMIN"; "EPS"] -> exists x, read_real v = Value x) /\
  (k = "SHIFT" -> exists o, read_3 v = Value o) /\
  (k = "KSPACING" -> read_real v <> Value 0%Qc).

(** The words that follow USE_SYMMETRY and their numbers. *)
Inductive symmetry_word : string -> Z -> Prop :=
| use_all : symmetry_word "ALL" 0
| use_structural : symmetry_word "STRUCTURAL" 1
| use_time_reversal : symmetry_word "TIME_REVERSAL" 2
| use_none : symmetry_word "NONE" 3.

(** ** POSCAR *)
(** The words of a line, separated by blanks. *)
Definition is_word (w : string) : Prop := w <> "" /\ forall c, In c (list_ascii_of_string w) -> c <> " "%char.
Inductive line_words : string -> list string -> Prop :=
| no_words b : blanks b -> line_words b []
| more_words b w rest ws : blanks b -> is_word w -> (rest = "" \/ exists r, rest = " " ++ r) ->
    line_words rest ws -> line_words (b ++ w ++ rest) (w :: ws).
Definition total (concs : list Z) : Z := fold_right Z.add 0%Z concs.
