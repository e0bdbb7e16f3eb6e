(** Properties C44 and C59: the control file and the POSCAR. *)
From Coq Require Import ZArith QArith Qcanon List Bool Ascii String Lia.
From Verif Require Import Mat3 QMat QNum Model_control Spec_control Proofs_control Proofs_control2
  Proofs_control3 Proofs_poscar.
Import ListNotations.
Open Scope string_scope.

(** [read_int], [read_real], [read_3] are the runtime's list-directed reading of an integer, a
    real and three reals; [c_vol lat_param lat] is the volume of the cell, [f_pi] and [sqrt2] the
    program's constants. *)

(** ** C44 The control file *)
(** If every number in the file can be read, the number of k-points is the one given by the last
    line with one of the five keywords, and the program stops if there is none; SHIFT switches
    the search for an offset off; the last USE_SYMMETRY with a known word counts; EPS is 0.001
    unless given. *)
Theorem C44_inputs : forall read_int read_real read_3 sqrt2 natoms lat_param lat lines,
  lat_param <> 0%Qc -> qdet lat <> 0%Qc ->
  (forall l, In l lines -> (String.length l <= 100)%nat /\
     forall k v, says l k v -> readable read_int read_real read_3 k v) ->
  match get_inputs read_int read_real read_3 sqrt2 natoms lat_param lat lines with
  | Not_set => forall l k v, In l lines -> In k density_words -> ~ says l k v
  | Inputs nkpts off find symm mn eps =>
    (exists n l k v, nkpts = Some n /\
       last_line (fun l => exists k v, In k density_words /\ says l k v) lines l /\ says l k v /\
       density read_int read_real f_pi sqrt2 (c_vol lat_param lat) natoms k v n) /\
    (if find then off = None /\ forall l v, In l lines -> ~ says l "SHIFT" v
     else exists o l v, off = Some o /\ last_line (fun l => exists v, says l "SHIFT" v) lines l /\
       says l "SHIFT" v /\ read_3 v = Value o) /\
    ((symm = 0%Z /\ forall l w n, In l lines -> symmetry_word w n -> ~ says_word l "USE_SYMMETRY" w) \/
     exists l w, last_line (fun l => exists w n, symmetry_word w n /\ says_word l "USE_SYMMETRY" w) lines l /\
       says_word l "USE_SYMMETRY" w /\ symmetry_word w symm) /\
    (mn = true <-> exists l, In l lines /\ says_word l "MIN_IRR_KPTS" "TRUE") /\
    ((eps = Some (qdec 1 3) /\ forall l v, In l lines -> ~ says l "EPS" v) \/
     exists e l v, eps = Some e /\ last_line (fun l => exists v, says l "EPS" v) lines l /\
       says l "EPS" v /\ read_real v = Value e)
  end.
Proof. exact result. Qed.
Print Assumptions C44_inputs.
(** Everything after the first line whose number cannot be read is ignored, without a message. *)
Theorem C44_rest_ignored : forall read_int read_real read_3 sqrt2 natoms lat_param lat before l rest,
  (String.length l <= 100)%nat ->
  (exists k v, says l k v /\
    ((In k ["NKPTS"; "KPPRA"] /\ read_int v = Failed) \/
     (In k ["KPDENSITY"; "KSPACING"; "RMIN"; "EPS"] /\ read_real v = Failed) \/
     (k = "SHIFT" /\ read_3 v = Failed))) ->
  get_inputs read_int read_real read_3 sqrt2 natoms lat_param lat (before ++ l :: rest)%list =
  get_inputs read_int read_real read_3 sqrt2 natoms lat_param lat (before ++ [l])%list.
Proof. exact rest_ignored. Qed.
Print Assumptions C44_rest_ignored.
(** So the last density keyword is not always the one that counts, ... *)
Theorem C44_last_keyword_refuted : exists lines, forall read_int read_real read_3 sqrt2 natoms lat_param lat,
  read_real "x" = Failed -> read_int "10" = Value 10%Z ->
  last_line (fun l => exists k v, In k density_words /\ says l k v) lines "NKPTS=20" /\
  exists off find symm mn eps,
  get_inputs read_int read_real read_3 sqrt2 natoms lat_param lat lines =
    Inputs (Some 10%Z) off find symm mn eps.
Proof. exact (ex_intro _ ["NKPTS=10"; "EPS=x"; "NKPTS=20"] last_ignored). Qed.
Print Assumptions C44_last_keyword_refuted.
(** ... the program can stop although one is present, ... *)
Theorem C44_keyword_present_refuted : exists lines l, In l lines /\ says l "NKPTS" "10" /\
  forall read_int read_real read_3 sqrt2 natoms lat_param lat, read_real "x" = Failed ->
  get_inputs read_int read_real read_3 sqrt2 natoms lat_param lat lines = Not_set.
Proof. exact (ex_intro _ ["EPS=x"; "NKPTS=10"] (ex_intro _ "NKPTS=10" present_ignored)). Qed.
Print Assumptions C44_keyword_present_refuted.
(** ... and it goes on with an undefined number of k-points if that number cannot be read. *)
Theorem C44_undefined_refuted : forall read_int read_real read_3 sqrt2 natoms lat_param lat,
  read_int "x" = Failed -> exists off find symm mn eps,
  get_inputs read_int read_real read_3 sqrt2 natoms lat_param lat ["NKPTS=x"] =
    Inputs None off find symm mn eps.
Proof. exact refused_number. Qed.
Print Assumptions C44_undefined_refuted.

(** A runtime for the examples: decimal digits only. *)
Fixpoint digits (s : string) (n : Z) : io Z :=
  match s with
  | "" => Value n
  | String c s => let d := (Z.of_nat (nat_of_ascii c) - 48)%Z in
      if Z.leb 0 d && Z.leb d 9 then digits s (10 * n + d)%Z else Failed
  end.
Definition ex_int (s : string) : io Z := match adjustl s with "" => Failed | s => digits s 0 end.
Definition ex_real (s : string) : io Qc := match ex_int s with Value n => Value (zq n) | _ => Failed end.
Definition ex_3 (s : string) : io (Qc * Qc * Qc) :=
  let '(a, r) := split_str s in let '(b, c) := split_str r in
  match ex_real a, ex_real b, ex_real c with Value a, Value b, Value c => Value (a, b, c) | _, _, _ => Failed end.
Definition ex_inputs := get_inputs ex_int ex_real ex_3 (qdec 1414 3) 2 1%Qc (qof (Mat3 1 0 0 0 2 0 0 0 5)).
(** 248.05.../10*7 = 173.6 k-points; 3^3/14.14 = 1.9; a keyword that is indented is not seen. *)
Example C44_example :
  ex_inputs ["NKPTS=10"; "USE_SYMMETRY = NONE"; "# comment"; "KPDENSITY =7"; "MIN_IRR_KPTS = TRUE"] =
    Inputs (Some 174%Z) None true 3 true (Some (qdec 1 3)) /\
  ex_inputs ["KPPRA=10"; "SHIFT= 0 1 0"; "EPS=2"] =
    Inputs (Some 20%Z) (Some (0, 1, 0))%Qc false 0 false (Some (zq 2)) /\
  ex_inputs ["RMIN=3"] = Inputs (Some 2%Z) None true 0 false (Some (qdec 1 3)) /\
  ex_inputs [" NKPTS=10"] = Not_set /\
  says "KPDENSITY =7" "KPDENSITY" "7" /\ readable ex_int ex_real ex_3 "KPDENSITY" "7" /\
  ex_real "x" = Failed /\ ex_int "10" = Value 10%Z /\ ex_int "x" = Failed.
Proof.
  repeat (apply conj); try (vm_compute; reflexivity).
  - apply says_iff; [cbn; lia|discriminate|now split].
  - cbn. intuition discriminate.
  - intros _. eexists. vm_compute. reflexivity.
  - discriminate.
  - discriminate.
Qed.

(** ** C59 The POSCAR *)
(** A file in the usual format (with or without a line of element names; the numbers of atoms may
    be followed by a comment): factor, lattice vectors as columns, types and positions are those
    of the file. *)
Theorem C59_read : forall read_int read_real read_3 title l l1 l2 l3 species counts kind atoms rest
    s a b c good bad ns xs,
  read_real l = Value s ->
  read_3 l1 = Value a -> read_3 l2 = Value b -> read_3 l3 = Value c ->
  (species = [] \/ exists line w r, species = [line] /\ (String.length line <= 300)%nat /\
     line_words line (w :: r) /\ read_int w = Failed) ->
  (String.length counts <= 300)%nat -> line_words counts (good ++ bad)%list ->
  Forall2 (fun w n => read_int w = Value n) good ns ->
  (bad = [] \/ exists w r, bad = w :: r /\ read_int w = Failed) ->
  ns <> [] -> Z.of_nat (List.length xs) = total ns ->
  Forall2 (fun line x => read_3 line = Value x) atoms xs ->
  let lat := qtr (QMat (fst (fst a)) (snd (fst a)) (snd a) (fst (fst b)) (snd (fst b)) (snd b)
                       (fst (fst c)) (snd (fst c)) (snd c)) in
  read_POSCAR read_int read_real read_3
    (title :: l :: l1 :: l2 :: l3 :: species ++ counts :: kind :: atoms ++ rest)%list =
  Some (Poscar s lat (atom_types 1 ns) (total ns)
          (map (fun '(x, y, z) => atom_position s lat kind (QVec x y z)) xs)).
Proof. exact poscar_read. Qed.
Print Assumptions C59_read.
(** The types fill the array exactly, and the atoms of block j (counted from 0) have type j. *)
Theorem C59_types : forall concs, Forall (Z.le 0) concs ->
  Z.of_nat (List.length (atom_types 1 concs)) = total concs /\
  forall j z, (j < List.length concs)%nat ->
    (total (firstn j concs) <= Z.of_nat z < total (firstn (S j) concs))%Z ->
    nth_error (atom_types 1 concs) z = Some (Z.of_nat j).
Proof. exact types_spec. Qed.
Print Assumptions C59_types.
(** A negative number of atoms makes the program write behind the end of the array. *)
Theorem C59_negative_refuted : exists concs,
  (total concs < Z.of_nat (List.length (atom_types 1 concs)))%Z.
Proof. exact (ex_intro _ [3; -1]%Z negative_count). Qed.
Print Assumptions C59_negative_refuted.
(** Direct coordinates are kept; Cartesian ones [x] are replaced by [f] with [s lat f = x]. *)
Theorem C59_positions : forall s lat kind x, s <> 0%Qc -> qdet lat <> 0%Qc ->
  if is_cartesian kind then qmvec (qscale s lat) (atom_position s lat kind x) = x
  else atom_position s lat kind x = x.
Proof. exact positions. Qed.
Print Assumptions C59_positions.
(** But in a POSCAR the factor applies to Cartesian coordinates too: the position meant is [s x].
    It is missed for every factor other than 1 and every atom outside the origin. *)
Theorem C59_scaled_refuted : forall s lat kind x, is_cartesian kind = true ->
  s <> 0%Qc -> s <> 1%Qc -> qdet lat <> 0%Qc -> x <> QVec 0 0 0 ->
  qmvec (qscale s lat) (atom_position s lat kind x) <> QVec (s * w1 x) (s * w2 x) (s * w3 x).
Proof. exact scaled_wrong. Qed.
Print Assumptions C59_scaled_refuted.
Example C59_example :
  match read_POSCAR ex_int ex_real ex_3
    ["title"; "2"; "1 0 0"; "0 1 0"; "0 0 1"; "Al Ni"; "2 1 ! atoms"; "Cartesian"; "0 0 0"; "1 1 0"; "1 0 1"] with
  | Some p => p_types p = [0; 0; 1]%Z /\ p_allocated p = 3%Z /\
      map (fun x => this (w1 x)) (p_atoms p) = [0 # 1; 1 # 2; 1 # 2]%Q
  | None => False
  end /\
  line_words "2 1 ! atoms" ["2"; "1"; "!"; "atoms"] /\ ex_int "Al" = Failed /\ is_cartesian " cart" = true.
Proof.
  split; [vm_compute; auto|]. split; [|split; reflexivity].
  apply (more_words "" "2" " 1 ! atoms"); [easy|split; [discriminate|intros c [<-|[]]; discriminate]|right; now exists "1 ! atoms"|].
  apply (more_words " " "1" " ! atoms"); [easy|split; [discriminate|intros c [<-|[]]; discriminate]|right; now exists "! atoms"|].
  apply (more_words " " "!" " atoms"); [easy|split; [discriminate|intros c [<-|[]]; discriminate]|right; now exists "atoms"|].
  apply (more_words " " "atoms" ""); [easy| |now left|now constructor].
  split; [discriminate|]. cbn. intros c H. intuition (subst; discriminate).
Qed.
