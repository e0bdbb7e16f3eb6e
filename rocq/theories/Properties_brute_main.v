(** Properties C66, C67 and C68: the main programs of support/brute_force and their input. *)
From Coq Require Import ZArith List QArith Qcanon Sorted Ascii String.
From Verif Require Import Mat3 Spec QMat PointGroup Model_control Model_brute Spec_brute Model_brute_main
  Spec_brute_main Proofs_brute3 Proofs_brute4 Proofs_brute5 Proofs_brute6 Proofs_brute7 Proofs_brute8.
Import ListNotations.
Open Scope string_scope.

(** ** C66 The file n_srHNFs.out *)
(** For each size up to [nMax] that has superlattices keeping all symmetries, and for no other,
    there is one line with the size and their number, in increasing order; the total is printed. *)
Theorem C66_counts : forall eps equal pg_of e, let P := e_lat e in
  qdet P <> 0%Qc -> (0 <= eps)%Qc -> tolerance eps equal -> (eps * zq (e_max e) <= 1)%Qc ->
  point_group P (pg_of P) -> (e_max e <= 5000)%Z ->
  exists rows lines,
    srHNF_main equal pg_of (Ok e) = Ok (lines, fold_right Z.add 0%Z (map snd rows)) /\
    Forall2 reads_two lines rows /\ StronglySorted (fun a b => fst a < fst b)%Z rows /\
    forall n c, In (n, c) rows <-> (1 <= n <= e_max e)%Z /\ (1 <= c)%Z /\ superlattices P n c.
Proof. exact main_counts. Qed.
Print Assumptions C66_counts.
(** The smallest size asked for makes no difference. *)
Theorem C66_min_ignored : forall equal pg_of title dim lat k d labels digit eq m m' n eps full conc ranges,
  srHNF_main equal pg_of (Ok (EnumInput title dim lat k d labels digit eq m n eps full conc ranges)) =
  srHNF_main equal pg_of (Ok (EnumInput title dim lat k d labels digit eq m' n eps full conc ranges)).
Proof. reflexivity. Qed.
Print Assumptions C66_min_ignored.
Example C66_example : let e := cubic_input 4 in
  qdet (e_lat e) <> 0%Qc /\ tolerance (Q2Qc (1 # 1000)) same /\
  (Q2Qc (1 # 1000) * zq (e_max e) <= 1)%Qc /\ point_group (e_lat e) cubic_pg /\
  srHNF_main same (fun _ => cubic_pg) (Ok e) =
  Ok (["               1               1"; "               2               1";
       "               4               1"], 3%Z).
Proof.
  split; [cbn [e_lat cubic_input]; rewrite qdet_id; discriminate|]. split; [exact same_tolerance|].
  split; [vm_compute; discriminate|]. split; [exact cubic_point_group|]. vm_compute. reflexivity.
Qed.

(** ** C67 The program pg.x *)
(** Given the point group of any lattice the program prints two or three integer matrices that
    generate the symmetries of its Gram matrix. *)
Theorem C67_generators : forall P pg equal zero beyond e pg_of, qdet P <> 0%Qc -> point_group P pg ->
  NoDup pg -> exact_on equal pg ->
  (forall p x, In p pg -> In x (zero :: beyond) -> equal p x = false) ->
  e_lat e = P -> pg_of P = pg ->
  exists g, pg_main equal zero beyond pg_of (Ok e) = Ok (Some (map qof g)) /\
    (List.length g = 2 \/ List.length g = 3)%nat /\
    forall X, qisometry (qgram P) X <-> generated mmul g X.
Proof. exact pg_main_spec. Qed.
Print Assumptions C67_generators.
(** Of the rotations themselves. *)
Theorem C67_rotations : forall P pg equal zero beyond, qdet P <> 0%Qc -> point_group P pg ->
  NoDup pg -> exact_on equal pg ->
  (forall p x, In p pg -> In x (zero :: beyond) -> equal p x = false) ->
  exists g, find_pg_gens qmul equal zero beyond pg = Some g /\ generators qmul g pg /\
    (List.length g = 2 \/ List.length g = 3)%nat.
Proof. exact lattice_found. Qed.
Print Assumptions C67_rotations.
Example C67_example : qdet qid <> 0%Qc /\ point_group qid cubic_pg /\ NoDup cubic_pg /\
  exact_on same cubic_pg /\
  (forall p x, In p cubic_pg -> In x [qof zero3] -> same p x = false) /\
  e_lat (cubic_input 4) = qid.
Proof.
  split; [rewrite qdet_id; discriminate|]. split; [exact cubic_point_group|]. split; [exact cubic_once|].
  split; [intros x y _ _; apply same_iff|]. split; [exact cubic_not_zero|reflexivity].
Qed.

(** ** C68 read_input *)
(** Lines that are blank or begin with # make no difference. *)
Theorem C68_comments : forall read_int read_2 read_i3 read_ints read_real read_3 read_word flat a c b,
  blank_or_comment c ->
  read_input read_int read_2 read_i3 read_ints read_real read_3 read_word flat (a ++ c :: b)%list =
  read_input read_int read_2 read_i3 read_ints read_real read_3 read_word flat (a ++ b)%list.
Proof. exact input_comment. Qed.
Print Assumptions C68_comments.
(** A file with the items in their order is read completely; the vectors are the columns. *)
Theorem C68_file : forall read_int read_2 read_i3 read_ints read_real read_3 read_word flat
    title kind t1 t2 t3 tk tn dl el sizes te mode ranges a b c k ds eqs nmin nmax eps m
    (surface full conc : bool) rs rest,
  let items := ([title; kind; t1; t2; t3; tk; tn] ++ dl ++ (el ++ [sizes]) ++ [te; mode] ++ ranges)%list in
  Forall (fun l => ~ blank_or_comment l) items ->
  starts_with (if surface then ["surf"; "Surf"; "SURF"] else ["bulk"; "Bulk"; "BULK"]) kind ->
  (surface = true -> flat (w2 a) (w3 a) eps = true) ->
  read_3 t1 = Value (w1 a, w2 a, w3 a) -> read_3 t2 = Value (w1 b, w2 b, w3 b) ->
  read_3 t3 = Value (w1 c, w2 c, w3 c) ->
  read_int tk = Value k -> (0 < k)%Z -> read_int tn = Value (Z.of_nat (List.length dl)) ->
  Forall2 (fun l d => d_line read_int read_real l (fst d) (snd d)) dl ds ->
  good_labels k (map snd ds) ->
  equivalences read_ints read_word el (List.length dl) sizes eqs ->
  read_2 sizes = Value (nmin, nmax) -> read_real te = Value eps -> read_word mode = Value m ->
  starts_with (if full then ["full"; "Full"; "FULL"] else ["part"; "Part"; "PART"]) m ->
  (if conc then Forall2 (range_line read_i3) ranges rs /\ Z.of_nat (List.length rs) = k
   else ranges = [] /\ rest = [] /\ rs = repeat (0, 0, 0)%Z (Z.to_nat k)) ->
  read_input read_int read_2 read_i3 read_ints read_real read_3 read_word flat (items ++ rest)%list =
  Ok (EnumInput (fixed 80 title) (if surface then 2 else 3)
        (QMat (w1 a) (w1 b) (w1 c) (w2 a) (w2 b) (w2 c) (w3 a) (w3 b) (w3 c))
        k (map fst ds) (map snd ds) (map (fun d => Z.of_nat (List.length (snd d))) ds)
        eqs nmin nmax eps full conc rs).
Proof. exact input_read. Qed.
Print Assumptions C68_file.
(** Whatever the file: what is accepted has labels of [k] kinds, none twice at one site, all of
    them used, and sensible ranges of concentrations. *)
Theorem C68_checked : forall read_int read_2 read_i3 read_ints read_real read_3 read_word flat lines e,
  read_input read_int read_2 read_i3 read_ints read_real read_3 read_word flat lines = Ok e ->
  (e_dim e = 2 \/ e_dim e = 3)%Z /\ good_labels (e_k e) (e_labels e) /\
  List.length (e_d e) = List.length (e_labels e) /\ List.length (e_digit e) = List.length (e_labels e) /\
  Z.of_nat (List.length (e_ranges e)) = Z.max 0 (e_k e) /\
  Forall (fun r => let '(a, b, c) := r in 0 <= a <= c /\ 0 <= b <= c)%Z (e_ranges e).
Proof. exact input_checked. Qed.
Print Assumptions C68_checked.
(** The file of the repository, with its comment and the numbers read from it. *)
Example C68_example :
  read_input plain_int plain_2 plain_i3 plain_ints plain_real plain_3 plain_word (fun _ _ _ => true)
    enum_lines = Ok enum_read.
Proof. exact enum_lines_read. Qed.
