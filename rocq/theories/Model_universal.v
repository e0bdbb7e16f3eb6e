(** Model of [find_volumes] and of the choice of HNFs in [find_supercells],
    support/python_dev/opf_python/universal.py. *)
From Coq Require Import ZArith List Bool.
From Verif Require Import Mat3 Spec PyNum Model_diag Model_sc Model_bcc Model_fcc Model_so
  Model_stet Model_hx Model_body_tet Model_body_ortho Model_sm Model_face_ortho
  Model_base_mono Model_rhom Model_base_ortho.
Import ListNotations.
Open Scope Z_scope.

(** [nig_n in [...]] *)
Definition z_in (k : Z) (l : list Z) : bool := existsb (Z.eqb k) l.

(** [list.sort()] on integers, by insertion.  Simplification: the sorting algorithm is
    not Python's; a sorted list of integers is determined by its elements. *)
Fixpoint z_insert (x : Z) (l : list Z) : list Z :=
  match l with
  | [] => [x]
  | y :: r => if x <=? y then x :: l else y :: z_insert x r
  end.
Fixpoint z_sort (l : list Z) : list Z :=
  match l with [] => [] | x :: r => z_insert x (z_sort r) end.

(** universal.py 337-343 and 349-355: the loop [while nb**3<nmax].  [fuel] bounds the
    number of iterations; [cubic_fuel] is shown to be enough. *)
Fixpoint cubic_loop (fuel : nat) (ms : list Z) (kpd nmax nb : Z) (ns : list Z) : list Z :=
  match fuel with
  | O => ns
  | S fuel' =>
      if nb ^ 3 <? nmax then
        let nc := nb ^ 3 in
        cubic_loop fuel' ms kpd nmax (nb + 1)
          (ns ++ flat_map (fun m => if kpd <=? m * nc then [m * nc] else []) ms)
      else ns
  end.
Definition cubic_fuel (kpd nb : Z) : nat := Z.to_nat (kpd + 1000 - nb).

(** universal.py 336-345 and 348-357.  [nb] is the value of
    [int(floor(nt**(1.0/3.0))-1)], a floating point cube root; it is a parameter here. *)
Definition cubic_volumes (ms : list Z) (kpd nb : Z) : list Z :=
  let nmax := kpd + 1000 in
  firstn 3 (z_sort (cubic_loop (cubic_fuel kpd nb) ms kpd nmax nb [])).

(** universal.py 360-368: [test = nt/tmult**3], exact fraction; [test<=100];
    [int(floor(test))].  [fuel] bounds the number of iterations. *)
Fixpoint tric_loop (fuel : nat) (kpd tmult : Z) : option (Z * Z) :=
  match fuel with
  | O => None
  | S fuel' =>
      if kpd <=? 100 * tmult ^ 3 then Some (kpd / tmult ^ 3, tmult)
      else tric_loop fuel' kpd (tmult + 1)
  end.
Definition tric_fuel (kpd : Z) : nat := Z.to_nat (kpd + 1).

(** universal.py 317-373.  [None] stands for a loop that does not end. *)
Definition find_volumes (lat_type kpd nb : Z) : option (list Z * option Z) :=
  if (lat_type =? 3) || (lat_type =? 5) then
    Some (z_sort (cubic_volumes [1; 2; 4] kpd nb), None)
  else if lat_type =? 1 then
    Some (z_sort (cubic_volumes [1; 4; 16] kpd nb), None)
  else if (lat_type =? 31) || (lat_type =? 44) then
    match tric_loop (tric_fuel kpd) kpd 1 with
    | Some (nl, tmult) => Some (z_sort [nl], Some tmult)
    | None => None
    end
  else
    Some (z_sort (py_range kpd (kpd + 11) 1), None).

(** universal.py 97-116: no limit on the number of volumes. *)
Definition collect_all (enum : Z -> list mat3) (ns : list Z) : list mat3 :=
  py_for ns enum.

(** universal.py 118-294: the loop shared by the other branches.  [count] is the number
    of volumes used so far. *)
Fixpoint collect (enum : Z -> list mat3) (exact : bool) (ns : list Z) (count : Z)
    (sp : list mat3) : list mat3 :=
  match ns with
  | [] => sp
  | n :: rest =>
      let temp := enum n in
      let '(count, sp) :=
        if (1 <? Z.of_nat (length temp)) && negb exact then (count + 1, sp ++ temp)
        else if exact then (count, sp ++ temp)
        else (count, sp) in
      if count =? 5 then sp else collect enum exact rest count sp
  end.

(** universal.py 296-308: all HNFs, times [mult]. *)
Definition triclinic_hnfs (mult n : Z) : list mat3 :=
  py_for (get_HNF_diagonals n) (fun '(a, c, f) =>
    py_for (py_range 0 c 1) (fun b =>
    py_for (py_range 0 f 1) (fun d =>
    py_for (py_range 0 f 1) (fun e =>
      [mscale mult (HNF a b c d e f)])))).

(** universal.py 95-311: the HNFs used for a lattice of number [nig_n].  [None] is the
    [ValueError] of line 311.  [mult] is [mult] of line 91/93 ([1.0] is the integer 1). *)
Definition select_hnfs (nig_n : Z) (exact : bool) (ns : list Z) (mult : option Z)
  : option (list mat3) :=
  if nig_n =? 3 then Some (collect_all sc_3 ns)
  else if nig_n =? 5 then Some (collect_all bcc_5 ns)
  else if nig_n =? 1 then Some (collect_all fcc_1 ns)
  else if z_in nig_n [12; 22] then
    Some (collect (fun n => if nig_n =? 12 then hex_12 n else hex_22 n) exact ns 0 [])
  else if z_in nig_n [9; 4; 2; 24] then
    Some (collect (fun n => if (nig_n =? 9) || (nig_n =? 24) then rhom_9_24 n else rhom_4_2 n)
            exact ns 0 [])
  else if z_in nig_n [11; 21] then
    Some (collect (fun n => if nig_n =? 11 then stet_11 n else stet_21 n) exact ns 0 [])
  else if z_in nig_n [15; 7; 6; 18] then
    Some (collect body_tet_6_7_15_18 exact ns 0 [])
  else if nig_n =? 32 then Some (collect so_32 exact ns 0 [])
  else if z_in nig_n [38; 13; 23; 40; 36] then
    Some (collect (fun n =>
      if nig_n =? 23 then base_ortho_23 n
      else if nig_n =? 36 then base_ortho_36 n
      else if nig_n =? 40 then base_ortho_40 n
      else base_ortho_38_13 n) exact ns 0 [])
  else if z_in nig_n [19; 8; 42] then
    Some (collect (fun n =>
      if nig_n =? 19 then body_ortho_19 n
      else if nig_n =? 8 then body_ortho_8 n
      else body_ortho_42 n) exact ns 0 [])
  else if z_in nig_n [26; 16] then
    Some (collect (fun n => if nig_n =? 26 then face_ortho_26 n else face_ortho_16 n)
            exact ns 0 [])
  else if z_in nig_n [33; 34; 35] then
    Some (collect (fun n =>
      if nig_n =? 33 then sm_33 n
      else if nig_n =? 34 then sm_34 n
      else sm_35 n) exact ns 0 [])
  else if z_in nig_n [14; 10; 17; 20; 25; 27; 28; 29; 30; 41; 37; 39; 43] then
    Some (collect (fun n =>
      if nig_n =? 28 then base_mono_28 n
      else if nig_n =? 43 then base_mono_43 n
      else if z_in nig_n [20; 25] then base_mono_20_25 n
      else if z_in nig_n [29; 30] then base_mono_29_30 n
      else base_mono_10_14_17_27_37_39_41 n) exact ns 0 [])
  else if z_in nig_n [31; 44] then
    match mult with
    | Some m => Some (py_for ns (triclinic_hnfs m))
    | None => None
    end
  else None.

(** universal.py 90-311: the HNFs of a call [find_supercells(U,kpt,exact)] whose lattice
    was identified as number [nig_n].  [nb] as in [find_volumes]. *)
Definition find_hnfs (nig_n kpt : Z) (exact : bool) (nb : Z) : option (list mat3) :=
  if negb exact then
    match find_volumes nig_n kpt nb with
    | Some (ns, mult) => select_hnfs nig_n exact ns mult
    | None => None
    end
  else select_hnfs nig_n exact [kpt] (Some 1).
