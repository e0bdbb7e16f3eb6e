(** Model of src/find_kgrids.f90: offsets, symmetry check, choice of densities, search loops.

    Fortran integers are modelled as [Z] (no overflow: the numbers stay below 2^31 for
    densities below 2^31).  Integer division truncates ([Z.quot]). *)
From Coq Require Import ZArith List Bool Qcanon.
From Verif Require Import Mat3 PyNum Model_universal.
Import ListNotations.
Open Scope Z_scope.

(** ** Fortran array intrinsics *)

(** [minloc(a, mask)] for a one-dimensional array: the position (counted from 0 here, from 1
    in Fortran) and the value of the first smallest element that satisfies the mask. *)
Fixpoint minloc_from (mask : Z -> bool) (i : nat) (a : list Z) : option (nat * Z) :=
  match a with
  | [] => None
  | x :: r =>
      match minloc_from mask (S i) r with
      | None => if mask x then Some (i, x) else None
      | Some (j, y) => if mask x && (x <=? y) then Some (i, x) else Some (j, y)
      end
  end.
Definition minloc (mask : Z -> bool) (a : list Z) : option (nat * Z) := minloc_from mask 0 a.

(** [a(i) = x], positions counted from 0. *)
Fixpoint set_at {A} (i : nat) (x : A) (a : list A) : list A :=
  match a, i with
  | [], _ => []
  | _ :: r, O => x :: r
  | y :: r, S j => y :: set_at j x r
  end.

(** ** get_offsets, lines 30-167

    Offsets are written in quarters: [Vec3 3 1 0] is (0.75, 0.25, 0).  [n1 n2 n3] are the
    norms of the lattice vectors; [equal] is the library's comparison up to a tolerance. *)
Definition off_all : list vec3 :=
  [Vec3 0 0 0; Vec3 2 0 0; Vec3 0 2 0; Vec3 2 2 0; Vec3 0 0 2; Vec3 0 2 2; Vec3 2 0 2;
   Vec3 2 2 2].
Definition get_offsets (equal : Qc -> Qc -> bool) (lat_id : Z) (n1 n2 n3 : Qc) : list vec3 :=
  let lt x y := match Qccompare x y with Lt => true | _ => false end in
  if z_in lat_id [1; 3; 5; 32; 33; 34; 35] then off_all
  else if z_in lat_id [12; 22; 4; 2; 9; 24; 6; 7; 15; 18] then
    if equal n1 n2 then [Vec3 0 0 0; Vec3 0 0 2]
    else if equal n1 n3 then [Vec3 0 0 0; Vec3 0 2 0]
    else if equal n2 n3 then [Vec3 0 0 0; Vec3 2 0 0]
    else [Vec3 0 0 0; Vec3 0 0 2; Vec3 0 2 0; Vec3 2 0 0]
  else if z_in lat_id [11; 21] then
    if equal n1 n2 then [Vec3 0 0 0; Vec3 0 0 2; Vec3 2 2 0; Vec3 2 2 2]
    else if equal n1 n3 then [Vec3 0 0 0; Vec3 0 2 0; Vec3 2 0 2; Vec3 2 2 2]
    else if equal n2 n3 then [Vec3 0 0 0; Vec3 2 0 0; Vec3 0 2 2; Vec3 2 2 2]
    else off_all
  else if z_in lat_id [16; 26] then [Vec3 0 0 0; Vec3 2 2 2]
  else if z_in lat_id [19; 8; 42] then [Vec3 0 0 0; Vec3 0 0 2; Vec3 0 2 0; Vec3 2 0 0]
  else if z_in lat_id [40; 38; 36; 23; 13; 10; 14; 17; 20; 25; 27; 28; 29; 30; 37; 39; 41; 43]
  then
    if lt n1 n2 && lt n1 n3 then
      [Vec3 0 0 0; Vec3 0 0 2; Vec3 0 2 0; Vec3 0 2 2; Vec3 3 1 0; Vec3 3 1 2; Vec3 1 1 0;
       Vec3 1 1 2]
    else if lt n2 n1 && lt n2 n3 then
      [Vec3 0 0 0; Vec3 0 0 2; Vec3 2 0 0; Vec3 2 0 2; Vec3 1 3 0; Vec3 1 3 2; Vec3 1 1 0;
       Vec3 1 1 2]
    else if lt n3 n1 && lt n3 n2 then
      [Vec3 0 0 0; Vec3 0 2 0; Vec3 2 0 0; Vec3 2 2 0; Vec3 0 1 3; Vec3 2 1 3; Vec3 2 1 1;
       Vec3 2 1 1]
    else
      [Vec3 0 0 0; Vec3 0 2 0; Vec3 2 0 0; Vec3 0 0 2; Vec3 2 2 0; Vec3 2 0 2; Vec3 0 2 2]
  else if z_in lat_id [31; 44] then [Vec3 0 0 0; Vec3 2 2 2]
  else (* "Failed to find offsets for this case. ... Attempting to use defaults." *)
    [Vec3 0 0 0; Vec3 2 2 2].

(** ** check_sym, lines 179-250

    [pg_size] is the number of operations found by the symmetry library; [None] stands for
    [stop]. *)
Definition check_sym (niggli_id pg_size : Z) : option bool :=
  if pg_size =? 48 then Some (z_in niggli_id [1; 3; 5])
  else if pg_size =? 24 then Some (z_in niggli_id [12; 22])
  else if pg_size =? 12 then Some (z_in niggli_id [2; 4; 9; 24])
  else if pg_size =? 16 then Some (z_in niggli_id [6; 7; 11; 15; 18; 21])
  else if pg_size =? 8 then
    Some (z_in niggli_id [8; 13; 16; 19; 23; 26; 32; 40; 36; 38; 42])
  else if pg_size =? 4 then
    Some (z_in niggli_id [10; 14; 17; 20; 25; 27; 28; 29; 30; 35; 33; 34; 41; 43; 37; 39])
  else if pg_size =? 2 then Some (z_in niggli_id [44; 31])
  else None.

(** ** get_kpd_cubic, lines 545-586 *)

(** Lines 572-576: [do i = next_smallest, n_found], [k] iterations from position [i]. *)
Fixpoint bump (k i : nat) (densities : list Z) (temp : Z) : list Z * Z :=
  match k with
  | O => (densities, temp)
  | S k' => bump k' (S i) (set_at i temp densities) (nth i densities 0)
  end.

(** Lines 567-582: the body of the loop over [j]; the state is [densities] and [n_found]. *)
Definition kpd_step (kpd nc : Z) (st : list Z * nat) (m : Z) : list Z * nat :=
  let '(densities, n_found) := st in
  let temp := m * nc in
  if kpd <=? temp then
    let '(d1, t1) :=
      if existsb (fun x => temp <? x) densities then
        match minloc (fun x => temp <? x) densities with
        | Some (i, _) => bump (n_found - i) i densities temp
        | None => (densities, temp)
        end
      else (densities, temp) in
    if Nat.ltb n_found 10 then (set_at n_found t1 d1, S n_found) else (d1, n_found)
  else st.

(** [root] is [int(real(kpd,dp)**(1.0_dp/3.0_dp))], a floating point cube root. *)
Definition kpd_cubic_state (lat_id kpd root : Z) : list Z * nat :=
  let nb := Z.quot root 16 - 1 in
  let mults := if lat_id =? 1 then [1; 4; 16] else [1; 2; 4] in
  fold_left (fun st b => fold_left (kpd_step kpd (b ^ 3)) mults st)
    (py_range nb (nb + 100) 1) (repeat 0 10, O).
Definition get_kpd_cubic (lat_id kpd root : Z) : list Z := fst (kpd_cubic_state lat_id kpd root).

(** ** get_kpd_tric, lines 594-614

    [None]: the loop has not ended after [fuel] iterations. *)
Fixpoint kpd_tric_loop (fuel : nat) (kpd tmult : Z) : option (Z * Z) :=
  match fuel with
  | O => None
  | S fuel' =>
      let test := Z.quot kpd (tmult ^ 3) in
      if test <=? 100 then Some (test, tmult) else kpd_tric_loop fuel' kpd (tmult + 1)
  end.
Definition get_kpd_tric (fuel : nat) (kpd : Z) : option (Z * Z) := kpd_tric_loop fuel kpd 1.

(** ** The search of find_grid, lines 335-535

    A candidate is what is stored for one density: grid, offset, number of irreducible
    k-points [n_irr] and of k-points [n_tot]; grid and offset are an abstract type here. *)
Section search.
  Context {G : Type}.
  Record cand : Type := Cand { c_grid : G; c_irr : Z; c_tot : Z }.

  (** [Slots a n]: the loop ended with array [a] ([None]: a slot never written) and
      [count = n].  [Out_of_bounds i]: slot [i] is written although the array is shorter.
      [Running]: the loop has not ended after the given number of iterations. *)
  Inductive search : Type :=
  | Slots (a : list (option cand)) (count : nat)
  | Out_of_bounds (i : nat)
  | Running (a : list (option cand)) (count : nat).

  (** What a density gives: [None] when the test of line 369 (501) fails. *)
  Context (try : Z -> option cand).

  (** Lines 347-373 (cubic lattices); slots are counted from 0. *)
  Fixpoint cubic_search (c_kpd : list Z) (i : nat) (a : list (option cand)) (count : nat)
    : search :=
    match c_kpd with
    | [] => Slots a count
    | k :: r =>
        if Nat.ltb count 5 then
          match try k with
          | Some c =>
              if Nat.ltb i (length a) then cubic_search r (S i) (set_at i (Some c) a) (S count)
              else Out_of_bounds i
          | None => cubic_search r (S i) a count
          end
        else Slots a count
    end.

  (** Lines 374-394 (triclinic lattices): the first density that gives a grid. *)
  Fixpoint tric_search (fuel : nat) (a_kpd : Z) : search :=
    match fuel with
    | O => Running [None] 0
    | S f =>
        match try a_kpd with
        | Some c => Slots [Some c] 1
        | None => tric_search f (a_kpd + 1)
        end
    end.

  (** Lines 403-513 (all other lattices). *)
  Fixpoint general_search (fuel : nat) (s_range kpd a_kpd : Z) (a : list (option cand))
      (count : nat) : search :=
    match fuel with
    | O => Running a count
    | S f =>
        if Nat.ltb count 5 || (Nat.leb 5 count && (a_kpd - kpd <? s_range)) then
          match try a_kpd with
          | Some c =>
              if Nat.ltb count (length a)
              then general_search f s_range kpd (a_kpd + 1) (set_at count (Some c) a) (S count)
              else Out_of_bounds count
          | None => general_search f s_range kpd (a_kpd + 1) a count
          end
        else Slots a count
    end.
  Definition general (fuel : nat) (s_range kpd : Z) : search :=
    general_search fuel s_range kpd kpd (repeat None (Z.to_nat s_range)) 0.
  Definition cubic (c_kpd : list Z) : search := cubic_search c_kpd 0 (repeat None 5) 0.

  (** Lines 515-531.  [ratio(i) = n_irr(i)/n_tot(i)] is compared exactly (cross
      multiplication, [n_tot > 0]).  [Use g]: [best_grid = g]; [Unset]: an array element that
      was never written is used; [Stop]: "Unable to find a suitable grid". *)
  Inductive choice : Type := Use (g : G) | Unset | Stop.

  (** Position of the first smallest ratio; [None]: a slot that was never written is read. *)
  Fixpoint min_ratio (a : list (option cand)) : option (option cand) :=
    match a with
    | [] => Some None
    | None :: _ => None
    | Some c :: r =>
        match min_ratio r with
        | None => None
        | Some None => Some (Some c)
        | Some (Some d) =>
            if c_irr c * c_tot d <=? c_irr d * c_tot c then Some (Some c) else Some (Some d)
        end
    end.
  (** [MINLOC(n_irr_kp, n_irr_kp > 0)]; [n_irr_kp] is 0 in the slots never written. *)
  Definition irr_of (o : option cand) : Z := match o with Some c => c_irr c | None => 0 end.

  Definition select (min_kpts : bool) (kpd : Z) (a : list (option cand)) (count : nat)
    : choice :=
    if Nat.ltb 0 count then
      if negb min_kpts && (500 <? kpd) then
        match min_ratio (firstn count a) with
        | Some (Some c) => Use (c_grid c)
        | _ => Unset
        end
      else
        match minloc (fun x => 0 <? x) (map irr_of a) with
        | Some (i, _) => match nth i a None with Some c => Use (c_grid c) | None => Unset end
        | None => Unset
        end
    else Stop.
End search.
Arguments cand : clear implicits.
Arguments search : clear implicits.
Arguments choice : clear implicits.
