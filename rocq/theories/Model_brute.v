(** Model of the brute-force programs in support/brute_force: srHNF_brute.f90 and the functions
    [forms_group] and [find_gens_of_pg] of general_approach.py.  ([div_HNF] with its helpers
    [cdivs] and [fdivs] uses undefined names and is not modelled.) *)
From Coq Require Import ZArith List Bool Qcanon.
From Verif Require Import Mat3 Spec PyNum QMat Model_grid_utils Model_sp_hnfs.
Import ListNotations.

(** ** get_srHNFs

    [equal A B] is the library's comparison of two matrices with tolerance [eps];
    [matrix_inverse] is the inverse.  Reals are exact rationals. *)
Section srHNFs.
  Context (equal : qmat -> qmat -> bool).
  (** srHNF_brute.f90 120-147 [symm_pres]. *)
  Definition symm_pres (lat : qmat) (pg : list qmat) : bool :=
    forallb (fun R => let RB := qmul R lat in
                      let N := qmul (qinv lat) RB in equal N (qof (nint_mat N))) pg.
  (** srHNF_brute.f90 52-112.  [get_HNF_diagonals] (lines 21-41) has the same text as in
      sp_hnfs.f90.  The array of results is doubled when it is full, so it is just a list. *)
  Definition get_srHNFs (parent : qmat) (gens : list qmat) (volume : Z) : list mat3 :=
    py_for (f_diagonals volume) (fun '(a, c, f) =>
      py_for (do_range 0 (c - 1) 1) (fun j =>
        py_for (do_range 0 (f - 1) 1) (fun k =>
          py_for (do_range 0 (f - 1) 1) (fun l =>
            let H := HNF a j c k l f in
            py_if (symm_pres (qmul parent (qof H)) gens) [H])))).
End srHNFs.

(** ** Generators of the point group *)
Section groups.
  Context {M : Type} (mul : M -> M -> M) (equal : M -> M -> bool).

  (** All sublists of [r] elements, in the order of [itertools.combinations]; also [combinations]
      (srHNF_brute.f90 309-341) for r = 2, 3. *)
  Fixpoint combinations (r : nat) (l : list M) : list (list M) :=
    match r, l with
    | O, _ => [[]]
    | S _, [] => []
    | S r', x :: l => map (cons x) (combinations r' l) ++ combinations r l
    end.

  (** srHNF_brute.f90 207-303 [forms_group].  [test_set] has room for [size(pg,3)] matrices, all
      [zero] at first; the list holds those written.  The searches run to [size(test_set)], nine
      times that number, and compare with what happens to be in memory: [beyond]. *)
  Section fortran.
    Context (zero : M) (beyond : list M) (room : nat).
    Definition in_set (test : M) (set : list M) : bool :=
      existsb (equal test) (set ++ repeat zero (room - length set) ++ beyond).
    (** Lines 233-247 and 256-270; [false]: the array is full and the loops are left. *)
    Definition f_add (st : list M * bool) (test : M) : list M * bool :=
      let '(set, ok) := st in
      if negb ok then st
      else if in_set test set then st
      else if Nat.ltb (length set) room then (set ++ [test], true) else (set, false).
    Definition f_pass (gens : list M) (st : list M * bool) : list M * bool :=
      let '(set, _) := st in
      fold_left (fun st i => fold_left (fun st j => f_add st (mul i j)) set st) gens st.
    (** Lines 230-252: the products of two generators. *)
    Definition f_first (gens : list M) : list M * bool :=
      fold_left (fun st i => fold_left (fun st j => f_add st (mul i j)) gens st) gens (gens, true).
    (** Lines 254-284: [nf] is zero when nothing was added.  Each pass but the last adds one. *)
    Fixpoint f_grow (fuel : nat) (gens : list M) (st : list M * bool) : list M * bool :=
      match fuel with
      | O => st
      | S fuel =>
          let st' := f_pass gens st in
          if Nat.eqb (length (fst st')) (length (fst st)) || negb (snd st') then st'
          else f_grow fuel gens st'
      end.
  End fortran.
  (** Lines 286-302. *)
  Definition forms_group (zero : M) (beyond : list M) (gens pg : list M) : bool :=
    let room := length pg in
    let '(set, _) := f_grow zero beyond room (S room) gens (f_first zero beyond room gens) in
    forallb (fun p => in_set zero beyond room p set) pg.
  (** srHNF_brute.f90 155-196 [find_pg_gens].  [None]: [gens] is not allocated. *)
  Definition find_pg_gens (zero : M) (beyond : list M) (pg : list M) : option (list M) :=
    match find (fun g => forms_group zero beyond g pg) (combinations 2 pg) with
    | Some g => Some g
    | None => find (fun g => forms_group zero beyond g pg) (combinations 3 pg)
    end.

  (** general_approach.py 26-81 [forms_group].  Comparison is [np.allclose]. *)
  Definition py_add (group : list M) (test : M) : list M :=
    if existsb (equal test) group then group else group ++ [test].
  (** Lines 39-47. *)
  Definition py_first (gens : list M) : list M :=
    fold_left (fun group i => fold_left (fun group j => py_add group (mul i j)) gens group) gens [].
  (** Lines 53-61: the list grows while [for j in group] runs through it; [n] is the position.
      [None]: still running after [fuel] steps. *)
  Fixpoint py_inner (fuel : nat) (i : M) (n : nat) (group : list M) : option (list M) :=
    match fuel with
    | O => None
    | S fuel =>
        match nth_error group n with
        | None => Some group
        | Some j => py_inner fuel i (S n) (py_add group (mul i j))
        end
    end.
  Fixpoint py_pass (fuel : nat) (gens group : list M) : option (list M) :=
    match gens with
    | [] => Some group
    | i :: gens =>
        match py_inner fuel i 0 group with
        | None => None
        | Some group => py_pass fuel gens group
        end
    end.
  (** Lines 49-65. *)
  Fixpoint py_grow (inner fuel : nat) (gens group : list M) : option (list M) :=
    match fuel with
    | O => None
    | S fuel =>
        match py_pass inner gens group with
        | None => None
        | Some group' =>
            if Nat.eqb (length group') (length group) then Some group' else py_grow inner fuel gens group'
        end
    end.
  (** Lines 67-81: [correct_gens] is not reset after the first element of [pg]. *)
  Fixpoint py_correct (correct : bool) (pg group : list M) : bool :=
    match pg with
    | [] => correct
    | i :: pg =>
        let correct := correct || existsb (equal i) group in
        if negb correct then false else py_correct correct pg group
    end.
  Definition py_forms_group (fuel : nat) (gens pg : list M) : option bool :=
    match py_grow fuel fuel gens (py_first gens) with
    | None => None
    | Some group =>
        Some (if negb (Nat.eqb (length pg) (length group)) then false else py_correct false pg group)
    end.
  (** The first of [tests] for which forms_group holds; [None]: one of the calls is still
      running. *)
  Fixpoint py_search (fuel : nat) (pg : list M) (tests : list (list M)) : option (option (list M)) :=
    match tests with
    | [] => Some None
    | t :: tests =>
        match py_forms_group fuel t pg with
        | None => None
        | Some true => Some (Some t)
        | Some false => py_search fuel pg tests
        end
    end.
  (** general_approach.py 83-113 [find_gens_of_pg]: [n_gens] goes up without limit. *)
  Fixpoint py_gens_loop (inner fuel n_gens : nat) (pg : list M) : option (list M) :=
    match fuel with
    | O => None
    | S fuel =>
        match py_search inner pg (combinations n_gens pg) with
        | Some (Some g) => Some g
        | Some None => py_gens_loop inner fuel (S n_gens) pg
        | None => None
        end
    end.
  Definition find_gens_of_pg (fuel : nat) (pg : list M) : option (list M) :=
    py_gens_loop fuel fuel 1 pg.
End groups.
