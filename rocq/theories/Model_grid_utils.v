(** Model of src/grid_utils.f90: transformation of an HNF to the user's basis, the running
    list of candidate grids, and the selection among them.  Reals are exact rationals. *)
From Coq Require Import ZArith QArith Qcanon Qround List Bool.
From Verif Require Import Mat3 QMat Model_transform Model_find_kgrids.
Import ListNotations.
Open Scope Qc_scope.

(** ** transform_supercell, lines 27-43 *)

(** [nint]: nearest integer, halves away from zero. *)
Definition nint (x : Qc) : Z :=
  if Qle_bool 0 (this x) then Qfloor (this x + (1 # 2))%Q
  else (- Qfloor (- this x + (1 # 2))%Q)%Z.
Definition nint_mat (A : qmat) : mat3 :=
  Mat3 (nint (q11 A)) (nint (q12 A)) (nint (q13 A))
       (nint (q21 A)) (nint (q22 A)) (nint (q23 A))
       (nint (q31 A)) (nint (q32 A)) (nint (q33 A)).

(** [matrix_inverse] (library) is modelled by the algebraic inverse; [None]: singular. *)
Definition f_transform_supercell (spHNF : mat3) (No Nu : qmat) (Co Cu : mat3) (O : qmat)
  : option qmat :=
  match np_inv O, np_inv No, np_inv (qof Cu) with
  | Some Oinv, Some Noinv, Some Cuinv =>
      let L := qmul (qmul O (qof spHNF)) Oinv in
      let F := nint_mat (qmul Noinv (qmul (qmul L O) (qof Co))) in
      Some (qmul (qmul Nu (qof F)) Cuinv)
  | _, _, _ => None
  end.

(** ** compare_grids, lines 139-250

    One call handles one HNF.  [g_rmin] is [temp_rmin] (line 185), [g_packed] the test
    [pac_frac >= pac_limit] (line 188); both come from the reduced grid, which involves square
    roots and the Minkowski reduction of the library, and are inputs here.  [g_item] stands
    for what is stored (reduced grid and HNF). *)
Section compare.
  Context {A : Type}.
  Record grid : Type := Grid { g_rmin : Qc; g_packed : bool; g_item : A }.

  (** [rmin(1:2)], the stored items of each tier ([ngrids] is their number) and the size of
      the arrays.  [grids(:,:,i,1)] for [i] above [ngrids(1)] is zero and never read. *)
  Record tiers : Type := Tiers {
    rmin1 : Qc; rmin2 : Qc; tier1 : list grid; tier2 : list grid; room : nat }.
  (** Lines 167-174, and [rmin = 0] in the callers. *)
  Definition tiers0 : tiers := Tiers 0 0 [] [] 10.

  (** [equal] is the library's comparison with tolerance [eps]. *)
  Context (equal : Qc -> Qc -> bool) (eps : Qc).
  Definition gt (x y : Qc) : bool := match x ?= y with Gt => true | _ => false end.

  (** [None]: an element outside the arrays is written. *)
  Definition compare_grids (st : tiers) (g : grid) : option tiers :=
    let t := g_rmin g in
    if negb (g_packed g) then Some st
    else if gt t (rmin1 st + t * eps) && negb (equal t (rmin1 st)) then
      (* lines 189-204 *)
      if Nat.leb 1 (room st)
      then Some (Tiers t (rmin1 st) [g] (tier1 st) (room st)) else None
    else if gt t (rmin2 st + t * eps) && negb (equal t (rmin1 st)) && negb (equal t (rmin2 st))
    then
      (* lines 205-213 *)
      if Nat.leb 1 (room st)
      then Some (Tiers (rmin1 st) t (tier1 st) [g] (room st)) else None
    else if equal t (rmin1 st) then
      (* lines 214-230: the arrays are doubled when they are full *)
      let n := length (tier1 st) in
      let room' := if Nat.eqb (room st) n then (2 * n)%nat else room st in
      if Nat.leb (S n) room' && Nat.leb (length (tier2 st)) room'
      then Some (Tiers (rmin1 st) (rmin2 st) (tier1 st ++ [g]) (tier2 st) room') else None
    else if equal t (rmin2 st) then
      (* lines 231-246 *)
      let n := length (tier2 st) in
      let room' := if Nat.eqb (room st) n then (2 * n)%nat else room st in
      if Nat.leb (S n) room' && Nat.leb (length (tier1 st)) room'
      then Some (Tiers (rmin1 st) (rmin2 st) (tier1 st) (tier2 st ++ [g]) room') else None
    else Some st.

  (** The calls made by an enumerator, one per HNF. *)
  Fixpoint compare_all (st : tiers) (gs : list grid) : option tiers :=
    match gs with
    | [] => Some st
    | g :: r => match compare_grids st g with Some st' => compare_all st' r | None => None end
    end.
End compare.
Arguments grid : clear implicits.
Arguments tiers : clear implicits.

(** ** grid_selection, lines 276-362

    [irr1 g o] and [irr2 g o] are the results of [generateIrredKpointList] for the grid [g]
    and the offset [o] in the two loops: the number of irreducible k-points, or [None] when
    [err /= 0].  They are two parameters because the second call (line 331) does not pass the
    symmetry flag. *)
Section selection.
  Context {A O : Type} (irr1 irr2 : A -> O -> option Z).
  Open Scope Z_scope.

  (** [n_irreducible] and [grid_offsets] ([None]: not written). *)
  Definition sel_state : Type := (list Z * list (option O))%type.

  (** Lines 314-322 and 333-341: read [n_irreducible] at [cmp], write at [tgt] (counted
      from 0). *)
  Definition sel_step (cmp tgt : nat) (st : sel_state) (o : O) (res : option Z) : sel_state :=
    match res with
    | None => st
    | Some k =>
        let n := nth cmp (fst st) 0 in
        if n =? 0 then (set_at tgt k (fst st), set_at tgt (Some o) (snd st))
        else if k <? n then (set_at tgt k (fst st), set_at tgt (Some o) (snd st))
        else st
    end.

  (** Lines 308-325. *)
  Fixpoint sel_loop1 (i : nat) (grids1 : list A) (offsets : list O) (st : sel_state) : sel_state :=
    match grids1 with
    | [] => st
    | g :: r =>
        sel_loop1 (S i) r offsets
          (fold_left (fun s o => sel_step i i s o (irr1 g o)) offsets st)
    end.
  (** Lines 327-343: reads [n_irreducible(i)], writes [n_irreducible(count+i)]. *)
  Fixpoint sel_loop2 (count i : nat) (grids2 : list A) (offsets : list O) (st : sel_state)
    : sel_state :=
    match grids2 with
    | [] => st
    | g :: r =>
        sel_loop2 count (S i) r offsets
          (fold_left (fun s o => sel_step i (count + i) s o (irr2 g o)) offsets st)
    end.

  (** Lines 306-360.  [None]: no grid ([best_HNF = 0], [n_irr = 0]); otherwise grid, offset
      ([None]: not set) and [n_irr]. *)
  Definition grid_selection (grids1 grids2 : list A) (offsets : list O)
    : option (A * option O * Z) :=
    let count := length grids1 in
    let total := (count + length grids2)%nat in
    let st := sel_loop2 count 0 grids2 offsets
                (sel_loop1 0 grids1 offsets (repeat 0 total, repeat None total)) in
    match minloc (fun x => 0 <? x) (fst st) with
    | None => None
    | Some (i, n) =>
        match nth_error (grids1 ++ grids2) i with
        | Some g => Some (g, nth i (snd st) None, n)
        | None => None
        end
    end.
End selection.
