(** Model of find_grid (src/find_kgrids.f90 280-535) with the enumerators of
    src/sp_hnfs.f90 and the selection of src/grid_utils.f90 put in.

    The identification of the cell ([id_cell], lines 318, and [check_sym]) comes before; its
    results [lat_id] and [s_range] are arguments.  Library results are parameters. *)
From Coq Require Import ZArith QArith Qcanon List Bool.
From Verif Require Import Mat3 PyNum QMat Model_universal Model_transform Model_find_kgrids
  Model_grid_utils Model_sp_hnfs.
Import ListNotations.
Open Scope Z_scope.

(** Lines 404-500: the enumerator called for lattices neither cubic nor triclinic.  [None]:
    no branch of the chain applies and nothing is called. *)
Definition f_enumerator (lat_id : Z) : option (Z -> list mat3) :=
  if z_in lat_id [2; 4] then Some f_rhom_4_2
  else if z_in lat_id [6; 7; 15; 18] then Some f_bct_6_7_15_18
  else if z_in lat_id [8] then Some f_bco_8
  else if z_in lat_id [9; 24] then Some f_rhom_9_24
  else if z_in lat_id [10; 14; 17; 27; 37; 39; 41] then Some f_basecm_10_14_17_27_37_39_41
  else if z_in lat_id [11] then Some f_st_11
  else if z_in lat_id [12] then Some f_hex_12
  else if z_in lat_id [13; 38] then Some f_baseco_38_13
  else if z_in lat_id [16] then Some f_fco_16
  else if z_in lat_id [19] then Some f_bco_19
  else if z_in lat_id [20; 25] then Some f_basecm_20_25
  else if z_in lat_id [21] then Some f_st_21
  else if z_in lat_id [22] then Some f_hex_22
  else if z_in lat_id [23] then Some f_baseco_23
  else if z_in lat_id [26] then Some f_fco_26
  else if z_in lat_id [28] then Some f_basecm_28
  else if z_in lat_id [29; 30] then Some f_basecm_29_30
  else if z_in lat_id [32] then Some f_so_32
  else if z_in lat_id [33] then Some f_sm_33
  else if z_in lat_id [34; 35] then Some f_sm_34_35
  else if z_in lat_id [36] then Some f_baseco_36
  else if z_in lat_id [40] then Some f_baseco_40
  else if z_in lat_id [42] then Some f_bco_42
  else if z_in lat_id [43] then Some f_basecm_43
  else None.
(** Lines 349-361: cubic lattices; the loop over the diagonals of each enumerator. *)
Definition f_cubic_loop (lat_id : Z) : list (Z * Z * Z) -> option mat3 :=
  if lat_id =? 3 then f_sc_3_loop else if lat_id =? 5 then f_bcc_5_loop else f_fcc_1_loop.

(** [any(H > 0)] *)
Definition any_pos (H : mat3) : bool :=
  existsb (fun x => 0 <? x)
    [m11 H; m12 H; m13 H; m21 H; m22 H; m23 H; m31 H; m32 H; m33 H].

Section find_grid.
  Context {Off : Type}.
  (** [grid_of H]: the inverse of the transposed supercell (grid_utils.f90 176-179,
      sp_hnfs.f90 136-137); [mink]: Minkowski reduction; [rmin], [packed], [equal], [eps]:
      see [compare_grids]; [irr1], [irr2]: see [grid_selection]. *)
  Context (grid_of : mat3 -> qmat) (mink : qmat -> qmat) (rmin : qmat -> Qc)
          (packed : qmat -> bool) (equal : Qc -> Qc -> bool) (eps : Qc)
          (irr1 irr2 : qmat -> Off -> option Z) (offsets : list Off).

  Definition item : Type := (qmat * mat3)%type.
  Definition cand_grid (H : mat3) : grid item :=
    let R := mink (grid_of H) in Grid (rmin R) (packed R) (R, H).
  Definition f_select (g1 g2 : list item) : option (item * option Off * Z) :=
    grid_selection (fun it o => irr1 (fst it) o) (fun it o => irr2 (fst it) o) g1 g2 offsets.

  (** The end of every enumerator but the cubic ones, for example sp_hnfs.f90 1754-1772.
      [ngrids] has no value when [compare_grids] was never called; the model says 0. *)
  Definition f_best (hnfs : list mat3) : option (item * option Off * Z) :=
    match compare_all equal eps tiers0 (map cand_grid hnfs) with
    | None => None
    | Some st =>
        match tier1 st, tier2 st with
        | [], [] => None
        | _, _ => f_select (map g_item (tier1 st)) (map g_item (tier2 st))
        end
    end.

  (** The tests of lines 386 and 501: at least [least] HNFs and a chosen one.  [tot] is
      [nt_kpts]. *)
  Definition f_cand (least tot : Z) (hnfs : list mat3) : option (cand (qmat * option Off)) :=
    match f_best hnfs with
    | Some ((R, H), o, n) =>
        if (least <=? Z.of_nat (length hnfs)) && any_pos H then Some (Cand (R, o) n tot)
        else None
    | None => None
    end.
  Definition general_try (enum : Z -> list mat3) (a_kpd : Z) := f_cand 2 a_kpd (enum a_kpd).
  (** Line 394: [nt_kpts(1) = a_kpd*mult]. *)
  Definition tric_try (mult a_kpd : Z) : option (cand (qmat * option Off)) :=
    match f_tric_31_44 mult a_kpd with
    | Some hnfs => f_cand 1 (a_kpd * mult) hnfs
    | None => None
    end.
  (** sp_hnfs.f90 135-142 and find_kgrids.f90 362-370; [nhnfs] is 1. *)
  Definition cubic_try (lat_id a_kpd : Z) : option (cand (qmat * option Off)) :=
    let H := cubic_one (f_cubic_loop lat_id (f_diagonals a_kpd)) in
    match f_select [(grid_of H, H)] [] with
    | Some ((R, K), o, n) => if any_pos K then Some (Cand (R, o) n a_kpd) else None
    | None => None
    end.

  (** What [find_grid] can do.  [Garbage]: an array element never written is used;
      [Stopped]: [stop]; [Overrun]: an array is written outside its bounds; [Unfinished]: the
      loop has not ended after [fuel] iterations; [Uncalled]: no enumerator for [lat_id]. *)
  Inductive fg_result : Type :=
  | Found (g : qmat) (o : option Off) | Garbage | Stopped | Overrun | Unfinished | Uncalled.

  Definition fg_finish (min_kpts : bool) (kpd : Z) (s : search (qmat * option Off)) : fg_result :=
    match s with
    | Slots a count =>
        match select min_kpts kpd a count with
        | Use (g, o) => Found g o
        | Unset => Garbage
        | Stop => Stopped
        end
    | Out_of_bounds _ => Overrun
    | Running _ _ => Unfinished
    end.

  (** [root]: the floating point cube root of [kpd], see [kpd_cubic_state]. *)
  Definition find_grid (fuel : nat) (lat_id s_range kpd root : Z) (min_kpts : bool) : fg_result :=
    if z_in lat_id [3; 5; 1] then
      fg_finish min_kpts kpd (cubic (cubic_try lat_id) (get_kpd_cubic lat_id kpd root))
    else if z_in lat_id [44; 31] then
      match get_kpd_tric fuel kpd with
      | None => Unfinished
      | Some (a_kpd, mult) => fg_finish min_kpts kpd (tric_search (tric_try mult) fuel a_kpd)
      end
    else
      match f_enumerator lat_id with
      | None => Uncalled
      | Some enum => fg_finish min_kpts kpd (general (general_try enum) fuel s_range kpd)
      end.
End find_grid.
Arguments fg_result : clear implicits.

(** The candidate grid of an HNF.  [undefined H]: what [matrix_inverse] gives for a singular
    matrix. *)
Definition f_grid (undefined : mat3 -> qmat) (No Nu : qmat) (Co Cu : mat3) (O : qmat) (H : mat3)
  : qmat :=
  match f_transform_supercell H No Nu Co Cu O with
  | Some sc => match np_inv (qtr sc) with Some g => g | None => undefined H end
  | None => undefined H
  end.
